(** Lemmas about the Material constructor. *)
From Verif Require Import Base BaseProofs MaterialModel.

(** Velocities implied by moduli and density. *)
Definition vp_of (k mu d : R) : R := sqrt ((k + 4 / 3 * mu) / d).
Definition vs_of (mu d : R) : R := sqrt (mu / d).

Lemma vp_guard_of_moduli k mu d :
  0 < d -> 0 <= k -> 0 <= mu -> sqrt (4 / 3) * vs_of mu d <= vp_of k mu d.
Proof.
  intros Hd Hk Hmu. unfold vs_of, vp_of.
  assert (Hi : 0 < / d) by (apply Rinv_0_lt_compat; exact Hd).
  rewrite <- sqrt_mult; [|lra| unfold Rdiv; nra].
  apply sqrt_le_1_alt. unfold Rdiv. nra.
Qed.

Lemma div_nonneg a b : 0 <= a -> 0 < b -> 0 <= a / b.
Proof. intros Ha Hb. unfold Rdiv. assert (0 < / b) by (apply Rinv_0_lt_compat; exact Hb). nra. Qed.

Lemma fill_velocities_none k mu d :
  0 < d -> 0 <= k -> 0 <= mu ->
  fill_velocities k mu d None None = Ok (vp_of k mu d, vs_of mu d).
Proof.
  intros Hd Hk Hmu. unfold fill_velocities, calculate_primary_velocity, calculate_secondary_velocity.
  rewrite np_div_ok by lra. cbn [bind]. rewrite np_sqrt_ok by (apply div_nonneg; lra).
  cbn [bind]. rewrite np_div_ok by lra. cbn [bind].
  rewrite np_sqrt_ok by (apply div_nonneg; lra). reflexivity.
Qed.

Lemma mat_of_moduli_ok k mu d :
  0 < d -> 0 <= k -> 0 <= mu ->
  mat_of_moduli k mu d = Ok (mkMat k mu d (vp_of k mu d) (vs_of mu d)).
Proof.
  intros Hd Hk Hmu. unfold mat_of_moduli, mk_material.
  cbn [fill_moduli bind]. destruct (Req_EM_T d 0); [lra|].
  destruct (Rlt_dec d 0); [lra|]. destruct (Rlt_dec k 0); [lra|].
  destruct (Rlt_dec mu 0); [lra|]. rewrite fill_velocities_none by lra. cbn [bind].
  destruct (Rlt_dec (vp_of k mu d) 0) as [H|_].
  { unfold vp_of in H. pose proof (sqrt_pos ((k + 4 / 3 * mu) / d)). lra. }
  destruct (Rlt_dec (vs_of mu d) 0) as [H|_].
  { unfold vs_of in H. pose proof (sqrt_pos (mu / d)). lra. }
  destruct (Rlt_dec (vp_of k mu d) (sqrt (4 / 3) * vs_of mu d)) as [H|_].
  { pose proof (vp_guard_of_moduli k mu d Hd Hk Hmu). lra. }
  reflexivity.
Qed.

(** All outcomes of building from moduli. *)
Lemma mat_of_moduli_cases k mu d :
  (d = 0 /\ mat_of_moduli k mu d = Err NonFinite) \/
  ((d < 0 \/ (d <> 0 /\ (k < 0 \/ mu < 0))) /\ mat_of_moduli k mu d = Err ValueError) \/
  (0 < d /\ 0 <= k /\ 0 <= mu /\
   mat_of_moduli k mu d = Ok (mkMat k mu d (vp_of k mu d) (vs_of mu d))).
Proof.
  destruct (Req_EM_T d 0) as [Hd0|Hd0].
  { left. split; [exact Hd0|]. unfold mat_of_moduli, mk_material. cbn [fill_moduli bind].
    destruct (Req_EM_T d 0); [reflexivity|contradiction]. }
  right. destruct (Rlt_dec d 0) as [Hd|Hd].
  { left. split; [left; exact Hd|]. unfold mat_of_moduli, mk_material. cbn [fill_moduli bind].
    destruct (Req_EM_T d 0); [contradiction|]. destruct (Rlt_dec d 0); [reflexivity|contradiction]. }
  destruct (Rlt_dec k 0) as [Hk|Hk].
  { left. split; [right; split; [exact Hd0|left; exact Hk]|].
    unfold mat_of_moduli, mk_material. cbn [fill_moduli bind].
    destruct (Req_EM_T d 0); [contradiction|]. destruct (Rlt_dec d 0); [contradiction|].
    destruct (Rlt_dec k 0); [reflexivity|contradiction]. }
  destruct (Rlt_dec mu 0) as [Hm|Hm].
  { left. split; [right; split; [exact Hd0|right; exact Hm]|].
    unfold mat_of_moduli, mk_material. cbn [fill_moduli bind].
    destruct (Req_EM_T d 0); [contradiction|]. destruct (Rlt_dec d 0); [contradiction|].
    destruct (Rlt_dec k 0); [contradiction|].
    destruct (Rlt_dec mu 0); [reflexivity|contradiction]. }
  right. repeat split; try lra. apply mat_of_moduli_ok; lra.
Qed.

Lemma mat_of_moduli_inv k mu d m :
  mat_of_moduli k mu d = Ok m ->
  0 < d /\ 0 <= k /\ 0 <= mu /\ m = mkMat k mu d (vp_of k mu d) (vs_of mu d).
Proof.
  intros H. destruct (mat_of_moduli_cases k mu d) as [[_ E]|[[_ E]|[Hd [Hk [Hm E]]]]];
    rewrite E in H; try discriminate. injection H as <-. auto.
Qed.

(** A material whose velocities are those implied by its moduli: everything
    the library builds from moduli. *)
Definition consistent (m : material) : Prop :=
  0 < dens m /\ 0 <= bulk m /\ 0 <= shear m /\
  vp m = vp_of (bulk m) (shear m) (dens m) /\ vs m = vs_of (shear m) (dens m).

Lemma mat_of_moduli_consistent k mu d m :
  mat_of_moduli k mu d = Ok m -> consistent m /\ bulk m = k /\ shear m = mu /\ dens m = d.
Proof.
  intros H. apply mat_of_moduli_inv in H. destruct H as [Hd [Hk [Hm ->]]].
  unfold consistent. simpl. auto 10.
Qed.

Lemma consistent_eta m :
  consistent m -> mat_of_moduli (bulk m) (shear m) (dens m) = Ok m.
Proof.
  intros [Hd [Hk [Hm [Hp Hs]]]]. rewrite mat_of_moduli_ok by assumption.
  destruct m; simpl in *. subst. reflexivity.
Qed.

Lemma consistent_ext m1 m2 :
  consistent m1 -> consistent m2 ->
  bulk m1 = bulk m2 -> shear m1 = shear m2 -> dens m1 = dens m2 -> m1 = m2.
Proof.
  intros [_ [_ [_ [Hp1 Hs1]]]] [_ [_ [_ [Hp2 Hs2]]]] Hk Hm Hd.
  destruct m1, m2; simpl in *. subst. reflexivity.
Qed.

(** Velocities. *)
Lemma mat_of_velocities_cases d p s :
  0 <= d ->
  (mat_of_velocities d p s = Err ValueError /\ (p < 0 \/ s < 0 \/ p < sqrt (4 / 3) * s)) \/
  (0 <= p /\ 0 <= s /\ sqrt (4 / 3) * s <= p /\
   mat_of_velocities d p s =
     Ok (mkMat (calculate_bulk_modulus p (calculate_shear_modulus s d) d)
               (calculate_shear_modulus s d) d p s)).
Proof.
  intros Hd. unfold mat_of_velocities, mk_material. cbn [fill_moduli bind fill_velocities].
  destruct (Rlt_dec d 0) as [H|_]; [lra|].
  destruct (Rlt_dec p (sqrt (4 / 3) * s)) as [Hg|Hg].
  { left. split; [|auto].
    destruct (Rlt_dec _ 0); [reflexivity|]. destruct (Rlt_dec _ 0); [reflexivity|].
    destruct (Rlt_dec _ 0); [reflexivity|]. destruct (Rlt_dec _ 0); reflexivity. }
  destruct (Rlt_dec s 0) as [Hs|Hs].
  { left. split; [|auto].
    destruct (Rlt_dec _ 0); [reflexivity|]. destruct (Rlt_dec _ 0); [reflexivity|].
    destruct (Rlt_dec _ 0); reflexivity. }
  destruct (Rlt_dec p 0) as [Hp|Hp].
  { left. split; [|auto].
    destruct (Rlt_dec _ 0); [reflexivity|]. destruct (Rlt_dec _ 0); reflexivity. }
  right.
  assert (Hq : 4 / 3 * s ^ 2 <= p ^ 2).
  { assert (E : 4 / 3 * s ^ 2 = (sqrt (4 / 3) * s) ^ 2).
    { replace ((sqrt (4 / 3) * s) ^ 2) with (sqrt (4 / 3) * sqrt (4 / 3) * s ^ 2) by ring.
      rewrite sqrt_sqrt by lra. reflexivity. }
    rewrite E. apply pow_incr. split; [|lra].
    apply Rmult_le_pos; [apply sqrt_pos|lra]. }
  unfold calculate_bulk_modulus, calculate_shear_modulus.
  destruct (Rlt_dec _ 0) as [H|_]; [exfalso; nra|].
  destruct (Rlt_dec _ 0) as [H|_]; [exfalso; nra|].
  repeat split; lra.
Qed.

Lemma sq_sqrt_div a d : 0 < d -> 0 <= a -> sqrt (a / d) ^ 2 * d = a.
Proof.
  intros Hd Ha. replace (sqrt (a / d) ^ 2) with (sqrt (a / d) * sqrt (a / d)) by ring.
  rewrite sqrt_sqrt by (apply div_nonneg; lra). field. lra.
Qed.

Lemma moduli_to_velocities_back k mu d m :
  mat_of_moduli k mu d = Ok m -> mat_of_velocities (dens m) (vp m) (vs m) = Ok m.
Proof.
  intros H. apply mat_of_moduli_inv in H. destruct H as [Hd [Hk [Hm ->]]]. simpl.
  destruct (mat_of_velocities_cases d (vp_of k mu d) (vs_of mu d)) as [[_ H]|[_ [_ [_ H]]]].
  - lra.
  - exfalso. pose proof (vp_guard_of_moduli k mu d Hd Hk Hm).
    pose proof (sqrt_pos ((k + 4 / 3 * mu) / d)). pose proof (sqrt_pos (mu / d)).
    unfold vp_of, vs_of in *. lra.
  - rewrite H. unfold calculate_bulk_modulus, calculate_shear_modulus, vp_of, vs_of.
    rewrite !sq_sqrt_div by lra. f_equal. f_equal. lra.
Qed.

Lemma velocities_to_moduli_back d p s m :
  0 < d -> mat_of_velocities d p s = Ok m -> mat_of_moduli (bulk m) (shear m) (dens m) = Ok m.
Proof.
  intros Hd H.
  destruct (mat_of_velocities_cases d p s) as [[E _]|[Hp [Hs [Hg E]]]]; [lra| |];
    rewrite E in H; [discriminate|]. injection H as <-. simpl.
  unfold calculate_bulk_modulus, calculate_shear_modulus.
  assert (Hq : 4 / 3 * s ^ 2 <= p ^ 2).
  { assert (E' : 4 / 3 * s ^ 2 = (sqrt (4 / 3) * s) ^ 2).
    { replace ((sqrt (4 / 3) * s) ^ 2) with (sqrt (4 / 3) * sqrt (4 / 3) * s ^ 2) by ring.
      rewrite sqrt_sqrt by lra. reflexivity. }
    rewrite E'. apply pow_incr. split; [|lra].
    apply Rmult_le_pos; [apply sqrt_pos|lra]. }
  rewrite mat_of_moduli_ok; [|assumption|nra|nra].
  f_equal. unfold vp_of, vs_of. f_equal.
  - replace ((p ^ 2 * d - 4 / 3 * (s ^ 2 * d) + 4 / 3 * (s ^ 2 * d)) / d) with (p * p)
      by (field; lra). apply sqrt_square; assumption.
  - replace (s ^ 2 * d / d) with (s * s) by (field; lra). apply sqrt_square; assumption.
Qed.

(** Everything the constructor returns passed the six guards. *)
Lemma mk_material_inv ok om od os op m :
  mk_material ok om od os op = Ok m ->
  0 <= dens m /\ 0 <= bulk m /\ 0 <= shear m /\ 0 <= vp m /\ 0 <= vs m /\
  sqrt (4 / 3) * vs m <= vp m.
Proof.
  unfold mk_material. intros H.
  destruct (fill_moduli ok om od os op) as [[k mu]|e] eqn:Ef; [cbn [bind] in H|discriminate].
  destruct od as [d|]; [|destruct op, os; discriminate].
  match type of H with (if ?b then _ else _) = _ => destruct b end; [discriminate|].
  destruct (Rlt_dec d 0); [discriminate|]. destruct (Rlt_dec k 0); [discriminate|].
  destruct (Rlt_dec mu 0); [discriminate|].
  destruct (fill_velocities k mu d os op) as [[p s]|e] eqn:Ev; [cbn [bind] in H|discriminate].
  destruct (Rlt_dec p 0); [discriminate|]. destruct (Rlt_dec s 0); [discriminate|].
  destruct (Rlt_dec p (sqrt (4 / 3) * s)); [discriminate|]. injection H as <-. simpl. lra.
Qed.

(** The constructor keeps every property it is given. *)
Lemma mk_material_keeps ok om od os op m :
  mk_material ok om od os op = Ok m ->
  (forall x, ok = Some x -> bulk m = x) /\ (forall x, om = Some x -> shear m = x) /\
  (forall x, od = Some x -> dens m = x) /\ (forall x, os = Some x -> vs m = x) /\
  (forall x, op = Some x -> vp m = x).
Proof.
  unfold mk_material. intros H.
  destruct (fill_moduli ok om od os op) as [[k mu]|e] eqn:Ef; [cbn [bind] in H|discriminate].
  destruct od as [d|]; [|destruct op, os; discriminate].
  match type of H with (if ?b then _ else _) = _ => destruct b end; [discriminate|].
  destruct (Rlt_dec d 0); [discriminate|]. destruct (Rlt_dec k 0); [discriminate|].
  destruct (Rlt_dec mu 0); [discriminate|].
  destruct (fill_velocities k mu d os op) as [[p s]|e] eqn:Ev; [cbn [bind] in H|discriminate].
  destruct (Rlt_dec p 0); [discriminate|]. destruct (Rlt_dec s 0); [discriminate|].
  destruct (Rlt_dec p (sqrt (4 / 3) * s)); [discriminate|]. injection H as <-. simpl.
  unfold fill_moduli in Ef. ok_inv Ef. inversion Ef; subst; clear Ef.
  unfold fill_velocities in Ev. ok_inv Ev. inversion Ev; subst; clear Ev.
  repeat split; intros x Hx; subst; congruence.
Qed.

Lemma mk_material_negative_density ok om d os op m :
  d < 0 -> mk_material ok om (Some d) os op <> Ok m.
Proof.
  intros Hd H. pose proof (mk_material_inv _ _ _ _ _ _ H) as [Hn _].
  destruct (mk_material_keeps _ _ _ _ _ _ H) as [_ [_ [E _]]]. rewrite (E d eq_refl) in Hn. lra.
Qed.

(** With negative density the outcome is precisely ValueError (given that the
    moduli can be derived or not). *)
Lemma mk_material_negative_density_ve ok om d os op :
  d < 0 -> mk_material ok om (Some d) os op = Err ValueError.
Proof.
  intros Hd. unfold mk_material.
  destruct (fill_moduli ok om (Some d) os op) as [[k mu]|e] eqn:Ef.
  - cbn [bind]. destruct op, os; cbv zeta beta iota; try (destruct (Req_EM_T d 0); [lra|]);
      destruct (Rlt_dec d 0); try reflexivity; lra.
  - cbn [bind]. f_equal. unfold fill_moduli in Ef.
    destruct om; cbn [bind] in Ef.
    + destruct ok; cbn [bind] in Ef; [discriminate|]. destruct op; cbn [bind] in Ef; congruence.
    + destruct os; cbn [bind] in Ef; [|congruence].
      destruct ok; cbn [bind] in Ef; [discriminate|]. destruct op; cbn [bind] in Ef; congruence.
Qed.

Lemma poisson_range k mu d m nu :
  mat_of_moduli k mu d = Ok m -> poisson_ratio m = Ok nu -> -1 <= nu <= 1 / 2.
Proof.
  intros H Hn. apply mat_of_moduli_inv in H. destruct H as [Hd [Hk [Hm ->]]].
  unfold poisson_ratio in Hn. simpl in Hn. apply np_div_inv in Hn. destruct Hn as [Hne ->].
  assert (Hp : 0 < 2 * (3 * k + mu)) by lra.
  split; apply Rmult_le_reg_r with (2 * (3 * k + mu)); try assumption; unfold Rdiv;
    rewrite Rmult_assoc, Rinv_l, Rmult_1_r by lra; lra.
Qed.

Lemma impedance_sq k mu d m :
  mat_of_moduli k mu d = Ok m ->
  acoustic_impedance m ^ 2 = dens m * primary_wave_modulus m /\
  shear_impedance m ^ 2 = dens m * shear m.
Proof.
  intros H. apply mat_of_moduli_inv in H. destruct H as [Hd [Hk [Hm ->]]].
  unfold acoustic_impedance, shear_impedance, primary_wave_modulus. simpl bulk; simpl shear; simpl dens; simpl vp; simpl vs.
  split.
  - replace ((vp_of k mu d * d) ^ 2) with (vp_of k mu d ^ 2 * d * d) by ring.
    unfold vp_of. rewrite sq_sqrt_div by lra. ring.
  - replace ((vs_of mu d * d) ^ 2) with (vs_of mu d ^ 2 * d * d) by ring.
    unfold vs_of. rewrite sq_sqrt_div by lra. ring.
Qed.

(** Configured materials. *)
Lemma arbitrary_moduli_ok k mu d :
  0 < d -> 0 <= k -> 0 <= mu ->
  arbitrary_material (Some k) (Some mu) d None None = mat_of_moduli k mu d.
Proof.
  intros Hd Hk Hm. rewrite mat_of_moduli_ok by assumption. unfold arbitrary_material.
  cbn [fill_moduli bind]. rewrite fill_velocities_none by assumption. reflexivity.
Qed.

(* ---- link to the specification vocabulary ---- *)
From Verif Require Import Spec.

Lemma consistent_is_material m :
  consistent m -> is_material m (bulk m) (shear m) (dens m).
Proof.
  intros [Hd [Hk [Hm [Hp Hs]]]]. unfold is_material.
  rewrite Hp, Hs. unfold vp_of, vs_of.
  repeat split; try apply sqrt_pos.
  - rewrite sqrt_sqrt by (apply div_nonneg; lra). field. lra.
  - rewrite sqrt_sqrt by (apply div_nonneg; lra). field. lra.
Qed.

Lemma sqrt_unique_sq x a d : 0 < d -> 0 <= x -> x * x * d = a -> x = sqrt (a / d).
Proof.
  intros Hd Hx E. replace (a / d) with (x * x).
  - symmetry. apply sqrt_square. exact Hx.
  - rewrite <- E. field. lra.
Qed.

Lemma wf_consistent m : wf m <-> consistent m.
Proof.
  split.
  - intros [Hd [Hk [Hm [_ [_ [_ [Hp [Ep [Hs Es]]]]]]]]]. unfold consistent.
    repeat split; try assumption.
    + apply sqrt_unique_sq; assumption.
    + apply sqrt_unique_sq; assumption.
  - intros H. pose proof (consistent_is_material m H) as Hi.
    destruct H as [Hd [Hk [Hm _]]]. unfold wf. auto.
Qed.

Lemma is_material_unique m1 m2 k mu d :
  0 < d -> is_material m1 k mu d -> is_material m2 k mu d -> m1 = m2.
Proof.
  intros Hd [A1 [A2 [A3 [A4 [A5 [A6 A7]]]]]] [B1 [B2 [B3 [B4 [B5 [B6 B7]]]]]].
  destruct m1 as [a1 a2 a3 a4 a5], m2 as [b1 b2 b3 b4 b5]; cbn [bulk shear dens vp vs] in *.
  f_equal; try congruence.
  - rewrite (sqrt_unique_sq a4 (k + 4 / 3 * mu) d Hd A4 A5).
    symmetry. apply sqrt_unique_sq; assumption.
  - rewrite (sqrt_unique_sq a5 mu d Hd A6 A7).
    symmetry. apply sqrt_unique_sq; assumption.
Qed.

Lemma mat_of_moduli_spec k mu d :
  0 < d -> 0 <= k -> 0 <= mu ->
  exists m, mat_of_moduli k mu d = Ok m /\ is_material m k mu d /\ wf m.
Proof.
  intros Hd Hk Hm. eexists. split; [apply mat_of_moduli_ok; assumption|].
  assert (Hc : consistent (mkMat k mu d (vp_of k mu d) (vs_of mu d)))
    by (unfold consistent; simpl; auto).
  split; [exact (consistent_is_material _ Hc)|apply wf_consistent; exact Hc].
Qed.

Lemma mat_of_moduli_wf k mu d m :
  mat_of_moduli k mu d = Ok m -> wf m /\ bulk m = k /\ shear m = mu /\ dens m = d.
Proof.
  intros H. apply mat_of_moduli_consistent in H. destruct H as [H ?].
  split; [apply wf_consistent; exact H|assumption].
Qed.

Lemma wf_eta m : wf m -> mat_of_moduli (bulk m) (shear m) (dens m) = Ok m.
Proof. intros H. apply consistent_eta. apply wf_consistent. exact H. Qed.

(** Two successful constructions with equal data are equal. *)
Lemma mat_of_moduli_eq_ok k mu d m :
  wf m -> bulk m = k -> shear m = mu -> dens m = d -> mat_of_moduli k mu d = Ok m.
Proof. intros H <- <- <-. apply wf_eta. exact H. Qed.

(* ---- the property lemmas ---- *)

Lemma roundtrip_moduli k mu d m :
  mat_of_moduli k mu d = Ok m ->
  mat_of_velocities d (vp m) (vs m) = Ok m.
Proof.
  intros H. pose proof (moduli_to_velocities_back k mu d m H) as E.
  apply mat_of_moduli_inv in H. destruct H as [_ [_ [_ ->]]]. exact E.
Qed.

Lemma roundtrip_velocities d p s m :
  0 < d -> mat_of_velocities d p s = Ok m ->
  vp m = p /\ vs m = s /\ mat_of_moduli (bulk m) (shear m) d = Ok m.
Proof.
  intros Hd H. pose proof (velocities_to_moduli_back d p s m Hd H) as E.
  destruct (mk_material_keeps _ _ _ _ _ _ H) as [_ [_ [Kd [Ks Kp]]]].
  rewrite (Kd d eq_refl) in E. auto.
Qed.

Lemma admissible_of_ok ok om od os op m :
  mk_material ok om od os op = Ok m -> admissible m.
Proof. exact (mk_material_inv ok om od os op m). Qed.

Lemma moduli_accept_iff k mu d :
  0 < d -> (is_ok (mat_of_moduli k mu d) <-> 0 <= k /\ 0 <= mu).
Proof.
  intros Hd. split.
  - intros [m H]. apply mat_of_moduli_inv in H. tauto.
  - intros [Hk Hm]. eexists. apply mat_of_moduli_ok; assumption.
Qed.

Lemma moduli_reject_ve k mu d :
  0 < d -> (mat_of_moduli k mu d = Err ValueError <-> k < 0 \/ mu < 0).
Proof.
  intros Hd. destruct (mat_of_moduli_cases k mu d) as [[E _]|[[H E]|[_ [Hk [Hm E]]]]].
  - lra.
  - rewrite E. split; [intros _|reflexivity]. destruct H as [H|[_ H]]; [lra|exact H].
  - rewrite E. split; [discriminate|]. lra.
Qed.

Lemma velocities_accept_iff d p s :
  0 <= d -> (is_ok (mat_of_velocities d p s) <-> 0 <= p /\ 0 <= s /\ sqrt (4 / 3) * s <= p).
Proof.
  intros Hd. destruct (mat_of_velocities_cases d p s Hd) as [[E H]|[Hp [Hs [Hg E]]]]; rewrite E.
  - split; [intros [m C]; discriminate|]. intros [A [B C]]. lra.
  - split; [auto|]. intros _. eexists; reflexivity.
Qed.

Lemma velocities_reject_ve d p s :
  0 <= d ->
  (mat_of_velocities d p s = Err ValueError <-> p < 0 \/ s < 0 \/ p < sqrt (4 / 3) * s).
Proof.
  intros Hd. destruct (mat_of_velocities_cases d p s Hd) as [[E H]|[Hp [Hs [Hg E]]]]; rewrite E.
  - split; auto.
  - split; [discriminate|]. lra.
Qed.

(** Which subsets of the five arguments are enough. *)
Lemma missing_data_ve ok om od os op :
  (om = None /\ (os = None \/ od = None)) \/
  (om <> None /\ ok = None /\ (op = None \/ od = None)) \/
  (om <> None /\ ok <> None /\ od = None /\ (op = None \/ os = None)) ->
  mk_material ok om od os op = Err ValueError.
Proof.
  intros H. unfold mk_material.
  destruct om as [mu|], ok as [k|], od as [d|], os as [s|], op as [p|];
    cbn [fill_moduli bind]; try reflexivity; exfalso;
    destruct H as [[H1 [H2|H2]]|[[H1 [H2 [H3|H3]]]|[H1 [H2 [H3 [H4|H4]]]]]];
    congruence.
Qed.

Lemma poisson_fluid k d m :
  0 < k -> mat_of_moduli k 0 d = Ok m -> poisson_ratio m = Ok (1 / 2).
Proof.
  intros Hk H. apply mat_of_moduli_inv in H. destruct H as [_ [_ [_ ->]]].
  unfold poisson_ratio. simpl. rewrite np_div_ok by lra. f_equal. field. lra.
Qed.

Lemma poisson_defined k mu d m :
  0 < k + mu -> mat_of_moduli k mu d = Ok m ->
  exists nu, poisson_ratio m = Ok nu /\ -1 <= nu <= 1 / 2 /\
    2 * (3 * k + mu) * nu = 3 * k - 2 * mu.
Proof.
  intros Hp H. pose proof H as H'. apply mat_of_moduli_inv in H'.
  destruct H' as [Hd [Hk [Hm E]]].
  assert (Hnz : 2 * (3 * k + mu) <> 0) by lra.
  assert (En : poisson_ratio m = Ok ((3 * k - 2 * mu) / (2 * (3 * k + mu)))).
  { subst m. unfold poisson_ratio. simpl. apply np_div_ok. exact Hnz. }
  eexists. split; [exact En|]. split; [exact (poisson_range k mu d m _ H En)|].
  field. lra.
Qed.

(** Configured materials are not guarded. *)
Lemma arbitrary_refuted :
  exists ok om d os op m,
    arbitrary_material ok om d os op = Ok m /\ ~ admissible m /\
    mk_material ok om (Some d) os op = Err ValueError.
Proof.
  exists (Some (-1)), (Some 3), 1, None, None.
  exists (mkMat (-1) 3 1 (vp_of (-1) 3 1) (vs_of 3 1)).
  split; [|split].
  - unfold arbitrary_material. cbn [fill_moduli bind]. unfold fill_velocities.
    unfold calculate_primary_velocity, calculate_secondary_velocity.
    rewrite !np_div_ok by lra. cbn [bind]. rewrite np_sqrt_ok by lra. cbn [bind].
    rewrite np_sqrt_ok by lra. reflexivity.
  - unfold admissible. simpl. lra.
  - destruct (moduli_reject_ve (-1) 3 1) as [_ H]; [lra|]. apply H. lra.
Qed.

(** ... but agree with Material when Material accepts. *)
Lemma arbitrary_agrees ok om d os op m :
  mk_material ok om (Some d) os op = Ok m -> arbitrary_material ok om d os op = Ok m.
Proof.
  unfold mk_material, arbitrary_material. intros H.
  destruct (fill_moduli ok om (Some d) os op) as [[k mu]|e]; [cbn [bind] in *|discriminate].
  match type of H with (if ?b then _ else _) = _ => destruct b end; [discriminate|].
  destruct (Rlt_dec d 0); [discriminate|]. destruct (Rlt_dec k 0); [discriminate|].
  destruct (Rlt_dec mu 0); [discriminate|].
  destruct (fill_velocities k mu d os op) as [[p s]|e]; [cbn [bind] in *|discriminate].
  destruct (Rlt_dec p 0); [discriminate|]. destruct (Rlt_dec s 0); [discriminate|].
  destruct (Rlt_dec p (sqrt (4 / 3) * s)); [discriminate|]. exact H.
Qed.

Lemma roundtrip_moduli_full k mu d m :
  mat_of_moduli k mu d = Ok m ->
  is_material m k mu d /\ mat_of_velocities d (vp m) (vs m) = Ok m.
Proof.
  intros H. split; [|exact (roundtrip_moduli k mu d m H)].
  destruct (mat_of_moduli_wf k mu d m H) as [[_ [_ [_ Hi]]] [E1 [E2 E3]]].
  rewrite E1, E2, E3 in Hi. exact Hi.
Qed.

(** Concrete materials for examples. *)
Definition sample (k mu d : R) : material := mkMat k mu d (vp_of k mu d) (vs_of mu d).
Lemma sample_wf k mu d : 0 < d -> 0 <= k -> 0 <= mu -> wf (sample k mu d).
Proof. intros. apply wf_consistent. unfold consistent, sample; simpl; auto. Qed.
Lemma sample_fluid k d : 0 < d -> 0 <= k -> fluid (sample k 0 d).
Proof. intros. split; [apply sample_wf; lra|reflexivity]. Qed.
Lemma sample_solid k mu d : 0 < d -> 0 <= k -> 0 < mu -> solid (sample k mu d).
Proof. intros. split; [apply sample_wf; lra|simpl; assumption]. Qed.
