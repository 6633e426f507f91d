(** Lemmas about Hashin-Shtrikman(-Walpole) bounds. *)
From Verif Require Import Base BaseProofs MaterialModel Spec MaterialProofs FluidModel FluidProofs HashinShtrikmanModel.

(* ---- the two-phase formula ---- *)

(** Symmetric closed form of the bound with comparison stiffness [z]. *)
Definition hs (f x1 x2 z : R) : R :=
  (x1 * x2 + z * (f * x1 + (1 - f) * x2)) / (f * x2 + (1 - f) * x1 + z).

Lemma hs_den_pos f x1 x2 z : 0 <= f <= 1 -> 0 <= x1 -> 0 <= x2 -> 0 < z ->
  0 < f * x2 + (1 - f) * x1 + z.
Proof. intros. nra. Qed.

Lemma hs_sym f x1 x2 z : hs f x1 x2 z = hs (1 - f) x2 x1 z.
Proof. unfold hs. f_equal; [ring|f_equal; ring]. Qed.

Lemma hs_minus1 f x1 x2 z : f * x2 + (1 - f) * x1 + z <> 0 ->
  hs f x1 x2 z - x1 = (1 - f) * (x2 - x1) * (x1 + z) / (f * x2 + (1 - f) * x1 + z).
Proof. intros. unfold hs. field. assumption. Qed.
Lemma hs_minus2 f x1 x2 z : f * x2 + (1 - f) * x1 + z <> 0 ->
  hs f x1 x2 z - x2 = f * (x1 - x2) * (x2 + z) / (f * x2 + (1 - f) * x1 + z).
Proof. intros. unfold hs. field. assumption. Qed.

Lemma hs_same f x z : x + z <> 0 -> hs f x x z = x.
Proof. intros. unfold hs. field. replace (f * x + (1 - f) * x + z) with (x + z) by ring. assumption. Qed.
Lemma hs_one x1 x2 z : x2 + z <> 0 -> hs 1 x1 x2 z = x1.
Proof. intros. unfold hs. field. replace (1 * x2 + (1 - 1) * x1 + z) with (x2 + z) by ring. assumption. Qed.
Lemma hs_zero x1 x2 z : x1 + z <> 0 -> hs 0 x1 x2 z = x2.
Proof. intros. unfold hs. field. replace (0 * x2 + (1 - 0) * x1 + z) with (x1 + z) by ring. assumption. Qed.

Lemma hs_between f x1 x2 z : 0 <= f <= 1 -> 0 <= x1 -> 0 <= x2 -> 0 < z ->
  between x1 (hs f x1 x2 z) x2.
Proof.
  intros Hf H1 H2 Hz. pose proof (hs_den_pos f x1 x2 z Hf H1 H2 Hz) as HD.
  pose proof (hs_minus1 f x1 x2 z) as M1. pose proof (hs_minus2 f x1 x2 z) as M2.
  assert (Hn : f * x2 + (1 - f) * x1 + z <> 0) by lra. specialize (M1 Hn). specialize (M2 Hn).
  set (D := f * x2 + (1 - f) * x1 + z) in *. set (h := hs f x1 x2 z) in *.
  assert (A : 0 < / D) by (apply Rinv_0_lt_compat; exact HD).
  unfold between, Rmin, Rmax. destruct (Rle_dec x1 x2) as [L|L].
  - assert (0 <= (1 - f) * (x2 - x1) * (x1 + z) / D).
    { apply div_nonneg; [|exact HD]. apply Rmult_le_pos; [nra|lra]. }
    assert (0 <= - (f * (x1 - x2) * (x2 + z) / D)).
    { replace (- (f * (x1 - x2) * (x2 + z) / D)) with ((f * (x2 - x1)) * (x2 + z) / D) by (field; lra).
      apply div_nonneg; [|exact HD]. apply Rmult_le_pos; [nra|lra]. }
    lra.
  - assert (0 <= - ((1 - f) * (x2 - x1) * (x1 + z) / D)).
    { replace (- ((1 - f) * (x2 - x1) * (x1 + z) / D)) with ((1 - f) * (x1 - x2) * (x1 + z) / D) by (field; lra).
      apply div_nonneg; [|exact HD]. apply Rmult_le_pos; [nra|lra]. }
    assert (0 <= f * (x1 - x2) * (x2 + z) / D).
    { apply div_nonneg; [|exact HD]. apply Rmult_le_pos; [nra|lra]. }
    lra.
Qed.

Lemma hs_nonneg f x1 x2 z : 0 <= f <= 1 -> 0 <= x1 -> 0 <= x2 -> 0 < z -> 0 <= hs f x1 x2 z.
Proof.
  intros. pose proof (hs_between f x1 x2 z) as B. unfold between in B.
  assert (0 <= Rmin x1 x2) by (apply Rmin_glb; assumption). lra.
Qed.

(** Comparison of quotients. *)
Lemma div_le_div a b c d : 0 < b -> 0 < d -> a * d <= c * b -> a / b <= c / d.
Proof.
  intros Hb Hd H. apply Rmult_le_reg_r with (b * d); [nra|].
  replace (a / b * (b * d)) with (a * d) by (field; lra).
  replace (c / d * (b * d)) with (c * b) by (field; lra). exact H.
Qed.

Lemma hs_mono_z f x1 x2 z z' : 0 <= f <= 1 -> 0 <= x1 -> 0 <= x2 -> 0 < z -> z <= z' ->
  hs f x1 x2 z <= hs f x1 x2 z'.
Proof.
  intros Hf H1 H2 Hz Hz'.
  pose proof (hs_den_pos f x1 x2 z Hf H1 H2 Hz). pose proof (hs_den_pos f x1 x2 z' Hf H1 H2 ltac:(lra)).
  unfold hs. apply div_le_div; try assumption.
  assert (E : (x1 * x2 + z' * (f * x1 + (1 - f) * x2)) * (f * x2 + (1 - f) * x1 + z) -
              (x1 * x2 + z * (f * x1 + (1 - f) * x2)) * (f * x2 + (1 - f) * x1 + z')
              = (z' - z) * (f * (1 - f) * (x1 - x2) ^ 2)) by ring.
  assert (0 <= (z' - z) * (f * (1 - f) * (x1 - x2) ^ 2)).
  { apply Rmult_le_pos; [lra|]. apply Rmult_le_pos; [nra|apply pow2_ge_0]. }
  lra.
Qed.

Lemma hs_voigt f x1 x2 z : 0 <= f <= 1 -> 0 <= x1 -> 0 <= x2 -> 0 < z ->
  hs f x1 x2 z <= voigt f x1 x2.
Proof.
  intros Hf H1 H2 Hz. pose proof (hs_den_pos f x1 x2 z Hf H1 H2 Hz).
  unfold hs, voigt. apply Rmult_le_reg_r with (f * x2 + (1 - f) * x1 + z); [assumption|].
  unfold Rdiv. rewrite Rmult_assoc, Rinv_l by lra. rewrite Rmult_1_r.
  assert (E : (f * x1 + (1 - f) * x2) * (f * x2 + (1 - f) * x1 + z) -
              (x1 * x2 + z * (f * x1 + (1 - f) * x2)) = f * (1 - f) * (x1 - x2) ^ 2) by ring.
  assert (0 <= f * (1 - f) * (x1 - x2) ^ 2) by (apply Rmult_le_pos; [nra|apply pow2_ge_0]).
  lra.
Qed.

Lemma hs_reuss f x1 x2 z : 0 <= f <= 1 -> 0 < x1 -> 0 < x2 -> 0 < z ->
  reuss f x1 x2 <= hs f x1 x2 z.
Proof.
  intros Hf H1 H2 Hz. pose proof (hs_den_pos f x1 x2 z Hf ltac:(lra) ltac:(lra) Hz).
  assert (HU : 0 < f * x2 + (1 - f) * x1) by (destruct (Req_EM_T f 0) as [->|]; nra).
  unfold hs, reuss. replace (1 / (f / x1 + (1 - f) / x2)) with (x1 * x2 / (f * x2 + (1 - f) * x1)).
  2: { field. repeat split; lra. }
  apply div_le_div; try assumption.
  assert (E : (x1 * x2 + z * (f * x1 + (1 - f) * x2)) * (f * x2 + (1 - f) * x1) -
              x1 * x2 * (f * x2 + (1 - f) * x1 + z) = z * (f * (1 - f) * (x1 - x2) ^ 2)) by ring.
  assert (0 <= z * (f * (1 - f) * (x1 - x2) ^ 2)).
  { apply Rmult_le_pos; [lra|]. apply Rmult_le_pos; [nra|apply pow2_ge_0]. }
  lra.
Qed.

Lemma hs_mono_f f g x1 x2 z : 0 <= f -> f <= g -> g <= 1 -> 0 <= x2 -> x2 <= x1 -> 0 < z ->
  hs f x1 x2 z <= hs g x1 x2 z.
Proof.
  intros Hf Hg Hg1 H2 H1 Hz.
  pose proof (hs_den_pos f x1 x2 z ltac:(lra) ltac:(lra) H2 Hz).
  pose proof (hs_den_pos g x1 x2 z ltac:(lra) ltac:(lra) H2 Hz).
  unfold hs. apply div_le_div; try assumption.
  assert (E : (x1 * x2 + z * (g * x1 + (1 - g) * x2)) * (f * x2 + (1 - f) * x1 + z) -
              (x1 * x2 + z * (f * x1 + (1 - f) * x2)) * (g * x2 + (1 - g) * x1 + z)
              = (g - f) * (x1 - x2) * ((x1 + z) * (x2 + z))) by ring.
  assert (0 <= (g - f) * (x1 - x2) * ((x1 + z) * (x2 + z))).
  { apply Rmult_le_pos; [nra|]. apply Rmult_le_pos; lra. }
  lra.
Qed.

Lemma hs_mono_1 f x1 y1 x2 z : 0 <= f <= 1 -> 0 <= x1 -> x1 <= y1 -> 0 <= x2 -> 0 < z ->
  hs f x1 x2 z <= hs f y1 x2 z.
Proof.
  intros Hf H1 H H2 Hz.
  pose proof (hs_den_pos f x1 x2 z Hf H1 H2 Hz).
  pose proof (hs_den_pos f y1 x2 z Hf ltac:(lra) H2 Hz).
  unfold hs. apply div_le_div; try assumption.
  assert (E : (y1 * x2 + z * (f * y1 + (1 - f) * x2)) * (f * x2 + (1 - f) * x1 + z) -
              (x1 * x2 + z * (f * x1 + (1 - f) * x2)) * (f * x2 + (1 - f) * y1 + z)
              = (y1 - x1) * f * ((x2 + z) * (x2 + z))) by ring.
  assert (0 <= (y1 - x1) * f * ((x2 + z) * (x2 + z))).
  { apply Rmult_le_pos; [nra|]. apply Rmult_le_pos; lra. }
  lra.
Qed.

Lemma hs_mono_2 f x1 x2 y2 z : 0 <= f <= 1 -> 0 <= x1 -> x2 <= y2 -> 0 <= x2 -> 0 < z ->
  hs f x1 x2 z <= hs f x1 y2 z.
Proof.
  intros. rewrite (hs_sym f x1 x2), (hs_sym f x1 y2). apply hs_mono_1; lra.
Qed.

(** Comparison stiffness of the shear bound. *)
Definition zeta (km mum : R) : R := mum / 6 * (9 * km + 8 * mum) / (km + 2 * mum).

Lemma zeta_pos km mum : 0 <= km -> 0 < mum -> 0 < zeta km mum.
Proof. intros. unfold zeta. apply Rdiv_lt_0_compat; nra. Qed.

Lemma zeta_mono k k' m m' : 0 <= k -> k <= k' -> 0 < m -> m <= m' -> zeta k m <= zeta k' m'.
Proof.
  intros Hk Hk' Hm Hm'. apply Rle_trans with (zeta k' m).
  - unfold zeta. apply div_le_div; [lra|lra|].
    assert (E : m / 6 * (9 * k' + 8 * m) * (k + 2 * m) - m / 6 * (9 * k + 8 * m) * (k' + 2 * m)
       = m / 6 * (10 * m * (k' - k))) by field.
    assert (0 <= m / 6 * (10 * m * (k' - k))) by (apply Rmult_le_pos; nra). lra.
  - unfold zeta. apply div_le_div; [lra|lra|].
    assert (E : m' / 6 * (9 * k' + 8 * m') * (k' + 2 * m) - m / 6 * (9 * k' + 8 * m) * (k' + 2 * m')
       = (m' - m) / 6 * (9 * k' * k' + 8 * (m' + m) * k' + 16 * (m * m'))) by field.
    assert (0 <= (m' - m) / 6 * (9 * k' * k' + 8 * (m' + m) * k' + 16 * (m * m'))).
    { apply Rmult_le_pos; [lra|]. nra. }
    lra.
Qed.

(* ---- evaluating the model ---- *)

Lemma check_ratio_ok f : - (1 / 10 ^ 5) <= f <= 1 + 1 / 10 ^ 5 -> check_is_ratio f = Ok tt.
Proof.
  intros H. unfold check_is_ratio. destruct (Rlt_dec (1 + 1 / 10 ^ 5) f); [lra|].
  destruct (Rlt_dec f (0 - 1 / 10 ^ 5)); [lra|reflexivity].
Qed.
Lemma check_ratio_unit f : 0 <= f <= 1 -> check_is_ratio f = Ok tt.
Proof. intros. apply check_ratio_ok. lra. Qed.
Lemma check_ratio_bad f : f < - (1 / 10 ^ 5) \/ 1 + 1 / 10 ^ 5 < f -> check_is_ratio f = Err ValueError.
Proof.
  intros H. unfold check_is_ratio. destruct (Rlt_dec (1 + 1 / 10 ^ 5) f); [reflexivity|].
  destruct (Rlt_dec f (0 - 1 / 10 ^ 5)); [reflexivity|lra].
Qed.

Lemma calc_bulk_value k1 k2 mum f :
  0 <= f <= 1 -> 0 <= k1 -> 0 <= k2 -> 0 < mum ->
  calc_bulk_modulus k1 k2 mum f (1 - f) = Ok (hs f k1 k2 (4 / 3 * mum)).
Proof.
  intros Hf H1 H2 Hm. unfold calc_bulk_modulus.
  pose proof (hs_den_pos f k1 k2 (4 / 3 * mum) Hf H1 H2 ltac:(lra)) as HD.
  destruct (Req_EM_T k1 k2) as [->|Hne]; [rewrite hs_same by lra; reflexivity|].
  rewrite py_div_ok by lra. cbn [bind]. rewrite py_div_ok by lra. cbn [bind].
  assert (E : 1 / (k2 - k1) + f * (1 / (k1 + 4 / 3 * mum)) =
     (f * k2 + (1 - f) * k1 + 4 / 3 * mum) / ((k2 - k1) * (k1 + 4 / 3 * mum))).
  { field. lra. }
  rewrite E.
  assert (HN : (k2 - k1) * (k1 + 4 / 3 * mum) <> 0) by (apply Rmult_integral_contrapositive_currified; lra).
  rewrite py_div_ok.
  - cbn [bind]. f_equal. unfold hs. field. repeat split; lra.
  - unfold Rdiv. apply Rmult_integral_contrapositive_currified; [lra|apply Rinv_neq_0_compat; exact HN].
Qed.

Lemma calc_shear_value mu1 mu2 km mum f :
  0 <= f <= 1 -> 0 <= mu1 -> 0 <= mu2 -> 0 <= km -> 0 < mum ->
  calc_shear_modulus mu1 mu2 km mum f (1 - f) = Ok (hs f mu1 mu2 (zeta km mum)).
Proof.
  intros Hf H1 H2 Hk Hm. unfold calc_shear_modulus.
  pose proof (zeta_pos km mum Hk Hm) as Hz.
  pose proof (hs_den_pos f mu1 mu2 (zeta km mum) Hf H1 H2 Hz) as HD.
  destruct (Req_EM_T mu1 mu2) as [->|Hne]; [rewrite hs_same by lra; reflexivity|].
  rewrite py_div_ok by lra. cbn [bind]. rewrite py_div_ok by lra. cbn [bind].
  fold (zeta km mum). set (z := zeta km mum) in *.
  rewrite py_div_ok by lra. cbn [bind].
  assert (E : 1 / (mu2 - mu1) + f * (1 / (mu1 + z)) =
     (f * mu2 + (1 - f) * mu1 + z) / ((mu2 - mu1) * (mu1 + z))).
  { field. lra. }
  rewrite E.
  assert (HN : (mu2 - mu1) * (mu1 + z) <> 0) by (apply Rmult_integral_contrapositive_currified; lra).
  rewrite py_div_ok.
  - cbn [bind]. f_equal. unfold hs. field. repeat split; lra.
  - unfold Rdiv. apply Rmult_integral_contrapositive_currified; [lra|apply Rinv_neq_0_compat; exact HN].
Qed.

Lemma calc_density_value r1 r2 f : calc_density r1 r2 f (1 - f) = voigt f r1 r2.
Proof.
  unfold calc_density, voigt. destruct (Req_EM_T r1 r2) as [->|]; ring.
Qed.

Definition pick (upper : bool) (a b : R) : R := if upper then Rmax a b else Rmin a b.

Lemma pick_sym u a b : pick u a b = pick u b a.
Proof. destruct u; [apply Rmax_comm|apply Rmin_comm]. Qed.
Lemma pick_nonneg u a b : 0 <= a -> 0 <= b -> 0 <= pick u a b.
Proof.
  intros. destruct u; unfold pick.
  - apply Rle_trans with a; [assumption|apply Rmax_l].
  - apply Rmin_glb; assumption.
Qed.
Lemma pick_pos u m1 m2 : mixable u m1 m2 -> 0 < pick u (shear m1) (shear m2).
Proof.
  intros [_ [_ H]]. destruct u; unfold pick.
  - destruct H as [H|H]; (eapply Rlt_le_trans; [exact H|]); [apply Rmax_l|apply Rmax_r].
  - apply Rmin_glb_lt; tauto.
Qed.
Lemma mixable_sym u m1 m2 : mixable u m1 m2 -> mixable u m2 m1.
Proof. intros [H1 [H2 H]]. split; [exact H2|]. split; [exact H1|]. destruct u; tauto. Qed.
Lemma solid_mixable u m1 m2 : solid m1 -> solid m2 -> mixable u m1 m2.
Proof. intros [W1 S1] [W2 S2]. split; [exact W1|]. split; [exact W2|]. destruct u; tauto. Qed.

Definition wbulk u m1 m2 f := hs f (bulk m1) (bulk m2) (4 / 3 * pick u (shear m1) (shear m2)).
Definition wshear u m1 m2 f :=
  hs f (shear m1) (shear m2) (zeta (pick u (bulk m1) (bulk m2)) (pick u (shear m1) (shear m2))).

Lemma walpole_unfold u m1 m2 f :
  hashin_shtrikman_walpole m1 m2 f (bound_name u) =
  (let* _ := check_is_ratio f in
   let* k := calc_bulk_modulus (bulk m1) (bulk m2) (pick u (shear m1) (shear m2)) f (1 - f) in
   let* mu := calc_shear_modulus (shear m1) (shear m2) (pick u (bulk m1) (bulk m2))
                (pick u (shear m1) (shear m2)) f (1 - f) in
   mat_of_moduli k mu (voigt f (dens m1) (dens m2))).
Proof. rewrite <- calc_density_value. destruct u; reflexivity. Qed.

Lemma walpole_value u m1 m2 f :
  mixable u m1 m2 -> 0 <= f <= 1 ->
  exists m, hashin_shtrikman_walpole m1 m2 f (bound_name u) = Ok m /\ wf m /\
    bulk m = wbulk u m1 m2 f /\ shear m = wshear u m1 m2 f /\
    dens m = voigt f (dens m1) (dens m2).
Proof.
  intros M Hf. pose proof (pick_pos u m1 m2 M) as Hp.
  destruct M as [[D1 [K1 [S1 _]]] [[D2 [K2 [S2 _]]] _]].
  pose proof (pick_nonneg u (bulk m1) (bulk m2) K1 K2) as Hkm.
  rewrite walpole_unfold, check_ratio_unit by exact Hf. cbn [bind].
  rewrite calc_bulk_value by assumption. cbn [bind].
  rewrite calc_shear_value by assumption. cbn [bind].
  assert (Hz : 0 < 4 / 3 * pick u (shear m1) (shear m2)) by lra.
  pose proof (zeta_pos _ _ Hkm Hp) as Hz2.
  destruct (mat_of_moduli_spec (wbulk u m1 m2 f) (wshear u m1 m2 f) (voigt f (dens m1) (dens m2)))
    as [m [E [[Ek [Em [Ed _]]] W]]].
  - unfold voigt. destruct (Req_EM_T f 0) as [->|]; nra.
  - apply hs_nonneg; assumption.
  - apply hs_nonneg; assumption.
  - exists m. auto.
Qed.

(* ---- property lemmas ---- *)

Lemma walpole_between u m1 m2 f :
  mixable u m1 m2 -> 0 <= f <= 1 ->
  exists m, hashin_shtrikman_walpole m1 m2 f (bound_name u) = Ok m /\ wf m /\
    between (bulk m1) (bulk m) (bulk m2) /\
    between (shear m1) (shear m) (shear m2) /\
    dens m = f * dens m1 + (1 - f) * dens m2.
Proof.
  intros M Hf. destruct (walpole_value u m1 m2 f M Hf) as [m [E [W [Ek [Em Ed]]]]].
  pose proof (pick_pos u m1 m2 M) as Hp.
  destruct M as [[D1 [K1 [S1 _]]] [[D2 [K2 [S2 _]]] _]].
  pose proof (pick_nonneg u (bulk m1) (bulk m2) K1 K2) as Hkm.
  exists m. split; [exact E|]. split; [exact W|]. rewrite Ek, Em, Ed. split; [|split].
  - apply hs_between; try assumption; lra.
  - apply hs_between; try assumption. apply zeta_pos; assumption.
  - reflexivity.
Qed.

Lemma pick_le a b : pick false a b <= pick true a b.
Proof. unfold pick. apply Rle_trans with a; [apply Rmin_l|apply Rmax_l]. Qed.

Lemma walpole_lower_le_upper m1 m2 f :
  solid m1 -> solid m2 -> 0 <= f <= 1 ->
  exists lo up,
    hashin_shtrikman_walpole m1 m2 f "lower" = Ok lo /\
    hashin_shtrikman_walpole m1 m2 f "upper" = Ok up /\
    bulk lo <= bulk up /\ shear lo <= shear up /\ dens lo = dens up.
Proof.
  intros S1 S2 Hf.
  pose proof (solid_mixable false m1 m2 S1 S2) as Ml. pose proof (solid_mixable true m1 m2 S1 S2) as Mu.
  destruct (walpole_value false m1 m2 f Ml Hf) as [lo [El [_ [Kl [Sl Dl]]]]].
  destruct (walpole_value true m1 m2 f Mu Hf) as [up [Eu [_ [Ku [Su Du]]]]].
  pose proof (pick_pos _ _ _ Ml). pose proof (pick_pos _ _ _ Mu).
  destruct S1 as [[D1 [K1 [M1 _]]] P1], S2 as [[D2 [K2 [M2 _]]] P2].
  pose proof (pick_nonneg false (bulk m1) (bulk m2) K1 K2).
  pose proof (pick_le (shear m1) (shear m2)). pose proof (pick_le (bulk m1) (bulk m2)).
  exists lo, up. split; [exact El|]. split; [exact Eu|].
  rewrite Kl, Ku, Sl, Su, Dl, Du. split; [|split; [|reflexivity]].
  - apply hs_mono_z; try assumption; lra.
  - apply hs_mono_z; try assumption; [apply zeta_pos; assumption|apply zeta_mono; assumption].
Qed.

Lemma walpole_endpoints u m1 m2 :
  mixable u m1 m2 ->
  hashin_shtrikman_walpole m1 m2 1 (bound_name u) = Ok m1 /\
  hashin_shtrikman_walpole m1 m2 0 (bound_name u) = Ok m2.
Proof.
  intros M. pose proof (pick_pos u m1 m2 M) as Hp. pose proof M as M'.
  destruct M' as [W1 [W2 _]]. pose proof W1 as [D1 [K1 [S1 _]]]. pose proof W2 as [D2 [K2 [S2 _]]].
  pose proof (pick_nonneg u (bulk m1) (bulk m2) K1 K2) as Hkm.
  pose proof (zeta_pos _ _ Hkm Hp) as Hz.
  split.
  - destruct (walpole_value u m1 m2 1 M ltac:(lra)) as [m [E [W [Ek [Em Ed]]]]].
    unfold wbulk in Ek. unfold wshear in Em. unfold voigt in Ed.
    rewrite hs_one in Ek by lra. rewrite hs_one in Em by lra.
    rewrite E. rewrite <- (wf_eta m W), <- (wf_eta m1 W1).
    rewrite Ek, Em, Ed. f_equal. ring.
  - destruct (walpole_value u m1 m2 0 M ltac:(lra)) as [m [E [W [Ek [Em Ed]]]]].
    unfold wbulk in Ek. unfold wshear in Em. unfold voigt in Ed.
    rewrite hs_zero in Ek by lra. rewrite hs_zero in Em by lra.
    rewrite E. rewrite <- (wf_eta m W), <- (wf_eta m2 W2).
    rewrite Ek, Em, Ed. f_equal. ring.
Qed.

Lemma wf_ext m1 m2 : wf m1 -> wf m2 -> bulk m1 = bulk m2 -> shear m1 = shear m2 -> dens m1 = dens m2 -> m1 = m2.
Proof.
  intros W1 W2 Ek Em Ed. pose proof (wf_eta m1 W1) as H1. pose proof (wf_eta m2 W2) as H2.
  rewrite Ek, Em, Ed in H1. congruence.
Qed.

Lemma walpole_symmetric u m1 m2 f :
  mixable u m1 m2 -> 0 <= f <= 1 ->
  hashin_shtrikman_walpole m1 m2 f (bound_name u) =
  hashin_shtrikman_walpole m2 m1 (1 - f) (bound_name u).
Proof.
  intros M Hf. destruct (walpole_value u m1 m2 f M Hf) as [m [E [W [Ek [Em Ed]]]]].
  destruct (walpole_value u m2 m1 (1 - f) (mixable_sym _ _ _ M) ltac:(lra)) as [m' [E' [W' [Ek' [Em' Ed']]]]].
  rewrite E, E'. f_equal. apply wf_ext; try assumption.
  - rewrite Ek, Ek'. unfold wbulk. rewrite hs_sym, (pick_sym u (shear m2)). reflexivity.
  - rewrite Em, Em'. unfold wshear. rewrite hs_sym, (pick_sym u (shear m2)), (pick_sym u (bulk m2)). reflexivity.
  - rewrite Ed, Ed'. unfold voigt. ring.
Qed.

Lemma walpole_self u m1 m2 f :
  wf m1 -> bulk m2 = bulk m1 -> shear m2 = shear m1 -> dens m2 = dens m1 ->
  - (1 / 10 ^ 5) <= f <= 1 + 1 / 10 ^ 5 ->
  hashin_shtrikman_walpole m1 m2 f (bound_name u) = Ok m1.
Proof.
  intros W Ek Em Ed Hf. rewrite walpole_unfold, check_ratio_ok by exact Hf. cbn [bind].
  unfold calc_bulk_modulus. rewrite Ek. destruct (Req_EM_T (bulk m1) (bulk m1)); [|congruence]. cbn [bind].
  unfold calc_shear_modulus. rewrite Em. destruct (Req_EM_T (shear m1) (shear m1)); [|congruence]. cbn [bind].
  apply mat_of_moduli_eq_ok; [exact W|reflexivity|reflexivity|]. rewrite Ed. unfold voigt. ring.
Qed.

Lemma walpole_bad_ratio m1 m2 f b :
  f < - (1 / 10 ^ 5) \/ 1 + 1 / 10 ^ 5 < f ->
  hashin_shtrikman_walpole m1 m2 f b = Err ValueError /\
  hashin_shtrikman_bound m1 m2 f = Err ValueError /\
  hashin_shtrikman_average m1 m2 f = Err ValueError.
Proof.
  intros H. unfold hashin_shtrikman_walpole, hashin_shtrikman_bound, hashin_shtrikman_average.
  rewrite check_ratio_bad by exact H. auto.
Qed.

Lemma walpole_bad_bound m1 m2 f b :
  b <> "lower"%string -> b <> "upper"%string -> hashin_shtrikman_walpole m1 m2 f b = Err ValueError.
Proof.
  intros H1 H2. unfold hashin_shtrikman_walpole.
  destruct (check_is_ratio f) eqn:E; cbn [bind].
  - apply String.eqb_neq in H1, H2. rewrite H1, H2. reflexivity.
  - unfold check_is_ratio in E. destruct (Rlt_dec _ _); [congruence|]. destruct (Rlt_dec _ _); congruence.
Qed.

Lemma walpole_reuss_voigt m1 m2 f :
  solid m1 -> solid m2 -> 0 < bulk m1 -> 0 < bulk m2 -> 0 <= f <= 1 ->
  exists lo up,
    hashin_shtrikman_walpole m1 m2 f "lower" = Ok lo /\
    hashin_shtrikman_walpole m1 m2 f "upper" = Ok up /\
    reuss f (bulk m1) (bulk m2) <= bulk lo /\ bulk up <= voigt f (bulk m1) (bulk m2) /\
    reuss f (shear m1) (shear m2) <= shear lo /\ shear up <= voigt f (shear m1) (shear m2).
Proof.
  intros S1 S2 B1 B2 Hf.
  pose proof (solid_mixable false m1 m2 S1 S2) as Ml. pose proof (solid_mixable true m1 m2 S1 S2) as Mu.
  destruct (walpole_value false m1 m2 f Ml Hf) as [lo [El [_ [Kl [Sl Dl]]]]].
  destruct (walpole_value true m1 m2 f Mu Hf) as [up [Eu [_ [Ku [Su Du]]]]].
  pose proof (pick_pos _ _ _ Ml). pose proof (pick_pos _ _ _ Mu).
  destruct S1 as [[D1 [K1 [M1 _]]] P1], S2 as [[D2 [K2 [M2 _]]] P2].
  pose proof (pick_nonneg false (bulk m1) (bulk m2) K1 K2).
  pose proof (pick_nonneg true (bulk m1) (bulk m2) K1 K2).
  exists lo, up. split; [exact El|]. split; [exact Eu|].
  rewrite Kl, Ku, Sl, Su. split; [|split; [|split]].
  - apply hs_reuss; try assumption; lra.
  - apply hs_voigt; try assumption; lra.
  - apply hs_reuss; try assumption. apply zeta_pos; assumption.
  - apply hs_voigt; try assumption. apply zeta_pos; assumption.
Qed.

Lemma walpole_mono_ratio u m1 m2 f g a b :
  mixable u m1 m2 -> bulk m2 <= bulk m1 -> shear m2 <= shear m1 ->
  0 <= f -> f <= g -> g <= 1 ->
  hashin_shtrikman_walpole m1 m2 f (bound_name u) = Ok a ->
  hashin_shtrikman_walpole m1 m2 g (bound_name u) = Ok b ->
  bulk a <= bulk b /\ shear a <= shear b.
Proof.
  intros M Hk Hm Hf Hfg Hg Ea Eb.
  destruct (walpole_value u m1 m2 f M ltac:(lra)) as [a' [Ea' [_ [Ka [Sa _]]]]].
  destruct (walpole_value u m1 m2 g M ltac:(lra)) as [b' [Eb' [_ [Kb [Sb _]]]]].
  rewrite Ea in Ea'. injection Ea' as <-. rewrite Eb in Eb'. injection Eb' as <-.
  pose proof (pick_pos u m1 m2 M) as Hp.
  destruct M as [[D1 [K1 [S1 _]]] [[D2 [K2 [S2 _]]] _]].
  pose proof (pick_nonneg u (bulk m1) (bulk m2) K1 K2) as Hkm.
  rewrite Ka, Kb, Sa, Sb. split.
  - apply hs_mono_f; try assumption; lra.
  - apply hs_mono_f; try assumption. apply zeta_pos; assumption.
Qed.

(* ---- the classical bound and the average ---- *)

Lemma hs_bound_value m1 m2 f :
  solid m1 -> wf m2 -> 0 <= f <= 1 ->
  exists m, hashin_shtrikman_bound m1 m2 f = Ok m /\ wf m /\
    bulk m = hs f (bulk m1) (bulk m2) (4 / 3 * shear m1) /\
    shear m = hs f (shear m1) (shear m2) (zeta (bulk m1) (shear m1)) /\
    dens m = voigt f (dens m1) (dens m2).
Proof.
  intros [[D1 [K1 [_ _]]] P1] [D2 [K2 [S2 _]]] Hf.
  unfold hashin_shtrikman_bound. rewrite check_ratio_unit by exact Hf. cbn [bind].
  set (k1 := bulk m1) in *. set (k2 := bulk m2) in *.
  set (mu1 := shear m1) in *. set (mu2 := shear m2) in *.
  pose proof (hs_den_pos f k1 k2 (4 / 3 * mu1) Hf K1 K2 ltac:(lra)) as HD1.
  pose proof (zeta_pos k1 mu1 K1 P1) as Hz.
  pose proof (hs_den_pos f mu1 mu2 (zeta k1 mu1) Hf ltac:(lra) S2 Hz) as HD2.
  rewrite np_div_ok by lra. cbn [bind].
  assert (E1 : 1 + (k2 - k1) * f * (1 / (k1 + 4 / 3 * mu1)) =
     (f * k2 + (1 - f) * k1 + 4 / 3 * mu1) / (k1 + 4 / 3 * mu1)) by (field; lra).
  rewrite E1. rewrite np_div_ok; cbn [bind].
  2: { apply Rgt_not_eq. apply Rdiv_lt_0_compat; lra. }
  rewrite np_div_ok; cbn [bind].
  2: { apply Rgt_not_eq. nra. }
  assert (E2 : 1 + 2 * (mu2 - mu1) * f * (k1 + 2 * mu1) / (5 * mu1 * (k1 + 4 / 3 * mu1)) =
     (f * mu2 + (1 - f) * mu1 + zeta k1 mu1) / (mu1 + zeta k1 mu1)).
  { unfold zeta. field. repeat split; try lra. nra. }
  rewrite E2. rewrite np_div_ok; cbn [bind].
  2: { apply Rgt_not_eq. apply Rdiv_lt_0_compat; lra. }
  destruct (mat_of_moduli_spec (hs f k1 k2 (4 / 3 * mu1)) (hs f mu1 mu2 (zeta k1 mu1)) (voigt f (dens m1) (dens m2)))
    as [m [E [[Ek [Em [Ed _]]] W]]].
  - unfold voigt. destruct (Req_EM_T f 0) as [->|]; nra.
  - apply hs_nonneg; try assumption; lra.
  - apply hs_nonneg; try assumption; lra.
  - exists m. split; [|auto]. rewrite <- E. f_equal.
    + unfold hs. field. split; lra.
    + set (z := zeta k1 mu1) in *. unfold hs. field. split; lra.
Qed.

Lemma bound_is_walpole m1 m2 f :
  solid m1 -> solid m2 -> 0 <= f <= 1 ->
  (bulk m1 <= bulk m2 -> shear m1 <= shear m2 ->
     hashin_shtrikman_bound m1 m2 f = hashin_shtrikman_walpole m1 m2 f "lower") /\
  (bulk m2 <= bulk m1 -> shear m2 <= shear m1 ->
     hashin_shtrikman_bound m1 m2 f = hashin_shtrikman_walpole m1 m2 f "upper").
Proof.
  intros S1 S2 Hf. destruct (hs_bound_value m1 m2 f S1 ltac:(apply S2) Hf) as [b [Eb [Wb [Kb [Sb Db]]]]].
  split; intros Hk Hm.
  - destruct (walpole_value false m1 m2 f (solid_mixable _ _ _ S1 S2) Hf) as [w [Ew [Ww [Kw [Sw Dw]]]]].
    cbn [bound_name] in Ew. rewrite Eb, Ew. f_equal. apply wf_ext; try assumption; try congruence.
    + rewrite Kb, Kw. unfold wbulk, pick. rewrite Rmin_left by exact Hm. reflexivity.
    + rewrite Sb, Sw. unfold wshear, pick. rewrite !Rmin_left by assumption. reflexivity.
  - destruct (walpole_value true m1 m2 f (solid_mixable _ _ _ S1 S2) Hf) as [w [Ew [Ww [Kw [Sw Dw]]]]].
    cbn [bound_name] in Ew. rewrite Eb, Ew. f_equal. apply wf_ext; try assumption; try congruence.
    + rewrite Kb, Kw. unfold wbulk, pick. rewrite Rmax_left by exact Hm. reflexivity.
    + rewrite Sb, Sw. unfold wshear, pick. rewrite !Rmax_left by assumption. reflexivity.
Qed.

Lemma average_value m1 m2 f :
  solid m1 -> solid m2 -> 0 <= f <= 1 ->
  exists m, hashin_shtrikman_average m1 m2 f = Ok m /\ wf m /\
    bulk m = (hs f (bulk m1) (bulk m2) (4 / 3 * shear m1) + hs f (bulk m1) (bulk m2) (4 / 3 * shear m2)) / 2 /\
    shear m = (hs f (shear m1) (shear m2) (zeta (bulk m1) (shear m1)) +
               hs f (shear m1) (shear m2) (zeta (bulk m2) (shear m2))) / 2 /\
    dens m = voigt f (dens m1) (dens m2).
Proof.
  intros S1 S2 Hf.
  destruct (hs_bound_value m1 m2 f S1 ltac:(apply S2) Hf) as [b [Eb [Wb [Kb [Sb Db]]]]].
  destruct (hs_bound_value m2 m1 (1 - f) S2 ltac:(apply S1) ltac:(lra)) as [b' [Eb' [Wb' [Kb' [Sb' Db']]]]].
  rewrite <- hs_sym in Kb', Sb'.
  unfold hashin_shtrikman_average. rewrite check_ratio_unit by exact Hf. cbn [bind].
  rewrite Eb, Eb'. cbn [bind]. rewrite Kb, Kb', Sb, Sb'.
  destruct S1 as [[D1 [K1 [M1 _]]] P1], S2 as [[D2 [K2 [M2 _]]] P2].
  pose proof Wb as [_ [Nb [Nb2 _]]]. pose proof Wb' as [_ [Nb' [Nb2' _]]].
  rewrite Kb in Nb. rewrite Kb' in Nb'. rewrite Sb in Nb2. rewrite Sb' in Nb2'.
  fold (voigt f (dens m1) (dens m2)).
  edestruct mat_of_moduli_spec as [m [E [[Ek [Em [Ed _]]] W]]]; [| | |exists m; split; [exact E|auto]].
  - unfold voigt. destruct (Req_EM_T f 0) as [->|]; nra.
  - lra.
  - lra.
Qed.

Lemma average_symmetric m1 m2 f :
  solid m1 -> solid m2 -> 0 <= f <= 1 ->
  hashin_shtrikman_average m1 m2 f = hashin_shtrikman_average m2 m1 (1 - f).
Proof.
  intros S1 S2 Hf. destruct (average_value m1 m2 f S1 S2 Hf) as [m [E [W [K [S D]]]]].
  destruct (average_value m2 m1 (1 - f) S2 S1 ltac:(lra)) as [m' [E' [W' [K' [S' D']]]]].
  rewrite E, E'. f_equal. apply wf_ext; try assumption.
  - rewrite K, K'. rewrite <- !hs_sym. lra.
  - rewrite S, S'. rewrite <- !hs_sym. lra.
  - rewrite D, D'. unfold voigt. ring.
Qed.

Lemma between_avg a x y b : between a x b -> between a y b -> between a ((x + y) / 2) b.
Proof. unfold between. lra. Qed.

Lemma average_between m1 m2 f :
  solid m1 -> solid m2 -> 0 <= f <= 1 ->
  exists b1 b2 m,
    hashin_shtrikman_bound m1 m2 f = Ok b1 /\ hashin_shtrikman_bound m2 m1 (1 - f) = Ok b2 /\
    hashin_shtrikman_average m1 m2 f = Ok m /\ wf m /\
    bulk m = (bulk b1 + bulk b2) / 2 /\ shear m = (shear b1 + shear b2) / 2 /\
    between (bulk m1) (bulk m) (bulk m2) /\ between (shear m1) (shear m) (shear m2) /\
    dens m = f * dens m1 + (1 - f) * dens m2.
Proof.
  intros S1 S2 Hf. destruct (average_value m1 m2 f S1 S2 Hf) as [m [E [W [K [S D]]]]].
  destruct (hs_bound_value m1 m2 f S1 ltac:(apply S2) Hf) as [b [Eb [Wb [Kb [Sb Db]]]]].
  destruct (hs_bound_value m2 m1 (1 - f) S2 ltac:(apply S1) ltac:(lra)) as [b' [Eb' [Wb' [Kb' [Sb' Db']]]]].
  rewrite <- hs_sym in Kb', Sb'.
  destruct S1 as [[D1 [K1 [M1 _]]] P1], S2 as [[D2 [K2 [M2 _]]] P2].
  pose proof (zeta_pos _ _ K1 P1). pose proof (zeta_pos _ _ K2 P2).
  exists b, b', m. split; [exact Eb|]. split; [exact Eb'|]. split; [exact E|]. split; [exact W|].
  split; [congruence|]. split; [congruence|].
  rewrite K, S, D. split; [|split; [|reflexivity]].
  - apply between_avg; apply hs_between; try assumption; lra.
  - apply between_avg; apply hs_between; try assumption; lra.
Qed.

(* ---- fluids as constituents ---- *)

Lemma walpole_fluid_first m1 m2 f :
  wf m1 -> wf m2 -> shear m1 = 0 -> 0 < shear m2 -> 0 < bulk m1 -> 0 < bulk m2 -> 0 <= f <= 1 ->
  hashin_shtrikman_walpole m1 m2 f "lower" = Err ZeroDivisionError.
Proof.
  intros W1 W2 S1 S2 B1 B2 Hf. change "lower"%string with (bound_name false).
  rewrite walpole_unfold, check_ratio_unit by exact Hf. cbn [bind].
  unfold pick. rewrite S1. rewrite (Rmin_left 0) by lra.
  assert (Ek : exists k, calc_bulk_modulus (bulk m1) (bulk m2) 0 f (1 - f) = Ok k).
  { unfold calc_bulk_modulus. destruct (Req_EM_T (bulk m1) (bulk m2)); [eexists; reflexivity|].
    rewrite py_div_ok by lra. cbn [bind]. rewrite py_div_ok by lra. cbn [bind].
    rewrite py_div_ok; [eexists; reflexivity|].
    replace (1 / (bulk m2 - bulk m1) + f * (1 / (bulk m1 + 4 / 3 * 0)))
      with ((f * bulk m2 + (1 - f) * bulk m1) / ((bulk m2 - bulk m1) * bulk m1)) by (field; lra).
    unfold Rdiv. apply Rmult_integral_contrapositive_currified.
    - apply Rgt_not_eq. destruct (Req_EM_T f 0) as [->|]; nra.
    - apply Rinv_neq_0_compat, Rmult_integral_contrapositive_currified; lra. }
  destruct Ek as [k Ek]. rewrite Ek. cbn [bind].
  unfold calc_shear_modulus. destruct (Req_EM_T 0 (shear m2)); [lra|].
  rewrite py_div_ok by lra. cbn [bind].
  rewrite py_div_ok by (pose proof (Rmin_glb_lt _ _ _ B1 B2); lra). cbn [bind].
  replace (0 + 0 / 6 * (9 * Rmin (bulk m1) (bulk m2) + 8 * 0) / (Rmin (bulk m1) (bulk m2) + 2 * 0)) with 0
    by (unfold Rdiv; ring).
  rewrite py_div_0. reflexivity.
Qed.

Lemma walpole_fluid_second m1 m2 f :
  wf m1 -> wf m2 -> 0 < shear m1 -> shear m2 = 0 -> 0 < bulk m1 -> 0 < bulk m2 -> 0 <= f < 1 ->
  exists m, hashin_shtrikman_walpole m1 m2 f "lower" = Ok m /\ shear m = 0 /\
            bulk m = reuss f (bulk m1) (bulk m2).
Proof.
  intros W1 W2 S1 S2 B1 B2 Hf. change "lower"%string with (bound_name false).
  rewrite walpole_unfold, check_ratio_unit by lra. cbn [bind].
  unfold pick. rewrite S2. rewrite (Rmin_right _ 0) by lra.
  assert (HU : 0 < f * bulk m2 + (1 - f) * bulk m1) by nra.
  assert (Er : reuss f (bulk m1) (bulk m2) = bulk m1 * bulk m2 / (f * bulk m2 + (1 - f) * bulk m1)).
  { unfold reuss. field. repeat split; lra. }
  assert (Ek : calc_bulk_modulus (bulk m1) (bulk m2) 0 f (1 - f) = Ok (reuss f (bulk m1) (bulk m2))).
  { rewrite Er. unfold calc_bulk_modulus. destruct (Req_EM_T (bulk m1) (bulk m2)) as [E|E].
    - f_equal. rewrite <- E. field. lra.
    - rewrite py_div_ok by lra. cbn [bind]. rewrite py_div_ok by lra. cbn [bind].
      replace (1 / (bulk m2 - bulk m1) + f * (1 / (bulk m1 + 4 / 3 * 0)))
        with ((f * bulk m2 + (1 - f) * bulk m1) / ((bulk m2 - bulk m1) * bulk m1)) by (field; lra).
      rewrite py_div_ok.
      + cbn [bind]. f_equal. field. repeat split; lra.
      + unfold Rdiv. apply Rmult_integral_contrapositive_currified; [lra|].
        apply Rinv_neq_0_compat, Rmult_integral_contrapositive_currified; lra. }
  rewrite Ek. cbn [bind].
  assert (Es : calc_shear_modulus (shear m1) 0 (Rmin (bulk m1) (bulk m2)) 0 f (1 - f) = Ok 0).
  { unfold calc_shear_modulus. destruct (Req_EM_T (shear m1) 0); [lra|].
    rewrite py_div_ok by lra. cbn [bind].
    rewrite py_div_ok by (pose proof (Rmin_glb_lt _ _ _ B1 B2); lra). cbn [bind].
    replace (shear m1 + 0 / 6 * (9 * Rmin (bulk m1) (bulk m2) + 8 * 0) / (Rmin (bulk m1) (bulk m2) + 2 * 0))
      with (shear m1) by (unfold Rdiv; ring).
    rewrite py_div_ok by lra. cbn [bind].
    replace (1 / (0 - shear m1) + f * (1 / shear m1)) with ((f - 1) / shear m1) by (field; lra).
    rewrite py_div_ok.
    - cbn [bind]. f_equal. field. split; lra.
    - unfold Rdiv. apply Rmult_integral_contrapositive_currified; [lra|apply Rinv_neq_0_compat; lra]. }
  rewrite Es. cbn [bind].
  destruct W1 as [D1 _], W2 as [D2 _].
  destruct (mat_of_moduli_spec (reuss f (bulk m1) (bulk m2)) 0 (voigt f (dens m1) (dens m2)))
    as [m [E [[Km [Sm _]] _]]].
  - unfold voigt. nra.
  - rewrite Er. apply div_nonneg; nra.
  - lra.
  - exists m. auto.
Qed.

Lemma walpole_fluid_second_pure m1 m2 :
  wf m1 -> wf m2 -> 0 < shear m1 -> shear m2 = 0 -> 0 < bulk m1 -> 0 < bulk m2 ->
  hashin_shtrikman_walpole m1 m2 1 "lower" = Err ZeroDivisionError.
Proof.
  intros W1 W2 S1 S2 B1 B2. change "lower"%string with (bound_name false).
  rewrite walpole_unfold, check_ratio_unit by lra. cbn [bind].
  unfold pick. rewrite S2. rewrite (Rmin_right _ 0) by lra.
  assert (Ek : exists k, calc_bulk_modulus (bulk m1) (bulk m2) 0 1 (1 - 1) = Ok k).
  { unfold calc_bulk_modulus. destruct (Req_EM_T (bulk m1) (bulk m2)); [eexists; reflexivity|].
    rewrite py_div_ok by lra. cbn [bind]. rewrite py_div_ok by lra. cbn [bind].
    rewrite py_div_ok; [eexists; reflexivity|].
    replace (1 / (bulk m2 - bulk m1) + 1 * (1 / (bulk m1 + 4 / 3 * 0)))
      with (bulk m2 / ((bulk m2 - bulk m1) * bulk m1)) by (field; lra).
    unfold Rdiv. apply Rmult_integral_contrapositive_currified; [lra|].
    apply Rinv_neq_0_compat, Rmult_integral_contrapositive_currified; lra. }
  destruct Ek as [k Ek]. rewrite Ek. cbn [bind].
  unfold calc_shear_modulus. destruct (Req_EM_T (shear m1) 0); [lra|].
  rewrite py_div_ok by lra. cbn [bind].
  rewrite py_div_ok by (pose proof (Rmin_glb_lt _ _ _ B1 B2); lra). cbn [bind].
  replace (shear m1 + 0 / 6 * (9 * Rmin (bulk m1) (bulk m2) + 8 * 0) / (Rmin (bulk m1) (bulk m2) + 2 * 0))
    with (shear m1) by (unfold Rdiv; ring).
  rewrite py_div_ok by lra. cbn [bind].
  replace (1 / (0 - shear m1) + 1 * (1 / shear m1)) with 0 by (field; lra).
  rewrite py_div_0. reflexivity.
Qed.

(** Two fluids: Walpole is Wood. *)
Lemma walpole_two_fluids u m1 m2 f :
  fluid m1 -> fluid m2 -> 0 < bulk m1 -> 0 < bulk m2 -> 0 <= f <= 1 ->
  hashin_shtrikman_walpole m1 m2 f (bound_name u) = wood_fluid_mixing [m1; m2] [f; 1 - f].
Proof.
  intros [W1 S1] [W2 S2] B1 B2 Hf.
  rewrite walpole_unfold, check_ratio_unit by exact Hf. cbn [bind].
  assert (HU : 0 < f * bulk m2 + (1 - f) * bulk m1) by (destruct (Req_EM_T f 0) as [->|]; nra).
  assert (Ep : pick u (shear m1) (shear m2) = 0).
  { rewrite S1, S2. unfold pick. destruct u; [apply Rmax_left|apply Rmin_left]; lra. }
  rewrite Ep.
  assert (Ek : calc_bulk_modulus (bulk m1) (bulk m2) 0 f (1 - f) = Ok (reuss f (bulk m1) (bulk m2))).
  { assert (Er : reuss f (bulk m1) (bulk m2) = bulk m1 * bulk m2 / (f * bulk m2 + (1 - f) * bulk m1)).
    { unfold reuss. field. repeat split; lra. }
    rewrite Er. unfold calc_bulk_modulus. destruct (Req_EM_T (bulk m1) (bulk m2)) as [E|E].
    - f_equal. rewrite <- E. field. lra.
    - rewrite py_div_ok by lra. cbn [bind]. rewrite py_div_ok by lra. cbn [bind].
      replace (1 / (bulk m2 - bulk m1) + f * (1 / (bulk m1 + 4 / 3 * 0)))
        with ((f * bulk m2 + (1 - f) * bulk m1) / ((bulk m2 - bulk m1) * bulk m1)) by (field; lra).
      rewrite py_div_ok.
      + cbn [bind]. f_equal. field. repeat split; lra.
      + unfold Rdiv. apply Rmult_integral_contrapositive_currified; [lra|].
        apply Rinv_neq_0_compat, Rmult_integral_contrapositive_currified; lra. }
  rewrite Ek. cbn [bind].
  unfold calc_shear_modulus. rewrite S1, S2. destruct (Req_EM_T 0 0); [|congruence]. cbn [bind].
  assert (U : usable [m1; m2]).
  { apply usable_cons; [split; assumption|exact B1|]. apply usable_cons; [split; assumption|exact B2|apply usable_nil]. }
  destruct (wood_value [m1; m2] [f; 1 - f] U) as [m [E [[Wm Sm] [Km [Dm [Hc _]]]]]].
  { split; [reflexivity|]. split; [constructor; [lra|constructor; [lra|constructor]]|]. cbn [rsum]. lra. }
  rewrite E. apply mat_of_moduli_eq_ok; [exact Wm| |exact Sm|].
  - rewrite Km. cbn [rsum]. unfold compl, reuss. cbn [wsum map]. field.
    split; [lra|]. split; [lra|]. lra.
  - rewrite Dm. cbn [rsum wsum map]. unfold voigt. field. lra.
Qed.

Lemma ratio_check_iff f :
  (check_is_ratio f = Ok tt <-> - (1 / 10 ^ 5) <= f <= 1 + 1 / 10 ^ 5) /\
  (check_is_ratio f = Err ValueError <-> f < - (1 / 10 ^ 5) \/ 1 + 1 / 10 ^ 5 < f).
Proof.
  unfold check_is_ratio.
  destruct (Rlt_dec (1 + 1 / 10 ^ 5) f); [split; split; try discriminate; auto; lra|].
  destruct (Rlt_dec f (0 - 1 / 10 ^ 5)); split; split; try discriminate; try reflexivity; lra.
Qed.

Lemma walpole_fluid_asymmetry :
  exists m1 m2 f m,
    solid m1 /\ fluid m2 /\ 0 < bulk m1 /\ 0 < bulk m2 /\ 0 < f < 1 /\
    hashin_shtrikman_walpole m1 m2 f "lower" = Ok m /\
    hashin_shtrikman_walpole m2 m1 (1 - f) "lower" = Err ZeroDivisionError.
Proof.
  assert (W1 : solid (sample 37 44 3)) by (apply sample_solid; lra).
  assert (W2 : fluid (sample 2 0 1)) by (apply sample_fluid; lra).
  destruct (walpole_fluid_second (sample 37 44 3) (sample 2 0 1) (1 / 2)) as [m [E _]];
    try apply W1; try apply W2; try (simpl; lra).
  exists (sample 37 44 3), (sample 2 0 1), (1 / 2), m.
  split; [exact W1|]. split; [exact W2|]. split; [simpl; lra|]. split; [simpl; lra|]. split; [lra|].
  split; [exact E|]. apply walpole_fluid_first; try apply W1; try apply W2; try (simpl; lra).
Qed.

Lemma walpole_fluid_endpoint :
  exists m1 m2,
    solid m1 /\ fluid m2 /\ 0 < bulk m1 /\ 0 < bulk m2 /\
    hashin_shtrikman_walpole m1 m2 1 "lower" = Err ZeroDivisionError.
Proof.
  assert (W1 : solid (sample 37 44 3)) by (apply sample_solid; lra).
  assert (W2 : fluid (sample 2 0 1)) by (apply sample_fluid; lra).
  exists (sample 37 44 3), (sample 2 0 1).
  split; [exact W1|]. split; [exact W2|]. split; [simpl; lra|]. split; [simpl; lra|].
  apply walpole_fluid_second_pure; try apply W1; try apply W2; try (simpl; lra).
Qed.

(** Strictness: a genuine mixture of different materials is strictly inside. *)
Lemma hs_strict f x1 x2 z : 0 < f < 1 -> 0 <= x1 -> 0 <= x2 -> 0 < z -> x1 < x2 ->
  x1 < hs f x1 x2 z < x2.
Proof.
  intros Hf H1 H2 Hz Hlt. pose proof (hs_den_pos f x1 x2 z ltac:(lra) H1 H2 Hz) as HD.
  pose proof (hs_minus1 f x1 x2 z ltac:(lra)) as M1. pose proof (hs_minus2 f x1 x2 z ltac:(lra)) as M2.
  set (D := f * x2 + (1 - f) * x1 + z) in *.
  assert (0 < (1 - f) * (x2 - x1) * (x1 + z) / D).
  { apply Rdiv_lt_0_compat; [|exact HD]. apply Rmult_lt_0_compat; [nra|lra]. }
  assert (0 < f * (x2 - x1) * (x2 + z) / D).
  { apply Rdiv_lt_0_compat; [|exact HD]. apply Rmult_lt_0_compat; [nra|lra]. }
  assert (f * (x1 - x2) * (x2 + z) / D = - (f * (x2 - x1) * (x2 + z) / D)) by (field; lra).
  lra.
Qed.

(* ---- whatever is returned: all materials, fluids too ---- *)

(** Walpole's formula as computed, [z] not negative. *)
Lemma hs_computed (x1 x2 z f k : R) :
  0 <= f <= 1 -> 0 <= x1 -> 0 <= x2 -> 0 <= z -> x1 <> x2 ->
  (let* a := py_div 1 (x2 - x1) in let* b := py_div 1 (x1 + z) in
   let* q := py_div (1 - f) (a + f * b) in Ok (x1 + q)) = Ok k ->
  0 < f * x2 + (1 - f) * x1 + z /\ k = hs f x1 x2 z.
Proof.
  intros Hf H1 H2 Hz Ne H.
  apply bind_ok in H. destruct H as (a & Ea & H). apply py_div_inv in Ea. destruct Ea as [N1 ->].
  apply bind_ok in H. destruct H as (b & Eb & H). apply py_div_inv in Eb. destruct Eb as [N2 ->].
  apply bind_ok in H. destruct H as (q & Eq & H). apply py_div_inv in Eq. destruct Eq as [N3 ->].
  injection H as <-.
  assert (D : f * x2 + (1 - f) * x1 + z <> 0).
  { intros D. apply N3.
    replace (1 / (x2 - x1) + f * (1 / (x1 + z)))
      with ((f * x2 + (1 - f) * x1 + z) / ((x2 - x1) * (x1 + z))) by (field; lra).
    rewrite D. unfold Rdiv. ring. }
  assert (D0 : 0 <= f * x2 + (1 - f) * x1 + z) by nra.
  split; [lra|]. unfold hs. field. repeat split; try lra.
Qed.

Lemma hs_between_at f x1 x2 z : 0 <= f <= 1 -> 0 <= x1 -> 0 <= x2 -> 0 <= z -> 0 < f * x2 + (1 - f) * x1 + z ->
  between x1 (hs f x1 x2 z) x2.
Proof.
  intros Hf H1 H2 Hz D.
  assert (E1 : hs f x1 x2 z - x1 = (1 - f) * (x1 + z) * (x2 - x1) / (f * x2 + (1 - f) * x1 + z)) by (unfold hs; field; lra).
  assert (E2 : hs f x1 x2 z - x2 = f * (x2 + z) * (x1 - x2) / (f * x2 + (1 - f) * x1 + z)) by (unfold hs; field; lra).
  assert (I : 0 < / (f * x2 + (1 - f) * x1 + z)) by (apply Rinv_0_lt_compat, D).
  assert (A : 0 <= (1 - f) * (x1 + z)) by (apply Rmult_le_pos; lra).
  assert (B : 0 <= f * (x2 + z)) by (apply Rmult_le_pos; lra).
  unfold Rdiv in *. set (i := / (f * x2 + (1 - f) * x1 + z)) in *.
  set (p := (1 - f) * (x1 + z)) in *. set (q := f * (x2 + z)) in *.
  assert (0 <= p * i) by nra. assert (0 <= q * i) by nra.
  unfold between. destruct (Rle_dec x1 x2).
  - rewrite Rmin_left, Rmax_right by lra.
    assert (0 <= p * (x2 - x1) * i) by (replace (p * (x2 - x1) * i) with (p * i * (x2 - x1)) by ring; apply Rmult_le_pos; lra).
    assert (0 <= q * (x2 - x1) * i) by (replace (q * (x2 - x1) * i) with (q * i * (x2 - x1)) by ring; apply Rmult_le_pos; lra).
    lra.
  - rewrite Rmin_right, Rmax_left by lra.
    assert (0 <= p * (x1 - x2) * i) by (replace (p * (x1 - x2) * i) with (p * i * (x1 - x2)) by ring; apply Rmult_le_pos; lra).
    assert (0 <= q * (x1 - x2) * i) by (replace (q * (x1 - x2) * i) with (q * i * (x1 - x2)) by ring; apply Rmult_le_pos; lra).
    lra.
Qed.

Lemma hs_mono_at f x1 x2 z z' : 0 <= f <= 1 -> 0 < f * x2 + (1 - f) * x1 + z -> z <= z' ->
  hs f x1 x2 z <= hs f x1 x2 z'.
Proof.
  intros Hf D Hz'. unfold hs. apply div_le_div; [assumption|lra|].
  assert (E : (x1 * x2 + z' * (f * x1 + (1 - f) * x2)) * (f * x2 + (1 - f) * x1 + z) -
              (x1 * x2 + z * (f * x1 + (1 - f) * x2)) * (f * x2 + (1 - f) * x1 + z')
              = (z' - z) * (f * (1 - f) * (x1 - x2) ^ 2)) by ring.
  assert (0 <= (z' - z) * (f * (1 - f) * (x1 - x2) ^ 2)).
  { apply Rmult_le_pos; [lra|]. apply Rmult_le_pos; [nra|apply pow2_ge_0]. }
  lra.
Qed.

Lemma calc_bulk_any k1 k2 mum f k : 0 <= f <= 1 -> 0 <= k1 -> 0 <= k2 -> 0 <= mum ->
  calc_bulk_modulus k1 k2 mum f (1 - f) = Ok k ->
  (k1 = k2 /\ k = k1) \/ (k1 <> k2 /\ 0 < f * k2 + (1 - f) * k1 + 4 / 3 * mum /\ k = hs f k1 k2 (4 / 3 * mum)).
Proof.
  intros Hf H1 H2 Hm H. unfold calc_bulk_modulus in H.
  destruct (Req_EM_T k1 k2) as [->|Ne]; [injection H as <-; auto|]. right.
  split; [exact Ne|]. apply hs_computed; try assumption. lra.
Qed.

Lemma calc_shear_any mu1 mu2 km mum f mu : 0 <= f <= 1 -> 0 <= mu1 -> 0 <= mu2 -> 0 <= km -> 0 <= mum ->
  calc_shear_modulus mu1 mu2 km mum f (1 - f) = Ok mu ->
  (mu1 = mu2 /\ mu = mu1) \/
  (mu1 <> mu2 /\ 0 <= zeta km mum /\ 0 < f * mu2 + (1 - f) * mu1 + zeta km mum /\ mu = hs f mu1 mu2 (zeta km mum)).
Proof.
  intros Hf H1 H2 Hk Hm H. unfold calc_shear_modulus in H.
  destruct (Req_EM_T mu1 mu2) as [->|Ne]; [injection H as <-; auto|]. right. split; [exact Ne|].
  apply bind_ok in H. destruct H as (a & Ea & H). pose proof Ea as Ea'. apply py_div_inv in Ea. destruct Ea as [N1 ->].
  apply bind_ok in H. destruct H as (z & Ez & H). apply py_div_inv in Ez. destruct Ez as [N2 ->].
  fold (zeta km mum) in H.
  assert (Z : 0 <= zeta km mum).
  { unfold zeta. apply Rmult_le_pos; [nra|]. left. apply Rinv_0_lt_compat. lra. }
  split; [exact Z|]. apply hs_computed; try assumption. rewrite Ea'. exact H.
Qed.

Lemma zeta_mono_at k k' m m' : 0 <= k -> k <= k' -> 0 <= m -> m <= m' -> zeta k m <= zeta k' m'.
Proof.
  intros Hk Hk' Hm Hm'. destruct (Req_EM_T m 0) as [->|].
  - replace (zeta k 0) with 0 by (unfold zeta, Rdiv; ring).
    destruct (Req_EM_T m' 0) as [->|]; [unfold zeta, Rdiv; lra|]. apply Rlt_le, zeta_pos; lra.
  - apply zeta_mono; lra.
Qed.

Lemma pick_nonneg_wf u m1 m2 : wf m1 -> wf m2 ->
  0 <= pick u (shear m1) (shear m2) /\ 0 <= pick u (bulk m1) (bulk m2).
Proof.
  intros [_ [K1 [S1 _]]] [_ [K2 [S2 _]]]. split; apply pick_nonneg; assumption.
Qed.

Lemma walpole_any_between u m1 m2 f m : wf m1 -> wf m2 -> 0 <= f <= 1 ->
  hashin_shtrikman_walpole m1 m2 f (bound_name u) = Ok m ->
  wf m /\ between (bulk m1) (bulk m) (bulk m2) /\ between (shear m1) (shear m) (shear m2) /\
  dens m = f * dens m1 + (1 - f) * dens m2.
Proof.
  intros W1 W2 Hf H. destruct (pick_nonneg_wf u m1 m2 W1 W2) as [Ps Pk].
  rewrite walpole_unfold, check_ratio_unit in H by exact Hf. cbn [bind] in H.
  apply bind_ok in H. destruct H as (k & Ek & H). apply bind_ok in H. destruct H as (mu & Em & H).
  destruct W1 as [D1 [K1 [S1 _]]], W2 as [D2 [K2 [S2 _]]].
  assert (Bk : between (bulk m1) k (bulk m2)).
  { apply calc_bulk_any in Ek; try assumption. destruct Ek as [[E ->]|[_ [D ->]]].
    - rewrite <- E. unfold between. rewrite Rmin_left, Rmax_left by lra. lra.
    - apply hs_between_at; try assumption. lra. }
  assert (Bm : between (shear m1) mu (shear m2)).
  { apply calc_shear_any in Em; try assumption. destruct Em as [[E ->]|[_ [Z [D ->]]]].
    - rewrite <- E. unfold between. rewrite Rmin_left, Rmax_left by lra. lra.
    - apply hs_between_at; assumption. }
  assert (0 <= k). { unfold between in Bk. pose proof (Rmin_glb _ _ _ K1 K2). lra. }
  assert (0 <= mu). { unfold between in Bm. pose proof (Rmin_glb _ _ _ S1 S2). lra. }
  destruct (mat_of_moduli_spec k mu (voigt f (dens m1) (dens m2))) as [m' [E [[Ek' [Em' [Ed _]]] W]]]; try assumption.
  { unfold voigt. destruct (Req_EM_T f 0) as [->|]; nra. }
  rewrite E in H. injection H as ->. rewrite Ek', Em', Ed. auto.
Qed.

Lemma walpole_any_lower_le_upper m1 m2 f lo up : wf m1 -> wf m2 -> 0 <= f <= 1 ->
  hashin_shtrikman_walpole m1 m2 f "lower" = Ok lo -> hashin_shtrikman_walpole m1 m2 f "upper" = Ok up ->
  bulk lo <= bulk up /\ shear lo <= shear up /\ dens lo = dens up.
Proof.
  intros W1 W2 Hf L U.
  pose proof (walpole_any_between false m1 m2 f lo W1 W2 Hf L) as (_ & _ & _ & DL).
  pose proof (walpole_any_between true m1 m2 f up W1 W2 Hf U) as (_ & _ & _ & DU).
  destruct (pick_nonneg_wf false m1 m2 W1 W2) as [Ps Pk].
  destruct (pick_nonneg_wf true m1 m2 W1 W2) as [Qs Qk].
  change "lower"%string with (bound_name false) in L. change "upper"%string with (bound_name true) in U.
  rewrite walpole_unfold, check_ratio_unit in L, U by exact Hf. cbn [bind] in L, U.
  apply bind_ok in L. destruct L as (k & Ek & L). apply bind_ok in L. destruct L as (mu & Em & L).
  apply bind_ok in U. destruct U as (k' & Ek' & U). apply bind_ok in U. destruct U as (mu' & Em' & U).
  apply mat_of_moduli_inv in L. apply mat_of_moduli_inv in U.
  destruct W1 as [D1 [K1 [S1 _]]], W2 as [D2 [K2 [S2 _]]].
  pose proof (pick_le (shear m1) (shear m2)). pose proof (pick_le (bulk m1) (bulk m2)).
  assert (A : k <= k').
  { apply calc_bulk_any in Ek; try assumption. apply calc_bulk_any in Ek'; try assumption.
    destruct Ek as [[E ->]|[N [D ->]]], Ek' as [[E' ->]|[N' [D' ->]]]; try contradiction; [lra|].
    apply hs_mono_at; try assumption. lra. }
  assert (B : mu <= mu').
  { apply calc_shear_any in Em; try assumption. apply calc_shear_any in Em'; try assumption.
    destruct Em as [[E ->]|[N [Z [D ->]]]], Em' as [[E' ->]|[N' [Z' [D' ->]]]]; try contradiction; [lra|].
    apply hs_mono_at; try assumption. apply zeta_mono_at; assumption. }
  destruct L as (_ & _ & _ & Lm), U as (_ & _ & _ & Um).
  rewrite Lm, Um in *. cbn [bulk shear dens] in *. split; [exact A|]. split; [exact B|congruence].
Qed.

Lemma walpole_solid_fluid_sample :
  solid (sample 37 44 3) /\ fluid (sample 2 0 1) /\
  is_ok (hashin_shtrikman_walpole (sample 37 44 3) (sample 2 0 1) (1 / 2) "lower") /\
  is_ok (hashin_shtrikman_walpole (sample 37 44 3) (sample 2 0 1) (1 / 2) "upper").
Proof.
  assert (W1 : solid (sample 37 44 3)) by (apply sample_solid; lra).
  assert (W2 : fluid (sample 2 0 1)) by (apply sample_fluid; lra).
  split; [exact W1|]. split; [exact W2|]. split.
  - change "lower"%string with (bound_name false).
    rewrite walpole_unfold, check_ratio_unit by lra. cbn [bind pick sample bulk shear dens].
    rewrite !Rmin_right by lra. unfold calc_bulk_modulus, calc_shear_modulus.
    destruct (Req_EM_T 37 2); [lra|]. destruct (Req_EM_T 44 0); [lra|].
    rewrite !py_div_ok by lra. cbn [bind]. rewrite !py_div_ok by lra. cbn [bind].
    replace (1 / (44 + 0 / 6 * (9 * 2 + 8 * 0) / (2 + 2 * 0))) with (1 / 44) by field.
    rewrite !py_div_ok by lra. cbn [bind].
    edestruct mat_of_moduli_spec as [m' [E _]]; [| | |eexists; exact E]; unfold voigt; lra.
  - destruct (walpole_between true (sample 37 44 3) (sample 2 0 1) (1 / 2)) as (m & E & _); [|lra|exists m; exact E].
    split; [apply W1|]. split; [apply W2|]. left. simpl. lra.
Qed.
