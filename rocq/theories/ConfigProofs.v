(** Lemmas about the dry rock part of the configuration. *)
From Coq Require Import String List.
From Verif Require Import Base BaseProofs MaterialModel Spec MaterialProofs HashinShtrikmanModel HashinShtrikmanProofs SandstoneModel SandstoneProofs ConfigModel.
Open Scope R_scope.

(* ---- pressure ---- *)
Lemma clip_spec x m :
  clip_above x m = match m with None => x | Some b => Rmin x b end.
Proof. reflexivity. Qed.

Lemma truncation p :
  (forall f, p_fluid p = Some f ->
     truncated_fluid p = Ok match p_max_effective p with
                            | None => p_overburden p - f
                            | Some b => Rmin (p_overburden p - f) b end) /\
  (forall f, p_rock p = Some f ->
     truncated_rock p = Ok match p_max_effective p with
                            | None => p_overburden p - f
                            | Some b => Rmin (p_overburden p - f) b end) /\
  truncated_reference p = match p_max_effective p with
                          | None => p_overburden p - p_reference p
                          | Some b => Rmin (p_overburden p - p_reference p) b end.
Proof.
  split; [|split]; [intros f E; unfold truncated_fluid; rewrite E; reflexivity
                   |intros f E; unfold truncated_rock; rewrite E; reflexivity|reflexivity].
Qed.

Lemma truncation_antitone o r fl fl' m rk rk' :
  fl <= fl' -> rk <= rk' ->
  exists a a' b b',
    truncated_fluid (mkPressure o r (Some fl) m (Some rk)) = Ok a /\
    truncated_fluid (mkPressure o r (Some fl') m (Some rk')) = Ok a' /\ a' <= a /\
    truncated_rock (mkPressure o r (Some fl) m (Some rk)) = Ok b /\
    truncated_rock (mkPressure o r (Some fl') m (Some rk')) = Ok b' /\ b' <= b /\
    (forall mx, m = Some mx -> a <= mx /\ b <= mx).
Proof.
  intros H H'. unfold truncated_fluid, truncated_rock; simpl.
  do 4 eexists. split; [reflexivity|]. split; [reflexivity|]. split.
  { destruct m; simpl; [apply Rle_min_compat_r; lra|lra]. }
  split; [reflexivity|]. split; [reflexivity|]. split.
  { destruct m; simpl; [apply Rle_min_compat_r; lra|lra]. }
  intros mx ->. simpl. split; apply Rmin_r.
Qed.

Lemma pore_pressure_refuted :
  exists p, make_pressure Absent Absent Null Absent Null = Ok p /\ p_fluid p = None /\ p_rock p = None.
Proof. eexists. split; [reflexivity|]. split; reflexivity. Qed.

Lemma rock_defaults_to_fluid o r m fl p :
  make_pressure o r (Given fl) m Absent = Ok p \/ make_pressure o r (Given fl) m Null = Ok p ->
  p_rock p = Some fl /\ p_fluid p = Some fl.
Proof.
  intros [H|H]; unfold make_pressure in H;
    (destruct (plain_field _ o); [|discriminate]); cbn [bind] in H;
    (destruct (plain_field _ r); [|discriminate]); cbn [bind] in H; cbn in H;
    injection H as <-; split; reflexivity.
Qed.
Lemma null_fluid_defaults_to_rock o r m rk p :
  make_pressure o r Null m (Given rk) = Ok p -> p_rock p = Some rk /\ p_fluid p = Some rk.
Proof.
  intros H; unfold make_pressure in H;
    (destruct (plain_field _ o); [|discriminate]); cbn [bind] in H;
    (destruct (plain_field _ r); [|discriminate]); cbn [bind] in H; cbn in H;
    injection H as <-; split; reflexivity.
Qed.
Lemma rock_only_refuted :
  exists rk p, make_pressure Absent Absent Absent Absent (Given rk) = Ok p /\
    p_rock p = Some rk /\ p_fluid p = Some 70000000 /\ p_fluid p <> Some rk.
Proof.
  exists 50000000. eexists. split; [reflexivity|]. split; [reflexivity|]. split; [reflexivity|].
  simpl. intros E. injection E. lra.
Qed.

(* ---- polynomials ---- *)
Lemma power_sum_shift c y k : power_sum c y (S k) = y * power_sum c y k.
Proof.
  revert k. induction c as [|a c IH]; intros k; [simpl; ring|].
  change (a * y ^ S k + power_sum c y (S (S k)) = y * (a * y ^ k + power_sum c y (S k))).
  rewrite (IH (S k)). simpl. ring.
Qed.
Lemma poly_eval_spec y c : poly_eval y c = power_sum c y 0.
Proof.
  induction c as [|a c IH]; [reflexivity|].
  change (poly_eval y (a :: c)) with (a + poly_eval y c * y).
  change (power_sum (a :: c) y 0) with (a * y ^ 0 + power_sum c y 1).
  rewrite IH, power_sum_shift. simpl. ring.
Qed.
Lemma poly_eval_map2 y x l1 l2 : length l1 = length l2 ->
  poly_eval y (map2 (fun a acc => a + acc * x) l1 l2) = poly_eval y l1 + x * poly_eval y l2.
Proof.
  revert l2. induction l1 as [|a l1 IH]; destruct l2 as [|b l2]; intros H; try discriminate.
  - simpl. ring.
  - injection H as H. simpl map2.
    change (a + b * x + poly_eval y (map2 (fun a0 acc => a0 + acc * x) l1 l2) * y
            = a + poly_eval y l1 * y + x * (b + poly_eval y l2 * y)).
    rewrite IH by exact H. ring.
Qed.
Lemma map2_length f l1 l2 : length l1 = length l2 -> length (map2 f l1 l2) = length l1.
Proof.
  revert l2. induction l1 as [|a l1 IH]; destruct l2; intros H; try discriminate; [reflexivity|].
  injection H as H. simpl. rewrite IH by exact H. reflexivity.
Qed.
Lemma power_sum2_shift c x y k : power_sum2 c x y (S k) = x * power_sum2 c x y k.
Proof.
  revert k. induction c as [|a c IH]; intros k; [simpl; ring|].
  change (x ^ S k * power_sum a y 0 + power_sum2 c x y (S (S k))
          = x * (x ^ k * power_sum a y 0 + power_sum2 c x y (S k))).
  rewrite (IH (S k)). simpl. ring.
Qed.
Lemma poly_rows_spec x y n c : c <> [] -> Forall (fun row => length row = n) c ->
  length (poly_rows x c) = n /\ poly_eval y (poly_rows x c) = power_sum2 c x y 0.
Proof.
  intros H F. induction F as [|row c Hr F IH]; [congruence|].
  destruct c as [|row' c].
  - simpl poly_rows. split; [exact Hr|]. rewrite poly_eval_spec. simpl. ring.
  - destruct (IH ltac:(discriminate)) as [L E].
    change (poly_rows x (row :: row' :: c)) with
      (map2 (fun a acc => a + acc * x) row (poly_rows x (row' :: c))).
    split; [rewrite map2_length; congruence|].
    rewrite poly_eval_map2 by congruence. rewrite E.
    change (power_sum2 (row :: row' :: c) x y 0) with
      (x ^ 0 * power_sum row y 0 + power_sum2 (row' :: c) x y 1).
    rewrite power_sum2_shift, poly_eval_spec. simpl. ring.
Qed.
Lemma polyval2d_spec x y c : rectangular c -> polyval2d x y c = Ok (power_sum2 c x y 0).
Proof.
  intros [H [n [Hn F]]]. destruct (poly_rows_spec x y n c H F) as [L E].
  unfold polyval2d. destruct (poly_rows x c) as [|a l]; [simpl in L; lia|]. rewrite E. reflexivity.
Qed.
Lemma np_polyval_spec l x : np_polyval l x = power_sum (rev l) x 0.
Proof.
  unfold np_polyval. rewrite <- fold_left_rev_right. rewrite <- poly_eval_spec. unfold poly_eval.
  induction (rev l) as [|a m IH]; simpl; [reflexivity|]. rewrite IH. ring.
Qed.

Definition coef_ok (c : coefficients (list (list R))) : Prop :=
  exists a b d, c_density c = Some a /\ c_primary c = Some b /\ c_secondary c = Some d /\
    rectangular a /\ rectangular b /\ rectangular d.

Lemma polyval_material_moduli v m a b d :
  rectangular a -> rectangular b -> rectangular d ->
  polyval_material v m (mkCoef Moduli (Some a) (Some b) (Some d)) =
  mat_of_moduli (power_sum2 b (bulk m) v 0) (power_sum2 d (shear m) v 0) (power_sum2 a (dens m) v 0).
Proof.
  intros Ha Hb Hd. unfold polyval_material, fit_property; simpl.
  rewrite !polyval2d_spec by assumption. reflexivity.
Qed.
Lemma polyval_material_velocity v m a b d :
  rectangular a -> rectangular b -> rectangular d ->
  polyval_material v m (mkCoef Velocity (Some a) (Some b) (Some d)) =
  mat_of_velocities (power_sum2 a (dens m) v 0) (power_sum2 b (vp m) v 0) (power_sum2 d (vs m) v 0).
Proof.
  intros Ha Hb Hd. unfold polyval_material, fit_property; simpl.
  rewrite !polyval2d_spec by assumption. reflexivity.
Qed.

Lemma wf_velocities m : wf m -> mat_of_velocities (dens m) (vp m) (vs m) = Ok m.
Proof. intros W. apply (roundtrip_moduli (bulk m) (shear m)). apply wf_eta. exact W. Qed.

Lemma identity_polynomial fl v m a b d :
  wf m -> rectangular a -> rectangular b -> rectangular d ->
  (forall x, power_sum2 a x v 0 = x) -> (forall x, power_sum2 b x v 0 = x) ->
  (forall x, power_sum2 d x v 0 = x) ->
  polyval_material v m (mkCoef fl (Some a) (Some b) (Some d)) = Ok m.
Proof.
  intros W Ra Rb Rd Ha Hb Hd. destruct fl.
  - rewrite polyval_material_moduli by assumption. rewrite Ha, Hb, Hd. apply wf_eta. exact W.
  - rewrite polyval_material_velocity by assumption. rewrite Ha, Hb, Hd. apply wf_velocities. exact W.
Qed.

(** The identity matrix of coefficients: [[0 ... 0]; [1; 0 ... 0]]. *)
Lemma power_sum_zeros n y k : power_sum (repeat 0 n) y k = 0.
Proof. revert k. induction n as [|n IH]; intros k; simpl; [reflexivity|]. rewrite IH. ring. Qed.
Lemma identity_matrix n x y : power_sum2 [repeat 0 (S n); 1 :: repeat 0 n] x y 0 = x.
Proof.
  change (x ^ 0 * power_sum (repeat 0 (S n)) y 0 + (x ^ 1 * (1 * y ^ 0 + power_sum (repeat 0 n) y 1) + 0) = x).
  rewrite !power_sum_zeros. simpl. ring.
Qed.
Lemma identity_rectangular n : rectangular [repeat 0 (S n); 1 :: repeat 0 n].
Proof.
  split; [discriminate|]. exists (S n). split; [lia|].
  apply Forall_cons; [apply repeat_length|]. apply Forall_cons; [simpl; rewrite repeat_length; reflexivity|].
  apply Forall_nil.
Qed.

(** Constant matrices [[c]] replace a value. *)
Lemma constant_rectangular c : rectangular [[c]].
Proof.
  split; [discriminate|]. exists 1%nat. split; [lia|]. apply Forall_cons; [reflexivity|apply Forall_nil].
Qed.
Lemma constant_matrix c x y : power_sum2 [[c]] x y 0 = c.
Proof. simpl. ring. Qed.

(* ---- fits ---- *)
Lemma tiny_false x : tiny_value x = false <-> 1 / 10 ^ 20 < Rabs x.
Proof. unfold tiny_value. destruct (Rle_dec _ _); split; intros; try discriminate; try reflexivity; lra. Qed.
Lemma tiny_true x : tiny_value x = true <-> Rabs x <= 1 / 10 ^ 20.
Proof. unfold tiny_value. destruct (Rle_dec _ _); split; intros; try discriminate; try reflexivity; lra. Qed.
Lemma not_tiny_nz x : tiny_value x = false -> x <> 0.
Proof. intros H E. apply tiny_false in H. rewrite E, Rabs_R0 in H. lra. Qed.

Definition not_powerfit (md : dependency_model) : Prop :=
  match md with Powerfit _ _ _ => False | _ => True end.

Lemma dependency_generic md m p r phi mn : not_powerfit md ->
  pressure_dependency md m p r phi mn = generic_dependency md m p r phi mn.
Proof. destruct md; simpl; intros H; try reflexivity. contradiction. Qed.

Lemma orb3 a b c : orb a (orb b c) = false -> a = false /\ b = false /\ c = false.
Proof. destruct a, b, c; simpl; intros H; try discriminate; auto. Qed.

Lemma dependency_identity md m p phi mn d a b :
  not_powerfit md -> wf m -> eval_model md p phi mn = Ok (d, a, b) ->
  1 / 10 ^ 20 < Rabs d -> 1 / 10 ^ 20 < Rabs a -> 1 / 10 ^ 20 < Rabs b ->
  pressure_dependency md m p p phi mn = Ok m.
Proof.
  intros N W E Hd Ha Hb. rewrite dependency_generic by exact N. unfold generic_dependency. rewrite E. cbn [bind].
  apply tiny_false in Hd, Ha, Hb. rewrite Hd, Ha, Hb. cbn [orb].
  apply not_tiny_nz in Hd, Ha, Hb.
  replace (a / a) with 1 by (field; exact Ha). replace (b / b) with 1 by (field; exact Hb).
  replace (d / d) with 1 by (field; exact Hd). rewrite !Rmult_1_r.
  destruct (model_uses_moduli md); [apply wf_eta; exact W|apply wf_velocities; exact W].
Qed.

Lemma dependency_identity_ok md m p phi mn m' :
  not_powerfit md -> wf m -> pressure_dependency md m p p phi mn = Ok m' -> m' = m.
Proof.
  intros N W H. pose proof H as H0. rewrite dependency_generic in H by exact N. unfold generic_dependency in H.
  destruct (eval_model md p phi mn) as [[[d a] b]|] eqn:E; [|discriminate]. cbn [bind] in H.
  destruct (orb _ _) eqn:T; [discriminate|]. apply orb3 in T. destruct T as [T1 [T2 T3]].
  apply tiny_false in T1, T2, T3.
  rewrite (dependency_identity md m p phi mn d a b N W E T1 T2 T3) in H0. congruence.
Qed.

Lemma adjust_identity md m pr phi mn rk m' :
  not_powerfit md -> wf m -> p_rock pr = Some rk -> rk = p_reference pr ->
  adjust_one (PressureDependency md) m pr phi mn = Ok m' -> m' = m.
Proof.
  intros N W Er Eq H. simpl in H. unfold adjust_pressure in H.
  unfold truncated_rock in H. rewrite Er in H. cbn [bind] in H.
  assert (E : truncated_reference pr = clip_above (p_overburden pr - rk) (p_max_effective pr)).
  { unfold truncated_reference. rewrite Eq. reflexivity. }
  rewrite E in H. destruct md; simpl in N; try contradiction; cbn [bind] in H;
    (eapply dependency_identity_ok; [|exact W|exact H]; exact I).
Qed.

Lemma mat_of_velocities_keeps d p s m : mat_of_velocities d p s = Ok m -> dens m = d /\ vp m = p /\ vs m = s.
Proof.
  intros H. unfold mat_of_velocities in H. apply mk_material_keeps in H.
  destruct H as [_ [_ [H1 [H2 H3]]]]. repeat split; auto.
Qed.

Lemma dependency_composes md m m1 m2 p0 p1 p2 phi mn :
  not_powerfit md ->
  pressure_dependency md m p1 p0 phi mn = Ok m1 ->
  pressure_dependency md m1 p2 p1 phi mn = Ok m2 ->
  pressure_dependency md m p2 p0 phi mn = Ok m2.
Proof.
  intros N. rewrite !dependency_generic by exact N. unfold generic_dependency. intros H1 H2.
  destruct (eval_model md p0 phi mn) as [[[d0 a0] b0]|] eqn:E0; [|discriminate].
  destruct (eval_model md p1 phi mn) as [[[d1 a1] b1]|] eqn:E1; [|discriminate].
  destruct (eval_model md p2 phi mn) as [[[d2 a2] b2]|] eqn:E2; [|discriminate].
  cbn [bind] in *.
  destruct (orb (tiny_value d0) _) eqn:T0; [discriminate|].
  destruct (orb (tiny_value d1) _) eqn:T1; [discriminate|].
  apply orb3 in T0. destruct T0 as [A1 [A2 A3]]. apply orb3 in T1. destruct T1 as [B1 [B2 B3]].
  apply not_tiny_nz in A1, A2, A3, B1, B2, B3.
  destruct (model_uses_moduli md).
  - destruct (mat_of_moduli_wf _ _ _ _ H1) as [_ [K [S D]]]. rewrite K, S, D in H2.
    rewrite <- H2. f_equal; field; auto.
  - destruct (mat_of_velocities_keeps _ _ _ _ H1) as [D [K S]]. rewrite K, S, D in H2.
    rewrite <- H2. f_equal; field; auto.
Qed.

Lemma dependency_zero_reference md m p r phi mn d a b e :
  not_powerfit md -> eval_model md r phi mn = Ok (d, a, b) -> eval_model md p phi mn = Ok e ->
  (pressure_dependency md m p r phi mn = Err ValueError) \/
  (1 / 10 ^ 20 < Rabs d /\ 1 / 10 ^ 20 < Rabs a /\ 1 / 10 ^ 20 < Rabs b).
Proof.
  intros N E E'. rewrite dependency_generic by exact N. unfold generic_dependency. rewrite E, E'. cbn [bind].
  destruct e as [[e1 e2] e3]. destruct (orb _ _) eqn:T; [left; reflexivity|right].
  apply orb3 in T. destruct T as [T1 [T2 T3]]. apply tiny_false in T1, T2, T3. auto.
Qed.

(* ---- powerfit ---- *)
Lemma sq_div x y : y <> 0 -> (x / y) ^ 2 = x ^ 2 / y ^ 2.
Proof. intros. field. assumption. Qed.

Lemma powerfit_value d b v m p r phi mn rd rp rs ed ep es m' :
  eval_model (Powerfit d b v) r phi mn = Ok (rd, rp, rs) ->
  eval_model (Powerfit d b v) p phi mn = Ok (ed, ep, es) ->
  pressure_dependency (Powerfit d b v) m p r phi mn = Ok m' ->
  vs m <> 0 /\ wf m' /\
  dens m' = dens m + (ed - rd) /\ bulk m' = bulk m + (ep - rp) /\
  shear m' * ((vp m / vs m + (es - rs)) ^ 2 - 4 / 3) = bulk m' /\
  1 / 10 ^ 20 < (vp m / vs m + (es - rs)) ^ 2 - 4 / 3.
Proof.
  intros E1 E2 H. unfold pressure_dependency, powerfit_dependency in H. rewrite E1, E2 in H. cbn [bind] in H.
  destruct (np_div (vp m) (vs m)) as [q|] eqn:Eq; [|discriminate]. cbn [bind] in H.
  apply np_div_inv in Eq. destruct Eq as [Hn ->].
  destruct (Rle_dec _ _) as [h|h]; [discriminate|].
  destruct (mat_of_moduli_wf _ _ _ _ H) as [W [K [S D]]].
  split; [exact Hn|]. split; [exact W|]. split; [exact D|]. split; [exact K|].
  split; [|lra]. rewrite S, K.
  set (t := (vp m / vs m + (es - rs)) ^ 2 - 4 / 3) in *.
  assert (0 < t) by (assert (0 < 1 / 10 ^ 20) by lra; lra). field. lra.
Qed.

Lemma powerfit_ratio d b v m p r phi mn rd rp rs ed ep es m' :
  eval_model (Powerfit d b v) r phi mn = Ok (rd, rp, rs) ->
  eval_model (Powerfit d b v) p phi mn = Ok (ed, ep, es) ->
  pressure_dependency (Powerfit d b v) m p r phi mn = Ok m' ->
  0 < bulk m + (ep - rp) ->
  dens m' = dens m + (ed - rd) /\ bulk m' = bulk m + (ep - rp) /\ 0 < vs m' /\
  (vp m' / vs m') ^ 2 = (vp m / vs m + (es - rs)) ^ 2 /\
  (0 <= vp m / vs m + (es - rs) -> vp m' / vs m' = vp m / vs m + (es - rs)).
Proof.
  intros E1 E2 H Hb.
  destruct (powerfit_value d b v m p r phi mn rd rp rs ed ep es m' E1 E2 H) as [Hn [W [D [K [S T]]]]].
  split; [exact D|]. split; [exact K|].
  set (x := vp m / vs m + (es - rs)) in *.
  assert (HS : 0 < shear m') by nra.
  destruct W as [Dp [_ [_ [_ [_ [_ [Vp [Ep [Vs Es]]]]]]]]].
  assert (Hv : 0 < vs m').
  { destruct Vs as [h|h]; [exact h|]. rewrite <- h in Es. lra. }
  split; [exact Hv|].
  assert (Q : (vp m' / vs m') ^ 2 = x ^ 2).
  { rewrite sq_div by lra. apply Rmult_eq_reg_r with (shear m'); [|lra].
    rewrite <- Es at 1.
    replace (vp m' ^ 2 / vs m' ^ 2 * (vs m' * vs m' * dens m')) with (vp m' * vp m' * dens m') by (field; lra).
    rewrite Ep. lra. }
  split; [exact Q|]. intros Hx.
  assert (0 <= vp m' / vs m') by (apply div_nonneg; lra). nra.
Qed.

Definition unit_power (a b c : R) : dependency_model := Powerfit (Some [a; 0]) (Some [b; 0]) (Some [c; 0]).

Lemma powerfit_row_linear c x : 0 < x -> powerfit_row x [c; 1] = Ok (c * x).
Proof. intros H. unfold powerfit_row, column. cbn. rewrite np_pow_pos by exact H. cbn [bind]. rewrite Rpower_1 by exact H. reflexivity. Qed.

Lemma powerfit_eval_linear a b c x phi mn : 0 < x ->
  eval_model (Powerfit (Some [a; 1]) (Some [b; 1]) (Some [c; 1])) x phi mn = Ok (a * x, b * x, c * x).
Proof.
  intros H. cbn [eval_model coefficient_rows length Nat.eqb andb bind three].
  rewrite !powerfit_row_linear by exact H. reflexivity.
Qed.

(** Velocity ratio driven below zero: accepted. *)
Lemma powerfit_negative_ratio_refuted :
  exists m mn p r phi m' c,
    wf m /\ 0 < shear m /\
    eval_model (Powerfit (Some [0; 1]) (Some [0; 1]) (Some [c; 1])) p phi mn = Ok (0, 0, c * p) /\
    eval_model (Powerfit (Some [0; 1]) (Some [0; 1]) (Some [c; 1])) r phi mn = Ok (0, 0, c * r) /\
    vp m / vs m + (c * p - c * r) < 0 /\
    pressure_dependency (Powerfit (Some [0; 1]) (Some [0; 1]) (Some [c; 1])) m p r phi mn = Ok m'.
Proof.
  (* vp/vs = 2: K + 4/3 mu = 4 mu, K = 8/3, mu = 1 *)
  pose (m := mkMat (8 / 3) 1 1 2 1).
  assert (W : wf m).
  { split; [simpl; lra|]. split; [simpl; lra|]. split; [simpl; lra|].
    unfold is_material; simpl. repeat split; lra. }
  exists m, m, 2, 1, (1 / 4). 
  destruct (mat_of_moduli_spec (8 / 3 + (0 - 0)) ((8 / 3 + (0 - 0)) / ((2 / 1 + (-4 * 2 - -4 * 1)) ^ 2 - 4 / 3)) (1 + (0 - 0)))
    as [m' [E _]]; [lra|lra| |].
  { replace ((2 / 1 + (-4 * 2 - -4 * 1)) ^ 2 - 4 / 3) with (8 / 3) by field. lra. }
  exists m', (-4). split; [exact W|]. split; [simpl; lra|].
  assert (E1 : forall x, 0 < x -> eval_model (Powerfit (Some [0; 1]) (Some [0; 1]) (Some [-4; 1])) x (1 / 4) m = Ok (0, 0, -4 * x)).
  { intros x Hx. rewrite powerfit_eval_linear by exact Hx. repeat f_equal; ring. }
  split; [apply E1; lra|]. split; [apply E1; lra|]. split; [simpl; lra|].
  unfold pressure_dependency, powerfit_dependency. rewrite !E1 by lra. cbn [bind].
  change (vp m) with 2. change (vs m) with 1. change (bulk m) with (8 / 3). change (dens m) with 1.
  rewrite np_div_ok by lra. cbn [bind].
  destruct (Rle_dec _ _) as [h|h]; [exfalso|exact E].
  replace ((2 / 1 + (-4 * 2 - -4 * 1)) ^ 2 - 4 / 3) with (8 / 3) in h by field. lra.
Qed.

Lemma powerfit_identity_refuted :
  exists m mn pr phi a b c rk m',
    wf m /\ p_rock pr = Some rk /\ p_reference pr = rk /\
    adjust_one (PressureDependency (Powerfit a b c)) m pr phi mn = Ok m' /\ bulk m' <> bulk m.
Proof.
  pose (m := sample 1 1 1). assert (W : wf m) by (apply sample_wf; lra).
  exists m, m, (mkPressure 100 30 (Some 30) None (Some 30)), (1 / 4).
  exists (Some [0; 1]), (Some [-1; 1]), (Some [0; 1]), 30.
  assert (V : vp m / vs m = sqrt (7 / 3)).
  { unfold m, sample; simpl. unfold vp_of, vs_of.
    replace (1 / 1) with 1 by field. rewrite sqrt_1.
    replace ((1 + 4 / 3 * 1) / 1) with (7 / 3) by field. field. }
  assert (Hs : vs m <> 0).
  { unfold m, sample; simpl. unfold vs_of. replace (1 / 1) with 1 by field. rewrite sqrt_1. lra. }
  assert (S2 : sqrt (7 / 3) ^ 2 = 7 / 3) by (apply pow2_sqrt; lra).
  destruct (mat_of_moduli_spec (1 + (-1 * 30 - -1 * 70)) ((1 + (-1 * 30 - -1 * 70)) / ((sqrt (7 / 3) + (0 * 30 - 0 * 70)) ^ 2 - 4 / 3)) (1 + (0 * 30 - 0 * 70)))
    as [m' [E _]]; [lra|lra| |].
  { replace (0 * 30 - 0 * 70) with 0 by ring. rewrite Rplus_0_r, S2. lra. }
  exists m'. split; [exact W|]. split; [reflexivity|]. split; [reflexivity|].
  destruct (mat_of_moduli_wf _ _ _ _ E) as [_ [K _]].
  split; [|rewrite K; unfold m, sample; simpl; lra].
  cbn [adjust_one]. unfold adjust_pressure, truncated_rock, truncated_reference, clip_above.
  cbn [p_rock p_overburden p_reference p_max_effective bind].
  unfold pressure_dependency, powerfit_dependency.
  replace (100 - 30) with 70 by ring.
  rewrite !powerfit_eval_linear by lra. cbn [bind].
  rewrite np_div_ok by exact Hs. cbn [bind]. rewrite V.
  change (bulk m) with 1. change (dens m) with 1.
  destruct (Rle_dec _ _) as [h|h]; [exfalso|exact E].
  replace (0 * 30 - 0 * 70) with 0 in h by ring. rewrite Rplus_0_r, S2 in h. lra.
Qed.

(** It is the identity when the rock's pore pressure equals the effective
    reference pressure. *)
Lemma powerfit_identity d b v m pr phi mn rk m' :
  wf m -> 0 < bulk m -> p_rock pr = Some rk -> rk = truncated_reference pr ->
  adjust_one (PressureDependency (Powerfit d b v)) m pr phi mn = Ok m' -> m' = m.
Proof.
  intros W Hb Er Eq H. cbn [adjust_one] in H. unfold adjust_pressure in H. unfold truncated_rock in H. rewrite Er in H.
  cbn [bind] in H. rewrite <- Eq in H.
  destruct (eval_model (Powerfit d b v) rk phi mn) as [[[x y] z]|] eqn:E.
  - destruct (powerfit_value d b v m rk rk phi mn _ _ _ _ _ _ m' E E H) as [Hn [W' [D [K [S T]]]]].
    apply wf_ext; try assumption; [lra| |lra].
    replace (vp m / vs m + (z - z)) with (vp m / vs m) in * by ring.
    destruct W as [Dp [_ [Sm [_ [_ [_ [Vp [Ep [Vs Es]]]]]]]]].
    assert (Q : (vp m / vs m) ^ 2 * shear m = bulk m + 4 / 3 * shear m).
    { rewrite <- Es at 1. rewrite sq_div by exact Hn. rewrite <- Ep. field. exact Hn. }
    assert (X : bulk m' = bulk m) by lra. rewrite X in S.
    set (t := (vp m / vs m) ^ 2) in *. nra.
  - unfold pressure_dependency, powerfit_dependency in H. rewrite E in H. discriminate.
Qed.

(* ---- velocity coefficients ---- *)
Lemma velocity_coefficients_refuted :
  exists c p phi mn d a b m,
    uses_moduli c = false /\ eval_model (Polyfit c) p phi mn = Ok (d, a, b) /\
    is_ok (mat_of_velocities d a b) /\
    model_eval_material (Polyfit c) p phi mn = Ok m /\ vp m <> a /\ bulk m = a.
Proof.
  exists (mkCoef Velocity (Some [2650]) (Some [3000]) (Some [1500])), 1, (1 / 4), (sample 1 1 1).
  exists 2650, 3000, 1500.
  destruct (mat_of_moduli_spec 3000 1500 2650) as [m [E I]]; try lra.
  exists m. split; [reflexivity|].
  assert (EV : eval_model (Polyfit (mkCoef Velocity (Some [2650]) (Some [3000]) (Some [1500]))) 1 (1 / 4) (sample 1 1 1)
    = Ok (2650, 3000, 1500)).
  { cbn [eval_model c_density c_primary c_secondary coefficient_rows length Nat.eqb andb bind three polyfit_row np_polyval fold_left].
    repeat f_equal; ring. }
  split; [exact EV|]. split.
  { apply velocities_accept_iff. repeat split; try lra.
    assert (sqrt (4 / 3) <= 4 / 3); [|lra].
    rewrite <- (sqrt_square (4 / 3)) at 2 by lra. apply sqrt_le_1_alt. lra. }
  split; [unfold model_eval_material; rewrite EV; exact E|].
  destruct I as [[K [S [D [V [Ev _]]]]] _]. split; [|exact K].
  intros Hv. rewrite Hv in Ev. lra.
Qed.

(* ---- depth trend ---- *)
Lemma max_depth_refuted :
  exists t mx r, dt_max t = Some mx /\ dt_reference t = Some r /\ r <= mx /\ mx - r < effective_depth t.
Proof.
  exists (mkDepth 2000 (mkCoef Moduli None None None) (Some 0) (Some 1000)), 1000, 0.
  unfold effective_depth; simpl. repeat split; lra.
Qed.
Lemma max_depth_ignored d c r mx mx' :
  effective_depth (mkDepth d c r mx) = effective_depth (mkDepth d c r mx').
Proof. reflexivity. Qed.

Lemma depth_identity t m p phi mn n :
  wf m ->
  (exists fl, dt_coefficients t =
     mkCoef fl (Some [repeat 0 (S n); 1 :: repeat 0 n]) (Some [repeat 0 (S n); 1 :: repeat 0 n])
               (Some [repeat 0 (S n); 1 :: repeat 0 n])) ->
  adjust_one (DepthTrend t) m p phi mn = Ok m.
Proof.
  intros W [fl E]. cbn [adjust_one]. rewrite E.
  apply identity_polynomial; try assumption; try apply identity_rectangular; intros; apply identity_matrix.
Qed.

Lemma constant_polynomial v m a b d :
  polyval_material v m (mkCoef Moduli (Some [[a]]) (Some [[b]]) (Some [[d]])) = mat_of_moduli b d a /\
  polyval_material v m (mkCoef Velocity (Some [[a]]) (Some [[b]]) (Some [[d]])) = mat_of_velocities a b d.
Proof.
  split; [rewrite polyval_material_moduli|rewrite polyval_material_velocity];
    rewrite ?constant_matrix; try apply constant_rectangular; reflexivity.
Qed.

(* ---- adjustments ---- *)
Lemma adjust_app l1 l2 m p phi mn :
  adjust_material (l1 ++ l2) m p phi mn =
  let* m1 := adjust_material l1 m p phi mn in adjust_material l2 m1 p phi mn.
Proof.
  revert m. induction l1 as [|a l1 IH]; intros m; [reflexivity|]. simpl.
  destruct (adjust_one a m p phi mn); simpl; [apply IH|reflexivity].
Qed.
Lemma adjust_error l1 a l2 m m1 p phi mn e :
  adjust_material l1 m p phi mn = Ok m1 -> adjust_one a m1 p phi mn = Err e ->
  adjust_material (l1 ++ a :: l2) m p phi mn = Err e.
Proof. intros H1 H2. rewrite adjust_app, H1. simpl. rewrite H2. reflexivity. Qed.

(* ---- default coefficients ---- *)
Lemma fill_complete c :
  c_density (fill_coefficients c) <> None /\ c_primary (fill_coefficients c) <> None /\
  c_secondary (fill_coefficients c) <> None /\ c_flavour (fill_coefficients c) = c_flavour c /\
  (forall x, c_density c = Some x -> c_density (fill_coefficients c) = Some x) /\
  (forall x, c_primary c = Some x -> c_primary (fill_coefficients c) = Some x) /\
  (forall x, c_secondary c = Some x -> c_secondary (fill_coefficients c) = Some x).
Proof.
  destruct c as [[|] [|] [|] [|]]; unfold fill_coefficients; simpl;
    repeat split; intros; try discriminate; auto.
Qed.

(* ---- validators ---- *)
Lemma friable_validator f phi l :
  (is_ok (make_dry_rock (InFriable f) phi l) <-> phi + 1 / 10 ^ 5 <= f_critical f) /\
  (make_dry_rock (InFriable f) phi l = Err ValueError <-> f_critical f < phi + 1 / 10 ^ 5).
Proof.
  unfold make_dry_rock; simpl. destruct (Rlt_dec _ _) as [h|h]; simpl; split; split; intros; try lra; try reflexivity;
    try discriminate.
  - destruct H; discriminate.
  - eexists; reflexivity.
Qed.
Lemma patchy_validator q phi l :
  (is_ok (make_dry_rock (InPatchy q) phi l) <->
     phi + 1 / 10 ^ 5 <= pa_critical q /\ phi - 1 / 10 ^ 5 <= pa_critical q - pa_upper_fraction q) /\
  (make_dry_rock (InPatchy q) phi l = Err ValueError <->
     pa_critical q < phi + 1 / 10 ^ 5 \/ pa_critical q - pa_upper_fraction q < phi - 1 / 10 ^ 5).
Proof.
  unfold make_dry_rock; simpl. destruct (Rlt_dec _ _) as [h|h]; simpl;
    [|destruct (Rlt_dec _ _) as [h'|h']; simpl];
    split; split; intros; try lra; try reflexivity; try discriminate;
    try (destruct H; discriminate); eexists; reflexivity.
Qed.

Lemma negative_porosity_refuted :
  exists i phi l d, phi < 0 /\ make_dry_rock i phi l = Ok d /\ dr_porosity d = phi.
Proof.
  exists (InPolyfit None), (-1), [], (mkDryRock (complete_model (InPolyfit None)) (-1) []).
  split; [lra|]. split; reflexivity.
Qed.
Lemma negative_porosity_accepted i phi l :
  phi < 0 ->
  (forall f, i = InFriable f -> 1 / 10 ^ 5 <= f_critical f) ->
  (forall q, i = InPatchy q -> 1 / 10 ^ 5 <= pa_critical q /\ pa_upper_fraction q <= pa_critical q) ->
  is_ok (make_dry_rock i phi l).
Proof.
  intros H Hf Hq. destruct i as [c|f|q].
  - eexists. reflexivity.
  - apply friable_validator. specialize (Hf f eq_refl). lra.
  - apply patchy_validator. specialize (Hq q eq_refl). lra.
Qed.

(* ---- dry rock evaluated at rock pressure ---- *)
Lemma hs_lt_2 f x1 x2 y2 z : 0 <= f < 1 -> 0 <= x1 -> x2 < y2 -> 0 <= x2 -> 0 < z ->
  hs f x1 x2 z < hs f x1 y2 z.
Proof.
  intros Hf H1 H H2 Hz.
  pose proof (hs_den_pos f x1 x2 z ltac:(lra) H1 H2 Hz).
  pose proof (hs_den_pos f x1 y2 z ltac:(lra) H1 ltac:(lra) Hz).
  unfold hs.
  apply Rmult_lt_reg_r with ((f * x2 + (1 - f) * x1 + z) * (f * y2 + (1 - f) * x1 + z)); [nra|].
  replace ((x1 * x2 + z * (f * x1 + (1 - f) * x2)) / (f * x2 + (1 - f) * x1 + z) *
    ((f * x2 + (1 - f) * x1 + z) * (f * y2 + (1 - f) * x1 + z)))
    with ((x1 * x2 + z * (f * x1 + (1 - f) * x2)) * (f * y2 + (1 - f) * x1 + z)) by (field; lra).
  replace ((x1 * y2 + z * (f * x1 + (1 - f) * y2)) / (f * y2 + (1 - f) * x1 + z) *
    ((f * x2 + (1 - f) * x1 + z) * (f * y2 + (1 - f) * x1 + z)))
    with ((x1 * y2 + z * (f * x1 + (1 - f) * y2)) * (f * x2 + (1 - f) * x1 + z)) by (field; lra).
  assert (E : (x1 * y2 + z * (f * x1 + (1 - f) * y2)) * (f * x2 + (1 - f) * x1 + z) -
              (x1 * x2 + z * (f * x1 + (1 - f) * x2)) * (f * y2 + (1 - f) * x1 + z)
              = (y2 - x2) * (1 - f) * ((x1 + z) * (x1 + z))) by ring.
  assert (0 < (y2 - x2) * (1 - f) * ((x1 + z) * (x1 + z))).
  { apply Rmult_lt_0_compat; [nra|]. apply Rmult_lt_0_compat; lra. }
  lra.
Qed.

Lemma friable_pressure_strict m phi c p q n sr s s' :
  grain_pack m c sr n -> 0 < c -> 0 < phi <= c -> 0 < p -> p < q ->
  friable_sand m phi c p n sr = Ok s -> friable_sand m phi c q n sr = Ok s' -> bulk s < bulk s'.
Proof.
  intros G Hc Hphi Hp Hq Es Es'.
  destruct (friable_value m phi c p n sr G Hc ltac:(lra) Hp) as [g [s0 [_ [Sg [K [M [E [_ [Ek _]]]]]]]]].
  destruct (friable_value m phi c q n sr G Hc ltac:(lra) ltac:(lra)) as [g' [s1 [_ [Sg' [K' [M' [E' [_ [Ek' _]]]]]]]]].
  assert (s0 = s) by congruence. assert (s1 = s') by congruence. subst s0 s1.
  rewrite Ek, Ek'. pose proof G as [[[_ [Km _]] Sm] _].
  assert (Hk : bulk g < bulk g') by (rewrite K, K'; apply (hm_bulk_lt m c sr n p q G); lra).
  assert (Hm : shear g <= shear g').
  { rewrite M, M'. destruct (friable_pressure m c c p q n sr G Hc ltac:(lra) Hp ltac:(lra)) as [t [t' [Et [Et' [_ T]]]]].
    destruct (friable_endpoints m c p n sr G Hc Hp) as [_ X]. destruct (friable_endpoints m c q n sr G Hc ltac:(lra)) as [_ X'].
    rewrite X in Et. rewrite X' in Et'.
    destruct (friable_value m phi c p n sr G Hc ltac:(lra) Hp) as [h [_ [Eh [_ [_ [Mh _]]]]]].
    destruct (friable_value m phi c q n sr G Hc ltac:(lra) ltac:(lra)) as [h' [_ [Eh' [_ [_ [Mh' _]]]]]].
    rewrite <- Mh, <- Mh'. congruence. }
  destruct Sg as [[_ [Kg _]] Sg]. destruct Sg' as [[_ [Kg' _]] Sg'].
  assert (Hf : 0 <= 1 - phi / c < 1).
  { assert (0 < phi / c) by (apply Rdiv_lt_0_compat; lra).
    assert (phi / c <= 1) by (apply Rmult_le_reg_r with c; [lra|]; unfold Rdiv; rewrite Rmult_assoc, Rinv_l by lra; lra).
    lra. }
  unfold wbulk, pick.
  assert (0 < Rmin (shear m) (shear g)) by (apply Rmin_glb_lt; assumption).
  pose proof (Rmin_mono_r (shear m) _ _ Hm).
  eapply Rlt_le_trans; [apply hs_lt_2 with (y2 := bulk g'); lra|].
  apply hs_mono_z; lra.
Qed.

Definition a_pressure (rk : R) : pressure := mkPressure 100000000 30000000 (Some 70000000) None (Some rk).

Lemma quartz_friable_pack : grain_pack (sample 36800000000 44000000000 2650) (2 / 5) 1 9.
Proof. split; [apply quartz_solid|]. repeat split; lra. Qed.

(** Rock pore pressure above reference: the rock model is evaluated at the
    rock's effective pressure, not at the reference. *)
Lemma reference_pressure_refuted :
  exists d mineral p m m',
    dr_adjustments d = [] /\ solid mineral /\
    dry_rock_material d mineral p = Ok m /\
    material_from_model d (truncated_reference p) mineral = Ok m' /\ m <> m'.
Proof.
  pose (q := sample 36800000000 44000000000 2650).
  assert (G : grain_pack q (2 / 5) 1 9) by exact quartz_friable_pack.
  exists (mkDryRock (RockFriable (mkFriable (2 / 5) 1 9)) (1 / 5) []), q, (a_pressure 70000000).
  destruct (friable_value q (1 / 5) (2 / 5) 30000000 9 1 G ltac:(lra) ltac:(lra) ltac:(lra))
    as [_ [m [_ [_ [_ [_ [E _]]]]]]].
  destruct (friable_value q (1 / 5) (2 / 5) 70000000 9 1 G ltac:(lra) ltac:(lra) ltac:(lra))
    as [_ [m' [_ [_ [_ [_ [E' _]]]]]]].
  exists m, m'. split; [reflexivity|]. split; [apply quartz_solid|]. split.
  { unfold dry_rock_material, truncated_rock, a_pressure, clip_above.
    cbn [p_rock p_overburden p_max_effective bind]. unfold material_from_model, friable_material.
    cbn [dr_model dr_porosity f_critical f_coordination f_shear_reduction].
    replace (100000000 - 70000000) with 30000000 by ring. rewrite E. reflexivity. }
  split.
  { unfold truncated_reference, a_pressure, clip_above. cbn [p_reference p_overburden p_max_effective].
    unfold material_from_model, friable_material.
    cbn [dr_model dr_porosity f_critical f_coordination f_shear_reduction].
    replace (100000000 - 30000000) with 70000000 by ring. exact E'. }
  intros Eq. pose proof (friable_pressure_strict q (1 / 5) (2 / 5) 30000000 70000000 9 1 m m' G
    ltac:(lra) ltac:(lra) ltac:(lra) ltac:(lra) E E') as L. rewrite Eq in L. lra.
Qed.

(** With its own model as pressure dependency the change is counted twice. *)
Definition as_dependency (r : rock_model) : option dependency_model :=
  match r with
  | RockPolyfit _ => None
  | RockFriable f => Some (Friable f)
  | RockPatchy q => Some (Patchy q)
  end.

Lemma counted_twice d mineral p md m a b :
  as_dependency (dr_model d) = Some md -> dr_adjustments d = [PressureDependency md] ->
  dry_rock_material d mineral p = Ok m ->
  (let* e := truncated_rock p in material_from_model d e mineral) = Ok a ->
  material_from_model d (truncated_reference p) mineral = Ok b ->
  bulk m * bulk b = bulk a * bulk a /\ shear m * shear b = shear a * shear a /\
  dens m * dens b = dens a * dens a.
Proof.
  intros Em Ea H Ha Hb. unfold dry_rock_material in H.
  destruct (truncated_rock p) as [e|] eqn:Et; [|discriminate]. cbn [bind] in *.
  rewrite Ha in H. cbn [bind] in H. rewrite Ea in H. cbn [adjust_material adjust_one] in H.
  destruct (adjust_pressure md a p (dr_porosity d) mineral) as [m1|] eqn:E1; [|discriminate].
  cbn [bind] in H. injection H as <-.
  unfold adjust_pressure in E1. rewrite Et in E1. cbn [bind] in E1.
  unfold material_from_model in Ha, Hb.
  destruct (dr_model d) as [c|f|q]; simpl in Em; [discriminate| |]; injection Em as <-;
    cbn [bind pressure_dependency] in E1; unfold generic_dependency in E1; cbn [eval_model] in E1;
    rewrite Ha, Hb in E1; cbn [bind moduli_triple] in E1;
    (destruct (orb _ _) eqn:T; [discriminate|]); apply orb3 in T; destruct T as [T1 [T2 T3]];
    apply not_tiny_nz in T1, T2, T3; cbn [model_uses_moduli] in E1;
    destruct (mat_of_moduli_wf _ _ _ _ E1) as [_ [K [S D]]]; rewrite K, S, D;
    repeat split; field; assumption.
Qed.

(* ---- documented formulas ---- *)
Lemma depth_trend_value t m p phi mn a b d m' :
  dt_coefficients t = mkCoef Moduli (Some a) (Some b) (Some d) ->
  rectangular a -> rectangular b -> rectangular d ->
  adjust_one (DepthTrend t) m p phi mn = Ok m' ->
  let delta := match dt_reference t with None => dt_depth t | Some r => dt_depth t - r end in
  dens m' = power_sum2 a (dens m) delta 0 /\
  bulk m' = power_sum2 b (bulk m) delta 0 /\
  shear m' = power_sum2 d (shear m) delta 0.
Proof.
  intros E Ra Rb Rd H. cbn [adjust_one] in H. rewrite E in H.
  rewrite polyval_material_moduli in H by assumption.
  destruct (mat_of_moduli_wf _ _ _ _ H) as [_ [K [S D]]]. auto.
Qed.

Lemma rect2 a b c d : rectangular [[a; b]; [c; d]].
Proof.
  split; [discriminate|]. exists 2%nat. split; [lia|]. repeat (apply Forall_cons; [reflexivity|]). apply Forall_nil.
Qed.
Lemma rect12 a b : rectangular [[a; b]].
Proof.
  split; [discriminate|]. exists 2%nat. split; [lia|]. repeat (apply Forall_cons; [reflexivity|]). apply Forall_nil.
Qed.

(** docs/adjusting_with_depth_and_pressure.md gives [c[i][j] * delta_depth^i *
    original^j]; the example coefficients of the same page. *)
Lemma documented_indices_refuted :
  exists t m p phi mn c m',
    rectangular c /\ dt_coefficients t = mkCoef Moduli (Some c) (Some c) (Some c) /\
    dt_reference t = Some 0 /\ dt_max t = None /\ wf m /\
    adjust_one (DepthTrend t) m p phi mn = Ok m' /\
    bulk m' <> power_sum2 c (dt_depth t - 0) (bulk m) 0.
Proof.
  pose (c := [[0; 3 / 2]; [1; 0]]).
  pose (m := sample 2 2 2).
  destruct (mat_of_moduli_spec 152 152 152) as [m' [E _]]; try lra.
  exists (mkDepth 100 (mkCoef Moduli (Some c) (Some c) (Some c)) (Some 0) None), m, (a_pressure 1), (1 / 4), m, c, m'.
  split; [apply rect2|]. split; [reflexivity|]. split; [reflexivity|]. split; [reflexivity|].
  split; [apply sample_wf; lra|].
  assert (X : forall x, power_sum2 c x 100 0 = 150 + x) by (intros; unfold c; simpl; field).
  split.
  - cbn [adjust_one]. unfold effective_depth. cbn [dt_depth dt_max dt_reference dt_coefficients].
    rewrite polyval_material_moduli by apply rect2.
    replace (100 - 0) with 100 by ring. rewrite !X. change (bulk m) with 2. change (shear m) with 2. change (dens m) with 2.
    replace (150 + 2) with 152 by ring. exact E.
  - destruct (mat_of_moduli_wf _ _ _ _ E) as [_ [K _]]. rewrite K. change (bulk m) with 2.
    cbn [dt_depth]. unfold c. simpl. lra.
Qed.

Lemma expfit_value fl p phi mn d0 d1 d2 b0 b1 b2 v0 v1 v2 :
  d2 <> 0 -> b2 <> 0 -> v2 <> 0 ->
  eval_model (Expfit (mkCoef fl (Some [d0; d1; d2]) (Some [b0; b1; b2]) (Some [v0; v1; v2]))) p phi mn =
  Ok (d0 + d1 * exp (p / d2), b0 + b1 * exp (p / b2), v0 + v1 * exp (p / v2)).
Proof.
  intros H1 H2 H3. cbn [eval_model c_density c_primary c_secondary coefficient_rows length Nat.eqb andb bind three].
  unfold expfit_row, column. cbn [nth_error bind].
  rewrite !np_div_ok by assumption. reflexivity.
Qed.
Lemma logfit_value fl p phi mn d0 d1 b0 b1 v0 v1 :
  0 < p ->
  eval_model (Logfit (mkCoef fl (Some [d0; d1]) (Some [b0; b1]) (Some [v0; v1]))) p phi mn =
  Ok (d0 + d1 * (ln p / ln 10), b0 + b1 * (ln p / ln 10), v0 + v1 * (ln p / ln 10)).
Proof.
  intros H. cbn [eval_model c_density c_primary c_secondary coefficient_rows length Nat.eqb andb bind three].
  unfold logfit_row, column. cbn [nth_error bind]. unfold np_log.
  destruct (Rlt_dec 0 p); [reflexivity|lra].
Qed.
Lemma powerfit_eval p phi mn d0 d1 b0 b1 v0 v1 :
  0 < p ->
  eval_model (Powerfit (Some [d0; d1]) (Some [b0; b1]) (Some [v0; v1])) p phi mn =
  Ok (d0 * Rpower p d1, b0 * Rpower p b1, v0 * Rpower p v1).
Proof.
  intros H. cbn [eval_model coefficient_rows length Nat.eqb andb bind three].
  unfold powerfit_row, column. cbn [nth_error bind].
  rewrite !np_pow_pos by exact H. reflexivity.
Qed.
Lemma polyfit_eval fl p phi mn d b v :
  length d = length b -> length b = length v -> d <> [] ->
  eval_model (Polyfit (mkCoef fl (Some d) (Some b) (Some v))) p phi mn =
  Ok (power_sum (rev d) p 0, power_sum (rev b) p 0, power_sum (rev v) p 0).
Proof.
  intros H1 H2 H3. cbn [eval_model c_density c_primary c_secondary coefficient_rows].
  rewrite H1, H2, !Nat.eqb_refl. cbn [andb bind three].
  rewrite <- !np_polyval_spec. unfold polyfit_row.
  destruct d; [congruence|]. destruct b; [discriminate|]. destruct v; [discriminate|]. reflexivity.
Qed.

Lemma powerfit_documented_refuted :
  exists p phi mn c0 c1 d b v,
    0 < p /\ eval_model (Powerfit (Some [c0; c1]) (Some [c0; c1]) (Some [c0; c1])) p phi mn = Ok (d, b, v) /\
    d <> c0 + Rpower p c1.
Proof.
  exists 3, (1 / 4), (sample 1 1 1), 2, 1. do 3 eexists. split; [lra|].
  split; [apply powerfit_eval; lra|]. rewrite Rpower_1 by lra. lra.
Qed.

(* ---- default dry rock ---- *)
Definition default_rock (phi : R) (l : list adjustment) : dry_rock :=
  mkDryRock (complete_model (InPolyfit None)) phi l.

Lemma default_dry_rock phi mineral p l e d :
  wf mineral -> truncated_rock p = Ok e -> 0 <= phi < 1 ->
  make_dry_rock (InPolyfit None) phi l = Ok d -> dr_adjustments d = [] ->
  exists m, dry_rock_material d mineral p = Ok m /\ wf m /\
    dens m = dens mineral * (1 - phi) /\ bulk m = 2900 - 1300 * phi /\ shear m = 1700 - 800 * phi.
Proof.
  intros W Et Hphi Hd Ha. unfold make_dry_rock in Hd. simpl in Hd. injection Hd as <-. simpl in Ha. subst l.
  unfold dry_rock_material. rewrite Et. cbn [bind].
  unfold material_from_model. cbn [dr_model dr_porosity dr_adjustments complete_model fill_coefficients c_flavour c_density c_primary c_secondary or_default].
  rewrite polyval_material_moduli; [|apply rect2|apply rect12|apply rect12].
  replace (power_sum2 default_bulk (bulk mineral) phi 0) with (2900 - 1300 * phi) by (unfold default_bulk; simpl; ring).
  replace (power_sum2 default_shear (shear mineral) phi 0) with (1700 - 800 * phi) by (unfold default_shear; simpl; ring).
  replace (power_sum2 default_density (dens mineral) phi 0) with (dens mineral * (1 - phi)) by (unfold default_density; simpl; ring).
  destruct W as [Hdp _].
  destruct (mat_of_moduli_spec (2900 - 1300 * phi) (1700 - 800 * phi) (dens mineral * (1 - phi))) as [m [E [I Wm]]]; try lra; [nra|].
  exists m. rewrite E. split; [reflexivity|]. destruct I as [K [S [D _]]]. auto.
Qed.

Lemma sqrt_43_bounds : 1154700 / 1000000 < sqrt (4 / 3) < 1154701 / 1000000.
Proof.
  split.
  - rewrite <- (sqrt_square (1154700 / 1000000)) by lra. apply sqrt_lt_1_alt. lra.
  - rewrite <- (sqrt_square (1154701 / 1000000)) by lra. apply sqrt_lt_1_alt. lra.
Qed.

Lemma default_velocity phi mineral p e d l :
  wf mineral -> truncated_rock p = Ok e ->
  make_dry_rock (InPolyfit (Some (mkCoef Velocity None None None))) phi l = Ok d -> l = [] ->
  0 <= phi <= 1 ->
  (is_ok (dry_rock_material d mineral p) <-> phi <= 1 / 2 /\ sqrt (4 / 3) * (12 - 20 * phi) <= 20 - 40 * phi).
Proof.
  intros W Et Hd -> Hphi. unfold make_dry_rock in Hd. simpl in Hd. injection Hd as <-.
  unfold dry_rock_material. rewrite Et. cbn [bind].
  unfold material_from_model. cbn [dr_model dr_porosity dr_adjustments complete_model fill_coefficients c_flavour c_density c_primary c_secondary or_default].
  rewrite polyval_material_velocity; [|apply rect2|apply rect12|apply rect12].
  replace (power_sum2 default_primary (vp mineral) phi 0) with (20 - 40 * phi) by (unfold default_primary; simpl; ring).
  replace (power_sum2 default_secondary (vs mineral) phi 0) with (12 - 20 * phi) by (unfold default_secondary; simpl; ring).
  replace (power_sum2 default_density (dens mineral) phi 0) with (dens mineral * (1 - phi)) by (unfold default_density; simpl; ring).
  destruct W as [Hdp _].
  pose proof (velocities_accept_iff (dens mineral * (1 - phi)) (20 - 40 * phi) (12 - 20 * phi) ltac:(nra)) as X.
  assert (Y : is_ok (let* m := mat_of_velocities (dens mineral * (1 - phi)) (20 - 40 * phi) (12 - 20 * phi) in
              adjust_material [] m p phi mineral) <-> is_ok (mat_of_velocities (dens mineral * (1 - phi)) (20 - 40 * phi) (12 - 20 * phi))).
  { destruct (mat_of_velocities _ _ _); simpl; split; intros [x H]; exists x; auto; discriminate. }
  rewrite Y, X. pose proof sqrt_43_bounds. split; [intros [A [B C]]; lra|]. intros [A B]. lra.
Qed.
Lemma default_velocity_valid phi : phi <= 36 / 100 -> phi <= 1 / 2 /\ sqrt (4 / 3) * (12 - 20 * phi) <= 20 - 40 * phi.
Proof. intros H. pose proof sqrt_43_bounds. split; [lra|nra]. Qed.
Lemma default_velocity_invalid phi : 364 / 1000 <= phi -> phi <= 1 / 2 -> 20 - 40 * phi < sqrt (4 / 3) * (12 - 20 * phi).
Proof. intros H H'. pose proof sqrt_43_bounds. nra. Qed.

(* ---- coordination number ---- *)
Lemma cc_linear cement sand c g sr n n' :
  cementable cement sand c g -> 0 <= sr -> 0 < n -> 0 < n' ->
  exists cc cc', contact_cement cement sand c g sr n = Ok cc /\ contact_cement cement sand c g sr n' = Ok cc' /\
    n * bulk cc' = n' * bulk cc /\ n * shear cc' = n' * shear cc /\ dens cc' = dens cc.
Proof.
  intros C Hs Hn Hn'.
  destruct (cc_value cement sand c g sr n C Hs Hn) as [a [cc [_ [_ [E _]]]]].
  destruct (cc_value cement sand c g sr n' C Hs Hn') as [a' [cc' [_ [_ [E' _]]]]].
  exists cc, cc'. split; [exact E|]. split; [exact E'|].
  unfold contact_cement in E, E'.
  repeat match type of E with
  | bind ?e _ = _ => destruct e; [|discriminate]; cbn [bind] in E, E'
  end.
  destruct (mat_of_moduli_wf _ _ _ _ E) as [_ [K [S D]]].
  destruct (mat_of_moduli_wf _ _ _ _ E') as [_ [K' [S' D']]].
  rewrite K, S, D, K', S', D'. repeat split; ring.
Qed.

Lemma patchy_at_upper sand cement u p lp g sr nf nc :
  patchy_input sand cement u u u g -> 0 < u -> 0 < p -> 0 < lp -> 0 <= sr -> 0 < nf -> 0 < nc ->
  exists r ct, patchy_cement sand cement u u u p lp g sr nf nc = Ok r /\
    contact_cement cement sand u g sr nc = Ok ct /\ solid ct /\ bulk r = bulk ct /\ shear r = shear ct.
Proof.
  intros PI0 Hu Hp Hlp Hs Hnf Hnc.
  destruct (patchy_value sand cement u u u p lp g sr nf nc PI0 Hp Hlp Hs Hnf Hnc)
    as [d [fr [lo [up [ct [cst [r [Ed [Sd [Ef [Sf [El [Sl [Eup [Sup [Ect [Sct [Ecst [Scst [Er [Sr [K [M D]]]]]]]]]]]]]]]]]]]]]]].
  exists r, ct. split; [exact Er|]. split; [exact Ect|]. split; [exact Sct|].
  replace (1 - u / u) with 0 in Ecst by (field; lra).
  destruct (walpole_endpoints false d ct (solid_mixable false d ct Sd Sct)) as [_ E0].
  change (bound_name false) with "lower"%string in E0. rewrite E0 in Ecst. injection Ecst as <-.
  assert (up = ct).
  { unfold constant_cement in Eup. rewrite Ed, Ect in Eup. cbn [bind] in Eup.
    rewrite np_div_ok in Eup by lra. cbn [bind] in Eup.
    replace (1 - u / u) with 0 in Eup by (field; lra). rewrite E0 in Eup. congruence. }
  subst up. rewrite !patchy_weight_up in *. split; [rewrite K; ring|rewrite M; ring].
Qed.

Lemma coordination_refuted :
  exists q p phi mineral m m' d,
    make_dry_rock (InPatchy q) phi [] = Ok d /\
    patchy_material q p phi mineral = Ok m /\
    patchy_cement mineral (pa_cement q) phi (pa_critical q - pa_cement_fraction q)
      (pa_critical q - pa_upper_fraction q) p (pa_lower_pressure q) (pa_critical q)
      (pa_shear_reduction q) (pa_coordination q) (pa_coordination q) = Ok m' /\
    bulk m <> bulk m'.
Proof.
  pose (sand := sample 36800000000 44000000000 2650). pose (cement := sample 76800000000 32000000000 2710).
  pose (q := make_patchy cement (2 / 5) (1 / 10) 20000000 (1 / 10) (Some 6) 1).
  assert (I : patchy_input sand cement (3 / 10) (3 / 10) (3 / 10) (2 / 5)).
  { split; [apply quartz_calcite; lra|]. split; [apply quartz_calcite; lra|]. repeat split; lra. }
  destruct (patchy_at_upper sand cement (3 / 10) 20000000 20000000 (2 / 5) 1 6 9 I) as [m [ct [E [Ec [Sc [K _]]]]]]; try lra.
  destruct (patchy_at_upper sand cement (3 / 10) 20000000 20000000 (2 / 5) 1 6 6 I) as [m' [ct' [E' [Ec' [Sc' [K' _]]]]]]; try lra.
  exists q, 20000000, (3 / 10), sand, m, m', (mkDryRock (RockPatchy q) (3 / 10) []).
  split.
  { unfold make_dry_rock. simpl. destruct (Rlt_dec _ _); [lra|]. simpl. destruct (Rlt_dec _ _); [lra|]. reflexivity. }
  unfold patchy_material. cbn [q make_patchy pa_critical pa_cement pa_cement_fraction pa_upper_fraction pa_lower_pressure pa_shear_reduction pa_coordination].
  replace (2 / 5 - 1 / 10) with (3 / 10) by field.
  split; [exact E|]. split; [exact E'|].
  destruct I as [C _].
  destruct (cc_linear cement sand (3 / 10) (2 / 5) 1 9 6 C ltac:(lra) ltac:(lra) ltac:(lra)) as [x [y [Ex [Ey [L _]]]]].
  assert (x = ct) by congruence. assert (y = ct') by congruence. subst x y.
  destruct (cc_value cement sand (3 / 10) (2 / 5) 1 9 C ltac:(lra) ltac:(lra)) as [_ [z [_ [_ [Ez [_ [Hz _]]]]]]].
  assert (z = ct) by congruence. subst z. lra.
Qed.

Lemma coordination_default c sr cement f lo u n :
  f_coordination (make_friable c sr None) = murphy_coordination_number c /\
  pa_coordination (make_patchy cement c f lo u None sr) = murphy_coordination_number c /\
  f_coordination (make_friable c sr (Some n)) = n /\
  pa_coordination (make_patchy cement c f lo u (Some n) sr) = n.
Proof. repeat split. Qed.

(** The solid handed to fluid substitution is the one inside patchy cement. *)
Lemma nonporous_patchy q phi l mineral :
  exists d,
    d = mkDryRock (RockPatchy q) phi l /\
    nonporous d mineral =
      hashin_shtrikman_walpole (pa_cement q) mineral
        (pa_critical q - (pa_critical q - pa_upper_fraction q)) "lower".
Proof.
  eexists. split; [reflexivity|]. simpl.
  replace (pa_critical q - (pa_critical q - pa_upper_fraction q)) with (pa_upper_fraction q) by ring. reflexivity.
Qed.

Lemma patchy_zero_porosity q p mineral :
  patchy_input mineral (pa_cement q) 0 (pa_critical q - pa_cement_fraction q)
    (pa_critical q - pa_upper_fraction q) (pa_critical q) ->
  0 < p -> 0 < pa_lower_pressure q -> 0 <= pa_shear_reduction q -> 0 < pa_coordination q ->
  forall l, exists s m,
    nonporous (mkDryRock (RockPatchy q) 0 l) mineral = Ok s /\
    patchy_material q p 0 mineral = Ok m /\
    bulk m = bulk s /\ shear m = shear s.
Proof.
  intros PI0 Hp Hlp Hs Hn l. unfold patchy_material.
  set (c := pa_critical q - pa_cement_fraction q) in *.
  destruct (patchy_value _ _ 0 _ _ p (pa_lower_pressure q) _ (pa_shear_reduction q) (pa_coordination q) 9 PI0 Hp Hlp Hs Hn ltac:(lra))
    as [d [fr [lo [up [ct [cst [r [Ed [Sd [Ef [Sf [El [Sl [Eup [Sup [Ect [Sct [Ecst [Scst [Er [Sr [K [M D]]]]]]]]]]]]]]]]]]]]]]].
  exists d, r.
  split.
  { simpl. rewrite <- Ed.
    replace (pa_critical q - (pa_critical q - pa_upper_fraction q)) with (pa_upper_fraction q) by ring. reflexivity. }
  split; [exact Er|].
  assert (fr = d).
  { unfold friable_sand in Ef.
    destruct (hertz_mindlin d (pa_critical q) p (pa_shear_reduction q) (pa_coordination q)) as [h|] eqn:Eh; [|discriminate].
    cbn [bind] in Ef. destruct PI0 as [Cc [Cu [Hphi [Hpu [Hc Hu]]]]].
    destruct Cu as [Sc [Ss [_ [Hcg Hg]]]].
    rewrite np_div_ok in Ef by lra. cbn [bind] in Ef.
    assert (G : grain_pack d (pa_critical q) (pa_shear_reduction q) (pa_coordination q)) by (split; [exact Sd|]; lra).
    pose proof (friable_endpoints d (pa_critical q) p (pa_coordination q) (pa_shear_reduction q) G ltac:(lra) Hp) as [X _].
    unfold friable_sand in X. rewrite Eh in X. cbn [bind] in X. rewrite np_div_ok in X by lra. cbn [bind] in X.
    congruence. }
  subst fr.
  assert (up = d).
  { unfold constant_cement in Eup. rewrite Ed in Eup. cbn [bind] in Eup.
    destruct (contact_cement _ _ _ _ _ _) as [cc|] eqn:Ecc in Eup; [|discriminate]. cbn [bind] in Eup.
    destruct PI0 as [Cc [Cu [Hphi [Hpu [Hc Hu]]]]].
    rewrite np_div_ok in Eup by lra. cbn [bind] in Eup.
    replace (1 - 0 / (pa_critical q - pa_upper_fraction q)) with 1 in Eup by (field; lra).
    destruct (cc_value _ _ _ _ (pa_shear_reduction q) 9 Cu Hs ltac:(lra)) as [_ [cc' [_ [_ [E' [S' _]]]]]].
    assert (cc' = cc) by congruence. subst cc'.
    destruct (walpole_endpoints false d cc (solid_mixable false d cc Sd S')) as [E1 _].
    change (bound_name false) with "lower"%string in E1. rewrite E1 in Eup. congruence. }
  subst up. split; [rewrite K; ring|rewrite M; ring].
Qed.

Lemma le_div a b x : 0 < b -> x * b <= a -> x <= a / b.
Proof.
  intros Hb H. apply Rmult_le_reg_r with b; [exact Hb|]. unfold Rdiv. rewrite Rmult_assoc, Rinv_l by lra. lra.
Qed.

(** A concrete friable quartz sand whose stiffness is far from zero. *)
Lemma quartz_pack_stiff p : 20000000 <= p ->
  1 <= hm_bulk (sample 36800000000 44000000000 2650) (2 / 5) 9 p.
Proof.
  intros Hp. set (m := sample 36800000000 44000000000 2650).
  destruct (nu_ok m quartz_solid) as [_ V].
  assert (P3 : 3 < PI) by (pose proof PI2_3_2; lra). pose proof PI_4.
  assert (A : 1 / 1000 <= hm_a m (2 / 5) 9 p).
  { unfold hm_a. rewrite <- (Rmult_1_r (1 / 1000)).
    assert (C1 : cbrt 1 = 1).
    { unfold cbrt. destruct (Rlt_dec 0 1); [|lra]. unfold Rpower. rewrite ln_1, Rmult_0_r. apply exp_0. }
    rewrite <- C1 at 2. rewrite <- cbrt_scale by lra. apply cbrt_le; [lra|].
    change (shear m) with 44000000000.
    apply le_div; [lra|].
    assert (3 * 3 * (1 / 2) <= 3 * PI * (1 - nu m)) by nra.
    assert (3 * 3 * (1 / 2) * 20000000 <= 3 * PI * (1 - nu m) * p) by (apply Rmult_le_compat; lra).
    lra. }
  unfold hm_bulk. change (shear m) with 44000000000.
  assert (B : 1 / 20 <= 9 * (1 - 2 / 5) / (12 * PI)).
  { apply le_div; lra. }
  assert (C : 20 <= 4 * hm_a m (2 / 5) 9 p * 44000000000 / (1 - nu m)).
  { apply le_div; [lra|]. lra. }
  nra.
Qed.

Lemma quartz_friable_stiff p : 20000000 <= p ->
  exists s, friable_material (make_friable (2 / 5) 1 (Some 9)) p (1 / 5) (sample 36800000000 44000000000 2650) = Ok s /\
    wf s /\ 1 / 10 ^ 20 < Rabs (dens s) /\ 1 / 10 ^ 20 < Rabs (bulk s) /\ 1 / 10 ^ 20 < Rabs (shear s).
Proof.
  intros Hp. set (m := sample 36800000000 44000000000 2650).
  assert (G : grain_pack m (2 / 5) 1 9) by exact quartz_friable_pack.
  destruct (friable_value m (1 / 5) (2 / 5) p 9 1 G ltac:(lra) ltac:(lra) ltac:(lra))
    as [g [s [_ [Sg [K [M [E [[W S] [_ [_ [B1 [B2 D]]]]]]]]]]]].
  exists s. split; [exact E|]. split; [exact W|].
  pose proof (quartz_pack_stiff p Hp) as Q. fold m in Q.
  assert (Q2 : 3 / 5 <= shear g).
  { rewrite M. rewrite (hm_shear_bulk m (2 / 5) 1 9 p G). destruct (nu_ok m quartz_solid) as [_ V]. fold m in V.
    assert (0 <= 3 * 1 * (1 - nu m) / (2 - nu m)) by (apply div_nonneg; lra). nra. }
  assert (3 / 5 <= bulk s).
  { eapply Rle_trans; [|apply B1]. apply Rmin_glb; [unfold m; simpl; lra|rewrite K; lra]. }
  assert (3 / 5 <= shear s).
  { eapply Rle_trans; [|apply B2]. apply Rmin_glb; [unfold m; simpl; lra|lra]. }
  assert (dens s = 2120) by (rewrite D; unfold m; simpl; field).
  rewrite !Rabs_right by lra. lra.
Qed.

Lemma quartz_twice :
  let d := mkDryRock (RockFriable (make_friable (2 / 5) 1 (Some 9))) (1 / 5)
             [PressureDependency (Friable (make_friable (2 / 5) 1 (Some 9)))] in
  let q := sample 36800000000 44000000000 2650 in
  is_ok (dry_rock_material d q (a_pressure 70000000)) /\
  is_ok (let* e := truncated_rock (a_pressure 70000000) in material_from_model d e q) /\
  is_ok (material_from_model d (truncated_reference (a_pressure 70000000)) q).
Proof.
  intros d q.
  destruct (quartz_friable_stiff 30000000 ltac:(lra)) as [a [Ea [Wa [A1 [A2 A3]]]]].
  destruct (quartz_friable_stiff 70000000 ltac:(lra)) as [b [Eb [Wb [B1 [B2 B3]]]]].
  assert (T1 : truncated_rock (a_pressure 70000000) = Ok 30000000).
  { unfold truncated_rock, a_pressure, clip_above; simpl. f_equal. ring. }
  assert (T2 : truncated_reference (a_pressure 70000000) = 70000000).
  { unfold truncated_reference, a_pressure, clip_above; simpl. ring. }
  assert (Da : material_from_model d 30000000 q = Ok a) by exact Ea.
  assert (Db : material_from_model d 70000000 q = Ok b) by exact Eb.
  split; [|split].
  - unfold dry_rock_material. rewrite T1. cbn [bind]. rewrite Da. cbn [bind].
    change (dr_adjustments d) with [PressureDependency (Friable (make_friable (2 / 5) 1 (Some 9)))].
    cbn [adjust_material adjust_one]. unfold adjust_pressure. rewrite T1, T2. cbn [bind].
    rewrite dependency_generic by exact I. unfold generic_dependency. cbn [eval_model].
    change (dr_porosity d) with (1 / 5). unfold q. rewrite Ea, Eb. cbn [bind moduli_triple].
    apply tiny_false in B1, B2, B3. rewrite B1, B2, B3. cbn [orb model_uses_moduli].
    apply not_tiny_nz in B1, B2, B3.
    destruct Wa as [Ka [Sa [Da' _]]]. destruct Wb as [Kb [Sb [Db' _]]].
    destruct (mat_of_moduli_spec (bulk a * (bulk a / bulk b)) (shear a * (shear a / shear b)) (dens a * (dens a / dens b)))
      as [r [Er _]].
    + apply Rmult_lt_0_compat; [lra|]. apply Rdiv_lt_0_compat; lra.
    + apply Rmult_le_pos; [lra|]. apply div_nonneg; lra.
    + apply Rmult_le_pos; [lra|]. apply div_nonneg; lra.
    + exists r. rewrite Er. reflexivity.
  - exists a. rewrite T1. cbn [bind]. exact Da.
  - exists b. rewrite T2. exact Db.
Qed.

(** Concrete powerfit adjustments. *)
Definition two_to_one : material := mkMat (8 / 3) 1 1 2 1.
Lemma two_to_one_wf : wf two_to_one.
Proof.
  split; [simpl; lra|]. split; [simpl; lra|]. split; [simpl; lra|].
  unfold is_material; simpl. repeat split; lra.
Qed.
Lemma powerfit_example a b c p r : 0 < p -> 0 < r -> 0 < 1 + (a * p - a * r) -> 0 < 8 / 3 + (b * p - b * r) ->
  0 <= c * p - c * r ->
  is_ok (pressure_dependency (Powerfit (Some [a; 1]) (Some [b; 1]) (Some [c; 1])) two_to_one p r 0 two_to_one).
Proof.
  intros Hp Hr Ha Hb Hc. unfold pressure_dependency, powerfit_dependency.
  rewrite !powerfit_eval_linear by assumption. cbn [bind].
  change (vp two_to_one) with 2. change (vs two_to_one) with 1. change (bulk two_to_one) with (8 / 3).
  change (dens two_to_one) with 1.
  rewrite np_div_ok by lra. cbn [bind].
  assert (X : 1 < (2 / 1 + (c * p - c * r)) ^ 2 - 4 / 3) by nra.
  destruct (Rle_dec _ _) as [h|h]; [lra|].
  destruct (mat_of_moduli_spec (8 / 3 + (b * p - b * r)) ((8 / 3 + (b * p - b * r)) / ((2 / 1 + (c * p - c * r)) ^ 2 - 4 / 3))
    (1 + (a * p - a * r))) as [m [E _]]; [lra|lra|apply div_nonneg; lra|].
  exists m. exact E.
Qed.

(* ---- defaults, scaling, refused coefficients ---- *)
Lemma pressure_defaults :
  make_pressure Absent Absent Absent Absent Absent =
    Ok (mkPressure 100000000 30000000 (Some 70000000) None (Some 70000000)).
Proof. reflexivity. Qed.
Lemma pressure_given o r f m k :
  make_pressure (Given o) (Given r) (Given f) (Given m) (Given k) =
    Ok (mkPressure o r (Some f) (Some m) (Some k)).
Proof. reflexivity. Qed.

Lemma dependency_scales md m p r phi mn m' :
  not_powerfit md -> pressure_dependency md m p r phi mn = Ok m' ->
  exists rd r1 r2 ed e1 e2,
    eval_model md r phi mn = Ok (rd, r1, r2) /\ eval_model md p phi mn = Ok (ed, e1, e2) /\
    rd <> 0 /\ r1 <> 0 /\ r2 <> 0 /\ dens m' = dens m * (ed / rd) /\
    (model_uses_moduli md = true -> bulk m' = bulk m * (e1 / r1) /\ shear m' = shear m * (e2 / r2)) /\
    (model_uses_moduli md = false -> vp m' = vp m * (e1 / r1) /\ vs m' = vs m * (e2 / r2)).
Proof.
  intros N H. rewrite dependency_generic in H by exact N. unfold generic_dependency in H.
  destruct (eval_model md r phi mn) as [[[rd r1] r2]|] eqn:E1; [|discriminate].
  destruct (eval_model md p phi mn) as [[[ed e1] e2]|] eqn:E2; [|discriminate]. cbn [bind] in H.
  destruct (orb _ _) eqn:T; [discriminate|]. apply orb3 in T. destruct T as [T1 [T2 T3]].
  exists rd, r1, r2, ed, e1, e2. split; [reflexivity|]. split; [reflexivity|].
  split; [apply not_tiny_nz; exact T1|]. split; [apply not_tiny_nz; exact T2|].
  split; [apply not_tiny_nz; exact T3|].
  destruct (model_uses_moduli md).
  - apply mat_of_moduli_wf in H. destruct H as [_ [Hk [Hs Hd]]].
    split; [exact Hd|]. split; [auto|discriminate].
  - apply mat_of_velocities_keeps in H. destruct H as [Hd [Hp Hs]].
    split; [exact Hd|]. split; [discriminate|auto].
Qed.

Lemma dependency_accepts md m p r phi mn rd r1 r2 ed e1 e2 :
  not_powerfit md -> model_uses_moduli md = true ->
  eval_model md r phi mn = Ok (rd, r1, r2) -> eval_model md p phi mn = Ok (ed, e1, e2) ->
  1 / 10 ^ 20 < Rabs rd -> 1 / 10 ^ 20 < Rabs r1 -> 1 / 10 ^ 20 < Rabs r2 ->
  0 < dens m * (ed / rd) -> 0 <= bulk m * (e1 / r1) -> 0 <= shear m * (e2 / r2) ->
  is_ok (pressure_dependency md m p r phi mn).
Proof.
  intros N U E1 E2 T1 T2 T3 Hd Hk Hs. rewrite dependency_generic by exact N. unfold generic_dependency.
  rewrite E1, E2. cbn [bind]. apply tiny_false in T1, T2, T3. rewrite T1, T2, T3. cbn [orb]. rewrite U.
  destruct (mat_of_moduli_cases (bulk m * (e1 / r1)) (shear m * (e2 / r2)) (dens m * (ed / rd)))
    as [[? _]|[[? _]|[_ [_ [_ E]]]]]; try lra. eexists; exact E.
Qed.

(** Coefficient lists one of which is missing, or of different length. *)
Definition ragged (d b v : option (list R)) : Prop :=
  d = None \/ b = None \/ v = None \/
  exists x y z, d = Some x /\ b = Some y /\ v = Some z /\ (length x <> length y \/ length y <> length z).
Definition coefficients_of (md : dependency_model) (d b v : option (list R)) : Prop :=
  match md with
  | Polyfit c | Expfit c | Logfit c => c_density c = d /\ c_primary c = b /\ c_secondary c = v
  | Powerfit d' b' v' => d' = d /\ b' = b /\ v' = v
  | _ => False
  end.

Lemma ragged_rows d b v : ragged d b v -> coefficient_rows d b v = Err ValueError.
Proof.
  intros [->|[->|[->|(x & y & z & -> & -> & -> & H)]]]; unfold coefficient_rows.
  - reflexivity.
  - destruct d; reflexivity.
  - destruct d, b; reflexivity.
  - destruct (Nat.eqb_spec (length x) (length y)); [|reflexivity].
    destruct (Nat.eqb_spec (length y) (length z)); [|reflexivity]. lia.
Qed.

Lemma ragged_refused md d b v : coefficients_of md d b v -> ragged d b v ->
  forall m p r phi mn,
    eval_model md p phi mn = Err ValueError /\ pressure_dependency md m p r phi mn = Err ValueError.
Proof.
  intros C G m p r phi mn. apply ragged_rows in G.
  destruct md; cbn in C; try contradiction; destruct C as [C1 [C2 C3]];
    (split; [cbn [eval_model]|unfold pressure_dependency, generic_dependency, powerfit_dependency; cbn [eval_model]]);
    rewrite C1, C2, C3, G; reflexivity.
Qed.

Lemma solid_rock d mineral :
  (forall q, dr_model d <> RockPatchy q) -> nonporous d mineral = Ok mineral.
Proof. intros H. unfold nonporous. destruct (dr_model d) eqn:E; try reflexivity. exfalso. exact (H _ eq_refl). Qed.
