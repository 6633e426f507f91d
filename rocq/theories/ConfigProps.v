(** Properties C49-C63 and C97-C104: pressure, fits, adjustments, dry rock. *)
From Coq Require Import String List.
From Verif Require Import Base BaseProofs MaterialModel Spec MaterialProofs HashinShtrikmanModel SandstoneModel SandstoneProofs ConfigModel ConfigProofs.
Open Scope R_scope.

(** C49 *)
Theorem C49_truncation :
  forall p,
    (forall f, p_fluid p = Some f ->
       truncated_fluid p = Ok match p_max_effective p with
                              | None => p_overburden p - f
                              | Some b => Rmin (p_overburden p - f) b end) /\
    (forall f, p_rock p = Some f ->
       truncated_rock p = Ok match p_max_effective p with
                              | None => p_overburden p - f
                              | Some b => Rmin (p_overburden p - f) b end) /\
    truncated_reference p = match p_max_effective p with
                            | None => p_overburden p - p_reference p
                            | Some b => Rmin (p_overburden p - p_reference p) b end.
Proof. exact truncation. Qed.
Print Assumptions C49_truncation.

Theorem C49_antitone :
  forall o r fl fl' m rk rk', fl <= fl' -> rk <= rk' ->
    exists a a' b b',
      truncated_fluid (mkPressure o r (Some fl) m (Some rk)) = Ok a /\
      truncated_fluid (mkPressure o r (Some fl') m (Some rk')) = Ok a' /\ a' <= a /\
      truncated_rock (mkPressure o r (Some fl) m (Some rk)) = Ok b /\
      truncated_rock (mkPressure o r (Some fl') m (Some rk')) = Ok b' /\ b' <= b /\
      (forall mx, m = Some mx -> a <= mx /\ b <= mx).
Proof. exact truncation_antitone. Qed.
Print Assumptions C49_antitone.

Example C49_nonvacuous :
  truncated_fluid (mkPressure 100 30 (Some 70) (Some 20) (Some 60)) = Ok 20 /\
  truncated_rock (mkPressure 100 30 (Some 70) (Some 50) (Some 60)) = Ok 40.
Proof.
  unfold truncated_fluid, truncated_rock, clip_above; simpl.
  rewrite Rmin_right, Rmin_left by lra. split; f_equal; lra.
Qed.

(** C50.  Both pore pressures given as null pass the validator: it looks for
    the keys, which pydantic always fills in. *)
Theorem C50_refuted :
  exists p, make_pressure Absent Absent Null Absent Null = Ok p /\ p_fluid p = None /\ p_rock p = None.
Proof. exact pore_pressure_refuted. Qed.
Print Assumptions C50_refuted.
(** By itself the validator refuses exactly the sections with neither key. *)
Theorem C50_validator : forall fl rk, at_least_one_pore_pressure fl rk = Err ValueError <-> fl = false /\ rk = false.
Proof. intros [] []; cbn; split; intros H; try discriminate; try (destruct H; discriminate); auto. Qed.
Print Assumptions C50_validator.

(** C51 *)
Theorem C51_rock_defaults_to_fluid :
  forall o r m fl p,
    make_pressure o r (Given fl) m Absent = Ok p \/ make_pressure o r (Given fl) m Null = Ok p ->
    p_rock p = Some fl /\ p_fluid p = Some fl.
Proof. exact rock_defaults_to_fluid. Qed.
Print Assumptions C51_rock_defaults_to_fluid.

Theorem C51_null_fluid_defaults_to_rock :
  forall o r m rk p,
    make_pressure o r Null m (Given rk) = Ok p -> p_rock p = Some rk /\ p_fluid p = Some rk.
Proof. exact null_fluid_defaults_to_rock. Qed.
Print Assumptions C51_null_fluid_defaults_to_rock.

(** Only rock given: fluid keeps its own default of 70 MPa. *)
Theorem C51_rock_only_refuted :
  exists rk p, make_pressure Absent Absent Absent Absent (Given rk) = Ok p /\
    p_rock p = Some rk /\ p_fluid p = Some 70000000 /\ p_fluid p <> Some rk.
Proof. exact rock_only_refuted. Qed.
Print Assumptions C51_rock_only_refuted.

(** The documented defaults, and no field of a full section is changed. *)
Theorem C51_defaults :
  make_pressure Absent Absent Absent Absent Absent =
    Ok (mkPressure 100000000 30000000 (Some 70000000) None (Some 70000000)) /\
  forall o r f m k,
    make_pressure (Given o) (Given r) (Given f) (Given m) (Given k) =
      Ok (mkPressure o r (Some f) (Some m) (Some k)).
Proof. split; [exact pressure_defaults|exact pressure_given]. Qed.
Print Assumptions C51_defaults.

Example C51_nonvacuous :
  is_ok (make_pressure (Given 90) Absent (Given 40) Absent Absent) /\
  is_ok (make_pressure (Given 90) Absent Null Absent (Given 50)).
Proof. split; eexists; reflexivity. Qed.

(** C52 *)
Theorem C52_identity_at_reference :
  forall md m p phi mn d a b,
    not_powerfit md -> wf m -> eval_model md p phi mn = Ok (d, a, b) ->
    1 / 10 ^ 20 < Rabs d -> 1 / 10 ^ 20 < Rabs a -> 1 / 10 ^ 20 < Rabs b ->
    pressure_dependency md m p p phi mn = Ok m.
Proof. exact dependency_identity. Qed.
Print Assumptions C52_identity_at_reference.

Theorem C52_adjustment_identity :
  forall md m pr phi mn rk m',
    not_powerfit md -> wf m -> p_rock pr = Some rk -> rk = p_reference pr ->
    adjust_one (PressureDependency md) m pr phi mn = Ok m' -> m' = m.
Proof. exact adjust_identity. Qed.
Print Assumptions C52_adjustment_identity.

Example C52_nonvacuous :
  let md := Polyfit (mkCoef Moduli (Some [1; 2]) (Some [3; 4]) (Some [5; 6])) in
  not_powerfit md /\ wf (sample 1 2 3) /\
  eval_model md 10 0 (sample 1 2 3) = Ok (12, 34, 56) /\
  pressure_dependency md (sample 1 2 3) 10 10 0 (sample 1 2 3) = Ok (sample 1 2 3).
Proof.
  assert (W : wf (sample 1 2 3)) by (apply sample_wf; lra).
  assert (E : eval_model (Polyfit (mkCoef Moduli (Some [1; 2]) (Some [3; 4]) (Some [5; 6]))) 10 0 (sample 1 2 3)
              = Ok (12, 34, 56)).
  { rewrite polyfit_eval; [|reflexivity|reflexivity|discriminate]. simpl. repeat f_equal; ring. }
  split; [exact I|]. split; [exact W|]. split; [exact E|].
  eapply dependency_identity; [exact I|exact W|exact E| | |]; rewrite Rabs_right; lra.
Qed.

(** C53 *)
Theorem C53_composition :
  forall md m m1 m2 p0 p1 p2 phi mn,
    not_powerfit md ->
    pressure_dependency md m p1 p0 phi mn = Ok m1 ->
    pressure_dependency md m1 p2 p1 phi mn = Ok m2 ->
    pressure_dependency md m p2 p0 phi mn = Ok m2.
Proof. exact dependency_composes. Qed.
Print Assumptions C53_composition.

Example C53_nonvacuous :
  let md := Polyfit (mkCoef Moduli (Some [1; 0]) (Some [1; 0]) (Some [1; 0])) in
  exists m1 m2, not_powerfit md /\
    pressure_dependency md (sample 1 1 1) 2 1 0 (sample 1 1 1) = Ok m1 /\ bulk m1 = 2 /\
    pressure_dependency md m1 6 2 0 (sample 1 1 1) = Ok m2 /\ bulk m2 = 6.
Proof.
  assert (E : forall p, eval_model (Polyfit (mkCoef Moduli (Some [1; 0]) (Some [1; 0]) (Some [1; 0]))) p 0 (sample 1 1 1)
              = Ok (p, p, p)).
  { intros p. rewrite polyfit_eval; [|reflexivity|reflexivity|discriminate]. simpl. repeat f_equal; ring. }
  assert (T : forall x, 1 <= x -> tiny_value x = false).
  { intros x Hx. apply tiny_false. rewrite Rabs_right; lra. }
  destruct (mat_of_moduli_spec 2 2 2) as [m1 [E1 _]]; try lra.
  destruct (mat_of_moduli_spec 6 6 6) as [m2 [E2 _]]; try lra.
  destruct (mat_of_moduli_wf _ _ _ _ E1) as [_ [K1 [S1 D1]]].
  destruct (mat_of_moduli_wf _ _ _ _ E2) as [_ [K2 _]].
  exists m1, m2. split; [exact I|]. split.
  { unfold pressure_dependency, generic_dependency. rewrite !E. cbn [bind]. rewrite !T by lra.
    cbn [orb model_uses_moduli uses_moduli c_flavour]. rewrite <- E1.
    change (bulk (sample 1 1 1)) with 1. change (shear (sample 1 1 1)) with 1. change (dens (sample 1 1 1)) with 1.
    f_equal; field. }
  split; [exact K1|]. split; [|exact K2].
  unfold pressure_dependency, generic_dependency. rewrite !E. cbn [bind]. rewrite !T by lra.
  cbn [orb model_uses_moduli uses_moduli c_flavour]. rewrite K1, S1, D1, <- E2. f_equal; field.
Qed.

(** C54 *)
Theorem C54_vanishing_reference :
  forall md m p r phi mn d a b e,
    not_powerfit md -> eval_model md r phi mn = Ok (d, a, b) -> eval_model md p phi mn = Ok e ->
    (pressure_dependency md m p r phi mn = Err ValueError) \/
    (1 / 10 ^ 20 < Rabs d /\ 1 / 10 ^ 20 < Rabs a /\ 1 / 10 ^ 20 < Rabs b).
Proof. exact dependency_zero_reference. Qed.
Print Assumptions C54_vanishing_reference.

Theorem C54_rejected :
  forall md m p r phi mn d a b e,
    not_powerfit md -> eval_model md r phi mn = Ok (d, a, b) -> eval_model md p phi mn = Ok e ->
    Rabs d <= 1 / 10 ^ 20 \/ Rabs a <= 1 / 10 ^ 20 \/ Rabs b <= 1 / 10 ^ 20 ->
    pressure_dependency md m p r phi mn = Err ValueError.
Proof.
  intros md m p r phi mn d a b e N E E' H.
  destruct (dependency_zero_reference md m p r phi mn d a b e N E E') as [X|X]; [exact X|lra].
Qed.
Print Assumptions C54_rejected.

Example C54_nonvacuous :
  eval_model (Polyfit (mkCoef Moduli (Some [1; 0]) (Some [1; 0]) (Some [1; 0]))) 0 0 (sample 1 1 1) = Ok (0, 0, 0) /\
  Rabs 0 <= 1 / 10 ^ 20.
Proof.
  split; [rewrite polyfit_eval; [|reflexivity|reflexivity|discriminate]; simpl; repeat f_equal; ring|].
  rewrite Rabs_R0. lra.
Qed.

(** C55.  Proved up to the sign of the ratio; a negative ratio is as
    non-physical as they come but only its square is tested. *)
Theorem C55_powerfit :
  forall d b v m p r phi mn rd rp rs ed ep es m',
    eval_model (Powerfit d b v) r phi mn = Ok (rd, rp, rs) ->
    eval_model (Powerfit d b v) p phi mn = Ok (ed, ep, es) ->
    pressure_dependency (Powerfit d b v) m p r phi mn = Ok m' ->
    0 < bulk m + (ep - rp) ->
    dens m' = dens m + (ed - rd) /\ bulk m' = bulk m + (ep - rp) /\ 0 < vs m' /\
    (vp m' / vs m') ^ 2 = (vp m / vs m + (es - rs)) ^ 2 /\
    (0 <= vp m / vs m + (es - rs) -> vp m' / vs m' = vp m / vs m + (es - rs)).
Proof. exact powerfit_ratio. Qed.
Print Assumptions C55_powerfit.

Theorem C55_negative_ratio_refuted :
  exists m mn p r phi m' c,
    wf m /\ 0 < shear m /\
    eval_model (Powerfit (Some [0; 1]) (Some [0; 1]) (Some [c; 1])) p phi mn = Ok (0, 0, c * p) /\
    eval_model (Powerfit (Some [0; 1]) (Some [0; 1]) (Some [c; 1])) r phi mn = Ok (0, 0, c * r) /\
    vp m / vs m + (c * p - c * r) < 0 /\
    pressure_dependency (Powerfit (Some [0; 1]) (Some [0; 1]) (Some [c; 1])) m p r phi mn = Ok m'.
Proof. exact powerfit_negative_ratio_refuted. Qed.
Print Assumptions C55_negative_ratio_refuted.

Example C55_nonvacuous :
  is_ok (pressure_dependency (Powerfit (Some [1; 1]) (Some [2; 1]) (Some [3; 1])) two_to_one 2 1 0 two_to_one) /\
  eval_model (Powerfit (Some [1; 1]) (Some [2; 1]) (Some [3; 1])) 2 0 two_to_one = Ok (1 * 2, 2 * 2, 3 * 2) /\
  eval_model (Powerfit (Some [1; 1]) (Some [2; 1]) (Some [3; 1])) 1 0 two_to_one = Ok (1 * 1, 2 * 1, 3 * 1) /\
  0 < bulk two_to_one + (2 * 2 - 2 * 1).
Proof.
  split; [apply powerfit_example; lra|].
  split; [apply powerfit_eval_linear; lra|]. split; [apply powerfit_eval_linear; lra|]. simpl. lra.
Qed.

(** C56.  The reference is an effective pressure, the pressure a pore
    pressure: the adjustment is the identity when those two coincide. *)
Theorem C56_refuted :
  exists m mn pr phi a b c rk m',
    wf m /\ p_rock pr = Some rk /\ p_reference pr = rk /\
    adjust_one (PressureDependency (Powerfit a b c)) m pr phi mn = Ok m' /\ bulk m' <> bulk m.
Proof. exact powerfit_identity_refuted. Qed.
Print Assumptions C56_refuted.

Theorem C56_identity_at_effective_reference :
  forall d b v m pr phi mn rk m',
    wf m -> 0 < bulk m -> p_rock pr = Some rk -> rk = truncated_reference pr ->
    adjust_one (PressureDependency (Powerfit d b v)) m pr phi mn = Ok m' -> m' = m.
Proof. exact powerfit_identity. Qed.
Print Assumptions C56_identity_at_effective_reference.

Example C56_nonvacuous :
  let pr := mkPressure 100 30 (Some 70) None (Some 70) in
  wf two_to_one /\ 0 < bulk two_to_one /\ 70 = truncated_reference pr /\
  is_ok (adjust_one (PressureDependency (Powerfit (Some [1; 1]) (Some [2; 1]) (Some [3; 1]))) two_to_one pr 0 two_to_one).
Proof.
  split; [exact two_to_one_wf|]. split; [simpl; lra|].
  assert (E : truncated_reference (mkPressure 100 30 (Some 70) None (Some 70)) = 70)
    by (unfold truncated_reference, clip_above; simpl; ring).
  split; [symmetry; exact E|].
  cbn [adjust_one]. unfold adjust_pressure. rewrite E. cbn [truncated_rock p_rock bind].
  apply powerfit_example; lra.
Qed.

(** C57.  [self.use_moduli] is tested without being called. *)
Theorem C57_refuted :
  exists c p phi mn d a b m,
    uses_moduli c = false /\ eval_model (Polyfit c) p phi mn = Ok (d, a, b) /\
    is_ok (mat_of_velocities d a b) /\
    model_eval_material (Polyfit c) p phi mn = Ok m /\ vp m <> a /\ bulk m = a.
Proof. exact velocity_coefficients_refuted. Qed.
Print Assumptions C57_refuted.

(** C58 *)
Theorem C58_refuted :
  exists t mx r, dt_max t = Some mx /\ dt_reference t = Some r /\ r <= mx /\ mx - r < effective_depth t.
Proof. exact max_depth_refuted. Qed.
Print Assumptions C58_refuted.

Theorem C58_max_depth_is_ignored :
  forall d c r mx mx' m p phi mn,
    adjust_one (DepthTrend (mkDepth d c r mx)) m p phi mn =
    adjust_one (DepthTrend (mkDepth d c r mx')) m p phi mn.
Proof. reflexivity. Qed.
Print Assumptions C58_max_depth_is_ignored.

(** C59 *)
Theorem C59_identity_polynomial :
  forall fl v m a b d,
    wf m -> rectangular a -> rectangular b -> rectangular d ->
    (forall x, power_sum2 a x v 0 = x) -> (forall x, power_sum2 b x v 0 = x) ->
    (forall x, power_sum2 d x v 0 = x) ->
    polyval_material v m (mkCoef fl (Some a) (Some b) (Some d)) = Ok m.
Proof. exact identity_polynomial. Qed.
Print Assumptions C59_identity_polynomial.

Theorem C59_identity_depth_trend :
  forall t m p phi mn n,
    wf m ->
    (exists fl, dt_coefficients t =
       mkCoef fl (Some [repeat 0 (S n); 1 :: repeat 0 n]) (Some [repeat 0 (S n); 1 :: repeat 0 n])
                 (Some [repeat 0 (S n); 1 :: repeat 0 n])) ->
    adjust_one (DepthTrend t) m p phi mn = Ok m.
Proof. exact depth_identity. Qed.
Print Assumptions C59_identity_depth_trend.

Theorem C59_constant_polynomial :
  forall v m a b d,
    polyval_material v m (mkCoef Moduli (Some [[a]]) (Some [[b]]) (Some [[d]])) = mat_of_moduli b d a /\
    polyval_material v m (mkCoef Velocity (Some [[a]]) (Some [[b]]) (Some [[d]])) = mat_of_velocities a b d.
Proof. exact constant_polynomial. Qed.
Print Assumptions C59_constant_polynomial.

Example C59_nonvacuous :
  wf (sample 1 2 3) /\ rectangular [[0; 0]; [1; 0]] /\ forall x, power_sum2 [[0; 0]; [1; 0]] x 7 0 = x.
Proof. split; [apply sample_wf; lra|]. split; [apply rect2|]. intros x. simpl. ring. Qed.

(** C60 *)
Theorem C60_adjustments_in_order :
  forall l1 l2 m p phi mn,
    adjust_material (l1 ++ l2) m p phi mn =
    match adjust_material l1 m p phi mn with
    | Ok m1 => adjust_material l2 m1 p phi mn
    | Err e => Err e
    end.
Proof. exact adjust_app. Qed.
Print Assumptions C60_adjustments_in_order.

Theorem C60_one_and_none :
  forall a m p phi mn,
    adjust_material [] m p phi mn = Ok m /\
    adjust_material [a] m p phi mn = adjust_one a m p phi mn.
Proof.
  intros. split; [reflexivity|]. simpl. destruct (adjust_one a m p phi mn); reflexivity.
Qed.
Print Assumptions C60_one_and_none.

Theorem C60_error_aborts :
  forall l1 a l2 m m1 p phi mn e,
    adjust_material l1 m p phi mn = Ok m1 -> adjust_one a m1 p phi mn = Err e ->
    adjust_material (l1 ++ a :: l2) m p phi mn = Err e.
Proof. exact adjust_error. Qed.
Print Assumptions C60_error_aborts.

Theorem C60_dry_rock_is_adjusted_model :
  forall d mineral p e m,
    truncated_rock p = Ok e -> material_from_model d e mineral = Ok m ->
    dry_rock_material d mineral p = adjust_material (dr_adjustments d) m p (dr_porosity d) mineral.
Proof. intros d mineral p e m H1 H2. unfold dry_rock_material. rewrite H1. cbn [bind]. rewrite H2. reflexivity. Qed.
Print Assumptions C60_dry_rock_is_adjusted_model.

Example C60_nonvacuous :
  let a := DepthTrend (mkDepth 5 (mkCoef Moduli (Some [[1]]) (Some [[2]]) (Some [[3]])) None None) in
  let b := DepthTrend (mkDepth 5 (mkCoef Moduli (Some [[1]]) None (Some [[3]])) None None) in
  is_ok (adjust_one a (sample 1 1 1) (a_pressure 1) 0 (sample 1 1 1)) /\
  adjust_one b (sample 1 1 1) (a_pressure 1) 0 (sample 1 1 1) = Err TypeError.
Proof.
  split; [|reflexivity]. cbn [adjust_one dt_coefficients].
  destruct (constant_polynomial (effective_depth (mkDepth 5 (mkCoef Moduli (Some [[1]]) (Some [[2]]) (Some [[3]])) None None))
     (sample 1 1 1) 1 2 3) as [E _].
  rewrite E. destruct (mat_of_moduli_spec 2 3 1) as [m [X _]]; try lra. exists m. exact X.
Qed.

(** C61 *)
Theorem C61_defaults_filled :
  forall c phi l d,
    make_dry_rock (InPolyfit (Some c)) phi l = Ok d ->
    exists c', dr_model d = RockPolyfit c' /\
      c_density c' <> None /\ c_primary c' <> None /\ c_secondary c' <> None /\
      c_flavour c' = c_flavour c /\
      (forall x, c_density c = Some x -> c_density c' = Some x) /\
      (forall x, c_primary c = Some x -> c_primary c' = Some x) /\
      (forall x, c_secondary c = Some x -> c_secondary c' = Some x).
Proof.
  intros c phi l d H. unfold make_dry_rock in H. simpl in H. injection H as <-.
  exists (fill_coefficients c). split; [reflexivity|]. apply fill_complete.
Qed.
Print Assumptions C61_defaults_filled.

Theorem C61_flavoured_defaults :
  forall c phi l d c',
    make_dry_rock (InPolyfit (Some c)) phi l = Ok d -> dr_model d = RockPolyfit c' ->
    (c_density c = None -> c_density c' = Some [[0; 0]; [1; -1]]) /\
    (c_flavour c = Moduli -> c_primary c = None -> c_primary c' = Some [[2900; -1300]]) /\
    (c_flavour c = Moduli -> c_secondary c = None -> c_secondary c' = Some [[1700; -800]]) /\
    (c_flavour c = Velocity -> c_primary c = None -> c_primary c' = Some [[20; -40]]) /\
    (c_flavour c = Velocity -> c_secondary c = None -> c_secondary c' = Some [[12; -20]]).
Proof.
  intros c phi l d c' H E. unfold make_dry_rock in H. simpl in H. injection H as <-. simpl in E. injection E as <-.
  destruct c as [[|] [|] [|] [|]]; unfold fill_coefficients; simpl;
    repeat split; intros; try discriminate; reflexivity.
Qed.
Print Assumptions C61_flavoured_defaults.

Example C61_nonvacuous :
  exists d, make_dry_rock (InPolyfit (Some (mkCoef Velocity None (Some [[30]]) None))) (1 / 5) [] = Ok d /\
    dr_model d = RockPolyfit (mkCoef Velocity (Some [[0; 0]; [1; -1]]) (Some [[30]]) (Some [[12; -20]])).
Proof. eexists. split; reflexivity. Qed.

(** C62 *)
Theorem C62_friable_validator :
  forall f phi l,
    (is_ok (make_dry_rock (InFriable f) phi l) <-> phi + 1 / 10 ^ 5 <= f_critical f) /\
    (make_dry_rock (InFriable f) phi l = Err ValueError <-> f_critical f < phi + 1 / 10 ^ 5).
Proof. exact friable_validator. Qed.
Print Assumptions C62_friable_validator.

Theorem C62_patchy_validator :
  forall q phi l,
    (is_ok (make_dry_rock (InPatchy q) phi l) <->
       phi + 1 / 10 ^ 5 <= pa_critical q /\ phi - 1 / 10 ^ 5 <= pa_critical q - pa_upper_fraction q) /\
    (make_dry_rock (InPatchy q) phi l = Err ValueError <->
       pa_critical q < phi + 1 / 10 ^ 5 \/ pa_critical q - pa_upper_fraction q < phi - 1 / 10 ^ 5).
Proof. exact patchy_validator. Qed.
Print Assumptions C62_patchy_validator.

Example C62_nonvacuous :
  is_ok (make_dry_rock (InFriable (make_friable (2 / 5) 1 None)) (3 / 10) []) /\
  make_dry_rock (InFriable (make_friable (2 / 5) 1 None)) (2 / 5) [] = Err ValueError.
Proof. split; apply friable_validator; simpl; lra. Qed.

(** C63 *)
Theorem C63_refuted :
  exists i phi l d, phi < 0 /\ make_dry_rock i phi l = Ok d /\ dr_porosity d = phi.
Proof. exact negative_porosity_refuted. Qed.
Print Assumptions C63_refuted.

(** No model rejects it when the input is read. *)
Theorem C63_accepted_by_every_model :
  forall i phi l,
    phi < 0 ->
    (forall f, i = InFriable f -> 1 / 10 ^ 5 <= f_critical f) ->
    (forall q, i = InPatchy q -> 1 / 10 ^ 5 <= pa_critical q /\ pa_upper_fraction q <= pa_critical q) ->
    is_ok (make_dry_rock i phi l).
Proof. exact negative_porosity_accepted. Qed.
Print Assumptions C63_accepted_by_every_model.

Example C63_nonvacuous :
  (forall f, InFriable (make_friable (2 / 5) 1 None) = InFriable f -> 1 / 10 ^ 5 <= f_critical f) /\ -1 < 0.
Proof. split; [|lra]. intros f E. injection E as <-. simpl. lra. Qed.

(** C97 *)
Theorem C97_refuted :
  exists d mineral p m m',
    dr_adjustments d = [] /\ solid mineral /\
    dry_rock_material d mineral p = Ok m /\
    material_from_model d (truncated_reference p) mineral = Ok m' /\ m <> m'.
Proof. exact reference_pressure_refuted. Qed.
Print Assumptions C97_refuted.

(** A dry rock with its own model as pressure dependency: the change from
    reference to rock pressure enters twice. *)
Theorem C97_counted_twice :
  forall d mineral p md m a b,
    as_dependency (dr_model d) = Some md -> dr_adjustments d = [PressureDependency md] ->
    dry_rock_material d mineral p = Ok m ->
    (let* e := truncated_rock p in material_from_model d e mineral) = Ok a ->
    material_from_model d (truncated_reference p) mineral = Ok b ->
    bulk m * bulk b = bulk a * bulk a /\ shear m * shear b = shear a * shear a /\
    dens m * dens b = dens a * dens a.
Proof. exact counted_twice. Qed.
Print Assumptions C97_counted_twice.

Example C97_nonvacuous :
  let d := mkDryRock (RockFriable (make_friable (2 / 5) 1 (Some 9))) (1 / 5)
             [PressureDependency (Friable (make_friable (2 / 5) 1 (Some 9)))] in
  let q := sample 36800000000 44000000000 2650 in
  is_ok (dry_rock_material d q (a_pressure 70000000)) /\
  is_ok (let* e := truncated_rock (a_pressure 70000000) in material_from_model d e q) /\
  is_ok (material_from_model d (truncated_reference (a_pressure 70000000)) q).
Proof. exact quartz_twice. Qed.

(** C98 *)
Theorem C98_moduli_polynomial :
  forall v m a b d,
    rectangular a -> rectangular b -> rectangular d ->
    polyval_material v m (mkCoef Moduli (Some a) (Some b) (Some d)) =
    mat_of_moduli (power_sum2 b (bulk m) v 0) (power_sum2 d (shear m) v 0) (power_sum2 a (dens m) v 0).
Proof. exact polyval_material_moduli. Qed.
Print Assumptions C98_moduli_polynomial.

Theorem C98_velocity_polynomial :
  forall v m a b d,
    rectangular a -> rectangular b -> rectangular d ->
    polyval_material v m (mkCoef Velocity (Some a) (Some b) (Some d)) =
    mat_of_velocities (power_sum2 a (dens m) v 0) (power_sum2 b (vp m) v 0) (power_sum2 d (vs m) v 0).
Proof. exact polyval_material_velocity. Qed.
Print Assumptions C98_velocity_polynomial.

Example C98_nonvacuous :
  rectangular [[1; 2]; [3; 4]] /\ power_sum2 [[1; 2]; [3; 4]] 10 100 0 = 1 + 2 * 100 + 3 * 10 + 4 * 10 * 100.
Proof. split; [apply rect2|]. simpl. ring. Qed.

(** C99 *)
Theorem C99_depth_trend_partial :
  forall t m p phi mn a b d m',
    dt_coefficients t = mkCoef Moduli (Some a) (Some b) (Some d) ->
    rectangular a -> rectangular b -> rectangular d ->
    adjust_one (DepthTrend t) m p phi mn = Ok m' ->
    let delta := match dt_reference t with None => dt_depth t | Some r => dt_depth t - r end in
    dens m' = power_sum2 a (dens m) delta 0 /\
    bulk m' = power_sum2 b (bulk m) delta 0 /\
    shear m' = power_sum2 d (shear m) delta 0.
Proof. exact depth_trend_value. Qed.
Print Assumptions C99_depth_trend_partial.

Theorem C99_documented_indices_refuted :
  exists t m p phi mn c m',
    rectangular c /\ dt_coefficients t = mkCoef Moduli (Some c) (Some c) (Some c) /\
    dt_reference t = Some 0 /\ dt_max t = None /\ wf m /\
    adjust_one (DepthTrend t) m p phi mn = Ok m' /\
    bulk m' <> power_sum2 c (dt_depth t - 0) (bulk m) 0.
Proof. exact documented_indices_refuted. Qed.
Print Assumptions C99_documented_indices_refuted.

(** C100 *)
Theorem C100_expfit :
  forall fl p phi mn d0 d1 d2 b0 b1 b2 v0 v1 v2,
    d2 <> 0 -> b2 <> 0 -> v2 <> 0 ->
    eval_model (Expfit (mkCoef fl (Some [d0; d1; d2]) (Some [b0; b1; b2]) (Some [v0; v1; v2]))) p phi mn =
    Ok (d0 + d1 * exp (p / d2), b0 + b1 * exp (p / b2), v0 + v1 * exp (p / v2)).
Proof. exact expfit_value. Qed.
Print Assumptions C100_expfit.

Theorem C100_logfit :
  forall fl p phi mn d0 d1 b0 b1 v0 v1,
    0 < p ->
    eval_model (Logfit (mkCoef fl (Some [d0; d1]) (Some [b0; b1]) (Some [v0; v1]))) p phi mn =
    Ok (d0 + d1 * (ln p / ln 10), b0 + b1 * (ln p / ln 10), v0 + v1 * (ln p / ln 10)).
Proof. exact logfit_value. Qed.
Print Assumptions C100_logfit.

Theorem C100_polyfit :
  forall fl p phi mn d b v,
    length d = length b -> length b = length v -> d <> [] ->
    eval_model (Polyfit (mkCoef fl (Some d) (Some b) (Some v))) p phi mn =
    Ok (power_sum (rev d) p 0, power_sum (rev b) p 0, power_sum (rev v) p 0).
Proof. exact polyfit_eval. Qed.
Print Assumptions C100_polyfit.

(** The code multiplies where the documentation adds. *)
Theorem C100_powerfit_partial :
  forall p phi mn d0 d1 b0 b1 v0 v1,
    0 < p ->
    eval_model (Powerfit (Some [d0; d1]) (Some [b0; b1]) (Some [v0; v1])) p phi mn =
    Ok (d0 * Rpower p d1, b0 * Rpower p b1, v0 * Rpower p v1).
Proof. exact powerfit_eval. Qed.
Print Assumptions C100_powerfit_partial.

Theorem C100_powerfit_documented_refuted :
  exists p phi mn c0 c1 d b v,
    0 < p /\ eval_model (Powerfit (Some [c0; c1]) (Some [c0; c1]) (Some [c0; c1])) p phi mn = Ok (d, b, v) /\
    d <> c0 + Rpower p c1.
Proof. exact powerfit_documented_refuted. Qed.
Print Assumptions C100_powerfit_documented_refuted.

Example C100_nonvacuous : (2 <> 0) /\ 0 < 5 /\ length [1; 2] = length [3; 4] /\ [1; 2] <> [].
Proof. repeat split; try lra. discriminate. Qed.

(** C101 *)
Theorem C101_default_dry_rock :
  forall phi mineral p l e d,
    wf mineral -> truncated_rock p = Ok e -> 0 <= phi < 1 ->
    make_dry_rock (InPolyfit None) phi l = Ok d -> dr_adjustments d = [] ->
    exists m, dry_rock_material d mineral p = Ok m /\ wf m /\
      dens m = dens mineral * (1 - phi) /\ bulk m = 2900 - 1300 * phi /\ shear m = 1700 - 800 * phi.
Proof. exact default_dry_rock. Qed.
Print Assumptions C101_default_dry_rock.

Example C101_nonvacuous :
  wf (sample 36800000000 44000000000 2650) /\ truncated_rock (a_pressure 70000000) = Ok 30000000 /\
  is_ok (make_dry_rock (InPolyfit None) (3 / 10) []).
Proof.
  split; [apply quartz_solid|]. split; [unfold truncated_rock, a_pressure, clip_above; simpl; f_equal; ring|].
  eexists; reflexivity.
Qed.

(** C102 *)
Theorem C102_valid_up_to_partial :
  forall phi mineral p e d,
    wf mineral -> truncated_rock p = Ok e ->
    make_dry_rock (InPolyfit (Some (mkCoef Velocity None None None))) phi [] = Ok d ->
    0 <= phi <= 36 / 100 -> is_ok (dry_rock_material d mineral p).
Proof.
  intros phi mineral p e d W Et Hd Hphi.
  apply (default_velocity phi mineral p e d [] W Et Hd eq_refl ltac:(lra)).
  apply default_velocity_valid. lra.
Qed.
Print Assumptions C102_valid_up_to_partial.

Theorem C102_exactly_when :
  forall phi mineral p e d l,
    wf mineral -> truncated_rock p = Ok e ->
    make_dry_rock (InPolyfit (Some (mkCoef Velocity None None None))) phi l = Ok d -> l = [] ->
    0 <= phi <= 1 ->
    (is_ok (dry_rock_material d mineral p) <->
     phi <= 1 / 2 /\ sqrt (4 / 3) * (12 - 20 * phi) <= 20 - 40 * phi).
Proof. exact default_velocity. Qed.
Print Assumptions C102_exactly_when.

Theorem C102_refuted :
  exists phi, 0 <= phi <= 2 / 5 /\
    forall mineral p e d, wf mineral -> truncated_rock p = Ok e ->
      make_dry_rock (InPolyfit (Some (mkCoef Velocity None None None))) phi [] = Ok d ->
      ~ is_ok (dry_rock_material d mineral p).
Proof.
  exists (37 / 100). split; [lra|]. intros mineral p e d W Et Hd H.
  apply (default_velocity (37 / 100) mineral p e d [] W Et Hd eq_refl ltac:(lra)) in H.
  pose proof (default_velocity_invalid (37 / 100)). lra.
Qed.
Print Assumptions C102_refuted.

Example C102_nonvacuous :
  wf (sample 36800000000 44000000000 2650) /\ truncated_rock (a_pressure 70000000) = Ok 30000000 /\
  is_ok (make_dry_rock (InPolyfit (Some (mkCoef Velocity None None None))) (37 / 100) []).
Proof.
  split; [apply quartz_solid|]. split; [unfold truncated_rock, a_pressure, clip_above; simpl; f_equal; ring|].
  eexists; reflexivity.
Qed.

(** C103 *)
Theorem C103_defaults :
  forall c sr cement f lo u n,
    f_coordination (make_friable c sr None) = murphy_coordination_number c /\
    pa_coordination (make_patchy cement c f lo u None sr) = murphy_coordination_number c /\
    f_coordination (make_friable c sr (Some n)) = n /\
    pa_coordination (make_patchy cement c f lo u (Some n) sr) = n.
Proof. exact coordination_default. Qed.
Print Assumptions C103_defaults.

Theorem C103_cement_coordination_refuted :
  exists q p phi mineral m m' d,
    make_dry_rock (InPatchy q) phi [] = Ok d /\
    patchy_material q p phi mineral = Ok m /\
    patchy_cement mineral (pa_cement q) phi (pa_critical q - pa_cement_fraction q)
      (pa_critical q - pa_upper_fraction q) p (pa_lower_pressure q) (pa_critical q)
      (pa_shear_reduction q) (pa_coordination q) (pa_coordination q) = Ok m' /\
    bulk m <> bulk m'.
Proof. exact coordination_refuted. Qed.
Print Assumptions C103_cement_coordination_refuted.

(** C104 *)
Theorem C104_zero_porosity :
  forall q p mineral,
    patchy_input mineral (pa_cement q) 0 (pa_critical q - pa_cement_fraction q)
      (pa_critical q - pa_upper_fraction q) (pa_critical q) ->
    0 < p -> 0 < pa_lower_pressure q -> 0 <= pa_shear_reduction q -> 0 < pa_coordination q ->
    forall l, exists s m,
      nonporous (mkDryRock (RockPatchy q) 0 l) mineral = Ok s /\
      patchy_material q p 0 mineral = Ok m /\
      bulk m = bulk s /\ shear m = shear s.
Proof. exact patchy_zero_porosity. Qed.
Print Assumptions C104_zero_porosity.

(** The other rock models keep the mineral as their solid part. *)
Theorem C104_solid_rock :
  forall d mineral, (forall q, dr_model d <> RockPatchy q) -> nonporous d mineral = Ok mineral.
Proof. exact solid_rock. Qed.
Print Assumptions C104_solid_rock.

Example C104_nonvacuous :
  let q := make_patchy (sample 76800000000 32000000000 2710) (2 / 5) (4 / 100) 20000000 (1 / 10) (Some 9) 1 in
  patchy_input (sample 36800000000 44000000000 2650) (pa_cement q) 0 (pa_critical q - pa_cement_fraction q)
      (pa_critical q - pa_upper_fraction q) (pa_critical q) /\
  0 < pa_lower_pressure q /\ 0 <= pa_shear_reduction q /\ 0 < pa_coordination q.
Proof.
  simpl. split; [|lra].
  split; [apply quartz_calcite; lra|]. split; [apply quartz_calcite; lra|]. repeat split; lra.
Qed.

(** C156 *)
Theorem C156_scaling :
  forall md m p r phi mn m',
    not_powerfit md -> pressure_dependency md m p r phi mn = Ok m' ->
    exists rd r1 r2 ed e1 e2,
      eval_model md r phi mn = Ok (rd, r1, r2) /\ eval_model md p phi mn = Ok (ed, e1, e2) /\
      rd <> 0 /\ r1 <> 0 /\ r2 <> 0 /\ dens m' = dens m * (ed / rd) /\
      (model_uses_moduli md = true -> bulk m' = bulk m * (e1 / r1) /\ shear m' = shear m * (e2 / r2)) /\
      (model_uses_moduli md = false -> vp m' = vp m * (e1 / r1) /\ vs m' = vs m * (e2 / r2)).
Proof. exact dependency_scales. Qed.
Print Assumptions C156_scaling.

(** Whenever the scaled moduli are those of a material, they are accepted. *)
Theorem C156_accepted :
  forall md m p r phi mn rd r1 r2 ed e1 e2,
    not_powerfit md -> model_uses_moduli md = true ->
    eval_model md r phi mn = Ok (rd, r1, r2) -> eval_model md p phi mn = Ok (ed, e1, e2) ->
    1 / 10 ^ 20 < Rabs rd -> 1 / 10 ^ 20 < Rabs r1 -> 1 / 10 ^ 20 < Rabs r2 ->
    0 < dens m * (ed / rd) -> 0 <= bulk m * (e1 / r1) -> 0 <= shear m * (e2 / r2) ->
    is_ok (pressure_dependency md m p r phi mn).
Proof. exact dependency_accepts. Qed.
Print Assumptions C156_accepted.

(** f = 1 + p: from p = 1 to p = 3 everything doubles. *)
Example C156_nonvacuous :
  let md := Polyfit (mkCoef Moduli (Some [1; 1]) (Some [1; 1]) (Some [1; 1])) in
  let m := sample 10 20 5 in
  not_powerfit md /\ model_uses_moduli md = true /\
  exists m', pressure_dependency md m 3 1 0 m = Ok m' /\ dens m' = 10 /\ bulk m' = 20 /\ shear m' = 40.
Proof.
  intros md m. split; [exact I|]. split; [reflexivity|].
  assert (E : forall p, eval_model md p 0 m = Ok (1 + p, 1 + p, 1 + p)).
  { intros p. unfold md. rewrite polyfit_eval by (try reflexivity; discriminate). cbn. do 3 f_equal; ring. }
  assert (A : is_ok (pressure_dependency md m 3 1 0 m)).
  { apply (C156_accepted md m 3 1 0 m _ _ _ _ _ _ I eq_refl (E 1) (E 3));
      rewrite ?Rabs_pos_eq; unfold m, sample; cbn; lra. }
  destruct A as [m' A]. exists m'. split; [exact A|].
  destruct (C156_scaling md m 3 1 0 m m' I A) as (rd & r1 & r2 & ed & e1 & e2 & E1 & E2 & _ & _ & _ & D & U & _).
  rewrite E in E1, E2. injection E1 as <- <- <-. injection E2 as <- <- <-.
  destruct (U eq_refl) as [K S]. rewrite D, K, S. unfold m, sample; cbn. repeat split; field; lra.
Qed.

(** C157 *)
Theorem C157_refused :
  forall md d b v, coefficients_of md d b v -> ragged d b v ->
  forall m p r phi mn,
    eval_model md p phi mn = Err ValueError /\ pressure_dependency md m p r phi mn = Err ValueError.
Proof. exact ragged_refused. Qed.
Print Assumptions C157_refused.
(** Three lists of the same length but too short for the formula. *)
Theorem C157_short :
  forall md d b v, coefficients_of md (Some d) (Some b) (Some v) -> length d = length b -> length b = length v ->
  (length d < match md with Expfit _ => 3 | Logfit _ | Powerfit _ _ _ => 2 | _ => 0 end)%nat ->
  forall m p r phi mn,
    eval_model md p phi mn = Err IndexError /\ pressure_dependency md m p r phi mn = Err IndexError.
Proof.
  intros md d b v C L1 L2 S m p r phi mn.
  assert (E : forall q, eval_model md q phi mn = Err IndexError).
  { intros q. unfold coefficients_of in C. destruct md; try (exfalso; lia);
      destruct C as (-> & -> & ->) || (destruct c; cbn in C; destruct C as (-> & -> & ->));
      cbn [eval_model c_density c_primary c_secondary]; unfold coefficient_rows; rewrite L1, L2, !Nat.eqb_refl; cbn [andb bind three];
      destruct d as [|d0 [|d1 [|d2 d3]]]; cbn in S; try (exfalso; lia); reflexivity. }
  split; [apply E|]. unfold pressure_dependency, generic_dependency, powerfit_dependency. destruct md; rewrite (E r); reflexivity.
Qed.
Print Assumptions C157_short.

Example C157_nonvacuous :
  let c := mkCoef Moduli (Some [1; 2]) (Some [1; 2]) (Some [1]) in
  coefficients_of (Logfit c) (Some [1; 2]) (Some [1; 2]) (Some [1]) /\
  ragged (Some [1; 2]) (Some [1; 2]) (Some [1]).
Proof.
  split; [repeat split|]. right; right; right. do 3 eexists. repeat split. right. discriminate.
Qed.
Example C157_short_nonvacuous : coefficients_of (Expfit (mkCoef Moduli (Some [1; 2]) (Some [1; 2]) (Some [1; 2]))) (Some [1; 2]) (Some [1; 2]) (Some [1; 2]).
Proof. repeat split. Qed.
