(** Properties C239, C240: the correction for pressure at the reference pressure in
    double precision. *)
From Coq Require Import Reals List Lra Lia ZArith.
From Verif Require Import Base MaterialModel MainModel FloatModel ConfigModel FloatSpec FloatProofs FloatExampleProofs FloatPressureModel FloatDependencyModel FloatDependencyProofs.
Import ListNotations.
Open Scope R_scope.

(** C239: at the reference pressure the correction by a fit returns the very same
    material, without any rounding, whatever the fit and the library functions in
    it, when moduli are corrected and when velocities are. *)
Theorem C239_moduli : forall root fit rd rp rs x y z k mu d m p,
  fit p rd = Ok x -> fit p rp = Ok y -> fit p rs = Ok z ->
  2 / 10 ^ 20 <= Rabs x -> 2 / 10 ^ 20 <= Rabs y -> 2 / 10 ^ 20 <= Rabs z ->
  double k -> double mu -> double d -> f_mat_of_moduli root k mu d = Ok m ->
  f_generic_dependency root true fit (rd, rp, rs) m p p = Ok m.
Proof. exact reference_moduli. Qed.
Print Assumptions C239_moduli.
Theorem C239_velocities : forall root fit rd rp rs x y z d a b m p,
  fit p rd = Ok x -> fit p rp = Ok y -> fit p rs = Ok z ->
  2 / 10 ^ 20 <= Rabs x -> 2 / 10 ^ 20 <= Rabs y -> 2 / 10 ^ 20 <= Rabs z ->
  double d -> double a -> double b -> f_mat_of_velocities root d a b = Ok m ->
  f_generic_dependency root false fit (rd, rp, rs) m p p = Ok m.
Proof. exact reference_velocities. Qed.
Print Assumptions C239_velocities.
(** A fit of nearly zero at the reference pressure is refused. *)
Theorem C239_zero : forall root b fit rd rp rs x y z x' y' z' m p r,
  fit r rd = Ok x -> fit r rp = Ok y -> fit r rs = Ok z -> fit p rd = Ok x' -> fit p rp = Ok y' -> fit p rs = Ok z' ->
  Rabs x <= 1 / (2 * 10 ^ 20) \/ Rabs y <= 1 / (2 * 10 ^ 20) \/ Rabs z <= 1 / (2 * 10 ^ 20) ->
  f_generic_dependency root b fit (rd, rp, rs) m p r = Err ValueError.
Proof. exact reference_zero. Qed.
Print Assumptions C239_zero.
Example C239_nonvacuous : exists m m' x y,
  f_logfit_row (fun _ => 2) 100 [1; 3] = Ok x /\ f_logfit_row (fun _ => 2) 100 [6; -3] = Ok y /\
  2 / 10 ^ 20 <= Rabs x /\ Rabs y <= 1 / (2 * 10 ^ 20) /\ double 8 /\ double 3 /\ double 2 /\ double 1 /\
  f_mat_of_moduli fl_sqrt 8 3 2 = Ok m /\ f_mat_of_velocities fl_sqrt 1 2 1 = Ok m'.
Proof.
  destruct (material_close fl_sqrt 8 3 2 fl_sqrt_good) as (m & E & _); try (apply ordinary_range; lra); try lra.
  destruct velocities_example as (m' & E').
  assert (D : forall z : Z, (0 <= z < 1000)%Z -> rnd (IZR z) = Ok (IZR z)) by (intros z H; apply rnd_of_double, double_nat, H).
  exists m, m', 7, 0. unfold f_logfit_row, column. cbn [nth_error bind]. destruct (Rlt_dec 0 100); [|lra]. cbn [bind].
  replace (3 * 2) with 6 by ring. rewrite (D 6%Z ltac:(lia)). cbn [bind]. replace (1 + 6) with 7 by ring. rewrite (D 7%Z ltac:(lia)).
  replace (-3 * 2) with (- (6)) by ring.
  assert (N : rnd (- (6)) = Ok (- (6))) by (apply rnd_of_double; exists (-6)%Z, 0%Z; split; [reflexivity|split; [lia|simpl; ring]]).
  rewrite N. cbn [bind]. replace (6 + - (6)) with 0 by ring. rewrite (D 0%Z ltac:(lia)).
  split; [reflexivity|]. split; [reflexivity|]. split; [rewrite Rabs_pos_eq; lra|]. split; [rewrite Rabs_R0; lra|].
  split; [apply (double_nat 8); lia|]. split; [apply (double_nat 3); lia|]. split; [apply (double_nat 2); lia|]. split; [apply (double_nat 1); lia|].
  split; [exact E|exact E'].
Qed.

(** C240: at the reference pressure the power fit returns bulk modulus and density
    without any rounding.  (The shear modulus is calculated from the ratio of the
    velocities, and is rounded.) *)
Theorem C240_power_fit : forall root fit rows m p r, double (bulk m) -> double (dens m) ->
  f_powerfit_dependency root fit rows m p p = Ok r -> bulk r = bulk m /\ dens r = dens m.
Proof. exact power_reference. Qed.
Print Assumptions C240_power_fit.
Example C240_nonvacuous : double 8 /\ double 2 /\
  exists r, f_powerfit_dependency fl_sqrt (fun p row => rnd p) ([], [], []) (mkMat 8 3 2 2 1) 20 20 = Ok r.
Proof. split; [apply (double_nat 8); lia|]. split; [apply (double_nat 2); lia|]. exact power_example. Qed.
