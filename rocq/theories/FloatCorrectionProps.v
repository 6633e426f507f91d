(** Properties C241, C242: the correction for pressure at any pressure in double
    precision.  (2^-1073 is less than any normal double.) *)
From Coq Require Import Reals List Lra Lia ZArith.
From Verif Require Import Base MaterialModel MainModel FloatModel ConfigModel FloatSpec FloatProofs FloatExampleProofs FloatDependencyModel FloatDependencyProofs FloatCorrectionProofs.
Import ListNotations.
Open Scope R_scope.

(** C241: a correction by a fit that is accepted multiplies density and moduli, or
    density and velocities, with the quotient of the fit at the pressure and at the
    reference pressure, up to a relative error of 2^-51. *)
Theorem C241_moduli : forall root fit rd rp rs x y z x' y' z' m p r g,
  fit r rd = Ok x -> fit r rp = Ok y -> fit r rs = Ok z -> fit p rd = Ok x' -> fit p rp = Ok y' -> fit p rs = Ok z' ->
  f_generic_dependency root true fit (rd, rp, rs) m p r = Ok g ->
  Rabs (dens g - dens m * (x' / x)) <= Rabs (dens m * (x' / x)) / 2 ^ 51 + (Rabs (dens m) + 1) / 2 ^ 1073 /\
  Rabs (bulk g - bulk m * (y' / y)) <= Rabs (bulk m * (y' / y)) / 2 ^ 51 + (Rabs (bulk m) + 1) / 2 ^ 1073 /\
  Rabs (shear g - shear m * (z' / z)) <= Rabs (shear m * (z' / z)) / 2 ^ 51 + (Rabs (shear m) + 1) / 2 ^ 1073.
Proof. exact correction_moduli. Qed.
Print Assumptions C241_moduli.
Theorem C241_velocities : forall root fit rd rp rs x y z x' y' z' m p r g,
  fit r rd = Ok x -> fit r rp = Ok y -> fit r rs = Ok z -> fit p rd = Ok x' -> fit p rp = Ok y' -> fit p rs = Ok z' ->
  f_generic_dependency root false fit (rd, rp, rs) m p r = Ok g ->
  Rabs (dens g - dens m * (x' / x)) <= Rabs (dens m * (x' / x)) / 2 ^ 51 + (Rabs (dens m) + 1) / 2 ^ 1073 /\
  Rabs (vp g - vp m * (y' / y)) <= Rabs (vp m * (y' / y)) / 2 ^ 51 + (Rabs (vp m) + 1) / 2 ^ 1073 /\
  Rabs (vs g - vs m * (z' / z)) <= Rabs (vs m * (z' / z)) / 2 ^ 51 + (Rabs (vs m) + 1) / 2 ^ 1073.
Proof. exact correction_velocities. Qed.
Print Assumptions C241_velocities.
Example C241_nonvacuous : rnd 1 = Ok 1 /\ rnd 2 = Ok 2 /\
  (exists g, f_generic_dependency fl_sqrt true (fun p row => rnd p) ([], [], []) (mkMat 4 1 1 0 0) 2 1 = Ok g) /\
  (exists g, f_generic_dependency fl_sqrt false (fun p row => rnd p) ([], [], []) (mkMat 0 0 (1 / 2) 1 (1 / 2)) 2 1 = Ok g).
Proof.
  split; [apply (int_rnd 1); lia|]. split; [apply (int_rnd 2); lia|].
  split; [exact moduli_correction_example|exact velocities_correction_example].
Qed.

(** C242: a correction by the power fit that is accepted adds to density and bulk
    modulus the difference of the fit, up to 2^-51 of the terms; the shear modulus is
    the bulk modulus divided by a number h that differs from the square of the
    corrected ratio of velocities less 4/3 by at most 2^-49 of the squared terms. *)
Theorem C242_power_fit : forall root fit rd rp rs x y z x' y' z' m p r g,
  fit r rd = Ok x -> fit r rp = Ok y -> fit r rs = Ok z -> fit p rd = Ok x' -> fit p rp = Ok y' -> fit p rs = Ok z' ->
  f_powerfit_dependency root fit (rd, rp, rs) m p r = Ok g ->
  Rabs (dens g - (dens m + (x' - x))) <= (Rabs (dens m) + Rabs (x' - x)) / 2 ^ 51 + / 2 ^ 1073 /\
  Rabs (bulk g - (bulk m + (y' - y))) <= (Rabs (bulk m) + Rabs (y' - y)) / 2 ^ 51 + / 2 ^ 1073 /\
  exists h, 0 < h /\
    Rabs (h - ((vp m / vs m + (z' - z)) ^ 2 - 4 / 3)) <= ((Rabs (vp m / vs m) + Rabs (z' - z)) ^ 2 + 1) / 2 ^ 49 /\
    Rabs (shear g - bulk g / h) <= Rabs (bulk g / h) / 2 ^ 53 + / 2 ^ 1073.
Proof. exact correction_power. Qed.
Print Assumptions C242_power_fit.
Example C242_nonvacuous : rnd 20 = Ok 20 /\ rnd 21 = Ok 21 /\
  exists g, f_powerfit_dependency fl_sqrt (fun p row => rnd p) ([], [], []) (mkMat 7 3 1 1 1) 21 20 = Ok g.
Proof. split; [apply (int_rnd 20); lia|]. split; [apply (int_rnd 21); lia|]. exact power_correction_example. Qed.
