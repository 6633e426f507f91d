(** Properties of calculations with infinities (C211-C216). *)
From Coq Require Import String List Lra.
From Verif Require Import Base MaterialModel FluidModel ConfigModel RowModel InfModel InfSpec RelProofs EmbedProofs InfProofs.
Import ListNotations.
Open Scope R_scope.

(** C211: with infinities, nan and signed zeros the calculation gives what the
    real numbers give wherever those suffice: materials. *)
Theorem C211_materials : forall kd k mu d a b c, reads k a -> reads mu b -> reads d c ->
  agrees reads_material (mat_of_moduli k mu d) (x_material_of_moduli kd a b c) /\
  agrees reads_material (mat_of_velocities k mu d) (x_material_of_velocities a b c).
Proof. intros. split; apply sim_agrees; [apply xs_of_moduli|apply xs_of_velocities]; assumption. Qed.
Print Assumptions C211_materials.

(** C211: mixtures of fluids. *)
Theorem C211_mixtures : forall kd ks fs fs' l l' gs gs' g g' e,
  Forall2 reads_material fs fs' -> Forall2 reads l l' -> Forall2 reads_material gs gs' -> Forall2 reads g g' ->
  agrees reads_material (wood_fluid_mixing fs l) (x_wood_fluid_mixing kd fs' l') /\
  agrees reads_material (brie_fluid_mixing fs l gs g e) (x_brie_fluid_mixing kd ks fs' l' gs' g' e).
Proof. intros. split; apply sim_agrees; [apply xs_wood|apply xs_brie]; assumption. Qed.
Print Assumptions C211_mixtures.

(** C211: fluid substitution. *)
Theorem C211_substitution : forall kd d m f phi d' m' f' p,
  reads_material d d' -> reads_material m m' -> reads_material f f' -> reads phi p ->
  agrees reads_material (fluid_substitution d m f phi) (x_fluid_substitution kd d' m' f' p).
Proof. intros. apply sim_agrees, xs_substitution; assumption. Qed.
Print Assumptions C211_substitution.

(** C211: dry rock by polynomials, for a number and for one row of a column. *)
Theorem C211_dry_rock : forall kd v m c v' m', reads v v' -> reads_material m m' ->
  agrees reads_material
    (let* r := polyval_material v m c in match kd with Array => mat_of_velocities (dens r) (vp r) (vs r) | _ => Ok r end)
    (x_polyval kd v' m' c).
Proof. exact inf_dry_rock. Qed.
Print Assumptions C211_dry_rock.

(** C211: the fits of pressure dependency. *)
Theorem C211_pressure : forall kd md m p ref porosity mineral m' a b,
  is_fit md -> reads_material m m' -> reads p a -> reads ref b ->
  agrees reads_material (pressure_dependency md m p ref porosity mineral) (x_pressure_dependency kd md m' a b).
Proof. intros. apply sim_agrees, xs_dependency; assumption. Qed.
Print Assumptions C211_pressure.

Example C211_nonvacuous : exists m, mat_of_moduli 9 0 4 = Ok m /\ exists v, x_material_of_moduli Array (XFin 9) XNegZero (XFin 4) = Ok v /\
  reads_material m v /\ is_fit (log_fit Moduli 1 0 1 1 1 1).
Proof.
  exists (mkMat 9 0 4 (sqrt (9 / 4)) (sqrt (0 / 4))).
  assert (E : mat_of_moduli 9 0 4 = Ok (mkMat 9 0 4 (sqrt (9 / 4)) (sqrt (0 / 4)))).
  { rewrite MaterialProofs.mat_of_moduli_ok by lra. repeat f_equal. unfold MaterialProofs.vp_of. f_equal. f_equal. lra. }
  split; [exact E|]. destruct (C211_materials Array 9 0 4 (XFin 9) XNegZero (XFin 4)) as [[A _] _]; [left; reflexivity|right; auto|left; reflexivity|].
  destruct (A _ E) as (v & Ev & R). exists v. repeat split; try apply R. exact Ev.
Qed.

(** C212: a material of NumPy numbers is accepted exactly when neither modulus
    nor the density is below zero; zero density, infinities and nan pass.  So it
    is with Python's numbers if the density is not zero. *)
Theorem C212_accepted : forall kd k mu d, kd <> Python \/ ~ is_zero d ->
  (~ below_zero k /\ ~ below_zero mu /\ ~ below_zero d -> exists m, x_material_of_moduli kd k mu d = Ok m /\
     x_bulk m = k /\ x_shear m = mu /\ x_dens m = d) /\
  (below_zero k \/ below_zero mu \/ below_zero d -> x_material_of_moduli kd k mu d = Err ValueError).
Proof. exact inf_accepted. Qed.
Print Assumptions C212_accepted.

Theorem C212_python : forall k mu d, is_zero d -> x_material_of_moduli Python k mu d = Err ZeroDivisionError.
Proof. exact inf_python. Qed.
Print Assumptions C212_python.

(** C212: the velocities of a material without density are infinite, or nan where
    there is nothing to divide. *)
Theorem C212_zero_density : forall kd k mu, kd <> Python -> 0 <= k -> 0 <= mu ->
  exists m, x_material_of_moduli kd (XFin k) (XFin mu) (XFin 0) = Ok m /\
    x_bulk m = XFin k /\ x_shear m = XFin mu /\ x_dens m = XFin 0 /\
    x_vp m = (if Rlt_dec 0 (k + mu) then XInf false else XNan) /\
    x_vs m = (if Rlt_dec 0 mu then XInf false else XNan).
Proof. exact inf_zero_density. Qed.
Print Assumptions C212_zero_density.

Example C212_nonvacuous :
  (exists m, x_material_of_moduli Scalar (XInf false) XNan (XFin 3) = Ok m) /\
  x_material_of_moduli Scalar (XFin 1) (XInf true) (XFin 3) = Err ValueError /\ is_zero XNegZero.
Proof.
  split; [|split; [|right; auto]].
  - destruct (C212_accepted Scalar (XInf false) XNan (XFin 3)) as [A _]; [left; discriminate|].
    destruct A as (m & E & _); [repeat split; cbn; try tauto; try lra; discriminate|]. eauto.
  - destruct (C212_accepted Scalar (XFin 1) (XInf true) (XFin 3)) as [_ A]; [left; discriminate|]. apply A. right; left. reflexivity.
Qed.

(** C213: porosity one with the default coefficients of dry rock.  Written as a
    number it gives a dry rock without density but with finite moduli, and a
    finite saturated rock. *)
Theorem C213_number : forall kd m f, 0 < dens m -> 1600 < bulk m -> 0 < bulk f < bulk m -> 0 < dens f ->
  exists dry s, x_polyval Scalar (XFin 1) (x_of m) default_rock = Ok dry /\
    x_bulk dry = XFin 1600 /\ x_shear dry = XFin 900 /\ x_dens dry = XFin 0 /\ x_vp dry = XInf false /\ x_vs dry = XInf false /\
    x_fluid_substitution kd dry (x_of m) (x_of f) (XFin 1) = Ok s /\
    x_dens s = XFin (dens f) /\ x_shear s = XFin 900 /\ finite (x_vp s) /\ finite (x_vs s) /\
    exists k, x_bulk s = XFin k /\ 1600 < k < bulk m.
Proof.
  intros kd m f D K F Df. destruct (inf_saturated_constant kd m f D K F Df) as (s & E & H).
  exists (mkX (XFin 1600) (XFin 900) (XFin 0) (XInf false) (XInf false)), s.
  split; [apply inf_default_constant, D|]. repeat (split; [reflexivity|]). split; [exact E|exact H].
Qed.
Print Assumptions C213_number.

(** C213: as a row of a column it gives nan for the moduli of both, without error. *)
Theorem C213_column : forall kd m f, 0 < dens m -> 0 < bulk f < bulk m -> 0 < dens f ->
  exists dry s, x_polyval Array (XFin 1) (x_of m) default_rock = Ok dry /\
    x_bulk dry = XNan /\ x_shear dry = XNan /\ x_dens dry = XFin 0 /\
    x_fluid_substitution kd dry (x_of m) (x_of f) (XFin 1) = Ok s /\
    x_dens s = XFin (dens f) /\ x_bulk s = XNan /\ x_shear s = XNan.
Proof.
  intros kd m f D F Df. destruct (inf_saturated_column kd m f D F Df) as (s & E & H).
  exists (mkX XNan XNan (XFin 0) (XInf false) (XInf false)), s.
  split; [apply inf_default_column, D|]. repeat (split; [reflexivity|]). split; [exact E|exact H].
Qed.
Print Assumptions C213_column.

Theorem C213_default : fill_coefficients (mkCoef Moduli None None None) = default_rock.
Proof. exact inf_default_rock. Qed.
Print Assumptions C213_default.

(** C213: so a number and a column of that number do not give the same rock. *)
Theorem C213_same_refuted : exists m f dry dry' s s', 
  x_polyval Scalar (XFin 1) (x_of m) default_rock = Ok dry /\ x_polyval Array (XFin 1) (x_of m) default_rock = Ok dry' /\
  x_fluid_substitution Scalar dry (x_of m) (x_of f) (XFin 1) = Ok s /\ x_fluid_substitution Array dry' (x_of m) (x_of f) (XFin 1) = Ok s' /\
  finite (x_bulk s) /\ finite (x_vp s) /\ x_bulk s' = XNan.
Proof.
  pose (m := mkMat 4000 1000 2 1 1). pose (f := mkMat 1000 0 1 1 0).
  destruct (C213_number Scalar m f) as (dry & s & E1 & _ & _ & _ & _ & _ & E2 & _ & _ & P & _ & k & B & _); [cbn; lra..|].
  destruct (C213_column Array m f) as (dry' & s' & E1' & _ & _ & _ & E2' & _ & B' & _); [cbn; lra..|].
  exists m, f, dry, dry', s, s'. repeat (split; [eassumption|]). split; [exists k; left; exact B|]. split; assumption.
Qed.
Print Assumptions C213_same_refuted.

Example C213_nonvacuous : let m := mkMat 4000 1000 2 1 1 in let f := mkMat 1000 0 1 1 0 in
  0 < dens m /\ 1600 < bulk m /\ 0 < bulk f < bulk m /\ 0 < dens f.
Proof. cbn. lra. Qed.

(** C214: a fluid without bulk modulus makes Wood's mixture one without bulk
    modulus, if there is any of it. *)
Theorem C214_present : forall kd fs l, kd <> Python -> Forall (fun f => 0 <= bulk f /\ 0 < dens f) fs -> Forall (fun s => 0 <= s) l ->
  (exists s f, In (s, f) (combine l fs) /\ bulk f = 0 /\ 0 < s) ->
  (forall s f, In (s, f) (combine l fs) -> bulk f = 0 -> 0 < s) ->
  exists m, x_wood_fluid_mixing kd (map x_of fs) (map XFin l) = Ok m /\ x_bulk m = XFin 0 /\ x_vp m = XFin 0 /\ finite (x_dens m).
Proof. exact inf_wood_present. Qed.
Print Assumptions C214_present.

(** C214: if there is none of it, the bulk modulus of the mixture is nan. *)
Theorem C214_absent : forall kd fs l, kd <> Python -> Forall (fun f => 0 <= bulk f /\ 0 < dens f) fs -> Forall (fun s => 0 <= s) l ->
  (exists s f, In (s, f) (combine l fs) /\ bulk f = 0 /\ s = 0) -> (exists s f, In (s, f) (combine l fs) /\ 0 < s) ->
  exists m, x_wood_fluid_mixing kd (map x_of fs) (map XFin l) = Ok m /\ x_bulk m = XNan /\ x_vp m = XNan /\ finite (x_dens m).
Proof. exact inf_wood_absent. Qed.
Print Assumptions C214_absent.

(** C214: so a fluid of which there is none may change the mixture. *)
Theorem C214_unused_refuted : exists f g m m', 
  x_wood_fluid_mixing Scalar [x_of f] [XFin 1] = Ok m /\ x_wood_fluid_mixing Scalar [x_of f; x_of g] [XFin 1; XFin 0] = Ok m' /\
  finite (x_bulk m) /\ x_bulk m' = XNan.
Proof. exact inf_wood_unused. Qed.
Print Assumptions C214_unused_refuted.

Example C214_nonvacuous :
  exists m, x_wood_fluid_mixing Array (map x_of [mkMat 2 0 1 1 0; mkMat 0 0 1 0 0]) (map XFin [1 / 2; 1 / 2]) = Ok m /\ x_bulk m = XFin 0.
Proof.
  destruct (C214_present Array [mkMat 2 0 1 1 0; mkMat 0 0 1 0 0] [1 / 2; 1 / 2]) as (m & E & B & _).
  - discriminate.
  - repeat constructor; cbn; lra.
  - repeat constructor; lra.
  - exists (1 / 2), (mkMat 0 0 1 0 0). split; [right; left; reflexivity|]. cbn. lra.
  - cbn. intros s f [E|[E|[]]] _; injection E as <- _; lra.
  - eauto.
Qed.

(** C215: a fit by the logarithm of pressure that grows with pressure is refused
    where the effective pressure is zero. *)
Theorem C215_growing : forall kd fl a0 a1 b0 b1 c0 c1 m ref, 0 < bulk m -> 0 < vp m -> 0 < ref -> 0 < b1 ->
  1 / 10 ^ 20 < Rabs (a0 + a1 * log10 ref) -> 1 / 10 ^ 20 < b0 + b1 * log10 ref -> 1 / 10 ^ 20 < Rabs (c0 + c1 * log10 ref) ->
  0 < dens m ->
  x_pressure_dependency kd (log_fit fl a0 a1 b0 b1 c0 c1) (x_of m) (XFin 0) (XFin ref) = Err ValueError.
Proof. exact inf_logfit_zero. Qed.
Print Assumptions C215_growing.

(** C215: one that does not depend on pressure gives nan there. *)
Theorem C215_flat : forall kd fl a0 b0 c0 m ref, 0 < ref ->
  1 / 10 ^ 20 < Rabs a0 -> 1 / 10 ^ 20 < Rabs b0 -> 1 / 10 ^ 20 < Rabs c0 ->
  exists m', x_pressure_dependency kd (log_fit fl a0 0 b0 0 c0 0) (x_of m) (XFin 0) (XFin ref) = Ok m' /\
    x_bulk m' = XNan /\ x_shear m' = XNan /\ x_dens m' = XNan /\ x_vp m' = XNan /\ x_vs m' = XNan.
Proof. exact inf_logfit_flat. Qed.
Print Assumptions C215_flat.

(** C215: where the pressure of reference is zero every rock loses its moduli (or
    velocities), without error. *)
Theorem C215_reference : forall kd fl a0 b0 b1 c0 c1 m p,
  0 < bulk m -> 0 < shear m -> 0 < vp m -> 0 < vs m -> 0 < p -> 0 < b1 -> 0 < c1 ->
  0 < b0 + b1 * log10 p -> 0 < c0 + c1 * log10 p ->
  exists m', x_pressure_dependency kd (log_fit fl a0 0 b0 b1 c0 c1) (x_of m) (XFin p) (XFin 0) = Ok m' /\ x_dens m' = XNan /\
    match fl with
    | Moduli => is_zero (x_bulk m') /\ is_zero (x_shear m') /\ x_vp m' = XNan /\ x_vs m' = XNan
    | Velocity => is_zero (x_vp m') /\ is_zero (x_vs m') /\ x_bulk m' = XNan /\ x_shear m' = XNan
    end.
Proof. exact inf_logfit_reference. Qed.
Print Assumptions C215_reference.

Theorem C215_refused_refuted : exists md m m' m'', is_fit md /\ 0 < bulk m /\ 0 < shear m /\ 0 < dens m /\
  x_pressure_dependency Array md (x_of m) (XFin 10) (XFin 0) = Ok m' /\ is_zero (x_bulk m') /\
  x_pressure_dependency Array (log_fit Moduli 1 0 1 0 1 0) (x_of m) (XFin 0) (XFin 10) = Ok m'' /\ x_bulk m'' = XNan.
Proof.
  assert (L : log10 10 = 1) by (unfold log10; field; pose proof (ln_lt_0_10); lra).
  destruct (C215_reference Array Moduli 1 1 1 1 1 (mkMat 3 1 1 2 1) 10) as (m' & E & _ & B & _); [cbn; try rewrite L; lra..|].
  destruct (C215_flat Array Moduli 1 1 1 (mkMat 3 1 1 2 1) 10) as (m'' & E' & B' & _); [rewrite ?Rabs_R1; lra..|].
  exists (log_fit Moduli 1 0 1 1 1 1), (mkMat 3 1 1 2 1), m', m''.
  split; [exact I|]. split; [cbn [bulk]; lra|]. split; [cbn [shear]; lra|]. split; [cbn [dens]; lra|]. repeat (split; [assumption|]). assumption.
Qed.
Print Assumptions C215_refused_refuted.

Example C215_nonvacuous : x_pressure_dependency Array (log_fit Velocity 1 0 1 1 1 1) (x_of (mkMat 3 1 1 2 1)) (XFin 0) (XFin 10) = Err ValueError.
Proof.
  assert (L : log10 10 = 1) by (unfold log10; field; pose proof (ln_lt_0_10); lra).
  apply C215_growing; cbn; rewrite ?L, ?Rmult_0_l, ?Rplus_0_r, ?Rabs_R1; try lra. rewrite Rabs_pos_eq; lra.
Qed.

(** C216: a rock without shear velocity keeps a shear modulus of zero under a fit
    by powers, whose quotient of velocities is then infinite; a rock without
    either velocity gets a shear modulus of nan. *)
Theorem C216_no_shear : forall kd d0 d1 b0 b1 v0 v1 m p ref, 0 < p -> 0 < ref -> vs m = 0 -> 0 <= vp m ->
  0 < bulk m + (b0 * Rpower p b1 - b0 * Rpower ref b1) -> 0 < dens m + (d0 * Rpower p d1 - d0 * Rpower ref d1) ->
  exists m', x_pressure_dependency kd (power_fit d0 d1 b0 b1 v0 v1) (x_of m) (XFin p) (XFin ref) = Ok m' /\
    x_bulk m' = XFin (bulk m + (b0 * Rpower p b1 - b0 * Rpower ref b1)) /\
    x_dens m' = XFin (dens m + (d0 * Rpower p d1 - d0 * Rpower ref d1)) /\
    x_shear m' = (if Rlt_dec 0 (vp m) then XFin 0 else XNan).
Proof. exact inf_powerfit. Qed.
Print Assumptions C216_no_shear.

Example C216_nonvacuous : exists m', x_pressure_dependency Array (power_fit 0 1 2 1 1 1) (x_of (mkMat 4 0 1 2 0)) (XFin 5) (XFin 3) = Ok m' /\
  x_bulk m' = XFin 8 /\ x_shear m' = XFin 0.
Proof.
  destruct (C216_no_shear Array 0 1 2 1 1 1 (mkMat 4 0 1 2 0) 5 3) as (m' & E & B & _ & Q); [cbn; rewrite ?Rpower_1 by lra; lra..|].
  exists m'. split; [exact E|]. cbn in B, Q. rewrite !Rpower_1 in B by lra. split; [rewrite B; f_equal; lra|].
  rewrite Q. destruct (Rlt_dec 0 2); [reflexivity|lra].
Qed.
