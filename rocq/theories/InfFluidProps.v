(** Properties of Batzle and Wang's fluids with infinities (C223, C224). *)
From Coq Require Import String List Lra.
From Verif Require Import Base MaterialModel BatzleWangModel Spec RowModel InfModel InfSandModel InfFluidModel InfSpec
  RelProofs MaterialProofs BatzleWangProofs BatzleWangProps InfProofs InfSandProofs InfFluidProofs.
Import ListNotations.
Open Scope R_scope.

(** C223: with infinities, nan and signed zeros the fluids of Batzle and Wang
    are those of the real numbers, wherever those suffice. *)
Theorem C223_gas : forall t p g a b c, reads t a -> reads p b -> reads g c ->
  agrees reads_material (gas t p g) (x_gas a b c).
Proof. intros. apply sim_agrees, xs_gas; assumption. Qed.
Print Assumptions C223_gas.

Theorem C223_oil : forall t p r rg g a b c d e, reads t a -> reads p b -> reads r c -> reads rg d -> reads g e ->
  agrees reads_material (dead_oil t p r) (x_dead_oil a b c) /\
  agrees reads_material (live_oil t p r rg g) (x_live_oil a b c d e) /\
  agrees reads_material (oil t p r rg g) (x_oil a b c d e).
Proof. intros. split; [|split]; apply sim_agrees; [apply xs_dead_oil|apply xs_live_oil|apply xs_oil]; assumption. Qed.
Print Assumptions C223_oil.

Theorem C223_brine : forall t p s a b c, reads t a -> reads p b -> reads s c ->
  agrees reads_material (water t p) (x_water a b) /\
  agrees reads_material (brine t p s) (x_brine a b c).
Proof. intros. split; apply sim_agrees; [apply xs_water|apply xs_brine]; assumption. Qed.
Print Assumptions C223_brine.

(** C223: so brine of reservoirs is accepted, with the numbers computed by
    NumPy: both properties are those of the real numbers. *)
Example C223_nonvacuous : exists b b' g g', brine 80 (30 * 10 ^ 6) 50000 = Ok b /\
  x_brine (XFin 80) (XFin (30 * 10 ^ 6)) (XFin 50000) = Ok b' /\ reads_material b b' /\
  gas 80 (30 * 10 ^ 6) (7 / 10) = Ok g /\ x_gas (XFin 80) (XFin (30 * 10 ^ 6)) (XFin (7 / 10)) = Ok g' /\ reads_material g g' /\
  exists o o', oil 0 (10 * 10 ^ 6) 800 (1 / 2) (8 / 10) = Ok o /\
    x_oil (XFin 0) (XFin (10 * 10 ^ 6)) (XFin 800) (XFin (1 / 2)) (XFin (8 / 10)) = Ok o' /\ reads_material o o'.
Proof.
  destruct (brine_usable 80 (30 * 10 ^ 6) 50000) as (b & E & _); [lra|lra|lra|].
  destruct (C223_brine 80 (30 * 10 ^ 6) 50000 _ _ _ (reads_fin _) (reads_fin _) (reads_fin _)) as (_ & A & _). destruct (A b E) as (b' & E' & H).
  destruct C80_nonvacuous as (g & G). destruct (C223_gas 80 (30 * 10 ^ 6) (7 / 10) _ _ _ (reads_fin _) (reads_fin _) (reads_fin _)) as (AG & _).
  destruct (AG g G) as (g' & G' & HG). exists b, b', g, g'. do 6 (split; [assumption|]).
  destruct C77_nonvacuous as (o & d & l & O & _). destruct (C223_oil 0 (10 * 10 ^ 6) 800 (1 / 2) (8 / 10) _ _ _ _ _ (reads_fin _) (reads_fin _) (reads_fin _) (reads_fin _) (reads_fin _)) as (_ & _ & AO & _).
  destruct (AO o O) as (o' & O' & HO). exists o, o'. auto.
Qed.

(** C224: a gas at infinite temperature or infinite pressure, or of infinite
    gravity, is refused. *)
Theorem C224_gas :
  (forall s p g, x_gas (XInf s) (XFin p) (XFin g) = Err ZeroDivisionError) /\
  (forall t s g, x_gas (XFin t) (XInf s) (XFin g) = Err ZeroDivisionError) /\
  (forall t p, - (27315 / 100) < t -> 0 < p -> x_gas (XFin t) (XFin p) (XInf false) = Err ZeroDivisionError).
Proof. split; [exact gas_infinite_temperature|]. split; [exact gas_infinite_pressure|exact gas_infinite_gravity]. Qed.
Print Assumptions C224_gas.

(** C224: water and brine are accepted wherever one of their conditions is
    infinite or nan: density, bulk modulus and velocities are nan; made again
    for a column, the shear modulus is too. *)
Theorem C224_brine : forall t p s, ~ finite t \/ ~ finite p \/ ~ finite s ->
  x_brine t p s = Ok (mkX XNan (XFin 0) XNan XNan XNan) /\
  (~ finite t \/ ~ finite p -> x_water t p = Ok (mkX XNan (XFin 0) XNan XNan XNan)) /\
  x_vectorized true (mkX XNan (XFin 0) XNan XNan XNan) = Ok (mkX XNan XNan XNan XNan XNan).
Proof.
  intros t p s H. rewrite !not_real_cases in *. split; [apply brine_infinite, H|]. split; [apply water_infinite|].
  unfold x_vectorized, x_material_of_velocities. cbn [x_dens x_vp x_vs]. unfold x_shear_modulus, x_bulk_modulus, xsquare. cbn [xmul].
  unfold xsub. cbn [xadd]. unfold x_moduli_guards, x_velocity_guards. cbn [xltb guard bind]. rewrite ?xmul_nan. reflexivity.
Qed.
Print Assumptions C224_brine.

(** C224: an infinite gas-oil ratio gives an oil whose density and bulk modulus
    are nan, wherever the dead oil is accepted. *)
Theorem C224_oil : forall t p r g m, 0 < t -> 0 < p -> 0 < r -> 0 < g -> dead_oil t p r = Ok m ->
  exists m', x_oil (XFin t) (XFin p) (XFin r) (XInf false) (XFin g) = Ok m' /\
    x_dens m' = XNan /\ x_bulk m' = XNan /\ x_vp m' = XInf false /\ x_vs m' = XNan.
Proof. exact oil_infinite_ratio. Qed.
Print Assumptions C224_oil.

Theorem C224_infinite_refuted :
  exists t p s, 0 < p /\ 0 < s /\ exists b, x_brine (XInf t) (XFin p) (XFin s) = Ok b /\ x_dens b = XNan.
Proof.
  exists false, (30 * 10 ^ 6), 50000. split; [lra|]. split; [lra|]. eexists. split; [|].
  - apply (C224_brine (XInf false)). left. rewrite not_real_cases. right. eauto.
  - reflexivity.
Qed.
Print Assumptions C224_infinite_refuted.

Example C224_nonvacuous : x_gas (XFin 80) (XFin (30 * 10 ^ 6)) (XInf false) = Err ZeroDivisionError /\
  (exists b, x_brine (XFin 80) (XFin (30 * 10 ^ 6)) (XInf true) = Ok b /\ x_dens b = XNan) /\
  exists m m', dead_oil 1 (10 * 10 ^ 6) 800 = Ok m /\ x_oil (XFin 1) (XFin (10 * 10 ^ 6)) (XFin 800) (XInf false) (XFin (8 / 10)) = Ok m' /\ x_dens m' = XNan.
Proof.
  split; [apply C224_gas; lra|]. split.
  - eexists. split; [apply C224_brine; right; right; rewrite not_real_cases; right; eauto|reflexivity].
  - destruct (dead_oil_warm) as (m & E). destruct (C224_oil 1 (10 * 10 ^ 6) 800 (8 / 10) m) as (m' & M & D & _); try lra; [exact E|].
    exists m, m'. auto.
Qed.
