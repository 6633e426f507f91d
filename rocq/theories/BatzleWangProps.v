(** Properties C77-C81 and C109-C120: the Batzle-Wang fluid models. *)
From Verif Require Import Base BaseProofs MaterialModel Spec MaterialProofs FluidModel ConfigModel BatzleWangModel BatzleWangSpec BatzleWangProofs.
Open Scope R_scope.

(** C77 *)
Theorem C77_blend :
  forall t p r rg g m,
    oil t p r rg g = Ok m ->
    exists d l w,
      dead_oil t p r = Ok d /\ live_oil t p r rg g = Ok l /\
      w = Rmax 0 (1 - Rabs rg) /\
      dens m = w * dens d + (1 - w) * dens l /\ vp m = w * vp d + (1 - w) * vp l /\
      is_material m (vp m ^ 2 * dens m) 0 (dens m).
Proof. exact oil_blend. Qed.
Print Assumptions C77_blend.

Theorem C77_defined :
  forall t p r rg g,
    is_ok (oil t p r rg g) <-> is_ok (dead_oil t p r) /\ is_ok (live_oil t p r rg g).
Proof. exact oil_defined. Qed.
Print Assumptions C77_defined.

Theorem C77_ends :
  forall t p r rg g m d l,
    oil t p r rg g = Ok m -> dead_oil t p r = Ok d -> live_oil t p r rg g = Ok l ->
    (rg = 0 -> m = d) /\ (1 <= Rabs rg -> m = l).
Proof. exact oil_ends. Qed.
Print Assumptions C77_ends.

(** Half way between dead and live oil. *)
Example C77_nonvacuous :
  exists m d l, oil 0 (10 * 10 ^ 6) 800 (1 / 2) (8 / 10) = Ok m /\
    dead_oil 0 (10 * 10 ^ 6) 800 = Ok d /\ live_oil 0 (10 * 10 ^ 6) 800 (1 / 2) (8 / 10) = Ok l /\
    dens m = (dens d + dens l) / 2.
Proof.
  destruct (live_oil_sample (10 * 10 ^ 6) (1 / 2)) as [l L]; [lra|lra|].
  destruct (dead_oil_sample (10 * 10 ^ 6)) as [d D]; [lra|].
  destruct (proj2 (C77_defined 0 (10 * 10 ^ 6) 800 (1 / 2) (8 / 10))) as [m M].
  { split; eexists; eassumption. }
  exists m, d, l. split; [exact M|]. split; [exact D|]. split; [exact L|].
  destruct (C77_blend _ _ _ _ _ _ M) as (d' & l' & w & D' & L' & W & Dm & _).
  rewrite D in D'. injection D' as <-. rewrite L in L'. injection L' as <-.
  rewrite Dm, W. rewrite Rabs_right by lra. rewrite Rmax_right by lra. field.
Qed.

(** C78 *)
Theorem C78_fresh_brine :
  forall t p,
    (forall w, water t p = Ok w ->
       exists b, brine t (p * 10 ^ 6) 0 = Ok b /\ dens b = 1000 * dens w /\ vp b = vp w) /\
    (forall b, brine t (p * 10 ^ 6) 0 = Ok b ->
       exists w, water t p = Ok w /\ dens b = 1000 * dens w /\ vp b = vp w).
Proof. exact fresh_brine. Qed.
Print Assumptions C78_fresh_brine.

Example C78_nonvacuous : is_ok (brine 80 (30 * 10 ^ 6) 0) /\ is_ok (water 80 30).
Proof.
  destruct (brine_usable 80 (30 * 10 ^ 6) 0) as (b & E & _); [lra|lra|lra|].
  split; [exists b; exact E|].
  destruct (proj2 (C78_fresh_brine 80 30) b E) as (w & W & _). exists w; exact W.
Qed.

(** C79 *)
Theorem C79_derivative :
  forall ta p g,
    0 < ta -> 0 < p -> 0 <= g <= 12 ->
    exists Z dz,
      (forall x, 0 < x -> compressability_factor ta x g = Ok (Z x)) /\
      compressability_rate_per_pseudoreduced_pressure ta p g = Ok dz /\
      derivable_pt_lim (fun ppr => Z (ppr * (4892 / 1000 - 4048 / 10000 * g)))
        (p / (4892 / 1000 - 4048 / 10000 * g)) dz.
Proof. exact rate_is_derivative_std. Qed.
Print Assumptions C79_derivative.

Example C79_nonvacuous : exists dz, compressability_rate_per_pseudoreduced_pressure 350 30 (7 / 10) = Ok dz.
Proof. destruct (C79_derivative 350 30 (7 / 10)) as (Z & dz & _ & E & _); [lra|lra|lra|]. exists dz; exact E. Qed.

(** C80, in SI units: kg/m3, J/(mol K), K, kg/mol, Pa. *)
Theorem C80_real_gas_law :
  forall t p g m,
    gas t p g = Ok m ->
    exists z, compressability_factor (t + 27315 / 100) (p / 10 ^ 6) g = Ok z /\
      dens m * z * (8314462618 / 10 ^ 9 * (t + 27315 / 100)) = g * (288 / 10) / 1000 * p.
Proof. exact gas_law. Qed.
Print Assumptions C80_real_gas_law.

(** Gas of gravity 0.7 at 80 degrees and 30 MPa. *)
Example reservoir_gas :
  0 < 80 + 27315 / 100 /\ 0 < 30 * 10 ^ 6 /\ 0 < 7 / 10 <= 12 /\
  83 / 100 <= bw_tpr (80 + 27315 / 100) (7 / 10) <= 41 / 10.
Proof.
  unfold bw_tpr. split; [lra|]. split; [lra|]. split; [lra|].
  replace (80 + 27315 / 100) with (35315 / 100) by field.
  replace (9472 / 100 + 17075 / 100 * (7 / 10)) with (214245 / 1000) by field. lra.
Qed.

Example C80_nonvacuous : is_ok (gas 80 (30 * 10 ^ 6) (7 / 10)).
Proof.
  destruct reservoir_gas as (A & B & C & D).
  destruct (gas_published _ _ _ A B C D) as (m & dz & E & _). exists m; exact E.
Qed.

(** C81 *)
Theorem C81_bubble_point :
  forall r1 r2 rg1 rg2 g1 g2 t1 t2,
    0 < r1 -> r1 <= r2 -> 0 < rg1 -> rg1 <= rg2 -> 0 < g2 -> g2 <= g1 -> t1 <= t2 ->
    exists b1 b2, oil_bubble_point r1 rg1 g1 t1 = Ok b1 /\ oil_bubble_point r2 rg2 g2 t2 = Ok b2 /\
      0 < b1 <= b2 /\ ((r1 < r2 \/ rg1 < rg2 \/ g2 < g1 \/ t1 < t2) -> b1 < b2).
Proof. exact bubble_monotone. Qed.
Print Assumptions C81_bubble_point.

Theorem C81_scaling :
  forall r rg g t,
    0 < r -> 0 < rg -> 0 < g ->
    oil_bubble_point r rg g t =
      Ok (244697939134 / 10 ^ 4 * Rpower (rg / g) (83 / 100) * exp (377 / 100000 * t - 4072 / r)).
Proof. exact bubble_value. Qed.
Print Assumptions C81_scaling.

Example C81_nonvacuous : exists b1 b2,
  oil_bubble_point 800 100 (7 / 10) 80 = Ok b1 /\ oil_bubble_point 800 120 (7 / 10) 90 = Ok b2 /\ b1 < b2.
Proof.
  destruct (C81_bubble_point 800 800 100 120 (7 / 10) (7 / 10) 80 90) as (b1 & b2 & E1 & E2 & _ & S); try lra.
  exists b1, b2. split; [exact E1|]. split; [exact E2|]. apply S. lra.
Qed.

(** C109 *)
Theorem C109_dead_oil :
  forall t p r m,
    - (1778 / 100) < t -> dead_oil t p r = Ok m ->
    0 < r <= 1080 /\
    dens m = 1000 * bw_dead_density t (p / 10 ^ 6) (r / 1000) /\
    vp m = bw_oil_velocity t (p / 10 ^ 6) (r / 1000) /\
    is_material m (vp m ^ 2 * dens m) 0 (dens m).
Proof. exact dead_oil_value. Qed.
Print Assumptions C109_dead_oil.

Theorem C109_live_oil :
  forall t p r rg g m,
    0 < r -> 0 < g -> 0 < 24 / 10 * rg * sqrt (g / (r / 1000)) + t + 178 / 10 ->
    live_oil t p r rg g = Ok m ->
    dens m = 1000 * bw_live_density t (r / 1000) rg g /\
    0 < bw_pseudo_density t (r / 1000) rg g <= 108 / 100 /\
    vp m = bw_oil_velocity t (p / 10 ^ 6) (bw_pseudo_density t (r / 1000) rg g) /\
    is_material m (vp m ^ 2 * dens m) 0 (dens m).
Proof. exact live_oil_value. Qed.
Print Assumptions C109_live_oil.

Theorem C109_brine :
  forall t p s m,
    brine t p s = Ok m ->
    0 <= s /\ dens m = 1000 * bw_brine_density t (p / 10 ^ 6) (s / 10 ^ 6) /\
    vp m = bw_brine_velocity t (p / 10 ^ 6) (s / 10 ^ 6) /\
    is_material m (vp m ^ 2 * dens m) 0 (dens m).
Proof. exact brine_value. Qed.
Print Assumptions C109_brine.

Theorem C109_water :
  forall t p m,
    water t p = Ok m ->
    dens m = bw_water_density t p /\ vp m = bw_water_velocity t p /\
    is_material m (vp m ^ 2 * dens m) 0 (dens m).
Proof. exact water_value. Qed.
Print Assumptions C109_water.

Example C109_nonvacuous :
  is_ok (dead_oil 0 (10 * 10 ^ 6) 800) /\ is_ok (live_oil 0 (10 * 10 ^ 6) 800 100 (8 / 10)) /\
  is_ok (brine 80 (30 * 10 ^ 6) 50000) /\ is_ok (water 80 30).
Proof.
  split; [apply dead_oil_sample; lra|]. split; [apply live_oil_sample; lra|].
  split; [|apply C78_nonvacuous].
  destruct (brine_usable 80 (30 * 10 ^ 6) 50000) as (b & E & _); [lra|lra|lra|]. exists b; exact E.
Qed.

(** C110 *)
Theorem C110_gas :
  forall t p g,
    0 < t + 27315 / 100 -> 0 < p -> 0 < g <= 12 ->
    83 / 100 <= bw_tpr (t + 27315 / 100) g <= 41 / 10 ->
    exists m dz, gas t p g = Ok m /\ fluid m /\ 0 < bulk m /\
      derivable_pt_lim (bw_z (bw_tpr (t + 27315 / 100) g)) (bw_ppr (p / 10 ^ 6) g) dz /\
      (let tpr := bw_tpr (t + 27315 / 100) g in let ppr := bw_ppr (p / 10 ^ 6) g in
       bulk m = bw_gamma ppr * p / (1 - ppr / bw_z tpr ppr * dz) /\
       dens m = g * (288 / 10) / 1000 * p / (8314462618 / 10 ^ 9 * (t + 27315 / 100)) / bw_z tpr ppr).
Proof. exact gas_published. Qed.
Print Assumptions C110_gas.

Example C110_nonvacuous : exists m, gas 80 (30 * 10 ^ 6) (7 / 10) = Ok m /\ 0 < bulk m.
Proof.
  destruct reservoir_gas as (A & B & C & D).
  destruct (C110_gas _ _ _ A B C D) as (m & dz & E & _ & K & _). exists m; split; assumption.
Qed.

(** C111 *)
Theorem C111_gas_denser_with_pressure :
  forall t p1 p2 g m1 m2,
    0 < t + 27315 / 100 -> 0 < p1 -> p1 < p2 -> 0 < g <= 12 ->
    83 / 100 <= bw_tpr (t + 27315 / 100) g <= 41 / 10 ->
    gas t p1 g = Ok m1 -> gas t p2 g = Ok m2 -> dens m1 < dens m2.
Proof. exact gas_denser_with_pressure. Qed.
Print Assumptions C111_gas_denser_with_pressure.

Example C111_nonvacuous : exists m1 m2,
  gas 80 (30 * 10 ^ 6) (7 / 10) = Ok m1 /\ gas 80 (60 * 10 ^ 6) (7 / 10) = Ok m2 /\ dens m1 < dens m2.
Proof.
  destruct reservoir_gas as (A & B & C & D). assert (B' : 0 < 60 * 10 ^ 6) by lra.
  destruct (C110_gas _ _ _ A B C D) as (m1 & _ & E1 & _).
  destruct (C110_gas _ _ _ A B' C D) as (m2 & _ & E2 & _).
  exists m1, m2. split; [exact E1|]. split; [exact E2|].
  apply (C111_gas_denser_with_pressure 80 (30 * 10 ^ 6) (60 * 10 ^ 6) (7 / 10)); try assumption; lra.
Qed.

(** C112 *)
Theorem C112_gas_zero_pressure : forall t g, gas t 0 g = Err ZeroDivisionError.
Proof. exact gas_zero_pressure. Qed.
Print Assumptions C112_gas_zero_pressure.

(** C113: what the docstring of ideal_gas promises (pressure in Pa, velocity
    in m/s, hence isothermal bulk modulus equal to the pressure) fails. *)
Theorem C113_documented_units_refuted :
  exists ta p g m,
    0 < ta /\ 0 < p /\ 0 < g /\ ideal_gas ta p g = Ok m /\
    dens m <> g * (288 / 10) / 1000 * p / (8314462618 / 10 ^ 9 * ta) /\ bulk m <> p.
Proof. exact ideal_gas_units_refuted. Qed.
Print Assumptions C113_documented_units_refuted.

Theorem C113_actual_units :
  forall ta p g m,
    ideal_gas ta p g = Ok m ->
    dens m = 10 ^ 12 * (g * (288 / 10) / 1000 * p / (8314462618 / 10 ^ 9 * ta)) /\
    (0 < ta -> 0 < g -> bulk m = 10 ^ 9 * p).
Proof. exact ideal_gas_units. Qed.
Print Assumptions C113_actual_units.

Example C113_nonvacuous : is_ok (ideal_gas 300 (10 ^ 6) 1).
Proof. apply ideal_gas_ok; lra. Qed.

(** C114 *)
Theorem C114_brine_usable :
  forall t p s,
    0 <= t <= 100 -> 0 <= p <= 100 * 10 ^ 6 -> 0 <= s <= 300000 ->
    exists m, brine t p s = Ok m /\ fluid m /\ 0 < bulk m /\ 900 <= dens m /\ 700 <= vp m.
Proof. exact brine_usable. Qed.
Print Assumptions C114_brine_usable.

Example C114_nonvacuous : exists m, brine 80 (30 * 10 ^ 6) 50000 = Ok m /\ fluid m.
Proof.
  destruct (C114_brine_usable 80 (30 * 10 ^ 6) 50000) as (m & E & F & _); [lra|lra|lra|].
  exists m; split; assumption.
Qed.

(** C115 *)
Theorem C115_brine_denser_with_salinity :
  forall t p s1 s2 m1 m2,
    0 <= t <= 350 -> 0 <= p <= 100 * 10 ^ 6 -> s1 < s2 -> s2 <= 300000 ->
    brine t p s1 = Ok m1 -> brine t p s2 = Ok m2 -> dens m1 < dens m2.
Proof. exact brine_denser_with_salinity. Qed.
Print Assumptions C115_brine_denser_with_salinity.

Example C115_nonvacuous : exists m1 m2,
  brine 80 (30 * 10 ^ 6) 0 = Ok m1 /\ brine 80 (30 * 10 ^ 6) 50000 = Ok m2 /\ dens m1 < dens m2.
Proof.
  destruct (C114_brine_usable 80 (30 * 10 ^ 6) 0) as (m1 & E1 & _); [lra|lra|lra|].
  destruct (C114_brine_usable 80 (30 * 10 ^ 6) 50000) as (m2 & E2 & _); [lra|lra|lra|].
  exists m1, m2. split; [exact E1|]. split; [exact E2|].
  eapply C115_brine_denser_with_salinity; [| | | |exact E1|exact E2]; lra.
Qed.

(** C116 *)
Theorem C116_water_units_refuted :
  exists t p w b,
    water t p = Ok w /\ brine t (p * 10 ^ 6) 0 = Ok b /\ dens w < 2 /\ 900 <= dens b /\
    bulk b = 1000 * bulk w.
Proof. exact water_units. Qed.
Print Assumptions C116_water_units_refuted.

(** C117 *)
Theorem C117_heavy_oil :
  forall t p r rg g, 1080 < r -> fails (dead_oil t p r) /\ fails (oil t p r rg g).
Proof. intros t p r rg g H. split; [exact (heavy_dead_oil t p r H)|exact (heavy_oil t p r rg g H)]. Qed.
Print Assumptions C117_heavy_oil.

(** C118 *)
Theorem C118_pressure_partial :
  forall t p1 p2 r m1 m2,
    - (1778 / 100) < t -> 0 <= p1 -> p1 < p2 -> p2 <= 73 * 10 ^ 6 ->
    dead_oil t p1 r = Ok m1 -> dead_oil t p2 r = Ok m2 -> dens m1 < dens m2.
Proof. exact dead_oil_denser_with_pressure. Qed.
Print Assumptions C118_pressure_partial.

(** Exactly when, for any two pressures: in the units of the fit, MPa and g/cc. *)
Theorem C118_pressure_iff :
  forall t p1 p2 r m1 m2,
    - (1778 / 100) < t -> p1 < p2 ->
    dead_oil t p1 r = Ok m1 -> dead_oil t p2 r = Ok m2 ->
    let a := p1 / 10 ^ 6 in let b := p2 / 10 ^ 6 in
    (dens m1 < dens m2 <->
     0 < (r / 1000 - 115 / 100) ^ 2 * (277 / 100000 - 171 / 10 ^ 9 * (a ^ 2 + a * b + b ^ 2)) + 349 / 10 ^ 6).
Proof. exact dead_oil_denser_iff. Qed.
Print Assumptions C118_pressure_iff.

Theorem C118_high_pressure_refuted :
  exists t p1 p2 r m1 m2,
    0 <= t /\ 0 <= p1 /\ p1 < p2 /\ p2 <= 150 * 10 ^ 6 /\
    dead_oil t p1 r = Ok m1 /\ dead_oil t p2 r = Ok m2 /\ dens m2 < dens m1.
Proof. exact dead_oil_high_pressure. Qed.
Print Assumptions C118_high_pressure_refuted.

Theorem C118_temperature :
  forall t1 t2 p r m1 m2,
    - (1778 / 100) < t1 -> t1 < t2 ->
    dead_oil t1 p r = Ok m1 -> dead_oil t2 p r = Ok m2 -> dens m2 < dens m1.
Proof. exact dead_oil_lighter_with_temperature. Qed.
Print Assumptions C118_temperature.

Example C118_nonvacuous :
  is_ok (dead_oil 0 (10 * 10 ^ 6) 800) /\ is_ok (dead_oil 0 (20 * 10 ^ 6) 800) /\
  is_ok (dead_oil 5 0 800) /\ is_ok (dead_oil 10 0 800).
Proof.
  split; [apply dead_oil_sample; lra|]. split; [apply dead_oil_sample; lra|].
  split; apply dead_oil_sample10; lra.
Qed.

(** C119 *)
Theorem C119_pressure_refuted :
  exists t p1 p2 r rg g m1 m2,
    0 <= p1 /\ p1 < p2 /\ 1 <= rg /\
    live_oil t p1 r rg g = Ok m1 /\ live_oil t p2 r rg g = Ok m2 /\
    oil t p1 r rg g = Ok m1 /\ oil t p2 r rg g = Ok m2 /\ dens m1 = dens m2.
Proof. exact live_oil_pressure_refuted. Qed.
Print Assumptions C119_pressure_refuted.

Theorem C119_pressure_ignored :
  forall t p1 p2 r rg g m1 m2,
    live_oil t p1 r rg g = Ok m1 -> live_oil t p2 r rg g = Ok m2 -> dens m1 = dens m2.
Proof. exact live_oil_density_ignores_pressure. Qed.
Print Assumptions C119_pressure_ignored.

Theorem C119_temperature :
  forall t1 t2 p r rg g m1 m2,
    0 < r -> 0 < g -> 0 <= rg -> - (178 / 10) < t1 -> t1 < t2 ->
    live_oil t1 p r rg g = Ok m1 -> live_oil t2 p r rg g = Ok m2 -> dens m2 < dens m1.
Proof. exact live_oil_lighter_with_temperature. Qed.
Print Assumptions C119_temperature.

Example C119_nonvacuous :
  is_ok (live_oil 0 (10 * 10 ^ 6) 800 100 (8 / 10)) /\
  is_ok (live_oil 5 0 800 100 (8 / 10)) /\ is_ok (live_oil 10 0 800 100 (8 / 10)).
Proof. split; [apply live_oil_sample; lra|]. split; apply live_oil_sample10; lra. Qed.

(** C120 *)
Theorem C120_negative_gor_refuted : exists t p r rg g m, rg < 0 /\ oil t p r rg g = Ok m.
Proof. exact negative_gor_accepted. Qed.
Print Assumptions C120_negative_gor_refuted.
