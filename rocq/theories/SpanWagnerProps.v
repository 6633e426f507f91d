(** Properties C82-C85 and C131-C142: carbon dioxide after Span & Wagner. *)
From Coq Require Import String List ZArith Reals Lra Lia.
From Verif Require Import Base BaseProofs Spec MaterialModel FluidModel RowModel FluidsModel SpanWagnerModel SpanWagnerSpec
  SpanWagnerProofs SpanWagnerIdealProofs SpanWagnerLimitProofs SpanWagnerCurveProofs SpanWagnerLookupProofs
  SpanWagnerArrayModel SpanWagnerArrayProofs.
Import ListNotations.
Open Scope R_scope.

(** C82.  The ideal-gas part is the published one, and every branch is the
    partial derivative of the branch before it, in both variables. *)
Theorem C82_ideal_value :
  forall delta tau, 0 < delta -> 0 < tau ->
    ideal_gas_helmholtz_energy delta tau 0 0 = Ok (published_ideal delta tau).
Proof. exact ideal_value. Qed.
Print Assumptions C82_ideal_value.

Theorem C82_ideal_delta_derivative :
  forall delta tau dd dt, 0 < delta -> 0 < tau -> (dd + dt <= 1)%nat ->
    derivable_pt_lim (fun x => value (ideal_gas_helmholtz_energy x tau dd dt)) delta
      (value (ideal_gas_helmholtz_energy delta tau (S dd) dt)).
Proof. exact ideal_delta. Qed.
Print Assumptions C82_ideal_delta_derivative.

Theorem C82_ideal_tau_derivative :
  forall delta tau dd dt, 0 < delta -> 0 < tau -> (dd + dt <= 1)%nat ->
    derivable_pt_lim (fun x => value (ideal_gas_helmholtz_energy delta x dd dt)) tau
      (value (ideal_gas_helmholtz_energy delta tau dd (S dt))).
Proof. exact ideal_tau. Qed.
Print Assumptions C82_ideal_tau_derivative.

Theorem C82_ideal_orders :
  forall delta tau dd dt, 0 < delta -> 0 < tau ->
    ((dd + dt <= 2)%nat -> is_ok (ideal_gas_helmholtz_energy delta tau dd dt)) /\
    ((2 < dd + dt)%nat -> ideal_gas_helmholtz_energy delta tau dd dt = Err NotImplementedError).
Proof. exact ideal_succeeds. Qed.
Print Assumptions C82_ideal_orders.

Example C82_nonvacuous : 0 < 1 / 2 /\ 0 < 3 / 2 /\ (1 + 0 <= 1)%nat /\ (2 < 2 + 1)%nat.
Proof. repeat split; (lra || lia). Qed.

(** C83.  Pressure is rho^2 times the derivative of the Helmholtz energy in
    density, and the d_density = 1 branch is the derivative of pressure in
    density.  At the critical density itself the code moves delta off 1. *)
Theorem C83_pressure_from_energy :
  forall T rho, 0 < T -> T <> critical_T -> 0 < rho -> rho <> critical_rho ->
    exists p, carbon_dioxide_pressure T rho 0 0 false = Ok (Some p) /\
      derivable_pt_lim (fun x => helmholtz T x) rho (p * 10 ^ 6 / rho ^ 2).
Proof. exact pressure_from_energy. Qed.
Print Assumptions C83_pressure_from_energy.

Theorem C83_pressure_derivative :
  forall T rho, 0 < T -> 0 < rho -> rho <> critical_rho ->
    (forall i, exists p, carbon_dioxide_pressure T rho 0 0 i = Ok (Some p)) /\
    (exists s, carbon_dioxide_pressure T rho 1 0 false = Ok (Some s)) /\
    derivable_pt_lim (fun x => number (carbon_dioxide_pressure T x 0 0 false)) rho
      (number (carbon_dioxide_pressure T rho 1 0 false)).
Proof.
  intros T rho HT Hr Hc. split; [|split].
  - intros i. eexists. apply pressure_ok; assumption.
  - eexists. apply dpressure_ok; assumption.
  - apply pressure_derivative; assumption.
Qed.
Print Assumptions C83_pressure_derivative.

Example C83_nonvacuous : 0 < 300 /\ 300 <> critical_T /\ 0 < 700 /\ 700 <> critical_rho.
Proof. unfold critical_T, critical_rho. repeat split; lra. Qed.

(** C84.  The range searched for a density. *)
Theorem C84_phase :
  forall T p, triple_T <= T < critical_T ->
    exists pv v l,
      vapor_pressure T = Ok pv /\ saturated_vapor_density T = Ok v /\ saturated_liquid_density T = Ok l /\
      1 / 10 < v /\ v < critical_rho /\ critical_rho < l /\ l < 1500 /\
      density_bounds T p ForceVapor = Ok (1 / 10, v) /\
      density_bounds T p ForceLiquid = Ok (l, 1500) /\
      (p < pv -> density_bounds T p Auto = Ok (1 / 10, v)) /\
      (pv <= p -> density_bounds T p Auto = Ok (l, 1500)).
Proof. exact bounds_phase. Qed.
Print Assumptions C84_phase.

Theorem C84_below_triple :
  forall T p fv, T < triple_T ->
    exists v, saturated_vapor_density T = Ok v /\ v < critical_rho /\ density_bounds T p fv = Ok (1 / 10, v).
Proof. exact bounds_cold. Qed.
Print Assumptions C84_below_triple.

Theorem C84_above_critical :
  forall T p fv, critical_T <= T -> density_bounds T p fv = Ok (1 / 10, 1500).
Proof. exact bounds_hot. Qed.
Print Assumptions C84_above_critical.

Theorem C84_bracket_nonempty :
  forall T p fv, triple_T <= T -> exists a b, density_bracket T p fv = Ok (a, b) /\ 0 < a /\ a < b.
Proof. exact bracket_nonempty. Qed.
Print Assumptions C84_bracket_nonempty.

(** Far below the triple point the bracket is empty: the vapour density is
    below the constant lower end. *)
Theorem C84_empty_bracket_refuted :
  exists T p fv a b, 0 < T /\ 0 < p /\ density_bracket T p fv = Ok (a, b) /\ b <= a.
Proof. exact cold_bracket. Qed.
Print Assumptions C84_empty_bracket_refuted.

(** Widened by 5 %, the brackets of the two phases overlap near the critical
    point, so the bracket no longer singles out a phase. *)
Theorem C84_overlap_refuted :
  exists T p v1 v2 l1 l2, triple_T <= T < critical_T /\ 0 < p /\
    density_bracket T p ForceVapor = Ok (v1, v2) /\ density_bracket T p ForceLiquid = Ok (l1, l2) /\ l1 < v2.
Proof. exact brackets_overlap. Qed.
Print Assumptions C84_overlap_refuted.

Example C84_nonvacuous : triple_T <= 250 < critical_T /\ 200 < triple_T /\ critical_T <= 350.
Proof. unfold triple_T, critical_T. repeat split; lra. Qed.

(** C85.  Lookup tables. *)
Theorem C85_node :
  forall func x y t i j a b,
    generate_lookup_table func x y = Ok t -> increasing x -> increasing y ->
    nth_error x i = Some a -> nth_error y j = Some b ->
    exists w, func a b = Ok w /\ interpolate t a b = Some w.
Proof. exact lookup_node. Qed.
Print Assumptions C85_node.

Theorem C85_nearest :
  forall func x y t a b,
    generate_lookup_table func x y = Ok t -> increasing x -> increasing y -> within x a -> within y b ->
    exists i j u v w, closest x a i /\ closest y b j /\ nth_error x i = Some u /\ nth_error y j = Some v /\
      func u v = Ok w /\ interpolate t a b = Some w.
Proof. exact lookup_nearest. Qed.
Print Assumptions C85_nearest.

Theorem C85_outside :
  forall func x y t a b,
    generate_lookup_table func x y = Ok t -> increasing x -> increasing y ->
    ~ within x a \/ ~ within y b -> interpolate t a b = None.
Proof. exact lookup_outside. Qed.
Print Assumptions C85_outside.

Theorem C85_made :
  forall func x y, (forall a b, In a x -> In b y -> is_ok (func a b)) -> is_ok (generate_lookup_table func x y).
Proof. exact table_exists. Qed.
Print Assumptions C85_made.

Example C85_nonvacuous :
  exists t, generate_lookup_table (fun a b => Ok (a - b)) [0; 1; 3] [10; 20] = Ok t /\ increasing [0; 1; 3] /\
    increasing [10; 20] /\ interpolate t 3 20 = Some (3 - 20) /\ within [0; 1; 3] (3 / 2) /\ ~ within [10; 20] 9.
Proof.
  eexists. split; [reflexivity|]. split; [cbn; lra|]. split; [cbn; lra|]. split; [|split].
  - destruct (C85_node (fun a b => Ok (a - b)) [0; 1; 3] [10; 20] _ 2 1 3 20 eq_refl) as (w & E & F); try reflexivity; try (cbn; lra).
    injection E as <-. exact F.
  - exists 1, 3. cbn. repeat split; (lra || tauto).
  - intros (a & b & A & B & L). cbn in A. destruct A as [<-|[<-|[]]]; lra.
Qed.

(** C131.  The residual part is the published one; the entries of the table of
    differentiated expressions are partial derivatives of each other, and the
    mixed one is reached both ways. *)
Theorem C131_residual_value :
  forall delta tau, 0 < delta -> 0 < tau -> delta <> 1 -> tau <> 1 ->
    co2_residual_helmholtz_energy delta tau 0 0 = Ok (published_residual delta tau).
Proof. exact residual_value. Qed.
Print Assumptions C131_residual_value.

Theorem C131_residual_delta_derivative :
  forall delta tau dd dt, 0 < delta -> 0 < tau -> delta <> 1 ->
    (dd = 0 /\ dt = 0 \/ dd = 1 /\ dt = 0 \/ dd = 0 /\ dt = 1)%nat ->
    derivable_pt_lim (fun x => value (co2_residual_helmholtz_energy x tau dd dt)) delta
      (value (co2_residual_helmholtz_energy delta tau (S dd) dt)).
Proof. exact residual_delta. Qed.
Print Assumptions C131_residual_delta_derivative.

Theorem C131_residual_tau_derivative :
  forall delta tau dd dt, 0 < delta -> 0 < tau -> tau <> 1 -> (dd + dt <= 1)%nat ->
    derivable_pt_lim (fun x => value (co2_residual_helmholtz_energy delta x dd dt)) tau
      (value (co2_residual_helmholtz_energy delta tau dd (S dt))).
Proof. exact residual_tau. Qed.
Print Assumptions C131_residual_tau_derivative.

Theorem C131_residual_orders :
  forall delta tau dd dt, 0 < delta -> 0 < tau ->
    ((dd + dt <= 2)%nat -> is_ok (co2_residual_helmholtz_energy delta tau dd dt)) /\
    ((2 < dd + dt)%nat -> co2_residual_helmholtz_energy delta tau dd dt = Err KeyError).
Proof. exact residual_succeeds. Qed.
Print Assumptions C131_residual_orders.

Example C131_nonvacuous : 0 < 1 / 2 /\ 1 / 2 <> 1 /\ 0 < 3 / 2 /\ 3 / 2 <> 1 /\ (0 + 1 <= 1)%nat.
Proof. repeat split; (lra || lia). Qed.

(** C132.  The isentropic derivative is dp/drho at constant entropy: along
    such a curve dT/drho = - s_rho / s_T. *)
Theorem C132_isentropic :
  forall T rho, 0 < T -> T <> critical_T -> 0 < rho -> rho <> critical_rho ->
    exists p_T p_rho s_T s_rho,
      derivable_pt_lim (fun x => number (carbon_dioxide_pressure x rho 0 0 false)) T p_T /\
      derivable_pt_lim (fun x => number (carbon_dioxide_pressure T x 0 0 false)) rho p_rho /\
      derivable_pt_lim (fun x => entropy x rho) T s_T /\
      derivable_pt_lim (fun x => entropy T x) rho s_rho /\
      s_rho = - (p_T * 10 ^ 6) / rho ^ 2 /\
      (s_T <> 0 -> carbon_dioxide_pressure T rho 1 0 true = Ok (Some (p_rho + p_T * (- s_rho / s_T)))) /\
      (s_T = 0 -> carbon_dioxide_pressure T rho 1 0 true = Err NonFinite).
Proof. exact isentropic_identity. Qed.
Print Assumptions C132_isentropic.

Example C132_nonvacuous : 0 < 300 /\ 300 <> critical_T /\ 0 < 700 /\ 700 <> critical_rho.
Proof. unfold critical_T, critical_rho. repeat split; lra. Qed.

(** C133.  Where the heat capacity is positive the isentropic derivative is at
    least the isothermal one; both hold strictly at low density. *)
Theorem C133_isentropic_stiffer :
  forall T rho, 0 < T -> 0 < rho ->
    value (co2_helmholtz_energy (rho / critical_rho) (critical_T / T) 0 2) < 0 ->
    exists a b, carbon_dioxide_pressure T rho 1 0 false = Ok (Some a) /\
                carbon_dioxide_pressure T rho 1 0 true = Ok (Some b) /\ a <= b.
Proof. exact isentropic_stiffer. Qed.
Print Assumptions C133_isentropic_stiffer.

Theorem C133_low_density :
  forall T, 0 < T -> exists r, 0 < r /\ forall rho, 0 < rho < r ->
    value (co2_helmholtz_energy (rho / critical_rho) (critical_T / T) 0 2) < 0 /\
    exists a b, carbon_dioxide_pressure T rho 1 0 false = Ok (Some a) /\
                carbon_dioxide_pressure T rho 1 0 true = Ok (Some b) /\ 0 < a /\ a < b.
Proof. exact low_density. Qed.
Print Assumptions C133_low_density.

Example C133_nonvacuous :
  exists rho, 0 < rho /\ value (co2_helmholtz_energy (rho / critical_rho) (critical_T / 300) 0 2) < 0.
Proof.
  destruct (C133_low_density 300 ltac:(lra)) as (r & Hr & H). exists (r / 2). split; [lra|]. apply H. lra.
Qed.

(** C134.  The ideal-gas law in the limit of low density. *)
Theorem C134_ideal_gas_limit :
  forall T, 0 < T ->
    (forall rho, 0 < rho -> exists p, carbon_dioxide_pressure T rho 0 0 false = Ok (Some p)) /\
    tends_to (fun rho => number (carbon_dioxide_pressure T rho 0 0 false) * 10 ^ 6 / (rho * gas_constant * T)) 1.
Proof. intros T H. rewrite R_same. exact (ideal_gas_limit T H). Qed.
Print Assumptions C134_ideal_gas_limit.

Example C134_nonvacuous : 0 < 300. Proof. lra. Qed.

(** C135.  Saturation curves: the published equations, their ends, and their
    direction. *)
Theorem C135_published_densities :
  forall T, T < critical_T ->
    let t := 1 - T / critical_T in
    saturated_liquid_density T = Ok (critical_rho * exp (19245108 / 10 ^ 7 * Rpower t (34 / 100)
      - 62385555 / 10 ^ 8 * Rpower t (1 / 2) - 32731127 / 10 ^ 8 * Rpower t (10 / 6) + 39245142 / 10 ^ 8 * Rpower t (11 / 6))) /\
    saturated_vapor_density T = Ok (critical_rho * exp (- (17074879 / 10 ^ 7) * Rpower t (34 / 100)
      - 82274670 / 10 ^ 8 * Rpower t (1 / 2) - 46008549 / 10 ^ 7 * t - 10111178 / 10 ^ 6 * Rpower t (7 / 3)
      - 29742252 / 10 ^ 6 * Rpower t (14 / 3))).
Proof.
  intros T H t. rewrite liq_ok, vap_ok by exact H. fold t. change (tc T) with t. unfold liq_inner, vap_inner.
  replace (5 / 10) with (1 / 2) by lra. split; do 3 f_equal; ring.
Qed.
Print Assumptions C135_published_densities.

Theorem C135_published_pressures :
  (forall T, 0 < T < critical_T ->
    let t := 1 - T / critical_T in
    vapor_pressure T = Ok (73773 / 10 ^ 4 * exp (critical_T / T * (- (70602087 / 10 ^ 7) * t
      + 19391218 / 10 ^ 7 * Rpower t (15 / 10) - 16463597 / 10 ^ 7 * t ^ 2 - 32995634 / 10 ^ 7 * t ^ 4)))) /\
  (forall T, 0 < T < triple_T ->
    let t := 1 - T / triple_T in
    sublimation_pressure T = Ok (51795 / 10 ^ 5 * exp (triple_T / T * (- (14740846 / 10 ^ 6) * t
      + 24327015 / 10 ^ 7 * Rpower t (19 / 10) - 53061778 / 10 ^ 7 * Rpower t (29 / 10))))) /\
  (forall T, let t := T / triple_T - 1 in
    melting_pressure T = 51795 / 10 ^ 5 * (1 + 1955539 / 10 ^ 3 * t + 20554593 / 10 ^ 4 * t ^ 2)).
Proof.
  split; [|split].
  - intros T H t. rewrite vp_ok by exact H. change (tc T) with t. unfold vp_inner, CO2_CRITICAL_PRESSURE. do 3 f_equal.
    assert (E : 1 - t = T / critical_T) by (unfold t; ring). rewrite E.
    assert (0 < critical_T) by (unfold critical_T; lra). field. lra.
  - intros T H t. rewrite sub_ok by exact H. change (tt T) with t. unfold sub_inner, CO2_TRIPLE_PRESSURE. do 3 f_equal.
    assert (E : 1 - t = T / triple_T) by (unfold t; ring). rewrite E.
    assert (0 < triple_T) by (unfold triple_T; lra). field. lra.
  - intros T t. unfold melting_pressure, CO2_TRIPLE_PRESSURE. change (T / CO2_TRIPLE_TEMPERATURE - 1) with t. field.
Qed.
Print Assumptions C135_published_pressures.

Theorem C135_ends :
  saturated_liquid_density critical_T = Ok critical_rho /\
  saturated_vapor_density critical_T = Ok critical_rho /\
  vapor_pressure critical_T = Ok (73773 / 10 ^ 4) /\
  sublimation_pressure triple_T = Ok (51795 / 10 ^ 5) /\
  melting_pressure triple_T = 51795 / 10 ^ 5.
Proof. exact curve_ends. Qed.
Print Assumptions C135_ends.

Theorem C135_vapor_density_increasing :
  forall S T, S < T -> T < critical_T ->
    exists u v, saturated_vapor_density S = Ok u /\ saturated_vapor_density T = Ok v /\ 0 < u /\ u < v.
Proof. exact vapor_density_increasing. Qed.
Print Assumptions C135_vapor_density_increasing.

Theorem C135_liquid_density_decreasing :
  forall S T, triple_T <= S -> S < T -> T < critical_T ->
    exists u v, saturated_liquid_density S = Ok u /\ saturated_liquid_density T = Ok v /\ v < u.
Proof. exact liquid_density_decreasing. Qed.
Print Assumptions C135_liquid_density_decreasing.

Theorem C135_vapor_pressure_increasing :
  forall S T, 0 < S -> S < T -> T < critical_T ->
    exists u v, vapor_pressure S = Ok u /\ vapor_pressure T = Ok v /\ 0 < u /\ u < v /\ v < 73773 / 10 ^ 4.
Proof. exact vapor_pressure_increasing. Qed.
Print Assumptions C135_vapor_pressure_increasing.

Theorem C135_sublimation_pressure_increasing :
  forall S T, 0 < S -> S < T -> T < triple_T ->
    exists u v, sublimation_pressure S = Ok u /\ sublimation_pressure T = Ok v /\ 0 < u /\ u < v /\ v < 51795 / 10 ^ 5.
Proof. exact sublimation_pressure_increasing. Qed.
Print Assumptions C135_sublimation_pressure_increasing.

Theorem C135_melting_pressure_increasing :
  forall S T, triple_T <= S -> S < T ->
    51795 / 10 ^ 5 <= melting_pressure S /\ melting_pressure S < melting_pressure T.
Proof. exact melting_pressure_increasing. Qed.
Print Assumptions C135_melting_pressure_increasing.

Example C135_nonvacuous : triple_T <= 250 /\ 250 < 280 /\ 280 < critical_T /\ 0 < 150 /\ 150 < 200 /\ 200 < triple_T.
Proof. unfold triple_T, critical_T. repeat split; lra. Qed.

(** C136.  With a root finder that only returns roots inside its bracket, a
    density found has the pressure asked for. *)
Theorem C136_density_solves :
  forall solve T p fv re x, sound_root_finder solve ->
    calculate_carbon_dioxide_density solve T p fv re = Ok (Some x) ->
    exists a b, density_bracket T p fv = Ok (a, b) /\ a <= x <= b /\
      carbon_dioxide_pressure T x 0 0 false = Ok (Some p).
Proof. exact density_solves. Qed.
Print Assumptions C136_density_solves.

Theorem C136_cold_refuted :
  exists T p, 0 < T /\ 0 < p /\ forall solve, sound_root_finder solve ->
    calculate_carbon_dioxide_density solve T p Auto true = Err ValueError /\
    calculate_carbon_dioxide_density solve T p Auto false = Ok None.
Proof. exact density_cold_fails. Qed.
Print Assumptions C136_cold_refuted.

(** A root finder that tries the middle of its bracket. *)
Definition try_middle : root_finder := fun f a b =>
  if Rlt_dec a b then
    match f ((a + b) / 2) with
    | Ok y => if Req_EM_T y 0 then Ok ((a + b) / 2) else Err ValueError
    | Err e => Err e
    end
  else Err ValueError.
Lemma try_middle_sound : sound_root_finder try_middle.
Proof.
  split; intros f a b.
  - intros x H. unfold try_middle in H. destruct (Rlt_dec a b) as [L|]; [|discriminate].
    destruct (f ((a + b) / 2)) as [y|] eqn:F; [|discriminate]. destruct (Req_EM_T y 0) as [->|]; [|discriminate].
    injection H as <-. split; [lra|exact F].
  - intros L. unfold try_middle. destruct (Rlt_dec a b); [lra|reflexivity].
Qed.
Lemma try_middle_finds : forall re, exists p x, calculate_carbon_dioxide_density try_middle 400 p Auto re = Ok (Some x) /\
  carbon_dioxide_pressure 400 x 0 0 false = Ok (Some p).
Proof.
  intros re. set (x := (1 / 10 * (95 / 100) + 1500 * (105 / 100)) / 2).
  assert (H : critical_T <= 400) by (unfold critical_T; lra).
  destruct (proj1 (ideal_gas_limit 400 ltac:(lra)) x ltac:(unfold x; lra)) as (p & P).
  exists p, x. split; [|exact P]. unfold calculate_carbon_dioxide_density, density_bracket. rewrite C84_above_critical by exact H.
  cbn [bind fst snd]. unfold try_middle. destruct (Rlt_dec _ _) as [_|F]; [|exfalso; lra]. fold x.
  unfold pressure_mismatch. rewrite P. cbn [bind]. destruct (Req_EM_T (p - p) 0) as [_|F]; [reflexivity|exfalso; lra].
Qed.
Example C136_nonvacuous :
  exists solve T p x, sound_root_finder solve /\ calculate_carbon_dioxide_density solve T p Auto true = Ok (Some x).
Proof.
  destruct (try_middle_finds true) as (p & x & H & _). exists try_middle, 400, p, x. split; [exact try_middle_sound|exact H].
Qed.

(** C137.  Carbon dioxide as a material. *)
Theorem C137_material :
  forall solve table T p density i fv re m,
    carbon_dioxide solve table T p density i fv re = Ok m ->
    (forall d, density = Some d -> dens m = d) /\
    (density = None -> carbon_dioxide_density solve table T p i fv re = Ok (Some (dens m))) /\
    shear m = 0 /\
    exists s, carbon_dioxide_pressure T (dens m) 1 0 true = Ok (Some s) /\ bulk m = dens m * s * 10 ^ 6.
Proof. exact co2_material. Qed.
Print Assumptions C137_material.

(** Units: the configuration has Celsius and Pa. *)
Theorem C137_provider :
  forall solve table t p x, sound_root_finder solve ->
    calculate_carbon_dioxide_density solve (t + 27315 / 100) (p / 10 ^ 6) Auto true = Ok (Some x) ->
    carbon_dioxide_pressure (t + 27315 / 100) x 0 0 false = Ok (Some (p / 10 ^ 6)) /\
    fluid_as_material (co2_eos solve table) SpanWagner (FCarbonDioxide false) t p =
      ((let* k := carbon_dioxide_bulk_modulus (t + 27315 / 100) x in fluid_of_bulk k x), p / 10 ^ 6).
Proof.
  intros solve table t p x S H. destruct (C136_density_solves _ _ _ _ _ _ S H) as (a & b & _ & _ & P).
  split; [exact P|]. cbn [fluid_as_material]. unfold span_wagner_carbon_dioxide, co2_eos, carbon_dioxide, carbon_dioxide_density, BatzleWangModel.celsius_to_kelvin.
  rewrite H. reflexivity.
Qed.
Print Assumptions C137_provider.

Example C137_nonvacuous :
  (exists solve table d m, carbon_dioxide solve table 300 1 (Some d) false Auto true = Ok m) /\
  (exists solve p x, sound_root_finder solve /\
     calculate_carbon_dioxide_density solve (12685 / 100 + 27315 / 100) (p / 10 ^ 6) Auto true = Ok (Some x)).
Proof.
  split.
  - destruct (C133_low_density 300 ltac:(lra)) as (r & Hr & H).
    destruct (H (r / 2) ltac:(lra)) as (_ & a & b & _ & B & A1 & A2).
    exists try_middle, (mkTable [] [] []), (r / 2). unfold carbon_dioxide, carbon_dioxide_bulk_modulus. cbn [bind]. rewrite B. cbn [bind].
    unfold fluid_of_bulk. eexists. apply MaterialProofs.mat_of_moduli_ok; [lra| |lra].
    assert (0 <= r / 2 * b) by (apply Rmult_le_pos; lra). apply Rmult_le_pos; lra.
  - destruct (try_middle_finds true) as (p & x & H & _). exists try_middle, (p * 10 ^ 6), x. split; [exact try_middle_sound|].
    replace (12685 / 100 + 27315 / 100) with 400 by lra. replace (p * 10 ^ 6 / 10 ^ 6) with p by field. exact H.
Qed.

(** C138.  The table in the package covers 0-200 C and 0.5-100 MPa, with a node
    within 0.25 K and 0.05 MPa; anything else is nan. *)
Theorem C138_packaged_inside :
  forall func t T p, generate_lookup_table func t_density p_density = Ok t ->
    27315 / 100 <= T <= 47315 / 100 -> 5 / 10 <= p <= 100 ->
    exists u v w, Rabs (T - u) <= 25 / 100 /\ Rabs (p - v) <= 5 / 100 /\ func u v = Ok w /\ interpolate t T p = Some w.
Proof. exact packaged_lookup. Qed.
Print Assumptions C138_packaged_inside.

Theorem C138_packaged_outside :
  forall func t T p, generate_lookup_table func t_density p_density = Ok t ->
    T < 27315 / 100 \/ 47315 / 100 < T \/ p < 5 / 10 \/ 100 < p -> interpolate t T p = None.
Proof. exact packaged_outside. Qed.
Print Assumptions C138_packaged_outside.

(** As documented, nothing is raised for a state outside the table, with or
    without raise_error; as a material it leaves the reals. *)
Theorem C138_outside_no_density :
  forall func t solve T p fv re, generate_lookup_table func t_density p_density = Ok t ->
    T < 27315 / 100 \/ 47315 / 100 < T \/ p < 5 / 10 \/ 100 < p ->
    carbon_dioxide_density solve t T p true fv re = Ok None /\
    carbon_dioxide solve t T p None true fv re = Err NonFinite.
Proof.
  intros func t solve T p fv re G H.
  assert (E : carbon_dioxide_density solve t T p true fv re = Ok None)
    by (cbn [carbon_dioxide_density]; rewrite (C138_packaged_outside func t T p G H); reflexivity).
  split; [exact E|]. apply co2_no_density, E.
Qed.
Print Assumptions C138_outside_no_density.

Example C138_nonvacuous :
  (exists t, generate_lookup_table (fun a b => Ok (a * b)) t_density p_density = Ok t) /\
  27315 / 100 <= 300 <= 47315 / 100 /\ 5 / 10 <= 20 <= 100.
Proof.
  split; [|split; lra]. apply C85_made. intros a b _ _. eexists. reflexivity.
Qed.

(** C139.  Derivatives that are not implemented. *)
Theorem C139_temperature_derivative :
  forall T rho dd dt i, T <> 0 -> (0 < dt)%nat -> carbon_dioxide_pressure T rho dd dt i = Err NotImplementedError.
Proof.
  intros T rho dd dt i HT H. unfold carbon_dioxide_pressure. rewrite np_div_ok by exact HT. cbn [bind].
  destruct dt as [|dt]; [lia|]. reflexivity.
Qed.
Print Assumptions C139_temperature_derivative.

(** A second derivative in density is neither computed nor refused. *)
Theorem C139_second_derivative_refuted :
  exists T rho i, 0 < T /\ 0 < rho /\ carbon_dioxide_pressure T rho 2 0 i = Ok None.
Proof.
  exists 300, 700, false. split; [lra|]. split; [lra|]. unfold carbon_dioxide_pressure. rewrite np_div_ok by lra. reflexivity.
Qed.
Print Assumptions C139_second_derivative_refuted.

Example C139_nonvacuous : 300 <> 0 /\ (0 < 1)%nat. Proof. split; [lra|lia]. Qed.

(** C140.  The array version of the density search. *)
Theorem C140_accepted_rows :
  forall solve fv t p b r x, sound_root_finder solve -> accepted_or_robust solve fv t p b r = Ok x ->
    exists q, carbon_dioxide_pressure t x 0 0 false = Ok (Some q) /\ Rabs (q - p) <= 1 / 10 ^ 5.
Proof. exact newton_row. Qed.
Print Assumptions C140_accepted_rows.

Theorem C140_array_rows :
  forall interp newton solve ts ps fv r, sound_root_finder solve ->
    array_carbon_dioxide_density interp newton solve ts ps fv = Ok r ->
    forall i t p x, nth_error ts i = Some t -> nth_error ps i = Some p -> nth_error r i = Some x ->
    exists q, carbon_dioxide_pressure t x 0 0 false = Ok (Some q) /\ Rabs (q - p) <= 1 / 10 ^ 5.
Proof. exact newton_rows. Qed.
Print Assumptions C140_array_rows.

(** And the density is one of the phase asked for. *)
Theorem C140_array_bounds :
  forall interp newton solve ts ps fv r, sound_root_finder solve ->
    array_carbon_dioxide_density interp newton solve ts ps fv = Ok r ->
    forall i t p x, nth_error ts i = Some t -> nth_error ps i = Some p -> nth_error r i = Some x ->
    exists lo hi, density_bounds t p fv = Ok (lo, hi) /\ (lo <= x <= hi \/ lo * (95 / 100) <= x <= hi * (105 / 100)).
Proof. exact newton_bounds. Qed.
Print Assumptions C140_array_bounds.

(** The pressure grid ends at 1.01 times the highest temperature, so higher
    pressures (in MPa, against K) are refused. *)
Theorem C140_high_pressure :
  forall interp newton solve ts ps fv i t p, length ts = length ps ->
    nth_error ts i = Some t -> nth_error ps i = Some p -> rmax ts * (101 / 100) < p ->
    fails (array_carbon_dioxide_density interp newton solve ts ps fv).
Proof. exact newton_high_pressure. Qed.
Print Assumptions C140_high_pressure.

Theorem C140_valid_pressure_refuted :
  exists ts ps, Forall (fun t => 216 <= t <= 1100) ts /\ Forall (fun p => 0 < p <= 800) ps /\ length ts = length ps /\
    forall interp newton solve fv, fails (array_carbon_dioxide_density interp newton solve ts ps fv).
Proof.
  exists [400], [500]. split; [repeat constructor; lra|]. split; [repeat constructor; lra|]. split; [reflexivity|].
  intros interp newton solve fv. apply (newton_high_pressure interp newton solve [400] [500] fv 0 400 500); try reflexivity.
  cbn. rewrite Rmax_left by lra. lra.
Qed.
Print Assumptions C140_valid_pressure_refuted.

Example C140_nonvacuous :
  exists solve p x, sound_root_finder solve /\ accepted_or_robust solve Auto 400 p (1 / 10, 1500) None = Ok x.
Proof.
  destruct (try_middle_finds true) as (p & x & H & _). exists try_middle, p, x. split; [exact try_middle_sound|].
  unfold accepted_or_robust. rewrite H. reflexivity.
Qed.

(** C141.  The ideal-gas energy of arrays. *)
Theorem C141_rows_partial :
  forall ds ts r, length ds = length ts -> ideal_gas_helmholtz_energy_array (Vec ds) (Vec ts) 0 0 = Ok r ->
    exists l, r = Vec l /\ forall i d t, nth_error ds i = Some d -> nth_error ts i = Some t ->
      exists x, nth_error l i = Some x /\ ideal_gas_helmholtz_energy d t 0 0 = Ok x.
Proof. intros ds ts r L H. exact (ideal_array_rows ds ts r L 0 0 ltac:(lia) ltac:(lia) H). Qed.
Print Assumptions C141_rows_partial.

(** The derivatives by one variable are those of the rows, one for each. *)
Theorem C141_derivatives :
  forall dd dt ds ts r, (dd = 0%nat \/ dt = 0%nat) -> length ds = length ts ->
    ideal_gas_helmholtz_energy_array (Vec ds) (Vec ts) dd dt = Ok r ->
    exists l, r = Vec l /\ length l = length ds /\
      forall i d t, nth_error ds i = Some d -> nth_error ts i = Some t ->
        exists x, nth_error l i = Some x /\ ideal_gas_helmholtz_energy d t dd dt = Ok x.
Proof. exact ideal_array_derivatives. Qed.
Print Assumptions C141_derivatives.

(** The mixed derivative of arrays is one number: zero. *)
Theorem C141_mixed_derivative :
  forall delta tau, ideal_gas_helmholtz_energy_array delta tau 1 1 = Ok (Sc 0).
Proof. reflexivity. Qed.
Print Assumptions C141_mixed_derivative.

(** With one temperature and several densities only the first comes back. *)
Theorem C141_rows_refuted :
  exists d1 d2 t x y, 0 < d1 /\ 0 < d2 /\ 0 < t /\
    ideal_gas_helmholtz_energy d1 t 0 0 = Ok x /\ ideal_gas_helmholtz_energy d2 t 0 0 = Ok y /\ x <> y /\
    ideal_gas_helmholtz_energy_array (Vec [d1; d2]) (Sc t) 0 0 = Ok (Sc x).
Proof.
  exists 1, 2, 1. rewrite !C82_ideal_value by lra. do 2 eexists. split; [lra|]. split; [lra|]. split; [lra|].
  split; [reflexivity|]. split; [reflexivity|]. split.
  - unfold published_ideal. rewrite ln_1. pose proof (ln_increasing 1 2 ltac:(lra) ltac:(lra)) as L. rewrite ln_1 in L. lra.
  - cbn [ideal_gas_helmholtz_energy_array zip map amap sequence fst snd]. rewrite !C82_ideal_value by lra. reflexivity.
Qed.
Print Assumptions C141_rows_refuted.

Example C141_nonvacuous :
  (exists r, ideal_gas_helmholtz_energy_array (Vec [1; 2]) (Vec [1; 3 / 2]) 0 0 = Ok r) /\
  ideal_gas_helmholtz_energy_array (Vec [1; 2]) (Vec [1; 3 / 2]) 1 0 = Ok (Vec [1 / 1; 1 / 2]).
Proof.
  split; [|cbn [ideal_gas_helmholtz_energy_array map amap sequence]; unfold ideal_gas_helmholtz_energy;
           rewrite !np_div_ok by lra; reflexivity].
  cbn [ideal_gas_helmholtz_energy_array zip combine map amap sequence fst snd]. rewrite !C82_ideal_value by lra. eexists. reflexivity.
Qed.

(** C142.  Arrays passed to the residual part come back changed. *)
Theorem C142_arguments_changed_refuted :
  exists delta tau dd dt,
    snd (co2_residual_helmholtz_energy_array delta tau dd dt) <> (delta, tau).
Proof.
  exists (Vec [1]), (Vec [2]), 0%nat, 0%nat. cbn [co2_residual_helmholtz_energy_array snd nudged_in_place map].
  intros H. injection H as H _. unfold nudged in H. destruct (Req_EM_T 1 1); lra.
Qed.
Print Assumptions C142_arguments_changed_refuted.

Theorem C142_arguments_kept_partial :
  forall ds ts dd dt, (forall d, In d ds -> d <> 1) -> (forall t, In t ts -> t <> 1) ->
    snd (co2_residual_helmholtz_energy_array (Vec ds) (Vec ts) dd dt) = (Vec ds, Vec ts).
Proof.
  intros ds ts dd dt Hd Ht. cbn [co2_residual_helmholtz_energy_array snd nudged_in_place].
  assert (K : forall l, (forall x, In x l -> x <> 1) -> map nudged l = l).
  { intros l H. rewrite <- (map_id l) at 2. apply map_ext_in. intros x Hx. apply nudged_id, H, Hx. }
  rewrite !K by assumption. reflexivity.
Qed.
Print Assumptions C142_arguments_kept_partial.

Example C142_nonvacuous : forall d, In d [1 / 2; 2] -> d <> 1.
Proof. intros d [<-|[<-|[]]]; lra. Qed.
