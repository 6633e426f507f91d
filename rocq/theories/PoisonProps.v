(** C167-: what missing values do to the results. *)
From Coq Require Import String List ZArith Lra Lia.
From Verif Require Import Base Spec MaterialModel MaterialProofs FluidModel ConfigModel FluidsModel RowModel RowSpec RowScalarProofs RowResultProofs
  RowProps NumModel NanModel NanSpec EmbedRowProofs NanRowProofs NanExampleProofs PoisonSpec PoisonProofs PoisonRowProofs
  PoisonExampleProofs PoisonFriableProofs NegativeRootProofs.
Import ListNotations.
Open Scope R_scope.

(** C167: take numbers out of a table that can be calculated, anywhere but in the
    fractions of minerals.  No check refuses the table; every value of the result
    is the one it was or nan.  The only error that may come up is a
    ZeroDivisionError. *)
Theorem C167_holes : forall co2 n i j rows, passes_nan_on co2 -> holes_input i j -> n_results co2 n i = Ok rows ->
  n_results co2 n j = Err ZeroDivisionError \/
  exists rows', n_results co2 n j = Ok rows' /\ Forall2 hole_row rows rows'.
Proof. exact poisoned_rows. Qed.
Print Assumptions C167_holes.
Example C167_nonvacuous : passes_nan_on (with_nan no_co2) /\ holes_input (num_input two_rows) half_missing /\
  n_results (with_nan no_co2) 2 (num_input two_rows) =
    Ok [num_row (mkRow (8 / 3) 4 2 1 (7 / 3) 4); num_row (mkRow 3 4 2 1 (13 / 6) 4)] /\
  n_results (with_nan no_co2) 2 half_missing =
    Ok [num_row (mkRow (8 / 3) 4 2 1 (7 / 3) 4); mkNRow Nan (Num 4) Nan Nan Nan (Num 4)].
Proof.
  split; [apply with_nan_passes|]. split; [apply half_missing_holes|].
  split; [exact (proj1 (results_agree _ _ 2 two_rows (with_nan_extends no_co2)) _ (two_rows_results no_co2))|].
  apply half_missing_results.
Qed.

(** C168: a missing fraction of a mineral is always refused. *)
Theorem C168_mineral_fraction : forall co2 n i inp m f, (i < n)%nat -> nwf_input n inp ->
  In (m, Some f) (ni_minerals inp) -> entry i f = Some Nan -> n_results co2 n inp = Err ValueError.
Proof. exact nan_fraction_rejected. Qed.
Print Assumptions C168_mineral_fraction.
(** The table of C167 with two minerals, the share of the first is missing in the second row. *)
Definition two_minerals : ninput :=
  mkNInput [(num_mat (up quartz), Some (Vec [Num (1 / 2); Nan])); (num_mat (up quartz), None)]
    (ni_fluids half_missing) (ni_fluid_fractions half_missing) (ni_dry_rock half_missing) (ni_pressure half_missing).
Example C168_nonvacuous : nwf_input 2 two_minerals /\
  In (num_mat (up quartz), Some (Vec [Num (1 / 2); Nan])) (ni_minerals two_minerals) /\
  entry 1 (Vec [Num (1 / 2); Nan]) = Some Nan /\
  n_results (with_nan no_co2) 2 two_minerals = Err ValueError.
Proof.
  assert (W : nwf_input 2 two_minerals).
  { destruct (wf_with_porosity 2 (Vec [Num (1 / 3); Nan])) as (_ & W2 & W3 & W4 & W5); [reflexivity|].
    split; [|split; [exact W2|split; [exact W3|split; [exact W4|exact W5]]]].
    constructor; [|constructor; [|constructor]]; repeat split. }
  split; [exact W|]. split; [left; reflexivity|]. split; [reflexivity|].
  apply (nan_fraction_rejected _ 2 1 _ (num_mat (up quartz)) (Vec [Num (1 / 2); Nan])); [lia|exact W|left; reflexivity|reflexivity].
Qed.

(** C169: refuted.  A missing value can make the calculation fail: Gassmann's
    equation returns early where the dry rock is as stiff as the mineral, and
    divides by zero once that comparison is made with nan. *)
Theorem C169_missing_value_refuted : exists i j rows, holes_input i j /\
  n_results (with_nan no_co2) 1 i = Ok rows /\ n_results (with_nan no_co2) 1 j = Err ZeroDivisionError.
Proof.
  exists (deep (Vec [Num 5])), (deep (Vec [Nan])), [num_row (mkRow 4 4 4 1 (7 / 3) 4)].
  split; [apply deep_holes|]. split; [apply deep_results|apply deep_nan].
Qed.
Print Assumptions C169_missing_value_refuted.

(** C170: refuted.  A table without missing values can have nan among its
    results, without an error. *)
Theorem C170_numbers_refuted : exists (inp : binput) rows r, n_results (with_nan no_co2) 1 (num_input inp) = Ok rows /\
  In r rows /\ w_ksat r = Nan /\ w_mysat r = Nan.
Proof.
  exists (up_input (sandpack quartz water (1 / 3) (2 / 5) 1 9 20 10 30)). eexists. eexists.
  split; [apply overpressured_nan|]. split; [left; reflexivity|]. split; reflexivity.
Qed.
Print Assumptions C170_numbers_refuted.

(** C171: a friable sand with a pore pressure above the overburden pressure has
    nan for its moduli, whatever the mineral, the fluid and the packing. *)
Theorem C171_overpressure : forall co2 n mineral fl phi phic sr cn overburden reference pore,
  solid mineral -> fluid fl -> 0 < bulk fl -> bulk fl <> bulk mineral ->
  0 < phi -> phi + 1 / 10 ^ 5 <= phic -> phic < 1 -> 0 < cn -> overburden < pore ->
  n_results (with_nan co2) n (num_input (up_input (sandpack mineral fl phi phic sr cn overburden reference pore))) =
  Ok (repeat (mkNRow Nan (Num (bulk mineral)) Nan Nan (Num (dens mineral * (1 - phi) + phi * dens fl)) (Num (bulk mineral))) n).
Proof. exact sandpack_nan. Qed.
Print Assumptions C171_overpressure.
Example C171_nonvacuous : solid quartz /\ fluid water /\ 0 < bulk water /\ bulk water <> bulk quartz /\
  0 < 1 / 3 /\ 1 / 3 + 1 / 10 ^ 5 <= 2 / 5 /\ 2 / 5 < 1 /\ 0 < 9 /\ 20 < 30.
Proof.
  split; [split; [apply sample_wf; lra|cbn; lra]|]. split; [apply sample_fluid; lra|]. repeat split; cbn; lra.
Qed.

(** C174: brine and oil at numbers, where a material is returned.  The density of
    brine is a number; its bulk modulus and primary velocity are nan exactly when
    the salinity is negative.  Oil with a reference density above 1080 kg/m3, or a
    negative one, has nan for both, whatever the temperature, the pressure, the
    gas-oil ratio and the gas gravity: for dead oil exactly then, and any other
    oil takes in the dead oil with weight zero. *)
Theorem C174_brine : forall t p s m, n_brine (Num t) (Num p) (Num s) = Ok m ->
  (exists d, v_dens m = Num d) /\ (v_bulk m = Nan <-> s < 0) /\ (v_vp m = Nan <-> s < 0).
Proof. exact brine_nan. Qed.
Print Assumptions C174_brine.
Theorem C174_dead_oil : forall t p r m, n_dead_oil (Num t) (Num p) (Num r) = Ok m ->
  (exists d, v_dens m = Num d) /\ (v_bulk m = Nan <-> r < 0 \/ 1080 < r) /\ (v_vp m = Nan <-> r < 0 \/ 1080 < r).
Proof. exact dead_oil_nan. Qed.
Print Assumptions C174_dead_oil.
Theorem C174_oil : forall t p r gor gas m, r < 0 \/ 1080 < r ->
  n_oil (Num t) (Num p) (Num r) gor gas = Ok m -> v_bulk m = Nan /\ v_vp m = Nan.
Proof. exact oil_nan. Qed.
Print Assumptions C174_oil.
Example C174_nonvacuous :
  (exists d, n_brine (Num 0) (Num 0) (Num (- 1)) = Ok (mkNMat Nan (Num 0) (Num d) Nan (Num 0))) /\
  (exists d m, 0 < d /\ n_dead_oil (Num 0) (Num 0) (Num 1100) = Ok m /\ v_dens m = Num d /\ v_vp m = Nan) /\
  (exists d, n_oil (Num 0) (Num 0) (Num 1100) (Num 0) (Num 1) = Ok (mkNMat Nan (Num 0) (Num d) Nan (Num 0))).
Proof. split; [exact salt_debt|]. split; [exact heavy_dead|exact heavy_oil]. Qed.
