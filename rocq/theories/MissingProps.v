(** C199: values that are missing show in the results of their row. *)
From Coq Require Import String List ZArith Lra.
From Verif Require Import Base ConfigModel FluidsModel RowModel RowProps RowResultProofs NumModel NanModel NanSpec NanExampleProofs
  PoisonSpec MissingSpec MissingProofs.
Import ListNotations.
Open Scope R_scope.

(** C199: a density in the results was calculated from values that are there:
    the porosity and the density of every mineral of the row, what every fluid
    is calculated from, every fraction given for a fluid, the cement, the
    depths. *)
Theorem C199_density : forall co2 n inp rows i r, needs_both co2 -> one_fraction_each inp -> n_results co2 n inp = Ok rows ->
  nth_error rows i = Some r -> w_rsat r <> Nan ->
  number_at i (ndr_porosity (ni_dry_rock inp)) /\
  (forall m f, In (m, f) (ni_minerals inp) -> number_at i (n_dens m)) /\
  fluids_there n_dens i inp /\ fractions_there i inp /\ cement_there i inp /\ depths_there i inp.
Proof. exact density_shows. Qed.
Print Assumptions C199_density.
(** The bulk modulus of the mineral comes with those of all minerals, *)
Theorem C199_mineral_bulk : forall co2 n inp rows i r m f, n_results co2 n inp = Ok rows -> nth_error rows i = Some r ->
  w_kmin r <> Nan -> In (m, f) (ni_minerals inp) -> number_at i (n_bulk m).
Proof. exact mineral_bulk_shows. Qed.
Print Assumptions C199_mineral_bulk.
(** that of the saturated rock with those of dry rock, mineral and fluids, or it
    is that of the mineral. *)
Theorem C199_saturated_bulk : forall co2 n inp rows i r, needs_both co2 -> one_fraction_each inp -> n_results co2 n inp = Ok rows ->
  nth_error rows i = Some r -> w_ksat r <> Nan ->
  w_ksat r = w_kmin_fls r \/
  (w_kdry r <> Nan /\ w_kmin_fls r <> Nan /\ number_at i (ndr_porosity (ni_dry_rock inp)) /\ fluids_there n_bulk i inp /\ fractions_there i inp).
Proof. exact saturated_bulk_shows. Qed.
Print Assumptions C199_saturated_bulk.
(** Two rows, the second without porosity. *)
Example C199_nonvacuous : needs_both (with_nan no_co2) /\ one_fraction_each half_missing /\
  n_results (with_nan no_co2) 2 half_missing =
    Ok [num_row (mkRow (8 / 3) 4 2 1 (7 / 3) 4); mkNRow Nan (Num 4) Nan Nan Nan (Num 4)] /\
  w_rsat (num_row (mkRow (8 / 3) 4 2 1 (7 / 3) 4)) <> Nan /\
  w_ksat (num_row (mkRow (8 / 3) 4 2 1 (7 / 3) 4)) <> w_kmin_fls (num_row (mkRow (8 / 3) 4 2 1 (7 / 3) 4)) /\
  number_at 0 (ndr_porosity (ni_dry_rock half_missing)) /\ ~ number_at 1 (ndr_porosity (ni_dry_rock half_missing)).
Proof.
  split; [apply with_nan_needs|]. split; [reflexivity|]. split; [apply half_missing_results|].
  split; [discriminate|]. split; [cbn; intros E; injection E; lra|].
  split; [exists (1 / 3); reflexivity|]. intros [x H]. discriminate.
Qed.
