(** Which values of a row are there: vocabulary for what a missing value does
    to the results of its row. *)
From Coq Require Import String List ZArith.
From Verif Require Import Base FluidsModel ConfigModel RowModel NumModel NanModel PoisonSpec.
Import ListNotations.
Open Scope R_scope.

(** The value in row [i] is a number. *)
Definition number_at (i : nat) (a : arr num) : Prop := exists x : R, entry i a = Some (Num x).

(** What a fluid is calculated from is there in row [i]: the property [of] of a
    material given by its moduli; temperature, pressure and composition
    otherwise. *)
Definition fluid_there (of : nmat -> arr num) (i : nat) (temperature pressure : arr num) (f : nfluid_type) : Prop :=
  match f with
  | NArbitrary m => number_at i (of m)
  | NOil a b c | NCondensate a b c =>
      number_at i temperature /\ number_at i pressure /\ number_at i a /\ number_at i b /\ number_at i c
  | NGas a | NBrine a => number_at i temperature /\ number_at i pressure /\ number_at i a
  | NCarbonDioxide _ => number_at i temperature /\ number_at i pressure
  end.
Definition fluids_there (of : nmat -> arr num) (i : nat) (inp : ninput) : Prop :=
  forall p c, npr_fluid (ni_pressure inp) = Some p -> In c (nf_constituents (ni_fluids inp)) ->
    fluid_there of i (nf_temperature (ni_fluids inp)) p (nc_material c).
Definition fractions_there (i : nat) (inp : ninput) : Prop :=
  forall f, In (Some f) (ni_fluid_fractions inp) -> number_at i f.
Definition cement_there (i : nat) (inp : ninput) : Prop :=
  forall q, ndr_model (ni_dry_rock inp) = NRockPatchy q ->
    number_at i (n_dens (npa_cement q)) /\ number_at i (npa_critical q) /\ number_at i (npa_cement_fraction q).
Definition depths_there (i : nat) (inp : ninput) : Prop :=
  forall t, In (NDepthTrend t) (ndr_adjustments (ni_dry_rock inp)) ->
    number_at i (ndt_depth t) /\ forall r, ndt_reference t = Some r -> number_at i r.

(** An equation of state that has nothing to say without temperature and
    pressure. *)
Definition needs_both (co2 : n_equation_of_state) : Prop := forall t p i m, co2 t p i = Ok m ->
  (v_dens m <> Nan \/ v_bulk m <> Nan) -> t <> Nan /\ p <> Nan.

(** As many fractions as fluids. *)
Definition one_fraction_each (inp : ninput) : Prop :=
  length (ni_fluid_fractions inp) = length (nf_constituents (ni_fluids inp)).
