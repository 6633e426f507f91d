(** Vocabulary for warnings: when a fluid at given conditions is to be warned
    about. *)
From Coq Require Import String List ZArith.
From Verif Require Import Base MaterialModel ConfigModel FluidsModel RowModel RowSpec WarnModel.
Import ListNotations.
Open Scope R_scope.

(** Batzle and Wang (1992), equation 21a solved for pressure, in pascal. *)
Definition bubble_point_pressure (temperature reference_density gas_oil_ratio gas_gravity : R) : R :=
  if Rlt_dec 0 (gas_oil_ratio / gas_gravity) then
    244697939134 / 10 ^ 4 * Rpower (gas_oil_ratio / gas_gravity) (83 / 100)
    * exp (377 / 100000 * temperature - 4072 / reference_density)
  else 0.

(** The warnings one fluid deserves. *)
Definition deserves (p : provider) (f : fluid_type) (temperature pressure : R) (w : warning) : Prop :=
  p = BatzleWang /\
  match f, w with
  | FOil r rg g, BelowBubblePoint => pressure < bubble_point_pressure temperature r rg g
  | FBrine _, WaterPressure m => m = pressure / 10 ^ 6 /\ 100 < m
  | _, _ => False
  end.

(** How often the pressure has been divided by a million before the j-th
    constituent. *)
Fixpoint carbon_dioxide_before (j : nat) (cs : list bconstituent) : nat :=
  match j, cs with
  | S j', c :: cs' =>
      ((match bc_material c with BCarbonDioxide _ => 1 | _ => 0 end) + carbon_dioxide_before j' cs')%nat
  | _, _ => 0%nat
  end.
Definition model_of (default : provider) (c : bconstituent) : provider :=
  match bc_fluid_model c with None => default | Some q => q end.

(** Two adjustments of one kind. *)
Definition repeated (l : list badjustment) (w : warning) : Prop :=
  (w = PressureDependencies /\ exists i j a b, (i < j)%nat /\
     nth_error l i = Some (BPressureDependency a) /\ nth_error l j = Some (BPressureDependency b)) \/
  (w = DepthTrends /\ exists i j a b, (i < j)%nat /\
     nth_error l i = Some (BDepthTrend a) /\ nth_error l j = Some (BDepthTrend b)).

(** The warnings row [i] of a table deserves for its fluids. *)
Definition row_deserves (inp : binput) (i : nat) (w : warning) : Prop :=
  exists j c p, nth_error (bf_constituents (bi_fluids inp)) j = Some c /\ bp_fluid (bi_pressure inp) = Some p /\
    deserves (model_of (bf_fluid_model (bi_fluids inp)) c) (pick_fluid i (bc_material c)) (pick i (bf_temperature (bi_fluids inp)))
      (pick i p / (10 ^ 6) ^ carbon_dioxide_before j (bf_constituents (bi_fluids inp))) w.

(** A table on which warnings can be foreseen: a fraction for each fluid and no
    negative pressure. *)
Definition foreseeable (n : nat) (inp : binput) : Prop :=
  (0 < n)%nat /\ wf_input n inp /\ length (bi_fluid_fractions inp) = length (bf_constituents (bi_fluids inp)) /\
  forall i p, (i < n)%nat -> bp_fluid (bi_pressure inp) = Some p -> 0 <= pick i p.
