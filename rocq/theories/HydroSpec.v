(** Vocabulary for oil and gas at reservoir conditions. *)
From Coq Require Import List.
From Verif Require Import Base MaterialModel Spec FluidsModel ConfigModel ReadModel ReadSpec FileSpec AcceptSpec.
Import ListNotations.
Open Scope R_scope.

(** Oil between 700 and 1000 kg/m3 at the surface, holding at most 200 litres of
    gas per litre; temperature in Celsius, pressure in Pa. *)
Definition common_oil (t p r rg g : R) : Prop :=
  0 <= t <= 100 /\ 0 <= p <= 100 * 10 ^ 6 /\ 700 <= r <= 1000 /\ 0 <= rg <= 200 /\ 1 / 2 <= g <= 12 / 10.

(** Gas between half as heavy as air and as heavy as air. *)
Definition common_gas (t p g : R) : Prop :=
  0 <= t <= 100 /\ 0 < p <= 60 * 10 ^ 6 /\ 1 / 2 <= g <= 1.

(** Fluids of a reservoir: brine and fluids given by their properties, oil, gas. *)
Definition reservoir_fluid (klo : R) (section : provider) (t p : R) (k : constituent_cfg R) : Prop :=
  plain_fluid klo section t p k \/
  (match k_fluid_model k with Some q => q | None => section end = BatzleWang /\ 12 * 10 ^ 9 < klo /\
   ((exists r rg g, k_material k = MOil r rg g /\ common_oil t p r rg g) \/
    (exists g, k_material k = MGas g /\ common_gas t p g))).

(** A fluid, given or left out, is absent or makes up at least 1e-15. *)
Definition no_traces (fs : list (option R)) : Prop :=
  Forall (fun f => match f with Some x => x = 0 \/ 1 / 10 ^ 15 <= x | None => total fs = 1 \/ total fs <= 1 - 1 / 10 ^ 15 end) fs.

(** Fluids mixed by Wood's law, or by Brie's law with any positive exponent. *)
Definition reservoir_mix (klo p : R) (f : fluids_cfg R) : Prop :=
  (exists e, fc_brie_constant f = N0 e /\
     (fc_mix_method f = Wood \/ (0 < e /\ no_traces (map k_fraction (fc_constituents f))))) /\
  fc_brie_gases f = None /\ fc_constituents f <> [] /\ parts_of_one (map k_fraction (fc_constituents f)) /\
  Forall (reservoir_fluid klo (fc_fluid_model f) (fc_temperature f) p) (fc_constituents f).

(** A loose sand filled with them. *)
Definition reservoir (klo muhi : R) (c : config R) : Prop :=
  0 < klo /\ cf_minerals c <> [] /\ Forall (grain klo muhi) (cf_minerals c) /\
  parts_of_one (map k_fraction (cf_minerals c)) /\
  (exists p, if_none (pr_fluid (cf_pressure c)) (pr_rock (cf_pressure c)) = Some p /\ reservoir_mix klo p (cf_fluids c)) /\
  exists e, 0 < e /\ grain_pressure (cf_pressure c) e /\ loose_sand klo muhi e (cf_dry_rock c).
