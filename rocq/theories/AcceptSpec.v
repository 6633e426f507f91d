(** Vocabulary for configurations in the physical range. *)
From Coq Require Import String List ZArith.
From Verif Require Import Base MaterialModel Spec MineralsModel FluidsModel FluidsSpec ConfigModel RowModel InputModel ReadModel ReadSpec FileSpec.
Import ListNotations.
Open Scope R_scope.

(** Parts of a whole: none negative, at most one left out, together one. *)
Fixpoint total (fs : list (option R)) : R :=
  match fs with [] => 0 | Some x :: fs' => x + total fs' | None :: fs' => total fs' end.
Definition left_out (f : option R) : bool := match f with None => true | Some _ => false end.
Definition parts_of_one (fs : list (option R)) : Prop :=
  Forall (fun f => match f with None => True | Some x => 0 <= x end) fs /\
  ((forallb (fun f => negb (left_out f)) fs = true /\ total fs = 1) \/
   (List.length (filter left_out fs) = 1%nat /\ total fs <= 1)).

(** A mineral given by density, bulk modulus of at least [klo] and shear
    modulus of at most [muhi]. *)
Definition grain (klo muhi : R) (k : constituent_cfg R) : Prop :=
  exists d b mu, k_material k = MArbitrary (mkArbitrary d (Some b) (Some mu) None None) /\
    0 < d /\ klo <= b /\ 0 < mu <= muhi.

(** A constituent, other than carbon dioxide, that stands for a fluid softer than [klo]. *)
Definition soft_fluid (co2 : equation_of_state) (klo : R) (section : provider) (t p : R) (k : constituent_cfg R) : Prop :=
  (forall i, k_material k <> MCarbonDioxide i) /\
  exists f m, means_fluid (k_material k) f /\
    worth co2 (match k_fluid_model k with Some q => q | None => section end) f t p m /\
    fluid m /\ 0 < bulk m < klo.

Definition soft_fluids (co2 : equation_of_state) (klo : R) (p : R) (f : fluids_cfg R) : Prop :=
  fc_mix_method f = Wood /\ (exists e, fc_brie_constant f = N0 e) /\ fc_brie_gases f = None /\
  fc_constituents f <> [] /\ parts_of_one (map k_fraction (fc_constituents f)) /\
  Forall (soft_fluid co2 klo (fc_fluid_model f) (fc_temperature f) p) (fc_constituents f).

(** Effective pressure on the grains, not above the limit if there is one. *)
Definition grain_pressure (c : pressure_cfg R) (e : R) : Prop :=
  exists r, if_none (pr_rock c) (pr_fluid c) = Some r /\
    e = match pr_max_effective c with None => pr_overburden c - r | Some b => Rmin (pr_overburden c - r) b end.

(** A sand under a pressure so low that the pack of grains is softer than the
    grains: 2 n^2 (1 - c)^2 mu^2 e <= 81 k^3, where mu and k are bounds for the
    minerals (quartz at c = 0.4, n = 9: any e below 35 GPa). *)
Definition loose_sand (klo muhi e : R) (d : dry_rock_cfg R) : Prop :=
  exists f, dc_model d = SFriable f /\ dc_adjustments d = [] /\
    let c := fr_critical f in let n := or_murphy (fr_coordination f) c in
    0 < dc_porosity d /\ dc_porosity d + 1 / 10 ^ 5 <= c < 1 /\ 0 <= fr_shear_reduction f /\ 0 < n /\
    2 * n ^ 2 * (1 - c) ^ 2 * muhi ^ 2 * e <= 81 * klo ^ 3.

Definition reservoir_sand (co2 : equation_of_state) (klo muhi : R) (c : config R) : Prop :=
  0 < klo /\ cf_minerals c <> [] /\ Forall (grain klo muhi) (cf_minerals c) /\
  parts_of_one (map k_fraction (cf_minerals c)) /\
  (exists p, if_none (pr_fluid (cf_pressure c)) (pr_rock (cf_pressure c)) = Some p /\ soft_fluids co2 klo p (cf_fluids c)) /\
  exists e, 0 < e /\ grain_pressure (cf_pressure c) e /\ loose_sand klo muhi e (cf_dry_rock c).

(** What comes out. *)
Definition sensible (klo : R) (o : output_row) : Prop :=
  0 < r_kdry o < r_ksat o /\ r_ksat o < r_kmin o /\ klo <= r_kmin o /\ r_kmin_fls o = r_kmin o /\
  0 < r_mysat o /\ 0 < r_rsat o.

(** Fluids given by their properties, and brine in the range of its formulas;
    no brine there is stiffer than 12 GPa. *)
Definition plain_fluid (klo : R) (section : provider) (t p : R) (k : constituent_cfg R) : Prop :=
  (exists d b, k_material k = MArbitrary (mkArbitrary d (Some b) (Some 0) None None) /\ 0 < d /\ 0 < b < klo) \/
  (exists s, k_material k = MBrine s /\ (match k_fluid_model k with Some q => q | None => section end) = BatzleWang /\
     0 <= t <= 100 /\ 0 <= p <= 100 * 10 ^ 6 /\ 0 <= s <= 300000 /\ 12 * 10 ^ 9 < klo).
