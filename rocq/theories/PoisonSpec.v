(** A table in which some numbers have been replaced by nan. *)
From Coq Require Import String List ZArith.
From Verif Require Import Base MaterialModel FluidModel FluidsModel ConfigModel RowModel RowSpec NumModel NanModel.
Import ListNotations.
Open Scope R_scope.

(** [y] is [x], or nan in its place. *)
Definition hole (x y : num) : Prop := y = Nan \/ x = y.
(** The same for every entry of a column of numbers. *)
Definition holes (a b : arr num) : Prop :=
  match a, b with
  | Sc x, Sc y => hole x y
  | Vec l, Vec m => Forall2 hole l m
  | _, _ => False
  end.
Definition holes_option (a b : option (arr num)) : Prop :=
  match a, b with Some x, Some y => holes x y | None, None => True | _, _ => False end.

Definition hole_material (m v : nmaterial) : Prop :=
  hole (v_bulk m) (v_bulk v) /\ hole (v_shear m) (v_shear v) /\ hole (v_dens m) (v_dens v) /\
  hole (v_vp m) (v_vp v) /\ hole (v_vs m) (v_vs v).
Definition holes_mat (m v : nmat) : Prop :=
  holes (n_bulk m) (n_bulk v) /\ holes (n_shear m) (n_shear v) /\ holes (n_dens m) (n_dens v) /\
  holes (n_vp m) (n_vp v) /\ holes (n_vs m) (n_vs v).
Definition holes_fluid (f g : nfluid_type) : Prop :=
  match f, g with
  | NArbitrary m, NArbitrary v => holes_mat m v
  | NOil a b c, NOil a' b' c' | NCondensate a b c, NCondensate a' b' c' => holes a a' /\ holes b b' /\ holes c c'
  | NGas a, NGas a' | NBrine a, NBrine a' => holes a a'
  | NCarbonDioxide i, NCarbonDioxide i' => i = i'
  | _, _ => False
  end.
Definition holes_constituent (c d : nconstituent) : Prop :=
  holes_fluid (nc_material c) (nc_material d) /\ holes (nc_fraction c) (nc_fraction d) /\
  nc_fluid_model c = nc_fluid_model d.
Definition holes_fluids (f g : nfluids) : Prop :=
  holes (nf_temperature f) (nf_temperature g) /\ Forall2 holes_constituent (nf_constituents f) (nf_constituents g) /\
  nf_mix_method f = nf_mix_method g /\ nf_brie_constant f = nf_brie_constant g /\
  nf_brie_gases f = nf_brie_gases g /\ nf_fluid_model f = nf_fluid_model g.
Definition holes_pressure (p q : npressure) : Prop :=
  holes (npr_overburden p) (npr_overburden q) /\ holes (npr_reference p) (npr_reference q) /\
  holes_option (npr_fluid p) (npr_fluid q) /\ holes_option (npr_max_effective p) (npr_max_effective q) /\
  holes_option (npr_rock p) (npr_rock q).
Definition holes_friable (f g : nfriable_model) : Prop :=
  holes (nfr_critical f) (nfr_critical g) /\ holes (nfr_shear_reduction f) (nfr_shear_reduction g) /\
  holes (nfr_coordination f) (nfr_coordination g).
Definition holes_patchy (f g : npatchy_model) : Prop :=
  holes_mat (npa_cement f) (npa_cement g) /\ holes (npa_critical f) (npa_critical g) /\
  holes (npa_cement_fraction f) (npa_cement_fraction g) /\ holes (npa_lower_pressure f) (npa_lower_pressure g) /\
  holes (npa_upper_fraction f) (npa_upper_fraction g) /\ holes (npa_coordination f) (npa_coordination g) /\
  holes (npa_shear_reduction f) (npa_shear_reduction g).
Definition holes_dependency (a b : ndependency_model) : Prop :=
  match a, b with
  | NFriable f, NFriable g => holes_friable f g
  | NPatchy f, NPatchy g => holes_patchy f g
  | NFriable _, _ | NPatchy _, _ => False
  | _, _ => a = b
  end.
Definition holes_depth (s t : ndepth_trend) : Prop :=
  holes (ndt_depth s) (ndt_depth t) /\ ndt_coefficients s = ndt_coefficients t /\
  holes_option (ndt_reference s) (ndt_reference t) /\ holes_option (ndt_max s) (ndt_max t).
Definition holes_adjustment (a b : nadjustment) : Prop :=
  match a, b with
  | NDepthTrend s, NDepthTrend t => holes_depth s t
  | NPressureDependency s, NPressureDependency t => holes_dependency s t
  | _, _ => False
  end.
Definition holes_rock_model (a b : nrock_model) : Prop :=
  match a, b with
  | NRockPolyfit c, NRockPolyfit d => c = d
  | NRockFriable f, NRockFriable g => holes_friable f g
  | NRockPatchy f, NRockPatchy g => holes_patchy f g
  | _, _ => False
  end.
Definition holes_dry_rock (d e : ndry_rock) : Prop :=
  holes_rock_model (ndr_model d) (ndr_model e) /\ holes (ndr_porosity d) (ndr_porosity e) /\
  Forall2 holes_adjustment (ndr_adjustments d) (ndr_adjustments e).
(** The fractions of the minerals are kept; anything else may be missing. *)
Definition holes_input (i j : ninput) : Prop :=
  Forall2 (fun c d => holes_mat (fst c) (fst d) /\ snd c = snd d) (ni_minerals i) (ni_minerals j) /\
  holes_fluids (ni_fluids i) (ni_fluids j) /\
  Forall2 holes_option (ni_fluid_fractions i) (ni_fluid_fractions j) /\
  holes_dry_rock (ni_dry_rock i) (ni_dry_rock j) /\ holes_pressure (ni_pressure i) (ni_pressure j).
Definition hole_row (r s : nrow) : Prop :=
  hole (w_ksat r) (w_ksat s) /\ hole (w_kmin r) (w_kmin s) /\ hole (w_kdry r) (w_kdry s) /\
  hole (w_mysat r) (w_mysat s) /\ hole (w_rsat r) (w_rsat s) /\ hole (w_kmin_fls r) (w_kmin_fls s).
(** An equation of state whose results only lose values with its arguments. *)
Definition passes_nan_on (co2 : n_equation_of_state) : Prop :=
  forall t t' p p' i m, hole t t' -> hole p p' -> co2 t p i = Ok m ->
    exists v, co2 t' p' i = Ok v /\ hole_material m v.

(** The value of a column in row [i]. *)
Definition entry {A} (i : nat) (a : arr A) : option A := match a with Sc x => Some x | Vec l => nth_error l i end.

(** A friable sand of one mineral with one fluid in its pores. *)
Definition sandpack (mineral fl : material) (phi phic shear_reduction coordination overburden reference pore : R) : row_input :=
  mkInput [(mineral, None)]
    (mk_fluids 80 [mk_constituent (FArbitrary fl) 1 None] Wood 3 [] BatzleWang) [None]
    (mkDryRock (RockFriable (mkFriable phic shear_reduction coordination)) phi [])
    (mkPressure overburden reference (Some pore) None (Some pore)).
