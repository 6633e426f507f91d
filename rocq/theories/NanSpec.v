(** Vocabulary for tables with nan. *)
From Coq Require Import String List ZArith.
From Verif Require Import Base MaterialModel MineralsModel ConfigModel FluidsModel RowModel RowSpec NumModel NanModel.
Import ListNotations.
Open Scope R_scope.

(** ** A configuration and a table without nan, as one that could have nan *)
Local Notation o := (pmap Num).
Definition num_material (m : material) : nmaterial :=
  mkNMat (Num (bulk m)) (Num (shear m)) (Num (dens m)) (Num (vp m)) (Num (vs m)).
Definition num_mat (m : bmat) : nmat := mkNB (o (b_bulk m)) (o (b_shear m)) (o (b_dens m)) (o (b_vp m)) (o (b_vs m)).
Definition num_fluid (f : bfluid_type) : nfluid_type :=
  match f with
  | BArbitrary m => NArbitrary (num_mat m)
  | BOil a b c => NOil (o a) (o b) (o c)
  | BGas a => NGas (o a)
  | BBrine a => NBrine (o a)
  | BCondensate a b c => NCondensate (o a) (o b) (o c)
  | BCarbonDioxide b => NCarbonDioxide b
  end.
Definition num_constituent (c : bconstituent) : nconstituent :=
  mk_nconstituent (num_fluid (bc_material c)) (o (bc_fraction c)) (bc_fluid_model c).
Definition num_fluids (f : bfluids) : nfluids :=
  mk_nfluids (o (bf_temperature f)) (map num_constituent (bf_constituents f)) (bf_mix_method f)
    (bf_brie_constant f) (bf_brie_gases f) (bf_fluid_model f).
Definition num_option (a : option (arr R)) : option (arr num) := option_map o a.
Definition num_pressure (p : bpressure) : npressure :=
  mkNPressure (o (bp_overburden p)) (o (bp_reference p)) (num_option (bp_fluid p))
    (num_option (bp_max_effective p)) (num_option (bp_rock p)).
Definition num_friable (f : bfriable_model) : nfriable_model :=
  mkNFriable (o (bfr_critical f)) (o (bfr_shear_reduction f)) (o (bfr_coordination f)).
Definition num_patchy (q : bpatchy_model) : npatchy_model :=
  mkNPatchy (num_mat (bpa_cement q)) (o (bpa_critical q)) (o (bpa_cement_fraction q)) (o (bpa_lower_pressure q))
    (o (bpa_upper_fraction q)) (o (bpa_coordination q)) (o (bpa_shear_reduction q)).
Definition num_dependency (md : bdependency_model) : ndependency_model :=
  match md with
  | BPolyfit c => NPolyfit c
  | BExpfit c => NExpfit c
  | BLogfit c => NLogfit c
  | BPowerfit d b v => NPowerfit d b v
  | BFriable f => NFriable (num_friable f)
  | BPatchy q => NPatchy (num_patchy q)
  end.
Definition num_depth (t : bdepth_trend) : ndepth_trend :=
  mkNDepth (o (bdt_depth t)) (bdt_coefficients t) (num_option (bdt_reference t)) (num_option (bdt_max t)).
Definition num_adjustment (a : badjustment) : nadjustment :=
  match a with
  | BDepthTrend t => NDepthTrend (num_depth t)
  | BPressureDependency md => NPressureDependency (num_dependency md)
  end.
Definition num_rock_model (m : brock_model) : nrock_model :=
  match m with
  | BRockPolyfit c => NRockPolyfit c
  | BRockFriable f => NRockFriable (num_friable f)
  | BRockPatchy q => NRockPatchy (num_patchy q)
  end.
Definition num_dry_rock (d : bdry_rock) : ndry_rock :=
  mkNDryRock (num_rock_model (bdr_model d)) (o (bdr_porosity d)) (map num_adjustment (bdr_adjustments d)).
Definition num_input (inp : binput) : ninput :=
  mkNInput (map (fun c => (num_mat (fst c), num_option (snd c))) (bi_minerals inp))
    (num_fluids (bi_fluids inp)) (map num_option (bi_fluid_fractions inp))
    (num_dry_rock (bi_dry_rock inp)) (num_pressure (bi_pressure inp)).
Definition num_output (r : boutput) : noutput :=
  mkNOutput (o (bo_ksat r)) (o (bo_kmin r)) (o (bo_kdry r)) (o (bo_mysat r)) (o (bo_rsat r)) (o (bo_kmin_fls r)).

(** An equation of state for carbon dioxide with nan that agrees with one
    without. *)
Definition extends (co2 : equation_of_state) (nco2 : n_equation_of_state) : Prop :=
  forall t p i,
    (forall m, co2 t p i = Ok m -> nco2 (Num t) (Num p) i = Ok (num_material m)) /\
    (forall e, co2 t p i = Err e -> e <> NonFinite -> nco2 (Num t) (Num p) i = Err e).

Definition num_row (r : output_row) : nrow :=
  mkNRow (r_ksat r) (r_kmin r) (r_kdry r) (r_mysat r) (r_rsat r) (r_kmin_fls r).
(** Such an equation of state: nan for a missing temperature or pressure. *)
Definition with_nan (co2 : equation_of_state) : n_equation_of_state := fun t p i =>
  match t, p with
  | Num t, Num p => let* m := co2 t p i in Ok (num_material m)
  | _, _ => Ok (mkNMat Nan Nan Nan Nan Nan)
  end.

(** ** Rows of a table with nan, as in RowSpec; rows stay columns. *)
Definition nobs_mat (i : nat) (m : nmat) : nmat :=
  mkNB (obs true i (n_bulk m)) (obs true i (n_shear m)) (obs true i (n_dens m)) (obs true i (n_vp m)) (obs true i (n_vs m)).
Definition nwfm (n : nat) (m : nmat) : Prop :=
  wfa n (n_bulk m) /\ wfa n (n_shear m) /\ wfa n (n_dens m) /\ wfa n (n_vp m) /\ wfa n (n_vs m).
Section Obs.
Context (i : nat).
Notation o := (obs true i).
Definition nobs_fluid (f : nfluid_type) : nfluid_type :=
  match f with
  | NArbitrary m => NArbitrary (nobs_mat i m)
  | NOil a b c => NOil (o a) (o b) (o c)
  | NGas a => NGas (o a)
  | NBrine a => NBrine (o a)
  | NCondensate a b c => NCondensate (o a) (o b) (o c)
  | NCarbonDioxide b => NCarbonDioxide b
  end.
Definition nobs_constituent (c : nconstituent) : nconstituent :=
  mk_nconstituent (nobs_fluid (nc_material c)) (o (nc_fraction c)) (nc_fluid_model c).
Definition nobs_fluids (f : nfluids) : nfluids :=
  mk_nfluids (o (nf_temperature f)) (map nobs_constituent (nf_constituents f)) (nf_mix_method f)
    (nf_brie_constant f) (nf_brie_gases f) (nf_fluid_model f).
Definition nobs_option (a : option (arr num)) : option (arr num) := option_map o a.
Definition nobs_pressure (p : npressure) : npressure :=
  mkNPressure (o (npr_overburden p)) (o (npr_reference p)) (nobs_option (npr_fluid p))
    (nobs_option (npr_max_effective p)) (nobs_option (npr_rock p)).
Definition nobs_friable (f : nfriable_model) : nfriable_model :=
  mkNFriable (o (nfr_critical f)) (o (nfr_shear_reduction f)) (o (nfr_coordination f)).
Definition nobs_patchy (q : npatchy_model) : npatchy_model :=
  mkNPatchy (nobs_mat i (npa_cement q)) (o (npa_critical q)) (o (npa_cement_fraction q)) (o (npa_lower_pressure q))
    (o (npa_upper_fraction q)) (o (npa_coordination q)) (o (npa_shear_reduction q)).
Definition nobs_dependency (md : ndependency_model) : ndependency_model :=
  match md with
  | NFriable f => NFriable (nobs_friable f)
  | NPatchy q => NPatchy (nobs_patchy q)
  | _ => md
  end.
Definition nobs_depth (t : ndepth_trend) : ndepth_trend :=
  mkNDepth (o (ndt_depth t)) (ndt_coefficients t) (nobs_option (ndt_reference t)) (nobs_option (ndt_max t)).
Definition nobs_adjustment (a : nadjustment) : nadjustment :=
  match a with
  | NDepthTrend t => NDepthTrend (nobs_depth t)
  | NPressureDependency md => NPressureDependency (nobs_dependency md)
  end.
Definition nobs_rock_model (m : nrock_model) : nrock_model :=
  match m with
  | NRockPolyfit c => NRockPolyfit c
  | NRockFriable f => NRockFriable (nobs_friable f)
  | NRockPatchy q => NRockPatchy (nobs_patchy q)
  end.
Definition nobs_dry_rock (d : ndry_rock) : ndry_rock :=
  mkNDryRock (nobs_rock_model (ndr_model d)) (o (ndr_porosity d)) (map nobs_adjustment (ndr_adjustments d)).
Definition nobs_input (inp : ninput) : ninput :=
  mkNInput (map (fun c => (nobs_mat i (fst c), nobs_option (snd c))) (ni_minerals inp))
    (nobs_fluids (ni_fluids inp)) (map nobs_option (ni_fluid_fractions inp))
    (nobs_dry_rock (ni_dry_rock inp)) (nobs_pressure (ni_pressure inp)).
Definition nobs_output (r : noutput) : noutput :=
  mkNOutput (o (no_ksat r)) (o (no_kmin r)) (o (no_kdry r)) (o (no_mysat r)) (o (no_rsat r)) (o (no_kmin_fls r)).
End Obs.

Section Sized.
Context (n : nat).
Definition nwfo (a : option (arr num)) : Prop := match a with None => True | Some a => wfa n a end.
Definition nwf_fluid (f : nfluid_type) : Prop :=
  match f with
  | NArbitrary m => nwfm n m
  | NOil a b c | NCondensate a b c => wfa n a /\ wfa n b /\ wfa n c
  | NGas a | NBrine a => wfa n a
  | NCarbonDioxide _ => True
  end.
Definition nwf_constituent (c : nconstituent) : Prop := nwf_fluid (nc_material c) /\ wfa n (nc_fraction c).
Definition nwf_fluids (f : nfluids) : Prop := wfa n (nf_temperature f) /\ Forall nwf_constituent (nf_constituents f).
Definition nwf_pressure (p : npressure) : Prop :=
  wfa n (npr_overburden p) /\ wfa n (npr_reference p) /\ nwfo (npr_fluid p) /\ nwfo (npr_max_effective p) /\ nwfo (npr_rock p).
Definition nwf_friable (f : nfriable_model) : Prop :=
  wfa n (nfr_critical f) /\ wfa n (nfr_shear_reduction f) /\ wfa n (nfr_coordination f).
Definition nwf_patchy (q : npatchy_model) : Prop :=
  nwfm n (npa_cement q) /\ wfa n (npa_critical q) /\ wfa n (npa_cement_fraction q) /\ wfa n (npa_lower_pressure q) /\
  wfa n (npa_upper_fraction q) /\ wfa n (npa_coordination q) /\ wfa n (npa_shear_reduction q).
Definition nwf_dependency (md : ndependency_model) : Prop :=
  match md with NFriable f => nwf_friable f | NPatchy q => nwf_patchy q | _ => True end.
Definition nwf_depth (t : ndepth_trend) : Prop := wfa n (ndt_depth t) /\ nwfo (ndt_reference t) /\ nwfo (ndt_max t).
Definition nwf_adjustment (a : nadjustment) : Prop :=
  match a with NDepthTrend t => nwf_depth t | NPressureDependency md => nwf_dependency md end.
Definition nwf_rock_model (m : nrock_model) : Prop :=
  match m with NRockPolyfit _ => True | NRockFriable f => nwf_friable f | NRockPatchy q => nwf_patchy q end.
Definition nwf_dry_rock (d : ndry_rock) : Prop :=
  nwf_rock_model (ndr_model d) /\ wfa n (ndr_porosity d) /\ Forall nwf_adjustment (ndr_adjustments d).
Definition nwf_input (inp : ninput) : Prop :=
  Forall (fun c => nwfm n (fst c) /\ nwfo (snd c)) (ni_minerals inp) /\
  nwf_fluids (ni_fluids inp) /\ Forall nwfo (ni_fluid_fractions inp) /\
  nwf_dry_rock (ni_dry_rock inp) /\ nwf_pressure (ni_pressure inp).
Definition nwf_output (r : noutput) : Prop :=
  wfa n (no_ksat r) /\ wfa n (no_kmin r) /\ wfa n (no_kdry r) /\ wfa n (no_mysat r) /\ wfa n (no_rsat r) /\
  wfa n (no_kmin_fls r).
End Sized.

