(** Vocabulary for calculations on tables: what a row of a configuration is. *)
From Coq Require Import String List ZArith.
From Verif Require Import Base MaterialModel MineralsModel ConfigModel FluidsModel RowModel.
Import ListNotations.
Open Scope R_scope.

(** The i-th row of a value, still as a column ([keep = true]) or as a
    constant ([keep = false]). *)
Definition obs (keep : bool) (i : nat) {A} (a : arr A) : arr A :=
  match a with
  | Sc x => Sc x
  | Vec l => match nth_error l i with
             | Some x => if keep then Vec [x] else Sc x
             | None => Vec []
             end
  end.

Definition wfa (n : nat) {A} (a : arr A) : Prop :=
  match a with Sc _ => True | Vec l => length l = n end.

Definition obs_mat (k : bool) (i : nat) (m : bmat) : bmat :=
  mkB (obs k i (b_bulk m)) (obs k i (b_shear m)) (obs k i (b_dens m)) (obs k i (b_vp m)) (obs k i (b_vs m)).
Definition wfm (n : nat) (m : bmat) : Prop :=
  wfa n (b_bulk m) /\ wfa n (b_shear m) /\ wfa n (b_dens m) /\ wfa n (b_vp m) /\ wfa n (b_vs m).
(** ** Rows of a configuration *)
Section Obs.
Context (k : bool) (i : nat).
Notation o := (obs k i).
Definition obs_fluid (f : bfluid_type) : bfluid_type :=
  match f with
  | BArbitrary m => BArbitrary (obs_mat k i m)
  | BOil a b c => BOil (o a) (o b) (o c)
  | BGas a => BGas (o a)
  | BBrine a => BBrine (o a)
  | BCondensate a b c => BCondensate (o a) (o b) (o c)
  | BCarbonDioxide b => BCarbonDioxide b
  end.
Definition obs_constituent (c : bconstituent) : bconstituent :=
  mk_bconstituent (obs_fluid (bc_material c)) (o (bc_fraction c)) (bc_fluid_model c).
Definition obs_fluids (f : bfluids) : bfluids :=
  mk_bfluids (o (bf_temperature f)) (map obs_constituent (bf_constituents f)) (bf_mix_method f)
    (bf_brie_constant f) (bf_brie_gases f) (bf_fluid_model f).
Definition obs_option (a : option (arr R)) : option (arr R) := option_map o a.
Definition obs_pressure (p : bpressure) : bpressure :=
  mkBPressure (o (bp_overburden p)) (o (bp_reference p)) (obs_option (bp_fluid p))
    (obs_option (bp_max_effective p)) (obs_option (bp_rock p)).
Definition obs_friable (f : bfriable_model) : bfriable_model :=
  mkBFriable (o (bfr_critical f)) (o (bfr_shear_reduction f)) (o (bfr_coordination f)).
Definition obs_patchy (q : bpatchy_model) : bpatchy_model :=
  mkBPatchy (obs_mat k i (bpa_cement q)) (o (bpa_critical q)) (o (bpa_cement_fraction q)) (o (bpa_lower_pressure q))
    (o (bpa_upper_fraction q)) (o (bpa_coordination q)) (o (bpa_shear_reduction q)).
Definition obs_dependency (md : bdependency_model) : bdependency_model :=
  match md with
  | BFriable f => BFriable (obs_friable f)
  | BPatchy q => BPatchy (obs_patchy q)
  | _ => md
  end.
Definition obs_depth (t : bdepth_trend) : bdepth_trend :=
  mkBDepth (o (bdt_depth t)) (bdt_coefficients t) (obs_option (bdt_reference t)) (obs_option (bdt_max t)).
Definition obs_adjustment (a : badjustment) : badjustment :=
  match a with
  | BDepthTrend t => BDepthTrend (obs_depth t)
  | BPressureDependency md => BPressureDependency (obs_dependency md)
  end.
Definition obs_rock_model (m : brock_model) : brock_model :=
  match m with
  | BRockPolyfit c => BRockPolyfit c
  | BRockFriable f => BRockFriable (obs_friable f)
  | BRockPatchy q => BRockPatchy (obs_patchy q)
  end.
Definition obs_dry_rock (d : bdry_rock) : bdry_rock :=
  mkBDryRock (obs_rock_model (bdr_model d)) (o (bdr_porosity d)) (map obs_adjustment (bdr_adjustments d)).
Definition obs_input (inp : binput) : binput :=
  mkBInput (map (fun c => (obs_mat k i (fst c), obs_option (snd c))) (bi_minerals inp))
    (obs_fluids (bi_fluids inp)) (map obs_option (bi_fluid_fractions inp))
    (obs_dry_rock (bi_dry_rock inp)) (obs_pressure (bi_pressure inp)).
Definition obs_output (r : boutput) : boutput :=
  mkBOutput (o (bo_ksat r)) (o (bo_kmin r)) (o (bo_kdry r)) (o (bo_mysat r)) (o (bo_rsat r)) (o (bo_kmin_fls r)).
End Obs.

Section Sized.
Context (n : nat).
Definition wfo (a : option (arr R)) : Prop := match a with None => True | Some a => wfa n a end.
Definition wf_fluid (f : bfluid_type) : Prop :=
  match f with
  | BArbitrary m => wfm n m
  | BOil a b c | BCondensate a b c => wfa n a /\ wfa n b /\ wfa n c
  | BGas a | BBrine a => wfa n a
  | BCarbonDioxide _ => True
  end.
Definition wf_constituent (c : bconstituent) : Prop := wf_fluid (bc_material c) /\ wfa n (bc_fraction c).
Definition wf_fluids (f : bfluids) : Prop := wfa n (bf_temperature f) /\ Forall wf_constituent (bf_constituents f).
Definition wf_pressure (p : bpressure) : Prop :=
  wfa n (bp_overburden p) /\ wfa n (bp_reference p) /\ wfo (bp_fluid p) /\ wfo (bp_max_effective p) /\ wfo (bp_rock p).
Definition wf_friable (f : bfriable_model) : Prop :=
  wfa n (bfr_critical f) /\ wfa n (bfr_shear_reduction f) /\ wfa n (bfr_coordination f).
Definition wf_patchy (q : bpatchy_model) : Prop :=
  wfm n (bpa_cement q) /\ wfa n (bpa_critical q) /\ wfa n (bpa_cement_fraction q) /\ wfa n (bpa_lower_pressure q) /\
  wfa n (bpa_upper_fraction q) /\ wfa n (bpa_coordination q) /\ wfa n (bpa_shear_reduction q).
Definition wf_dependency (md : bdependency_model) : Prop :=
  match md with BFriable f => wf_friable f | BPatchy q => wf_patchy q | _ => True end.
Definition wf_depth (t : bdepth_trend) : Prop := wfa n (bdt_depth t) /\ wfo (bdt_reference t) /\ wfo (bdt_max t).
Definition wf_adjustment (a : badjustment) : Prop :=
  match a with BDepthTrend t => wf_depth t | BPressureDependency md => wf_dependency md end.
Definition wf_rock_model (m : brock_model) : Prop :=
  match m with BRockPolyfit _ => True | BRockFriable f => wf_friable f | BRockPatchy q => wf_patchy q end.
Definition wf_dry_rock (d : bdry_rock) : Prop :=
  wf_rock_model (bdr_model d) /\ wfa n (bdr_porosity d) /\ Forall wf_adjustment (bdr_adjustments d).
Definition wf_input (inp : binput) : Prop :=
  Forall (fun c => wfm n (fst c) /\ wfo (snd c)) (bi_minerals inp) /\
  wf_fluids (bi_fluids inp) /\ Forall wfo (bi_fluid_fractions inp) /\
  wf_dry_rock (bi_dry_rock inp) /\ wf_pressure (bi_pressure inp).
Definition wf_output (r : boutput) : Prop :=
  wfa n (bo_ksat r) /\ wfa n (bo_kmin r) /\ wfa n (bo_kdry r) /\ wfa n (bo_mysat r) /\ wfa n (bo_rsat r) /\
  wfa n (bo_kmin_fls r).
End Sized.

(** ** Constants and columns that NumPy can combine.  With a column of
    porosities every rock model works; without, no patchy cement and no
    pressure dependency by a rock model.  A column of reference depths needs a
    column of depths. *)
Definition combinable_dependency (porosity : arr R) (md : bdependency_model) : Prop :=
  match md with BFriable _ | BPatchy _ => is_vec porosity = true | _ => True end.
Definition combinable_depth (t : bdepth_trend) : Prop :=
  match bdt_reference t with Some (Vec _) => is_vec (bdt_depth t) = true | _ => True end.
Definition combinable_adjustment (porosity : arr R) (a : badjustment) : Prop :=
  match a with BDepthTrend t => combinable_depth t | BPressureDependency md => combinable_dependency porosity md end.
Definition combinable_rock (porosity : arr R) (m : brock_model) : Prop :=
  match m with BRockPatchy _ => is_vec porosity = true | _ => True end.
Definition combinable (inp : binput) : Prop :=
  combinable_rock (bdr_porosity (bi_dry_rock inp)) (bdr_model (bi_dry_rock inp)) /\
  Forall (combinable_adjustment (bdr_porosity (bi_dry_rock inp))) (bdr_adjustments (bi_dry_rock inp)).

(** ** Row [i] as plain numbers *)
Section Pick.
Context (i : nat).
Definition pick (a : arr R) : R := match a with Sc x => x | Vec l => nth i l 0 end.
Definition pick_option (a : option (arr R)) : option R := option_map pick a.
Definition pick_mat (m : bmat) : material :=
  mkMat (pick (b_bulk m)) (pick (b_shear m)) (pick (b_dens m)) (pick (b_vp m)) (pick (b_vs m)).
Definition pick_fluid (f : bfluid_type) : fluid_type :=
  match f with
  | BArbitrary m => FArbitrary (pick_mat m)
  | BOil a b c => FOil (pick a) (pick b) (pick c)
  | BGas a => FGas (pick a)
  | BBrine a => FBrine (pick a)
  | BCondensate a b c => FCondensate (pick a) (pick b) (pick c)
  | BCarbonDioxide b => FCarbonDioxide b
  end.
Definition pick_constituent (c : bconstituent) : constituent :=
  mk_constituent (pick_fluid (bc_material c)) (pick (bc_fraction c)) (bc_fluid_model c).
Definition pick_fluids (f : bfluids) : fluids :=
  mk_fluids (pick (bf_temperature f)) (map pick_constituent (bf_constituents f)) (bf_mix_method f)
    (bf_brie_constant f) (bf_brie_gases f) (bf_fluid_model f).
Definition pick_pressure (p : bpressure) : pressure :=
  mkPressure (pick (bp_overburden p)) (pick (bp_reference p)) (pick_option (bp_fluid p))
    (pick_option (bp_max_effective p)) (pick_option (bp_rock p)).
Definition pick_friable (f : bfriable_model) : friable_model :=
  mkFriable (pick (bfr_critical f)) (pick (bfr_shear_reduction f)) (pick (bfr_coordination f)).
Definition pick_patchy (q : bpatchy_model) : patchy_model :=
  mkPatchy (pick_mat (bpa_cement q)) (pick (bpa_critical q)) (pick (bpa_cement_fraction q))
    (pick (bpa_lower_pressure q)) (pick (bpa_upper_fraction q)) (pick (bpa_coordination q))
    (pick (bpa_shear_reduction q)).
Definition pick_dependency (md : bdependency_model) : dependency_model :=
  match md with
  | BPolyfit c => Polyfit c
  | BExpfit c => Expfit c
  | BLogfit c => Logfit c
  | BPowerfit d b v => Powerfit d b v
  | BFriable f => Friable (pick_friable f)
  | BPatchy q => Patchy (pick_patchy q)
  end.
Definition pick_adjustment (a : badjustment) : adjustment :=
  match a with
  | BDepthTrend t => DepthTrend (mkDepth (pick (bdt_depth t)) (bdt_coefficients t)
                                   (pick_option (bdt_reference t)) (pick_option (bdt_max t)))
  | BPressureDependency md => PressureDependency (pick_dependency md)
  end.
Definition pick_rock_model (m : brock_model) : rock_model :=
  match m with
  | BRockPolyfit c => RockPolyfit c
  | BRockFriable f => RockFriable (pick_friable f)
  | BRockPatchy q => RockPatchy (pick_patchy q)
  end.
Definition pick_dry_rock (d : bdry_rock) : dry_rock :=
  mkDryRock (pick_rock_model (bdr_model d)) (pick (bdr_porosity d)) (map pick_adjustment (bdr_adjustments d)).
Definition pick_input (inp : binput) : row_input :=
  mkInput (map (fun c => (pick_mat (fst c), pick_option (snd c))) (bi_minerals inp))
    (pick_fluids (bi_fluids inp)) (map pick_option (bi_fluid_fractions inp))
    (pick_dry_rock (bi_dry_rock inp)) (pick_pressure (bi_pressure inp)).
End Pick.

(** ** The stages of one row.  The materials a row is made of: the mixed
    mineral, the mixed fluid, the dry rock and the rock without pores. *)
Definition row_parts (co2 : equation_of_state) (inp : row_input) (mineral fl dry dense : material) : Prop :=
  exists ms fls p,
    minerals (i_minerals inp) = Ok ms /\ minerals_as_mixture ms = Ok mineral /\
    complete_fluids (i_fluids inp) (i_fluid_fractions inp) = Ok fls /\ p_fluid (i_pressure inp) = Some p /\
    fst (as_mixture co2 fls p) = Ok fl /\
    dry_rock_material (i_dry_rock inp) mineral (i_pressure inp) = Ok dry /\
    nonporous (i_dry_rock inp) mineral = Ok dense.

(** Two configurations with the same values in each of n rows; they differ in
    which values are constants and which are columns. *)
Definition same_values (n : nat) (inp inp' : binput) : Prop :=
  forall i, (i < n)%nat -> pick_input i inp = pick_input i inp'.
