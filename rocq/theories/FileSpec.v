(** Vocabulary for configuration files: what is written in them and what that
    means for a row of the data. *)
From Coq Require Import String List ZArith.
From Verif Require Import Base MaterialModel ConfigModel FluidsModel InputModel RowModel ReadModel AppModel.
Import ListNotations.
Open Scope R_scope.

(* ------------------------------------------------------------------ *)
(** ** The file *)

(** A value given per row: a number, or the name of a column of the data. *)
Inductive given : Type := Number (x : R) | Column (name : string).
Definition write_given (g : given) : value :=
  match g with Number x => VNum x | Column s => VDict [("column"%string, VStr s)] end.

(** Numbers, lists and matrices. *)
Definition write_nd (x : nd) : value :=
  match x with
  | N0 x => VNum x
  | N1 l => VList (map VNum l)
  | NCol l => VArray l
  | N2 rows => VList (map (fun r => VList (map VNum r)) rows)
  end.
Definition or_null {A} (f : A -> value) (o : option A) : value := match o with None => VNull | Some a => f a end.

Definition write_provider (p : provider) : value :=
  VStr match p with BatzleWang => "batzle_wang" | SpanWagner => "span_wagner" end.
Definition write_mix_method (m : mix_method) : value := VStr match m with Wood => "wood" | Brie => "brie" end.
Definition write_coefficients (c : coefficients nd) : value :=
  let n := or_null write_nd in
  VDict match c_flavour c with
        | Moduli => [("density", n (c_density c)); ("bulk_modulus", n (c_primary c)); ("shear_modulus", n (c_secondary c))]
        | Velocity => [("density", n (c_density c)); ("primary_velocity", n (c_primary c));
                       ("secondary_velocity", n (c_secondary c))]
        end%string.

Section Write.
Context {X : Type} (w : X -> value).
Notation n := (or_null w).
Definition write_arbitrary (a : arbitrary X) : value :=
  VDict [("type", VStr "material"); ("density", w (a_density a)); ("bulk_modulus", n (a_bulk a));
         ("shear_modulus", n (a_shear a)); ("primary_velocity", n (a_vp a));
         ("secondary_velocity", n (a_vs a))]%string.
Definition write_material (m : material_cfg X) : value :=
  match m with
  | MArbitrary a => write_arbitrary a
  | MGas g => VDict [("type", VStr "gas"); ("gas_gravity", w g)]
  | MOil r rg g => VDict [("type", VStr "oil"); ("reference_density", w r); ("gas_oil_ratio", w rg); ("gas_gravity", w g)]
  | MBrine s => VDict [("type", VStr "brine"); ("salinity", w s)]
  | MCondensate r rg g =>
      VDict [("type", VStr "condensate"); ("oil_reference_density", w r); ("gas_oil_ratio", w rg); ("gas_gravity", w g)]
  | MCarbonDioxide i => VDict [("type", VStr "carbon_dioxide"); ("interpolate_density", VBool i)]
  end%string.
Definition write_constituent (c : constituent_cfg X) : value :=
  VDict [("material", write_material (k_material c)); ("fraction", n (k_fraction c));
         ("fluid_model", or_null write_provider (k_fluid_model c))]%string.
Definition write_minerals (cs : list (constituent_cfg X)) : value :=
  VDict [("constituents"%string, VList (map write_constituent cs))].
Definition write_fluids (f : fluids_cfg X) : value :=
  VDict [("temperature", w (fc_temperature f)); ("constituents", VList (map write_constituent (fc_constituents f)));
         ("mix_method", write_mix_method (fc_mix_method f)); ("brie_constant", write_nd (fc_brie_constant f));
         ("brie_gases", or_null (fun l => VList (map write_nd l)) (fc_brie_gases f));
         ("fluid_model", write_provider (fc_fluid_model f))]%string.
Definition write_friable (f : friable_cfg X) : value :=
  VDict [("type", VStr "friable_sand"); ("critical_porosity", w (fr_critical f));
         ("shear_reduction", w (fr_shear_reduction f)); ("coordination_number", n (fr_coordination f))]%string.
Definition write_patchy (p : patchy_cfg X) : value :=
  VDict [("type", VStr "patchy_cement"); ("cement", write_arbitrary (pc_cement p)); ("critical_porosity", w (pc_critical p));
         ("cement_fraction", w (pc_cement_fraction p)); ("lower_bound_pressure", w (pc_lower_pressure p));
         ("upper_bound_cement_fraction", w (pc_upper_fraction p)); ("coordination_number", n (pc_coordination p));
         ("shear_reduction", w (pc_shear_reduction p))]%string.
Definition write_dependency (m : dependency_cfg X) : value :=
  match m with
  | DPatchy p => write_patchy p
  | DFriable f => write_friable f
  | DPowerfit d b r =>
      VDict [("type", VStr "powerfit");
             ("coefficients", VDict [("density", or_null write_nd d); ("bulk_modulus", or_null write_nd b);
                                     ("vp_over_vs", or_null write_nd r)])]
  | DLogfit c => VDict [("type", VStr "logfit"); ("coefficients", write_coefficients c)]
  | DPolyfit c => VDict [("type", VStr "polyfit"); ("coefficients", write_coefficients c)]
  | DExpfit c => VDict [("type", VStr "expfit"); ("coefficients", write_coefficients c)]
  end%string.
Definition write_sandstone (m : sandstone_cfg X) : value :=
  match m with
  | SPatchy p => write_patchy p
  | SFriable f => write_friable f
  | SPolyfit c => VDict [("type", VStr "polyfit"); ("coefficients", or_null write_coefficients c)]
  end%string.
Definition write_adjustment (a : adjustment_cfg X) : value :=
  match a with
  | ADepthTrend d c r m =>
      VDict [("type", VStr "depth_trend"); ("depth", w d); ("coefficients", write_coefficients c);
             ("reference_depth", n r); ("max_depth", n m)]
  | APressureDependency m => VDict [("type", VStr "pressure_dependency"); ("model", write_dependency m)]
  end%string.
Definition write_dry_rock (d : dry_rock_cfg X) : value :=
  VDict [("model", write_sandstone (dc_model d)); ("porosity", w (dc_porosity d));
         ("adjustments", VList (map write_adjustment (dc_adjustments d)))]%string.
Definition write_pressure (p : pressure_cfg X) : value :=
  VDict [("overburden", w (pr_overburden p)); ("reference", w (pr_reference p)); ("fluid", n (pr_fluid p));
         ("max_effective", n (pr_max_effective p)); ("rock", n (pr_rock p))]%string.
Definition write_config (c : config X) : list (string * value) :=
  [("minerals", write_minerals (cf_minerals c)); ("fluids", write_fluids (cf_fluids c));
   ("dry_rock", write_dry_rock (cf_dry_rock c)); ("pressure", write_pressure (cf_pressure c))]%string.
End Write.

(** A file whose values per row are numbers and column names. *)
Definition file (c : config given) : list (string * value) := write_config write_given c.

(* ------------------------------------------------------------------ *)
(** ** What can be written *)

(** Each material has one of shear modulus and secondary velocity, and one of
    bulk modulus and primary velocity. *)
Definition two_properties {X} (a : arbitrary X) : Prop :=
  (a_shear a <> None \/ a_vs a <> None) /\ (a_bulk a <> None \/ a_vp a <> None).
Definition of_material {X} (m : material_cfg X) : Prop := match m with MArbitrary a => two_properties a | _ => True end.
Definition of_constituents {X} (cs : list (constituent_cfg X)) : Prop :=
  cs <> [] /\ Forall (fun c => of_material (k_material c)) cs.
(** Coefficients are numbers, lists, or matrices with rows of equal length. *)
Definition rectangular (x : nd) : Prop :=
  match x with
  | N0 _ | N1 _ => True
  | N2 rows => exists r rest, rows = r :: rest /\ Forall (fun r' => List.length r' = List.length r) rest
  | NCol _ => False
  end.
Definition given_opt (P : nd -> Prop) (o : option nd) : Prop := match o with None => True | Some x => P x end.
Definition of_coefficients (c : coefficients nd) : Prop :=
  given_opt rectangular (c_density c) /\ given_opt rectangular (c_primary c) /\ given_opt rectangular (c_secondary c).
Definition number (x : nd) : Prop := exists y, x = N0 y.
Definition of_fluids {X} (f : fluids_cfg X) : Prop :=
  of_constituents (fc_constituents f) /\ number (fc_brie_constant f) /\
  match fc_brie_gases f with None => True | Some l => Forall number l end.
Definition of_patchy {X} (p : patchy_cfg X) : Prop := two_properties (pc_cement p).
Definition of_dependency {X} (m : dependency_cfg X) : Prop :=
  match m with
  | DPatchy p => of_patchy p
  | DFriable _ => True
  | DPowerfit d b r => given_opt rectangular d /\ given_opt rectangular b /\ given_opt rectangular r
  | DLogfit c | DPolyfit c | DExpfit c => of_coefficients c
  end.
Definition of_sandstone {X} (m : sandstone_cfg X) : Prop :=
  match m with SPatchy p => of_patchy p | SPolyfit (Some c) => of_coefficients c | _ => True end.
Definition of_adjustment {X} (a : adjustment_cfg X) : Prop :=
  match a with ADepthTrend _ c _ _ => of_coefficients c | APressureDependency m => of_dependency m end.
Definition writable {X} (c : config X) : Prop :=
  of_constituents (cf_minerals c) /\ of_fluids (cf_fluids c) /\ of_sandstone (dc_model (cf_dry_rock c)) /\
  Forall of_adjustment (dc_adjustments (cf_dry_rock c)).

(** The columns named are in the data. *)
Definition known (header : list string) (g : given) : Prop :=
  match g with Number _ => True | Column s => In s header end.

(* ------------------------------------------------------------------ *)
(** ** The values in a row of the data *)

Fixpoint value_in (header : list string) (cells : list R) (name : string) : R :=
  match header with
  | [] => 0
  | h :: header' => if String.eqb h name then hd 0 cells else value_in header' (tl cells) name
  end.
Definition of_row (header : list string) (r : row) (g : given) : R :=
  match g with Number x => x | Column s => value_in header (snd r) s end.
Section AtRow.
Context (v : given -> R).
Notation o := (option_map v).
Definition at_arbitrary (a : arbitrary given) : arbitrary R :=
  mkArbitrary (v (a_density a)) (o (a_bulk a)) (o (a_shear a)) (o (a_vs a)) (o (a_vp a)).
Definition at_constituent (k : constituent_cfg given) : constituent_cfg R :=
  mkConstituent
    match k_material k with
    | MArbitrary a => MArbitrary (at_arbitrary a)
    | MGas g => MGas (v g)
    | MOil r rg g => MOil (v r) (v rg) (v g)
    | MBrine s => MBrine (v s)
    | MCondensate r rg g => MCondensate (v r) (v rg) (v g)
    | MCarbonDioxide i => MCarbonDioxide i
    end (o (k_fraction k)) (k_fluid_model k).
Definition at_fluids (f : fluids_cfg given) : fluids_cfg R :=
  mkFluidsCfg (v (fc_temperature f)) (map at_constituent (fc_constituents f)) (fc_mix_method f) (fc_brie_constant f)
    (fc_brie_gases f) (fc_fluid_model f).
Definition at_friable (f : friable_cfg given) : friable_cfg R :=
  mkFriableCfg (v (fr_critical f)) (v (fr_shear_reduction f)) (o (fr_coordination f)).
Definition at_patchy (p : patchy_cfg given) : patchy_cfg R :=
  mkPatchyCfg (at_arbitrary (pc_cement p)) (v (pc_critical p)) (v (pc_cement_fraction p)) (v (pc_lower_pressure p))
    (v (pc_upper_fraction p)) (o (pc_coordination p)) (v (pc_shear_reduction p)).
Definition at_sandstone (m : sandstone_cfg given) : sandstone_cfg R :=
  match m with
  | SPatchy p => SPatchy (at_patchy p)
  | SFriable f => SFriable (at_friable f)
  | SPolyfit c => SPolyfit c
  end.
Definition at_dependency (m : dependency_cfg given) : dependency_cfg R :=
  match m with
  | DPatchy p => DPatchy (at_patchy p)
  | DFriable f => DFriable (at_friable f)
  | DPowerfit d b r => DPowerfit d b r
  | DLogfit c => DLogfit c
  | DPolyfit c => DPolyfit c
  | DExpfit c => DExpfit c
  end.
Definition at_adjustment (a : adjustment_cfg given) : adjustment_cfg R :=
  match a with
  | ADepthTrend d c r m => ADepthTrend (v d) c (o r) (o m)
  | APressureDependency m => APressureDependency (at_dependency m)
  end.
End AtRow.
Definition config_of_row (header : list string) (c : config given) (r : row) : config R :=
  let v := of_row header r in
  mkConfig (map (at_constituent v) (cf_minerals c)) (at_fluids v (cf_fluids c))
    (mkDryRockCfg (at_sandstone v (dc_model (cf_dry_rock c))) (v (dc_porosity (cf_dry_rock c)))
       (map (at_adjustment v) (dc_adjustments (cf_dry_rock c))))
    (mkPressureCfg (v (pr_overburden (cf_pressure c))) (v (pr_reference (cf_pressure c))) (option_map v (pr_fluid (cf_pressure c)))
       (option_map v (pr_max_effective (cf_pressure c))) (option_map v (pr_rock (cf_pressure c)))).

(** Constants and columns that NumPy can combine (compare [combinable]). *)
Definition a_column (g : given) : Prop := match g with Column _ => True | Number _ => False end.
Definition combines_rock (porosity : given) (m : sandstone_cfg given) : Prop :=
  match m with SPatchy _ => a_column porosity | _ => True end.
Definition combines_adjustment (porosity : given) (a : adjustment_cfg given) : Prop :=
  match a with
  | ADepthTrend d _ (Some (Column _)) _ => a_column d
  | APressureDependency (DPatchy _ | DFriable _) => a_column porosity
  | _ => True
  end.
Definition combines (c : config given) : Prop :=
  combines_rock (dc_porosity (cf_dry_rock c)) (dc_model (cf_dry_rock c)) /\
  Forall (combines_adjustment (dc_porosity (cf_dry_rock c))) (dc_adjustments (cf_dry_rock c)).

(* ------------------------------------------------------------------ *)
(** ** The meaning of a configuration of numbers *)

(** Missing moduli from velocities and density, missing velocities from moduli
    and density. *)
Definition means_material (a : arbitrary R) (m : material) : Prop :=
  dens m = a_density a /\
  match a_shear a with
  | Some mu => shear m = mu
  | None => exists s, a_vs a = Some s /\ shear m = s ^ 2 * dens m
  end /\
  match a_bulk a with
  | Some k => bulk m = k
  | None => exists p, a_vp a = Some p /\ bulk m = p ^ 2 * dens m - 4 / 3 * shear m
  end /\
  match a_vp a with
  | Some p => vp m = p
  | None => dens m <> 0 /\ 0 <= (bulk m + 4 / 3 * shear m) / dens m /\ vp m = sqrt ((bulk m + 4 / 3 * shear m) / dens m)
  end /\
  match a_vs a with
  | Some s => vs m = s
  | None => dens m <> 0 /\ 0 <= shear m / dens m /\ vs m = sqrt (shear m / dens m)
  end.

Inductive means_fluid : material_cfg R -> fluid_type -> Prop :=
  | means_arbitrary : forall a m, means_material a m -> means_fluid (MArbitrary a) (FArbitrary m)
  | means_gas : forall g, means_fluid (MGas g) (FGas g)
  | means_oil : forall r rg g, means_fluid (MOil r rg g) (FOil r rg g)
  | means_brine : forall s, means_fluid (MBrine s) (FBrine s)
  | means_condensate : forall r rg g, means_fluid (MCondensate r rg g) (FCondensate r rg g)
  | means_carbon_dioxide : forall i, means_fluid (MCarbonDioxide i) (FCarbonDioxide i).

(** A fraction that is not given is found later; 0 holds its place. *)
Definition means_constituent (k : constituent_cfg R) (c : constituent) : Prop :=
  means_fluid (k_material k) (c_material c) /\ c_fluid_model c = k_fluid_model k /\
  c_fraction c = match k_fraction k with None => 0 | Some x => x end.
(** Minerals have elastic moduli of their own. *)
Definition means_mineral (k : constituent_cfg R) (m : material * option R) : Prop :=
  snd m = k_fraction k /\ exists a, k_material k = MArbitrary a /\ means_material a (fst m).

(** The integer nearest to [y] on the side of zero. *)
Definition towards_zero (y : R) (z : Z) : Prop :=
  (0 <= y -> IZR z <= y < IZR z + 1) /\ (y <= 0 -> IZR z - 1 < y <= IZR z).
(** Where gases and carbon dioxide stand in the list. *)
Definition gases_at (cs : list (constituent_cfg R)) : list Z :=
  map Z.of_nat (filter (fun i => match option_map k_material (nth_error cs i) with
                                 | Some (MGas _) | Some (MCarbonDioxide _) => true
                                 | _ => false
                                 end) (seq 0 (List.length cs))).
Definition means_fluids (f : fluids_cfg R) (g : fluids) : Prop :=
  f_temperature g = fc_temperature f /\ Forall2 means_constituent (fc_constituents f) (f_constituents g) /\
  f_mix_method g = fc_mix_method f /\ fc_brie_constant f = N0 (f_brie_constant g) /\
  match fc_brie_gases f with
  | None => f_brie_gases g = gases_at (fc_constituents f)
  | Some l => Forall2 (fun x z => exists y, x = N0 y /\ towards_zero y z) l (f_brie_gases g)
  end /\
  f_fluid_model g = fc_fluid_model f.

(** Coefficients of a polynomial in two variables: a number is a constant, a
    list is a polynomial in the first variable. *)
Definition in_two_variables (x : nd) : list (list R) :=
  match x with N0 x => [[x]] | N1 l | NCol l => map (fun a => [a]) l | N2 rows => rows end.
Definition two_variables (c : coefficients nd) : coefficients (list (list R)) :=
  let m := option_map in_two_variables in mkCoef (c_flavour c) (m (c_density c)) (m (c_primary c)) (m (c_secondary c)).
(** Coefficients not given for a rock. *)
Definition default_moduli : coefficients (list (list R)) :=
  mkCoef Moduli (Some [[0; 0]; [1; -1]]) (Some [[2900; -1300]]) (Some [[1700; -800]]).
Definition default_velocities : coefficients (list (list R)) :=
  mkCoef Velocity (Some [[0; 0]; [1; -1]]) (Some [[20; -40]]) (Some [[12; -20]]).
Definition if_none {A} (o d : option A) : option A := match o with None => d | Some _ => o end.
Definition with_defaults (c d : coefficients (list (list R))) : coefficients (list (list R)) :=
  mkCoef (c_flavour c) (if_none (c_density c) (c_density d)) (if_none (c_primary c) (c_primary d))
    (if_none (c_secondary c) (c_secondary d)).
Definition rock_coefficients (c : option (coefficients nd)) : coefficients (list (list R)) :=
  match c with
  | None => default_moduli
  | Some c => with_defaults (two_variables c) match c_flavour c with Moduli => default_moduli | Velocity => default_velocities end
  end.
(** Coefficients of a function of one variable are lists. *)
Definition in_one_variable (x : option nd) (l : option (list R)) : Prop :=
  match x, l with None, None => True | Some (N1 a), Some b => a = b | _, _ => False end.
Definition one_variable (c : coefficients nd) (d : coefficients (list R)) : Prop :=
  c_flavour d = c_flavour c /\ in_one_variable (c_density c) (c_density d) /\
  in_one_variable (c_primary c) (c_primary d) /\ in_one_variable (c_secondary c) (c_secondary d).

(** Murphy's coordination number, if none is given. *)
Definition murphy (phi : R) : R := 2598805 / 100000 * phi ^ 2 - 437622 / 10000 * phi + 216719 / 10000.
Definition or_murphy (o : option R) (phi : R) : R := match o with Some n => n | None => murphy phi end.
Definition means_friable (f : friable_cfg R) : friable_model :=
  mkFriable (fr_critical f) (fr_shear_reduction f) (or_murphy (fr_coordination f) (fr_critical f)).
Definition means_patchy (p : patchy_cfg R) (q : patchy_model) : Prop :=
  means_material (pc_cement p) (pa_cement q) /\ pa_critical q = pc_critical p /\
  pa_cement_fraction q = pc_cement_fraction p /\ pa_lower_pressure q = pc_lower_pressure p /\
  pa_upper_fraction q = pc_upper_fraction p /\ pa_coordination q = or_murphy (pc_coordination p) (pc_critical p) /\
  pa_shear_reduction q = pc_shear_reduction p.
Inductive means_dependency : dependency_cfg R -> dependency_model -> Prop :=
  | means_by_patchy : forall p q, means_patchy p q -> means_dependency (DPatchy p) (Patchy q)
  | means_by_friable : forall f, means_dependency (DFriable f) (Friable (means_friable f))
  | means_powerfit : forall d b r d' b' r', in_one_variable d d' -> in_one_variable b b' -> in_one_variable r r' ->
      means_dependency (DPowerfit d b r) (Powerfit d' b' r')
  | means_logfit : forall c c', one_variable c c' -> means_dependency (DLogfit c) (Logfit c')
  | means_polyfit : forall c c', one_variable c c' -> means_dependency (DPolyfit c) (Polyfit c')
  | means_expfit : forall c c', one_variable c c' -> means_dependency (DExpfit c) (Expfit c').
Inductive means_rock : sandstone_cfg R -> rock_model -> Prop :=
  | means_rock_patchy : forall p q, means_patchy p q -> means_rock (SPatchy p) (RockPatchy q)
  | means_rock_friable : forall f, means_rock (SFriable f) (RockFriable (means_friable f))
  | means_rock_polyfit : forall c, means_rock (SPolyfit c) (RockPolyfit (rock_coefficients c)).
Inductive means_adjustment : adjustment_cfg R -> adjustment -> Prop :=
  | means_depth_trend : forall d c r m,
      means_adjustment (ADepthTrend d c r m) (DepthTrend (mkDepth d (two_variables c) r m))
  | means_pressure_dependency : forall m m', means_dependency m m' ->
      means_adjustment (APressureDependency m) (PressureDependency m').
Definition means_dry_rock (c : dry_rock_cfg R) (d : dry_rock) : Prop :=
  means_rock (dc_model c) (dr_model d) /\ dr_porosity d = dc_porosity c /\
  Forall2 means_adjustment (dc_adjustments c) (dr_adjustments d).

(** Of fluid and rock pressure either may be missing; it is the other then. *)
Definition means_pressure (c : pressure_cfg R) : pressure :=
  mkPressure (pr_overburden c) (pr_reference c) (if_none (pr_fluid c) (pr_rock c)) (pr_max_effective c)
    (if_none (pr_rock c) (pr_fluid c)).

Definition means (c : config R) (i : row_input) : Prop :=
  Forall2 means_mineral (cf_minerals c) (i_minerals i) /\ means_fluids (cf_fluids c) (i_fluids i) /\
  i_fluid_fractions i = map k_fraction (fc_constituents (cf_fluids c)) /\
  means_dry_rock (cf_dry_rock c) (i_dry_rock i) /\ i_pressure i = means_pressure (cf_pressure c).

(** The output for a configuration of numbers. *)
Definition gives_output (co2 : equation_of_state) (c : config R) (o : output_row) : Prop :=
  exists i, means c i /\ calculate_row co2 i = Ok o.
