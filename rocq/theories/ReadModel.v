(** Model of how a configuration file becomes an Input object: config/*.py
    read by pydantic 1 ([parse_obj_as(Input, config)], __main__.py:127, 141).

    What is modelled of pydantic: a dataclass is built from a mapping (keyword
    arguments) or from a list (positional arguments), unknown keys and missing
    required fields are errors, a union takes the first alternative that does
    not fail, defaults are used for keys that are not there, null is accepted
    for Optional fields only.  ValueError, TypeError and AssertionError raised
    inside are all turned into one ValidationError, so they are one error here
    ([ValueError]).

    [Err OtherError] and [Err NonFinite] mark inputs outside this model (arrays
    of three and more dimensions, columns of different lengths, nan); the
    theorems about refused configurations never rest on them. *)
From Coq Require Import String Ascii List ZArith.
From Verif Require Import Base MaterialModel MineralsModel ConfigModel FluidsModel InputModel RowModel.
Import ListNotations.
Open Scope R_scope.

(* ------------------------------------------------------------------ *)
(** ** Numbers and arrays *)

(** What [np.array(val, dtype=float)] gives: a number, a list written in the
    configuration, a column of the data file, a matrix. *)
Inductive nd : Type :=
  | N0 (x : R)
  | N1 (l : list R)
  | NCol (l : list R)
  | N2 (rows : list (list R)).

(** Python's [float(s)] and [int(s)] on strings ("36.8e9" is a string for
    YAML 1.1) are parameters. *)
Record strings : Type := mkStrings {
  float_of : string -> option R;
  int_of : string -> option Z }.

Definition get_or_fail {A} (o : option A) : res A :=
  match o with Some a => Ok a | None => Err ValueError end.

(** One element of an array of floats; None becomes nan. *)
Definition cell (st : strings) (v : value) : res R :=
  match v with
  | VNum x => Ok x
  | VBool b => Ok (if b then 1 else 0)
  | VStr s => get_or_fail (float_of st s)
  | VNull => Err NonFinite
  | _ => Err ValueError
  end.

Definition is_scalar (v : value) : bool :=
  match v with VNum _ | VBool _ | VStr _ | VNull => true | _ => false end.
Definition is_row (v : value) : bool :=
  match v with VList _ | VArray _ => true | _ => false end.

(** A row of a matrix. *)
Definition matrix_row (st : strings) (v : value) : res (list R) :=
  match v with
  | VArray l => Ok l
  | VList l => if forallb is_scalar l then sequence (map (cell st) l) else Err OtherError
  | _ => Err ValueError
  end.

Definition same_lengths {A} (rows : list (list A)) : bool :=
  match rows with
  | [] => true
  | r :: rest => forallb (fun r' => Nat.eqb (List.length r') (List.length r)) rest
  end.

(** vector_type.py:16-30 for [Array[float]] (no shape is given anywhere). *)
Definition np_array (st : strings) (v : value) : res nd :=
  match v with
  | VNum _ | VBool _ | VStr _ => let* x := cell st v in Ok (N0 x)
  | VArray l => Ok (NCol l)
  | VList l =>
      if forallb is_scalar l then let* r := sequence (map (cell st) l) in Ok (N1 r)
      else if forallb is_row l then
        let* rows := sequence (map (matrix_row st) l) in
        if same_lengths rows then Ok (N2 rows) else Err ValueError
      else Err ValueError
  | VFrame _ => Err OtherError
  | VNull | VDict _ => Err ValueError
  end.

(** A [float] field: [float(v)], which also takes an array of one element. *)
Definition read_float (st : strings) (v : value) : res nd :=
  match v with
  | VNum _ | VBool _ | VStr _ => let* x := cell st v in Ok (N0 x)
  | VArray l => Ok (NCol l)
  | _ => Err ValueError
  end.
Definition float_value (x : nd) : res R :=
  match x with
  | N0 x => Ok x
  | NCol [x] => Ok x
  | _ => Err ValueError
  end.

(** An [int] field: [int(v)] truncates towards zero. *)
Definition truncate (x : R) : Z :=
  if Rle_dec 0 x then Int_part x else (- Int_part (- x))%Z.
Definition read_int (st : strings) (v : value) : res nd :=
  match v with
  | VNum x => Ok (N0 x)
  | VBool b => Ok (N0 (if b then 1 else 0))
  | VStr s => let* z := get_or_fail (int_of st s) in Ok (N0 (IZR z))
  | VArray l => Ok (NCol l)
  | _ => Err ValueError
  end.
Definition int_value (x : nd) : res Z := let* x := float_value x in Ok (truncate x).

Definition lower_ascii (c : ascii) : ascii :=
  let n := nat_of_ascii c in
  if andb (Nat.leb 65 n) (Nat.leb n 90) then ascii_of_nat (n + 32) else c.
Fixpoint lower (s : string) : string :=
  match s with EmptyString => EmptyString | String c s' => String (lower_ascii c) (lower s') end.

(** A [bool] field. *)
Definition read_bool (v : value) : res bool :=
  match v with
  | VBool b => Ok b
  | VNum x => if Req_EM_T x 1 then Ok true else if Req_EM_T x 0 then Ok false else Err ValueError
  | VStr s =>
      if existsb (String.eqb (lower s)) ["1"; "on"; "t"; "true"; "y"; "yes"]%string then Ok true
      else if existsb (String.eqb (lower s)) ["0"; "off"; "f"; "false"; "n"; "no"]%string then Ok false
      else Err ValueError
  | _ => Err ValueError
  end.

(* ------------------------------------------------------------------ *)
(** ** Dataclasses, unions, literals *)

(** [cls( **v )] or [cls( *v )]; [extra = "forbid"] (pydantic_config.py:1-5). *)
Definition arguments (names : list string) (v : value) : res (list (string * value)) :=
  match v with
  | VDict items =>
      if forallb (fun kv => existsb (String.eqb (fst kv)) names) items then Ok items else Err ValueError
  | VList l => if Nat.leb (List.length l) (List.length names) then Ok (combine names l) else Err ValueError
  | _ => Err ValueError
  end.

Fixpoint get (items : list (string * value)) (name : string) : option value :=
  match items with
  | [] => None
  | (k, v) :: items' => if String.eqb k name then Some v else get items' name
  end.

Definition required {A} (read : value -> res A) (items : list (string * value)) (name : string) : res A :=
  match get items name with Some v => read v | None => Err ValueError end.
Definition default {A} (d : A) (read : value -> res A) (items : list (string * value)) (name : string) : res A :=
  match get items name with Some v => read v | None => Ok d end.
(** [Optional[...] = None] *)
Definition nullable {A} (read : value -> res A) (v : value) : res (option A) :=
  match v with VNull => Ok None | _ => let* a := read v in Ok (Some a) end.
Definition optional {A} (read : value -> res A) := default None (nullable read).

(** [Literal[s] = s] *)
Definition literal (s : string) (v : value) : res unit :=
  match v with VStr t => if String.eqb s t then Ok tt else Err ValueError | _ => Err ValueError end.
Definition type_is (s : string) (items : list (string * value)) : res unit := default tt (literal s) items "type".

(** [Union[...]]: the first alternative that does not fail. *)
Fixpoint first_of {A} (l : list (value -> res A)) (v : value) : res A :=
  match l with
  | [] => Err ValueError
  | f :: l' =>
      match f v with
      | Ok a => Ok a
      | Err ValueError => first_of l' v
      | Err e => Err e
      end
  end.
Definition rmap {A B} (f : A -> B) (r : res A) : res B := match r with Ok a => Ok (f a) | Err e => Err e end.
Definition reads {A B} (f : A -> B) (read : value -> res A) (v : value) : res B := rmap f (read v).

Definition list_of {A} (read : value -> res A) (v : value) : res (list A) :=
  match v with VList l => sequence (map read l) | _ => Err ValueError end.
(** [conlist(..., min_items=1)] *)
Definition nonempty_list_of {A} (read : value -> res A) (v : value) : res (list A) :=
  let* l := list_of read v in
  match l with [] => Err ValueError | _ => Ok l end.

(* ------------------------------------------------------------------ *)
(** ** The sections of a configuration.  [X] is the type of the values given
    per row: [nd] as read, [arr R] once they are known to be constants and
    columns. *)

(** material_type.py:17-24 *)
Record arbitrary (X : Type) : Type := mkArbitrary {
  a_density : X;
  a_bulk : option X;
  a_shear : option X;
  a_vs : option X;
  a_vp : option X }.
Arguments mkArbitrary {X}. Arguments a_density {X}. Arguments a_bulk {X}. Arguments a_shear {X}.
Arguments a_vs {X}. Arguments a_vp {X}.

(** material_type.py:121-128 *)
Inductive material_cfg (X : Type) : Type :=
  | MArbitrary (a : arbitrary X)
  | MGas (gas_gravity : X)
  | MOil (reference_density gas_oil_ratio gas_gravity : X)
  | MBrine (salinity : X)
  | MCondensate (oil_reference_density gas_oil_ratio gas_gravity : X)
  | MCarbonDioxide (interpolate_density : bool).
Arguments MArbitrary {X}. Arguments MGas {X}. Arguments MOil {X}. Arguments MBrine {X}.
Arguments MCondensate {X}. Arguments MCarbonDioxide {X}.

(** constituent.py:20-32 *)
Record constituent_cfg (X : Type) : Type := mkConstituent {
  k_material : material_cfg X;
  k_fraction : option X;
  k_fluid_model : option provider }.
Arguments mkConstituent {X}. Arguments k_material {X}. Arguments k_fraction {X}. Arguments k_fluid_model {X}.

(** fluids.py:35-61 *)
Record fluids_cfg (X : Type) : Type := mkFluidsCfg {
  fc_temperature : X;
  fc_constituents : list (constituent_cfg X);
  fc_mix_method : mix_method;
  fc_brie_constant : nd;
  fc_brie_gases : option (list nd);
  fc_fluid_model : provider }.
Arguments mkFluidsCfg {X}. Arguments fc_temperature {X}. Arguments fc_constituents {X}.
Arguments fc_mix_method {X}. Arguments fc_brie_constant {X}. Arguments fc_brie_gases {X}.
Arguments fc_fluid_model {X}.

(** model.py:208-228 *)
Record friable_cfg (X : Type) : Type := mkFriableCfg {
  fr_critical : X; fr_shear_reduction : X; fr_coordination : option X }.
Arguments mkFriableCfg {X}. Arguments fr_critical {X}. Arguments fr_shear_reduction {X}.
Arguments fr_coordination {X}.

(** model.py:261-290 *)
Record patchy_cfg (X : Type) : Type := mkPatchyCfg {
  pc_cement : arbitrary X; pc_critical : X; pc_cement_fraction : X; pc_lower_pressure : X;
  pc_upper_fraction : X; pc_coordination : option X; pc_shear_reduction : X }.
Arguments mkPatchyCfg {X}. Arguments pc_cement {X}. Arguments pc_critical {X}. Arguments pc_cement_fraction {X}.
Arguments pc_lower_pressure {X}. Arguments pc_upper_fraction {X}. Arguments pc_coordination {X}.
Arguments pc_shear_reduction {X}.

(** model.py:337-344 *)
Inductive dependency_cfg (X : Type) : Type :=
  | DPatchy (p : patchy_cfg X)
  | DFriable (f : friable_cfg X)
  | DPowerfit (density bulk_modulus vp_over_vs : option nd)
  | DLogfit (c : coefficients nd)
  | DPolyfit (c : coefficients nd)
  | DExpfit (c : coefficients nd).
Arguments DPatchy {X}. Arguments DFriable {X}. Arguments DPowerfit {X}. Arguments DLogfit {X}.
Arguments DPolyfit {X}. Arguments DExpfit {X}.

(** model.py:346 *)
Inductive sandstone_cfg (X : Type) : Type :=
  | SPatchy (p : patchy_cfg X)
  | SFriable (f : friable_cfg X)
  | SPolyfit (c : option (coefficients nd)).
Arguments SPatchy {X}. Arguments SFriable {X}. Arguments SPolyfit {X}.

(** depth_trend.py:16-33, pressure_dependency.py:12-29 *)
Inductive adjustment_cfg (X : Type) : Type :=
  | ADepthTrend (depth : X) (c : coefficients nd) (reference max : option X)
  | APressureDependency (m : dependency_cfg X).
Arguments ADepthTrend {X}. Arguments APressureDependency {X}.

(** dry_rock.py:34-55 *)
Record dry_rock_cfg (X : Type) : Type := mkDryRockCfg {
  dc_model : sandstone_cfg X; dc_porosity : X; dc_adjustments : list (adjustment_cfg X) }.
Arguments mkDryRockCfg {X}. Arguments dc_model {X}. Arguments dc_porosity {X}. Arguments dc_adjustments {X}.

(** pressure.py:16-22 *)
Record pressure_cfg (X : Type) : Type := mkPressureCfg {
  pr_overburden : X; pr_reference : X; pr_fluid : option X; pr_max_effective : option X; pr_rock : option X }.
Arguments mkPressureCfg {X}. Arguments pr_overburden {X}. Arguments pr_reference {X}. Arguments pr_fluid {X}.
Arguments pr_max_effective {X}. Arguments pr_rock {X}.

(** input.py:49-55 *)
Record config (X : Type) : Type := mkConfig {
  cf_minerals : list (constituent_cfg X);
  cf_fluids : fluids_cfg X;
  cf_dry_rock : dry_rock_cfg X;
  cf_pressure : pressure_cfg X }.
Arguments mkConfig {X}. Arguments cf_minerals {X}. Arguments cf_fluids {X}. Arguments cf_dry_rock {X}.
Arguments cf_pressure {X}.

(* ------------------------------------------------------------------ *)
(** ** Reading the sections *)
Section Read.
Context (st : strings).
Notation array := (np_array st).
Notation opt_array := (optional (np_array st)).

(** material_type.py:17-27; set_defaults (material.py:153-179) raises
    ValueError if a modulus and its velocity are both missing. *)
Definition read_arbitrary (v : value) : res (arbitrary nd) :=
  let* f := arguments ["density"; "bulk_modulus"; "shear_modulus"; "secondary_velocity"; "primary_velocity"; "type"]%string v in
  let* d := required array f "density" in
  let* b := opt_array f "bulk_modulus" in
  let* s := opt_array f "shear_modulus" in
  let* vs := opt_array f "secondary_velocity" in
  let* vp := opt_array f "primary_velocity" in
  let* _ := type_is "material" f in
  match s, vs, b, vp with
  | None, None, _, _ | _, _, None, None => Err ValueError
  | _, _, _, _ => Ok (mkArbitrary d b s vs vp)
  end.

(** material_type.py:54-57 *)
Definition read_gas (v : value) : res (material_cfg nd) :=
  let* f := arguments ["gas_gravity"; "type"]%string v in
  let* g := required array f "gas_gravity" in
  let* _ := type_is "gas" f in
  Ok (MGas g).

(** material_type.py:33-38 *)
Definition read_oil (v : value) : res (material_cfg nd) :=
  let* f := arguments ["reference_density"; "gas_oil_ratio"; "gas_gravity"; "type"]%string v in
  let* r := required array f "reference_density" in
  let* rg := required array f "gas_oil_ratio" in
  let* g := required array f "gas_gravity" in
  let* _ := type_is "oil" f in
  Ok (MOil r rg g).

(** material_type.py:69-72 *)
Definition read_brine (v : value) : res (material_cfg nd) :=
  let* f := arguments ["salinity"; "type"]%string v in
  let* s := required array f "salinity" in
  let* _ := type_is "brine" f in
  Ok (MBrine s).

(** material_type.py:83-88 *)
Definition read_condensate (v : value) : res (material_cfg nd) :=
  let* f := arguments ["oil_reference_density"; "gas_oil_ratio"; "gas_gravity"; "type"]%string v in
  let* r := required array f "oil_reference_density" in
  let* rg := required array f "gas_oil_ratio" in
  let* g := required array f "gas_gravity" in
  let* _ := type_is "condensate" f in
  Ok (MCondensate r rg g).

(** material_type.py:105-108 *)
Definition read_carbon_dioxide (v : value) : res (material_cfg nd) :=
  let* f := arguments ["type"; "interpolate_density"]%string v in
  let* _ := type_is "carbon_dioxide" f in
  let* i := default true read_bool f "interpolate_density" in
  Ok (MCarbonDioxide i).

(** material_type.py:121-128 *)
Definition read_material : value -> res (material_cfg nd) :=
  first_of [reads MArbitrary read_arbitrary; read_gas; read_oil; read_brine; read_condensate; read_carbon_dioxide].

(** [Literal[tuple(fluid_model_providers.keys())]] (constituent.py:32, fluids.py:61) *)
Definition read_provider (v : value) : res provider :=
  match v with VStr s => provider_named s | _ => Err ValueError end.

(** constituent.py:20-32; the fractions are checked in [build]. *)
Definition read_constituent (v : value) : res (constituent_cfg nd) :=
  let* f := arguments ["material"; "fraction"; "fluid_model"]%string v in
  let* m := required read_material f "material" in
  let* x := opt_array f "fraction" in
  let* p := optional read_provider f "fluid_model" in
  Ok (mkConstituent m x p).

(** minerals.py:18-19, 29-36 *)
Definition default_minerals : list (constituent_cfg nd) :=
  [mkConstituent (MArbitrary (mkArbitrary (N0 2650) (Some (N0 (368 / 10 * 10 ^ 9))) (Some (N0 (44 * 10 ^ 9))) None None))
     (Some (N0 (5 / 10))) None;
   mkConstituent (MArbitrary (mkArbitrary (N0 2650) (Some (N0 (25 * 10 ^ 9))) (Some (N0 (12 * 10 ^ 9))) None None))
     (Some (N0 (5 / 10))) None].
Definition read_minerals (v : value) : res (list (constituent_cfg nd)) :=
  let* f := arguments ["constituents"]%string v in
  default default_minerals (nonempty_list_of read_constituent) f "constituents".

(** fluids.py:24-32, 48-57 *)
Definition default_fluid_constituents : list (constituent_cfg nd) :=
  [mkConstituent (MOil (N0 850) (N0 100) (N0 (7 / 10))) (Some (N0 (3 / 10))) None;
   mkConstituent (MBrine (N0 50000)) (Some (N0 (3 / 10))) None;
   mkConstituent (MGas (N0 (7 / 10))) (Some (N0 (4 / 10))) None].
Definition default_fluids : fluids_cfg nd :=
  mkFluidsCfg (N0 80) default_fluid_constituents Wood (N0 3) None BatzleWang.

(** fluids.py:58 *)
Definition read_mix_method (v : value) : res mix_method :=
  match v with
  | VStr s => if String.eqb s "wood" then Ok Wood else if String.eqb s "brie" then Ok Brie else Err ValueError
  | _ => Err ValueError
  end.

(** fluids.py:35-61 *)
Definition read_fluids_section (v : value) : res (fluids_cfg nd) :=
  let* f := arguments ["temperature"; "constituents"; "mix_method"; "brie_constant"; "brie_gases"; "fluid_model"]%string v in
  let* t := default (N0 80) array f "temperature" in
  let* cs := default default_fluid_constituents (nonempty_list_of read_constituent) f "constituents" in
  let* m := default Wood read_mix_method f "mix_method" in
  let* b := default (N0 3) (read_float st) f "brie_constant" in
  let* g := optional (list_of (read_int st)) f "brie_gases" in
  let* p := default BatzleWang read_provider f "fluid_model" in
  Ok (mkFluidsCfg t cs m b g p).

(** coefficients.py:15-19, 39-43, 64-68 *)
Definition read_moduli (v : value) : res (coefficients nd) :=
  let* f := arguments ["density"; "bulk_modulus"; "shear_modulus"]%string v in
  let* d := opt_array f "density" in
  let* b := opt_array f "bulk_modulus" in
  let* s := opt_array f "shear_modulus" in
  Ok (mkCoef Moduli d b s).
Definition read_velocities (v : value) : res (coefficients nd) :=
  let* f := arguments ["density"; "secondary_velocity"; "primary_velocity"]%string v in
  let* d := opt_array f "density" in
  let* s := opt_array f "secondary_velocity" in
  let* p := opt_array f "primary_velocity" in
  Ok (mkCoef Velocity d p s).
Definition read_ratios (v : value) : res (option nd * option nd * option nd) :=
  let* f := arguments ["density"; "vp_over_vs"; "bulk_modulus"]%string v in
  let* d := opt_array f "density" in
  let* r := opt_array f "vp_over_vs" in
  let* b := opt_array f "bulk_modulus" in
  Ok (d, b, r).
(** coefficients.py:75 *)
Definition read_coefficients : value -> res (coefficients nd) := first_of [read_moduli; read_velocities].

(** model.py:208-223 *)
Definition read_friable (v : value) : res (friable_cfg nd) :=
  let* f := arguments ["critical_porosity"; "shear_reduction"; "coordination_number"; "type"]%string v in
  let* c := default (N0 (4 / 10)) array f "critical_porosity" in
  let* s := default (N0 1) array f "shear_reduction" in
  let* n := opt_array f "coordination_number" in
  let* _ := type_is "friable_sand" f in
  Ok (mkFriableCfg c s n).

(** model.py:255-258 *)
Definition default_cement : arbitrary nd :=
  mkArbitrary (N0 2650) (Some (N0 (368 / 10 * 10 ^ 9))) (Some (N0 (44 * 10 ^ 9))) None None.

(** model.py:261-285 *)
Definition read_patchy (v : value) : res (patchy_cfg nd) :=
  let* f := arguments ["type"; "cement"; "critical_porosity"; "cement_fraction"; "lower_bound_pressure";
                       "upper_bound_cement_fraction"; "coordination_number"; "shear_reduction"]%string v in
  let* _ := type_is "patchy_cement" f in
  let* c := default default_cement read_arbitrary f "cement" in
  let* cr := default (N0 (4 / 10)) array f "critical_porosity" in
  let* cf := default (N0 (4 / 100)) array f "cement_fraction" in
  let* lp := default (N0 (20 * 10 ^ 6)) array f "lower_bound_pressure" in
  let* uf := default (N0 (1 / 10)) array f "upper_bound_cement_fraction" in
  let* n := opt_array f "coordination_number" in
  let* s := default (N0 1) array f "shear_reduction" in
  Ok (mkPatchyCfg c cr cf lp uf n s).

(** model.py:81-84, 102-105, 121-124 *)
Definition read_fit (name : string) (v : value) : res (coefficients nd) :=
  let* f := arguments ["coefficients"; "type"]%string v in
  let* c := required read_coefficients f "coefficients" in
  let* _ := type_is name f in
  Ok c.
(** model.py:139-142 *)
Definition read_powerfit (v : value) : res (dependency_cfg nd) :=
  let* f := arguments ["coefficients"; "type"]%string v in
  let* c := required read_ratios f "coefficients" in
  let* _ := type_is "powerfit" f in
  let '(d, b, r) := c in
  Ok (DPowerfit d b r).
(** model.py:184-187 *)
Definition read_polyfit2d (v : value) : res (sandstone_cfg nd) :=
  let* f := arguments ["coefficients"; "type"]%string v in
  let* c := optional read_coefficients f "coefficients" in
  let* _ := type_is "polyfit" f in
  Ok (SPolyfit c).

(** model.py:337-344 *)
Definition read_dependency : value -> res (dependency_cfg nd) :=
  first_of [reads DPatchy read_patchy; reads DFriable read_friable; read_powerfit;
            reads DLogfit (read_fit "logfit"); reads DPolyfit (read_fit "polyfit"); reads DExpfit (read_fit "expfit")].
(** model.py:346 *)
Definition read_sandstone : value -> res (sandstone_cfg nd) :=
  first_of [reads SPatchy read_patchy; reads SFriable read_friable; read_polyfit2d].

(** depth_trend.py:16-33 *)
Definition read_depth_trend (v : value) : res (adjustment_cfg nd) :=
  let* f := arguments ["depth"; "coefficients"; "type"; "reference_depth"; "max_depth"]%string v in
  let* d := required array f "depth" in
  let* c := required read_coefficients f "coefficients" in
  let* _ := type_is "depth_trend" f in
  let* r := opt_array f "reference_depth" in
  let* m := opt_array f "max_depth" in
  Ok (ADepthTrend d c r m).
(** pressure_dependency.py:12-29 *)
Definition read_pressure_dependency (v : value) : res (adjustment_cfg nd) :=
  let* f := arguments ["model"; "type"]%string v in
  let* m := required read_dependency f "model" in
  let* _ := type_is "pressure_dependency" f in
  Ok (APressureDependency m).

(** dry_rock.py:47-55, 57-65; a polyfit model without coefficients gets those of
    [complete_model] (ConfigModel) when the dry rock is built. *)
Definition default_dry_rock : dry_rock_cfg nd := mkDryRockCfg (SPolyfit None) (N0 (3 / 10)) [].
Definition read_dry_rock (v : value) : res (dry_rock_cfg nd) :=
  let* f := arguments ["model"; "porosity"; "adjustments"]%string v in
  let* m := default (SPolyfit None) read_sandstone f "model" in
  let* p := default (N0 (3 / 10)) array f "porosity" in
  let* l := default [] (list_of (first_of [read_depth_trend; read_pressure_dependency])) f "adjustments" in
  Ok (mkDryRockCfg m p l).

(** pressure.py:16-34 *)
Definition default_pressure : pressure_cfg nd :=
  mkPressureCfg (N0 (100 * 10 ^ 6)) (N0 (30 * 10 ^ 6)) (Some (N0 (70 * 10 ^ 6))) None (Some (N0 (70 * 10 ^ 6))).
Definition other_if_none {A} (a b : option A) : option A := match a with None => b | Some _ => a end.
Definition read_pressure (v : value) : res (pressure_cfg nd) :=
  let* f := arguments ["overburden"; "reference"; "fluid"; "max_effective"; "rock"]%string v in
  let* o := default (N0 (100 * 10 ^ 6)) array f "overburden" in
  let* r := default (N0 (30 * 10 ^ 6)) array f "reference" in
  let* fl := default (Some (N0 (70 * 10 ^ 6))) (nullable array) f "fluid" in
  let* m := opt_array f "max_effective" in
  let* rock := opt_array f "rock" in
  Ok (mkPressureCfg o r (other_if_none fl rock) m (other_if_none rock fl)).

(** input.py:49-55; [data] is the data frame itself or None. *)
Definition read_config (v : value) : res (config nd) :=
  let* f := arguments ["data"; "minerals"; "fluids"; "dry_rock"; "pressure"]%string v in
  let* m := default default_minerals read_minerals f "minerals" in
  let* fl := default default_fluids read_fluids_section f "fluids" in
  let* d := default default_dry_rock read_dry_rock f "dry_rock" in
  let* p := default default_pressure read_pressure f "pressure" in
  Ok (mkConfig m fl d p).
End Read.

(* ------------------------------------------------------------------ *)
(** ** The values given per row *)

(** Apply [f] to the values given per row and [g] to the others (coefficients,
    Brie constant and gases). *)
Section Map.
Context {X Y : Type} (f : X -> Y) (g : nd -> nd).
Notation o := (option_map f).
Definition map_arbitrary (a : arbitrary X) : arbitrary Y :=
  mkArbitrary (f (a_density a)) (o (a_bulk a)) (o (a_shear a)) (o (a_vs a)) (o (a_vp a)).
Definition map_material (m : material_cfg X) : material_cfg Y :=
  match m with
  | MArbitrary a => MArbitrary (map_arbitrary a)
  | MGas a => MGas (f a)
  | MOil a b c => MOil (f a) (f b) (f c)
  | MBrine a => MBrine (f a)
  | MCondensate a b c => MCondensate (f a) (f b) (f c)
  | MCarbonDioxide b => MCarbonDioxide b
  end.
Definition map_constituent (c : constituent_cfg X) : constituent_cfg Y :=
  mkConstituent (map_material (k_material c)) (o (k_fraction c)) (k_fluid_model c).
Definition map_fluids (c : fluids_cfg X) : fluids_cfg Y :=
  mkFluidsCfg (f (fc_temperature c)) (map map_constituent (fc_constituents c)) (fc_mix_method c)
    (g (fc_brie_constant c)) (option_map (map g) (fc_brie_gases c)) (fc_fluid_model c).
Definition map_friable (c : friable_cfg X) : friable_cfg Y :=
  mkFriableCfg (f (fr_critical c)) (f (fr_shear_reduction c)) (o (fr_coordination c)).
Definition map_patchy (c : patchy_cfg X) : patchy_cfg Y :=
  mkPatchyCfg (map_arbitrary (pc_cement c)) (f (pc_critical c)) (f (pc_cement_fraction c)) (f (pc_lower_pressure c))
    (f (pc_upper_fraction c)) (o (pc_coordination c)) (f (pc_shear_reduction c)).
Definition map_coefficients (c : coefficients nd) : coefficients nd :=
  mkCoef (c_flavour c) (option_map g (c_density c)) (option_map g (c_primary c)) (option_map g (c_secondary c)).
Definition map_dependency (c : dependency_cfg X) : dependency_cfg Y :=
  match c with
  | DPatchy p => DPatchy (map_patchy p)
  | DFriable p => DFriable (map_friable p)
  | DPowerfit a b c => DPowerfit (option_map g a) (option_map g b) (option_map g c)
  | DLogfit c => DLogfit (map_coefficients c)
  | DPolyfit c => DPolyfit (map_coefficients c)
  | DExpfit c => DExpfit (map_coefficients c)
  end.
Definition map_sandstone (c : sandstone_cfg X) : sandstone_cfg Y :=
  match c with
  | SPatchy p => SPatchy (map_patchy p)
  | SFriable p => SFriable (map_friable p)
  | SPolyfit c => SPolyfit (option_map map_coefficients c)
  end.
Definition map_adjustment (c : adjustment_cfg X) : adjustment_cfg Y :=
  match c with
  | ADepthTrend d c r m => ADepthTrend (f d) (map_coefficients c) (o r) (o m)
  | APressureDependency m => APressureDependency (map_dependency m)
  end.
Definition map_dry_rock (c : dry_rock_cfg X) : dry_rock_cfg Y :=
  mkDryRockCfg (map_sandstone (dc_model c)) (f (dc_porosity c)) (map map_adjustment (dc_adjustments c)).
Definition map_pressure (c : pressure_cfg X) : pressure_cfg Y :=
  mkPressureCfg (f (pr_overburden c)) (f (pr_reference c)) (o (pr_fluid c)) (o (pr_max_effective c)) (o (pr_rock c)).
Definition map_config (c : config X) : config Y :=
  mkConfig (map map_constituent (cf_minerals c)) (map_fluids (cf_fluids c)) (map_dry_rock (cf_dry_rock c))
    (map_pressure (cf_pressure c)).
End Map.

(** All values given per row. *)
Section Values.
Context {X : Type}.
Definition opt (o : option X) : list X := match o with None => [] | Some x => [x] end.
Definition vals_arbitrary (a : arbitrary X) : list X :=
  a_density a :: opt (a_bulk a) ++ opt (a_shear a) ++ opt (a_vs a) ++ opt (a_vp a).
Definition vals_material (m : material_cfg X) : list X :=
  match m with
  | MArbitrary a => vals_arbitrary a
  | MGas a | MBrine a => [a]
  | MOil a b c | MCondensate a b c => [a; b; c]
  | MCarbonDioxide _ => []
  end.
Definition vals_constituent (c : constituent_cfg X) : list X := vals_material (k_material c) ++ opt (k_fraction c).
Definition vals_friable (c : friable_cfg X) : list X :=
  fr_critical c :: fr_shear_reduction c :: opt (fr_coordination c).
Definition vals_patchy (c : patchy_cfg X) : list X :=
  vals_arbitrary (pc_cement c) ++
  [pc_critical c; pc_cement_fraction c; pc_lower_pressure c; pc_upper_fraction c; pc_shear_reduction c] ++
  opt (pc_coordination c).
Definition vals_dependency (c : dependency_cfg X) : list X :=
  match c with DPatchy p => vals_patchy p | DFriable p => vals_friable p | _ => [] end.
Definition vals_sandstone (c : sandstone_cfg X) : list X :=
  match c with SPatchy p => vals_patchy p | SFriable p => vals_friable p | SPolyfit _ => [] end.
Definition vals_adjustment (c : adjustment_cfg X) : list X :=
  match c with ADepthTrend d _ r m => d :: opt r ++ opt m | APressureDependency m => vals_dependency m end.
Definition vals_config (c : config X) : list X :=
  flat_map vals_constituent (cf_minerals c) ++
  (fc_temperature (cf_fluids c) :: flat_map vals_constituent (fc_constituents (cf_fluids c))) ++
  (dc_porosity (cf_dry_rock c) :: vals_sandstone (dc_model (cf_dry_rock c)) ++
     flat_map vals_adjustment (dc_adjustments (cf_dry_rock c))) ++
  (pr_overburden (cf_pressure c) :: pr_reference (cf_pressure c) :: opt (pr_fluid (cf_pressure c)) ++
     opt (pr_max_effective (cf_pressure c)) ++ opt (pr_rock (cf_pressure c))).
End Values.

(** Constants and columns.  A matrix among the values given per row is not
    modelled; [per_row] keeps it from getting here. *)
Definition arr_of (x : nd) : arr R :=
  match x with N0 x => Sc x | N1 l | NCol l => Vec l | N2 _ => Sc 0 end.
Definition matrix (x : nd) : bool := match x with N2 _ => true | _ => false end.
Definition lengths (l : list nd) : list nat :=
  flat_map (fun x => match x with N1 l | NCol l => [List.length l] | _ => [] end) l.
Definition all_equal (l : list nat) : bool :=
  match l with [] => true | n :: l' => forallb (Nat.eqb n) l' end.

(** Lists and columns of different lengths are broadcast or refused by NumPy,
    operation by operation; that is not modelled. *)
Definition per_row (c : config nd) : res (config (arr R)) :=
  if existsb matrix (vals_config c) then Err OtherError
  else if all_equal (lengths (vals_config c)) then Ok (map_config arr_of (fun x => x) c)
  else Err OtherError.

(* ------------------------------------------------------------------ *)
(** ** The Input object *)

Definition amap_opt {A} (given : option (arr R)) (f : A -> res R) (a : arr A) : res (arr R) :=
  match given with Some x => Ok x | None => amap f a end.

(** material_type.py:26-27, material.py:153-179 *)
Definition build_arbitrary (a : arbitrary (arr R)) : res bmat :=
  let d := a_density a in
  let* mu := match a_shear a, a_vs a with
             | Some mu, _ => Ok mu
             | None, Some s => Ok (pmap (fun x => calculate_shear_modulus (fst x) (snd x)) (zip s d))
             | None, None => Err ValueError
             end in
  let* k := match a_bulk a, a_vp a with
            | Some k, _ => Ok k
            | None, Some p => Ok (pmap (fun x => calculate_bulk_modulus (fst (fst x)) (snd (fst x)) (snd x)) (zip3 p mu d))
            | None, None => Err ValueError
            end in
  let* p := amap_opt (a_vp a)
              (fun x => calculate_primary_velocity (fst (fst x)) (snd (fst x)) (snd x)) (zip3 k mu d) in
  let* s := amap_opt (a_vs a) (fun x => calculate_secondary_velocity (fst x) (snd x)) (zip mu d) in
  Ok (mkB k mu d p s).

(** A constituent of the minerals; [None]: a material without elastic moduli
    of its own (minerals.py:29 accepts every MaterialType). *)
Definition build_mineral (c : constituent_cfg (arr R)) : res (option bmat) :=
  match k_material c with
  | MArbitrary a => let* m := build_arbitrary a in Ok (Some m)
  | _ => Ok None
  end.

Definition build_fluid (m : material_cfg (arr R)) : res bfluid_type :=
  match m with
  | MArbitrary a => let* m := build_arbitrary a in Ok (BArbitrary m)
  | MGas g => Ok (BGas g)
  | MOil r rg g => Ok (BOil r rg g)
  | MBrine s => Ok (BBrine s)
  | MCondensate r rg g => Ok (BCondensate r rg g)
  | MCarbonDioxide i => Ok (BCarbonDioxide i)
  end.
Definition build_constituent (c : constituent_cfg (arr R)) : res bconstituent :=
  let* m := build_fluid (k_material c) in
  Ok (mk_bconstituent m (completed (Sc 0) (k_fraction c)) (k_fluid_model c)).

(** fluids.py:65-70 *)
Definition is_gas {X} (m : material_cfg X) : bool :=
  match m with MGas _ | MCarbonDioxide _ => true | _ => false end.
Fixpoint gas_positions {X} (from : Z) (cs : list (constituent_cfg X)) : list Z :=
  match cs with
  | [] => []
  | c :: cs' => (if is_gas (k_material c) then [from] else []) ++ gas_positions (from + 1) cs'
  end.

(** fluids.py:47-70, the fractions being completed by [b_complete_fluids]. *)
Definition build_fluids (c : fluids_cfg (arr R)) : res bfluids :=
  let* cs := sequence (map build_constituent (fc_constituents c)) in
  let* b := float_value (fc_brie_constant c) in
  let* g := match fc_brie_gases c with
            | None => Ok (gas_positions 0 (fc_constituents c))
            | Some l => sequence (map int_value l)
            end in
  Ok (mk_bfluids (fc_temperature c) cs (fc_mix_method c) b g (fc_fluid_model c)).

(** Coefficients in two dimensions: [polyval2d] takes a number as a constant
    and a list as a polynomial in the first variable. *)
Definition matrix_of (x : nd) : list (list R) :=
  match x with
  | N0 x => [[x]]
  | N1 l | NCol l => map (fun x => [x]) l
  | N2 rows => rows
  end.
Definition matrix_coefficients (c : coefficients nd) : coefficients (list (list R)) :=
  mkCoef (c_flavour c) (option_map matrix_of (c_density c)) (option_map matrix_of (c_primary c))
    (option_map matrix_of (c_secondary c)).

(** Coefficients of a pressure fit, one list per property (the code comments
    [# Todo: validate shape of coefficients]); other shapes are not modelled. *)
Definition list_of_nd (x : nd) : res (list R) :=
  match x with N1 l | NCol l => Ok l | _ => Err OtherError end.
Definition list_opt (x : option nd) : res (option (list R)) :=
  match x with None => Ok None | Some x => let* l := list_of_nd x in Ok (Some l) end.
Definition list_coefficients (c : coefficients nd) : res (coefficients (list R)) :=
  let* d := list_opt (c_density c) in
  let* p := list_opt (c_primary c) in
  let* s := list_opt (c_secondary c) in
  Ok (mkCoef (c_flavour c) d p s).

Definition build_friable (c : friable_cfg (arr R)) : bfriable_model :=
  b_make_friable (fr_critical c) (fr_shear_reduction c) (fr_coordination c).
Definition build_patchy (c : patchy_cfg (arr R)) : res bpatchy_model :=
  let* m := build_arbitrary (pc_cement c) in
  Ok (b_make_patchy m (pc_critical c) (pc_cement_fraction c) (pc_lower_pressure c) (pc_upper_fraction c)
        (pc_coordination c) (pc_shear_reduction c)).

Definition build_dependency (c : dependency_cfg (arr R)) : res bdependency_model :=
  match c with
  | DPatchy p => let* q := build_patchy p in Ok (BPatchy q)
  | DFriable f => Ok (BFriable (build_friable f))
  | DPowerfit d b r =>
      let* d := list_opt d in
      let* b := list_opt b in
      let* r := list_opt r in
      Ok (BPowerfit d b r)
  | DLogfit c => let* c := list_coefficients c in Ok (BLogfit c)
  | DPolyfit c => let* c := list_coefficients c in Ok (BPolyfit c)
  | DExpfit c => let* c := list_coefficients c in Ok (BExpfit c)
  end.

(** dry_rock.py:57-65, 116-133 *)
Definition build_sandstone (c : sandstone_cfg (arr R)) : res brock_model :=
  match c with
  | SPatchy p => let* q := build_patchy p in Ok (BRockPatchy q)
  | SFriable f => Ok (BRockFriable (build_friable f))
  | SPolyfit None =>
      Ok (BRockPolyfit (fill_coefficients
            (mkCoef Moduli (Some default_density) (Some default_bulk) (Some default_shear))))
  | SPolyfit (Some c) => Ok (BRockPolyfit (fill_coefficients (matrix_coefficients c)))
  end.

Definition build_adjustment (c : adjustment_cfg (arr R)) : res badjustment :=
  match c with
  | ADepthTrend d c r m => Ok (BDepthTrend (mkBDepth d (matrix_coefficients c) r m))
  | APressureDependency m => let* md := build_dependency m in Ok (BPressureDependency md)
  end.

Definition build_dry_rock (c : dry_rock_cfg (arr R)) : res bdry_rock :=
  let* m := build_sandstone (dc_model c) in
  let* l := sequence (map build_adjustment (dc_adjustments c)) in
  Ok (mkBDryRock m (dc_porosity c) l).

Definition build_pressure (c : pressure_cfg (arr R)) : bpressure :=
  mkBPressure (pr_overburden c) (pr_reference c) (pr_fluid c) (pr_max_effective c) (pr_rock c).

(** minerals.py:47-50 on the fractions alone (compare [b_minerals]). *)
Definition check_mineral_fractions (fs : list (option (arr R))) : res unit :=
  let* _ := guard (match fs with [] => true | _ => false end) ValueError in
  let* _ := each b_fraction_is_ratio fs in
  let* fs := b_fix_one_fraction fs in
  guard (any (fun s => negb (isclose_one s)) (asum fs)) ValueError.

Fixpoint all_some {A} (l : list (option A)) : option (list A) :=
  match l with
  | [] => Some []
  | None :: _ => None
  | Some a :: l' => match all_some l' with Some r => Some (a :: r) | None => None end
  end.

(** The Input object, validated.  [None]: one of the minerals is oil, gas,
    brine, condensate or carbon dioxide. *)
Definition build (c : config (arr R)) : res (option binput) :=
  let* ms := sequence (map build_mineral (cf_minerals c)) in
  let* fl := build_fluids (cf_fluids c) in
  let* dr := build_dry_rock (cf_dry_rock c) in
  let mineral_fractions := map k_fraction (cf_minerals c) in
  let fluid_fractions := map k_fraction (fc_constituents (cf_fluids c)) in
  let* _ := check_mineral_fractions mineral_fractions in
  let* _ := b_complete_fluids fl fluid_fractions in
  let* _ := b_check_dry_rock dr in
  Ok match all_some ms with
     | Some ms => Some (mkBInput (combine ms mineral_fractions) fl fluid_fractions dr (build_pressure (cf_pressure c)))
     | None => None
     end.

(** __main__.py:126-127: [config["data"] = data; parse_obj_as(Input, config)] *)
Definition parse_input (st : strings) (items : list (string * value)) (data : option table) : res (option binput) :=
  let* v := insert_dataframe items data in
  let* c := read_config st v in
  let* c := per_row c in
  build c.

(* ------------------------------------------------------------------ *)
(** ** The whole program *)

(** __main__.py:53-66: the data frame of the results.  Columns must be as long
    as the index. *)
Definition fits {A} (n : nat) (a : arr A) : bool :=
  match a with Sc _ => true | Vec l => Nat.eqb (List.length l) n end.
Definition frame_columns (n : nat) (o : boutput) : res (list output_row) :=
  if forallb (fits n) [bo_ksat o; bo_kmin o; bo_kdry o; bo_mysat o; bo_rsat o; bo_kmin_fls o]
  then Ok (result_rows n o) else Err ValueError.

(** calculate_results (__main__.py:42-66) with n rows in the index.  A mineral
    that is a fluid type has no attribute bulk_modulus or density
    (AttributeError, or a ValueError met before it). *)
Definition calculate_input (co2 : equation_of_state) (n : nat) (inp : option binput) : res (list output_row) :=
  match inp with
  | None => Err OtherError
  | Some inp => let* o := b_calculate_results co2 inp in frame_columns n o
  end.
