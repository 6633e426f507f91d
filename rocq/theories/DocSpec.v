(** Vocabulary for documentation: the configurations printed in it, the kinds a
    [type] key names, the defaults. *)
From Coq Require Import String List ZArith.
From Verif Require Import Base ConfigModel FluidsModel InputModel ReadModel SchemaSpec.
Import ListNotations.
Open Scope R_scope.

(** ** Configurations of the documentation and the repository *)
Open Scope string_scope.
Definition column (name : string) : value := VDict [("column", VStr name)].
Definition numbers (l : list R) : value := VList (map VNum l).
Definition matrix_value (l : list (list R)) : value := VList (map numbers l).

Definition moduli (k mu d : R) : value := VDict [("bulk_modulus", VNum k); ("shear_modulus", VNum mu); ("density", VNum d)].
Definition sand : value := moduli (36 * 10 ^ 9) (44 * 10 ^ 9) 2650.
Definition shale : value := moduli (11 * 10 ^ 9) (9 / 2 * 10 ^ 9) 1.
Definition cement_value : value := moduli (368 / 10 * 10 ^ 9) (44 * 10 ^ 9) 2650.
Definition typical_oil : value :=
  VDict [("type", VStr "oil"); ("gas_gravity", VNum (1 / 2)); ("reference_density", VNum 800); ("gas_oil_ratio", VNum 153)].
Definition typical_brine : value := VDict [("type", VStr "brine"); ("salinity", VNum 45000)].
Definition typical_gas : value := VDict [("type", VStr "gas"); ("gas_gravity", VNum (1 / 2))].
Definition sand_and_shale (fraction : value) : value :=
  VDict [("constituents", VList [VDict [("material", sand); ("fraction", fraction)]; VDict [("material", shale)]])].

(** tutorial_config/tutorial_config.yaml:13-69, the same as tutorial_config/example2.yaml *)
Definition tutorial : list (string * value) :=
  [("minerals", sand_and_shale (column "sand_fraction"));
   ("fluids", VDict
     [("temperature", VNum 75); ("pressure", VNum (50 * 10 ^ 6));
      ("constituents", VList
        [VDict [("material", typical_oil)];
         VDict [("material", typical_brine); ("fraction", column "brine_saturation")];
         VDict [("material", VDict [("type", VStr "condensate"); ("gas_gravity", VNum (1 / 2));
                                    ("oil_reference_density", VNum 800); ("gas_oil_ratio", VNum 150)]);
                ("fraction", column "condensate_saturation")]])]);
   ("dry_rock", VDict
     [("model", VStr "patchy_cement"); ("porosity", column "porosity"); ("cement", cement_value);
      ("overburden_pressure", VNum (50 * 10 ^ 6)); ("pressure", VNum (40 * 10 ^ 6))])].

(** docs/getting_started_with_the_config_file_format.md:14-27 *)
Definition started_minerals : list (string * value) := [("minerals", sand_and_shale (VNum (1 / 2)))].
(** docs/getting_started_with_the_config_file_format.md:34-54 *)
Definition started_fluids : list (string * value) :=
  [("fluids", VDict
     [("mix_method", VStr "wood"); ("temperature", VNum 75); ("pressure", VNum 1000);
      ("constituents", VList
        [VDict [("material", typical_oil)];
         VDict [("material", typical_brine); ("fraction", VNum (3 / 10))];
         VDict [("material", typical_gas); ("fraction", VNum (3 / 10))]])])].
Definition printed_trend : value :=
  VDict [("bulk_modulus", matrix_value [[0; 3 / 2]; [1; 0]]); ("shear_modulus", matrix_value [[0; 6 / 5]; [1; 0]]);
         ("density", matrix_value [[0; 135 / 100]; [1; 0]])].
Definition printed_powers : value :=
  VDict [("bulk_modulus", numbers [20 * 10 ^ 9; -46]); ("vp_over_vs", numbers [12; -26]); ("density", numbers [1; 0])].
(** docs/getting_started_with_the_config_file_format.md:64-91; "100.0E6" and
    "70.0E+6 Pa" are strings for YAML 1.1. *)
Definition started_dry_rock : list (string * value) :=
  [("dry_rock", VDict
     [("model", VDict
        [("type", VStr "polyfit");
         ("coefficients", VDict [("density", matrix_value [[0; 0]; [1; -1]]); ("bulk_modulus", matrix_value [[2900; -1300]]);
                                 ("shear_modulus", matrix_value [[1700; -800]])])]);
      ("porosity", VNum (36 / 100));
      ("adjustments", VList
        [VDict [("type", VStr "pressure_dependency");
                ("model", VDict [("type", VStr "powerfit"); ("overburden_pressure", VStr "100.0E6");
                                 ("pressure", VStr "70.0E+6 Pa"); ("reference_pressure", VNum (30 * 10 ^ 6));
                                 ("coefficients", printed_powers)])];
         VDict [("type", VStr "depth_trend"); ("depth", VNum 1000); ("reference_depth", VNum 0);
                ("coefficients", printed_trend)]])])].
(** docs/adjusting_with_depth_and_pressure.md:97-118: the coefficients printed for expfit and logfit. *)
Definition printed_fit (name : string) (k v d : list R) : list (string * value) :=
  [("dry_rock", VDict
     [("adjustments", VList
        [VDict [("type", VStr "pressure_dependency");
                ("model", VDict [("type", VStr name);
                   ("coefficients", VDict [("bulk_modulus", numbers k); ("vp_over_vs", numbers v); ("density", numbers d)])])]])])].
(** docs/adjusting_with_depth_and_pressure.md:6-62 *)
Definition printed_adjustments : list (string * value) :=
  [("dry_rock", VDict
     [("model", VDict [("type", VStr "polyfit")]); ("porosity", column "porosity");
      ("adjustments", VList
        [VDict [("type", VStr "pressure_dependency");
                ("model", VDict [("type", VStr "powerfit"); ("coefficients", printed_powers)])];
         VDict [("type", VStr "depth_trend"); ("depth", column "depth"); ("reference_depth", VNum 0);
                ("max_depth", VNum 4000); ("coefficients", printed_trend)]])])].

(** examples/example1.yaml, example4.yaml, carbon_dioxide_example.yaml *)
Definition patchy_rock : value := VDict
  [("model", VDict [("type", VStr "patchy_cement"); ("lower_bound_pressure", VNum (20 * 10 ^ 6));
                    ("upper_bound_cement_fraction", VNum (1 / 10)); ("cement", cement_value); ("shear_reduction", VNum (1 / 2));
                    ("cement_fraction", VNum (4 / 100)); ("critical_porosity", VNum (4 / 10))]);
   ("porosity", column "porosity")].
Definition column_pressures : list (string * value) :=
  [("overburden", VNum (50 * 10 ^ 6)); ("fluid", column "fluid_pressure"); ("rock", column "rock_pressure")].
Definition example1 : list (string * value) :=
  [("minerals", sand_and_shale (column "sand_fraction"));
   ("pressure", VDict column_pressures);
   ("fluids", VDict
     [("mix_method", VStr "wood"); ("temperature", VNum 75);
      ("constituents", VList
        [VDict [("material", typical_oil)];
         VDict [("material", typical_brine); ("fraction", column "brine_saturation")];
         VDict [("material", typical_gas); ("fraction", column "gas_saturation")]])]);
   ("dry_rock", patchy_rock)].
Definition full_pressures : value := VDict
  [("overburden", VNum (50 * 10 ^ 6)); ("reference", VNum (30 * 10 ^ 6)); ("fluid", column "fluid_pressure");
   ("rock", column "rock_pressure"); ("max_effective", VNum (100 * 10 ^ 6))].
Definition brie_fluids : value := VDict
  [("mix_method", VStr "brie"); ("brie_constant", VNum 3); ("temperature", VNum 75);
   ("constituents", VList
     [VDict [("material", typical_oil)];
      VDict [("material", typical_brine); ("fraction", column "brine_saturation")]])].
Definition adjusted_rock (dependency : value) : value := VDict
  [("model", VDict [("type", VStr "polyfit")]); ("porosity", column "porosity");
   ("adjustments", VList
     [VDict [("type", VStr "pressure_dependency"); ("model", dependency)];
      VDict [("type", VStr "depth_trend"); ("depth", column "depth"); ("reference_depth", VNum 0);
             ("max_depth", VNum 4000); ("coefficients", printed_trend)]])].
(** examples/example2.yaml, example3.yaml *)
Definition example2 : list (string * value) :=
  [("minerals", sand_and_shale (column "sand_fraction")); ("pressure", full_pressures); ("fluids", brie_fluids);
   ("dry_rock", adjusted_rock (VDict [("type", VStr "powerfit"); ("coefficients", printed_powers)]))].
Definition example3 : list (string * value) :=
  [("minerals", sand_and_shale (column "sand_fraction")); ("fluids", brie_fluids); ("pressure", full_pressures);
   ("dry_rock", adjusted_rock (VDict [("type", VStr "patchy_cement")]))].
Definition example4 : list (string * value) :=
  [("minerals", sand_and_shale (column "sand_fraction")); ("pressure", VDict column_pressures);
   ("fluids", VDict
     [("mix_method", VStr "wood"); ("temperature", VNum 75);
      ("constituents", VList
        [VDict [("material", typical_brine); ("fraction", column "brine_saturation")];
         VDict [("material", VDict [("type", VStr "carbon_dioxide"); ("interpolate_density", VBool true)]);
                ("fraction", column "gas_saturation"); ("fluid_model", VStr "span_wagner")]])]);
   ("dry_rock", patchy_rock)].
Definition carbon_dioxide_example : list (string * value) :=
  [("pressure", VDict column_pressures);
   ("fluids", VDict
     [("temperature", VNum 75); ("fluid_model", VStr "span_wagner");
      ("constituents", VList
        [VDict [("material", VDict [("type", VStr "carbon_dioxide"); ("interpolate_density", VBool false)])]])]);
   ("dry_rock", patchy_rock)].
Definition columns_used : list string :=
  ["fluid_pressure"; "brine_saturation"; "gas_saturation"; "porosity"; "sand_fraction"; "depth"; "rock_pressure"].
Definition pure_minerals : value := VDict [("constituents", VList [VDict [("material", sand); ("fraction", VNum 1)]])].
Definition water_fluids : value :=
  VDict [("constituents", VList [VDict [("material", moduli (23 / 10 * 10 ^ 9) 0 (9945 / 10))]])].
(** examples/friable_sand_example.yaml, patchy_cement_example.yaml *)
Definition friable_sand_example : list (string * value) :=
  [("minerals", pure_minerals); ("fluids", water_fluids);
   ("dry_rock", VDict
     [("model", VDict [("type", VStr "friable_sand"); ("coordination_number", VNum 9);
                       ("critical_porosity", VNum (4 / 10)); ("shear_reduction", VNum 1)]);
      ("porosity", VNum (3 / 10))])].
Definition patchy_cement_example : list (string * value) :=
  [("minerals", pure_minerals); ("fluids", water_fluids);
   ("dry_rock", VDict
     [("model", VDict [("type", VStr "patchy_cement"); ("cement", cement_value); ("cement_fraction", VNum (4 / 100));
                       ("lower_bound_pressure", VNum (20 * 10 ^ 6)); ("upper_bound_cement_fraction", VNum (1 / 10));
                       ("coordination_number", VNum 9); ("critical_porosity", VNum (4 / 10)); ("shear_reduction", VNum 1)]);
      ("porosity", VNum (3 / 10))])].

(** ** What [type] names *)
Definition material_kind {X} (m : material_cfg X) : string :=
  match m with
  | MArbitrary _ => "material" | MGas _ => "gas" | MOil _ _ _ => "oil" | MBrine _ => "brine"
  | MCondensate _ _ _ => "condensate" | MCarbonDioxide _ => "carbon_dioxide"
  end.
Definition dependency_kind {X} (m : dependency_cfg X) : string :=
  match m with
  | DPatchy _ => "patchy_cement" | DFriable _ => "friable_sand" | DPowerfit _ _ _ => "powerfit"
  | DLogfit _ => "logfit" | DPolyfit _ => "polyfit" | DExpfit _ => "expfit"
  end.
Definition sandstone_kind {X} (m : sandstone_cfg X) : string :=
  match m with SPatchy _ => "patchy_cement" | SFriable _ => "friable_sand" | SPolyfit _ => "polyfit" end.
Definition adjustment_kind {X} (m : adjustment_cfg X) : string :=
  match m with ADepthTrend _ _ _ _ => "depth_trend" | APressureDependency _ => "pressure_dependency" end.

(** ** Defaults: section, key, what is used if the key is left out *)
Definition typical_constituent (material : value) (fraction : R) : value :=
  VDict [("material", material); ("fraction", VNum fraction)].
Definition defaults : list (string * (string * value)) :=
  [("minerals", ("constituents", VList
      [typical_constituent (moduli (368 / 10 * 10 ^ 9) (44 * 10 ^ 9) 2650) (5 / 10);
       typical_constituent (moduli (25 * 10 ^ 9) (12 * 10 ^ 9) 2650) (5 / 10)]));
   ("fluids", ("temperature", VNum 80));
   ("fluids", ("constituents", VList
      [typical_constituent (VDict [("type", VStr "oil"); ("reference_density", VNum 850); ("gas_oil_ratio", VNum 100);
                                   ("gas_gravity", VNum (7 / 10))]) (3 / 10);
       typical_constituent (VDict [("type", VStr "brine"); ("salinity", VNum 50000)]) (3 / 10);
       typical_constituent (VDict [("type", VStr "gas"); ("gas_gravity", VNum (7 / 10))]) (4 / 10)]));
   ("fluids", ("mix_method", VStr "wood"));
   ("fluids", ("brie_constant", VNum 3));
   ("fluids", ("brie_gases", VNull));
   ("fluids", ("fluid_model", VStr "batzle_wang"));
   ("dry_rock", ("model", VDict [("type", VStr "polyfit")]));
   ("dry_rock", ("porosity", VNum (3 / 10)));
   ("dry_rock", ("adjustments", VList []));
   ("pressure", ("overburden", VNum (100 * 10 ^ 6)));
   ("pressure", ("reference", VNum (30 * 10 ^ 6)));
   ("pressure", ("fluid", VNum (70 * 10 ^ 6)));
   ("pressure", ("max_effective", VNull));
   ("pressure", ("rock", VNull))].
Close Scope string_scope.

(** ** Acceptance *)

(** Never accepted, with whatever data. *)
Definition refused (items : list (string * value)) : Prop := forall st data inp, parse_input st items data <> Ok inp.
(** With every data file that has the [columns], each key is read as one of the
    types it may have; whether the values are in range is another matter. *)
Definition accepted_with (items : list (string * value)) (columns : list string) : Prop :=
  forall st t, (forall n, In n columns -> In n (map fst t)) ->
  exists v c, insert_dataframe items (Some t) = Ok v /\ read_config st v = Ok c.

(** The configurations printed in the documentation and delivered with the
    program.  The documentation gives the coefficients of expfit and logfit as
    [cb1, cb2, cb3] and so on. *)
Definition documented : list (list (string * value)) :=
  [tutorial; started_minerals; started_fluids; started_dry_rock; printed_adjustments;
   printed_fit "expfit" [1; 1; 1] [1; 1; 1] [1; 1; 1]; printed_fit "logfit" [1; 1; 1] [1; 1; 1] [1; 1; 1]].
