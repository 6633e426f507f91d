(** Vocabulary: ways of writing the same thing in a configuration file. *)
From Coq Require Import String List ZArith.
From Verif Require Import Base InputModel ReadModel SchemaSpec DocSpec.
Import ListNotations.
Open Scope R_scope.

(** What a part of a file stands for. *)
Inductive place : Type :=
  | AtMinerals | AtConstituents | AtConstituent | AtMaterial | AtCement | AtFluids
  | AtDryRock | AtModel | AtAdjustments | AtAdjustment | AtDependency | AtCoefficients | AtPressure
  | AtNumbers   (* a number, a list of numbers, a matrix or a column *)
  | AtNumber    (* a number *)
  | AtIndices | AtIndex
  | AtSwitch.   (* yes or no *)

Open Scope string_scope.
Definition sections : list (string * place) :=
  [("minerals", AtMinerals); ("fluids", AtFluids); ("dry_rock", AtDryRock); ("pressure", AtPressure)].
Definition elastic : list string := ["density"; "bulk_modulus"; "shear_modulus"; "secondary_velocity"; "primary_velocity"].
Definition grains : list string :=
  ["critical_porosity"; "shear_reduction"; "coordination_number"; "cement_fraction"; "lower_bound_pressure";
   "upper_bound_cement_fraction"].

(** [inside p]: what stands under which keys of a mapping. *)
Definition inside (p : place) : list (list string * place) :=
  match p with
  | AtMinerals => [(["constituents"], AtConstituents)]
  | AtFluids => [(["temperature"], AtNumbers); (["constituents"], AtConstituents); (["brie_constant"], AtNumber);
                 (["brie_gases"], AtIndices)]
  | AtConstituent => [(["material"], AtMaterial); (["fraction"], AtNumbers)]
  | AtMaterial => [(elastic, AtNumbers); (["interpolate_density"], AtSwitch);
                   (["gas_gravity"; "reference_density"; "oil_reference_density"; "gas_oil_ratio"; "salinity"], AtNumbers)]
  | AtCement => [(elastic, AtNumbers)]
  | AtDryRock => [(["model"], AtModel); (["porosity"], AtNumbers); (["adjustments"], AtAdjustments)]
  | AtModel | AtDependency => [(["cement"], AtCement); (grains, AtNumbers); (["coefficients"], AtCoefficients)]
  | AtCoefficients => [("vp_over_vs" :: elastic, AtNumbers)]
  | AtAdjustment => [(["depth"; "reference_depth"; "max_depth"], AtNumbers); (["coefficients"], AtCoefficients);
                     (["model"], AtDependency)]
  | AtPressure => [(["overburden"; "reference"; "fluid"; "max_effective"; "rock"], AtNumbers)]
  | AtConstituents | AtAdjustments | AtNumbers | AtNumber | AtIndices | AtIndex | AtSwitch => []
  end.
(** What the elements of a list are. *)
Definition listed (p : place) : option place :=
  match p with
  | AtConstituents => Some AtConstituent
  | AtAdjustments => Some AtAdjustment
  | AtNumbers => Some AtNumbers
  | AtIndices => Some AtIndex
  | _ => None
  end.

(** Keys that may be left out: type of the mapping (if there are several), key,
    and what is used instead. *)
Definition nulls (t : option string) (keys : list string) : list (option string * (string * value)) :=
  map (fun k => (t, (k, VNull))) keys.
Definition friable_defaults : list (option string * (string * value)) :=
  let t := Some "friable_sand" in
  [(t, ("critical_porosity", VNum (4 / 10))); (t, ("shear_reduction", VNum 1)); (t, ("coordination_number", VNull))].
Definition patchy_defaults : list (option string * (string * value)) :=
  let t := Some "patchy_cement" in
  [(t, ("cement", moduli (368 / 10 * 10 ^ 9) (44 * 10 ^ 9) 2650)); (t, ("critical_porosity", VNum (4 / 10)));
   (t, ("cement_fraction", VNum (4 / 100))); (t, ("lower_bound_pressure", VNum (20 * 10 ^ 6)));
   (t, ("upper_bound_cement_fraction", VNum (1 / 10))); (t, ("coordination_number", VNull)); (t, ("shear_reduction", VNum 1))].
Definition section_defaults (s : string) : list (option string * (string * value)) :=
  flat_map (fun d => if String.eqb (fst d) s then [(None, snd d)] else []) defaults.
Definition left_out (p : place) : list (option string * (string * value)) :=
  match p with
  | AtMinerals => section_defaults "minerals"
  | AtFluids => section_defaults "fluids"
  | AtDryRock => section_defaults "dry_rock"
  | AtPressure => section_defaults "pressure"
  | AtConstituent => nulls None ["fraction"; "fluid_model"]
  | AtMaterial => nulls (Some "material") (tl elastic) ++ [(Some "carbon_dioxide", ("interpolate_density", VBool true))]
  | AtCement => nulls None (tl elastic) ++ [(None, ("type", VStr "material"))]
  | AtModel => friable_defaults ++ patchy_defaults ++ nulls (Some "polyfit") ["coefficients"]
  | AtDependency => friable_defaults ++ patchy_defaults
  | AtAdjustment => nulls (Some "depth_trend") ["reference_depth"; "max_depth"]
  | AtCoefficients => nulls None ["density"]
  | _ => []
  end.
Definition of_type (t : option string) (items : list (string * value)) : Prop :=
  match t with None => True | Some s => NoDup (map fst items) /\ In ("type", VStr s) items end.

(** A key that tells the type. *)
Definition tells (p : place) : list (string * string) :=
  match p with
  | AtMaterial => [("density", "material"); ("reference_density", "oil"); ("oil_reference_density", "condensate");
                   ("salinity", "brine")]
  | AtAdjustment => [("depth", "depth_trend"); ("model", "pressure_dependency")]
  | _ => []
  end.

(** The order of the values in a list instead of a mapping. *)
Definition positions (p : place) : list string :=
  match p with
  | AtMinerals => ["constituents"]
  | AtConstituent => ["material"; "fraction"; "fluid_model"]
  | AtCement => elastic ++ ["type"]
  | AtFluids => ["temperature"; "constituents"; "mix_method"; "brie_constant"; "brie_gases"; "fluid_model"]
  | AtDryRock => ["model"; "porosity"; "adjustments"]
  | AtPressure => ["overburden"; "reference"; "fluid"; "max_effective"; "rock"]
  | _ => []
  end.

(** Numbers as truth values and as text. *)
Definition truth (b : bool) : R := if b then 1 else 0.
Close Scope string_scope.

Inductive spelled (st : strings) : place -> value -> value -> Prop :=
  | numbers_truth : forall p b, In p [AtNumbers; AtNumber; AtIndex] -> spelled st p (VBool b) (VNum (truth b))
  | numbers_text : forall p s x, In p [AtNumbers; AtNumber] -> float_of st s = Some x -> spelled st p (VStr s) (VNum x)
  | index_text : forall s z, int_of st s = Some z -> spelled st AtIndex (VStr s) (VNum (IZR z))
  | switch_number : forall b, spelled st AtSwitch (VNum (truth b)) (VBool b)
  | switch_text : forall (b : bool) s w, In w (if b then yes else no) -> same_word s w -> spelled st AtSwitch (VStr s) (VBool b).

(** [rewritten st p v w]: as a [p], [v] and [w] are the same. *)
Inductive rewritten (st : strings) : place -> value -> value -> Prop :=
  | rewritten_same : forall p v, rewritten st p v v
  | rewritten_back : forall p v w, rewritten st p v w -> rewritten st p w v
  | rewritten_twice : forall p v w x, rewritten st p v w -> rewritten st p w x -> rewritten st p v x
  | rewritten_key : forall p keys q k a b v w, In (keys, q) (inside p) -> In k keys -> rewritten st q v w ->
      rewritten st p (VDict (a ++ (k, v) :: b)) (VDict (a ++ (k, w) :: b))
  | rewritten_item : forall p q a b v w, listed p = Some q -> rewritten st q v w ->
      rewritten st p (VList (a ++ v :: b)) (VList (a ++ w :: b))
  | rewritten_spelled : forall p v w, spelled st p v w -> rewritten st p v w
  | rewritten_left_out : forall p t k d a b, In (t, (k, d)) (left_out p) -> ~ In k (map fst (a ++ b)) -> of_type t (a ++ b) ->
      (forall n, a ++ b <> [("column"%string, n)]) ->
      rewritten st p (VDict (a ++ (k, d) :: b)) (VDict (a ++ b))
  | rewritten_type : forall p k t a b, In (k, t) (tells p) -> In k (map fst (a ++ b)) -> ~ In "type"%string (map fst (a ++ b)) ->
      rewritten st p (VDict (a ++ ("type"%string, VStr t) :: b)) (VDict (a ++ b))
  | rewritten_positions : forall p l, positions p <> [] -> (List.length l <= List.length (positions p))%nat ->
      rewritten st p (VList l) (VDict (combine (positions p) l)).
