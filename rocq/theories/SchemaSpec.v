(** Vocabulary for configuration files: what they may contain, which are the
    same, and the files in the documentation. *)
From Coq Require Import String List ZArith Permutation.
From Verif Require Import Base InputModel InputSpec ReadModel.
Import ListNotations.
Open Scope R_scope.

(** ** Keys *)

(** Mappings have each key once, at every depth. *)
Inductive distinct : value -> Prop :=
  | distinct_leaf : forall v, (forall l, v <> VList l) -> (forall l, v <> VDict l) -> distinct v
  | distinct_list : forall l, Forall distinct l -> distinct (VList l)
  | distinct_dict : forall items, NoDup (map fst items) -> Forall (fun kv => distinct (snd kv)) items ->
      distinct (VDict items).

(** The same configuration but for the order of keys, at every depth. *)
Inductive reordered : value -> value -> Prop :=
  | reordered_leaf : forall v, (forall l, v <> VList l) -> (forall l, v <> VDict l) -> reordered v v
  | reordered_list : forall l l', Forall2 reordered l l' -> reordered (VList l) (VList l')
  | reordered_dict : forall items items' items'',
      Forall2 (fun kv kv' => fst kv = fst kv' /\ reordered (snd kv) (snd kv')) items items' ->
      Permutation items' items'' -> reordered (VDict items) (VDict items'').

(** ** Schemas *)
Inductive schema : Type :=
  | Anything
  | Numbers                                          (* a number, a list of numbers, a matrix, a column *)
  | Number                                           (* a number or a column *)
  | Index                                            (* a whole number *)
  | Switch                                           (* yes or no *)
  | Word (words : list string)                       (* one of these words *)
  (* name, required or not, contents; pairs of which one has to be given *)
  | Record (fields : list (string * (bool * schema))) (pairs : list (string * string))
  | OneOf (alternatives : list schema)
  | Nullable (s : schema)
  | ListOf (empty : bool) (s : schema).              (* may it be empty? *)

(** Numbers as truth values and as text. *)
Open Scope string_scope.
Definition yes : list string := ["1"; "on"; "t"; "true"; "y"; "yes"].
Definition no : list string := ["0"; "off"; "f"; "false"; "n"; "no"].
Close Scope string_scope.
(** The same word but for capital letters. *)
Fixpoint same_word (s t : string) : Prop :=
  match s, t with
  | EmptyString, EmptyString => True
  | String c s, String d t =>
      (c = d \/ exists n, (65 <= n <= 90)%nat /\ c = Ascii.ascii_of_nat n /\ d = Ascii.ascii_of_nat (n + 32)) /\ same_word s t
  | _, _ => False
  end.

(** A number: written as such, as a truth value or as text. *)
Inductive numeric (st : strings) : value -> Prop :=
  | numeric_number : forall x, numeric st (VNum x)
  | numeric_truth : forall b, numeric st (VBool b)
  | numeric_text : forall s x, float_of st s = Some x -> numeric st (VStr s).
Inductive whole (st : strings) : value -> Prop :=
  | whole_number : forall x, whole st (VNum x)
  | whole_truth : forall b, whole st (VBool b)
  | whole_text : forall s z, int_of st s = Some z -> whole st (VStr s).
(** Columns of the data file, by name or put in. *)
Inductive column_of (n : nat) : value -> Prop :=
  | column_named : forall name, column_of n (VDict [("column"%string, name)])
  | column_put : forall l, List.length l = n -> column_of n (VArray l).
(** Numbers in lists of equal lengths, [dims] being those lengths.  Within lists
    null stands for a missing number. *)
Inductive shaped (st : strings) : list nat -> value -> Prop :=
  | shaped_number : forall v, numeric st v -> shaped st [] v
  | shaped_missing : shaped st [] VNull
  | shaped_column : forall n v, column_of n v -> shaped st [n] v
  | shaped_list : forall dims l, Forall (shaped st dims) l -> shaped st (List.length l :: dims) (VList l).

(** One of two keys is given, and not as null. *)
Definition either (items : list (string * value)) (pair : string * string) : Prop :=
  exists v, v <> VNull /\ (In (fst pair, v) items \/ In (snd pair, v) items).

Inductive conforms (st : strings) : schema -> value -> Prop :=
  | conforms_anything : forall v, conforms st Anything v
  | conforms_numbers : forall dims v, shaped st dims v -> v <> VNull -> conforms st Numbers v
  | conforms_number : forall v, numeric st v -> conforms st Number v
  | conforms_number_column : forall n v, column_of n v -> conforms st Number v
  | conforms_index : forall v, whole st v -> conforms st Index v
  | conforms_index_column : forall n v, column_of n v -> conforms st Index v
  | conforms_switch : forall b, conforms st Switch (VBool b)
  | conforms_switch_number : forall x, x = 0 \/ x = 1 -> conforms st Switch (VNum x)
  | conforms_switch_word : forall s w, In w (yes ++ no) -> same_word s w -> conforms st Switch (VStr s)
  | conforms_word : forall words s, In s words -> conforms st (Word words) (VStr s)
  | conforms_record : forall fields pairs items,
      Forall (fun kv => exists f, In f fields /\ fst f = fst kv /\ conforms st (snd (snd f)) (snd kv)) items ->
      (forall name s, In (name, (true, s)) fields -> In name (map fst items)) ->
      Forall (either items) pairs ->
      conforms st (Record fields pairs) (VDict items)
  (* by position: the first fields *)
  | conforms_positions : forall fields pairs given l,
      Forall2 (fun f v => conforms st (snd (snd f)) v) given l ->
      (exists rest, fields = given ++ rest /\ Forall (fun f => fst (snd f) = false) rest) ->
      Forall (either (combine (map fst given) l)) pairs ->
      conforms st (Record fields pairs) (VList l)
  | conforms_one : forall l s v, In s l -> conforms st s v -> conforms st (OneOf l) v
  | conforms_null : forall s, conforms st (Nullable s) VNull
  | conforms_nonnull : forall s v, conforms st s v -> conforms st (Nullable s) v
  | conforms_list : forall empty s l, Forall (conforms st s) l -> (empty = false -> l <> []) ->
      conforms st (ListOf empty s) (VList l).

Definition need (name : string) (s : schema) := (name, (true, s)).
Definition may (name : string) (s : schema) := (name, (false, s)).
(** null is the same as leaving the key out *)
Definition optionally (name : string) (s : schema) := (name, (false, Nullable s)).

Open Scope string_scope.
Definition is_a (type : string) := may "type" (Word [type]).
Definition arbitrary_schema : schema :=
  Record [need "density" Numbers; optionally "bulk_modulus" Numbers; optionally "shear_modulus" Numbers;
          optionally "secondary_velocity" Numbers; optionally "primary_velocity" Numbers; is_a "material"]
         [("bulk_modulus", "primary_velocity"); ("shear_modulus", "secondary_velocity")].
Definition material_schema : schema :=
  OneOf [arbitrary_schema;
         Record [need "gas_gravity" Numbers; is_a "gas"] [];
         Record [need "reference_density" Numbers; need "gas_oil_ratio" Numbers; need "gas_gravity" Numbers; is_a "oil"] [];
         Record [need "salinity" Numbers; is_a "brine"] [];
         Record [need "oil_reference_density" Numbers; need "gas_oil_ratio" Numbers; need "gas_gravity" Numbers;
                 is_a "condensate"] [];
         Record [is_a "carbon_dioxide"; may "interpolate_density" Switch] []].
Definition fluid_model_schema : schema := Word ["default"; "batzle_wang"; "span_wagner"].
Definition constituents_schema : schema :=
  ListOf false (Record [need "material" material_schema; optionally "fraction" Numbers;
                        optionally "fluid_model" fluid_model_schema] []).
Definition minerals_schema : schema := Record [may "constituents" constituents_schema] [].
Definition fluids_schema : schema :=
  Record [may "temperature" Numbers; may "constituents" constituents_schema; may "mix_method" (Word ["wood"; "brie"]);
          may "brie_constant" Number; optionally "brie_gases" (ListOf true Index); may "fluid_model" fluid_model_schema] [].
Definition coefficients_schema : schema :=
  OneOf [Record [optionally "density" Numbers; optionally "bulk_modulus" Numbers; optionally "shear_modulus" Numbers] [];
         Record [optionally "density" Numbers; optionally "secondary_velocity" Numbers;
                 optionally "primary_velocity" Numbers] []].
Definition ratio_schema : schema :=
  Record [optionally "density" Numbers; optionally "vp_over_vs" Numbers; optionally "bulk_modulus" Numbers] [].
Definition friable_schema : schema :=
  Record [may "critical_porosity" Numbers; may "shear_reduction" Numbers; optionally "coordination_number" Numbers;
          is_a "friable_sand"] [].
Definition patchy_schema : schema :=
  Record [is_a "patchy_cement"; may "cement" arbitrary_schema; may "critical_porosity" Numbers; may "cement_fraction" Numbers;
          may "lower_bound_pressure" Numbers; may "upper_bound_cement_fraction" Numbers;
          optionally "coordination_number" Numbers; may "shear_reduction" Numbers] [].
Definition fit_schema (type : string) : schema := Record [need "coefficients" coefficients_schema; is_a type] [].
Definition dependency_schema : schema :=
  OneOf [patchy_schema; friable_schema; Record [need "coefficients" ratio_schema; is_a "powerfit"] [];
         fit_schema "logfit"; fit_schema "polyfit"; fit_schema "expfit"].
Definition sandstone_schema : schema :=
  OneOf [patchy_schema; friable_schema; Record [optionally "coefficients" coefficients_schema; is_a "polyfit"] []].
Definition adjustment_schema : schema :=
  OneOf [Record [need "depth" Numbers; need "coefficients" coefficients_schema; is_a "depth_trend";
                 optionally "reference_depth" Numbers; optionally "max_depth" Numbers] [];
         Record [need "model" dependency_schema; is_a "pressure_dependency"] []].
Definition dry_rock_schema : schema :=
  Record [may "model" sandstone_schema; may "porosity" Numbers; may "adjustments" (ListOf true adjustment_schema)] [].
Definition pressure_schema : schema :=
  Record [may "overburden" Numbers; may "reference" Numbers; optionally "fluid" Numbers; optionally "max_effective" Numbers;
          optionally "rock" Numbers] [].
Definition config_schema : schema :=
  Record [may "data" Anything; may "minerals" minerals_schema; may "fluids" fluids_schema; may "dry_rock" dry_rock_schema;
          may "pressure" pressure_schema] [].
Close Scope string_scope.
