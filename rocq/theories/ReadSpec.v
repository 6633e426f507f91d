(** Vocabulary for reading configurations. *)
From Coq Require Import String List ZArith.
From Verif Require Import Base ConfigModel FluidsModel InputModel InputSpec MainModel MainSpec RowModel ReadModel AppModel.
Import ListNotations.
Open Scope R_scope.

(** A configuration tree with every data column changed by [phi]. *)
Fixpoint map_columns (phi : list R -> list R) (v : value) : value :=
  match v with
  | VArray l => VArray (phi l)
  | VFrame t => VFrame (map (fun nc => (fst nc, phi (snd nc))) t)
  | VList l => VList (map (map_columns phi) l)
  | VDict items => VDict (map (fun kv => (fst kv, map_columns phi (snd kv))) items)
  | _ => v
  end.

(** No column stands directly in a list. *)
Inductive tame : value -> Prop :=
  | tame_leaf : forall v, (forall l, v <> VList l) -> (forall l, v <> VDict l) -> tame v
  | tame_list : forall l, Forall tame l -> Forall (fun v => forall c, v <> VArray c) l -> tame (VList l)
  | tame_dict : forall items, Forall (fun kv => tame (snd kv)) items -> tame (VDict items).

(** The same of a configuration file: column references stand under keys only. *)
Inductive plain : value -> Prop :=
  | plain_leaf : forall v, (forall l, v <> VList l) -> (forall l, v <> VDict l) -> (forall l, v <> VArray l) ->
      (forall t, v <> VFrame t) -> plain v
  | plain_list : forall l, Forall plain l -> Forall (fun v => forall n, ~ is_reference v n) l -> plain (VList l)
  | plain_dict : forall items, Forall (fun kv => plain (snd kv)) items -> plain (VDict items).

(** Row [i] of the columns. *)
Definition row_of (i : nat) (l : list R) : list R := match nth_error l i with Some x => [x] | None => [] end.
Definition on_column (phi : list R -> list R) (x : nd) : nd := match x with NCol l => NCol (phi l) | _ => x end.

(** The values of a configuration that are the same for all rows: Brie
    constant, Brie gases and fit coefficients. *)
Definition fixed_coefficients (c : coefficients nd) : list nd :=
  opt (c_density c) ++ opt (c_primary c) ++ opt (c_secondary c).
Definition fixed_dependency {X} (m : dependency_cfg X) : list nd :=
  match m with
  | DPatchy _ | DFriable _ => []
  | DPowerfit a b c => opt a ++ opt b ++ opt c
  | DLogfit c | DPolyfit c | DExpfit c => fixed_coefficients c
  end.
Definition fixed_adjustment {X} (a : adjustment_cfg X) : list nd :=
  match a with ADepthTrend _ c _ _ => fixed_coefficients c | APressureDependency m => fixed_dependency m end.
Definition fixed_sandstone {X} (m : sandstone_cfg X) : list nd :=
  match m with SPolyfit (Some c) => fixed_coefficients c | _ => [] end.
Definition fixed_fluids {X} (f : fluids_cfg X) : list nd :=
  fc_brie_constant f :: match fc_brie_gases f with None => [] | Some l => l end.
Definition fixed_config {X} (c : config X) : list nd :=
  fixed_fluids (cf_fluids c) ++
  fixed_sandstone (dc_model (cf_dry_rock c)) ++ flat_map fixed_adjustment (dc_adjustments (cf_dry_rock c)).

(** The values given per row are constants and columns (no literal lists), the
    others are not columns. *)
Definition row_value (x : nd) : Prop := match x with N0 _ | NCol _ => True | _ => False end.
Definition no_column (x : nd) : Prop := match x with NCol _ => False | _ => True end.
Definition rowwise (c : config nd) : Prop := Forall row_value (vals_config c) /\ Forall no_column (fixed_config c).
Definition constants_and_columns (st : strings) (header : list string) (items : list (string * value)) : Prop :=
  forall rows v c, insert_dataframe items (Some (frame header rows)) = Ok v -> read_config st v = Ok c -> rowwise c.

(** The output rows of the configuration [items] with data [rows]. *)
Definition gives_rows (co2 : equation_of_state) (st : strings) (header : list string)
    (items : list (string * value)) (rows : list row) (outs : list output_row) : Prop :=
  exists inp, parse_input st items (Some (frame header rows)) = Ok inp /\
    calculate_input co2 (List.length rows) inp = Ok outs.

(** Of [rows], [good] are those that can be calculated alone. *)
Inductive succeeding {Row Inp Out} (p : program Row Inp Out) (items : list (string * value)) :
    list Row -> list Row -> Prop :=
  | succeeding_nil : succeeding p items [] []
  | succeeding_row : forall r rows good out, row_gives p items r out -> succeeding p items rows good ->
      succeeding p items (r :: rows) (r :: good)
  | failing_row : forall r rows good, (forall out, ~ row_gives p items r out) -> succeeding p items rows good ->
      succeeding p items (r :: rows) good.
