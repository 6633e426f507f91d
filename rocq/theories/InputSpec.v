(** Vocabulary for configuration trees. *)
From Coq Require Import String List.
From Verif Require Import Base InputModel.
Open Scope R_scope.
(** A mapping whose only key is "column". *)
Definition is_reference (v : value) (name : value) : Prop := v = VDict [("column"%string, name)].

(** [refers v name]: the configuration [v] is, or contains at some depth, the
    reference {column: name}.  The inside of a reference does not count. *)
Inductive refers : value -> value -> Prop :=
  | refers_here : forall name, refers (VDict [("column"%string, name)]) name
  | refers_list : forall l v name, In v l -> refers v name -> refers (VList l) name
  | refers_dict : forall items k v name,
      (forall n, ~ is_reference (VDict items) n) ->
      In (k, v) items -> refers v name -> refers (VDict items) name.

(** [replaced t v v']: [v'] is [v] with every reference replaced by the data
    column it names and nothing else changed. *)
Inductive replaced (t : table) : value -> value -> Prop :=
  | replaced_reference : forall name c,
      (exists before after, t = before ++ (name, c) :: after /\ ~ In name (map fst before)) ->
      replaced t (VDict [("column"%string, VStr name)]) (VArray c)
  | replaced_scalar : forall v,
      (forall l, v <> VList l) -> (forall l, v <> VDict l) -> replaced t v v
  | replaced_list : forall l l', Forall2 (replaced t) l l' -> replaced t (VList l) (VList l')
  | replaced_dict : forall items items',
      (forall n, ~ is_reference (VDict items) n) ->
      Forall2 (fun kv kv' => fst kv = fst kv' /\ replaced t (snd kv) (snd kv')) items items' ->
      replaced t (VDict items) (VDict items').

(** Column names are scalars. *)
Definition scalar (v : value) : Prop :=
  match v with VNull | VBool _ | VNum _ | VStr _ => True | _ => False end.

(** The table has a column of that name. *)
Definition has_column (t : table) (name : value) : Prop :=
  exists s, name = VStr s /\ In s (map fst t).
