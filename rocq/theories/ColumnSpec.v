(** Vocabulary for the columns of the data file. *)
From Coq Require Import String List ZArith.
From Verif Require Import Base InputModel InputSpec AppModel.
Import ListNotations.
Open Scope R_scope.

(** A section of the configuration other than "data" contains the reference
    {column: name}. *)
Definition used (items : list (string * value)) (name : value) : Prop :=
  exists k v, In (k, v) items /\ k <> "data"%string /\ refers v name.

(** Two data files have the same column of that name, or both have none. *)
Definition same_column (header : list string) (rows : list row) (header' : list string) (rows' : list row)
    (name : string) : Prop :=
  (In name header <-> In name header') /\
  forall j j', nth_error header j = Some name -> nth_error header' j' = Some name ->
    map (fun r : row => nth_error (snd r) j) rows = map (fun r : row => nth_error (snd r) j') rows'.

(** The data file, if there is one, has that column. *)
Definition found (header : list string) (data : option (list row)) (n : value) : Prop :=
  match data with None => False | Some _ => exists s, n = VStr s /\ In s header end.
