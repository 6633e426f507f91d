(** C64-C66: column references in the configuration. *)
From Coq Require Import String List Lra.
From Verif Require Import Base InputModel InputSpec InputProofs.
Open Scope R_scope.

(** A configuration with a nested reference and a table that has the column. *)
Definition config_example : value :=
  VDict [("pressure"%string, VDict [("depth"%string, VNum 3);
            ("overburden"%string, VList [VDict [("column"%string, VStr "ob")]; VStr "ob"])])].
Definition table_example : table := [("x"%string, [7]); ("ob"%string, [1; 2])].

(** C64: the result is the configuration with every reference replaced by the
    column it names, keys and all else unchanged; no reference is left, and
    inserting again, from any table, changes nothing. *)
Theorem C64_insertion : forall t v v', insert_from_dataframe t v = Ok v' ->
  replaced t v v' /\ (forall n, ~ refers v' n) /\ (forall t', insert_from_dataframe t' v' = Ok v').
Proof. exact insertion. Qed.
Print Assumptions C64_insertion.
Example C64_nonvacuous :
  insert_from_dataframe table_example config_example =
  Ok (VDict [("pressure"%string, VDict [("depth"%string, VNum 3);
            ("overburden"%string, VList [VArray [1; 2]; VStr "ob"])])]).
Proof. reflexivity. Qed.

(** C64: a configuration without references is returned unchanged. *)
Theorem C64_unchanged : forall t v, (forall n, ~ refers v n) -> insert_from_dataframe t v = Ok v.
Proof. exact no_reference_unchanged. Qed.
Print Assumptions C64_unchanged.
Example C64_unchanged_nonvacuous : forall n, ~ refers (VDict [("column"%string, VStr "a"); ("x"%string, VNull)]) n.
Proof.
  intros n H. inversion H as [|l v m I X|items k v m N I X]; subst.
  destruct I as [E|[E|[]]]; injection E as <- <-; inversion X.
Qed.

(** C65: for scalar column names, insertion raises ColumnInsertionError iff some
    referenced column is missing, and otherwise succeeds. *)
Theorem C65_missing_column : forall t v, (forall n, refers v n -> scalar n) ->
  (insert_from_dataframe t v = Err ColumnInsertionError <-> exists n, refers v n /\ ~ has_column t n) /\
  (is_ok (insert_from_dataframe t v) <-> forall n, refers v n -> has_column t n).
Proof. exact insert_error_iff. Qed.
Print Assumptions C65_missing_column.
Example C65_nonvacuous :
  (forall n, refers (VDict [("column"%string, VStr "a")]) n -> scalar n) /\
  refers (VDict [("column"%string, VStr "a")]) (VStr "a") /\
  ~ has_column table_example (VStr "a") /\ has_column table_example (VStr "ob").
Proof.
  split; [|split; [constructor|split]].
  - intros n H. inversion H as [m E|l v m I X|items k v m N I X]; subst; [exact I|].
    exfalso. apply (N (VStr "a")). reflexivity.
  - intros [s [E I]]. injection E as <-. simpl in I. destruct I as [E|[E|[]]]; discriminate E.
  - exists "ob"%string. split; [reflexivity|]. simpl. auto.
Qed.

(** C65: with a name that is itself a mapping the exception is a TypeError,
    which is not turned into a ColumnInsertionError although the column is
    missing. *)
Theorem C65_unhashable_name_refuted : exists t v n,
  refers v n /\ ~ has_column t n /\ insert_from_dataframe t v <> Err ColumnInsertionError.
Proof.
  exists table_example, (VDict [("column"%string, VDict [])]), (VDict []).
  split; [constructor|]. split; [intros [s [E _]]; discriminate E|]. simpl. discriminate.
Qed.
Print Assumptions C65_unhashable_name_refuted.

(** C66: without data the input is rejected with ColumnInsertionError iff some
    section of the configuration other than "data" contains a reference, and is
    accepted otherwise.  (The entry "data" itself is overwritten.) *)
Theorem C66_no_data : forall items, NoDup (map fst items) ->
  (insert_dataframe items None = Err ColumnInsertionError <->
     exists k v n, In (k, v) items /\ k <> "data"%string /\ refers v n) /\
  (is_ok (insert_dataframe items None) <->
     forall k v n, In (k, v) items -> k <> "data"%string -> ~ refers v n).
Proof. exact no_data_iff. Qed.
Print Assumptions C66_no_data.
Example C66_nonvacuous :
  NoDup (map fst [("fluids"%string, VList [VDict [("column"%string, VStr "a")]])]) /\
  refers (VList [VDict [("column"%string, VStr "a")]]) (VStr "a").
Proof.
  split; [repeat constructor; intros []|].
  eapply refers_list; [left; reflexivity|constructor].
Qed.
