(** C165 and C166: columns of the data file. *)
From Coq Require Import String List ZArith Lra Lia.
From Verif Require Import Base FluidsModel InputModel InputSpec MainModel RowModel ReadModel AppModel ReadSpec AppProofs
  AppExampleProofs RunProofs ColumnSpec ColumnProofs.
Import ListNotations.
Open Scope R_scope.

(** C165: the columns referred to are the only ones that matter; further
    columns, and the order of the columns, have no effect on a run. *)
Theorem C165_columns : forall co2 st items write compare t header rows header' rows', NoDup (map fst items) ->
  NoDup header -> NoDup header' -> map fst rows = map fst rows' ->
  (forall s, used items (VStr s) -> same_column header rows header' rows' s) ->
  run (app co2 st header (VDict items) (Some rows) write compare) t =
  run (app co2 st header' (VDict items) (Some rows') write compare) t.
Proof. exact columns_run. Qed.
Print Assumptions C165_columns.

Lemma sample_used : forall n, used (sample_items from_column) n <-> n = VStr "phi".
Proof.
  intros n. split.
  - intros (k & v & I & _ & R). unfold sample_items, pure, material_item, from_column in I. cbn [In] in I.
    repeat match goal with
           | H : _ \/ _ |- _ => destruct H
           | H : False |- _ => contradiction
           | H : (_, _) = (_, _) |- _ => injection H as <- <-
           | H : In _ _ |- _ => cbn [In] in H
           | H : ?a = ?v |- _ => is_var v; subst v
           | H : refers _ _ |- _ => inversion H; clear H; subst
           end; try reflexivity.
  - intros ->. exists "dry_rock"%string. eexists. split; [right; right; left; reflexivity|]. split; [discriminate|].
    eapply refers_dict with (k := "porosity"%string) (v := from_column).
    + intros n E. discriminate E.
    + right. left. reflexivity.
    + constructor.
Qed.
Lemma sample_keys : NoDup (map fst (sample_items from_column)).
Proof. cbn. repeat constructor; cbn; intuition discriminate. Qed.
Example C165_nonvacuous : forall co2 st,
  let header := ["depth"; "phi"]%string in
  let rows := [(0%Z, [2000; 1 / 3])] in
  NoDup (map fst (sample_items from_column)) /\ NoDup header /\
  (forall s, used (sample_items from_column) (VStr s) ->
     same_column ["phi"%string] [(0%Z, [1 / 3])] header rows s) /\
  ~ same_column ["phi"%string] [(0%Z, [1 / 3])] header rows "depth" /\
  run (app co2 st ["phi"%string] (VDict (sample_items from_column)) (Some [(0%Z, [1 / 3])]) accept None) None =
    Ret (0%Z, Some [(0%Z, mkRow (8 / 3) 4 2 1 (7 / 3) 4)]).
Proof.
  intros co2 st header rows. split; [apply sample_keys|].
  split; [repeat constructor; cbn; intuition discriminate|]. split; [|split].
  - intros s U. apply sample_used in U. injection U as ->. split; [cbn; tauto|].
    intros [|[|j]] [|[|[|j']]] H H'; try discriminate; reflexivity.
  - intros [[_ H] _]. cbn in H. destruct H as [H|[]]; [left; reflexivity|discriminate H].
  - exact (default_run co2 st ["phi"%string] (sample_items from_column) accept None _ _ (sample_first co2 st)).
Qed.

(** C166: a reference to a column that the data file does not have, or to any
    column if there is no data file, is an input error. *)
Theorem C166_missing_column : forall co2 st header items data write compare, NoDup (map fst items) ->
  (forall n, used items n -> scalar n) -> (exists n, used items n /\ ~ found header data n) ->
  run (app co2 st header (VDict items) data write compare) None = Ret ((-2)%Z, None).
Proof. exact missing_run. Qed.
Print Assumptions C166_missing_column.
Example C166_nonvacuous :
  (forall n, used (sample_items from_column) n -> scalar n) /\
  (exists n, used (sample_items from_column) n /\ ~ found ["porosity"%string] (Some [(0%Z, [1 / 3])]) n) /\
  (exists n, used (sample_items from_column) n /\ ~ found [] None n).
Proof.
  split; [intros n U; apply sample_used in U; subst; exact I|]. split; exists (VStr "phi"); (split; [apply sample_used; reflexivity|]).
  - intros [s [E [H|[]]]]. injection E as <-. discriminate H.
  - intros [].
Qed.
