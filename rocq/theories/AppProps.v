(** Theorems about whole runs (properties C143-C147). *)
From Coq Require Import String List ZArith Lra Lia Permutation.
From Verif Require Import Base BaseProofs ConfigModel FluidsModel InputModel InputSpec MainModel MainSpec RowModel ReadModel AppModel
  ReadSpec AppProofs AppExampleProofs SchemaSpec SchemaProofs ReorderProofs RunProofs FamilyProofs.
Import ListNotations.
Open Scope R_scope.

(** C143: with constants and columns in the configuration, a table of rows is
    calculated iff each of its rows can be calculated alone, and then every row
    has the output it has alone. *)
Theorem C143_rows_alone : forall co2 st header items rows outs, plain (VDict items) -> rows <> [] ->
  constants_and_columns st header items ->
  (gives_rows co2 st header items rows outs <->
   List.length outs = List.length rows /\
   forall i r, nth_error rows i = Some r ->
     exists o, nth_error outs i = Some o /\ gives_rows co2 st header items [r] [o]).
Proof. exact rows_alone. Qed.
Print Assumptions C143_rows_alone.
Example C143_nonvacuous : forall co2 st,
  plain (VDict (sample_items from_column)) /\ constants_and_columns st ["phi"%string] (sample_items from_column) /\
  gives_rows co2 st ["phi"%string] (sample_items from_column) [(0%Z, [1 / 3]); (1%Z, [1 / 6])]
    [mkRow (8 / 3) 4 2 1 (7 / 3) 4; mkRow 3 4 2 1 (13 / 6) 4] /\
  forall o, ~ gives_rows co2 st ["phi"%string] (sample_items from_column) [(2%Z, [- (1 / 6)])] [o].
Proof.
  intros co2 st. split; [apply sample_plain|]. split; [apply sample_constants|]. split; [|apply sample_third].
  apply alone_together; [apply sample_plain|apply sample_constants|discriminate|].
  constructor; [apply sample_first|]. constructor; [apply sample_second|constructor].
Qed.

(** C144: the two ways of running agree.  A default run that writes anything
    means that every row succeeds alone; if so, every threshold up to 100 gives
    the default run; and a threshold run that does not stop with -5 is the
    default run on the rows that succeed alone. *)
Theorem C144_modes : forall co2 st header items write compare, plain (VDict items) ->
  constants_and_columns st header items ->
  let p rows := app co2 st header (VDict items) (Some rows) write compare in
  forall rows good, rows <> [] -> succeeding (p rows) items rows good ->
  ((exists c w, run (p rows) None = Ret (c, Some w)) -> good = rows) /\
  (good = rows -> forall t, t <= 100 -> run (p rows) (Some t) = run (p rows) None) /\
  (good <> [] -> exists pct,
     Rabs (pct - exact_percentage (List.length rows - List.length good) (List.length rows)) <= 1 / 10 ^ 13 /\
     forall t, run (p rows) (Some t) = if Rlt_dec pct t then Ret ((-5)%Z, None) else run (p good) None).
Proof. intros co2 st header items write compare P C p. apply modes; assumption. Qed.
Print Assumptions C144_modes.
Example C144_nonvacuous : forall co2 st write compare,
  let p rows := app co2 st ["phi"%string] (VDict (sample_items from_column)) (Some rows) write compare in
  sample_rows <> [] /\ succeeding (p sample_rows) (sample_items from_column) sample_rows [(0%Z, [1 / 3]); (1%Z, [1 / 6])].
Proof. intros. split; [discriminate|]. apply sample_succeeding. Qed.
(** Every table has its succeeding rows. *)
Theorem C144_succeeding : forall co2 st header items write compare all rows,
  exists good, succeeding (app co2 st header (VDict items) (Some all) write compare) items rows good.
Proof. intros. apply succeeding_total. Qed.
Print Assumptions C144_succeeding.
Example C144_succeeding_nonvacuous : forall co2 st,
  succeeding (app co2 st ["phi"%string] (VDict (sample_items from_column)) (Some sample_rows) accept None)
    (sample_items from_column) sample_rows [(0%Z, [1 / 3]); (1%Z, [1 / 6])].
Proof. intros. apply sample_succeeding. Qed.

(** What reaches the calculation in this model: numbers, and lists and columns
    all of one length. *)
Theorem C144_one_length : forall c : config nd, is_ok (per_row c) <->
  exists k, Forall (fun x => match x with N0 _ => True | N1 l | NCol l => List.length l = k | N2 _ => False end) (vals_config c).
Proof. exact per_row_iff. Qed.
Print Assumptions C144_one_length.
Example C144_one_length_nonvacuous :
  is_ok (per_row (sample_config N0 (N1 [1 / 3; 1 / 6]))).
Proof. apply C144_one_length. exists 2%nat. repeat constructor. Qed.

(** C144 is false without that restriction: a list of numbers in the
    configuration goes with the rows of the data when these are taken together
    and with none of them when they are taken alone. *)
Theorem C144_literal_lists_refuted : exists items rows, forall co2 st,
  let p := app co2 st [] (VDict items) (Some rows) accept None in
  (exists w, run p None = Ret (0%Z, Some w) /\ List.length w = 2%nat) /\
  forall t, 0 < t -> run p (Some t) = Ret ((-5)%Z, None).
Proof.
  exists (sample_items two_values), unread_rows. intros co2 st p. destruct (literal_lists co2 st) as [A B].
  split; [|exact B]. eexists. split; [exact A|reflexivity].
Qed.
Print Assumptions C144_literal_lists_refuted.
(** Nor is a column allowed for a coefficient: the column is taken for the
    coefficients of one polynomial, the same for all rows. *)
Theorem C144_coefficient_column_refuted : exists header items rows, forall co2 st, exists outs r o,
  gives_rows co2 st header items rows outs /\ nth_error rows 0%nat = Some r /\ gives_rows co2 st header items [r] [o] /\ nth_error outs 0%nat <> Some o.
Proof.
  exists ["k"%string], coefficient_items, FamilyProofs.coefficient_rows. intros co2 st. do 3 eexists.
  split; [apply coefficient_together|]. split; [reflexivity|]. split; [apply coefficient_alone|].
  intros H. injection H as H _. lra.
Qed.
Print Assumptions C144_coefficient_column_refuted.
(** A column for the Brie constant is refused by a default run and accepted row
    by row. *)
Theorem C144_brie_column_refuted : exists header items rows, forall co2 st,
  (forall outs, ~ gives_rows co2 st header items rows outs) /\ forall r, In r rows -> exists o, gives_rows co2 st header items [r] [o].
Proof.
  exists ["e"%string], brie_items, brie_rows. intros co2 st. split.
  - intros outs [inp [P _]]. apply (brie_together st inp P).
  - intros r H. eexists. apply brie_alone, H.
Qed.
Print Assumptions C144_brie_column_refuted.

(** C145: the rows written carry the labels of the data rows they belong to, in
    the same order; without data there is one row, labelled 0. *)
Theorem C145_labels : forall co2 st header items data write compare c w,
  run (app co2 st header (VDict items) data write compare) None = Ret (c, Some w) ->
  map fst w = match data with Some rows => map fst rows | None => [0%Z] end.
Proof. exact default_labels. Qed.
Print Assumptions C145_labels.
Theorem C145_threshold_labels : forall co2 st header items rows good write compare t c w,
  succeeding (app co2 st header (VDict items) (Some rows) write compare) items rows good ->
  run (app co2 st header (VDict items) (Some rows) write compare) (Some t) = Ret (c, Some w) ->
  map fst w = map fst good.
Proof. exact threshold_labels. Qed.
Print Assumptions C145_threshold_labels.
Example C145_nonvacuous : forall co2 st, exists w1 w2,
  let p := app co2 st ["phi"%string] (VDict (sample_items from_column)) in
  run (p (Some [(0%Z, [1 / 3]); (1%Z, [1 / 6])]) accept None) None = Ret (0%Z, Some w1) /\
  run (p (Some sample_rows) accept None) (Some 50) = Ret (0%Z, Some w2).
Proof.
  intros co2 st.
  assert (G : gives_rows co2 st ["phi"%string] (sample_items from_column) [(0%Z, [1 / 3]); (1%Z, [1 / 6])]
                [mkRow (8 / 3) 4 2 1 (7 / 3) 4; mkRow 3 4 2 1 (13 / 6) 4]) by apply C143_nonvacuous.
  pose proof (default_run co2 st ["phi"%string] (sample_items from_column) accept None _ _ G) as E. cbn [accept] in E.
  do 2 eexists. split; [exact E|].
  destruct (modes co2 st ["phi"%string] (sample_items from_column) accept None sample_plain (sample_constants st)
    sample_rows [(0%Z, [1 / 3]); (1%Z, [1 / 6])] ltac:(discriminate) (sample_succeeding co2 st accept None _)) as [_ [_ T]].
  destruct (T ltac:(discriminate)) as [pct [Hp R]]. rewrite R.
  destruct (Rlt_dec pct 50) as [L|_]; [exfalso|exact E].
  unfold Rabs in Hp. unfold exact_percentage in Hp. cbn [List.length sample_rows Nat.sub INR] in Hp. destruct (Rcase_abs _); lra.
Qed.

(** C146: a [data] key in the configuration file has no effect. *)
Theorem C146_data_key : forall co2 st header a u b data write compare t,
  distinct (VDict (a ++ ("data"%string, u) :: b)) ->
  run (app co2 st header (VDict (a ++ ("data"%string, u) :: b)) data write compare) t =
  run (app co2 st header (VDict (a ++ b)) data write compare) t.
Proof. intros. apply same_run. intros data'. apply data_key. assumption. Qed.
Print Assumptions C146_data_key.
Ltac distinct_tac :=
  repeat first [ apply distinct_dict | apply distinct_list | apply distinct_leaf; discriminate
               | apply Forall_cons | apply Forall_nil | apply NoDup_cons | apply NoDup_nil
               | progress cbn [snd map fst] | (cbn; intuition discriminate) ].
Example C146_nonvacuous :
  distinct (VDict ([("pressure"%string, VDict [("reference"%string, VNum 1)])] ++ ("data"%string, VStr "data.csv") :: [])).
Proof. cbn [List.app]. distinct_tac. Qed.

(** C147: the order of the keys of a configuration does not matter, at any
    depth: the same rows are written with the same exit code, and a threshold
    run is the same in every respect. *)
Theorem C147_key_order : forall co2 st header items items' write compare,
  distinct (VDict items) -> reordered (VDict items) (VDict items') ->
  let p c data := app co2 st header (VDict c) data write compare in
  (forall data c w, run (p items data) None = Ret (c, Some w) <-> run (p items' data) None = Ret (c, Some w)) /\
  (forall data t, run (p items data) (Some t) = run (p items' data) (Some t)).
Proof. exact key_order_run. Qed.
Print Assumptions C147_key_order.
Example C147_nonvacuous : exists items', items' <> sample_items from_column /\
  distinct (VDict (sample_items from_column)) /\ reordered (VDict (sample_items from_column)) (VDict items').
Proof.
  exists (rev (sample_items from_column)). split; [discriminate|]. split.
  - unfold sample_items, pure, material_item, from_column. distinct_tac.
  - apply permuted. apply Permutation_rev.
Qed.
