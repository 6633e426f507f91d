(** C67-C70, C72 and C105-C108: exit codes, threshold mode. *)
From Coq Require Import String List ZArith Lra Lia.
From Flocq Require Import Core.
From Verif Require Import Base InputModel MainModel MainSpec MainProofs.
Open Scope R_scope.

(** A program over rows that are booleans: true rows succeed. *)
Definition flags (rows : list bool) : program bool bool bool :=
  mkProgram bool bool bool (Ret (VDict [])) (Some (Ret rows))
    (fun _ d => match d with Some (b :: _) => Ret b | _ => Raise ValueErr end)
    (fun b => if b then Ret [b] else Raise ValueErr)
    (fun _ => Ret tt) None.

Lemma flags_reads rows : config_is (flags rows) [] /\ data_is (flags rows) (Some rows).
Proof. split; reflexivity. Qed.
Lemma flags_true rows : row_gives (flags rows) [] true [true].
Proof. exists true. split; reflexivity. Qed.
Lemma flags_false rows : forall r, ~ row_gives (flags rows) [] false r.
Proof. intros r [i [P C]]. injection P as <-. discriminate C. Qed.

(** C67: a run without threshold always ends with one of the documented codes.
    It is 0 iff reading, calculating, writing and a calibration asked for all
    succeed, -2 iff the input is malformed or inconsistent, -3 iff the
    calculation raises a ValueError, -4 iff calibration data are unreadable or
    lack a column, and -1 otherwise; rows are written iff reading, calculating
    and writing succeed. *)
Theorem C67_exit_codes : forall (Row Inp Out : Type) (p : program Row Inp Out), foreign p ->
  exists c w, run p None = Ret (c, w) /\
  (c = 0%Z \/ c = (-1)%Z \/ c = (-2)%Z \/ c = (-3)%Z \/ c = (-4)%Z) /\
  (c = 0%Z <-> exists r, writes p r /\
     match compare p with None => True | Some body => body r = Ret tt end) /\
  (c = (-2)%Z <-> input_error p) /\
  (c = (-3)%Z <-> exists inp e, reads p inp /\ calculate p inp = Raise e /\ value_error e) /\
  (c = (-4)%Z <-> exists r body e, writes p r /\ compare p = Some body /\
     body r = Raise e /\ calibration_problem e) /\
  (forall r, w = Some r <-> writes p r).
Proof. intros Row Inp Out. exact run_spec. Qed.
Print Assumptions C67_exit_codes.
Example C67_nonvacuous : foreign (flags [true]) /\ writes (flags [true]) [true] /\
  run (flags [true]) None = Ret (0%Z, Some [true]) /\ run (flags [false]) None = Ret ((-3)%Z, None).
Proof.
  split; [split; discriminate|]. split; [|split; reflexivity].
  exists true. split; [|split; reflexivity]. exists [], (Some [true]). repeat split.
Qed.

(** C105: bytes that cannot be decoded, in the configuration or in the data,
    are reported as unexpected error (-1), not as input error (-2). *)
Theorem C105_undecodable_refuted : exists p q : program bool bool bool,
  yaml_load p = Raise UnicodeError /\ run p None = Ret ((-1)%Z, None) /\
  config_is q [] /\ csv_read q = Some (Raise UnicodeError) /\ run q None = Ret ((-1)%Z, None).
Proof.
  exists (mkProgram bool bool bool (Raise UnicodeError) None (fun _ _ => Ret true) (fun _ => Ret []) (fun _ => Ret tt) None),
         (mkProgram bool bool bool (Ret (VDict [])) (Some (Raise UnicodeError)) (fun _ _ => Ret true) (fun _ => Ret []) (fun _ => Ret tt) None).
  repeat split.
Qed.
Print Assumptions C105_undecodable_refuted.

(** C68: the code is -5 iff the percentage, computed to within 1e-13 (exactly
    when nothing failed), is below the threshold; then nothing is written.
    Whatever is written is the successful rows in order, and it is written
    unless the code is -5, no row succeeded or writing fails. *)
Theorem C68_threshold_output : forall (Row Inp Out : Type) (p : program Row Inp Out) items rows rs f,
  config_is p items -> data_is p (Some rows) -> rows_give p items rows rs f ->
  exists pct, Rabs (pct - exact_percentage f (length rows)) <= 1 / 10 ^ 13 /\ 0 <= pct <= 100 /\
    (f = O -> pct = 100) /\
  forall t, exists c w, run p (Some t) = Ret (c, w) /\ (c = (-5)%Z -> w = None) /\
    (forall r, w = Some r -> r = concat rs) /\
    (c = (-5)%Z <-> pct < t) /\
    (c <> (-5)%Z -> rs <> [] -> write p (concat rs) = Ret tt -> w = Some (concat rs)).
Proof.
  intros Row Inp Out p items rows rs f C D H. pose proof (rows_give_length p items rows rs f H) as Ln.
  exists (success_percentage f (length rows)).
  split; [apply percentage_error; lia|]. split; [apply percentage_range; lia|].
  split; [intros ->; apply percentage_no_failures|]. intros t.
  exact (threshold_output p items rows rs f t C D H).
Qed.
Print Assumptions C68_threshold_output.
Example C68_nonvacuous : config_is (flags [true; false]) [] /\ data_is (flags [true; false]) (Some [true; false]) /\
  rows_give (flags [true; false]) [] [true; false] [[true]] 1.
Proof.
  split; [reflexivity|]. split; [reflexivity|].
  apply rows_success; [apply flags_true|]. apply rows_failure; [apply flags_false|]. constructor.
Qed.

(** C68: every table splits into successful and failing rows, so the theorem
    above covers every run whose files can be read. *)
Theorem C68_rows_split : forall (Row Inp Out : Type) (p : program Row Inp Out) items rows,
  exists rs f, rows_give p items rows rs f /\ (length rs + f = length rows)%nat.
Proof.
  intros Row Inp Out p items rows. destruct (rows_give_total p items rows) as [rs [f H]].
  exists rs, f. split; [exact H|]. exact (rows_give_length p items rows rs f H).
Qed.
Print Assumptions C68_rows_split.
Example C68_split_nonvacuous : rows_give (flags [false]) [] [false] [] 1.
Proof. apply rows_failure; [apply flags_false|constructor]. Qed.

(** C68 with the true percentage, when that is not within 1e-13 of the
    threshold.  The full statement, with no margin, is refuted below (C70). *)
Theorem C68_true_percentage_partial : forall (Row Inp Out : Type) (p : program Row Inp Out) items rows rs f t,
  config_is p items -> data_is p (Some rows) -> rows_give p items rows rs f ->
  1 / 10 ^ 13 < Rabs (exact_percentage f (length rows) - t) ->
  exists c w, run p (Some t) = Ret (c, w) /\ (c = (-5)%Z <-> exact_percentage f (length rows) < t).
Proof. intros Row Inp Out. exact threshold_margin. Qed.
Print Assumptions C68_true_percentage_partial.
Example C68_margin_nonvacuous : 1 / 10 ^ 13 < Rabs (exact_percentage 1 (length [true; false]) - 60).
Proof. unfold exact_percentage. simpl. rewrite Rabs_left; lra. Qed.

(** C68: without a data file there are no rows of which a share could succeed:
    the code is -5, whatever the threshold and the configuration. *)
Theorem C68_needs_data : forall (Row Inp Out : Type) (p : program Row Inp Out) t,
  csv_read p = None -> run p (Some t) = Ret ((-5)%Z, None).
Proof. intros Row Inp Out p t H. unfold run, run_with_threshold. rewrite H. reflexivity. Qed.
Print Assumptions C68_needs_data.
Example C68_needs_data_nonvacuous : exists p : program bool bool bool, csv_read p = None /\ run p None = Ret (0%Z, Some [true]).
Proof.
  exists (mkProgram bool bool bool (Ret (VDict [])) None (fun _ _ => Ret true) (fun b => Ret [b]) (fun _ => Ret tt) None).
  split; reflexivity.
Qed.

(** C69: in threshold mode a malformed configuration, or a malformed data file,
    makes the program end with an exception and no exit code of its own. *)
Theorem C69_escapes : forall (Row Inp Out : Type) (p : program Row Inp Out) t,
  (csv_read p <> None -> config_malformed p -> run p (Some t) = Raise InputError) /\
  (forall items, config_is p items -> data_malformed p -> run p (Some t) = Raise InputError).
Proof. intros Row Inp Out p t. split; [apply threshold_escapes|intros items; apply threshold_escapes_data]. Qed.
Print Assumptions C69_escapes.
Example C69_nonvacuous : exists p : program bool bool bool, csv_read p <> None /\ config_malformed p.
Proof.
  exists (mkProgram bool bool bool (Ret VNull) (Some (Ret [])) (fun _ _ => Ret true) (fun _ => Ret []) (fun _ => Ret tt) None).
  split; [discriminate|]. right. exists VNull. split; [reflexivity|discriminate].
Qed.

(** C69: hence the code is not -2, while without threshold it is. *)
Theorem C69_refuted : exists (p : program bool bool bool) t,
  input_error p /\ run p None = Ret ((-2)%Z, None) /\ forall c w, run p (Some t) <> Ret (c, w).
Proof.
  exists (mkProgram bool bool bool (Raise YAMLError) (Some (Ret [true])) (fun _ _ => Ret true) (fun _ => Ret []) (fun _ => Ret tt) None), 50.
  split; [left; left; reflexivity|]. split; [reflexivity|]. intros c w X. discriminate X.
Qed.
Print Assumptions C69_refuted.

(** C70: one success in ten rows is exactly 10 percent, yet falls below a
    threshold of 10 in double precision. *)
Theorem C70_refuted : exists (p : program bool bool bool) items rows rs f,
  config_is p items /\ data_is p (Some rows) /\ rows_give p items rows rs f /\
  exact_percentage f (length rows) = 10 /\ run p (Some 10) = Ret ((-5)%Z, None).
Proof.
  set (l := [true; false; false; false; false; false; false; false; false; false]).
  assert (H : rows_give (flags l) [] l [[true]] 9).
  { apply rows_success; [apply flags_true|].
    repeat (apply rows_failure; [apply flags_false|]). constructor. }
  exists (flags l), [], l, [[true]], 9%nat. split; [reflexivity|]. split; [reflexivity|]. split; [exact H|].
  split; [unfold exact_percentage, l; simpl; lra|].
  rewrite (threshold_run (flags l) [] l [[true]] 9 10 eq_refl eq_refl H).
  destruct (Rlt_dec _ 10) as [_|N]; [reflexivity|]. exfalso. apply N. exact nine_of_ten.
Qed.
Print Assumptions C70_refuted.

(** C70: for whole-number thresholds and up to 1e12 rows the verdict is right
    whenever the percentage is not exactly the threshold. *)
Theorem C70_integer_threshold_partial : forall (Row Inp Out : Type) (p : program Row Inp Out) items rows rs f k,
  config_is p items -> data_is p (Some rows) -> rows_give p items rows rs f ->
  (0 < length rows)%nat -> INR (length rows) <= 10 ^ 12 ->
  exact_percentage f (length rows) <> IZR k ->
  exists c w, run p (Some (IZR k)) = Ret (c, w) /\ (c = (-5)%Z <-> exact_percentage f (length rows) < IZR k).
Proof.
  intros Row Inp Out p items rows rs f k C D H Hn Hb Ne.
  apply (threshold_margin p items rows rs f (IZR k) C D H).
  pose proof (rows_give_length p items rows rs f H). apply integer_gap; [exact Hn|lia|exact Hb|exact Ne].
Qed.
Print Assumptions C70_integer_threshold_partial.
Example C70_nonvacuous : (0 < length [true; false])%nat /\ INR (length [true; false]) <= 10 ^ 12 /\
  exact_percentage 1 (length [true; false]) <> IZR 51.
Proof. unfold exact_percentage. simpl. repeat split; [lia|lra|lra]. Qed.

(** C70: so such a run is never passed when it should have failed. *)
Theorem C70_never_lenient : forall (Row Inp Out : Type) (p : program Row Inp Out) items rows rs f k c w,
  config_is p items -> data_is p (Some rows) -> rows_give p items rows rs f ->
  (0 < length rows)%nat -> INR (length rows) <= 10 ^ 12 ->
  run p (Some (IZR k)) = Ret (c, w) -> c <> (-5)%Z -> IZR k <= exact_percentage f (length rows).
Proof.
  intros Row Inp Out p items rows rs f k c w C D H Hn Hb E Nc.
  destruct (Rle_lt_dec (IZR k) (exact_percentage f (length rows))) as [L|L]; [exact L|exfalso].
  destruct (C70_integer_threshold_partial Row Inp Out p items rows rs f k C D H Hn Hb ltac:(lra)) as [c' [w' [E' X]]].
  rewrite E in E'. injection E' as <- <-. apply Nc. apply X. exact L.
Qed.
Print Assumptions C70_never_lenient.
Example C70_lenient_nonvacuous : run (flags [true]) (Some (IZR 50)) = Ret (0%Z, Some [true]).
Proof.
  assert (H : rows_give (flags [true]) [] [true] [[true]] 0) by (apply rows_success; [apply flags_true|constructor]).
  rewrite (threshold_run (flags [true]) [] [true] [[true]] 0 (IZR 50) eq_refl eq_refl H).
  rewrite percentage_no_failures. destruct (Rlt_dec 100 (IZR 50)) as [L|_]; [exfalso; lra|reflexivity].
Qed.

(** C72: the threshold option accepts exactly the numbers from 0 to 100. *)
Theorem C72_percentage : forall v x, percentage v = Some x <-> v = Finite x /\ 0 <= x <= 100.
Proof. exact percentage_spec. Qed.
Print Assumptions C72_percentage.
Example C72_nonvacuous : percentage (Finite 100) = Some 100 /\ percentage NaN = None.
Proof. split; [apply percentage_spec; split; [reflexivity|lra]|reflexivity]. Qed.

(** C106: the help text says unsuccessful rows will be given NaN; they are left
    out, the output has fewer rows than the data. *)
Theorem C106_nan_rows_refuted : exists (p : program bool bool bool) items rows rs f c w,
  config_is p items /\ data_is p (Some rows) /\ rows_give p items rows rs f /\
  (forall inp r, calculate p inp = Ret r -> length r = 1%nat) /\
  run p (Some 50) = Ret (c, Some w) /\ (length w < length rows)%nat.
Proof.
  set (l := [true; false; true]).
  assert (H : rows_give (flags l) [] l [[true]; [true]] 1).
  { apply rows_success; [apply flags_true|]. apply rows_failure; [apply flags_false|].
    apply rows_success; [apply flags_true|]. constructor. }
  exists (flags l), [], l, [[true]; [true]], 1%nat, 0%Z, [true; true].
  split; [reflexivity|]. split; [reflexivity|]. split; [exact H|].
  split; [intros [|] r E; [injection E as <-; reflexivity|discriminate E]|].
  split; [|simpl; lia].
  rewrite (threshold_run (flags l) [] l [[true]; [true]] 1 50 eq_refl eq_refl H).
  destruct (Rlt_dec _ 50) as [L|_]; [exfalso|reflexivity].
  pose proof (percentage_error 1 3 ltac:(lia)) as Q. apply Rabs_le_inv in Q.
  unfold exact_percentage in Q. simpl in Q, L. lra.
Qed.
Print Assumptions C106_nan_rows_refuted.

(** C107: a threshold that is met still ends in -1 when no row succeeded: with
    an empty data file (treated as 100 percent) for every threshold, and with
    threshold 0 when all rows fail. *)
Theorem C107_no_success_refuted : exists p q : program bool bool bool,
  (exists items rows, config_is p items /\ data_is p (Some rows) /\ exact_percentage 0 (length rows) = 100) /\
  run p (Some 100) = Ret ((-1)%Z, None) /\
  (exists items rows, config_is q items /\ data_is q (Some rows) /\ rows_give q items rows [] (length rows)) /\
  run q (Some 0) = Ret ((-1)%Z, None).
Proof.
  exists (flags []), (flags [false]).
  assert (H0 : rows_give (flags []) [] [] [] 0) by constructor.
  assert (H1 : rows_give (flags [false]) [] [false] [] 1) by (apply rows_failure; [apply flags_false|constructor]).
  split; [exists [], []; repeat split|].
  split.
  { rewrite (threshold_run (flags []) [] [] [] 0 100 eq_refl eq_refl H0). rewrite percentage_no_failures.
    destruct (Rlt_dec 100 100) as [L|_]; [exfalso; lra|reflexivity]. }
  split; [exists [], [false]; repeat split; exact H1|].
  rewrite (threshold_run (flags [false]) [] [false] [] 1 0 eq_refl eq_refl H1).
  destruct (Rlt_dec _ 0) as [L|_]; [exfalso|reflexivity].
  pose proof (percentage_range 1 1 ltac:(lia)) as Q. simpl length in L. lra.
Qed.
Print Assumptions C107_no_success_refuted.

(** C107: that is the only way: when the threshold is met and some row
    succeeded, the rows are written unless writing fails, and without
    calibration the code is 0. *)
Theorem C107_success : forall (Row Inp Out : Type) (p : program Row Inp Out) items rows rs f t,
  config_is p items -> data_is p (Some rows) -> rows_give p items rows rs f -> rs <> [] ->
  t + 1 / 10 ^ 13 < exact_percentage f (length rows) \/ f = O /\ t <= 100 ->
  write p (concat rs) = Ret tt -> compare p = None -> run p (Some t) = Ret (0%Z, Some (concat rs)).
Proof.
  intros Row Inp Out p items rows rs f t C D H Hr Ht W K.
  rewrite (threshold_run p items rows rs f t C D H).
  pose proof (rows_give_length p items rows rs f H) as Ln.
  destruct (Rlt_dec _ t) as [L|_].
  - exfalso. destruct Ht as [Ht|[-> Ht]].
    + pose proof (percentage_error f (length rows) ltac:(lia)) as Q. apply Rabs_le_inv in Q. lra.
    + rewrite percentage_no_failures in L. lra.
  - destruct rs as [|r rs]; [contradiction|]. rewrite W. unfold calibrate_and_exit. rewrite K. reflexivity.
Qed.
Print Assumptions C107_success.
Example C107_nonvacuous : 0 + 1 / 10 ^ 13 < exact_percentage 1 (length [true; false]).
Proof. unfold exact_percentage. simpl. lra. Qed.

(** C108: threshold 0 never fails a readable run, and threshold 100 with up to
    1e12 rows fails it iff some row failed. *)
Theorem C108_extreme_thresholds : forall (Row Inp Out : Type) (p : program Row Inp Out) items rows rs f,
  config_is p items -> data_is p (Some rows) -> rows_give p items rows rs f ->
  (forall w, run p (Some 0) <> Ret ((-5)%Z, w)) /\
  (INR (length rows) <= 10 ^ 12 -> ((exists w, run p (Some 100) = Ret ((-5)%Z, w)) <-> f <> O)).
Proof.
  intros Row Inp Out p items rows rs f C D H.
  pose proof (rows_give_length p items rows rs f H) as Ln. split.
  - intros w E. destruct (threshold_output p items rows rs f 0 C D H) as [c [w' [E' [_ [_ [X _]]]]]].
    rewrite E in E'. injection E' as <- _. pose proof (percentage_range f (length rows) ltac:(lia)).
    pose proof (proj1 X eq_refl). lra.
  - intros Hb. destruct (threshold_output p items rows rs f 100 C D H) as [c [w [E [_ [_ [X _]]]]]]. rewrite E. split.
    + intros [w' E']. injection E' as -> ->. intros ->. rewrite percentage_no_failures in X.
      pose proof (proj1 X eq_refl). lra.
    + intros Nf. exists w. f_equal. f_equal. apply X.
      pose proof (percentage_error f (length rows) ltac:(lia)) as Q. apply Rabs_le_inv in Q.
      assert (G : exact_percentage f (length rows) <= 100 - 100 / 10 ^ 12).
      { unfold exact_percentage. destruct (length rows) as [|n]; [lia|].
        assert (HN : 0 < INR (S n)) by (apply lt_0_INR; lia).
        assert (HF : 1 <= INR f) by (apply (le_INR 1); lia).
        replace (100 * (INR (S n) - INR f) / INR (S n)) with (100 - 100 * (INR f / INR (S n))) by (field; lra).
        assert (1 / 10 ^ 12 <= INR f / INR (S n)).
        { unfold Rdiv. apply Rmult_le_compat; [lra| |exact HF|].
          - left. apply Rinv_0_lt_compat, pow_lt. lra.
          - apply Rinv_le_contravar; [exact HN|exact Hb]. }
        lra. }
      lra.
Qed.
Print Assumptions C108_extreme_thresholds.
Example C108_nonvacuous : INR (length [true; false]) <= 10 ^ 12.
Proof. simpl. lra. Qed.
