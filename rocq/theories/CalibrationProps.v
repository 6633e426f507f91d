(** Properties C158-C162: calibration. *)
From Coq Require Import String List ZArith Lra Lia.
From Verif Require Import Base BaseProofs InputModel MainModel MainSpec RowModel ReadModel ReadSpec AppModel AppProofs AppExampleProofs RunProofs
  CalibrationModel CalibrationSpec CalibrationProofs AppProps.
Import ListNotations.
Open Scope R_scope.

(** C158: for each of the four properties the statistics printed are least,
    mean and greatest relative error over the rows that have a value on both
    sides, rows going by their number; NaN if there is none. *)
Theorem C158_statistics : forall s results rep name o,
  report s results = Ret rep -> compared name o <> None -> exists c st,
    sheet_has s name c /\ In (name, st) rep /\
    forall ps, paired c (values_of name results) ps -> (forall p, In p ps -> snd p <> 0) ->
      (ps = [] -> st = mkStatistics Nan Nan Nan) /\
      (ps <> [] -> exists mn mean mx, st = mkStatistics (Fin mn) (Fin mean) (Fin mx) /\
         mean = rsum (map relative_error ps) / INR (length ps) /\
         In mn (map relative_error ps) /\ In mx (map relative_error ps) /\ mn <= mean <= mx /\
         forall e, In e (map relative_error ps) -> mn <= e <= mx).
Proof. exact calibration_report. Qed.
Print Assumptions C158_statistics.
(** The pairs always exist, and each property is printed once. *)
Theorem C158_complete : forall s results rep, report s results = Ret rep ->
  map fst rep = ["kmin"; "kdry"; "ksat"; "kmin_fls"]%string /\
  forall c l, exists ps, paired c l ps.
Proof. intros s results rep H. split; [apply (report_spec s results rep H)|exact paired_exists]. Qed.
Print Assumptions C158_complete.

(** A calibration value of zero against a result that is not zero is an
    infinite error, which is printed. *)
Theorem C158_zero_values : forall s results rep name o,
  report s results = Ret rep -> compared name o <> None -> exists c st,
    sheet_has s name c /\ In (name, st) rep /\
    forall ps, paired c (values_of name results) ps ->
      let above := exists p, In p ps /\ snd p = 0 /\ 0 < fst p in
      let below := exists p, In p ps /\ snd p = 0 /\ fst p < 0 in
      (above -> st_max st = PlusInf) /\ (below -> st_min st = MinusInf) /\
      (above -> ~ below -> st_mean st = PlusInf) /\ (below -> ~ above -> st_mean st = MinusInf) /\
      (above -> below -> st_mean st = Nan).
Proof. exact zero_report. Qed.
Print Assumptions C158_zero_values.

Definition two_results : list (Z * output_row) := [(0%Z, mkRow 6 4 2 1 3 4); (2%Z, mkRow 9 4 2 1 3 4)].
Definition three_rows : sheet :=
  [("ksat", Some [Some 3; Some 1; Some 6]); ("kmin", Some [Some 4; None; Some 4]);
   ("kdry", Some [Some 2; Some 2; Some 2]); ("kmin_fls", Some [Some 4])]%string.
(** Rows 0 and 2 are compared: errors 1 and 1/2. *)
Example C158_nonvacuous : exists rep,
  report three_rows two_results = Ret rep /\
  paired [Some 3; Some 1; Some 6] (values_of "ksat" two_results) [(6, 3); (9, 6)] /\
  map relative_error [(6, 3); (9, 6)] = [1; 1 / 2].
Proof.
  eexists. split; [reflexivity|]. split.
  - cbn. repeat (constructor; [split; [lia|reflexivity]|]). constructor.
  - unfold relative_error. cbn. f_equal; [field|]. f_equal. field.
Qed.

(** C159: exit code of a run that wrote its output and was calibrated. *)
Theorem C159_exit_codes : forall Row Inp (p : program Row Inp (Z * output_row)) file t c w,
  compare p = Some (calibration_body file) -> run p t = Ret (c, Some w) ->
  (forall s, file = Ret s -> (c = 0%Z <-> all_columns s)) /\
  (forall s name o, file = Ret s -> sheet_numeric s -> compared name o <> None -> sheet_lacks s name -> c = (-4)%Z) /\
  (file = Raise ParserError \/ file = Raise EmptyDataError -> c = (-4)%Z).
Proof.
  intros Row Inp p file t c w C H. pose proof (run_code p file t c w C H) as ->. split; [|split].
  - intros s ->. apply code_zero.
  - intros s name o ->. apply code_missing.
  - intros [->| ->]; reflexivity.
Qed.
Print Assumptions C159_exit_codes.

Definition one_data_row : list row := [(0%Z, [1 / 3])].
Definition calibrated (co2 : FluidsModel.equation_of_state) (st : strings) (rows : list row) (file : out sheet) :=
  app co2 st ["phi"%string] (VDict (sample_items from_column)) (Some rows) accept (Some (calibration_body file)).
Lemma one_row_run : forall co2 st file,
  run (calibrated co2 st one_data_row file) None =
  Ret (problem_code file [(0%Z, mkRow (8 / 3) 4 2 1 (7 / 3) 4)], Some [(0%Z, mkRow (8 / 3) 4 2 1 (7 / 3) 4)]).
Proof.
  intros co2 st file.
  pose proof (default_run co2 st ["phi"%string] (sample_items from_column) accept (Some (calibration_body file)) _ _ (sample_first co2 st)) as E.
  unfold calibrated. pose proof E as E'. cbn [accept] in E'. cbn [map fst combine] in E'.
  unfold one_data_row. etransitivity; [exact E'|]. unfold calibrate_and_exit, problem_code. cbn [compare app].
  destruct (run_calibration (calibration_body file _)) as [u|e]; [reflexivity|]. destruct e; reflexivity.
Qed.

Example C159_nonvacuous : forall co2 st,
  (exists w, run (calibrated co2 st one_data_row (Ret three_rows)) None = Ret (0%Z, Some w)) /\
  (exists w, run (calibrated co2 st one_data_row (Ret [("ksat"%string, Some [Some 3])])) None = Ret ((-4)%Z, Some w)).
Proof. intros co2 st. split; eexists; apply one_row_run. Qed.

(** C160: not every fault of the calibration file is reported with -4: text in
    a column, or bytes that are not text, end with -1. *)
Theorem C160_text_refuted : exists s, forall co2 st, exists w,
  (forall c, ~ sheet_has s "ksat" c) /\
  run (calibrated co2 st one_data_row (Ret s)) None = Ret ((-1)%Z, Some w) /\
  run (calibrated co2 st one_data_row (Raise UnicodeError)) None = Ret ((-1)%Z, Some w).
Proof.
  exists [("kmin", Some [Some 4]); ("kdry", Some [Some 2]); ("ksat", None); ("kmin_fls", Some [Some 4])]%string.
  intros co2 st. eexists. split; [|split; apply one_row_run].
  intros c H. apply column_has in H. discriminate H.
Qed.
Print Assumptions C160_text_refuted.
(** What ends with -1: the column in question holds something else than numbers. *)
Theorem C160_text : forall Row Inp (p : program Row Inp (Z * output_row)) s name o t c w,
  compare p = Some (calibration_body (Ret s)) -> run p t = Ret (c, Some w) ->
  compared name o <> None -> (forall c, ~ sheet_has s name c) -> ~ sheet_lacks s name ->
  (forall m, compared m o <> None -> m = name \/ exists c, sheet_has s m c) ->
  c = (-1)%Z.
Proof.
  intros Row Inp p s name o t c w C H C1 C2 C3 C4. rewrite (run_code p _ t c w C H). eapply code_text; eassumption.
Qed.
Print Assumptions C160_text.
Example C160_nonvacuous : let s := [("kmin", Some [Some 4]); ("kdry", Some [Some 2]); ("ksat", None); ("kmin_fls", Some [Some 4])]%string in
  forall o, compared "ksat" o <> None /\ (forall c, ~ sheet_has s "ksat" c) /\ ~ sheet_lacks s "ksat" /\
  (forall m, compared m o <> None -> m = "ksat"%string \/ exists c, sheet_has s m c).
Proof.
  intros s o. split; [discriminate|]. split; [intros c H; apply column_has in H; discriminate H|].
  split; [intros H; apply column_lacks in H; discriminate H|].
  intros m H. apply compared_names in H. destruct H as [->|[->|[->| ->]]].
  - right. eexists. apply column_has. reflexivity.
  - right. eexists. apply column_has. reflexivity.
  - left. reflexivity.
  - right. eexists. apply column_has. reflexivity.
Qed.

(** C161: a calibration file with another number of rows is not noticed. *)
Theorem C161_row_count_refuted : exists s rows, forall co2 st, exists w rep,
  run (calibrated co2 st rows (Ret s)) None = Ret (0%Z, Some w) /\ length w = 1%nat /\
  (forall name c, sheet_has s name c -> length c = 0%nat) /\
  report s w = Ret rep /\ forall name x, In (name, x) rep -> x = mkStatistics Nan Nan Nan.
Proof.
  exists [("kmin", Some []); ("kdry", Some []); ("ksat", Some []); ("kmin_fls", Some [])]%string, one_data_row.
  intros co2 st. do 2 eexists. split; [apply one_row_run|]. split; [reflexivity|]. split.
  - intros name c H. apply column_has in H. cbn [sheet_column] in H.
    repeat (destruct (String.eqb _ _) in H; [injection H as <-; reflexivity|]). discriminate H.
  - split; [reflexivity|]. intros name x H. cbn in H. repeat (destruct H as [H|H]; [injection H as _ <-; reflexivity|]). destruct H.
Qed.
Print Assumptions C161_row_count_refuted.

(** What happens instead: only rows with a number on both sides count.  Other
    cells of the calibration file, and results without one, can be added or
    removed. *)
Theorem C161_other_cells : forall s s' results, all_columns s ->
  (forall name o c, compared name o <> None -> sheet_has s name c -> exists c', sheet_has s' name c' /\
     forall i r x, In (i, r) results -> (has_cell c i x <-> has_cell c' i x)) ->
  report s' results = report s results.
Proof. exact report_same_cells. Qed.
Print Assumptions C161_other_cells.
Theorem C161_other_results : forall s a i r b,
  (forall name o c x, compared name o <> None -> sheet_has s name c -> ~ has_cell c i x) ->
  report s (a ++ (i, r) :: b) = report s (a ++ b).
Proof. exact report_without. Qed.
Print Assumptions C161_other_results.
Example C161_nonvacuous : exists s s' o, s <> s' /\ report s' [(0%Z, o)] = report s [(0%Z, o)] /\
  report s [(0%Z, o); (1%Z, o)] = report s [(0%Z, o)] /\ report s [(0%Z, o)] <> report s [(1%Z, o)].
Proof.
  set (o := mkRow 1 1 1 1 1 1).
  set (col := fun c : column => [("kmin", Some c); ("kdry", Some c); ("ksat", Some c); ("kmin_fls", Some c)]%string).
  assert (U : forall c name d, sheet_has (col c) name d -> d = c).
  { intros c name d H. apply column_has in H. cbn [sheet_column col] in H.
    repeat (destruct (String.eqb _ _) in H; [injection H as <-; reflexivity|]). discriminate H. }
  assert (Hs : forall c name o, compared name o <> None -> sheet_has (col c) name c).
  { intros c name o' H. apply column_has. apply compared_names in H. destruct H as [->|[->|[->| ->]]]; reflexivity. }
  exists (col [Some 2]), (col [Some 2; Some 3]), o. split; [discriminate|]. split; [|split].
  - apply C161_other_cells; [intros name o' H; eexists; apply (Hs _ _ _ H)|].
    intros name o' c H1 H2. apply U in H2. subst c. eexists. split; [apply (Hs _ _ _ H1)|].
    intros i r x [E|[]]. injection E as <- _. split; intros [_ E]; (split; [lia|exact E]).
  - apply (C161_other_results _ [(0%Z, o)] 1%Z o []). intros name o' c x H1 H2. apply U in H2. subst c. intros [_ E]. discriminate E.
  - unfold report, calibration_keys. cbn [report_for sheet_column col String.eqb Ascii.eqb Bool.eqb then_]. cbn.
    unfold calibration_error. destruct (Req_EM_T 2 0) as [E|_]; [lra|]. discriminate.
Qed.

(** C162: the output of a default run, used as its calibration file, has no
    error anywhere. *)
Theorem C162_own_output : forall co2 st header items data write compare c w,
  run (app co2 st header (VDict items) data write compare) None = Ret (c, Some w) ->
  (forall rows, data = Some rows -> numbered (map fst rows)) -> w <> [] ->
  forall name o, compared name o <> None ->
  (forall i r y, In (i, r) w -> compared name r = Some y -> y <> 0) ->
  exists rep, report (written_sheet w) w = Ret rep /\ In (name, mkStatistics (Fin 0) (Fin 0) (Fin 0)) rep.
Proof.
  intros co2 st header items data write compare c w H N W name o C Z. apply (own_zero w name o W); [|exact C|exact Z].
  apply C145_labels in H. rewrite H. destruct data as [rows|]; [apply N; reflexivity|reflexivity].
Qed.
Print Assumptions C162_own_output.
Example C162_nonvacuous : forall co2 st, exists w,
  run (app co2 st ["phi"%string] (VDict (sample_items from_column)) (Some one_data_row) accept (Some (calibration_body (Ret three_rows)))) None =
    Ret (0%Z, Some w) /\ numbered (map fst one_data_row) /\ w <> [] /\
  forall i r y, In (i, r) w -> compared "ksat" r = Some y -> y <> 0.
Proof.
  intros co2 st. eexists. split; [apply (one_row_run co2 st (Ret three_rows))|]. split; [reflexivity|]. split; [discriminate|].
  intros i r y [E|[]] C. injection E as _ <-. injection C as <-. cbn. lra.
Qed.

(** Not so with a threshold: the rows left out are missing from the file, whose
    rows are numbered anew, so that different rows are compared. *)
Definition failing_first : list row := [(0%Z, [- (1 / 6)]); (1%Z, [1 / 3]); (2%Z, [1 / 6])].
Definition left_rows : list row := [(1%Z, [1 / 3]); (2%Z, [1 / 6])].
Definition left_results : list (Z * output_row) :=
  [(1%Z, mkRow (8 / 3) 4 2 1 (7 / 3) 4); (2%Z, mkRow 3 4 2 1 (13 / 6) 4)].

Theorem C162_threshold_refuted : exists rows t, forall co2 st, exists w rep x,
  numbered (map fst rows) /\
  run (calibrated co2 st rows (Ret (written_sheet w))) (Some t) = Ret (0%Z, Some w) /\
  report (written_sheet w) w = Ret rep /\ In ("ksat"%string, x) rep /\ st_min x = Fin (- (1 / 9)).
Proof.
  exists failing_first, 50. intros co2 st. exists left_results.
  assert (G1 : forall z, gives_rows co2 st ["phi"%string] (sample_items from_column) [(z, [1 / 3])] [mkRow (8 / 3) 4 2 1 (7 / 3) 4]).
  { intros z. apply sample_gives. apply (sample_gives co2 st 0%Z), sample_first. }
  assert (G2 : forall z, gives_rows co2 st ["phi"%string] (sample_items from_column) [(z, [1 / 6])] [mkRow 3 4 2 1 (13 / 6) 4]).
  { intros z. apply sample_gives. apply (sample_gives co2 st 1%Z), sample_second. }
  assert (G3 : forall z o, ~ gives_rows co2 st ["phi"%string] (sample_items from_column) [(z, [- (1 / 6)])] [o]).
  { intros z o H. apply sample_gives in H. apply (sample_gives co2 st 2%Z) in H. exact (sample_third co2 st o H). }
  set (cmp := Some (calibration_body (Ret (written_sheet left_results)))).
  assert (S : succeeding (app co2 st ["phi"%string] (VDict (sample_items from_column)) (Some failing_first) accept cmp)
    (sample_items from_column) failing_first left_rows).
  { unfold failing_first, left_rows.
    eapply failing_row; [intros out H; apply app_row in H; destruct H as [o [H _]]; exact (G3 _ o H)|].
    eapply succeeding_row; [apply app_row; eexists; split; [apply G1|reflexivity]|].
    eapply succeeding_row; [apply app_row; eexists; split; [apply G2|reflexivity]|]. constructor. }
  assert (G : gives_rows co2 st ["phi"%string] (sample_items from_column) left_rows (map snd left_results)).
  { apply alone_together; [apply sample_plain|apply sample_constants|discriminate|].
    constructor; [apply G1|]. constructor; [apply G2|constructor]. }
  destruct (C144_modes co2 st ["phi"%string] (sample_items from_column) accept cmp sample_plain (sample_constants st)
    failing_first left_rows ltac:(discriminate) S) as [_ [_ T]].
  destruct (T ltac:(discriminate)) as [pct [Hp R]].
  do 2 eexists. split; [reflexivity|]. split.
  - unfold calibrated. fold cmp. rewrite R. destruct (Rlt_dec pct 50) as [L|_].
    + exfalso. unfold exact_percentage in Hp. cbn [List.length failing_first left_rows Nat.sub INR] in Hp.
      unfold Rabs in Hp. destruct (Rcase_abs _); lra.
    + pose proof (default_run co2 st ["phi"%string] (sample_items from_column) accept cmp _ _ G) as E.
      etransitivity; [exact E|]. reflexivity.
  - split; [reflexivity|]. split; [right; right; left; reflexivity|].
    match goal with |- st_min (statistics_of (errors ?l ?c)) = _ => assert (P : paired c l [(8 / 3, 3)]) end.
    { cbn. constructor; [split; [lia|reflexivity]|]. constructor; [intros x [_ H]; discriminate H|constructor]. }
    destruct (statistics_spec _ _ _ P) as [_ Q].
    { intros p [<-|[]]. cbn. lra. }
    destruct (Q ltac:(discriminate)) as (mn & mean & mx & -> & _ & [A|[]] & _). cbn [st_min]. f_equal. rewrite <- A.
    unfold relative_error. cbn. field.
Qed.
Print Assumptions C162_threshold_refuted.
