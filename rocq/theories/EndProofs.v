From Coq Require Import String List ZArith Lra Lia Classical.
From Verif Require Import Base BaseProofs ConfigModel FluidsModel InputModel MainModel MainSpec MainProofs RowModel ReadModel AppModel
  ReadSpec FileSpec FileProofs FileRowProofs FileTableProofs CommandModel CommandSpec CommandProofs EndSpec.
Import ListNotations.
Open Scope R_scope.

Section End.
Context {Text : Type} (co2 : equation_of_state) (st : strings) (header : list string)
  (t : tools Text row inp (Z * output_row)).
Hypothesis P : petro co2 st header t.

Lemma reads_once argv d p x y : reads_text t argv d p x -> reads_text t argv d p y -> x = y.
Proof.
  intros [A B] [A' B']. destruct (classic (In (OutputFile p) argv)) as [I|I].
  - rewrite (A I), (A' I). reflexivity.
  - pose proof (B I) as E. rewrite (B' I) in E. congruence.
Qed.

Lemma task_run argv d o c rows : correct t argv d -> task t argv d o c rows ->
  exists p, runs t argv d o p /\ config_is p (file c) /\ data_is p (Some rows) /\
    parse p = parse_rows st header /\ calculate p = AppModel.calculate_rows co2 /\
    (forall r, write p r = Ret tt) /\ compare p = None.
Proof.
  intros C (O & K & (x & Rx & Lx) & (f & y & F & Ry & Ly)). destruct (runs_exists t argv d o C O) as [p R].
  exists p. split; [exact R|]. destruct R as ((x' & Rx' & E) & D & Pp & Pc & W & Cm). rewrite F in D. rewrite K in Cm.
  destruct D as (y' & Ry' & D). rewrite (reads_once _ _ _ _ _ Rx' Rx) in E. rewrite (reads_once _ _ _ _ _ Ry' Ry) in D.
  destruct P as [Pv Pu].
  split; [unfold config_is; congruence|]. split; [unfold data_is; congruence|].
  split; [congruence|]. split; [congruence|]. split; [exact W|exact Cm].
Qed.

Lemma parse_gives items (rows : list row) i : parse_rows st header items (Some rows) = Ret i ->
  exists inp, parse_input st items (Some (frame header rows)) = Ok inp /\ i = (map fst rows, inp).
Proof.
  unfold parse_rows. cbn [option_map]. destruct (parse_input st items (Some (frame header rows))) as [inp|e]; cbn [rmap raise_parse].
  - intros [= <-]. exists inp. split; reflexivity.
  - destruct e; discriminate.
Qed.
Lemma calculate_gives (rows : list row) (inp : option binput) r : AppModel.calculate_rows co2 (map fst rows, inp) = Ret r ->
  exists outs, calculate_input co2 (List.length rows) inp = Ok outs /\ r = combine (map fst rows) outs.
Proof.
  unfold AppModel.calculate_rows. cbn [fst snd].
  rewrite (map_length fst rows : List.length (map fst rows) = List.length rows).
  destruct (calculate_input co2 (List.length rows) inp) as [outs|e]; cbn [rmap raise_calculate].
  - intros [= <-]. exists outs. split; reflexivity.
  - destruct e; discriminate.
Qed.

Lemma gives_parse items (rows : list row) outs : gives_rows co2 st header items rows outs ->
  exists inp, parse_rows st header items (Some rows) = Ret (map fst rows, inp) /\
    AppModel.calculate_rows co2 (map fst rows, inp) = Ret (combine (map fst rows) outs).
Proof.
  intros (inp & E1 & E2). exists inp. unfold parse_rows, AppModel.calculate_rows. cbn [option_map fst snd].
  rewrite (map_length fst rows : List.length (map fst rows) = List.length rows), E1, E2. split; reflexivity.
Qed.

Lemma default_run p c rows : config_is p (file c) -> data_is p (Some rows) ->
  parse p = parse_rows st header -> calculate p = AppModel.calculate_rows co2 -> (forall r, write p r = Ret tt) -> compare p = None ->
  (forall outs, gives_rows co2 st header (file c) rows outs -> run p None = Ret (0%Z, Some (combine (map fst rows) outs))) /\
  (forall code w, run p None = Ret (code, w) -> (code mod 256)%Z = 0%Z ->
     exists outs, gives_rows co2 st header (file c) rows outs /\ w = Some (combine (map fst rows) outs)) /\
  (exists code w, run p None = Ret (code, w)).
Proof.
  intros C D Pp Pc W Cm. unfold config_is in C. unfold data_is in D.
  unfold run, make_input, load_config_from_yaml, load_data_from_csv. rewrite C, D. cbn [try_ then_]. rewrite Pp. split; [|split].
  - intros outs G. destruct (gives_parse _ _ _ G) as (i & E1 & E2). rewrite E1. cbn [try_]. rewrite Pc, E2, W.
    unfold calibrate_and_exit. rewrite Cm. reflexivity.
  - intros code w. destruct (parse_rows st header (file c) (Some rows)) as [i|e] eqn:Ei; cbn [try_].
    + rewrite Pc. destruct (AppModel.calculate_rows co2 i) as [r|e] eqn:Er.
      * rewrite W. unfold calibrate_and_exit. rewrite Cm. intros [= <- <-] _.
        destruct (parse_gives _ _ _ Ei) as (inp & E1 & ->). destruct (calculate_gives _ _ _ Er) as (outs & E2 & ->).
        exists outs. split; [exists inp; split; assumption|reflexivity].
      * destruct (is_value_error e); intros [= <- <-] X; vm_compute in X; discriminate X.
    + destruct e; cbn [is_value_error]; intros [= <- <-] X; vm_compute in X; discriminate X.
  - destruct (parse_rows st header (file c) (Some rows)) as [i|e]; cbn [try_].
    + rewrite Pc. destruct (AppModel.calculate_rows co2 i) as [r|e].
      * rewrite W. eexists _, _. unfold calibrate_and_exit. rewrite Cm. reflexivity.
      * destruct (is_value_error e); eexists _, _; reflexivity.
    + destruct e; cbn [is_value_error]; eexists _, _; reflexivity.
Qed.

Lemma compares_none argv d o r : the_calibration o = None -> compares t argv d o r [].
Proof. intros K. unfold compares. rewrite K. reflexivity. Qed.

Lemma end_delivers argv d o p r n items rows rs : correct t argv d -> has_options argv o -> the_calibration o = None -> runs t argv d o p ->
  run p (the_threshold o) = Ret (0%Z, Some r) -> config_is p items -> data_is p (Some rows) ->
  match the_threshold o with None => n = O | Some _ => rows_give p items rows rs n end ->
  status (main t argv d) = 0%Z /\ delivers t o n r (main t argv d).
Proof.
  intros C O K R E Ci D N. pose proof (main_is_run t argv d o p C O R) as M. rewrite E in M. destruct M as (S0 & _ & M).
  split; [exact S0|]. destruct (stdout_of_success t argv d o p r [] C O R E (compares_none argv d o r K)) as [S1 S2].
  cbn [map] in *.
  assert (L : stdout (main t argv d) = (repeat Message n ++ rows_printed o r)%list).
  { destruct (the_threshold o) as [th|].
    - rewrite (S2 items rows rs n th eq_refl Ci D N). rewrite app_nil_r. reflexivity.
    - subst n. rewrite S1 by reflexivity. rewrite app_nil_r. reflexivity. }
  unfold delivers. unfold rows_printed in L. destruct (the_output o) as [q|] eqn:Q.
  - split; [exact (M q eq_refl)|]. rewrite L. apply app_nil_r.
  - exact L.
Qed.

Lemma end_default argv d o c rows : correct t argv d -> task t argv d o c rows -> the_threshold o = None ->
  writable c -> Forall (known header) (vals_config c) -> rows <> [] ->
  (status (main t argv d) = 0%Z ->
    exists outs, Forall2 (fun r x => gives_output co2 (config_of_row header c r) x) rows outs /\
      delivers t o 0 (combine (map fst rows) outs) (main t argv d)) /\
  (combines c -> forall outs, Forall2 (fun r x => gives_output co2 (config_of_row header c r) x) rows outs ->
    status (main t argv d) = 0%Z /\ delivers t o 0 (combine (map fst rows) outs) (main t argv d)).
Proof.
  intros C T Th Wr Kn Ne. destruct (task_run argv d o c rows C T) as (p & R & Ci & D & Pp & Pc & W & Cm).
  destruct (default_run p c rows Ci D Pp Pc W Cm) as (F & B & (code & w & E)). destruct T as (O & K & _).
  assert (G : forall outs, gives_rows co2 st header (file c) rows outs ->
    status (main t argv d) = 0%Z /\ delivers t o 0 (combine (map fst rows) outs) (main t argv d)).
  { intros outs H. apply (end_delivers argv d o p (combine (map fst rows) outs) 0 (file c) rows [] C O K R); try assumption.
    - rewrite Th. apply F. exact H.
    - rewrite Th. reflexivity. }
  split.
  - intros S0. pose proof (main_is_run t argv d o p C O R) as M. rewrite Th, E in M. destruct M as (S1 & _).
    rewrite S0 in S1. destruct (B code w E (eq_sym S1)) as (outs & H & _).
    exists outs. split; [exact (file_meant co2 st header c rows outs Wr Kn Ne H)|]. apply G. exact H.
  - intros Cb outs H. apply G. exact (file_calculated co2 st header c rows outs Wr Kn Cb Ne H).
Qed.

(** Any settings, with or without data. *)
Lemma end_run argv d o items data : correct t argv d -> has_options argv o -> settings t argv d o items ->
  holds_data t argv d o data -> the_threshold o = None ->
  exists p, runs t argv d o p /\ run p None =
    match parse_rows st header items data with
    | Raise ColumnErr => Ret ((-2)%Z, None)
    | Raise e => if is_value_error e then Ret ((-2)%Z, None) else Ret ((-1)%Z, None)
    | Ret i =>
        match AppModel.calculate_rows co2 i with
        | Raise e => if is_value_error e then Ret ((-3)%Z, None) else Ret ((-1)%Z, None)
        | Ret r => Ret (calibrate_and_exit p r)
        end
    end.
Proof.
  intros C O (x & Rx & Lx) D Th. destruct (runs_exists t argv d o C O) as [p R]. exists p. split; [exact R|].
  destruct R as ((x' & Rx' & E) & Dp & Pp & Pc & W & Cm). rewrite (reads_once _ _ _ _ _ Rx' Rx), Lx in E.
  assert (Dr : load_data_from_csv p = Ret data).
  { unfold load_data_from_csv. unfold holds_data in D. destruct (the_data o) as [f|], data as [rows|]; try contradiction.
    - destruct D as (y & Ry & Ly), Dp as (y' & Ry' & E'). rewrite E', (reads_once _ _ _ _ _ Ry' Ry), Ly. reflexivity.
    - rewrite Dp. reflexivity. }
  destruct P as [Pv Pu]. unfold run, make_input, load_config_from_yaml. rewrite E, Dr. cbn [try_ then_]. rewrite Pp, Pv.
  destruct (parse_rows st header items data) as [i|e]; cbn [try_].
  - rewrite Pc, Pu. destruct (AppModel.calculate_rows co2 i) as [r|e]; [|reflexivity]. rewrite W. reflexivity.
  - destruct e; reflexivity.
Qed.
Lemma end_codes argv d o items data : correct t argv d -> has_options argv o -> settings t argv d o items ->
  holds_data t argv d o data -> the_threshold o = None ->
  (forall e, parse_input st items (option_map (frame header) data) = Err e ->
     (e = ValueError \/ e = TypeError \/ e = ColumnInsertionError -> fails_with t o 254 (main t argv d)) /\
     (e = KeyError \/ e = IndexError \/ e = ZeroDivisionError \/ e = NotImplementedError -> fails_with t o 255 (main t argv d))) /\
  (forall i e, parse_input st items (option_map (frame header) data) = Ok i ->
     calculate_input co2 (List.length (labels data)) i = Err e ->
     (e = ValueError -> fails_with t o 253 (main t argv d)) /\
     (e = TypeError \/ e = KeyError \/ e = IndexError \/ e = ZeroDivisionError \/ e = NotImplementedError ->
      fails_with t o 255 (main t argv d))) /\
  (forall i outs, parse_input st items (option_map (frame header) data) = Ok i ->
     calculate_input co2 (List.length (labels data)) i = Ok outs -> the_calibration o = None ->
     status (main t argv d) = 0%Z /\ delivers t o 0 (combine (labels data) outs) (main t argv d)).
Proof.
  intros C O Se D Th. destruct (end_run argv d o items data C O Se D Th) as (p & R & E).
  assert (F : forall code, run p None = Ret (code, None) -> fails_with t o (code mod 256) (main t argv d)).
  { intros code X. pose proof (main_is_run t argv d o p C O R) as M. rewrite Th, X in M. destruct M as (M1 & _ & M2). split; assumption. }
  unfold parse_rows in E. change (match data with Some rows => map fst rows | None => [0%Z] end) with (labels data) in E.
  split; [|split].
  - intros e Pe. rewrite Pe in E. cbn [rmap] in E. split; intros Q.
    + apply (F (-2)%Z). rewrite E. destruct Q as [->|[->| ->]]; reflexivity.
    + apply (F (-1)%Z). rewrite E. destruct Q as [->|[->|[->| ->]]]; reflexivity.
  - intros i e Pi Ce. rewrite Pi in E. cbn [rmap raise_parse] in E. unfold AppModel.calculate_rows in E. cbn [fst snd] in E.
    rewrite Ce in E. cbn [rmap] in E. split; intros Q.
    + apply (F (-3)%Z). rewrite E, Q. reflexivity.
    + apply (F (-1)%Z). rewrite E. destruct Q as [->|[->|[->|[->| ->]]]]; reflexivity.
  - intros i outs Pi Co K. rewrite Pi in E. cbn [rmap raise_parse] in E. unfold AppModel.calculate_rows in E. cbn [fst snd] in E.
    rewrite Co in E. cbn [rmap raise_calculate] in E. unfold calibrate_and_exit in E.
    assert (Cm : compare p = None) by (destruct R as (_ & _ & _ & _ & _ & Cm); rewrite K in Cm; exact Cm). rewrite Cm in E.
    pose proof (main_is_run t argv d o p C O R) as M. rewrite Th, E in M. destruct M as (M1 & _ & M2). split; [exact M1|].
    rewrite <- Th in E. pose proof (proj1 (stdout_of_success t argv d o p _ [] C O R E (compares_none argv d o _ K)) Th) as S1.
    cbn [map] in S1. rewrite app_nil_r in S1. unfold delivers. unfold rows_printed in S1. destruct (the_output o) as [q|].
    + split; [exact (M2 q eq_refl)|exact S1].
    + exact S1.
Qed.
(** One row. *)
Lemma row_meant p c r x : parse p = parse_rows st header -> calculate p = AppModel.calculate_rows co2 ->
  writable c -> Forall (known header) (vals_config c) ->
  row_gives p (file c) r x -> exists o, x = [(fst r, o)] /\ gives_output co2 (config_of_row header c r) o.
Proof.
  intros Pp Pc Wr Kn (i & E1 & E2). rewrite Pp in E1. rewrite Pc in E2. destruct (parse_gives _ _ _ E1) as (inp & E3 & ->).
  destruct (calculate_gives _ _ _ E2) as (outs & E4 & ->).
  pose proof (file_meant co2 st header c [r] outs Wr Kn ltac:(discriminate) (ex_intro _ inp (conj E3 E4))) as M.
  inversion M as [|? o ? ? Ho M' ]; subst. inversion M'; subst. exists o. split; [reflexivity|exact Ho].
Qed.
Lemma meant_gives p c r o : parse p = parse_rows st header -> calculate p = AppModel.calculate_rows co2 ->
  writable c -> Forall (known header) (vals_config c) -> combines c ->
  gives_output co2 (config_of_row header c r) o -> row_gives p (file c) r [(fst r, o)].
Proof.
  intros Pp Pc Wr Kn Cb H.
  pose proof (file_calculated co2 st header c [r] [o] Wr Kn Cb ltac:(discriminate) ltac:(constructor; [exact H|constructor])) as G.
  destruct (gives_parse _ _ _ G) as (i & E1 & E2). exists (map fst [r], i). rewrite Pp, Pc. split; assumption.
Qed.
Lemma meant_split p c rows ks n : parse p = parse_rows st header -> calculate p = AppModel.calculate_rows co2 ->
  writable c -> Forall (known header) (vals_config c) -> combines c -> meant_rows co2 header c rows ks n ->
  rows_give p (file c) rows (map (fun k => [k]) ks) n.
Proof.
  intros Pp Pc Wr Kn Cb H. induction H as [|r rows o ks n H _ IH|r rows ks n H _ IH].
  - constructor.
  - cbn [map]. apply rows_success; [apply meant_gives; assumption|exact IH].
  - apply rows_failure; [|exact IH]. intros x G. destruct (row_meant p c r x Pp Pc Wr Kn G) as (o & _ & M). exact (H o M).
Qed.
Lemma concat_singles {A} (l : list A) : concat (map (fun k => [k]) l) = l.
Proof. induction l as [|a l IH]; [reflexivity|]. cbn [map concat]. rewrite IH. reflexivity. Qed.
Lemma meant_count c rows ks n : meant_rows co2 header c rows ks n -> (List.length ks + n = List.length rows)%nat.
Proof. intros H. induction H; cbn [List.length]; lia. Qed.
Lemma meant_total c rows : exists ks n, meant_rows co2 header c rows ks n.
Proof.
  induction rows as [|r rows (ks & n & IH)]; [exists [], O; constructor|].
  destruct (classic (exists o, gives_output co2 (config_of_row header c r) o)) as [[o H]|H].
  - exists ((fst r, o) :: ks), n. constructor; assumption.
  - exists ks, (S n). constructor; [|exact IH]. intros o G. apply H. exists o. exact G.
Qed.

Lemma end_threshold argv d o c rows ks n : correct t argv d -> task t argv d o c rows ->
  writable c -> Forall (known header) (vals_config c) -> combines c -> meant_rows co2 header c rows ks n ->
  exists pct, Rabs (pct - exact_percentage n (List.length rows)) <= 1 / 10 ^ 13 /\ (n = O -> pct = 100) /\
    forall th, the_threshold o = Some th ->
    (pct < th -> status (main t argv d) = 251%Z /\ forall q, the_output o = Some q -> files (main t argv d) q = Some (File (blank t))) /\
    (th <= pct -> ks = [] -> status (main t argv d) = 255%Z) /\
    (th <= pct -> ks <> [] -> status (main t argv d) = 0%Z /\ delivers t o n ks (main t argv d)).
Proof.
  intros C T Wr Kn Cb M. pose proof (meant_count _ _ _ _ M) as Ln.
  exists (success_percentage n (List.length rows)). split; [apply percentage_error; lia|].
  split; [intros ->; apply percentage_no_failures|]. intros th Th.
  destruct (task_run argv d o c rows C T) as (p & R & Ci & D & Pp & Pc & W & Cm).
  pose proof (meant_split p c rows ks n Pp Pc Wr Kn Cb M) as G. pose proof (threshold_run p (file c) rows _ n th Ci D G) as E.
  destruct T as (O & K & _). pose proof (main_is_run t argv d o p C O R) as MR. rewrite Th, E in MR. split; [|split].
  - intros L. destruct (Rlt_dec _ th) as [_|N]; [|contradiction]. destruct MR as (S0 & _ & F). split; [exact S0|exact F].
  - intros L ->. destruct (Rlt_dec _ th) as [N|_]; [lra|]. exact (proj1 MR).
  - intros L Hk. destruct (Rlt_dec _ th) as [N|_]; [lra|].
    destruct ks as [|k ks]; [contradiction|]. cbn [map] in E.
    change ([k] :: map (fun k => [k]) ks) with (map (fun k : Z * output_row => [k]) (k :: ks)) in E. rewrite concat_singles in E.
    rewrite W in E. unfold calibrate_and_exit in E. rewrite Cm in E.
    apply (end_delivers argv d o p (k :: ks) n (file c) rows (map (fun k => [k]) (k :: ks)) C O K R); try assumption.
    + rewrite Th. exact E.
    + rewrite Th. exact G.
Qed.
End End.
