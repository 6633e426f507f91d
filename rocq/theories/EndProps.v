(** C193: from the command line to the output file. *)
From Coq Require Import String List ZArith Lra Lia.
From Verif Require Import Base BaseProofs MaterialModel ConfigModel FluidsModel InputModel MainModel MainSpec RowModel RowSpec RowScalarProofs RowResultProofs ReadModel AppModel
  ReadSpec AppExampleProofs FileSpec FileProofs FileRowProofs FileTableProofs FileProps CommandModel CommandSpec CommandProofs CommandProps
  EndSpec EndProofs.
Import ListNotations.
Open Scope R_scope.

(** C193: a run on a configuration file and a data file ends with status 0 iff
    every row of the data has a meaning, and then the output holds, under the
    label of each row, what the scalar model gives for its numbers. *)
Theorem C193_success : forall (Text : Type) co2 st header (t : tools Text row inp (Z * output_row)) argv d o c rows,
  petro co2 st header t -> correct t argv d -> task t argv d o c rows -> the_threshold o = None ->
  writable c -> Forall (known header) (vals_config c) -> rows <> [] -> status (main t argv d) = 0%Z ->
  exists outs, Forall2 (fun r x => gives_output co2 (config_of_row header c r) x) rows outs /\
    delivers t o 0 (combine (map fst rows) outs) (main t argv d).
Proof.
  intros Text co2 st header t argv d o c rows P C T Th Wr Kn Ne.
  exact (proj1 (end_default co2 st header t P argv d o c rows C T Th Wr Kn Ne)).
Qed.
Print Assumptions C193_success.

Theorem C193_meant : forall (Text : Type) co2 st header (t : tools Text row inp (Z * output_row)) argv d o c rows outs,
  petro co2 st header t -> correct t argv d -> task t argv d o c rows -> the_threshold o = None ->
  writable c -> Forall (known header) (vals_config c) -> rows <> [] -> combines c ->
  Forall2 (fun r x => gives_output co2 (config_of_row header c r) x) rows outs ->
  status (main t argv d) = 0%Z /\ delivers t o 0 (combine (map fst rows) outs) (main t argv d).
Proof.
  intros Text co2 st header t argv d o c rows outs P C T Th Wr Kn Ne Cb.
  exact (proj2 (end_default co2 st header t P argv d o c rows C T Th Wr Kn Ne) Cb outs).
Qed.
Print Assumptions C193_meant.

(** C193: with a success threshold the rows that have a meaning are written, and
    the others counted; too many of those end the run with status 251 and an
    empty output file, nothing but those with 255. *)
Theorem C193_threshold : forall (Text : Type) co2 st header (t : tools Text row inp (Z * output_row)) argv d o c rows ks n,
  petro co2 st header t -> correct t argv d -> task t argv d o c rows ->
  writable c -> Forall (known header) (vals_config c) -> combines c -> meant_rows co2 header c rows ks n ->
  exists pct, Rabs (pct - exact_percentage n (List.length rows)) <= 1 / 10 ^ 13 /\ (n = O -> pct = 100) /\
    forall th, the_threshold o = Some th ->
    (pct < th -> status (main t argv d) = 251%Z /\
       forall q, the_output o = Some q -> files (main t argv d) q = Some (File (blank t))) /\
    (th <= pct -> ks = [] -> status (main t argv d) = 255%Z) /\
    (th <= pct -> ks <> [] -> status (main t argv d) = 0%Z /\ delivers t o n ks (main t argv d)).
Proof.
  intros Text co2 st header t argv d o c rows ks n P. exact (end_threshold co2 st header t P argv d o c rows ks n).
Qed.
Print Assumptions C193_threshold.

(** Every table splits into the two kinds of rows. *)
Theorem C193_split : forall co2 header c rows,
  exists ks n, meant_rows co2 header c rows ks n /\ (List.length ks + n = List.length rows)%nat.
Proof.
  intros co2 header c rows. destruct (meant_total co2 header c rows) as (ks & n & M). exists ks, n.
  split; [exact M|exact (meant_count co2 header c rows ks n M)].
Qed.
Print Assumptions C193_split.

(** An example: three rows, the last without a meaning. *)
Inductive page : Type := NoText | ConfigText (items : list (string * value)) | DataText (rows : list row) | OutText (rows : list (Z * output_row)).
Definition bench (co2 : equation_of_state) (st : strings) : tools page row inp (Z * output_row) :=
  mkTools page row inp (Z * output_row) NoText
    (fun x => match x with ConfigText items => Ret (VDict items) | _ => Ret VNull end)
    (fun x => match x with NoText => Raise EmptyDataError | DataText rows => Ret rows | _ => Raise ParserError end)
    (parse_rows st ["phi"%string]) (AppModel.calculate_rows co2) OutText (fun _ => NoText)
    (fun _ _ => ([], Ret tt)) (fun _ => true) (fun _ => true) [].
Definition drawer : disk page := fun p =>
  if String.eqb p "c.yaml" then Some (File (ConfigText (file sample_file)))
  else if String.eqb p "d.csv" then Some (File (DataText [(0%Z, [1 / 3]); (1%Z, [1 / 6]); (2%Z, [- (1 / 6)])]))
  else None.
Definition end_line : list argument :=
  [Config "c.yaml"; DataFile "d.csv"; SuccessThreshold (Finite 50); OutputFile "out.csv"].
Definition end_options : options := mkOptions "c.yaml" (Some "d.csv"%string) None (Some "out.csv"%string) (Some 50).

Lemma sample_means : forall co2 phi o, gives_output co2 (sample_config (fun x => x) phi) o ->
  calculate_row co2 (simple_input quartz water 2 1 2 phi []) = Ok o.
Proof.
  intros co2 phi o [j [M H]]. pose proof (sample_writable (fun x => x) phi) as T.
  pose proof (input_built co2 _ _ _ T M H) as B. pose proof (sample_build (Sc phi)) as B'.
  assert (E : Ok (Some (up_input j)) = Ok (Some (sample_binput (Sc phi)))) by (rewrite <- B, <- B'; reflexivity).
  apply (f_equal (fun r => match r with Ok (Some b) => RowSpec.pick_input 0 b | _ => j end)) in E.
  cbv beta iota in E. rewrite pick_up in E. rewrite <- H, E, <- sample_row. reflexivity.
Qed.

Example C193_nonvacuous : forall co2 st,
  petro co2 st ["phi"%string] (bench co2 st) /\ correct (bench co2 st) end_line drawer /\
  task (bench co2 st) end_line drawer end_options sample_file [(0%Z, [1 / 3]); (1%Z, [1 / 6]); (2%Z, [- (1 / 6)])] /\
  writable sample_file /\ Forall (known ["phi"%string]) (vals_config sample_file) /\ combines sample_file /\
  meant_rows co2 ["phi"%string] sample_file [(0%Z, [1 / 3]); (1%Z, [1 / 6]); (2%Z, [- (1 / 6)])]
    [(0%Z, mkRow (8 / 3) 4 2 1 (7 / 3) 4); (1%Z, mkRow 3 4 2 1 (13 / 6) 4)] 1 /\
  status (main (bench co2 st) end_line drawer) = 0%Z /\
  files (main (bench co2 st) end_line drawer) "out.csv" =
    Some (File (OutText [(0%Z, mkRow (8 / 3) 4 2 1 (7 / 3) 4); (1%Z, mkRow 3 4 2 1 (13 / 6) 4)])).
Proof.
  intros co2 st. pose proof (C172_nonvacuous co2 st) as (Wr & Kn & Cb & G).
  assert (Pt : petro co2 st ["phi"%string] (bench co2 st)) by (split; reflexivity).
  assert (C : correct (bench co2 st) end_line drawer) by (unfold end_line; desk_correct).
  assert (T : task (bench co2 st) end_line drawer end_options sample_file [(0%Z, [1 / 3]); (1%Z, [1 / 6]); (2%Z, [- (1 / 6)])]).
  { split; [|split; [reflexivity|split]].
    - split; [exists nil; eexists; split; [reflexivity|]; intros; cbn; intuition discriminate|].
      split; [exists [Config "c.yaml"]; eexists; split; [reflexivity|]; intros; cbn; intuition discriminate|].
      split; [intros; cbn; intuition discriminate|].
      split; [exists [Config "c.yaml"; DataFile "d.csv"; SuccessThreshold (Finite 50)]; eexists; split; [reflexivity|]; intros; cbn; intuition discriminate|].
      exists [Config "c.yaml"; DataFile "d.csv"]. eexists. split; [reflexivity|]. intros; cbn; intuition discriminate.
    - exists (ConfigText (file sample_file)). split; [|reflexivity]. split; [cbn; intuition discriminate|reflexivity].
    - exists "d.csv"%string, (DataText [(0%Z, [1 / 3]); (1%Z, [1 / 6]); (2%Z, [- (1 / 6)])]). split; [reflexivity|]. split; [split; [cbn; intuition discriminate|reflexivity]|reflexivity]. }
  assert (M : meant_rows co2 ["phi"%string] sample_file [(0%Z, [1 / 3]); (1%Z, [1 / 6]); (2%Z, [- (1 / 6)])]
    [(0%Z, mkRow (8 / 3) 4 2 1 (7 / 3) 4); (1%Z, mkRow 3 4 2 1 (13 / 6) 4)] 1).
  { pose proof (file_meant co2 st ["phi"%string] sample_file [(0%Z, [1 / 3]); (1%Z, [1 / 6])]
      [mkRow (8 / 3) 4 2 1 (7 / 3) 4; mkRow 3 4 2 1 (13 / 6) 4] Wr Kn ltac:(discriminate) G) as F.
    inversion F as [|? ? ? ? H1 F1]; subst. inversion F1 as [|? ? ? ? H2 F2]; subst.
    apply (meant_row co2 _ _ (0%Z, [1 / 3])); [exact H1|]. apply (meant_row co2 _ _ (1%Z, [1 / 6])); [exact H2|].
    apply meaningless_row; [|constructor]. intros o H.
    apply (sample_third co2 st o). apply sample_gives. apply sample_means. exact H. }
  repeat (split; [assumption|]).
  destruct (C193_threshold page co2 st ["phi"%string] (bench co2 st) end_line drawer end_options sample_file _ _ _ Pt C T Wr Kn Cb M)
    as (pct & Hp & _ & H).
  destruct (H 50 eq_refl) as (_ & _ & H3).
  assert (L : 50 <= pct).
  { unfold exact_percentage in Hp. simpl in Hp. revert Hp. unfold Rabs. destruct (Rcase_abs _); lra. }
  destruct (H3 L ltac:(discriminate)) as [S D]. split; [exact S|]. exact (proj1 D).
Qed.

(** C204: what the shell sees of a run without success threshold, for any
    settings, with or without data.  Settings that are refused (a ValueError, a
    TypeError or a missing column while they are read) end with 254, a ValueError
    of the calculation with 253, other errors with 255; in all these cases the
    output file is empty.  Otherwise the status is 0 and the rows are
    delivered. *)
Theorem C204_statuses : forall (Text : Type) co2 st header (t : tools Text row inp (Z * output_row)) argv d o items data,
  petro co2 st header t -> correct t argv d -> has_options argv o -> settings t argv d o items ->
  holds_data t argv d o data -> the_threshold o = None ->
  (forall e, parse_input st items (option_map (frame header) data) = Err e ->
     (e = ValueError \/ e = TypeError \/ e = ColumnInsertionError -> fails_with t o 254 (main t argv d)) /\
     (e = KeyError \/ e = IndexError \/ e = ZeroDivisionError \/ e = NotImplementedError -> fails_with t o 255 (main t argv d))) /\
  (forall i e, parse_input st items (option_map (frame header) data) = Ok i ->
     calculate_input co2 (List.length (labels data)) i = Err e ->
     (e = ValueError -> fails_with t o 253 (main t argv d)) /\
     (e = TypeError \/ e = KeyError \/ e = IndexError \/ e = ZeroDivisionError \/ e = NotImplementedError ->
      fails_with t o 255 (main t argv d))) /\
  (forall i outs, parse_input st items (option_map (frame header) data) = Ok i ->
     calculate_input co2 (List.length (labels data)) i = Ok outs -> the_calibration o = None ->
     status (main t argv d) = 0%Z /\ delivers t o 0 (combine (labels data) outs) (main t argv d)).
Proof.
  intros Text co2 st header t argv d o items data P. exact (end_codes co2 st header t P argv d o items data).
Qed.
Print Assumptions C204_statuses.
(** Settings that name a column the data do not have; the same for a column named
    by a dictionary, and settings without data that name a column. *)
Definition other_drawer (items : list (string * value)) : disk page := fun p =>
  if String.eqb p "c.yaml" then Some (File (ConfigText items))
  else if String.eqb p "d.csv" then Some (File (DataText [(0%Z, [1 / 3])])) else None.
Example C204_nonvacuous : forall co2 st items, let line := [Config "c.yaml"; DataFile "d.csv"; OutputFile "out.csv"] in
  let o := mkOptions "c.yaml" (Some "d.csv"%string) None (Some "out.csv"%string) None in
  correct (bench co2 st) line (other_drawer items) /\ has_options line o /\
  settings (bench co2 st) line (other_drawer items) o items /\
  holds_data (bench co2 st) line (other_drawer items) o (Some [(0%Z, [1 / 3])]) /\
  parse_input st [("dry_rock"%string, VDict [("column"%string, VStr "poro")])] (Some (frame ["phi"%string] [(0%Z, [1 / 3])])) =
    Err ColumnInsertionError /\
  parse_input st [("dry_rock"%string, VDict [("column"%string, VDict [])])] (Some (frame ["phi"%string] [(0%Z, [1 / 3])])) =
    Err TypeError.
Proof.
  intros co2 st items line o.
  split; [unfold line; desk_correct|].
  split.
  { split; [exists nil; eexists; split; [reflexivity|]; intros; cbn; intuition discriminate|].
    split; [exists [Config "c.yaml"]; eexists; split; [reflexivity|]; intros; cbn; intuition discriminate|].
    split; [intros; cbn; intuition discriminate|].
    split; [exists [Config "c.yaml"; DataFile "d.csv"]; eexists; split; [reflexivity|]; intros; cbn; intuition discriminate|].
    intros; cbn; intuition discriminate. }
  split; [exists (ConfigText items); split; [split; [cbn; intuition discriminate|reflexivity]|reflexivity]|].
  split; [exists (DataText [(0%Z, [1 / 3])]); split; [split; [cbn; intuition discriminate|reflexivity]|reflexivity]|].
  split; reflexivity.
Qed.
