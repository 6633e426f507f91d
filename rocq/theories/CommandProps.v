(** C175-C181: the command line, the files it leaves, what is printed. *)
From Coq Require Import String List ZArith Lra Lia.
From Verif Require Import Base InputModel MainModel MainSpec CommandModel CommandSpec CommandProofs MainProps.
Import ListNotations.
Open Scope R_scope.

(** Files of a small example: settings, tables of rows (true rows succeed). *)
Inductive sheet : Type := Nothing | Settings | Table (rows : list bool).
Definition desk : tools sheet bool bool bool :=
  mkTools sheet bool bool bool Nothing
    (fun x => match x with Settings => Ret (VDict []) | _ => Ret VNull end)
    (fun x => match x with Nothing => Raise EmptyDataError | Settings => Raise ParserError | Table rows => Ret rows end)
    (fun _ d => match d with Some (b :: _) => Ret b | Some [] => Raise ValueErr | None => Ret true end)
    (fun b => if b then Ret [b] else Raise ValueErr)
    Table (fun _ => Nothing)
    (fun x _ => match x with Table _ => (["kmin"%string], Ret tt) | _ => ([], Raise EmptyDataError) end)
    (fun _ => true) (fun _ => true) [("config.yaml"%string, Settings)].
Definition shelf : disk sheet := fun p =>
  if String.eqb p "c.yaml" then Some (File Settings)
  else if String.eqb p "good.csv" then Some (File (Table [true]))
  else if String.eqb p "half.csv" then Some (File (Table [false; true]))
  else if String.eqb p "old.csv" then Some (File (Table [true; true]))
  else None.

Ltac desk_correct :=
  split; [split; [|split]; intros; cbn; intuition discriminate|];
  split; [|split; [|split]];
  [ eexists; exists nil; eexists; split; [reflexivity|]; intros; cbn; intuition discriminate
  | let p := fresh "p" in let H := fresh "H" in
    intros p H; cbn in H;
    repeat match type of H with
    | _ \/ _ => destruct H as [H|H]
    end; try contradiction; try discriminate H; injection H as <-; eexists; reflexivity
  | let p := fresh "p" in let H := fresh "H" in
    intros p H; cbn in H;
    repeat match type of H with
    | _ \/ _ => destruct H as [H|H]
    end; try contradiction; try discriminate H; injection H as <-; (split; [discriminate|reflexivity])
  | let p := fresh "p" in let H := fresh "H" in
    intros p H; cbn in H;
    repeat match type of H with
    | _ \/ _ => destruct H as [H|H]
    end; try contradiction; try discriminate H; injection H as <-; eexists; (split; [reflexivity|lra]) ].

(** C175: whatever the command line, no file changes but those named as output
    and those in a directory named for the tutorial. *)
Theorem C175_only_named_files : forall (Text Row Inp Out : Type) (t : tools Text Row Inp Out) argv d p,
  ~ In (OutputFile p) argv -> (forall dir, In (GenerateTutorial dir) argv -> ~ inside dir p) ->
  files (main t argv d) p = d p.
Proof. intros Text Row Inp Out. exact only_named_files. Qed.
Print Assumptions C175_only_named_files.
Example C175_nonvacuous : ~ In (OutputFile "c.yaml") [Config "c.yaml"; OutputFile "old.csv"] /\
  files (main desk [Config "c.yaml"; OutputFile "old.csv"] shelf) "c.yaml" = Some (File Settings) /\
  files (main desk [Config "c.yaml"; OutputFile "old.csv"] shelf) "old.csv" = Some (File (Table [true])).
Proof. split; [cbn; intuition discriminate|split; reflexivity]. Qed.

(** C176: a command line without mistakes runs the program on the files named
    last for each option, with the threshold named last.  The status is the
    exit code modulo 256, or 1 if an exception leaves the program.  The output
    file holds the rows written, and nothing if none were; files named as
    output before hold nothing; all others are as they were. *)
Theorem C176_command : forall (Text Row Inp Out : Type) (t : tools Text Row Inp Out) argv d o p,
  correct t argv d -> has_options argv o -> runs t argv d o p ->
  match run p (the_threshold o) with
  | Raise _ =>
      status (main t argv d) = 1%Z /\
      forall q, (In (OutputFile q) argv -> files (main t argv d) q = Some (File (blank t))) /\
                (~ In (OutputFile q) argv -> files (main t argv d) q = d q)
  | Ret (code, w) =>
      status (main t argv d) = (code mod 256)%Z /\
      (forall q, the_output o <> Some q ->
         (In (OutputFile q) argv -> files (main t argv d) q = Some (File (blank t))) /\
         (~ In (OutputFile q) argv -> files (main t argv d) q = d q)) /\
      (forall q, the_output o = Some q ->
         files (main t argv d) q = Some (File (match w with Some r => to_csv t r | None => blank t end)))
  end.
Proof. intros Text Row Inp Out. exact main_is_run. Qed.
Print Assumptions C176_command.

(** C176: every command line without mistakes has options and stands for a
    run; both are determined. *)
Theorem C176_options : forall (Text Row Inp Out : Type) (t : tools Text Row Inp Out) argv d,
  correct t argv d -> exists o p, has_options argv o /\ runs t argv d o p /\
    (forall o', has_options argv o' -> o' = o) /\
    (forall p', runs t argv d o p' -> forall th, run p' th = run p th).
Proof.
  intros Text Row Inp Out t argv d C. destruct (options_exist t argv d C) as [o O].
  destruct (runs_exists t argv d o C O) as [p P]. exists o, p. split; [exact O|]. split; [exact P|].
  split; [intros o' O'; exact (options_unique argv o' o O' O)|].
  intros p' P' th. exact (runs_alike t argv d o p' p th P' P).
Qed.
Print Assumptions C176_options.
Definition sample_line : list argument :=
  [Config "c.yaml"; DataFile "good.csv"; DataFile "half.csv"; SuccessThreshold (Finite 50); OutputFile "new.csv"].
Definition sample_options : options := mkOptions "c.yaml" (Some "half.csv"%string) None (Some "new.csv"%string) (Some 50).
Definition sample_program : program bool bool bool :=
  mkProgram bool bool bool (Ret (VDict [])) (Some (Ret [false; true])) (validate desk) (compute desk) (fun _ => Ret tt) None.
Lemma sample_correct : correct desk sample_line shelf.
Proof. unfold sample_line. desk_correct. Qed.
Lemma sample_has_options : has_options sample_line sample_options.
Proof.
  split; [exists nil; eexists; split; [reflexivity|]; intros; cbn; intuition discriminate|].
  split; [exists [Config "c.yaml"; DataFile "good.csv"]; eexists; split; [reflexivity|]; intros; cbn; intuition discriminate|].
  split; [intros; cbn; intuition discriminate|].
  split.
  - exists [Config "c.yaml"; DataFile "good.csv"; DataFile "half.csv"; SuccessThreshold (Finite 50)], nil.
    split; [reflexivity|]. intros; cbn; tauto.
  - exists [Config "c.yaml"; DataFile "good.csv"; DataFile "half.csv"]; eexists. split; [reflexivity|].
    intros; cbn; intuition discriminate.
Qed.
Lemma sample_runs : runs desk sample_line shelf sample_options sample_program.
Proof.
  split; [exists Settings; split; [split; [cbn; intuition discriminate|reflexivity]|reflexivity]|].
  split; [exists (Table [false; true]); split; [split; [cbn; intuition discriminate|reflexivity]|reflexivity]|].
  repeat split.
Qed.
Example C176_nonvacuous : correct desk sample_line shelf /\ has_options sample_line sample_options /\
  runs desk sample_line shelf sample_options sample_program.
Proof. split; [exact sample_correct|split; [exact sample_has_options|exact sample_runs]]. Qed.

(** C177: a run that ends before its output is written has emptied the output
    file, whatever it held: a failing run does not keep the previous results. *)
Theorem C177_emptied : forall (Text Row Inp Out : Type) (t : tools Text Row Inp Out) argv d o p q,
  correct t argv d -> has_options argv o -> runs t argv d o p -> In (OutputFile q) argv ->
  (forall code r, run p (the_threshold o) <> Ret (code, Some r)) ->
  files (main t argv d) q = Some (File (blank t)).
Proof.
  intros Text Row Inp Out t argv d o p q C O R I N. pose proof (main_is_run t argv d o p C O R) as M.
  destruct (run p (the_threshold o)) as [[code [r|]]|e].
  - exfalso. exact (N code r eq_refl).
  - destruct M as (_ & M1 & M2).
    assert (D : the_output o = Some q \/ the_output o <> Some q).
    { destruct (the_output o) as [g|]; [|right; discriminate].
      destruct (string_dec g q) as [->|X]; [left; reflexivity|right; intros [= E]; exact (X E)]. }
    destruct D as [D|D]; [exact (M2 q D)|]. destruct (M1 q D) as [Y _]. exact (Y I).
  - destruct M as [_ M]. destruct (M q) as [Y _]. exact (Y I).
Qed.
Print Assumptions C177_emptied.
Definition failing_line : list argument := [Config "c.yaml"; DataFile "half.csv"; OutputFile "old.csv"].
Definition failing_options : options := mkOptions "c.yaml" (Some "half.csv"%string) None (Some "old.csv"%string) None.
Example C177_nonvacuous : correct desk failing_line shelf /\ has_options failing_line failing_options /\
  runs desk failing_line shelf failing_options sample_program /\ In (OutputFile "old.csv") failing_line /\
  run sample_program None = Ret ((-3)%Z, None).
Proof.
  split; [unfold failing_line; desk_correct|].
  split; [|split; [|split; [right; right; left; reflexivity|reflexivity]]].
  - split; [exists nil; eexists; split; [reflexivity|]; intros; cbn; intuition discriminate|].
    split; [exists [Config "c.yaml"]; eexists; split; [reflexivity|]; intros; cbn; intuition discriminate|].
    split; [intros; cbn; intuition discriminate|].
    split; [exists [Config "c.yaml"; DataFile "half.csv"], nil; split; [reflexivity|]; intros; cbn; tauto|].
    cbn [the_threshold failing_options chosen]. intros. cbn. unfold threshold_argument. intuition discriminate.
  - split; [exists Settings; split; [split; [cbn; intuition discriminate|reflexivity]|reflexivity]|].
    split; [exists (Table [false; true]); split; [split; [cbn; intuition discriminate|reflexivity]|reflexivity]|].
    repeat split.
Qed.

Theorem C177_refuted : exists (t : tools sheet bool bool bool) argv d q x,
  correct t argv d /\ d q = Some (File x) /\ status (main t argv d) <> 0%Z /\ files (main t argv d) q <> d q.
Proof.
  exists desk, failing_line, shelf, "old.csv"%string, (Table [true; true]).
  split; [unfold failing_line; desk_correct|]. split; [reflexivity|]. split; cbn; discriminate.
Qed.
Print Assumptions C177_refuted.

(** C177: the same for a command line that is rejected, here for want of a
    configuration file. *)
Theorem C177_rejected_refuted : exists (t : tools sheet bool bool bool) argv d q x,
  status (main t argv d) = 2%Z /\ d q = Some (File x) /\ files (main t argv d) q <> d q.
Proof.
  exists desk, [OutputFile "old.csv"], shelf, "old.csv"%string, (Table [true; true]).
  split; [reflexivity|split; [reflexivity|discriminate]].
Qed.
Print Assumptions C177_rejected_refuted.

(** C178: with the configuration or the data file also named as output, the run
    fails and the file is lost, whatever was in it. *)
Theorem C178_lost_input : forall (Text Row Inp Out : Type) (t : tools Text Row Inp Out) argv d o f,
  correct t argv d -> has_options argv o -> blank_is_empty t ->
  In (OutputFile f) argv -> the_config o = f \/ the_data o = Some f ->
  status (main t argv d) <> 0%Z /\ files (main t argv d) f = Some (File (blank t)).
Proof. intros Text Row Inp Out. exact lost_input. Qed.
Print Assumptions C178_lost_input.
Definition lost_line : list argument := [Config "c.yaml"; DataFile "good.csv"; OutputFile "good.csv"].
Definition lost_options : options := mkOptions "c.yaml" (Some "good.csv"%string) None (Some "good.csv"%string) None.
Lemma lost_correct : correct desk lost_line shelf.
Proof. unfold lost_line. desk_correct. Qed.
Example C178_nonvacuous : correct desk lost_line shelf /\ has_options lost_line lost_options /\ blank_is_empty desk /\
  In (OutputFile "good.csv") lost_line.
Proof.
  split; [exact lost_correct|]. split; [|split; [split; reflexivity|right; right; left; reflexivity]].
  split; [exists nil; eexists; split; [reflexivity|]; intros; cbn; intuition discriminate|].
  split; [exists [Config "c.yaml"]; eexists; split; [reflexivity|]; intros; cbn; intuition discriminate|].
  split; [intros; cbn; intuition discriminate|].
  split; [exists [Config "c.yaml"; DataFile "good.csv"], nil; split; [reflexivity|]; intros; cbn; tauto|].
  cbn [the_threshold lost_options chosen]. intros. cbn. unfold threshold_argument. intuition discriminate.
Qed.

Theorem C178_refuted : exists (t : tools sheet bool bool bool) argv d f x,
  correct t argv d /\ In (DataFile f) argv /\ d f = Some (File x) /\
  files (main t argv d) f <> d f.
Proof.
  exists desk, lost_line, shelf, "good.csv"%string, (Table [true]).
  split; [exact lost_correct|]. split; [right; left; reflexivity|]. split; [reflexivity|discriminate].
Qed.
Print Assumptions C178_refuted.

(** C179: the shell sees 0, 1 (an exception left the program), 2 (mistake in
    the command line) or 256 + code for the codes -5 to -1. *)
Theorem C179_status : forall (Text Row Inp Out : Type) (t : tools Text Row Inp Out) argv d,
  (status (main t argv d) = 0 \/ status (main t argv d) = 1 \/ status (main t argv d) = 2 \/
   251 <= status (main t argv d) <= 255)%Z.
Proof. intros Text Row Inp Out. exact main_status. Qed.
Print Assumptions C179_status.

(** C179: status 0 of a command line that asks for a run means that rows were
    written, to the output file named last or to standard output. *)
Theorem C179_success_writes : forall (Text Row Inp Out : Type) (t : tools Text Row Inp Out) argv d,
  asks_for_run argv -> status (main t argv d) = 0%Z ->
  exists o r, has_options argv o /\
    match the_output o with
    | Some q => files (main t argv d) q = Some (File (to_csv t r))
    | None => In (Rows r) (stdout (main t argv d))
    end.
Proof. intros Text Row Inp Out. exact success_writes. Qed.
Print Assumptions C179_success_writes.

(** C179: a command line without mistakes never ends with status 2. *)
Theorem C179_not_rejected : forall (Text Row Inp Out : Type) (t : tools Text Row Inp Out) argv d,
  correct t argv d -> status (main t argv d) <> 2%Z.
Proof. intros Text Row Inp Out. exact correct_status. Qed.
Print Assumptions C179_not_rejected.
Example C179_nonvacuous : correct desk failing_line shelf /\ asks_for_run sample_line /\
  status (main desk failing_line shelf) = 253%Z /\ status (main desk [Config "c.yaml"] shelf) = 0%Z /\
  status (main desk [Config "none.yaml"] shelf) = 2%Z /\
  status (main desk [Config "old.csv"; DataFile "good.csv"; SuccessThreshold (Finite 0)] shelf) = 1%Z.
Proof.
  split; [unfold failing_line; desk_correct|].
  split; [exact (proj1 sample_correct)|].
  split; [reflexivity|]. split; [reflexivity|]. split; [reflexivity|].
  unfold main. cbn [parse_arguments percentage]. destruct (Rle_dec 0 0); [|lra]. destruct (Rle_dec 0 100); [|lra].
  reflexivity.
Qed.

(** C180: what a successful run prints to standard output: a message for each
    failing row, the rows unless they go to a file, the statistics. *)
Theorem C180_stdout : forall (Text Row Inp Out : Type) (t : tools Text Row Inp Out) argv d o p r keys,
  correct t argv d -> has_options argv o -> runs t argv d o p ->
  run p (the_threshold o) = Ret (0%Z, Some r) -> compares t argv d o r keys ->
  (the_threshold o = None -> stdout (main t argv d) = rows_printed o r ++ map Statistics keys)%list /\
  (forall items rows rs f th, the_threshold o = Some th -> config_is p items -> data_is p (Some rows) ->
     rows_give p items rows rs f ->
     stdout (main t argv d) = repeat Message f ++ rows_printed o r ++ map Statistics keys)%list.
Proof. intros Text Row Inp Out. exact stdout_of_success. Qed.
Print Assumptions C180_stdout.
Example C180_nonvacuous : correct desk [Config "c.yaml"; Calibration "good.csv"] shelf /\
  stdout (main desk [Config "c.yaml"; Calibration "good.csv"] shelf) = [Rows [true]; Statistics "kmin"] /\
  compares desk [Config "c.yaml"; Calibration "good.csv"] shelf
    (mkOptions "c.yaml" None (Some "good.csv"%string) None None) [true] ["kmin"%string].
Proof.
  split; [desk_correct|]. split; [reflexivity|]. split; [discriminate|]. intros _.
  exists (Table [true]). split; [|reflexivity]. split; [cbn; intuition discriminate|reflexivity].
Qed.

(** C180: so standard output of a successful run is not the table alone: a
    message precedes it. *)
Theorem C180_refuted : exists (t : tools sheet bool bool bool) argv d r,
  correct t argv d /\ status (main t argv d) = 0%Z /\ (forall q, ~ In (OutputFile q) argv) /\
  (forall f, ~ In (Calibration f) argv) /\
  stdout (main t argv d) = [Message; Rows r].
Proof.
  exists desk, [Config "c.yaml"; DataFile "half.csv"; SuccessThreshold (Finite 0)], shelf, [true].
  split; [desk_correct|].
  assert (E : main desk [Config "c.yaml"; DataFile "half.csv"; SuccessThreshold (Finite 0)] shelf =
    execute desk (mkNamespace (Some "c.yaml"%string) (Some "half.csv"%string) None None (Some 0) false) shelf).
  { unfold main. cbn [parse_arguments percentage]. destruct (Rle_dec 0 0); [|lra]. destruct (Rle_dec 0 100); [|lra].
    reflexivity. }
  rewrite E. unfold execute.
  assert (F : run (program_of desk (mkNamespace (Some "c.yaml"%string) (Some "half.csv"%string) None None (Some 0) false) shelf)
                (Some 0) = Ret (0%Z, Some [true])).
  { unfold run, run_with_threshold. cbn [csv_read program_of option_map data_file].
    cbn [make_per_row_input load_config_from_yaml load_data_from_csv yaml_load csv_read program_of config_file data_file
         option_map text load read_csv desk then_ try_ shelf String.eqb Ascii.eqb Bool.eqb map parse validate calculate_rows calculate compute length].
    destruct (Rlt_dec (success_percentage 1 2) 0) as [L|L]; [|reflexivity].
    exfalso. pose proof (MainProofs.percentage_range 1 2 ltac:(lia)). lra. }
  cbn [success_threshold]. rewrite F.
  split; [reflexivity|]. split; [intros; cbn; intuition discriminate|].
  split; [intros; cbn; intuition discriminate|]. reflexivity.
Qed.
Print Assumptions C180_refuted.

(** C181: asked for first, the tutorial is written into a new directory, with
    status 0, and nothing else changes; the rest of the command line is not
    looked at.  A directory or file of that name is left alone, with status
    252. *)
Theorem C181_tutorial : forall (Text Row Inp Out : Type) (t : tools Text Row Inp Out) dir rest d,
  (forall e, d dir = Some e -> main t (GenerateTutorial dir :: rest) d = mkFinish 252 d [Message]) /\
  (d dir = None -> may_make t dir = true -> NoDup (map fst (tutorial t)) ->
   status (main t (GenerateTutorial dir :: rest) d) = 0%Z /\
   (forall name x, In (name, x) (tutorial t) ->
      files (main t (GenerateTutorial dir :: rest) d) (dir ++ "/" ++ name)%string = Some (File x)) /\
   (forall p, ~ inside dir p -> files (main t (GenerateTutorial dir :: rest) d) p = d p)).
Proof.
  intros Text Row Inp Out t dir rest d. split; [intros e; apply tutorial_exists|apply tutorial_made].
Qed.
Print Assumptions C181_tutorial.
Example C181_nonvacuous : shelf "try" = None /\ may_make desk "try" = true /\ NoDup (map fst (tutorial desk)) /\
  files (main desk [GenerateTutorial "try"; Config "none.yaml"] shelf) "try/config.yaml" = Some (File Settings).
Proof. split; [reflexivity|]. split; [reflexivity|]. split; [|reflexivity]. constructor; [intros []|constructor]. Qed.
