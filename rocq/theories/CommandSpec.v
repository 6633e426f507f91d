(** Words for command lines and files. *)
From Coq Require Import String List ZArith.
From Verif Require Import Base InputModel MainModel CommandModel.
Open Scope R_scope.

(** The option [k] is given the value [v] last, or (None) not at all. *)
Definition chosen {A : Type} (k : A -> argument) (argv : list argument) (v : option A) : Prop :=
  match v with
  | Some a => exists before after, argv = (before ++ k a :: after)%list /\ forall b, ~ In (k b) after
  | None => forall a, ~ In (k a) argv
  end.

(** One configuration file is named. *)
Definition configured (argv : list argument) (c : string) : Prop :=
  exists before after, argv = (before ++ Config c :: after)%list /\ forall x, ~ In (Config x) (before ++ after).

(** A threshold is a number from 0 to 100. *)
Definition threshold_argument (x : R) : argument := SuccessThreshold (Finite x).

(** The command line asks for neither version, help nor tutorial. *)
Definition asks_for_run (argv : list argument) : Prop :=
  ~ In Version argv /\ ~ In Help argv /\ forall dir, ~ In (GenerateTutorial dir) argv.

(** A command line without mistakes: one configuration file, input files that
    exist, output files that may be written, thresholds that are percentages. *)
Definition correct {Text Row Inp Out} (t : tools Text Row Inp Out) (argv : list argument) (d : disk Text) : Prop :=
  asks_for_run argv /\
  (exists c, configured argv c) /\
  (forall p, In (Config p) argv \/ In (DataFile p) argv \/ In (Calibration p) argv -> exists x, d p = Some (File x)) /\
  (forall p, In (OutputFile p) argv -> d p <> Some Folder /\ may_write t p = true) /\
  (forall v, In (SuccessThreshold v) argv -> exists x, v = Finite x /\ 0 <= x <= 100).

(** The options of a command line. *)
Record options : Type := mkOptions {
  the_config : string;
  the_data : option string;
  the_calibration : option string;
  the_output : option string;
  the_threshold : option R
}.
Definition has_options (argv : list argument) (o : options) : Prop :=
  configured argv (the_config o) /\ chosen DataFile argv (the_data o) /\
  chosen Calibration argv (the_calibration o) /\ chosen OutputFile argv (the_output o) /\
  chosen threshold_argument argv (the_threshold o).

(** [x] is read from the file at [p]: its text, or nothing if the file is also
    named as output. *)
Definition reads_text {Text Row Inp Out} (t : tools Text Row Inp Out) (argv : list argument) (d : disk Text)
    (p : string) (x : Text) : Prop :=
  (In (OutputFile p) argv -> x = blank t) /\ (~ In (OutputFile p) argv -> d p = Some (File x)).

(** The run of MainModel the command line stands for: configuration, data and
    calibration data as read from the files.  Calibration data read from the
    output file are what is in it by then. *)
Definition runs {Text Row Inp Out} (t : tools Text Row Inp Out) (argv : list argument) (d : disk Text)
    (o : options) (p : program Row Inp Out) : Prop :=
  (exists x, reads_text t argv d (the_config o) x /\ yaml_load p = load t x) /\
  match the_data o with
  | None => csv_read p = None
  | Some f => exists x, reads_text t argv d f x /\ csv_read p = Some (read_csv t x)
  end /\
  parse p = validate t /\ calculate p = compute t /\ (forall r, write p r = Ret tt) /\
  match the_calibration o with
  | None => compare p = None
  | Some f => exists body, compare p = Some body /\
      (the_output o = Some f -> forall r, body r = snd (statistics t (flushed t r) r)) /\
      (the_output o <> Some f -> exists x, reads_text t argv d f x /\ forall r, body r = snd (statistics t x r))
  end.

(** The path is the directory or in it. *)
Definition inside (dir p : string) : Prop := p = dir \/ exists x, p = (dir ++ "/" ++ x)%string.

(** yaml.safe_load of nothing is None, pd.read_csv of nothing an
    EmptyDataError. *)
Definition blank_is_empty {Text Row Inp Out} (t : tools Text Row Inp Out) : Prop :=
  load t (blank t) = Ret VNull /\ read_csv t (blank t) = Raise EmptyDataError.

(** The columns whose statistics are printed, for the output [r]. *)
Definition compares {Text Row Inp Out} (t : tools Text Row Inp Out) (argv : list argument) (d : disk Text)
    (o : options) (r : list Out) (keys : list string) : Prop :=
  match the_calibration o with
  | None => keys = []
  | Some f =>
      (the_output o = Some f -> keys = fst (statistics t (flushed t r) r)) /\
      (the_output o <> Some f -> exists x, reads_text t argv d f x /\ keys = fst (statistics t x r))
  end.

(** Standard output holds the rows unless they go to a file. *)
Definition rows_printed {Out} (o : options) (r : list Out) : list (line Out) :=
  match the_output o with None => [Rows r] | Some _ => [] end.
