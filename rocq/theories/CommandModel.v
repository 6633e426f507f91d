(** Model of the command line of __main__.py: argparse, the files it opens,
    what is printed, and the status the shell sees.

    A command line is a list of arguments already told apart by argparse
    (exact option names, each with its value; the words and the
    file name [-] are in ArgvModel.v).  A path names one file: links and two names of
    one file are left out.  The texts of files are a parameter, as is what yaml,
    pandas and pydantic make of them.  Writing the output to an opened file does
    not fail (a full disk is left out). *)
From Coq Require Import String List ZArith Bool.
From Verif Require Import Base InputModel MainModel.
Open Scope string_scope.

(** __main__.py:298-338: the positional argument, the options, and the [-h]
    argparse adds. *)
Inductive argument : Type :=
  | Config (path : string)
  | DataFile (path : string)
  | Calibration (path : string)
  | OutputFile (path : string)
  | Version
  | GenerateTutorial (directory : string)
  | SuccessThreshold (v : pyfloat)
  | Help.

Inductive entry (Text : Type) : Type := File (t : Text) | Folder.
Arguments File {Text} t.
Arguments Folder {Text}.

(** What stands at a path; None: nothing. *)
Definition disk (Text : Type) : Type := string -> option (entry Text).

(** What the program is run with. *)
Record tools (Text Row Inp Out : Type) : Type := mkTools {
  blank : Text;                                                     (* the text of an emptied file *)
  load : Text -> out value;                                         (* yaml.safe_load *)
  read_csv : Text -> out (list Row);                                (* pd.read_csv of the data *)
  validate : list (string * value) -> option (list Row) -> out Inp; (* parse_obj_as *)
  compute : Inp -> out (list Out);                                  (* calculate_results *)
  to_csv : list Out -> Text;                                        (* the text to_csv writes *)
  flushed : list Out -> Text;                                       (* as much of it as is in the file before it is closed *)
  statistics : Text -> list Out -> list string * out unit;          (* run_calibration's body: keys printed, how it ended *)
  may_write : string -> bool;                                       (* the system lets the path be opened for writing *)
  may_make : string -> bool;                                        (* the system lets the directory be made *)
  tutorial : list (string * Text)                                   (* files of tutorial_config *)
}.
Arguments blank {Text Row Inp Out} _.
Arguments load {Text Row Inp Out} _ _.
Arguments read_csv {Text Row Inp Out} _ _.
Arguments validate {Text Row Inp Out} _ _ _.
Arguments compute {Text Row Inp Out} _ _.
Arguments to_csv {Text Row Inp Out} _ _.
Arguments flushed {Text Row Inp Out} _ _.
Arguments statistics {Text Row Inp Out} _ _ _.
Arguments may_write {Text Row Inp Out} _ _.
Arguments may_make {Text Row Inp Out} _ _.
Arguments tutorial {Text Row Inp Out} _.

Definition set {Text} (d : disk Text) (p : string) (e : entry Text) : disk Text :=
  fun q => if String.eqb q p then Some e else d q.

(** argparse.FileType("r"), __main__.py:301, 305, 311 *)
Definition open_r {Text} (d : disk Text) (p : string) : bool :=
  match d p with Some (File _) => true | _ => false end.

(** argparse.FileType("w"), __main__.py:317: opening empties the file. *)
Definition open_w {Text Row Inp Out} (t : tools Text Row Inp Out) (d : disk Text) (p : string)
  : option (disk Text) :=
  match d p with
  | Some Folder => None
  | _ => if may_write t p then Some (set d p (File (blank t))) else None
  end.

(** A line printed to standard output: a message, the output rows, the
    statistics of a column, or argparse's text for [--version] and [-h]. *)
Inductive line (Out : Type) : Type :=
  Message | Rows (rows : list Out) | Statistics (key : string) | Info.
Arguments Message {Out}.
Arguments Rows {Out} rows.
Arguments Statistics {Out} key.
Arguments Info {Out}.

(** How the process ends: exit status as the shell sees it, files, standard
    output. *)
Record finish (Text Out : Type) : Type := mkFinish {
  status : Z;
  files : disk Text;
  stdout : list (line Out)
}.
Arguments mkFinish {Text Out} _ _ _.
Arguments status {Text Out} _.
Arguments files {Text Out} _.
Arguments stdout {Text Out} _.

(** sys.exit of a code: the shell sees its last eight bits. *)
Definition exit {Text Out} (code : Z) (d : disk Text) (lines : list (line Out)) : finish Text Out :=
  mkFinish (code mod 256)%Z d lines.

(** The namespace argparse fills.  [output] None: the default sys.stdout. *)
Record namespace : Type := mkNamespace {
  config_file : option string;
  data_file : option string;
  calibration_data : option string;
  output : option string;
  success_threshold : option R;
  unrecognized : bool
}.

(** shutil.copytree of [tutorial_config] (265-268): the directory must not
    exist. *)
Definition generate_tutorial {Text Row Inp Out} (t : tools Text Row Inp Out) (d : disk Text) (dir : string)
  : option (disk Text) :=
  match d dir with
  | Some _ => None
  | None =>
      if may_make t dir
      then Some (fold_left (fun d f => set d (dir ++ "/" ++ fst f) (File (snd f))) (tutorial t)
                   (set d dir Folder))
      else None
  end.

(** ArgumentParser.parse_args (341-343): arguments are acted on one by one in
    their order, so files are opened (and emptied) while parsing; an error
    leaves with status 2.  A second positional argument is not opened. *)
Fixpoint parse_arguments {Text Row Inp Out} (t : tools Text Row Inp Out)
    (argv : list argument) (d : disk Text) (ns : namespace)
  : finish Text Out + (namespace * disk Text) :=
  let '(mkNamespace c da ca o th u) := ns in
  match argv with
  | [] => match c, u with
          | Some _, false => inr (ns, d)
          | _, _ => inl (exit 2 d [])
          end
  | Config p :: rest =>
      match c with
      | Some _ => parse_arguments t rest d (mkNamespace c da ca o th true)
      | None => if open_r d p then parse_arguments t rest d (mkNamespace (Some p) da ca o th u)
                else inl (exit 2 d [])
      end
  | DataFile p :: rest =>
      if open_r d p then parse_arguments t rest d (mkNamespace c (Some p) ca o th u)
      else inl (exit 2 d [])
  | Calibration p :: rest =>
      if open_r d p then parse_arguments t rest d (mkNamespace c da (Some p) o th u)
      else inl (exit 2 d [])
  | OutputFile p :: rest =>
      match open_w t d p with
      | Some d' => parse_arguments t rest d' (mkNamespace c da ca (Some p) th u)
      | None => inl (exit 2 d [])
      end
  | Version :: _ | Help :: _ => inl (exit 0 d [Info])
  | GenerateTutorial dir :: _ =>                                      (* 271-278 *)
      match generate_tutorial t d dir with
      | Some d' => inl (exit 0 d' [])
      | None => inl (exit (-4) d [Message])
      end
  | SuccessThreshold v :: rest =>
      match percentage v with
      | Some x => parse_arguments t rest d (mkNamespace c da ca o (Some x) u)
      | None => inl (exit 2 d [])
      end
  end.

(** Text of an opened file when it is read. *)
Definition text {Text Row Inp Out} (t : tools Text Row Inp Out) (d : disk Text) (p : string) : Text :=
  match d p with Some (File x) => x | _ => blank t end.

(** [results.to_csv(args.output_file)] (203, 246): to the opened file, or to
    standard output.  First the file as long as it is open, then as the process
    leaves it. *)
Definition written {Text Row Inp Out} (t : tools Text Row Inp Out) (o : option string) (d : disk Text)
    (r : list Out) : disk Text * disk Text * list (line Out) :=
  match o with
  | Some p => (set d p (File (flushed t r)), set d p (File (to_csv t r)), [])
  | None => (d, d, [Rows r])
  end.

(** The calls to yaml, pandas and pydantic, with the opened files. *)
Definition program_of {Text Row Inp Out} (t : tools Text Row Inp Out) (ns : namespace) (d : disk Text)
  : program Row Inp Out :=
  mkProgram Row Inp Out
    (load t (text t d (match config_file ns with Some p => p | None => "" end)))
    (option_map (fun p => read_csv t (text t d p)) (data_file ns))
    (validate t) (compute t) (fun _ => Ret tt)
    (option_map (fun p r => snd (statistics t (text t (fst (fst (written t (output ns) d r))) p) r))
       (calibration_data ns)).

(** What is printed after the output is written: 209-219 and 252-262 *)
Definition calibration_lines {Text Row Inp Out} (t : tools Text Row Inp Out) (ns : namespace) (d : disk Text)
    (r : list Out) : list (line Out) :=
  match calibration_data ns with
  | None => []
  | Some p =>
      let (keys, ended) := statistics t (text t (fst (fst (written t (output ns) d r))) p) r in
      map Statistics keys ++ match ended with Ret _ => [] | Raise _ => [Message] end
  end%list.

(** What make_per_row_input (134-151) and run_with_threshold (184-191) print
    for the rows: one message for each that fails, whichever of the two finds
    it. *)
Definition row_lines {Text Row Inp Out} (t : tools Text Row Inp Out) (ns : namespace) (d : disk Text)
  : list (line Out) :=
  match make_per_row_input (program_of t ns d) with
  | Ret inputs => repeat Message (snd (calculate_rows (program_of t ns d) inputs))
  | Raise _ => []
  end.

(** __main__.py:176-262 and 348: [sys.exit(run(...))].  What [run] decides is
    MainModel's; an exception leaves the process with status 1.  A run that
    ends before the output prints one message (and in threshold mode those of
    the rows); print_tb and uncaught exceptions go to standard error. *)
Definition execute {Text Row Inp Out} (t : tools Text Row Inp Out) (ns : namespace) (d : disk Text)
  : finish Text Out :=
  let before := match success_threshold ns with Some _ => row_lines t ns d | None => [] end in
  match run (program_of t ns d) (success_threshold ns) with
  | Raise _ => exit 1 d []
  | Ret (code, None) =>
      exit code d
        ((match csv_read (program_of t ns d) with Some _ => before | None => [] end) ++ [Message])
  | Ret (code, Some r) =>
      let '(_, d', rows) := written t (output ns) d r in
      exit code d' (before ++ rows ++ calibration_lines t ns d r)
  end%list.

(** __main__.py:346-348 *)
Definition main {Text Row Inp Out} (t : tools Text Row Inp Out) (argv : list argument) (d : disk Text)
  : finish Text Out :=
  match parse_arguments t argv d (mkNamespace None None None None None false) with
  | inl f => f
  | inr (ns, d') => execute t ns d'
  end.
