(** Model of the texts the package makes of a material and of a failure to read
    the input, and of the decorator that opens files given by name. *)
From Coq Require Import String List ZArith.
From Verif Require Import Base MaterialModel InputModel MainModel.
Import ListNotations.
Open Scope string_scope.

(** material.py:211-240, [Material.__str__] and [__repr__].  [show] is Python's
    formatting of a float.  Every material has all five properties once
    [set_defaults] has run (material.py:168-179), so the branches for None are
    left out. *)
Definition material_str (show : R -> string) (m : material) : string :=
  "Material(" ++ ("shear_modulus=" ++ show (shear m) ++ ", ") ++ ("bulk_modulus=" ++ show (bulk m) ++ ", ")
    ++ ("primary_velocity=" ++ show (vp m) ++ ", ") ++ ("secondary_velocity=" ++ show (vs m) ++ ", ")
    ++ "density=" ++ show (dens m) ++ ")".

(** What goes wrong while reading the input, with the text of the exception.
    A YAMLError has mark, problem and context when it is a MarkedYAMLError. *)
Inductive failure : Type :=
  | BadYaml (marked : option (string * string * option string))
  | NotAMapping
  | BadCsv (text : string)
  | EmptyCsv (text : string)
  | BadColumn (text : string)
  | BadValue (text : string).

Definition newline : string := String (Ascii.ascii_of_nat 10) EmptyString.

(** __main__.py:86-131: the text of the InputError raised.  Line 110 has no f
    before the string. *)
Definition failure_text (f : failure) : string :=
  match f with
  | BadYaml (Some (mark, problem, Some context)) =>
      "Error while parsing the config file:" ++ newline ++ mark ++ newline ++ problem ++ newline ++ context
  | BadYaml (Some (mark, problem, None)) =>
      "Error while parsing the config file:" ++ newline ++ newline ++ mark ++ newline ++ problem
  | BadYaml None => "Something went wrong while parsing the config file."
  | NotAMapping => "Unexpected format of config file"
  | BadCsv text => "Error while reading data file: {e}"
  | EmptyCsv text => "Data file seems to be empty"
  | BadColumn text => "Error while inserting column data from csv: " ++ text
  | BadValue text => "Inconsistent values in input file: " ++ text
  end.

(** __main__.py:227-229 *)
Definition printed (f : failure) : string := "Could not read input: " ++ failure_text f.

(** What can be passed for a file: a name, something opened already, or None. *)
Inductive arg (Stream : Type) : Type := Name (s : string) | Opened (f : Stream) | NoneArg.
Arguments Name {Stream} s.
Arguments Opened {Stream} f.
Arguments NoneArg {Stream}.

(** __main__.py:69-81, [takes_stream(i, mode)] around [func].  [opening] is
    [open(name, mode)], which fails or gives a stream.  Closing the stream after
    [func] returns is left out: what [func] returns does not depend on it. *)
Definition takes_stream {Stream A} (i : nat) (opening : string -> out Stream)
    (func : list (arg Stream) -> list (string * arg Stream) -> out A)
    (args : list (arg Stream)) (kwargs : list (string * arg Stream)) : out A :=
  match nth_error args i with
  | Some (Name s) => then_ (opening s) (fun f => func (firstn i args ++ Opened f :: skipn (S i) args)%list kwargs)
  | _ => func args kwargs
  end.

(** Python's binding of arguments to the two parameters of [make_input]; None
    where the call is a TypeError. *)
Fixpoint keyword {X} (name : string) (kwargs : list (string * X)) : option X :=
  match kwargs with
  | [] => None
  | (n, x) :: l => if String.eqb n name then Some x else keyword name l
  end.
Definition bind_two {X} (args : list X) (kwargs : list (string * X)) : option (X * X) :=
  match args, kwargs with
  | [a; b], [] => Some (a, b)
  | [a], [(n, b)] => if String.eqb n "data_file" then Some (a, b) else None
  | [], [_; _] =>
      match keyword "config_file" kwargs, keyword "data_file" kwargs with
      | Some a, Some b => Some (a, b)
      | _, _ => None
      end
  | _, _ => None
  end.

(** __main__.py:117-131 undecorated.  [yaml.safe_load] takes a stream or the
    text itself; [pd.read_csv] takes a stream or a file name; None for the
    configuration is an AttributeError of yaml. *)
Definition make_input_on {Stream Row Inp} (load_stream : Stream -> out value) (load_text : string -> out value)
    (read_stream : Stream -> out (list Row)) (read_name : string -> out (list Row))
    (parse : list (string * value) -> option (list Row) -> out Inp) (a b : arg Stream) : out Inp :=
  make_input (mkProgram Row Inp unit
    (match a with Opened f => load_stream f | Name s => load_text s | NoneArg => Raise OtherErr end)
    (match b with Opened f => Some (read_stream f) | Name s => Some (read_name s) | NoneArg => None end)
    parse (fun _ => Ret []) (fun _ => Ret tt) None).

(** __main__.py:116-131, [make_input] as it is exported. *)
Definition make_input_call {Stream Row Inp} (opening : string -> out Stream) (load_stream : Stream -> out value)
    (load_text : string -> out value) (read_stream : Stream -> out (list Row)) (read_name : string -> out (list Row))
    (parse : list (string * value) -> option (list Row) -> out Inp)
    (args : list (arg Stream)) (kwargs : list (string * arg Stream)) : out Inp :=
  takes_stream 0 opening
    (fun args kwargs =>
       match bind_two args kwargs with
       | None => Raise OtherErr
       | Some (a, b) => make_input_on load_stream load_text read_stream read_name parse a b
       end) args kwargs.
