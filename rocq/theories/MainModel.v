(** Model of __main__.py: reading, calculating, writing, exit codes.

    The stages done by yaml, pandas and pydantic are parameters: every function
    below is given what those calls return or raise.  A data frame is the list
    of its rows.  Printing is left out. *)
From Coq Require Import String List ZArith.
From Flocq Require Import Core.
From Verif Require Import Base InputModel.
Open Scope R_scope.

(** Exception classes told apart by the handlers.  [UnicodeError] stands for
    UnicodeDecodeError, [ValueErr] for any other ValueError (pydantic's
    ValidationError included), [OtherErr] for everything else. *)
Inductive pyexn : Type :=
  | InputError | CalibrationError | ParserError | EmptyDataError | UnicodeError | ValueErr
  | YAMLError | ColumnErr | IndexErr | KeyErr | OtherErr.

(** [isinstance(e, ValueError)]: __main__.py:84, 154 and the pandas classes. *)
Definition is_value_error (e : pyexn) : bool :=
  match e with
  | InputError | CalibrationError | ParserError | EmptyDataError | UnicodeError | ValueErr => true
  | _ => false
  end.

(** [isinstance(e, (KeyError, IndexError))]: input.py:19 *)
Definition is_lookup_error (e : pyexn) : bool :=
  match e with ColumnErr | IndexErr | KeyErr => true | _ => false end.

Inductive out (A : Type) : Type := Ret (a : A) | Raise (e : pyexn).
Arguments Ret {A} a.
Arguments Raise {A} e.
Definition then_ {A B} (x : out A) (k : A -> out B) : out B :=
  match x with Ret a => k a | Raise e => Raise e end.
(** [try: x except E as e: handler] *)
Definition try_ {A} (x : out A) (h : pyexn -> out A) : out A :=
  match x with Ret a => Ret a | Raise e => h e end.

(** What the run works on.  [Row]: a data row, [Inp]: a validated input,
    [Out]: an output row. *)
Record program (Row Inp Out : Type) : Type := mkProgram {
  yaml_load : out value;                                          (* yaml.safe_load *)
  csv_read : option (out (list Row));                             (* pd.read_csv; None: no data file *)
  parse : list (string * value) -> option (list Row) -> out Inp;  (* parse_obj_as *)
  calculate : Inp -> out (list Out);                              (* calculate_results *)
  write : list Out -> out unit;                                   (* to_csv *)
  compare : option (list Out -> out unit)                         (* body of run_calibration, None: not asked for *)
}.
Arguments yaml_load {Row Inp Out} _.
Arguments csv_read {Row Inp Out} _.
Arguments parse {Row Inp Out} _ _ _.
Arguments calculate {Row Inp Out} _ _.
Arguments write {Row Inp Out} _ _.
Arguments compare {Row Inp Out} _.

(** __main__.py:88-103 *)
Definition load_config_from_yaml {Row Inp Out} (p : program Row Inp Out) : out (list (string * value)) :=
  then_ (try_ (yaml_load p) (fun e => match e with YAMLError => Raise InputError | _ => Raise e end))
    (fun config => match config with VDict items => Ret items | _ => Raise InputError end).

(** __main__.py:106-113 *)
Definition load_data_from_csv {Row Inp Out} (p : program Row Inp Out) : out (option (list Row)) :=
  match csv_read p with
  | None => Ret None
  | Some read =>
      try_ (then_ read (fun d => Ret (Some d)))
        (fun e => match e with ParserError | EmptyDataError => Raise InputError | _ => Raise e end)
  end.

(** __main__.py:117-131 (the files are open already, so takes_stream passes them on) *)
Definition make_input {Row Inp Out} (p : program Row Inp Out) : out Inp :=
  then_ (load_config_from_yaml p) (fun config =>
  then_ (load_data_from_csv p) (fun data =>
  try_ (parse p config data)
    (fun e => match e with
              | ColumnErr => Raise InputError
              | _ => if is_value_error e then Raise InputError else Raise e
              end))).

(** __main__.py:134-151.  With no data file [data.iterrows()] is an
    AttributeError; [run_with_threshold] rules that out. *)
Definition make_per_row_input {Row Inp Out} (p : program Row Inp Out) : out (list (option Inp)) :=
  then_ (load_config_from_yaml p) (fun config =>
  then_ (load_data_from_csv p) (fun data =>
  match data with
  | None => Raise OtherErr
  | Some rows =>
      Ret (map (fun row => match parse p config (Some [row]) with
                           | Ret inp => Some inp
                           | Raise _ => None
                           end) rows)
  end)).

(** __main__.py:158-173 *)
Definition run_calibration (body : out unit) : out unit :=
  try_ body (fun e => match e with
                      | ParserError | EmptyDataError => Raise CalibrationError
                      | _ => if is_lookup_error e then Raise CalibrationError else Raise e
                      end).

(** How a run ends: exit code and the rows written, if any were. *)
Definition outcome (Out : Type) : Type := (Z * option (list Out))%type.

(** __main__.py:209-219 and 252-262, after the output is written *)
Definition calibrate_and_exit {Row Inp Out} (p : program Row Inp Out) (results : list Out) : outcome Out :=
  match compare p with
  | None => (0%Z, Some results)
  | Some body =>
      match run_calibration (body results) with
      | Ret _ => (0%Z, Some results)
      | Raise CalibrationError => ((-4)%Z, Some results)
      | Raise _ => ((-1)%Z, Some results)
      end
  end.

(** Double precision rounding, round to nearest even. *)
Definition fl (x : R) : R := round radix2 (FLT_exp (-1074) 53) ZnearestE x.

(** __main__.py:192-195.  Python divides integers with a correctly rounded
    result. *)
Definition success_percentage (failures rows : nat) : R :=
  if Nat.eqb rows 0 then 100
  else fl (fl (1 - fl (INR failures / INR rows)) * 100).

(** __main__.py:183-191: results of the successful rows and number of failures *)
Fixpoint calculate_rows {Row Inp Out} (p : program Row Inp Out) (inputs : list (option Inp))
  : list (list Out) * nat :=
  match inputs with
  | [] => ([], O)
  | i :: rest =>
      let (results, failures) := calculate_rows p rest in
      match i with
      | None => (results, S failures)
      | Some inp =>
          match calculate p inp with
          | Ret r => (r :: results, failures)
          | Raise _ => (results, S failures)
          end
      end
  end.

(** pd.concat: nothing to concatenate is a ValueError. *)
Definition pd_concat {Out} (frames : list (list Out)) : out (list Out) :=
  match frames with [] => Raise ValueErr | _ => Ret (concat frames) end.

(** __main__.py:176-219.  An exception here leaves the program. *)
Definition run_with_threshold {Row Inp Out} (p : program Row Inp Out) (threshold : R) : out (outcome Out) :=
  match csv_read p with
  | None => Ret ((-5)%Z, None)
  | Some _ =>
      then_ (make_per_row_input p) (fun inputs =>
      let (results, failures) := calculate_rows p inputs in
      if Rlt_dec (success_percentage failures (length inputs)) threshold then Ret ((-5)%Z, None)
      else
        match then_ (pd_concat results) (fun r => then_ (write p r) (fun _ => Ret r)) with
        | Raise _ => Ret ((-1)%Z, None)
        | Ret r => Ret (calibrate_and_exit p r)
        end)
  end.

(** __main__.py:222-262 *)
Definition run {Row Inp Out} (p : program Row Inp Out) (threshold : option R) : out (outcome Out) :=
  match threshold with
  | Some t => run_with_threshold p t
  | None =>
      match make_input p with
      | Raise InputError => Ret ((-2)%Z, None)
      | Raise _ => Ret ((-1)%Z, None)
      | Ret inp =>
          match calculate p inp with
          | Raise e => if is_value_error e then Ret ((-3)%Z, None) else Ret ((-1)%Z, None)
          | Ret results =>
              match write p results with
              | Raise _ => Ret ((-1)%Z, None)
              | Ret _ => Ret (calibrate_and_exit p results)
              end
          end
      end
  end.

(** What [float(value)] makes of a command line argument. *)
Inductive pyfloat : Type := Finite (x : R) | PosInf | NegInf | NaN | NotANumber.

(** __main__.py:281-288; None is ArgumentTypeError.  Comparisons with NaN are
    false. *)
Definition percentage (v : pyfloat) : option R :=
  match v with
  | Finite x => if Rle_dec 0 x then if Rle_dec x 100 then Some x else None else None
  | PosInf | NegInf | NaN | NotANumber => None
  end.
