(** Model of the program as a whole: __main__.py with the stages of MainModel
    filled in.  The data file has a header and rows of numbers, each row with
    the label pandas gives it (0, 1, 2, ...); other contents of a CSV file are
    not modelled. *)
From Coq Require Import String List ZArith.
From Verif Require Import Base ConfigModel FluidsModel InputModel MainModel RowModel ReadModel.
Import ListNotations.
Open Scope R_scope.

(** A row of a data frame: label and cells. *)
Definition row : Type := (Z * list R)%type.

(** The columns of a data frame. *)
Definition frame (header : list string) (rows : list row) : table :=
  map (fun jn => (snd jn, map (fun r : row => nth (fst jn) (snd r) 0) rows))
    (combine (seq 0 (List.length header)) header).

(** Errors of [parse_obj_as].  pydantic turns ValueError, TypeError and
    AssertionError into ValidationError, a ValueError. *)
Definition raise_parse {A} (r : res A) : out A :=
  match r with
  | Ok a => Ret a
  | Err (ValueError | TypeError) => Raise ValueErr
  | Err ColumnInsertionError => Raise ColumnErr
  | Err _ => Raise OtherErr
  end.

(** Errors of [calculate_results].  [ShapeError] stands for a ValueError or an
    IndexError; it is put with the others here. *)
Definition raise_calculate {A} (r : res A) : out A :=
  match r with
  | Ok a => Ret a
  | Err ValueError => Raise ValueErr
  | Err _ => Raise OtherErr
  end.

(** The validated input together with the index of the data (__main__.py:53-55:
    [0] if there is no data). *)
Definition inp : Type := (list Z * option binput)%type.

Definition parse_rows (st : strings) (header : list string) (items : list (string * value))
    (data : option (list row)) : out inp :=
  let labels := match data with Some rows => map fst rows | None => [0%Z] end in
  raise_parse (rmap (pair labels) (parse_input st items (option_map (frame header) data))).

Definition calculate_rows (co2 : equation_of_state) (i : inp) : out (list (Z * output_row)) :=
  raise_calculate (rmap (combine (fst i)) (calculate_input co2 (List.length (fst i)) (snd i))).

(** __main__.py:222-262 on a configuration and a data file that have been
    read; [write] and [compare] as in MainModel. *)
Definition app (co2 : equation_of_state) (st : strings) (header : list string)
    (config : value) (data : option (list row))
    (write : list (Z * output_row) -> out unit) (compare : option (list (Z * output_row) -> out unit))
    : program row inp (Z * output_row) :=
  mkProgram row inp (Z * output_row) (Ret config) (option_map Ret data) (parse_rows st header)
    (calculate_rows co2) write compare.
