(** Vocabulary for runs of the command line tool. *)
From Coq Require Import String List ZArith.
From Verif Require Import Base InputModel MainModel.
Open Scope R_scope.

(** The configuration and data files as read. *)
Definition config_is {Row Inp Out} (p : program Row Inp Out) (items : list (string * value)) : Prop :=
  yaml_load p = Ret (VDict items).
Definition data_is {Row Inp Out} (p : program Row Inp Out) (data : option (list Row)) : Prop :=
  match data with
  | None => csv_read p = None
  | Some rows => csv_read p = Some (Ret rows)
  end.

(** The configuration file is not YAML, or not a mapping. *)
Definition config_malformed {Row Inp Out} (p : program Row Inp Out) : Prop :=
  yaml_load p = Raise YAMLError \/
  exists v, yaml_load p = Ret v /\ forall items, v <> VDict items.

(** The data file is not CSV, or empty. *)
Definition data_malformed {Row Inp Out} (p : program Row Inp Out) : Prop :=
  csv_read p = Some (Raise ParserError) \/ csv_read p = Some (Raise EmptyDataError).

(** yaml and pandas do not raise the tool's own InputError. *)
Definition foreign {Row Inp Out} (p : program Row Inp Out) : Prop :=
  yaml_load p <> Raise InputError /\ csv_read p <> Some (Raise InputError).

(** Subclasses of ValueError. *)
Definition value_error (e : pyexn) : Prop :=
  e = InputError \/ e = CalibrationError \/ e = ParserError \/ e = EmptyDataError \/
  e = UnicodeError \/ e = ValueErr.

(** The configuration is inconsistent with the data or in itself. *)
Definition inconsistent {Row Inp Out} (p : program Row Inp Out) : Prop :=
  exists items data e, config_is p items /\ data_is p data /\
    parse p items data = Raise e /\ (e = ColumnErr \/ value_error e).

(** Reading gives the input [inp]. *)
Definition reads {Row Inp Out} (p : program Row Inp Out) (inp : Inp) : Prop :=
  exists items data, config_is p items /\ data_is p data /\ parse p items data = Ret inp.

(** The reading fails for a reason the tool knows. *)
Definition input_error {Row Inp Out} (p : program Row Inp Out) : Prop :=
  config_malformed p \/
  (exists items, config_is p items) /\ data_malformed p \/
  inconsistent p.

(** The rows [r] are calculated and written. *)
Definition writes {Row Inp Out} (p : program Row Inp Out) (r : list Out) : Prop :=
  exists inp, reads p inp /\ calculate p inp = Ret r /\ write p r = Ret tt.

(** Unreadable calibration data or a column missing from it. *)
Definition calibration_problem (e : pyexn) : Prop :=
  e = ParserError \/ e = EmptyDataError \/ e = KeyErr \/ e = IndexErr \/ e = ColumnErr \/
  e = CalibrationError.

(** One data row taken alone gives the output [r]. *)
Definition row_gives {Row Inp Out} (p : program Row Inp Out) (items : list (string * value))
    (row : Row) (r : list Out) : Prop :=
  exists inp, parse p items (Some [row]) = Ret inp /\ calculate p inp = Ret r.

(** Of [rows], the successful ones give [results] in order, [failures] fail. *)
Inductive rows_give {Row Inp Out} (p : program Row Inp Out) (items : list (string * value))
  : list Row -> list (list Out) -> nat -> Prop :=
  | rows_none : rows_give p items [] [] 0
  | rows_success : forall row rows r rs f,
      row_gives p items row r -> rows_give p items rows rs f ->
      rows_give p items (row :: rows) (r :: rs) f
  | rows_failure : forall row rows rs f,
      (forall r, ~ row_gives p items row r) -> rows_give p items rows rs f ->
      rows_give p items (row :: rows) rs (S f).

(** The percentage of successes; no rows count as complete success. *)
Definition exact_percentage (failures rows : nat) : R :=
  match rows with
  | O => 100
  | _ => 100 * (INR rows - INR failures) / INR rows
  end.
