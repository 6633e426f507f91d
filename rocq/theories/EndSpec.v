(** Vocabulary for runs from the command line to the output file. *)
From Coq Require Import String List ZArith.
From Verif Require Import Base ConfigModel FluidsModel InputModel MainModel RowModel ReadModel AppModel ReadSpec FileSpec CommandModel CommandSpec.
Open Scope R_scope.

(** The tools of the program itself: validation and calculation are those of
    AppModel, for data with the columns [header]. *)
Definition petro {Text} (co2 : equation_of_state) (st : strings) (header : list string)
    (t : tools Text row inp (Z * output_row)) : Prop :=
  validate t = parse_rows st header /\ compute t = AppModel.calculate_rows co2.

(** The command line has the options [o], without calibration; the configuration
    file it names holds [c], the data file [rows]. *)
Definition task {Text} (t : tools Text row inp (Z * output_row)) (argv : list argument) (d : disk Text)
    (o : options) (c : config given) (rows : list row) : Prop :=
  has_options argv o /\ the_calibration o = None /\
  (exists x, reads_text t argv d (the_config o) x /\ load t x = Ret (VDict (file c))) /\
  (exists f x, the_data o = Some f /\ reads_text t argv d f x /\ read_csv t x = Ret rows).

(** Row by row the output that is meant, under the label of the row; rows without
    a meaning are left out and counted. *)
Inductive meant_rows (co2 : equation_of_state) (header : list string) (c : config given)
  : list row -> list (Z * output_row) -> nat -> Prop :=
  | meant_none : meant_rows co2 header c [] [] 0
  | meant_row : forall r rows o outs n, gives_output co2 (config_of_row header c r) o ->
      meant_rows co2 header c rows outs n -> meant_rows co2 header c (r :: rows) ((fst r, o) :: outs) n
  | meaningless_row : forall r rows outs n, (forall o, ~ gives_output co2 (config_of_row header c r) o) ->
      meant_rows co2 header c rows outs n -> meant_rows co2 header c (r :: rows) outs (S n).

(** The table [r] is in the output file, or printed after [n] messages. *)
Definition delivers {Text} (t : tools Text row inp (Z * output_row)) (o : options) (n : nat) (r : list (Z * output_row))
    (f : finish Text (Z * output_row)) : Prop :=
  match the_output o with
  | Some q => files f q = Some (File (to_csv t r)) /\ stdout f = repeat Message n
  | None => stdout f = (repeat Message n ++ [Rows r])%list
  end.

(** The settings of the run are [items], its data [data]. *)
Definition settings {Text Row Inp Out} (t : tools Text Row Inp Out) (argv : list argument) (d : disk Text)
    (o : options) (items : list (string * value)) : Prop :=
  exists x, reads_text t argv d (the_config o) x /\ load t x = Ret (VDict items).
Definition holds_data {Text Row Inp Out} (t : tools Text Row Inp Out) (argv : list argument) (d : disk Text)
    (o : options) (data : option (list Row)) : Prop :=
  match the_data o, data with
  | None, None => True
  | Some f, Some rows => exists x, reads_text t argv d f x /\ read_csv t x = Ret rows
  | _, _ => False
  end.
(** The labels of the rows of the result. *)
Definition labels (data : option (list row)) : list Z := match data with Some rows => map fst rows | None => [0%Z] end.
(** The run ends with this status, and its output file is empty. *)
Definition fails_with {Text Row Inp Out} (t : tools Text Row Inp Out) (o : options) (code : Z) (f : finish Text Out) : Prop :=
  status f = code /\ (forall q, the_output o = Some q -> files f q = Some (File (blank t))).
