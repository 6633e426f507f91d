(** Vocabulary for values written in a configuration. *)
From Coq Require Import String Ascii List ZArith.
From Verif Require Import Base InputModel ReadModel.
Import ListNotations.
Open Scope R_scope.

(** The number a written value stands for: a number, true or false, or a word
    that Python's float() understands ("36.8e9" is a word for YAML 1.1). *)
Inductive stands_for (st : strings) : value -> R -> Prop :=
  | sf_number x : stands_for st (VNum x) x
  | sf_true : stands_for st (VBool true) 1
  | sf_false : stands_for st (VBool false) 0
  | sf_word s x : float_of st s = Some x -> stands_for st (VStr s) x.

(** A row of a matrix: a list of such values or a column of the data. *)
Inductive row_for (st : strings) : value -> list R -> Prop :=
  | rf_list vs l : Forall2 (stands_for st) vs l -> row_for st (VList vs) l
  | rf_column l : row_for st (VArray l) l.

(** The array a written value stands for. *)
Inductive array_for (st : strings) : value -> nd -> Prop :=
  | af_number v x : stands_for st v x -> array_for st v (N0 x)
  | af_column l : array_for st (VArray l) (NCol l)
  | af_list vs l : Forall2 (stands_for st) vs l -> array_for st (VList vs) (N1 l)
  | af_matrix vs rows n : vs <> [] -> Forall2 (row_for st) vs rows -> Forall (fun r => List.length r = n) rows ->
      array_for st (VList vs) (N2 rows).

(** No missing values in the lists: those become nan (see NanModel). *)
Definition no_gap (v : value) : Prop := v <> VNull.
Definition no_gaps_in (v : value) : Prop :=
  match v with
  | VFrame _ => False
  | VList l => Forall no_gap l /\ Forall (fun v => match v with
      | VList r => Forall no_gap r /\ Forall (fun w => match w with VList _ | VArray _ | VDict _ | VFrame _ => False | _ => True end) r
      | _ => True end) l
  | _ => True
  end.

(** The whole number next to a number on the side of zero. *)
Definition towards_zero (x : R) (z : Z) : Prop :=
  (0 <= x -> IZR z <= x < IZR z + 1) /\ (x < 0 -> IZR z - 1 < x <= IZR z).

(** A word written with capitals or without. *)
Inductive spelled : string -> string -> Prop :=
  | sp_end : spelled "" ""
  | sp_same c s t : spelled s t -> spelled (String c s) (String c t)
  | sp_capital c d s t : (65 <= nat_of_ascii c <= 90)%nat -> nat_of_ascii d = (nat_of_ascii c + 32)%nat ->
      spelled s t -> spelled (String c s) (String d t).

(** An array over the rows of a table without rows. *)
Definition no_row_at_all {A} (a : RowModel.arr A) : Prop := a = RowModel.Vec [].
