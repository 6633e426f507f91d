(** Vocabulary for calibration. *)
From Coq Require Import String List ZArith.
From Verif Require Import Base InputModel MainModel RowModel CalibrationModel.
Import ListNotations.
Open Scope R_scope.

(** The row numbered [i] of a column has the value [x]. *)
Definition has_cell (c : column) (i : Z) (x : R) : Prop :=
  (0 <= i)%Z /\ nth_error c (Z.to_nat i) = Some (Some x).

(** [e] is the relative error of some row present on both sides. *)
Definition error_of_a_row (results : list (Z * R)) (c : column) (e : R) : Prop :=
  exists i y x, In (i, y) results /\ has_cell c i x /\ e = (y - x) / x.

(** The rows with a value on both sides, results first. *)
Inductive paired (c : column) : list (Z * R) -> list (R * R) -> Prop :=
  | paired_nil : paired c [] []
  | paired_row : forall i y x l ps, has_cell c i x -> paired c l ps -> paired c ((i, y) :: l) ((y, x) :: ps)
  | unpaired_row : forall i y l ps, (forall x, ~ has_cell c i x) -> paired c l ps -> paired c ((i, y) :: l) ps.

Definition relative_error (p : R * R) : R := (fst p - snd p) / snd p.

(** The properties compared, with their values in an output row. *)
Definition compared (name : string) (o : output_row) : option R :=
  if String.eqb name "kmin" then Some (r_kmin o)
  else if String.eqb name "kdry" then Some (r_kdry o)
  else if String.eqb name "ksat" then Some (r_ksat o)
  else if String.eqb name "kmin_fls" then Some (r_kmin_fls o)
  else None.

(** The results of one property. *)
Definition values_of (name : string) (results : list (Z * output_row)) : list (Z * R) :=
  map (fun lr => (fst lr, match compared name (snd lr) with Some y => y | None => 0 end)) results.

(** First column of a name. *)
Definition sheet_has (s : sheet) (name : string) (c : column) : Prop :=
  exists a b, s = a ++ (name, Some c) :: b /\ forall n d, In (n, d) a -> n <> name.
Definition sheet_lacks (s : sheet) (name : string) : Prop := forall n d, In (n, d) s -> n <> name.
(** All properties compared have their column of numbers. *)
Definition all_columns (s : sheet) : Prop := forall name o, compared name o <> None -> exists c, sheet_has s name c.
(** Every column of a property compared holds numbers. *)
Definition sheet_numeric (s : sheet) : Prop :=
  forall name d o, In (name, d) s -> compared name o <> None -> d <> None.

(** A written output read back as calibration data: the labels become a column
    of their own, the rows are numbered from 0. *)
Definition written_sheet (w : list (Z * output_row)) : sheet :=
  let col f := Some (map (fun lr : Z * output_row => Some (f (snd lr))) w) in
  [("Unnamed: 0", Some (map (fun lr : Z * output_row => Some (IZR (fst lr))) w));
   ("ksat", col r_ksat); ("kmin", col r_kmin); ("kdry", col r_kdry); ("mysat", col r_mysat);
   ("rsat", col r_rsat); ("kmin_fls", col r_kmin_fls)]%string.

(** Labels as pandas gives them to the rows of a data file. *)
Definition numbered (labels : list Z) : Prop := labels = map Z.of_nat (seq 0 (length labels)).
