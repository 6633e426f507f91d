(** Model of the calibration step: __main__.py:28-39, 158-173.

    The calibration file is read by pandas: its rows are labelled 0, 1, 2, ...
    A column is a list of cells, [None] for an empty cell; a column with
    anything but numbers is [None].  Arithmetic on two pandas Series goes by
    label: the result has an entry for every label of either, NaN for a label
    that only one of them has.  Labels are taken to be distinct.  np.min,
    np.mean and np.max of a Series are its own methods, which leave out NaN.
    Overflow and the sign of zero are not modelled. *)
From Coq Require Import String List ZArith.
From Verif Require Import Base InputModel MainModel RowModel.
Import ListNotations.
Open Scope R_scope.

Inductive float : Type := Fin (x : R) | PlusInf | MinusInf | Nan.

Definition column : Type := list (option R).
Definition sheet : Type := list (string * option column).

(** __main__.py:28-29 on two numbers: NumPy division. *)
Definition calibration_error (calculated calibrated : R) : float :=
  if Req_EM_T calibrated 0 then
    if Rlt_dec 0 (calculated - calibrated) then PlusInf
    else if Rlt_dec (calculated - calibrated) 0 then MinusInf
    else Nan
  else Fin ((calculated - calibrated) / calibrated).

(** The cell of the row with the given label. *)
Definition cell (c : column) (label : Z) : option R :=
  if (label <? 0)%Z then None
  else match nth_error c (Z.to_nat label) with Some x => x | None => None end.

(** __main__.py:28-29 on two Series. *)
Definition errors (results : list (Z * R)) (c : column) : list float :=
  map (fun lr => match cell c (fst lr) with
                 | Some x => calibration_error (snd lr) x
                 | None => Nan
                 end) results
  ++ map (fun _ => Nan)
       (filter (fun i => negb (existsb (fun lr : Z * R => (fst lr =? Z.of_nat i)%Z) results)) (seq 0 (length c))).

(** [x <= y] among numbers and infinities. *)
Definition float_le (x y : float) : bool :=
  match x, y with
  | MinusInf, _ | _, PlusInf => true
  | Fin a, Fin b => if Rle_dec a b then true else false
  | _, _ => false
  end.
Definition float_add (x y : float) : float :=
  match x, y with
  | Fin a, Fin b => Fin (a + b)
  | Nan, _ | _, Nan => Nan
  | PlusInf, MinusInf | MinusInf, PlusInf => Nan
  | PlusInf, _ | _, PlusInf => PlusInf
  | MinusInf, _ | _, MinusInf => MinusInf
  end.

(** The entries other than NaN. *)
Definition numbers (l : list float) : list float :=
  filter (fun x => match x with Nan => false | _ => true end) l.

Definition series_min (l : list float) : float :=
  match numbers l with
  | [] => Nan
  | x :: r => fold_left (fun a b => if float_le a b then a else b) r x
  end.
Definition series_max (l : list float) : float :=
  match numbers l with
  | [] => Nan
  | x :: r => fold_left (fun a b => if float_le a b then b else a) r x
  end.
Definition series_mean (l : list float) : float :=
  match numbers l with
  | [] => Nan
  | r => match fold_left float_add r (Fin 0) with
         | Fin s => Fin (s / INR (length r))
         | x => x
         end
  end.

(** What __main__.py:32-39 prints for one property. *)
Record statistics : Type := mkStatistics { st_min : float; st_mean : float; st_max : float }.
Definition statistics_of (l : list float) : statistics :=
  mkStatistics (series_min l) (series_mean l) (series_max l).

(** __main__.py:161; the columns of the results by these names
    (__main__.py:56-66). *)
Definition calibration_keys : list (string * (output_row -> R)) :=
  [("kmin", r_kmin); ("kdry", r_kdry); ("ksat", r_ksat); ("kmin_fls", r_kmin_fls)]%string.

Fixpoint sheet_column (s : sheet) (name : string) : out column :=
  match s with
  | [] => Raise KeyErr
  | (n, c) :: s' =>
      if String.eqb n name
      then match c with Some c => Ret c | None => Raise OtherErr end
      else sheet_column s' name
  end.

(** __main__.py:161-165: what is printed, by property.  What is printed before
    an exception is left out. *)
Fixpoint report_for (keys : list (string * (output_row -> R))) (s : sheet) (results : list (Z * output_row))
  : out (list (string * statistics)) :=
  match keys with
  | [] => Ret []
  | (name, value) :: keys' =>
      then_ (sheet_column s name) (fun c =>
      then_ (report_for keys' s results) (fun r =>
      Ret ((name, statistics_of (errors (map (fun lr => (fst lr, value (snd lr))) results) c)) :: r)))
  end.
Definition report (s : sheet) (results : list (Z * output_row)) : out (list (string * statistics)) :=
  report_for calibration_keys s results.

(** __main__.py:160-165, given what pd.read_csv returns or raises. *)
Definition calibration_body (file : out sheet) (results : list (Z * output_row)) : out unit :=
  then_ file (fun s => then_ (report s results) (fun _ => Ret tt)).
