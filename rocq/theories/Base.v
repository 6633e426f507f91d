(** Shared vocabulary of the model: exceptions as values, arithmetic that
    refuses to leave the real numbers.  No numbers of the repository here. *)
From Coq Require Export Reals Lra Lia List ZArith.
Export ListNotations.
Open Scope R_scope.

(** Exceptions raised by the Python code.  [NonFinite] is not a Python
    exception: it marks the point where real arithmetic ends (division by
    zero, fractional power or square root of a negative number, logarithm of
    a non-positive one).  There the code raises [ZeroDivisionError], goes
    complex, or continues with inf/nan, depending on operand types; the model
    stops.  [ShapeError] is NumPy refusing operands because of their shapes (a
    ValueError or an IndexError); only RowModel uses it. *)
Inductive exn : Type :=
  | ValueError
  | ZeroDivisionError
  | NonFinite
  | TypeError
  | IndexError
  | KeyError
  | NotImplementedError
  | ColumnInsertionError
  | ImportError
  | ShapeError
  | OtherError.

Inductive res (A : Type) : Type :=
  | Ok (a : A)
  | Err (e : exn).
Arguments Ok {A} a.
Arguments Err {A} e.

Definition bind {A B} (r : res A) (f : A -> res B) : res B :=
  match r with
  | Ok a => f a
  | Err e => Err e
  end.

Notation "'let*' x := e 'in' k" :=
  (bind e (fun x => k)) (at level 200, x pattern, e at level 100, k at level 200).

Definition is_ok {A} (r : res A) : Prop := exists a, r = Ok a.
Definition fails {A} (r : res A) : Prop := exists e, r = Err e.

(** Division of NumPy values (inf/nan on zero) and of Python floats
    (ZeroDivisionError on zero). *)
Definition np_div (a b : R) : res R :=
  if Req_EM_T b 0 then Err NonFinite else Ok (a / b).
Definition py_div (a b : R) : res R :=
  if Req_EM_T b 0 then Err ZeroDivisionError else Ok (a / b).

(** [x ** 0.5] / [np.sqrt(x)]. *)
Definition np_sqrt (x : R) : res R :=
  if Rlt_dec x 0 then Err NonFinite else Ok (sqrt x).

(** [np.log(x)]: -inf at 0, nan below. *)
Definition np_log (x : R) : res R :=
  if Rlt_dec 0 x then Ok (ln x) else Err NonFinite.

(** [x ** y] on floats with a real result: positive base, zero base with
    non-negative exponent, or negative base with an integral exponent. *)
Definition np_pow (x y : R) : res R :=
  if Rlt_dec 0 x then Ok (Rpower x y)
  else if Req_EM_T x 0 then
    (if Rlt_dec 0 y then Ok 0 else if Req_EM_T y 0 then Ok 1 else Err NonFinite)
  else
    (if Req_EM_T y (IZR (Int_part y)) then Ok (powerRZ x (Int_part y)) else Err NonFinite).

(** Run a list of fallible computations left to right, as a list
    comprehension does. *)
Fixpoint sequence {A} (l : list (res A)) : res (list A) :=
  match l with
  | [] => Ok []
  | r :: l' => let* a := r in let* l'' := sequence l' in Ok (a :: l'')
  end.

(** Python's [sum]. *)
Fixpoint rsum (l : list R) : R :=
  match l with
  | [] => 0
  | x :: l' => x + rsum l'
  end.

(** Sum of fallible terms. *)
Fixpoint rsum_res (l : list (res R)) : res R :=
  match l with
  | [] => Ok 0
  | r :: l' => let* x := r in let* s := rsum_res l' in Ok (x + s)
  end.
