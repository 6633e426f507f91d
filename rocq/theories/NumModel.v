(** Numbers with nan.  The other models stop where real arithmetic ends
    ([NonFinite]); NumPy does not stop, it carries on with nan.  Here a value is
    a number or nan, arithmetic passes nan on and comparisons with nan are
    false.  Infinities and complex numbers still end the model ([NonFinite]). *)
From Verif Require Import Base.
Open Scope R_scope.

Inductive num : Type := Num (x : R) | Nan.
Coercion Num : R >-> num.
Declare Scope num_scope.
Delimit Scope num_scope with num.
Bind Scope num_scope with num.

Definition nlift1 (f : R -> R) (a : num) : num := match a with Num x => Num (f x) | Nan => Nan end.
Definition nlift2 (f : R -> R -> R) (a b : num) : num :=
  match a, b with Num x, Num y => Num (f x y) | _, _ => Nan end.

Definition nadd : num -> num -> num := nlift2 Rplus.
Definition nsub : num -> num -> num := nlift2 Rminus.
Definition nmul : num -> num -> num := nlift2 Rmult.
Definition nopp : num -> num := nlift1 Ropp.
(** Division where the divisor is known not to be zero. *)
Definition nquot : num -> num -> num := nlift2 Rdiv.
(** [x ** n] with a whole number n >= 1. *)
Definition npow (a : num) (n : nat) : num := nlift1 (fun x => x ^ n) a.
Definition nabs : num -> num := nlift1 Rabs.
Definition nexp : num -> num := nlift1 exp.
(** [np.minimum], [np.maximum] and [np.clip] pass nan on. *)
Definition nmin : num -> num -> num := nlift2 Rmin.
Definition nmax : num -> num -> num := nlift2 Rmax.

Notation "a + b" := (nadd a b) : num_scope.
Notation "a - b" := (nsub a b) : num_scope.
Notation "a * b" := (nmul a b) : num_scope.
Notation "a / b" := (nquot a b) : num_scope.
Notation "- a" := (nopp a) : num_scope.
Notation "a ^ n" := (npow a n) : num_scope.

(** Comparisons; every comparison with nan is false. *)
Definition nltb (a b : num) : bool :=
  match a, b with Num x, Num y => if Rlt_dec x y then true else false | _, _ => false end.
Definition nleb (a b : num) : bool :=
  match a, b with Num x, Num y => if Rle_dec x y then true else false | _, _ => false end.
Definition neqb (a b : num) : bool :=
  match a, b with Num x, Num y => if Req_EM_T x y then true else false | _, _ => false end.

(** Division of NumPy values: 0/0 is nan, any other number by zero is infinite. *)
Definition n_div (a b : num) : res num :=
  match a, b with
  | Num x, Num y =>
      if Req_EM_T y 0 then (if Req_EM_T x 0 then Ok Nan else Err NonFinite) else Ok (Num (x / y))
  | _, _ => Ok Nan
  end.
(** Division of Python floats; nan / 0.0 is a ZeroDivisionError as well. *)
Definition p_div (a b : num) : res num :=
  match b with
  | Nan => Ok Nan
  | Num y =>
      if Req_EM_T y 0 then Err ZeroDivisionError
      else Ok (match a with Num x => Num (x / y) | Nan => Nan end)
  end.
(** [np.sqrt(x)], or [x ** 0.5] on NumPy values. *)
Definition n_sqrt (a : num) : res num :=
  Ok (match a with Nan => Nan | Num x => if Rlt_dec x 0 then Nan else Num (sqrt x) end).
(** [np.log(x)]: -inf at 0. *)
Definition n_log (a : num) : res num :=
  match a with
  | Nan => Ok Nan
  | Num x => if Rlt_dec 0 x then Ok (Num (ln x)) else if Req_EM_T x 0 then Err NonFinite else Ok Nan
  end.
(** [x ** y] on NumPy values: nan for a negative base with a fractional
    exponent; x ** 0 and 1 ** y are 1, nan or not; infinite for a negative power
    of zero. *)
Definition n_pow (a b : num) : res num :=
  match a, b with
  | Num x, Num y =>
      if Rlt_dec 0 x then Ok (Num (Rpower x y))
      else if Req_EM_T x 0 then
        (if Rlt_dec 0 y then Ok (Num 0) else if Req_EM_T y 0 then Ok (Num 1) else Err NonFinite)
      else
        (if Req_EM_T y (IZR (Int_part y)) then Ok (Num (powerRZ x (Int_part y))) else Ok Nan)
  | Nan, Num y => Ok (if Req_EM_T y 0 then Num 1 else Nan)
  | Num x, Nan => Ok (if Req_EM_T x 1 then Num 1 else Nan)
  | Nan, Nan => Ok Nan
  end.
(** The same on Python floats, for exponents other than 0: complex for a
    negative base with a fractional exponent. *)
Definition p_pow (a : num) (y : R) : res num :=
  match a with
  | Num x => let* z := np_pow x y in Ok (Num z)
  | Nan => Ok Nan
  end.
