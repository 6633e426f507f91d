(** The fits of dry rock to pressure in IEEE double precision (conventions:
    FloatModel).  Exponential, logarithm and power of NumPy are parameters. *)
From Coq Require Import Reals List.
From Verif Require Import Base MaterialModel MainModel FloatModel ConfigModel.
Import ListNotations.
Open Scope R_scope.

(** A value outside of the range of doubles is infinite. *)
Definition f_value (x : R) : res R := if Rlt_dec (Rabs x) (2 ^ 1024) then Ok x else Err NonFinite.

(** config/model.py:112-118 *)
Definition f_expfit_row (ex : R -> R) (p : R) (row : list R) : res R :=
  let* c0 := column row 0 in
  let* c1 := column row 1 in
  let* c2 := column row 2 in
  let* q := f_np_div p c2 in
  let* e := f_value (ex q) in
  let* t := rnd (c1 * e) in
  rnd (c0 + t).
(** config/model.py:130-136: [log10] is -inf at 0 and nan below. *)
Definition f_logfit_row (lg : R -> R) (p : R) (row : list R) : res R :=
  let* c0 := column row 0 in
  let* c1 := column row 1 in
  let* l := if Rlt_dec 0 p then Ok (lg p) else Err NonFinite in
  let* t := rnd (c1 * l) in
  rnd (c0 + t).
(** [np.float_power(x, y)]: cases of [np_pow] (Base) *)
Definition f_float_power (pw : R -> R -> R) (x y : R) : res R :=
  if Rlt_dec 0 x then f_value (pw x y)
  else if Req_EM_T x 0 then
    (if Rlt_dec 0 y then Ok 0 else if Req_EM_T y 0 then Ok 1 else Err NonFinite)
  else
    (if Req_EM_T y (IZR (Int_part y)) then f_value (pw x y) else Err NonFinite).
(** config/model.py:175-181 *)
Definition f_powerfit_row (pw : R -> R -> R) (p : R) (row : list R) : res R :=
  let* c0 := column row 0 in
  let* c1 := column row 1 in
  let* q := f_float_power pw p c1 in
  rnd (c0 * q).
