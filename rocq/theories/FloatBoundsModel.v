(** material/hashin_shtrikman.py in IEEE double precision (conventions:
    FloatModel). *)
From Coq Require Import Reals String.
From Verif Require Import Base MaterialModel MainModel FloatModel.
Open Scope R_scope.

(** [x ** -1] of Python floats: pow of the C library, whose result is a
    parameter.  Below 2^-1000 the power may overflow: the model ends. *)
Definition f_py_inv (inv : R -> R) (x : R) : res R :=
  if Req_EM_T x 0 then Err ZeroDivisionError
  else if Rlt_dec (Rabs x) (/ 2 ^ 1000) then Err NonFinite
  else Ok (inv x).

(** hashin_shtrikman.py:21-45 *)
Definition f_check_is_ratio (ratio : R) : res unit :=
  if Rlt_dec (fl (1 + fl (1 / 10 ^ 5))) ratio then Err ValueError
  else if Rlt_dec ratio (0 - fl (1 / 10 ^ 5)) then Err ValueError
  else Ok tt.

(** The common shape of hashin_shtrikman.py:172 and 179-182, with [z] what is
    added to the first modulus:
    v1 + f2 / ((v2 - v1) ** -1 + f1 * (v1 + z) ** -1). *)
Definition f_walpole_value (inv : R -> R) (v1 v2 : R) (z : res R) (f1 f2 : R) : res R :=
  let* d := rnd (v2 - v1) in
  let* a := f_py_inv inv d in
  let* z := z in
  let* m := rnd (v1 + z) in
  let* b := f_py_inv inv m in
  let* w := rnd (f1 * b) in
  let* s := rnd (a + w) in
  let* q := f_py_div f2 s in
  rnd (v1 + q).

(** hashin_shtrikman.py:159-164 *)
Definition f_calc_density (r1 r2 f1 f2 : R) : res R :=
  if Req_EM_T r1 r2 then Ok r2
  else
    let* a := rnd (f1 * r1) in
    let* b := rnd (f2 * r2) in
    rnd (a + b).

(** hashin_shtrikman.py:166-172 *)
Definition f_calc_bulk_modulus (inv : R -> R) (k1 k2 mum f1 f2 : R) : res R :=
  if Req_EM_T k1 k2 then Ok k1
  else f_walpole_value inv k1 k2 (rnd (four_thirds * mum)) f1 f2.

(** mum / 6 * (9 * km + 8 * mum) / (km + 2 * mum), read from the left
    (hashin_shtrikman.py:181). *)
Definition f_shear_shift (km mum : R) : res R :=
  let* a := rnd (mum / 6) in
  let* b := rnd (9 * km) in
  let* c := rnd (8 * mum) in
  let* b := rnd (b + c) in
  let* a := rnd (a * b) in
  let* c := rnd (2 * mum) in
  let* c := rnd (km + c) in
  f_py_div a c.

(** hashin_shtrikman.py:174-182 *)
Definition f_calc_shear_modulus (inv : R -> R) (mu1 mu2 km mum f1 f2 : R) : res R :=
  if Req_EM_T mu1 mu2 then Ok mu1
  else f_walpole_value inv mu1 mu2 (f_shear_shift km mum) f1 f2.

(** material.py:114-153: Material(bulk_modulus=k, shear_modulus=mu, density=d)
    of NumPy values.  Negative ones give velocities that are numbers or nan, and
    are then refused by lines 140-145. *)
Definition f_new_material (root : R -> R) (k mu d : R) : res material :=
  if Rlt_dec d 0 then Err ValueError
  else if Rlt_dec k 0 then Err ValueError
  else if Rlt_dec mu 0 then Err ValueError
  else f_mat_of_moduli root k mu d.

(** hashin_shtrikman.py:130-200 *)
Definition f_walpole (root inv : R -> R) (m1 m2 : material) (ratio : R) (bound : string) : res material :=
  let* _ := f_check_is_ratio ratio in
  if negb (orb (String.eqb bound "lower") (String.eqb bound "upper")) then Err ValueError
  else
    let* ratio2 := rnd (1 - ratio) in
    let km := if String.eqb bound "lower" then Rmin (bulk m1) (bulk m2) else Rmax (bulk m1) (bulk m2) in
    let mum := if String.eqb bound "lower" then Rmin (shear m1) (shear m2) else Rmax (shear m1) (shear m2) in
    let* d := f_calc_density (dens m1) (dens m2) ratio ratio2 in
    let* k := f_calc_bulk_modulus inv (bulk m1) (bulk m2) mum ratio ratio2 in
    let* mu := f_calc_shear_modulus inv (shear m1) (shear m2) km mum ratio ratio2 in
    f_new_material root k mu d.
