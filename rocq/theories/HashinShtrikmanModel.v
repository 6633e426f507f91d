(** Model of material/hashin_shtrikman.py. *)
From Coq Require Export String List.
From Verif Require Import Base MaterialModel.
Open Scope R_scope.

(** hashin_shtrikman.py:21-43, epsilon = 1e-5 (no caller passes another). *)
Definition check_is_ratio (ratio : R) : res unit :=
  if Rlt_dec (1 + 1 / 10 ^ 5) ratio then Err ValueError
  else if Rlt_dec ratio (0 - 1 / 10 ^ 5) then Err ValueError
  else Ok tt.

(** hashin_shtrikman.py:46-84 *)
Definition hashin_shtrikman_bound (m1 m2 : material) (ratio : R) : res material :=
  let* _ := check_is_ratio ratio in
  let k1 := bulk m1 in
  let k2 := bulk m2 in
  let mu1 := shear m1 in
  let mu2 := shear m2 in
  let f := ratio in
  let* inv := np_div 1 (k1 + 4 / 3 * mu1) in
  let* qk := np_div ((1 - f) * (k2 - k1)) (1 + (k2 - k1) * f * inv) in
  let* t := np_div (2 * (mu2 - mu1) * f * (k1 + 2 * mu1)) (5 * mu1 * (k1 + 4 / 3 * mu1)) in
  let* qm := np_div ((1 - f) * (mu2 - mu1)) (1 + t) in
  mat_of_moduli (k1 + qk) (mu1 + qm) (ratio * dens m1 + (1 - ratio) * dens m2).

(** hashin_shtrikman.py:87-127 *)
Definition hashin_shtrikman_average (m1 m2 : material) (ratio : R) : res material :=
  let* _ := check_is_ratio ratio in
  let* b1 := hashin_shtrikman_bound m1 m2 ratio in
  let* b2 := hashin_shtrikman_bound m2 m1 (1 - ratio) in
  mat_of_moduli ((bulk b1 + bulk b2) / 2) ((shear b1 + shear b2) / 2)
                (ratio * dens m1 + (1 - ratio) * dens m2).

(** hashin_shtrikman.py:159-164 *)
Definition calc_density (r1 r2 f1 f2 : R) : R :=
  if Req_EM_T r1 r2 then r2 else f1 * r1 + f2 * r2.

(** hashin_shtrikman.py:166-172; Python floats, [x ** -1] of zero raises
    ZeroDivisionError as does the division. *)
Definition calc_bulk_modulus (k1 k2 mum f1 f2 : R) : res R :=
  if Req_EM_T k1 k2 then Ok k1
  else
    let* a := py_div 1 (k2 - k1) in
    let* b := py_div 1 (k1 + 4 / 3 * mum) in
    let* q := py_div f2 (a + f1 * b) in
    Ok (k1 + q).

(** hashin_shtrikman.py:174-182 *)
Definition calc_shear_modulus (mu1 mu2 km mum f1 f2 : R) : res R :=
  if Req_EM_T mu1 mu2 then Ok mu1
  else
    let* a := py_div 1 (mu2 - mu1) in
    let* z := py_div (mum / 6 * (9 * km + 8 * mum)) (km + 2 * mum) in
    let* b := py_div 1 (mu1 + z) in
    let* q := py_div f2 (a + f1 * b) in
    Ok (mu1 + q).

(** hashin_shtrikman.py:130-200 *)
Definition hashin_shtrikman_walpole (m1 m2 : material) (ratio : R) (bound : string) : res material :=
  let* _ := check_is_ratio ratio in
  if negb (orb (String.eqb bound "lower") (String.eqb bound "upper")) then Err ValueError
  else
    let ratio2 := 1 - ratio in
    let km := if String.eqb bound "lower" then Rmin (bulk m1) (bulk m2) else Rmax (bulk m1) (bulk m2) in
    let mum := if String.eqb bound "lower" then Rmin (shear m1) (shear m2) else Rmax (shear m1) (shear m2) in
    let d := calc_density (dens m1) (dens m2) ratio ratio2 in
    let* k := calc_bulk_modulus (bulk m1) (bulk m2) mum ratio ratio2 in
    let* mu := calc_shear_modulus (shear m1) (shear m2) km mum ratio ratio2 in
    mat_of_moduli k mu d.
