(** material/hashin_shtrikman.py, the bounds and their average, in IEEE double
    precision (conventions: FloatModel). *)
From Coq Require Import Reals.
From Verif Require Import Base MaterialModel MainModel FloatModel FloatBoundsModel.
Open Scope R_scope.

(** [x ** -1] of NumPy values; otherwise as [f_py_inv]. *)
Definition f_np_inv (inv : R -> R) (x : R) : res R :=
  if Rlt_dec (Rabs x) (/ 2 ^ 1000) then Err NonFinite else Ok (inv x).

(** hashin_shtrikman.py:75, read from the left. *)
Definition f_bound_bulk (inv : R -> R) (k1 k2 mu1 f : R) : res R :=
  let* rest := rnd (1 - f) in
  let* d := rnd (k2 - k1) in
  let* num := rnd (rest * d) in
  let* e := rnd (d * f) in
  let* z := rnd (four_thirds * mu1) in
  let* m := rnd (k1 + z) in
  let* i := f_np_inv inv m in
  let* e := rnd (e * i) in
  let* den := rnd (1 + e) in
  let* q := f_np_div num den in
  rnd (k1 + q).

(** hashin_shtrikman.py:76-78 *)
Definition f_bound_shear (mu1 mu2 k1 f : R) : res R :=
  let* rest := rnd (1 - f) in
  let* d := rnd (mu2 - mu1) in
  let* num := rnd (rest * d) in
  let* e := rnd (2 * d) in
  let* e := rnd (e * f) in
  let* a := rnd (2 * mu1) in
  let* a := rnd (k1 + a) in
  let* e := rnd (e * a) in
  let* b := rnd (5 * mu1) in
  let* z := rnd (four_thirds * mu1) in
  let* m := rnd (k1 + z) in
  let* b := rnd (b * m) in
  let* e := f_np_div e b in
  let* den := rnd (1 + e) in
  let* q := f_np_div num den in
  rnd (mu1 + q).

(** hashin_shtrikman.py:83 and 126 *)
Definition f_bound_density (d1 d2 f : R) : res R :=
  let* a := rnd (f * d1) in
  let* rest := rnd (1 - f) in
  let* b := rnd (rest * d2) in
  rnd (a + b).

(** hashin_shtrikman.py:46-84 *)
Definition f_bound (root inv : R -> R) (m1 m2 : material) (ratio : R) : res material :=
  let* _ := f_check_is_ratio ratio in
  let* k := f_bound_bulk inv (bulk m1) (bulk m2) (shear m1) ratio in
  let* mu := f_bound_shear (shear m1) (shear m2) (bulk m1) ratio in
  let* d := f_bound_density (dens m1) (dens m2) ratio in
  f_new_material root k mu d.

(** hashin_shtrikman.py:87-127 *)
Definition f_average (root inv : R -> R) (m1 m2 : material) (ratio : R) : res material :=
  let* _ := f_check_is_ratio ratio in
  let* b1 := f_bound root inv m1 m2 ratio in
  let* rest := rnd (1 - ratio) in
  let* b2 := f_bound root inv m2 m1 rest in
  let* k := rnd (bulk b1 + bulk b2) in
  let* k := rnd (k / 2) in
  let* mu := rnd (shear b1 + shear b2) in
  let* mu := rnd (mu / 2) in
  let* d := f_bound_density (dens m1) (dens m2) ratio in
  f_new_material root k mu d.
