(** Adjustment of a material by polynomials (depth trend) in IEEE double precision
    (conventions: FloatModel). *)
From Coq Require Import Reals List.
From Verif Require Import Base MaterialModel MainModel FloatModel FloatPolyModel.
Open Scope R_scope.

(** material.py:17-73 and 76-100: [array] tells whether some argument is an array;
    then [vectorize_material] makes the material again from its velocities. *)
Definition f_polyval_material (root : R -> R) (array use_moduli : bool) (value : R) (m : material)
    (density_coefficients primary_coefficients secondary_coefficients : list (list R)) : res material :=
  let* a := f_polyval2d (dens m) value density_coefficients in
  let* b := f_polyval2d (if use_moduli then bulk m else vp m) value primary_coefficients in
  let* c := f_polyval2d (if use_moduli then shear m else vs m) value secondary_coefficients in
  let* g := if use_moduli then f_mat_of_moduli root b c a else f_mat_of_velocities root a b c in
  if array then f_repack root g else Ok g.
