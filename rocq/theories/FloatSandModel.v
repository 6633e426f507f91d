(** Hertz-Mindlin and friable sand in IEEE double precision (conventions:
    FloatModel, FloatBoundsModel). *)
From Coq Require Import Reals String.
From Verif Require Import Base MaterialModel MainModel FloatModel FloatBoundsModel.
Open Scope R_scope.

(** material.py:181-192 *)
Definition f_poisson_ratio (m : material) : res R :=
  let* a := rnd (3 * bulk m) in
  let* b := rnd (2 * shear m) in
  let* num := rnd (a - b) in
  let* c := rnd (a + shear m) in
  let* den := rnd (2 * c) in
  f_np_div num den.

(** [x ** (1 / 3)]: the power of NumPy or the C library, a parameter; the
    exponent is rounded. *)
Definition f_cube_root (pw : R -> R -> R) (x : R) : res R :=
  if Rlt_dec x 0 then Err NonFinite
  else if Req_EM_T x 0 then Ok 0
  else Ok (pw x (fl (1 / 3))).

(** sandstone/hertz_mindlin.py:11-56.  [np.pi] is the double next to pi; [1 - v]
    and [1 - phi] are calculated more than once, with the same result. *)
Definition f_hertz_mindlin (root : R -> R) (pw : R -> R -> R) (mineral : material)
    (porosity pressure shear_reduction coordination_number : R) : res material :=
  let* v := f_poisson_ratio mineral in
  let mu := shear mineral in
  let n := coordination_number in
  let* one_v := rnd (1 - v) in
  let* two_v := rnd (2 - v) in
  let* solid := rnd (1 - porosity) in
  (* a *)
  let* x := rnd (3 * fl PI) in
  let* x := rnd (x * one_v) in
  let* x := rnd (x * pressure) in
  let* y := rnd (2 * n) in
  let* y := rnd (y * solid) in
  let* y := rnd (y * mu) in
  let* q := f_np_div x y in
  let* a := f_cube_root pw q in
  (* sn and st *)
  let* x := rnd (4 * a) in
  let* x := rnd (x * mu) in
  let* sn := f_np_div x one_v in
  let* x := rnd (8 * a) in
  let* x := rnd (x * mu) in
  let* st := f_np_div x two_v in
  (* k_eff *)
  let* x := rnd (n * solid) in
  let* y := rnd (12 * fl PI) in
  let* z := f_np_div x y in
  let* k := rnd (z * sn) in
  (* mu_eff *)
  let* y := rnd (20 * fl PI) in
  let* z := f_np_div x y in
  let* y := rnd (15 / 10 * st) in
  let* y := rnd (y * shear_reduction) in
  let* y := rnd (sn + y) in
  let* m := rnd (z * y) in
  let* d := rnd (dens mineral * solid) in
  f_mat_of_moduli root k m d.

(** sandstone/friable_sand.py:10-51 *)
Definition f_friable_sand (root inv : R -> R) (pw : R -> R -> R) (mineral : material)
    (porosity critical_porosity effective_pressure coordination_number shear_reduction : R) : res material :=
  let* critical_mineral :=
    f_hertz_mindlin root pw mineral critical_porosity effective_pressure shear_reduction coordination_number in
  let* r := f_np_div porosity critical_porosity in
  let* fraction := rnd (1 - r) in
  f_walpole root inv mineral critical_mineral fraction "lower".
