(** The arithmetic of material/material.py, material/seismic_velocity.py,
    material/fluid.py and config/constituent.py in IEEE double precision.

    A double is the real number it stands for.  Every operation of the code is
    one rounding to nearest; a result beyond the largest double ends the model
    ([NonFinite]), results below the smallest normal number lose digits as in
    IEEE arithmetic.  Infinities and nan are left out, as is the sign of zero. *)
From Coq Require Import Reals List.
From Verif Require Import Base MaterialModel MainModel.
Import ListNotations.
Open Scope R_scope.

(** The result of an operation whose exact value is [x] ([fl]: MainModel). *)
Definition rnd (x : R) : res R :=
  if Rlt_dec (Rabs (fl x)) (2 ^ 1024) then Ok (fl x) else Err NonFinite.

(** [a / b] of NumPy values and of Python floats. *)
Definition f_np_div (a b : R) : res R := if Req_EM_T b 0 then Err NonFinite else rnd (a / b).
Definition f_py_div (a b : R) : res R := if Req_EM_T b 0 then Err ZeroDivisionError else rnd (a / b).

(** The literal [4 / 3], itself a division of doubles. *)
Definition four_thirds : R := fl (4 / 3).

(** [x ** 0.5]: NumPy's square root for arrays, the C library's pow for
    floats.  What it returns is a parameter. *)
Definition f_root (root : R -> R) (x : R) : res R :=
  if Rlt_dec x 0 then Err NonFinite else Ok (root x).

(** seismic_velocity.py:28-39.  [v ** 2] is the rounded product. *)
Definition f_shear_modulus (vs d : R) : res R :=
  let* a := rnd (vs * vs) in
  rnd (a * d).

(** seismic_velocity.py:42-52 *)
Definition f_bulk_modulus (vp mu d : R) : res R :=
  let* a := rnd (vp * vp) in
  let* b := rnd (a * d) in
  let* c := rnd (four_thirds * mu) in
  rnd (b - c).

(** seismic_velocity.py:55-65 *)
Definition f_primary_velocity (root : R -> R) (k mu d : R) : res R :=
  let* c := rnd (four_thirds * mu) in
  let* b := rnd (k + c) in
  let* q := f_np_div b d in
  f_root root q.

(** seismic_velocity.py:68-78 *)
Definition f_secondary_velocity (root : R -> R) (mu d : R) : res R :=
  let* q := f_np_div mu d in
  f_root root q.

(** material.py:140-153, the guards. *)
Definition f_guards (root : R -> R) (k mu d p s : R) : res material :=
  if Rlt_dec d 0 then Err ValueError
  else if Rlt_dec k 0 then Err ValueError
  else if Rlt_dec mu 0 then Err ValueError
  else if Rlt_dec p 0 then Err ValueError
  else if Rlt_dec s 0 then Err ValueError
  else
    let* limit := rnd (root four_thirds * s) in
    if Rlt_dec p limit then Err ValueError else Ok (mkMat k mu d p s).

(** material.py:114-179: Material(bulk_modulus=k, shear_modulus=mu, density=d).
    Moduli and density are not negative here; otherwise see MaterialModel. *)
Definition f_mat_of_moduli (root : R -> R) (k mu d : R) : res material :=
  let* p := f_primary_velocity root k mu d in
  let* s := f_secondary_velocity root mu d in
  f_guards root k mu d p s.

(** Material(density=d, primary_velocity=p, secondary_velocity=s) *)
Definition f_mat_of_velocities (root : R -> R) (d p s : R) : res material :=
  let* mu := f_shear_modulus s d in
  let* k := f_bulk_modulus p mu d in
  f_guards root k mu d p s.

(** material.py:75-100: what [vectorize_material] makes of one element of an
    array. *)
Definition f_repack (root : R -> R) (m : material) : res material :=
  f_mat_of_velocities root (dens m) (vp m) (vs m).

(** Python's [sum] of floats: from the left, beginning with the integer 0. *)
Fixpoint f_sum_from (acc : R) (l : list R) : res R :=
  match l with
  | [] => Ok acc
  | x :: l' => let* acc' := rnd (acc + x) in f_sum_from acc' l'
  end.
Definition f_sum (l : list R) : res R := f_sum_from 0 l.

(** fluid.py:19-25 *)
Definition f_sum_saturations_to_one (saturations : list R) : res (list R) :=
  let* total := f_sum saturations in
  let adjusted := Rmax total (fl (1 / 10 ^ 15)) in
  sequence (map (fun s => f_np_div (if Rlt_dec 0 total then s else fl (1 / 10 ^ 15)) adjusted) saturations).

(** fluid.py:28-31 *)
Definition f_mix_densities (fluids : list material) (saturations : list R) : res R :=
  let* products := sequence (map (fun fs => rnd (dens (fst fs) * snd fs)) (combine fluids saturations)) in
  f_sum products.

(** fluid.py:34-35, for at least one fluid. *)
Definition f_mix_bulk_moduli (fluids : list material) (saturations : list R) : res R :=
  let* quotients := sequence (map (fun sf => f_np_div (fst sf) (bulk (snd sf))) (combine saturations fluids)) in
  let* t := f_sum quotients in
  f_np_div 1 t.

(** fluid.py:12-16, 38-52 *)
Definition f_wood (root : R -> R) (fluids : list material) (saturations : list R) : res material :=
  let* saturations := f_sum_saturations_to_one saturations in
  let* k := f_mix_bulk_moduli fluids saturations in
  let* d := f_mix_densities fluids saturations in
  f_mat_of_moduli root k 0 d.

(** fluid.py:114-146 *)
Definition f_gassman_equation (kdry kmin kf phi : R) : res R :=
  if Req_EM_T phi 0 then Ok kmin
  else if Req_EM_T kdry kmin then Ok kmin
  else
    let* x := rnd (kmin - kdry) in
    let* a := f_py_div kdry x in
    let* y := rnd (kmin - kf) in
    let* z := rnd (y * phi) in
    let* b := f_py_div kf z in
    let* difference_factor := rnd (a + b) in
    if Rlt_dec difference_factor 0 then Err ValueError
    else
      let* t := rnd (1 + difference_factor) in
      let* q := f_py_div difference_factor t in
      rnd (q * kmin).

(** fluid.py:99-154 *)
Definition f_fluid_substitution (root : R -> R) (dry_rock mineral fluid : material) (phi : R) : res material :=
  let* k := f_gassman_equation (bulk dry_rock) (bulk mineral) (bulk fluid) phi in
  let* m := rnd (phi * dens fluid) in
  let* d := rnd (dens dry_rock + m) in
  f_mat_of_moduli root k (shear dry_rock) d.

(** constituent.py:49-57 *)
Definition f_fraction_is_ratio (x : R) : res unit :=
  if Rlt_dec x (- fl (1 / 10 ^ 5)) then Err ValueError
  else if Rlt_dec (fl (1 + fl (1 / 10 ^ 5))) x then Err ValueError
  else Ok tt.

(** constituent.py:77-79, 89: the sum of the given fractions, its check and the
    one missing fraction. *)
Definition f_rest (given : list R) : res R :=
  let* sum_rest := f_sum given in
  if Rlt_dec (fl (1 + fl (1 / 10 ^ 5))) sum_rest then Err ValueError
  else
    let* r := rnd (1 - sum_rest) in
    let* _ := f_fraction_is_ratio r in
    Ok r.

(** numpy.isclose(s, 1.0, atol=1e-5), rtol = 1e-5 (minerals.py:49). *)
Definition f_isclose_one (s : R) : res bool :=
  let* d := rnd (s - 1) in
  let* t := rnd (fl (1 / 10 ^ 5) * 1) in
  let* t := rnd (fl (1 / 10 ^ 5) + t) in
  Ok (if Rle_dec (Rabs d) t then true else false).

(** minerals.py:47-50 when all fractions are given: constituent.py:49-57 for
    each, 77-79, 82-83 and the final check. *)
Definition f_minerals (fractions : list R) : res unit :=
  let* _ := sequence (map f_fraction_is_ratio fractions) in
  let* s := f_sum fractions in
  if Rlt_dec (fl (1 + fl (1 / 10 ^ 5))) s then Err ValueError
  else
    let* close := f_isclose_one s in
    if close then Ok tt else Err ValueError.
