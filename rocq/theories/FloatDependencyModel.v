(** The correction of dry rock for pressure by a fit in IEEE double precision
    (conventions: FloatModel).  The fit of one row of coefficients is a parameter:
    f_expfit_row, f_logfit_row or f_powerfit_row (FloatPressureModel), or that of
    a polynomial. *)
From Coq Require Import Reals List.
From Verif Require Import Base MaterialModel MainModel FloatModel ConfigModel.
Open Scope R_scope.

(** config/model.py:37: the literal [1e-20] is rounded. *)
Definition f_tiny_value (x : R) : bool := if Rle_dec (Rabs x) (fl (1 / 10 ^ 20)) then true else false.

(** config/model.py:31-55 *)
Definition f_generic_dependency (root : R -> R) (use_moduli : bool) (fit : R -> list R -> res R)
    (rows : list R * list R * list R) (m : material) (p ref_p : R) : res material :=
  let* ref := three (fit ref_p) rows in
  let* eff := three (fit p) rows in
  let '(rd, rp, rs) := (ref : R * R * R) in
  let '(ed, ep, es) := (eff : R * R * R) in
  if orb (f_tiny_value rd) (orb (f_tiny_value rp) (f_tiny_value rs)) then Err ValueError
  else
    let* density_factor := f_np_div ed rd in
    let* primary_factor := f_np_div ep rp in
    let* secondary_factor := f_np_div es rs in
    let* d := rnd (dens m * density_factor) in
    if use_moduli then
      let* k := rnd (bulk m * primary_factor) in
      let* mu := rnd (shear m * secondary_factor) in
      f_mat_of_moduli root k mu d
    else
      let* a := rnd (vp m * primary_factor) in
      let* b := rnd (vs m * secondary_factor) in
      f_mat_of_velocities root d a b.

(** config/model.py:149-168 *)
Definition f_powerfit_dependency (root : R -> R) (fit : R -> list R -> res R)
    (rows : list R * list R * list R) (m : material) (p ref_p : R) : res material :=
  let* ref := three (fit ref_p) rows in
  let* eff := three (fit p) rows in
  let '(rd, rp, rs) := (ref : R * R * R) in
  let '(ed, ep, es) := (eff : R * R * R) in
  let* density_factor := rnd (ed - rd) in
  let* primary_factor := rnd (ep - rp) in
  let* secondary_factor := rnd (es - rs) in
  let* ratio := f_np_div (vp m) (vs m) in
  let* vp_over_vs := rnd (ratio + secondary_factor) in
  let* bmod := rnd (bulk m + primary_factor) in
  let* square := rnd (vp_over_vs * vp_over_vs) in
  let* smod_reduction := rnd (square - four_thirds) in
  if Rle_dec smod_reduction (fl (1 / 10 ^ 20)) then Err ValueError
  else
    let* mu := f_np_div bmod smod_reduction in
    let* d := rnd (dens m + density_factor) in
    f_mat_of_moduli root bmod mu d.
