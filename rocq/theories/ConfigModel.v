(** Model of the pressure, coefficient, depth trend, pressure dependency and
    dry rock sections of the configuration: config/pressure.py,
    config/coefficients.py, config/model.py, config/depth_trend.py,
    config/pressure_dependency.py, config/dry_rock.py, and of
    [polyval_material] in material/material.py.

    All quantities are scalars (one row of the input); the row-wise extension
    to arrays is the subject of RowModel.  Type coercion by pydantic is not
    modelled: fields hold numbers, or [None] where the type is Optional. *)
From Coq Require Import String List.
From Verif Require Import Base MaterialModel HashinShtrikmanModel SandstoneModel.
Open Scope R_scope.

(* ------------------------------------------------------------------ *)
(** ** config/pressure.py *)

(** A key of the input section: left out, given as null, given as a number. *)
Inductive field : Type := Absent | Null | Given (x : R).

(** An Optional field with a default (validate_all is on, null stays None). *)
Definition optional_field (default : option R) (f : field) : option R :=
  match f with Absent => default | Null => None | Given x => Some x end.

(** A plain field with a default; null is rejected by the array type
    (config/vector_type.py:16, an AssertionError turned into ValidationError,
    which is a ValueError). *)
Definition plain_field (default : R) (f : field) : res R :=
  match f with Absent => Ok default | Null => Err ValueError | Given x => Ok x end.

Record pressure := mkPressure {
  p_overburden : R;
  p_reference : R;
  p_fluid : option R;
  p_max_effective : option R;
  p_rock : option R }.

(** config/pressure.py:30-34: the names of all successfully parsed fields are
    keys of [values], whether or not the user gave them (pydantic fills in
    defaults first), so [has_fluid] and [has_rock] are true here. *)
Definition at_least_one_pore_pressure (has_fluid has_rock : bool) : res unit :=
  if andb (negb has_fluid) (negb has_rock) then Err ValueError else Ok tt.

(** config/pressure.py:17-28 *)
Definition make_pressure (overburden reference fluid max_effective rock : field) : res pressure :=
  let* o := plain_field 100000000 overburden in
  let* r := plain_field 30000000 reference in
  let fl := optional_field (Some 70000000) fluid in
  let mx := optional_field None max_effective in
  let rk := optional_field None rock in
  let* _ := at_least_one_pore_pressure true true in
  let rk' := match rk with None => fl | Some x => Some x end in
  let fl' := match fl with None => rk' | Some x => Some x end in
  Ok (mkPressure o r fl' mx rk').

(** [np.clip(x, None, m)] *)
Definition clip_above (x : R) (m : option R) : R :=
  match m with None => x | Some b => Rmin x b end.

(** config/pressure.py:36-44; [overburden - None] is a TypeError. *)
Definition truncated_fluid (p : pressure) : res R :=
  match p_fluid p with
  | None => Err TypeError
  | Some f => Ok (clip_above (p_overburden p - f) (p_max_effective p))
  end.
(** config/pressure.py:46-54 *)
Definition truncated_reference (p : pressure) : R :=
  clip_above (p_overburden p - p_reference p) (p_max_effective p).
(** config/pressure.py:56-64 *)
Definition truncated_rock (p : pressure) : res R :=
  match p_rock p with
  | None => Err TypeError
  | Some f => Ok (clip_above (p_overburden p - f) (p_max_effective p))
  end.

(* ------------------------------------------------------------------ *)
(** ** Polynomials *)

(** numpy.polyval(p, x): Horner, highest power first. *)
Definition np_polyval (p : list R) (x : R) : R := fold_left (fun y c => y * x + c) p 0.

(** numpy.polynomial.polynomial.polyval(x, c): Horner, lowest power first. *)
Definition poly_eval (x : R) (c : list R) : R := fold_right (fun a acc => a + acc * x) 0 c.

Fixpoint map2 (f : R -> R -> R) (l1 l2 : list R) : list R :=
  match l1, l2 with
  | a :: l1', b :: l2' => f a b :: map2 f l1' l2'
  | _, _ => []
  end.

(** The same for a matrix: Horner over rows, one value per column. *)
Fixpoint poly_rows (x : R) (rows : list (list R)) : list R :=
  match rows with
  | [] => []
  | [row] => row
  | row :: rows' => map2 (fun a acc => a + acc * x) row (poly_rows x rows')
  end.

(** Coefficient matrices are rectangular arrays (anything else is rejected
    by the array type), possibly without rows or columns. *)
Definition polyval2d (x y : R) (c : list (list R)) : res R :=
  match poly_rows x c with
  | [] => Err IndexError
  | l => Ok (poly_eval y l)
  end.

(** Coefficients for three properties, as moduli or as velocities
    (config/coefficients.py:15-62). *)
Inductive flavour := Moduli | Velocity.
Record coefficients (A : Type) := mkCoef {
  c_flavour : flavour;
  c_density : option A;
  c_primary : option A;
  c_secondary : option A }.
Arguments mkCoef {A}. Arguments c_flavour {A}. Arguments c_density {A}.
Arguments c_primary {A}. Arguments c_secondary {A}.

Definition uses_moduli {A} (c : coefficients A) : bool :=
  match c_flavour c with Moduli => true | Velocity => false end.

(** A missing coefficient reaches polyval2d as None: TypeError. *)
Definition fit_property (x v : R) (c : option (list (list R))) : res R :=
  match c with None => Err TypeError | Some m => polyval2d x v m end.

(** material/material.py:17-73 through config/coefficients.py:28-36, 53-61 *)
Definition polyval_material (v : R) (m : material) (c : coefficients (list (list R))) : res material :=
  if uses_moduli c then
    let* a := fit_property (dens m) v (c_density c) in
    let* b := fit_property (bulk m) v (c_primary c) in
    let* d := fit_property (shear m) v (c_secondary c) in
    mat_of_moduli b d a
  else
    let* a := fit_property (dens m) v (c_density c) in
    let* b := fit_property (vp m) v (c_primary c) in
    let* d := fit_property (vs m) v (c_secondary c) in
    mat_of_velocities a b d.

(* ------------------------------------------------------------------ *)
(** ** config/model.py *)

Record friable_model := mkFriable {
  f_critical : R; f_shear_reduction : R; f_coordination : R }.

(** config/model.py:219-228 *)
Definition make_friable (critical shear_reduction : R) (coordination : option R) : friable_model :=
  mkFriable critical shear_reduction
    match coordination with None => murphy_coordination_number critical | Some n => n end.

Record patchy_model := mkPatchy {
  pa_cement : material; pa_critical : R; pa_cement_fraction : R; pa_lower_pressure : R;
  pa_upper_fraction : R; pa_coordination : R; pa_shear_reduction : R }.

(** config/model.py:277-290 *)
Definition make_patchy (cement : material) (critical fraction lower upper : R)
    (coordination : option R) (shear_reduction : R) : patchy_model :=
  mkPatchy cement critical fraction lower upper
    match coordination with None => murphy_coordination_number critical | Some n => n end
    shear_reduction.

(** config/model.py:244-252 *)
Definition friable_material (f : friable_model) (p porosity : R) (mineral : material) : res material :=
  friable_sand mineral porosity (f_critical f) p (f_coordination f) (f_shear_reduction f).

(** config/model.py:322-334.  The coordination number is passed for the
    friable part only; [cement_coordination_number] keeps its default 9. *)
Definition patchy_material (q : patchy_model) (p porosity : R) (mineral : material) : res material :=
  patchy_cement mineral (pa_cement q) porosity
    (pa_critical q - pa_cement_fraction q) (pa_critical q - pa_upper_fraction q)
    p (pa_lower_pressure q) (pa_critical q) (pa_shear_reduction q) (pa_coordination q) 9.

(** Models of a pressure dependency (config/model.py:337-344). *)
Inductive dependency_model :=
  | Polyfit (c : coefficients (list R))
  | Expfit (c : coefficients (list R))
  | Logfit (c : coefficients (list R))
  | Powerfit (density bulk_ vp_over_vs : option (list R))
  | Friable (f : friable_model)
  | Patchy (q : patchy_model).

(** [np.asarray(as_list)] of three coefficient rows: a missing row or rows of
    different length make NumPy (1.24 and later) raise ValueError. *)
Definition coefficient_rows (d p s : option (list R)) : res (list R * list R * list R) :=
  match d, p, s with
  | Some d, Some p, Some s =>
      if andb (Nat.eqb (length d) (length p)) (Nat.eqb (length p) (length s))
      then Ok (d, p, s) else Err ValueError
  | _, _, _ => Err ValueError
  end.

Definition column (row : list R) (i : nat) : res R :=
  match nth_error row i with None => Err IndexError | Some x => Ok x end.

(** Evaluate a row function for density, primary and secondary. *)
Definition three (f : list R -> res R) (rows : list R * list R * list R) : res (R * R * R) :=
  let '(d, p, s) := rows in
  let* a := f d in
  let* b := f p in
  let* c := f s in
  Ok (a, b, c).

(** config/model.py:89-99.  Without any coefficient the result is an empty
    array: no material, [OtherError]. *)
Definition polyfit_row (p : R) (row : list R) : res R :=
  match row with [] => Err OtherError | _ => Ok (np_polyval row p) end.
(** config/model.py:112-118 *)
Definition expfit_row (p : R) (row : list R) : res R :=
  let* c0 := column row 0 in
  let* c1 := column row 1 in
  let* c2 := column row 2 in
  let* q := np_div p c2 in
  Ok (c0 + c1 * exp q).
(** config/model.py:130-136 *)
Definition logfit_row (p : R) (row : list R) : res R :=
  let* c0 := column row 0 in
  let* c1 := column row 1 in
  let* l := np_log p in
  Ok (c0 + c1 * (l / ln 10)).
(** config/model.py:175-181 *)
Definition powerfit_row (p : R) (row : list R) : res R :=
  let* c0 := column row 0 in
  let* c1 := column row 1 in
  let* q := np_pow p c1 in
  Ok (c0 * q).

(** config/model.py:240-242, 318-320 *)
Definition moduli_triple (m : material) : R * R * R := (dens m, bulk m, shear m).

(** The [eval] methods. *)
Definition eval_model (md : dependency_model) (p porosity : R) (mineral : material) : res (R * R * R) :=
  match md with
  | Polyfit c =>
      let* rows := coefficient_rows (c_density c) (c_primary c) (c_secondary c) in
      three (polyfit_row p) rows
  | Expfit c =>
      let* rows := coefficient_rows (c_density c) (c_primary c) (c_secondary c) in
      three (expfit_row p) rows
  | Logfit c =>
      let* rows := coefficient_rows (c_density c) (c_primary c) (c_secondary c) in
      three (logfit_row p) rows
  | Powerfit d b v =>
      let* rows := coefficient_rows d b v in
      three (powerfit_row p) rows
  | Friable f => let* m := friable_material f p porosity mineral in Ok (moduli_triple m)
  | Patchy q => let* m := patchy_material q p porosity mineral in Ok (moduli_triple m)
  end.

(** The [use_moduli] methods (config/model.py:86, 109, 127, 146, 237, 315). *)
Definition model_uses_moduli (md : dependency_model) : bool :=
  match md with
  | Polyfit c | Expfit c | Logfit c => uses_moduli c
  | Powerfit _ _ _ | Friable _ | Patchy _ => true
  end.

Definition tiny_value (x : R) : bool := if Rle_dec (Rabs x) (1 / 10 ^ 20) then true else false.

(** config/model.py:31-55 *)
Definition generic_dependency (md : dependency_model) (m : material) (p ref_p porosity : R)
    (mineral : material) : res material :=
  let* ref := eval_model md ref_p porosity mineral in
  let* eff := eval_model md p porosity mineral in
  let '(rd, rp, rs) := (ref : R * R * R) in
  let '(ed, ep, es) := (eff : R * R * R) in
  if orb (tiny_value rd) (orb (tiny_value rp) (tiny_value rs)) then Err ValueError
  else if model_uses_moduli md
  then mat_of_moduli (bulk m * (ep / rp)) (shear m * (es / rs)) (dens m * (ed / rd))
  else mat_of_velocities (dens m * (ed / rd)) (vp m * (ep / rp)) (vs m * (es / rs)).

(** config/model.py:149-168 *)
Definition powerfit_dependency (md : dependency_model) (m : material) (p ref_p porosity : R)
    (mineral : material) : res material :=
  let* ref := eval_model md ref_p porosity mineral in
  let* eff := eval_model md p porosity mineral in
  let '(rd, rp, rs) := (ref : R * R * R) in
  let '(ed, ep, es) := (eff : R * R * R) in
  let* ratio := np_div (vp m) (vs m) in
  let vp_over_vs := ratio + (es - rs) in
  let bmod := bulk m + (ep - rp) in
  let smod_reduction := vp_over_vs ^ 2 - 4 / 3 in
  if Rle_dec smod_reduction (1 / 10 ^ 20) then Err ValueError
  else mat_of_moduli bmod (bmod / smod_reduction) (dens m + (ed - rd)).

Definition pressure_dependency (md : dependency_model) (m : material) (p ref_p porosity : R)
    (mineral : material) : res material :=
  match md with
  | Powerfit _ _ _ => powerfit_dependency md m p ref_p porosity mineral
  | _ => generic_dependency md m p ref_p porosity mineral
  end.

(** config/model.py:65-78, [eval_material] of the fit models.  Line 67 tests
    the bound method [self.use_moduli] (without calling it), which is true for
    every object; PowerfitModel overrides it (line 170-173); FriableSandModel
    and PatchyCementModel override it with their own. *)
Definition model_eval_material (md : dependency_model) (p porosity : R) (mineral : material) : res material :=
  match md with
  | Powerfit _ _ _ => Err NotImplementedError
  | Friable f => friable_material f p porosity mineral
  | Patchy q => patchy_material q p porosity mineral
  | _ =>
      let* t := eval_model md p porosity mineral in
      let '(d, a, b) := (t : R * R * R) in
      let bound_method_is_true := true in
      if bound_method_is_true then mat_of_moduli a b d else mat_of_velocities d a b
  end.

(* ------------------------------------------------------------------ *)
(** ** config/depth_trend.py *)

Record depth_trend := mkDepth {
  dt_depth : R;
  dt_coefficients : coefficients (list (list R));
  dt_reference : option R;
  dt_max : option R }.

(** config/depth_trend.py:36-42.  Line 39 computes the clipped depth and
    throws it away; the depth of the result is the unclipped one. *)
Definition effective_depth (t : depth_trend) : R :=
  let result := dt_depth t in
  let _ := match dt_max t with None => result | Some b => Rmin result b end in
  match dt_reference t with None => result | Some r => result - r end.

(* ------------------------------------------------------------------ *)
(** ** config/dry_rock.py *)

Inductive adjustment :=
  | DepthTrend (t : depth_trend)
  | PressureDependency (md : dependency_model).

(** config/pressure_dependency.py:31-48.  [truncated_rock] is computed first,
    whatever the model. *)
Definition adjust_pressure (md : dependency_model) (m : material) (p : pressure) (porosity : R)
    (mineral : material) : res material :=
  let* eff := truncated_rock p in
  let* eff' := match md with
               | Powerfit _ _ _ => match p_rock p with None => Err TypeError | Some x => Ok x end
               | _ => Ok eff
               end in
  pressure_dependency md m eff' (truncated_reference p) porosity mineral.

(** config/depth_trend.py:44-57 and the above *)
Definition adjust_one (a : adjustment) (m : material) (p : pressure) (porosity : R)
    (mineral : material) : res material :=
  match a with
  | DepthTrend t => polyval_material (effective_depth t) m (dt_coefficients t)
  | PressureDependency md => adjust_pressure md m p porosity mineral
  end.

(** Models of a dry rock (config/model.py:346). *)
Inductive rock_model :=
  | RockPolyfit (c : coefficients (list (list R)))
  | RockFriable (f : friable_model)
  | RockPatchy (q : patchy_model).

Record dry_rock := mkDryRock {
  dr_model : rock_model;
  dr_porosity : R;
  dr_adjustments : list adjustment }.

(** config/dry_rock.py:20-25 *)
Definition default_bulk : list (list R) := [[2900; -1300]].
Definition default_shear : list (list R) := [[1700; -800]].
Definition default_primary : list (list R) := [[20; -40]].
Definition default_secondary : list (list R) := [[12; -20]].
Definition default_density : list (list R) := [[0; 0]; [1; -1]].

Definition or_default {A} (o : option A) (d : A) : option A :=
  match o with None => Some d | Some _ => o end.

(** config/dry_rock.py:116-133 *)
Definition fill_coefficients (c : coefficients (list (list R))) : coefficients (list (list R)) :=
  match c_flavour c with
  | Moduli => mkCoef Moduli (or_default (c_density c) default_density)
                (or_default (c_primary c) default_bulk) (or_default (c_secondary c) default_shear)
  | Velocity => mkCoef Velocity (or_default (c_density c) default_density)
                (or_default (c_primary c) default_primary) (or_default (c_secondary c) default_secondary)
  end.

(** The rock model as given by the user: a polyfit model may come without
    coefficients. *)
Inductive rock_model_input :=
  | InPolyfit (c : option (coefficients (list (list R))))
  | InFriable (f : friable_model)
  | InPatchy (q : patchy_model).

(** config/dry_rock.py:57-65 and 116-133 *)
Definition complete_model (i : rock_model_input) : rock_model :=
  match i with
  | InPolyfit None =>
      RockPolyfit (fill_coefficients
        (mkCoef Moduli (Some default_density) (Some default_bulk) (Some default_shear)))
  | InPolyfit (Some c) => RockPolyfit (fill_coefficients c)
  | InFriable f => RockFriable f
  | InPatchy q => RockPatchy q
  end.

(** config/dry_rock.py:85-100 *)
Definition check_patchy_bound (i : rock_model_input) (porosity : R) : res unit :=
  match i with
  | InPatchy q =>
      if Rlt_dec (pa_critical q - pa_upper_fraction q) (porosity - 1 / 10 ^ 5)
      then Err ValueError else Ok tt
  | _ => Ok tt
  end.

(** config/dry_rock.py:102-114 *)
Definition check_critical (i : rock_model_input) (porosity : R) : res unit :=
  let check critical :=
    if Rlt_dec critical (porosity + 1 / 10 ^ 5) then Err ValueError else Ok tt in
  match i with
  | InPolyfit _ => Ok tt
  | InFriable f => check (f_critical f)
  | InPatchy q => check (pa_critical q)
  end.

(** config/dry_rock.py:34-133.  Both validators run and their errors are
    collected into one ValidationError (a ValueError).  The warning about
    duplicate adjustments (lines 67-83) has no effect on values. *)
Definition make_dry_rock (i : rock_model_input) (porosity : R) (adjustments : list adjustment)
    : res dry_rock :=
  let* _ := check_patchy_bound i porosity in
  let* _ := check_critical i porosity in
  Ok (mkDryRock (complete_model i) porosity adjustments).

(** config/dry_rock.py:142-145 *)
Fixpoint adjust_material (l : list adjustment) (m : material) (p : pressure) (porosity : R)
    (mineral : material) : res material :=
  match l with
  | [] => Ok m
  | a :: l' =>
      let* m' := adjust_one a m p porosity mineral in
      adjust_material l' m' p porosity mineral
  end.

(** config/dry_rock.py:151-155 and config/model.py:199-205 (a ValueError is
    re-raised as ValueError), 244-252, 322-334 *)
Definition material_from_model (d : dry_rock) (effective_pressure : R) (mineral : material) : res material :=
  match dr_model d with
  | RockPolyfit c => polyval_material (dr_porosity d) mineral c
  | RockFriable f => friable_material f effective_pressure (dr_porosity d) mineral
  | RockPatchy q => patchy_material q effective_pressure (dr_porosity d) mineral
  end.

(** config/dry_rock.py:147-149 *)
Definition dry_rock_material (d : dry_rock) (mineral : material) (p : pressure) : res material :=
  let* eff := truncated_rock p in
  let* m := material_from_model d eff mineral in
  adjust_material (dr_adjustments d) m p (dr_porosity d) mineral.

(** config/dry_rock.py:135-140, config/model.py:192-197, 230-235, 306-313 *)
Definition nonporous (d : dry_rock) (mineral : material) : res material :=
  match dr_model d with
  | RockPatchy q => hashin_shtrikman_walpole (pa_cement q) mineral (pa_upper_fraction q) "lower"
  | _ => Ok mineral
  end.
