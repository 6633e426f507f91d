(** Infinities and signed zeros.  The other models end ([NonFinite]) where a
    NumPy number becomes infinite; the code goes on.  Here numbers are those of
    IEEE 754 without rounding: real numbers, a negative zero, two infinities and
    nan.  Everything is about one row.  Sandstone models and the fluids of
    Batzle and Wang are in InfSandModel and InfFluidModel: fluids and minerals are given as materials here. *)
From Coq Require Import String List ZArith.
From Verif Require Import Base MaterialModel FluidsModel ConfigModel RowModel.
Import ListNotations.
Open Scope R_scope.

Inductive xnum : Type := XFin (x : R) | XNegZero | XInf (negative : bool) | XNan.
Declare Scope xnum_scope.
Delimit Scope xnum_scope with xnum.
Bind Scope xnum_scope with xnum.

(** The real number, if it is one; the sign bit. *)
Definition xval (a : xnum) : option R := match a with XFin x => Some x | XNegZero => Some 0 | _ => None end.
Definition xsign (a : xnum) : bool :=
  match a with XFin x => if Rlt_dec x 0 then true else false | XNegZero => true | XInf s => s | XNan => false end.
Definition xzero (a : xnum) : bool :=
  match xval a with Some x => if Req_EM_T x 0 then true else false | None => false end.
(** The real number [x]; [s] is its sign should it be zero. *)
Definition signed (s : bool) (x : R) : xnum :=
  if Req_EM_T x 0 then (if s then XNegZero else XFin 0) else XFin x.

Definition xadd (a b : xnum) : xnum :=
  match a, b with
  | XNan, _ | _, XNan => XNan
  | XInf s, XInf t => if Bool.eqb s t then XInf s else XNan
  | XInf s, _ => XInf s
  | _, XInf t => XInf t
  | XNegZero, XNegZero => XNegZero
  | XNegZero, XFin y => XFin y
  | XFin x, XNegZero => XFin x
  | XFin x, XFin y => XFin (x + y)
  end.
Definition xopp (a : xnum) : xnum :=
  match a with
  | XFin x => signed true (- x)
  | XNegZero => XFin 0
  | XInf s => XInf (negb s)
  | XNan => XNan
  end.
Definition xsub (a b : xnum) : xnum := xadd a (xopp b).
Definition xmul (a b : xnum) : xnum :=
  let s := xorb (xsign a) (xsign b) in
  match a, b with
  | XNan, _ | _, XNan => XNan
  | XInf _, XInf _ => XInf s
  | XInf _, _ => if xzero b then XNan else XInf s
  | _, XInf _ => if xzero a then XNan else XInf s
  | _, _ =>
      match xval a, xval b with Some x, Some y => signed s (x * y) | _, _ => XNan end
  end.
(** Division of NumPy numbers. *)
Definition xdiv (a b : xnum) : xnum :=
  let s := xorb (xsign a) (xsign b) in
  match a, b with
  | XNan, _ | _, XNan => XNan
  | XInf _, XInf _ => XNan
  | XInf _, _ => XInf s
  | _, XInf _ => signed s 0
  | _, _ =>
      match xval a, xval b with
      | Some x, Some y =>
          if Req_EM_T y 0 then (if Req_EM_T x 0 then XNan else XInf s) else signed s (x / y)
      | _, _ => XNan
      end
  end.
Notation "a + b" := (xadd a b) : xnum_scope.
Notation "a - b" := (xsub a b) : xnum_scope.
Notation "a * b" := (xmul a b) : xnum_scope.
Notation "a / b" := (xdiv a b) : xnum_scope.
Definition xsquare (a : xnum) : xnum := (a * a)%xnum.

(** Comparisons; with nan they are false. *)
Definition xltb (a b : xnum) : bool :=
  match a, b with
  | XNan, _ | _, XNan => false
  | XInf s, XInf t => andb s (negb t)
  | XInf s, _ => s
  | _, XInf t => negb t
  | _, _ => match xval a, xval b with Some x, Some y => if Rlt_dec x y then true else false | _, _ => false end
  end.
Definition xeqb (a b : xnum) : bool :=
  match a, b with
  | XNan, _ | _, XNan => false
  | XInf s, XInf t => Bool.eqb s t
  | XInf _, _ | _, XInf _ => false
  | _, _ => match xval a, xval b with Some x, Some y => if Req_EM_T x y then true else false | _, _ => false end
  end.
(** [np.maximum] and [np.minimum] pass nan on. *)
Definition xmax (a b : xnum) : xnum :=
  match a, b with XNan, _ | _, XNan => XNan | _, _ => if xltb a b then b else a end.
Definition xmin (a b : xnum) : xnum :=
  match a, b with XNan, _ | _, XNan => XNan | _, _ => if xltb b a then b else a end.
Definition xabs (a : xnum) : xnum :=
  match a with XFin x => XFin (Rabs x) | XNegZero => XFin 0 | XInf _ => XInf false | XNan => XNan end.

(** Where numbers come from: Python floats raise on division by zero, and a root
    of a negative one is complex; on NumPy arrays [x ** 0.5] is a square root, on
    single numbers it is the power function of C. *)
Inductive kind := Python | Scalar | Array.
Definition x_div (kd : kind) (a b : xnum) : res xnum :=
  match kd with
  | Python => if xzero b then Err ZeroDivisionError else Ok (xdiv a b)
  | _ => Ok (xdiv a b)
  end.
(** [x ** 0.5] *)
Definition x_root (kd : kind) (a : xnum) : res xnum :=
  match a with
  | XNan => Ok XNan
  | XInf false => Ok (XInf false)
  | XInf true => Ok match kd with Array => XNan | _ => XInf false end
  | XNegZero => Ok match kd with Array => XNegZero | _ => XFin 0 end
  | XFin x =>
      if Rlt_dec x 0 then match kd with Python => Err NonFinite | _ => Ok XNan end else Ok (XFin (sqrt x))
  end.
(** [np.exp] and [np.log10] *)
Definition x_exp (a : xnum) : xnum :=
  match a with
  | XNan => XNan
  | XInf s => if s then XFin 0 else XInf false
  | XFin x => XFin (exp x)
  | XNegZero => XFin 1
  end.
Definition x_log10 (a : xnum) : xnum :=
  match a with
  | XNan => XNan
  | XInf s => if s then XNan else XInf false
  | XNegZero => XInf true
  | XFin x => if Rlt_dec 0 x then XFin (ln x / ln 10) else if Req_EM_T x 0 then XInf true else XNan
  end.
(** [x ** y] for a number [y], as C's pow does it. *)
Definition whole (y : R) : bool := if Req_EM_T y (IZR (Int_part y)) then true else false.
Definition odd (y : R) : bool := andb (whole y) (Z.odd (Int_part y)).
Definition x_pow (a : xnum) (y : R) : xnum :=
  if Req_EM_T y 0 then XFin 1
  else
    match a with
    | XNan => XNan
    | XInf s =>
        if Rlt_dec 0 y then XInf (andb s (odd y)) else if andb s (odd y) then XNegZero else XFin 0
    | _ =>
        if xzero a then
          (if Rlt_dec 0 y then (if andb (xsign a) (odd y) then XNegZero else XFin 0)
           else XInf (andb (xsign a) (odd y)))
        else
          match xval a with
          | Some x =>
              if Rlt_dec 0 x then XFin (Rpower x y)
              else if whole y then XFin (powerRZ x (Int_part y)) else XNan
          | None => XNan
          end
    end.
Definition x_power (kd : kind) (a : xnum) (y : R) : res xnum :=
  match kd with
  | Python =>
      if andb (xzero a) (if Rlt_dec y 0 then true else false) then Err ZeroDivisionError
      else if andb (xltb a (XFin 0)) (andb (negb (whole y)) (match a with XInf _ => false | _ => true end))
      then Err NonFinite
      else Ok (x_pow a y)
  | _ => Ok (x_pow a y)
  end.

Open Scope xnum_scope.

(* ------------------------------------------------------------------ *)
(** ** material.py, seismic_velocity.py *)

(** material.py:133-137 *)
Record xmaterial : Type := mkX { x_bulk : xnum; x_shear : xnum; x_dens : xnum; x_vp : xnum; x_vs : xnum }.

(** seismic_velocity.py:28-78 *)
Definition x_shear_modulus (vs d : xnum) : xnum := xsquare vs * d.
Definition x_bulk_modulus (vp mu d : xnum) : xnum := xsquare vp * d - XFin (4 / 3)%R * mu.
Definition x_primary_velocity (kd : kind) (k mu d : xnum) : res xnum :=
  let* q := x_div kd (k + XFin (4 / 3)%R * mu) d in x_root kd q.
Definition x_secondary_velocity (kd : kind) (mu d : xnum) : res xnum :=
  let* q := x_div kd mu d in x_root kd q.

(** material.py:140-151; as in MaterialModel the first three guards run before
    the velocities are derived. *)
Definition x_moduli_guards (k mu d : xnum) : res unit :=
  let* _ := guard (xltb d (XFin 0)) ValueError in
  let* _ := guard (xltb k (XFin 0)) ValueError in
  guard (xltb mu (XFin 0)) ValueError.
Definition x_velocity_guards (p s : xnum) : res unit :=
  let* _ := guard (xltb p (XFin 0)) ValueError in
  let* _ := guard (xltb s (XFin 0)) ValueError in
  guard (xltb p (XFin (sqrt (4 / 3)%R) * s)) ValueError.

(** material.py:114-179, Material(bulk_modulus=k, shear_modulus=mu, density=d);
    with Python floats a zero density raises before any guard. *)
Definition x_material_of_moduli (kd : kind) (k mu d : xnum) : res xmaterial :=
  let* _ := guard (match kd with Python => xzero d | _ => false end) ZeroDivisionError in
  let* _ := x_moduli_guards k mu d in
  let* p := x_primary_velocity kd k mu d in
  let* s := x_secondary_velocity kd mu d in
  let* _ := x_velocity_guards p s in
  Ok (mkX k mu d p s).

(** Material(density=d, primary_velocity=p, secondary_velocity=s) *)
Definition x_material_of_velocities (d p s : xnum) : res xmaterial :=
  let mu := x_shear_modulus s d in
  let k := x_bulk_modulus p mu d in
  let* _ := x_moduli_guards k mu d in
  let* _ := x_velocity_guards p s in
  Ok (mkX k mu d p s).

(** fluid.py:12-16 *)
Definition x_fluid_of_bulk (kd : kind) (k d : xnum) : res xmaterial := x_material_of_moduli kd k (XFin 0) d.

(* ------------------------------------------------------------------ *)
(** ** fluid.py *)

(** Python's [sum] *)
Fixpoint xsum (l : list xnum) : xnum := match l with [] => XFin 0 | x :: l' => x + xsum l' end.

(** fluid.py:19-25 *)
Definition x_sum_saturations_to_one (saturations : list xnum) : list xnum :=
  let total := xsum saturations in
  let adjusted := xmax total (XFin (1 / 10 ^ 15)%R) in
  map (fun s => (if xltb (XFin 0) total then s else XFin (1 / 10 ^ 15)%R) / adjusted) saturations.

(** fluid.py:28-31 *)
Definition x_mix_densities (fluids : list xmaterial) (saturations : list xnum) : xnum :=
  xsum (map (fun fs => x_dens (fst fs) * snd fs) (combine fluids saturations)).

(** fluid.py:34-35; the saturations are NumPy numbers here, whatever they were
    in the configuration. *)
Definition x_mix_bulk_moduli (fluids : list xmaterial) (saturations : list xnum) : res xnum :=
  match combine saturations fluids with
  | [] => Err ZeroDivisionError
  | l => Ok (XFin 1 / xsum (map (fun sf => fst sf / x_bulk (snd sf)) l))
  end.

(** fluid.py:38-52; [kd] is [Scalar] or [Array]. *)
Definition x_wood_fluid_mixing (kd : kind) (fluids : list xmaterial) (saturations : list xnum) : res xmaterial :=
  let saturations := x_sum_saturations_to_one saturations in
  let* k := x_mix_bulk_moduli fluids saturations in
  x_fluid_of_bulk kd k (x_mix_densities fluids saturations).

(** fluid.py:55-96; [ks] is the kind of the saturations. *)
Definition x_brie_fluid_mixing (kd ks : kind) (fluids : list xmaterial) (fluid_saturations : list xnum)
    (gases : list xmaterial) (gas_saturations : list xnum) (exponent : R) : res xmaterial :=
  if negb (Nat.eqb (length fluids) (length fluid_saturations)) then Err ValueError
  else if negb (Nat.eqb (length gases) (length gas_saturations)) then Err ValueError
  else
    match fluids, gases with
    | [], [] => Err ValueError
    | _ :: _, [] => x_wood_fluid_mixing kd fluids fluid_saturations
    | [], _ :: _ => x_wood_fluid_mixing kd gases gas_saturations
    | _ :: _, _ :: _ =>
        let* liquid := x_wood_fluid_mixing kd fluids fluid_saturations in
        let* gas := x_wood_fluid_mixing kd gases gas_saturations in
        let total_fluid := xsum fluid_saturations in
        let* w := x_power ks total_fluid exponent in
        let bulk_mix := (x_bulk liquid - x_bulk gas) * w + x_bulk gas in
        let density_mix := x_mix_densities [liquid; gas] [total_fluid; XFin 1 - total_fluid] in
        x_fluid_of_bulk kd bulk_mix density_mix
    end.

(** fluid.py:114-146: Python floats. *)
Definition x_gassman_equation (kdry kmin kf phi : xnum) : res xnum :=
  if xeqb phi (XFin 0) then Ok kmin
  else if xeqb kdry kmin then Ok kmin
  else
    let* a := x_div Python kdry (kmin - kdry) in
    let* b := x_div Python kf ((kmin - kf) * phi) in
    let difference_factor := a + b in
    if xltb difference_factor (XFin 0) then Err ValueError
    else
      let* q := x_div Python difference_factor (XFin 1 + difference_factor) in
      Ok (q * kmin).

(** fluid.py:99-154; the result of the vectorised function is a NumPy number. *)
Definition x_fluid_substitution (kd : kind) (dry_rock mineral fluid : xmaterial) (phi : xnum) : res xmaterial :=
  let* k := x_gassman_equation (x_bulk dry_rock) (x_bulk mineral) (x_bulk fluid) phi in
  x_material_of_moduli kd k (x_shear dry_rock) (x_dens dry_rock + phi * x_dens fluid).

(* ------------------------------------------------------------------ *)
(** ** Polynomials, material.py:17-73 *)

(** numpy.polyval(p, x) *)
Definition x_np_polyval (p : list R) (x : xnum) : xnum := fold_left (fun y c => y * x + XFin c) p (XFin 0).
(** numpy.polynomial.polynomial.polyval2d: Horner starts with [c[-1] + x * 0]. *)
Fixpoint x_poly_eval (x : xnum) (c : list xnum) : xnum :=
  match c with
  | [] => XFin 0
  | [a] => a + x * XFin 0
  | a :: c' => a + x_poly_eval x c' * x
  end.
Fixpoint xmap2 (f : xnum -> xnum -> xnum) (l1 l2 : list xnum) : list xnum :=
  match l1, l2 with
  | a :: l1', b :: l2' => f a b :: xmap2 f l1' l2'
  | _, _ => []
  end.
Fixpoint x_poly_rows (x : xnum) (rows : list (list xnum)) : list xnum :=
  match rows with
  | [] => []
  | [row] => map (fun a => a + x * XFin 0) row
  | row :: rows' => xmap2 (fun a acc => a + acc * x) row (x_poly_rows x rows')
  end.
Definition x_polyval2d (x y : xnum) (c : list (list R)) : res xnum :=
  match x_poly_rows x (map (map XFin) c) with
  | [] => Err IndexError
  | l => Ok (x_poly_eval y l)
  end.
Definition x_fit_property (x v : xnum) (c : option (list (list R))) : res xnum :=
  match c with None => Err TypeError | Some m => x_polyval2d x v m end.

(** material.py:40-73 for one number: polyval2d gives a NumPy number. *)
Definition x_polyval_material (v : xnum) (m : xmaterial) (c : coefficients (list (list R))) : res xmaterial :=
  if uses_moduli c then
    let* a := x_fit_property (x_dens m) v (c_density c) in
    let* b := x_fit_property (x_bulk m) v (c_primary c) in
    let* d := x_fit_property (x_shear m) v (c_secondary c) in
    x_material_of_moduli Scalar b d a
  else
    let* a := x_fit_property (x_dens m) v (c_density c) in
    let* b := x_fit_property (x_vp m) v (c_primary c) in
    let* d := x_fit_property (x_vs m) v (c_secondary c) in
    x_material_of_velocities a b d.
(** material.py:76-100 for one row of a column: the material of all rows is put
    together from densities and velocities. *)
Definition x_polyval_row (v : xnum) (m : xmaterial) (c : coefficients (list (list R))) : res xmaterial :=
  let* r := x_polyval_material v m c in
  x_material_of_velocities (x_dens r) (x_vp r) (x_vs r).
(** The two ways: a number in the configuration, or a column. *)
Definition x_polyval (kd : kind) (v : xnum) (m : xmaterial) (c : coefficients (list (list R))) : res xmaterial :=
  match kd with Array => x_polyval_row v m c | _ => x_polyval_material v m c end.

(* ------------------------------------------------------------------ *)
(** ** config/model.py: the fits *)

(** config/model.py:89-99 *)
Definition x_polyfit_row (p : xnum) (row : list R) : res xnum :=
  match row with [] => Err OtherError | _ => Ok (x_np_polyval row p) end.
(** config/model.py:112-118 *)
Definition x_expfit_row (p : xnum) (row : list R) : res xnum :=
  let* c0 := column row 0 in
  let* c1 := column row 1 in
  let* c2 := column row 2 in
  Ok (XFin c0 + XFin c1 * x_exp (p / XFin c2)).
(** config/model.py:130-136 *)
Definition x_logfit_row (p : xnum) (row : list R) : res xnum :=
  let* c0 := column row 0 in
  let* c1 := column row 1 in
  Ok (XFin c0 + XFin c1 * x_log10 p).
(** config/model.py:175-181 *)
Definition x_powerfit_row (p : xnum) (row : list R) : res xnum :=
  let* c0 := column row 0 in
  let* c1 := column row 1 in
  Ok (XFin c0 * x_pow p c1).

Definition x_three (f : list R -> res xnum) (rows : list R * list R * list R) : res (xnum * xnum * xnum) :=
  let '(d, p, s) := rows in
  let* a := f d in
  let* b := f p in
  let* c := f s in
  Ok (a, b, c).

(** The [eval] methods of the fits; the sandstone models are left out. *)
Definition x_eval_model (md : dependency_model) (p : xnum) : res (xnum * xnum * xnum) :=
  match md with
  | Polyfit c =>
      let* rows := coefficient_rows (c_density c) (c_primary c) (c_secondary c) in x_three (x_polyfit_row p) rows
  | Expfit c =>
      let* rows := coefficient_rows (c_density c) (c_primary c) (c_secondary c) in x_three (x_expfit_row p) rows
  | Logfit c =>
      let* rows := coefficient_rows (c_density c) (c_primary c) (c_secondary c) in x_three (x_logfit_row p) rows
  | Powerfit d b v => let* rows := coefficient_rows d b v in x_three (x_powerfit_row p) rows
  | Friable _ | Patchy _ => Err OtherError
  end.

Definition x_tiny (x : xnum) : bool := orb (xltb (xabs x) (XFin (1 / 10 ^ 20)%R)) (xeqb (xabs x) (XFin (1 / 10 ^ 20)%R)).

(** config/model.py:31-55 *)
Definition x_generic_dependency (kd : kind) (md : dependency_model) (m : xmaterial) (p ref_p : xnum) : res xmaterial :=
  let* ref := x_eval_model md ref_p in
  let* eff := x_eval_model md p in
  let '(rd, rp, rs) := (ref : xnum * xnum * xnum) in
  let '(ed, ep, es) := (eff : xnum * xnum * xnum) in
  if orb (x_tiny rd) (orb (x_tiny rp) (x_tiny rs)) then Err ValueError
  else if model_uses_moduli md
  then x_material_of_moduli kd (x_bulk m * (ep / rp)) (x_shear m * (es / rs)) (x_dens m * (ed / rd))
  else x_material_of_velocities (x_dens m * (ed / rd)) (x_vp m * (ep / rp)) (x_vs m * (es / rs)).

(** config/model.py:149-168; the velocities of a dry rock are NumPy numbers. *)
Definition x_powerfit_dependency (kd : kind) (md : dependency_model) (m : xmaterial) (p ref_p : xnum) : res xmaterial :=
  let* ref := x_eval_model md ref_p in
  let* eff := x_eval_model md p in
  let '(rd, rp, rs) := (ref : xnum * xnum * xnum) in
  let '(ed, ep, es) := (eff : xnum * xnum * xnum) in
  let vp_over_vs := x_vp m / x_vs m + (es - rs) in
  let bmod := x_bulk m + (ep - rp) in
  let smod_reduction := xsquare vp_over_vs - XFin (4 / 3)%R in
  if orb (xltb smod_reduction (XFin (1 / 10 ^ 20)%R)) (xeqb smod_reduction (XFin (1 / 10 ^ 20)%R)) then Err ValueError
  else x_material_of_moduli kd bmod (bmod / smod_reduction) (x_dens m + (ed - rd)).

Definition x_pressure_dependency (kd : kind) (md : dependency_model) (m : xmaterial) (p ref_p : xnum) : res xmaterial :=
  match md with
  | Powerfit _ _ _ => x_powerfit_dependency kd md m p ref_p
  | _ => x_generic_dependency kd md m p ref_p
  end.
