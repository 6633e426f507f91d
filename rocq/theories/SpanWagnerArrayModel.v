(** Model of the functions of material/span_wagner/carbon_dioxide.py on
    arrays, where they are not the scalar functions row by row. *)
From Coq Require Import String List ZArith.
From Verif Require Import Base MaterialModel FluidModel RowModel FluidsModel SpanWagnerModel.
Import ListNotations.
Open Scope R_scope.

(** carbon_dioxide.py:42-83 for arrays.  Whether a single number comes back is
    decided from tau alone (lines 48-50): [result[0]] of line 81. *)
Definition ideal_gas_helmholtz_energy_array (delta tau : arr R) (dd dt : nat) : res (arr R) :=
  match dd, dt with
  | 0%nat, 0%nat =>
      let* result := amap (fun x => ideal_gas_helmholtz_energy (fst x) (snd x) 0 0) (zip delta tau) in
      match tau, result with
      | Sc _, Vec (x :: _) => Ok (Sc x)
      | Sc _, Vec [] => Err IndexError
      | _, _ => Ok result
      end
  | 0%nat, _ => amap (fun t => ideal_gas_helmholtz_energy 1 t 0 dt) tau
  | _, 0%nat => amap (fun d => ideal_gas_helmholtz_energy d 1 dd 0) delta
  | _, _ => let* z := ideal_gas_helmholtz_energy 1 1 dd dt in Ok (Sc z)
  end.

(** carbon_dioxide.py:91-98: [np.asarray] and [reshape] of an array give a view
    of it, and the nudge is in place.  The caller's array afterwards. *)
Definition nudged_in_place (a : arr R) : arr R :=
  match a with Sc x => Sc x | Vec l => Vec (map nudged l) end.

(** carbon_dioxide.py:86-105 for arrays: the result, and the arguments
    afterwards. *)
Definition co2_residual_helmholtz_energy_array (delta tau : arr R) (dd dt : nat) : res (arr R) * (arr R * arr R) :=
  (amap (fun x => co2_residual_helmholtz_energy (fst x) (snd x) dd dt) (zip delta tau),
   (nudged_in_place delta, nudged_in_place tau)).

Definition rmin (l : list R) : R := fold_right Rmin (hd 0 l) l.
Definition rmax (l : list R) : R := fold_right Rmax (hd 0 l) l.

(** carbon_dioxide.py:264-286, for arrays of positive numbers.  The grid values
    are summed up in [interp]: the linear interpolant, nan being None.  A point
    off the grid is a ValueError (bounds_error is on by default); the upper end
    of the pressure grid is 1.01 times the highest temperature (line 275). *)
Definition find_initial_density_values (interp : R -> R -> option R) (bounds : list (R * R)) (ts ps : list R)
  : res (list R) :=
  let t_lo := rmin ts * (99 / 100) in
  let t_hi := rmax ts * (101 / 100) in
  let p_lo := rmin ps * (99 / 100) in
  let p_hi := rmax ts * (101 / 100) in
  if existsb (fun x => ltb (fst x) t_lo || ltb t_hi (fst x) || ltb (snd x) p_lo || ltb p_hi (snd x))%bool (combine ts ps)
  then Err ValueError
  else Ok (map (fun x =>
             let '(b, (t, p)) := x in
             match interp t p with
             | Some v => if orb (ltb v (fst b)) (ltb (snd b) v) then (fst b + snd b) / 2 else v
             | None => (fst b + snd b) / 2
             end) (combine bounds (combine ts ps))).

(** carbon_dioxide.py:308-321: is the root found by scipy.optimize.newton
    kept?  None is nan. *)
Definition accepted (t p : R) (b : R * R) (root : option R) : bool :=
  match root with
  | Some x =>
      match carbon_dioxide_pressure t x 0 0 false with
      | Ok (Some q) => andb (leb (Rabs (q - p)) (1 / 10 ^ 5)) (andb (leb (fst b) x) (leb x (snd b)))
      | _ => false
      end
  | None => false
  end.

(** carbon_dioxide.py:323-327, one row. *)
Definition accepted_or_robust (solve : root_finder) (fv : phase_choice) (t p : R) (b : R * R) (root : option R) : res R :=
  match root, accepted t p b root with
  | Some x, true => Ok x
  | _, _ =>
      let* d := calculate_carbon_dioxide_density solve t p fv true in
      match d with Some x => Ok x | None => Err NonFinite end
  end.

(** carbon_dioxide.py:289-327; [newton] is scipy.optimize.newton, from starting
    values to roots. *)
Definition array_carbon_dioxide_density (interp : R -> R -> option R) (newton : list R -> res (list (option R)))
    (solve : root_finder) (ts ps : list R) (fv : phase_choice) : res (list R) :=
  let* bounds := sequence (map (fun x => density_bounds (fst x) (snd x) fv) (combine ts ps)) in
  let* iv := find_initial_density_values interp bounds ts ps in
  let* roots := newton iv in
  sequence (map (fun x => let '(t, p, b, r) := x in accepted_or_robust solve fv t p b r)
                (combine (combine (combine ts ps) bounds) roots)).

(** fluid_model_providers.py:52-61 calls span_wagner.carbon_dioxide with
    density None and force_vapor "auto". *)
Definition co2_eos (solve : root_finder) (table : lookup_table) : equation_of_state :=
  fun temperature pressure interpolate =>
    carbon_dioxide solve table temperature pressure None interpolate Auto true.
