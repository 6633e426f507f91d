(** Model of material/fluid.py. *)
From Verif Require Import Base MaterialModel.

(** fluid.py:12-16, called with density and bulk modulus. *)
Definition fluid_of_bulk (k d : R) : res material := mat_of_moduli k 0 d.

(** fluid.py:12-16, called with density and primary velocity
    (Material(shear_modulus=0, density=d, primary_velocity=p)). *)
Definition fluid_of_velocity (d p : R) : res material :=
  mk_material None (Some 0) (Some d) None (Some p).

(** fluid.py:19-25 *)
Definition sum_saturations_to_one (saturations : list R) : list R :=
  let total := rsum saturations in
  let adjusted := Rmax total (1 / 10 ^ 15) in
  map (fun s => (if Rlt_dec 0 total then s else 1 / 10 ^ 15) / adjusted) saturations.

(** fluid.py:28-31; [zip] stops at the shorter list. *)
Definition mix_densities (fluids : list material) (saturations : list R) : R :=
  rsum (map (fun fs => dens (fst fs) * snd fs) (combine fluids saturations)).

(** fluid.py:34-35.  Dividing a saturation by a zero bulk modulus leaves the
    reals.  The final [1.0 / sum(...)]: for an empty [zip] the sum is the
    integer 0, so ZeroDivisionError; otherwise it is a NumPy value. *)
Definition mix_bulk_moduli (fluids : list material) (saturations : list R) : res R :=
  match combine saturations fluids with
  | [] => Err ZeroDivisionError
  | l =>
      let* t := rsum_res (map (fun sf => np_div (fst sf) (bulk (snd sf))) l) in
      np_div 1 t
  end.

(** fluid.py:38-52 *)
Definition wood_fluid_mixing (fluids : list material) (saturations : list R) : res material :=
  let saturations := sum_saturations_to_one saturations in
  let* k := mix_bulk_moduli fluids saturations in
  fluid_of_bulk k (mix_densities fluids saturations).

(** fluid.py:55-96.  Both Wood mixtures are computed before the zero-constituent
    test (lines 79-82), liquid first. *)
Definition brie_fluid_mixing (fluids : list material) (fluid_saturations : list R)
    (gases : list material) (gas_saturations : list R) (exponent : R) : res material :=
  if negb (Nat.eqb (length fluids) (length fluid_saturations)) then Err ValueError
  else if negb (Nat.eqb (length gases) (length gas_saturations)) then Err ValueError
  else
    match fluids, gases with
    | [], [] => Err ValueError
    | _ :: _, [] => wood_fluid_mixing fluids fluid_saturations
    | [], _ :: _ => wood_fluid_mixing gases gas_saturations
    | _ :: _, _ :: _ =>
        let* liquid := wood_fluid_mixing fluids fluid_saturations in
        let* gas := wood_fluid_mixing gases gas_saturations in
        let total_fluid := rsum fluid_saturations in
        let* w := np_pow total_fluid exponent in
        let bulk_mix := (bulk liquid - bulk gas) * w + bulk gas in
        let density_mix := mix_densities [liquid; gas] [total_fluid; 1 - total_fluid] in
        fluid_of_bulk bulk_mix density_mix
    end.

(** fluid.py:114-146, one element of the float_vectorized function: the
    arguments are Python floats, so division by zero raises. *)
Definition gassman_equation (kdry kmin kf phi : R) : res R :=
  if Req_EM_T phi 0 then Ok kmin
  else if Req_EM_T kdry kmin then Ok kmin
  else
    let* a := py_div kdry (kmin - kdry) in
    let* b := py_div kf ((kmin - kf) * phi) in
    let difference_factor := a + b in
    if Rlt_dec difference_factor 0 then Err ValueError
    else
      let* q := py_div difference_factor (1 + difference_factor) in
      Ok (q * kmin).

(** fluid.py:99-154 *)
Definition fluid_substitution (dry_rock mineral fluid : material) (phi : R) : res material :=
  let* k := gassman_equation (bulk dry_rock) (bulk mineral) (bulk fluid) phi in
  mat_of_moduli k (shear dry_rock) (dens dry_rock + phi * dens fluid).
