(** The calculation of a table with nan: BatzleWangModel and RowModel once
    more, on numbers with nan (NumModel) instead of real numbers.  Cells that are
    missing in the data file are nan; so are square roots and fractional powers
    of negative numbers.  No guard of the code looks for nan. *)
From Coq Require Import String List ZArith.
From Verif Require Import Base NumModel BatzleWangModel FluidsModel ConfigModel RowModel.
Import ListNotations.
Open Scope R_scope.
Open Scope num_scope.

(* ------------------------------------------------------------------ *)
(** ** One material (material.py, seismic_velocity.py) *)

(** material.py:133-137 *)
Record nmaterial : Type := mkNMat {
  v_bulk : num; v_shear : num; v_dens : num; v_vp : num; v_vs : num }.

(** seismic_velocity.py:28-78 *)
Definition n_shear_modulus (vs d : num) : num := vs ^ 2 * d.
Definition n_bulk_modulus (vp mu d : num) : num := vp ^ 2 * d - 4 / 3 * mu.
Definition n_primary_velocity (k mu d : num) : res num :=
  let* q := n_div (k + 4 / 3 * mu) d in n_sqrt q.
Definition n_secondary_velocity (mu d : num) : res num :=
  let* q := n_div mu d in n_sqrt q.

(** material.py:140-151, the guards in two groups: as in MaterialModel the
    first three run before the velocities are derived. *)
Definition n_moduli_guards (k mu d : num) : res unit :=
  let* _ := guard (nltb d 0) ValueError in
  let* _ := guard (nltb k 0) ValueError in
  guard (nltb mu 0) ValueError.
Definition n_velocity_guards (p s : num) : res unit :=
  let* _ := guard (nltb p 0) ValueError in
  let* _ := guard (nltb s 0) ValueError in
  guard (nltb p (sqrt (4 / 3)%R * s)) ValueError.

(** material.py:114-179, Material(bulk_modulus=k, shear_modulus=mu, density=d);
    a zero density gives an infinite velocity or a ZeroDivisionError. *)
Definition nmaterial_of_moduli (k mu d : num) : res nmaterial :=
  let* _ := guard (neqb d 0) NonFinite in
  let* _ := n_moduli_guards k mu d in
  let* p := n_primary_velocity k mu d in
  let* s := n_secondary_velocity mu d in
  let* _ := n_velocity_guards p s in
  Ok (mkNMat k mu d p s).

(** Material(density=d, primary_velocity=p, secondary_velocity=s) *)
Definition nmaterial_of_velocities (d p s : num) : res nmaterial :=
  let mu := n_shear_modulus s d in
  let k := n_bulk_modulus p mu d in
  let* _ := n_moduli_guards k mu d in
  let* _ := n_velocity_guards p s in
  Ok (mkNMat k mu d p s).

(** fluid.py:12-16 with a bulk modulus, and with a primary velocity. *)
Definition nfluid_of_bulk (k d : num) : res nmaterial := nmaterial_of_moduli k 0 d.
Definition nfluid_of_velocity (d p : num) : res nmaterial :=
  let k := n_bulk_modulus p 0 d in
  let* _ := guard (neqb d 0) NonFinite in
  let* _ := n_moduli_guards k 0 d in
  let* s := n_secondary_velocity 0 d in
  let* _ := n_velocity_guards p s in
  Ok (mkNMat k 0 d p s).

(* ------------------------------------------------------------------ *)
(** ** Polynomials *)

(** numpy.polyval(p, x): Horner, highest power first; [zeros_like(x)] times nan
    is nan. *)
Definition n_np_polyval (p : list R) (x : num) : num := fold_left (fun y c => y * x + Num c) p (Num 0).

(** numpy.polynomial.polynomial.polyval2d and polyval3d.  Horner starts with
    [c[-1] + x * 0], so a nan argument always gives nan. *)
Definition n_poly_eval (x : num) (c : list num) : num := fold_right (fun a acc => a + acc * x) (Num 0) c.
Fixpoint nmap2 (f : num -> num -> num) (l1 l2 : list num) : list num :=
  match l1, l2 with
  | a :: l1', b :: l2' => f a b :: nmap2 f l1' l2'
  | _, _ => []
  end.
Fixpoint n_poly_rows (x : num) (rows : list (list num)) : list num :=
  match rows with
  | [] => []
  | [row] => map (fun a => a + x * 0) row
  | row :: rows' => nmap2 (fun a acc => a + acc * x) row (n_poly_rows x rows')
  end.
Definition n_polyval2d_of (x y : num) (c : list (list num)) : res num :=
  match n_poly_rows x c with
  | [] => Err IndexError
  | l => Ok (n_poly_eval y l)
  end.
Definition nums (c : list (list R)) : list (list num) := map (map Num) c.
Definition n_polyval2d (x y : num) (c : list (list R)) : res num := n_polyval2d_of x y (nums c).
Fixpoint n_poly_matrices (x : num) (ms : list (list (list num))) : list (list num) :=
  match ms with
  | [] => []
  | [m] => map (map (fun a => a + x * 0)) m
  | m :: ms' =>
      map (fun rr => nmap2 (fun a acc => a + acc * x) (fst rr) (snd rr)) (combine m (n_poly_matrices x ms'))
  end.
Definition n_polyval3d (x y z : num) (c : list (list (list R))) : res num :=
  n_polyval2d_of y z (n_poly_matrices x (map nums c)).

(* ------------------------------------------------------------------ *)
(** ** material/batzle_wang, conversions.py *)

(** conversions.py:6-10 *)
Definition n_celsius_to_kelvin (t : num) : num := t + 27315 / 100.

(** *** ideal_gas.py *)

(** ideal_gas.py:13-19 *)
Definition n_molecular_weight (gas_gravity : num) : num := gas_gravity * AIR_WEIGHT.

(** ideal_gas.py:22-29 *)
Definition n_molar_volume (absolute_temperature pressure : num) : res num :=
  p_div (gas_constant * absolute_temperature) pressure.

(** ideal_gas.py:32-40 *)
Definition n_ideal_gas_density (absolute_temperature pressure gas_gravity : num) : res num :=
  let* v := n_molar_volume absolute_temperature pressure in
  p_div (n_molecular_weight gas_gravity) v.

(** ideal_gas.py:43-49 *)
Definition n_ideal_gas_primary_velocity (absolute_temperature gas_gravity : num) : res num :=
  let* q := p_div (gas_constant * absolute_temperature) (n_molecular_weight gas_gravity) in
  n_sqrt q.

(** ideal_gas.py:52-63 *)
Definition n_ideal_gas (absolute_temperature pressure gas_gravity : num) : res nmaterial :=
  let* d := n_ideal_gas_density absolute_temperature (pressure * 10 ^ 6) gas_gravity in
  let* v := n_ideal_gas_primary_velocity absolute_temperature gas_gravity in
  nfluid_of_velocity (d * 1000) v.

(** *** hydro_carbon_gas.py *)

(** hydro_carbon_gas.py:103-120 *)
Definition n_pseudoreduced_temperature (absolute_temperature gas_gravity : num) : res num :=
  p_div absolute_temperature (9472 / 100 + 17075 / 100 * gas_gravity).

(** hydro_carbon_gas.py:123-137 *)
Definition n_pseudoreduced_pressure (pressure gas_gravity : num) : res num :=
  p_div pressure (4892 / 1000 - 4048 / 10000 * gas_gravity).

(** hydro_carbon_gas.py:140-161 *)
Definition n_compressability_factor (absolute_temperature pressure gas_gravity : num) : res num :=
  let* tpr := n_pseudoreduced_temperature absolute_temperature gas_gravity in
  let* ppr := n_pseudoreduced_pressure pressure gas_gravity in
  let* i := p_div 1 tpr in
  let* q := p_pow ppr (12 / 10) in
  let* e := p_div ((45 / 100 + 8 * (56 / 100 - i) ^ 2) * q) tpr in
  Ok ((3 / 100 + 527 / 100000 * (35 / 10 - tpr) ^ 3) * ppr
      + 642 / 1000 * tpr
      - 7 / 1000 * tpr ^ 4
      - 52 / 100
      + 109 / 1000 * (385 / 100 - tpr) ^ 2 / nexp e).

(** hydro_carbon_gas.py:164-175 *)
Definition n_gas_density (absolute_temperature pressure gas_gravity : num) : res num :=
  let* m := n_ideal_gas absolute_temperature (pressure * (1 / 10 ^ 6)) gas_gravity in
  let* z := n_compressability_factor absolute_temperature pressure gas_gravity in
  n_div (v_dens m) z.

(** hydro_carbon_gas.py:178-202 *)
Definition n_compressability_rate_per_pseudoreduced_pressure
  (absolute_temperature pressure gas_gravity : num) : res num :=
  let* tpr := n_pseudoreduced_temperature absolute_temperature gas_gravity in
  let* ppr := n_pseudoreduced_pressure pressure gas_gravity in
  let* i := p_div 1 tpr in
  let* p02 := p_pow ppr (2 / 10) in
  let* p12 := p_pow ppr (12 / 10) in
  let* e := p_div ((45 / 100 + 8 * (56 / 100 - i) ^ 2) * p12) tpr in
  let* q := n_div (1308 / 10000 * (45 / 100 + 8 * (56 / 100 - i) ^ 2) * (385 / 100 - tpr) ^ 2 * p02)
                   (nexp e * tpr) in
  Ok (3 / 100 + 527 / 100000 * (35 / 10 - tpr) ^ 3 - q).

(** hydro_carbon_gas.py:222-227, equation 11b. *)
Definition n_gamma_0 (ppr : num) : res num :=
  let* a := p_div (56 / 10) (ppr + 2) in
  let* b := p_div (271 / 10) ((ppr + 35 / 10) ^ 2) in
  Ok (85 / 100 + a + b - 87 / 10 * nexp (- (65 / 100) * (ppr + 1))).

(** hydro_carbon_gas.py:205-229 *)
Definition n_gas_bulk_modulus (absolute_temperature pressure gas_gravity : num) : res num :=
  let* z := n_compressability_factor absolute_temperature pressure gas_gravity in
  let* dz_dppr := n_compressability_rate_per_pseudoreduced_pressure absolute_temperature pressure gas_gravity in
  let* ppr := n_pseudoreduced_pressure pressure gas_gravity in
  let* g := n_gamma_0 ppr in
  let* q := n_div (dz_dppr * ppr) z in
  n_div (g * pressure) (1 - q).

(** hydro_carbon_gas.py:232-247 *)
Definition n_gas (temperature pressure gas_gravity : num) : res nmaterial :=
  let* d := n_gas_density (n_celsius_to_kelvin temperature) (pressure * (1 / 10 ^ 6)) gas_gravity in
  let* k := n_gas_bulk_modulus (n_celsius_to_kelvin temperature) (pressure * (1 / 10 ^ 6)) gas_gravity in
  nfluid_of_bulk (k * 10 ^ 6) d.

(** *** oil_properties.py *)

(** oil_properties.py:270-286 *)
Definition n_pressure_adjusted_dead_oil_density (pressure reference_density : num) : num :=
  reference_density
  + (277 / 100000 * pressure - 171 / 10 ^ 9 * pressure ^ 3) * (reference_density - 115 / 100) ^ 2
  + 349 / 10 ^ 6 * pressure.

(** oil_properties.py:289-299 *)
Definition n_temperature_adjusted_dead_oil_density (temperature density_at_21c : num) : res num :=
  let* q := p_pow (temperature + 1778 / 100) (1175 / 1000) in
  p_div density_at_21c (972 / 1000 + 381 / 10 ^ 6 * q).

(** oil_properties.py:302-315 *)
Definition n_dead_oil_density (temperature pressure reference_density : num) : res num :=
  n_temperature_adjusted_dead_oil_density temperature
    (n_pressure_adjusted_dead_oil_density pressure reference_density).

(** oil_properties.py:318-338.  A zero divisor is a ZeroDivisionError for dead
    oil and inf for live oil (whose pseudo-density is a NumPy number);
    [NonFinite] in both cases. *)
Definition n_dead_oil_primary_velocity (temperature pressure reference_density : num) : res num :=
  let* q := n_div reference_density (26 / 10 - reference_density) in
  let* s := n_sqrt q in
  let* i := n_div 1 reference_density in
  let* h := n_sqrt (108 / 100 * i - 1) in
  Ok (2096 * s - 37 / 10 * temperature + 464 / 100 * pressure
      + 115 / 10000 * (412 / 100 * h - 1) * temperature * pressure).

(** oil_properties.py:341-358 *)
Definition n_dead_oil (temperature pressure reference_density : num) : res nmaterial :=
  let* d := n_dead_oil_density temperature (pressure * (1 / 10 ^ 6)) (reference_density / 1000) in
  let* v := n_dead_oil_primary_velocity temperature (pressure * (1 / 10 ^ 6)) (reference_density / 1000) in
  nfluid_of_velocity (d * 1000) v.

(** oil_properties.py:361-380; the base of the power is a NumPy number. *)
Definition n_live_oil_volume_factor (temperature reference_density gas_oil_ratio gas_gravity : num) : res num :=
  let* q := p_div gas_gravity reference_density in
  let* s := n_sqrt q in
  let* w := n_pow (24 / 10 * gas_oil_ratio * s + temperature + 178 / 10) (1175 / 1000) in
  Ok (972 / 1000 + 38 / 100000 * w).

(** oil_properties.py:383-401 *)
Definition n_live_oil_pseudo_density (temperature reference_density gas_oil_ratio gas_gravity : num) : res num :=
  let* b0 := n_live_oil_volume_factor temperature reference_density gas_oil_ratio gas_gravity in
  let* q := n_div reference_density b0 in
  n_div q (1 + 1 / 1000 * gas_oil_ratio).

(** oil_properties.py:404-423 *)
Definition n_live_oil_density (temperature pressure reference_density gas_oil_ratio gas_gravity : num) : res num :=
  let* b0 := n_live_oil_volume_factor temperature reference_density gas_oil_ratio gas_gravity in
  n_div (reference_density + 12 / 10000 * gas_gravity * gas_oil_ratio) b0.

(** oil_properties.py:426-445 *)
Definition n_live_oil_primary_velocity (temperature pressure reference_density gas_oil_ratio gas_gravity : num)
  : res num :=
  let* rho := n_live_oil_pseudo_density temperature reference_density gas_oil_ratio gas_gravity in
  n_dead_oil_primary_velocity temperature pressure rho.

(** oil_properties.py:448-482.  Lines 458-466 only warn; they do raise when the
    gas gravity or the reference density is zero. *)
Definition n_live_oil (temperature pressure reference_density gas_oil_ratio gas_gravity : num) : res nmaterial :=
  let* _ := p_div gas_oil_ratio gas_gravity in
  let* _ := p_div 4072 reference_density in
  let* d := n_live_oil_density temperature (pressure * (1 / 10 ^ 6)) (reference_density / 1000)
              gas_oil_ratio gas_gravity in
  let* v := n_live_oil_primary_velocity temperature (pressure * (1 / 10 ^ 6)) (reference_density / 1000)
              gas_oil_ratio gas_gravity in
  nfluid_of_velocity (d * 1000) v.

(** oil_properties.py:499-512, with length = 2. *)
Definition n_triangular_window (x : num) : num :=
  if nltb 1 x then Num 0
  else if nltb x (- 1) then Num 0
  else nabs ((nabs x - 1) / 1).

(** oil_properties.py:485-523 *)
Definition n_oil (temperature pressure reference_density gas_oil_ratio gas_gravity : num) : res nmaterial :=
  let* loil := n_live_oil temperature pressure reference_density gas_oil_ratio gas_gravity in
  let* doil := n_dead_oil temperature pressure reference_density in
  let w := n_triangular_window gas_oil_ratio in
  nfluid_of_velocity (v_dens doil * w + (1 - w) * v_dens loil) (v_vp doil * w + (1 - w) * v_vp loil).

(** *** water_properties.py and brine_properties.py *)

(** water_properties.py:46-59 *)
Definition n_water_density (temperature pressure : num) : res num :=
  n_polyval2d temperature pressure
    [[1; 489 / 10 ^ 6; - (333 / 10 ^ 9)];
     [- (8 / 10 ^ 5); - (2 / 10 ^ 6); - (2 / 10 ^ 9)];
     [- (33 / 10 ^ 7); 16 / 10 ^ 9; 0];
     [175 / 10 ^ 11; - (13 / 10 ^ 12); 0]]%R.

(** water_properties.py:62-83 *)
Definition n_water_primary_velocity (temperature pressure : num) : res num :=
  n_polyval2d temperature pressure
    [[140285 / 100; 1524 / 1000; 3437 / 10 ^ 6; - (1197 / 10 ^ 8)];
     [4871 / 1000; - (111 / 10 ^ 4); 1739 / 10 ^ 7; - (1628 / 10 ^ 9)];
     [- (4783 / 10 ^ 5); 2747 / 10 ^ 7; - (2135 / 10 ^ 9); 1237 / 10 ^ 11];
     [1487 / 10 ^ 7; - (6503 / 10 ^ 10); - (1455 / 10 ^ 11); 1327 / 10 ^ 13];
     [- (2197 / 10 ^ 10); 7987 / 10 ^ 13; 523 / 10 ^ 13; - (4614 / 10 ^ 16)]]%R.

(** water_properties.py:86-95 *)
Definition n_water (temperature pressure : num) : res nmaterial :=
  let* d := n_water_density temperature pressure in
  let* v := n_water_primary_velocity temperature pressure in
  nfluid_of_velocity d v.

(** brine_properties.py:111-126 *)
Definition n_brine_density (temperature pressure salinity : num) : res num :=
  let* w := n_water_density temperature pressure in
  let* p := n_polyval3d salinity temperature pressure
    [[[668 / 1000; 3 / 10 ^ 4]; [8 / 10 ^ 5; - (13 / 10 ^ 6)]; [3 / 10 ^ 6; 0]];
     [[44 / 100; - (24 / 10 ^ 4)]; [- (33 / 10 ^ 4); 47 / 10 ^ 6]; [0; 0]]]%R in
  Ok (w + salinity * p).

(** brine_properties.py:129-154 *)
Definition n_brine_primary_velocity (temperature pressure salinity : num) : res num :=
  let* w := n_water_primary_velocity temperature pressure in
  let* s := n_sqrt salinity in
  let* p := n_polyval3d s temperature pressure
    [[[1170; 26 / 10; - (476 / 10 ^ 4)]; [- (96 / 10); - (29 / 10 ^ 4); 0];
      [55 / 1000; 0; 0]; [- (85 / 10 ^ 6); 0; 0]];
     [[780; -10; 16 / 100]; [0; 0; 0]; [0; 0; 0]; [0; 0; 0]];
     [[-820; 0; 0]; [0; 0; 0]; [0; 0; 0]; [0; 0; 0]]]%R in
  Ok (w + salinity * p).

(** brine_properties.py:157-169 *)
Definition n_brine (temperature pressure salinity : num) : res nmaterial :=
  let* d := n_brine_density temperature (pressure * (1 / 10 ^ 6)) (salinity * (1 / 10 ^ 6)) in
  let* v := n_brine_primary_velocity temperature (pressure * (1 / 10 ^ 6)) (salinity * (1 / 10 ^ 6)) in
  nfluid_of_velocity (d * 1000) v.
(** Python's [sum] of arrays. *)
Fixpoint nsum (l : list (arr num)) : arr num :=
  match l with
  | [] => Sc (Num 0)
  | a :: l' => pmap (fun x => fst x + snd x) (zip a (nsum l'))
  end.

(* ------------------------------------------------------------------ *)
(** ** material/material.py *)

(** material.py:133-137 *)
Record nmat : Type := mkNB {
  n_bulk : arr num;
  n_shear : arr num;
  n_dens : arr num;
  n_vp : arr num;
  n_vs : arr num
}.

(** material.py:140-151: the six guards. *)
Definition n_check_velocities (p s : arr num) : res unit :=
  let* _ := guard (any (fun p => nltb p 0) p) ValueError in
  let* _ := guard (any (fun s => nltb s 0) s) ValueError in
  guard (any (fun x => nltb (fst x) (sqrt (4 / 3)%R * snd x)) (zip p s)) ValueError.
Definition n_check_moduli (k mu d : arr num) : res unit :=
  let* _ := guard (any (fun d => nltb d 0) d) ValueError in
  let* _ := guard (any (fun k => nltb k 0) k) ValueError in
  guard (any (fun mu => nltb mu 0) mu) ValueError.

(** material.py:114-179, Material(bulk_modulus=k, shear_modulus=mu, density=d).
    As in MaterialModel a zero density is met first and the first three guards
    run before the velocities are derived. *)
Definition nmat_of_moduli (k mu d : arr num) : res nmat :=
  let* _ := guard (any (fun d => if neqb d 0 then true else false) d) NonFinite in
  let* _ := n_check_moduli k mu d in
  let* p := amap (fun x => n_primary_velocity (fst (fst x)) (snd (fst x)) (snd x)) (zip3 k mu d) in
  let* s := amap (fun x => n_secondary_velocity (fst x) (snd x)) (zip mu d) in
  let* _ := n_check_velocities p s in
  Ok (mkNB k mu d p s).

(** The same, Material(density=d, primary_velocity=p, secondary_velocity=s). *)
Definition nmat_of_velocities (d p s : arr num) : res nmat :=
  let mu := pmap (fun x => n_shear_modulus (fst x) (snd x)) (zip s d) in
  let k := pmap (fun x => n_bulk_modulus (fst (fst x)) (snd (fst x)) (snd x)) (zip3 p mu d) in
  let* _ := n_check_moduli k mu d in
  let* _ := n_check_velocities p s in
  Ok (mkNB k mu d p s).

(** The Material objects of an array of materials, as one Material. *)
Definition n_unpack (a : arr nmaterial) : nmat :=
  mkNB (pmap v_bulk a) (pmap v_shear a) (pmap v_dens a) (pmap v_vp a) (pmap v_vs a).

(** material.py:76-101.  A single material is returned as it is, a vector of
    materials is put together again from densities and velocities. *)
Definition n_vectorize_material {X} (f : X -> res nmaterial) (a : arr X) : res nmat :=
  let* ms := amap f a in
  match ms with
  | Sc m => Ok (n_unpack (Sc m))
  | Vec l => nmat_of_velocities (Vec (map v_dens l)) (Vec (map v_vp l)) (Vec (map v_vs l))
  end.

(** material.py:181-192 *)
Definition n_poisson_ratio (m : nmat) : res (arr num) :=
  amap (fun x => n_div (3 * fst x - 2 * snd x) (2 * (3 * fst x + snd x))) (zip (n_bulk m) (n_shear m)).

(** material.py:194-203 *)
Definition n_primary_wave_modulus (m : nmat) : arr num :=
  pmap (fun x => fst x + 4 / 3 * snd x) (zip (n_bulk m) (n_shear m)).

(** config/material_type.py:18-30 (only [set_defaults] runs), given moduli. *)
Definition narbitrary (k mu d : arr num) : res nmat :=
  let* p := amap (fun x => n_primary_velocity (fst (fst x)) (snd (fst x)) (snd x)) (zip3 k mu d) in
  let* s := amap (fun x => n_secondary_velocity (fst x) (snd x)) (zip mu d) in
  Ok (mkNB k mu d p s).

(* ------------------------------------------------------------------ *)
(** ** material/hashin_shtrikman.py *)

(** hashin_shtrikman.py:21-43 *)
Definition n_check_is_ratio (ratio : arr num) : res unit :=
  let* _ := guard (any (fun r => nltb (1 + 1 / 10 ^ 5) r) ratio) ValueError in
  guard (any (fun r => nltb r (0 - 1 / 10 ^ 5)) ratio) ValueError.

(** hashin_shtrikman.py:159-164 *)
Definition n_calc_density (r1 r2 f1 f2 : num) : num :=
  if neqb r1 r2 then r2 else f1 * r1 + f2 * r2.

(** hashin_shtrikman.py:166-172; Python floats, [x ** -1] of zero raises
    ZeroDivisionError as does the division. *)
Definition n_calc_bulk_modulus (k1 k2 mum f1 f2 : num) : res num :=
  if neqb k1 k2 then Ok k1
  else
    let* a := p_div 1 (k2 - k1) in
    let* b := p_div 1 (k1 + 4 / 3 * mum) in
    let* q := p_div f2 (a + f1 * b) in
    Ok (k1 + q).

(** hashin_shtrikman.py:174-182 *)
Definition n_calc_shear_modulus (mu1 mu2 km mum f1 f2 : num) : res num :=
  if neqb mu1 mu2 then Ok mu1
  else
    let* a := p_div 1 (mu2 - mu1) in
    let* z := p_div (mum / 6 * (9 * km + 8 * mum)) (km + 2 * mum) in
    let* b := p_div 1 (mu1 + z) in
    let* q := p_div f2 (a + f1 * b) in
    Ok (mu1 + q).

(** hashin_shtrikman.py:130-200 with bound="lower" (no caller in the pipeline
    passes another one). *)
Definition n_walpole (m1 m2 : nmat) (ratio : arr num) : res nmat :=
  let* _ := n_check_is_ratio ratio in
  let ratio2 := pmap (fun r => 1 - r) ratio in
  let km := pmap (fun x => nmin (fst x) (snd x)) (zip (n_bulk m1) (n_bulk m2)) in
  let mum := pmap (fun x => nmin (fst x) (snd x)) (zip (n_shear m1) (n_shear m2)) in
  let d := pmap (fun x => n_calc_density (fst (fst (fst x))) (snd (fst (fst x))) (snd (fst x)) (snd x))
             (zip4 (n_dens m1) (n_dens m2) ratio ratio2) in
  let* k := amap (fun x => n_calc_bulk_modulus (fst (fst (fst (fst x)))) (snd (fst (fst (fst x))))
                             (snd (fst (fst x))) (snd (fst x)) (snd x))
              (zip5 (n_bulk m1) (n_bulk m2) mum ratio ratio2) in
  let* mu := amap (fun x => n_calc_shear_modulus (fst (fst (fst (fst (fst x))))) (snd (fst (fst (fst (fst x)))))
                              (snd (fst (fst (fst x)))) (snd (fst (fst x))) (snd (fst x)) (snd x))
               (zip6 (n_shear m1) (n_shear m2) km mum ratio ratio2) in
  nmat_of_moduli k mu d.

(* ------------------------------------------------------------------ *)
(** ** config/constituent.py, config/minerals.py *)

(** constituent.py:49-57 *)
Definition n_fraction_is_ratio (v : option (arr num)) : res unit :=
  match v with
  | None => Ok tt
  | Some v =>
      let* _ := guard (any (fun x => nltb x (- (1 / 10 ^ 5))) v) ValueError in
      guard (any (fun x => nltb (1 + 1 / 10 ^ 5) x) v) ValueError
  end.

Fixpoint n_sum_given (fs : list (option (arr num))) : arr num :=
  match fs with
  | [] => Sc (Num 0)
  | Some a :: fs' => pmap (fun x => fst x + snd x) (zip a (n_sum_given fs'))
  | None :: fs' => n_sum_given fs'
  end.

Definition n_completed (rest : arr num) (o : option (arr num)) : arr num :=
  match o with Some a => a | None => rest end.

(** constituent.py:70-89 *)
Definition n_fix_one_fraction (fs : list (option (arr num))) : res (list (arr num)) :=
  let sum_rest := n_sum_given fs in
  let* _ := guard (any (fun s => nltb (1 + 1 / 10 ^ 5) s) sum_rest) ValueError in
  let rest := pmap (fun s => 1 - s) sum_rest in
  let* _ := match missing fs with
            | 0%nat => Ok tt
            | 1%nat => n_fraction_is_ratio (Some rest)
            | _ => Err ValueError
            end in
  Ok (map (n_completed rest) fs).

(** numpy.isclose(s, 1.0, atol=1e-5), rtol = 1e-5 by default (minerals.py:49). *)
Definition n_isclose_one (s : num) : bool :=
  nleb (nabs (s - 1)) (1 / 10 ^ 5 + 1 / 10 ^ 5 * nabs 1).

(** minerals.py:61-65 *)
Definition n_part_of_total (fraction total : num) : res num :=
  if neqb total 0 then Ok (Num 1) else p_div fraction total.

(** minerals.py:29, 47-50 *)
Definition n_minerals (cs : list (nmat * option (arr num))) : res (list (nmat * arr num)) :=
  let* _ := guard (match cs with [] => true | _ => false end) ValueError in
  let* _ := each (fun c => n_fraction_is_ratio (snd c)) cs in
  let* fs := n_fix_one_fraction (map snd cs) in
  let* _ := guard (any (fun s => negb (n_isclose_one s)) (nsum fs)) ValueError in
  Ok (combine (map fst cs) fs).

(** minerals.py:67-76 *)
Definition n_mix_minerals (cur next : nmat * arr num) : res (nmat * arr num) :=
  let sub_total := pmap (fun x => fst x + snd x) (zip (snd cur) (snd next)) in
  let* fraction := amap (fun x => n_part_of_total (fst x) (snd x)) (zip (snd cur) sub_total) in
  let* new_mix := n_walpole (fst cur) (fst next) fraction in
  let* wrapped := narbitrary (n_bulk new_mix) (n_shear new_mix) (n_dens new_mix) in
  let* _ := n_fraction_is_ratio (Some sub_total) in
  Ok (wrapped, sub_total).

Fixpoint n_mix_loop (cur : nmat * arr num) (rest : list (nmat * arr num)) : res (nmat * arr num) :=
  match rest with
  | [] => Ok cur
  | next :: rest' => let* cur' := n_mix_minerals cur next in n_mix_loop cur' rest'
  end.

(** minerals.py:52-77 *)
Definition n_minerals_as_mixture (cs : list (nmat * arr num)) : res nmat :=
  match cs with
  | [] => Err ValueError
  | first :: rest => let* r := n_mix_loop first rest in Ok (fst r)
  end.

(* ------------------------------------------------------------------ *)
(** ** material/fluid.py *)

(** fluid.py:12-16; the shear modulus is the integer 0. *)
Definition n_fluid (k d : arr num) : res nmat := nmat_of_moduli k (Sc (Num 0)) d.

(** fluid.py:19-25 *)
Definition n_sum_saturations_to_one (saturations : list (arr num)) : list (arr num) :=
  let total := nsum saturations in
  let adjusted := pmap (fun t => nmax t (1 / 10 ^ 15)) total in
  map (fun s => pmap (fun x => (if nltb 0 (fst (fst x)) then snd (fst x) else 1 / 10 ^ 15) / snd x)
                  (zip3 total s adjusted)) saturations.

(** fluid.py:28-31 *)
Definition n_mix_densities (fluids : list nmat) (saturations : list (arr num)) : arr num :=
  nsum (map (fun fs => pmap (fun x => fst x * snd x) (zip (n_dens (fst fs)) (snd fs))) (combine fluids saturations)).

(** Sum of fallible terms. *)
Fixpoint nsum_res (l : list (res (arr num))) : res (arr num) :=
  match l with
  | [] => Ok (Sc (Num 0))
  | r :: l' =>
      let* a := r in
      let* s := nsum_res l' in
      Ok (pmap (fun x => fst x + snd x) (zip a s))
  end.

(** fluid.py:34-35 *)
Definition n_mix_bulk_moduli (fluids : list nmat) (saturations : list (arr num)) : res (arr num) :=
  let l := combine saturations fluids in
  let* _ := guard (match l with [] => true | _ => false end) ZeroDivisionError in
  let* t := nsum_res (map (fun sf => amap (fun x => n_div (fst x) (snd x)) (zip (fst sf) (n_bulk (snd sf)))) l) in
  amap (fun t => n_div 1 t) t.

(** fluid.py:38-52 *)
Definition n_wood (fluids : list nmat) (saturations : list (arr num)) : res nmat :=
  let saturations := n_sum_saturations_to_one saturations in
  let* k := n_mix_bulk_moduli fluids saturations in
  n_fluid k (n_mix_densities fluids saturations).

(** fluid.py:55-96 *)
Definition n_brie (fluids : list nmat) (fluid_saturations : list (arr num))
    (gases : list nmat) (gas_saturations : list (arr num)) (exponent : num) : res nmat :=
  let* _ := guard (negb (Nat.eqb (length fluids) (length fluid_saturations))) ValueError in
  let* _ := guard (negb (Nat.eqb (length gases) (length gas_saturations))) ValueError in
  match fluids, gases with
  | [], [] => Err ValueError
  | _ :: _, [] => n_wood fluids fluid_saturations
  | [], _ :: _ => n_wood gases gas_saturations
  | _ :: _, _ :: _ =>
      let* liquid := n_wood fluids fluid_saturations in
      let* gas := n_wood gases gas_saturations in
      let total_fluid := nsum fluid_saturations in
      let* w := amap (fun t => n_pow t exponent) total_fluid in
      let bulk_mix := pmap (fun x => (fst (fst x) - snd (fst x)) * snd x + snd (fst x))
                        (zip3 (n_bulk liquid) (n_bulk gas) w) in
      let density_mix := n_mix_densities [liquid; gas] [total_fluid; pmap (fun t => 1 - t) total_fluid] in
      n_fluid bulk_mix density_mix
  end.

(** fluid.py:114-146, one element of the float_vectorized function: the
    arguments are Python floats, so division by zero raises. *)
Definition n_gassman_equation (kdry kmin kf phi : num) : res num :=
  if neqb phi 0 then Ok kmin
  else if neqb kdry kmin then Ok kmin
  else
    let* a := p_div kdry (kmin - kdry) in
    let* b := p_div kf ((kmin - kf) * phi) in
    let difference_factor := a + b in
    if nltb difference_factor 0 then Err ValueError
    else
      let* q := p_div difference_factor (1 + difference_factor) in
      Ok (q * kmin).

(** fluid.py:99-154 *)
Definition n_fluid_substitution (dry_rock mineral fluid : nmat) (phi : arr num) : res nmat :=
  let* k := amap (fun x => n_gassman_equation (fst (fst (fst x))) (snd (fst (fst x))) (snd (fst x)) (snd x))
              (zip4 (n_bulk dry_rock) (n_bulk mineral) (n_bulk fluid) phi) in
  nmat_of_moduli k (n_shear dry_rock)
    (pmap (fun x => fst (fst x) + snd (fst x) * snd x) (zip3 (n_dens dry_rock) phi (n_dens fluid))).

(* ------------------------------------------------------------------ *)
(** ** config/fluids.py, config/fluid_model_providers.py *)

(** config/material_type.py:121-128 *)
Inductive nfluid_type : Type :=
  | NArbitrary (m : nmat)
  | NOil (reference_density gas_oil_ratio gas_gravity : arr num)
  | NGas (gas_gravity : arr num)
  | NBrine (salinity : arr num)
  | NCondensate (reference_density gas_oil_ratio gas_gravity : arr num)
  | NCarbonDioxide (interpolate_density : bool).

(** The density and velocity of carbon dioxide, as a parameter. *)
Definition n_equation_of_state : Type := num -> num -> bool -> res nmaterial.

(** The equation of state for carbon dioxide works row by row (its density is
    float_vectorized, span_wagner/carbon_dioxide.py:330). *)
Definition n_eos (co2 : n_equation_of_state) (temperature pressure : arr num) (i : bool) : res nmat :=
  let* a := amap (fun x => co2 (fst x) (snd x) i) (zip temperature pressure) in
  Ok (n_unpack a).

(** fluid_model_providers.py:10-61, material_type.py:29-118; the second part
    of the result is the fluid pressure afterwards. *)
Definition n_fluid_as_material (co2 : n_equation_of_state) (p : provider) (f : nfluid_type)
    (temperature pressure : arr num) : res (nmat * arr num) :=
  match f, p with
  | NArbitrary m, _ => Ok (m, pressure)
  | NOil r rg g, BatzleWang =>
      let* m := n_vectorize_material
                  (fun x => n_oil (fst (fst (fst (fst x)))) (snd (fst (fst (fst x)))) (snd (fst (fst x)))
                                (snd (fst x)) (snd x))
                  (zip5 temperature pressure r rg g) in
      Ok (m, pressure)
  | NGas g, BatzleWang =>
      let* m := n_vectorize_material (fun x => n_gas (fst (fst x)) (snd (fst x)) (snd x))
                  (zip3 temperature pressure g) in
      Ok (m, pressure)
  | NBrine s, BatzleWang =>
      let* m := n_vectorize_material (fun x => n_brine (fst (fst x)) (snd (fst x)) (snd x))
                  (zip3 temperature pressure s) in
      Ok (m, pressure)
  | NCarbonDioxide i, SpanWagner =>
      let temperature := pmap n_celsius_to_kelvin temperature in
      let pressure := pmap (fun p => p / 10 ^ 6) pressure in
      let* m := n_eos co2 temperature pressure i in
      Ok (m, pressure)
  | _, _ => Err NotImplementedError
  end.

(** constituent.py:20-47 *)
Record nconstituent : Type := mk_nconstituent {
  nc_material : nfluid_type;
  nc_fraction : arr num;
  nc_fluid_model : option provider
}.

(** fluids.py:88-95 *)
Fixpoint n_as_materials (co2 : n_equation_of_state) (p : provider) (temperature pressure : arr num)
    (cs : list nconstituent) : res (list nmat) :=
  match cs with
  | [] => Ok []
  | c :: cs' =>
      let p' := match nc_fluid_model c with None => p | Some q => q end in
      let* mp := n_fluid_as_material co2 p' (nc_material c) temperature pressure in
      let* ms := n_as_materials co2 p temperature (snd mp) cs' in
      Ok (fst mp :: ms)
  end.

Record nfluids : Type := mk_nfluids {
  nf_temperature : arr num;
  nf_constituents : list nconstituent;
  nf_mix_method : mix_method;
  nf_brie_constant : R;
  nf_brie_gases : list Z;
  nf_fluid_model : provider
}.

(** fluids.py:83-116 *)
Definition n_as_mixture (co2 : n_equation_of_state) (f : nfluids) (pressure : arr num) : res nmat :=
  let* materials := n_as_materials co2 (nf_fluid_model f) (nf_temperature f) pressure (nf_constituents f) in
  let fractions := map nc_fraction (nf_constituents f) in
  match nf_mix_method f with
  | Wood => n_wood materials fractions
  | Brie =>
      let index_of_gas := sorted_desc (nf_brie_gases f) in
      let* g := pop_all index_of_gas materials in
      let* s := pop_all index_of_gas fractions in
      n_brie (snd g) (snd s) (fst g) (fst s) (nf_brie_constant f)
  end.

(* ------------------------------------------------------------------ *)
(** ** material/sandstone *)

(** sandstone/murphy_coordination_number.py:1-11 *)
Definition n_murphy_coordination_number (porosity : num) : num :=
  2598805 / 100000 * porosity ^ 2 - 437622 / 10000 * porosity + 216719 / 10000.

(** sandstone/contact_cement.py:11-43 *)
Definition n_shear_stiffness_at (cement_mu grain_mu grain_poisson radius_ratio : num) : res num :=
  let poiss := grain_poisson in
  let alpha := radius_ratio in
  let* aat := n_div cement_mu (PI * grain_mu) in
  let* pa := n_pow aat (79 / 1000 * poiss ^ 2 + 1754 / 10000 * poiss - 1342 / 1000) in
  let at_ := - (1 / 100) * (226 / 100 * poiss ^ 2 + 207 / 100 * poiss + 23 / 10) * pa in
  let* pb := n_pow aat (274 / 10000 * poiss ^ 2 + 529 / 10000 * poiss - 8765 / 10000) in
  let bt := (573 / 10000 * poiss ^ 2 + 937 / 10000 * poiss + 202 / 1000) * pb in
  let* pc := n_pow aat (1867 / 100000 * poiss ^ 2 + 4011 / 10000 * poiss - 18186 / 10000) in
  let ct := 1 / 10000 * (9654 / 1000 * poiss ^ 2 + 4945 / 1000 * poiss + 31 / 10) * pc in
  Ok (at_ * alpha ^ 2 + bt * alpha + ct).

(** sandstone/contact_cement.py:46-75 *)
Definition n_normal_stiffness_at (grain_poisson cement_poisson cement_mu grain_mu radius_ratio : num)
    : res num :=
  let poiss := grain_poisson in
  let poiss_c := cement_poisson in
  let alpha := radius_ratio in
  let* q1 := n_div (2 * cement_mu) (PI * grain_mu) in
  let* q2 := n_div ((1 - poiss) * (1 - poiss_c)) (1 - 2 * poiss_c) in
  let aan := q1 * q2 in
  let* pc := n_pow aan (- (19864 / 10000)) in
  let cn := 24649 / 100000000 * pc in
  let* pb := n_pow aan (- (89008 / 100000)) in
  let bn := 20405 / 100000 * pb in
  let* pa := n_pow aan (- (13646 / 10000)) in
  let an := - (24153 / 1000000) * pa in
  Ok (an * alpha ^ 2 + bn * alpha + cn).

(** The weights of sandstone/patchy_cement.py:102-112: one where upper and
    lower bound agree, the relative position otherwise, clipped to [0, 1].
    [np.clip(w, 0, 1)] = min(1, max(w, 0)). *)
Definition n_patchy_weight_at (constant low up : num) : num :=
  let w := if neqb up low then Num 1 else (constant - low) / (up - low) in
  nmin 1 (nmax w 0).

(** hertz_mindlin.py:11-56 *)
Definition n_hertz_mindlin (mineral : nmat)
    (porosity pressure shear_reduction coordination_number : arr num) : res nmat :=
  let* v := n_poisson_ratio mineral in
  let mu := n_shear mineral in
  let n := coordination_number in
  let phi := porosity in
  let* q := amap (fun '(v, p, n, phi, mu) => n_div (3 * PI * (1 - v) * p) (2 * n * (1 - phi) * mu))
              (zip5 v pressure n phi mu) in
  let* a := amap (fun q => n_pow q (1 / 3)) q in
  let* sn := amap (fun '(a, mu, v) => n_div (4 * a * mu) (1 - v)) (zip3 a mu v) in
  let* st := amap (fun '(a, mu, v) => n_div (8 * a * mu) (2 - v)) (zip3 a mu v) in
  let k_eff := pmap (fun '(n, phi, sn) => n * (1 - phi) / (12 * PI) * sn) (zip3 n phi sn) in
  let mu_eff := pmap (fun '(n, phi, sn, st, sr) => n * (1 - phi) / (20 * PI) * (sn + 15 / 10 * st * sr))
                  (zip5 n phi sn st shear_reduction) in
  nmat_of_moduli k_eff mu_eff (pmap (fun '(d, phi) => d * (1 - phi)) (zip (n_dens mineral) porosity)).

(** friable_sand.py:10-51 *)
Definition n_friable_sand (mineral : nmat)
    (porosity critical_porosity effective_pressure coordination_number shear_reduction : arr num) : res nmat :=
  let* critical_mineral :=
    n_hertz_mindlin mineral critical_porosity effective_pressure shear_reduction coordination_number in
  let* r := amap (fun '(a, b) => n_div a b) (zip porosity critical_porosity) in
  n_walpole mineral critical_mineral (pmap (fun r => 1 - r) r).

(** contact_cement.py:11-43; no guards, so the rows can be done one by one. *)
Definition n_shear_stiffness (cement_mu grain_mu grain_poisson radius_ratio : arr num) : res (arr num) :=
  amap (fun '(a, b, c, d) => n_shear_stiffness_at a b c d) (zip4 cement_mu grain_mu grain_poisson radius_ratio).

(** contact_cement.py:46-75 *)
Definition n_normal_stiffness (grain_poisson cement_poisson cement_mu grain_mu radius_ratio : arr num)
    : res (arr num) :=
  amap (fun '(a, b, c, d, e) => n_normal_stiffness_at a b c d e)
    (zip5 grain_poisson cement_poisson cement_mu grain_mu radius_ratio).

(** contact_cement.py:87-96 and 135-144 *)
Definition n_check_porosities (sand cemented : arr num) : res unit :=
  let* _ := guard (any (fun x => nltb 1 x) sand) ValueError in
  let* _ := guard (any (fun x => nltb x 0) sand) ValueError in
  let* _ := guard (any (fun x => nltb 1 x) cemented) ValueError in
  let* _ := guard (any (fun x => nltb x 0) cemented) ValueError in
  guard (any (fun '(a, b) => nltb a b) (zip sand cemented)) ValueError.

(** contact_cement.py:78-101 *)
Definition n_cement_radius_ratio (cemented grain : arr num) : res (arr num) :=
  let* _ := n_check_porosities grain cemented in
  let* q := amap (fun '(g, c) => n_div (2 * (g - c)) (3 * (1 - g))) (zip grain cemented) in
  let* v := amap n_sqrt q in
  Ok (pmap (fun v => nmin v (nmax 0 1)) v).

(** contact_cement.py:104-177 *)
Definition n_contact_cement (cement mineral : nmat)
    (cemented sand_porosity shear_reduction coordination_number : arr num) : res nmat :=
  let* _ := n_check_porosities sand_porosity cemented in
  let* alpha := n_cement_radius_ratio cemented sand_porosity in
  let* nu := n_poisson_ratio mineral in
  let* st := n_shear_stiffness (n_shear cement) (n_shear mineral) nu alpha in
  let* nu_c := n_poisson_ratio cement in
  let* sn := n_normal_stiffness nu nu_c (n_shear cement) (n_shear mineral) alpha in
  let k_eff := pmap (fun '(n, phi, m, sn) => 1 / 6 * n * (1 - phi) * m * sn)
                 (zip4 coordination_number sand_porosity (n_primary_wave_modulus cement) sn) in
  let mu_eff := pmap (fun '(k, sr, n, phi, mu, st) => 3 / 5 * k + sr * (3 / 20) * n * (1 - phi) * mu * st)
                  (zip6 k_eff shear_reduction coordination_number sand_porosity (n_shear cement) st) in
  nmat_of_moduli k_eff mu_eff
    (pmap (fun '(c, a, dc, dm) => (1 - c) * (a * dc + (1 - a) * dm))
       (zip4 cemented alpha (n_dens cement) (n_dens mineral))).

(** constant_cement.py:10-59 *)
Definition n_constant_cement (sand cement : nmat)
    (porosity contact_cement_porosity sand_porosity coordination_number shear_reduction : arr num) : res nmat :=
  let* dense_packing :=
    n_walpole cement sand (pmap (fun '(a, b) => a - b) (zip sand_porosity contact_cement_porosity)) in
  let* cc := n_contact_cement cement sand contact_cement_porosity sand_porosity
               shear_reduction coordination_number in
  let* r := amap (fun '(a, b) => n_div a b) (zip porosity contact_cement_porosity) in
  n_walpole dense_packing cc (pmap (fun r => 1 - r) r).

(** patchy_cement.py:92-112: the weight has the shape of [constant]; the
    comparison [up == low] is used as a mask on all three.  A mask with more
    dimensions than the indexed array is an IndexError. *)
Definition n_patchy_weight (constant low up : arr num) : res (arr num) :=
  let mask_is_vec := orb (is_vec up) (is_vec low) in
  let* _ := guard (andb mask_is_vec
                     (negb (andb (is_vec constant) (andb (is_vec low) (is_vec up))))) ShapeError in
  Ok (pmap (fun '(c, l, u) => n_patchy_weight_at c l u) (zip3 constant low up)).

(** patchy_cement.py:15-122 *)
Definition n_patchy_cement (sand cement : nmat)
    (porosity contact_cement_porosity upper_bound_porosity pressure lower_bound_pressure
     critical_porosity shear_reduction friable_coordination_number cement_coordination_number : arr num)
    : res nmat :=
  let* dense_packing :=
    n_walpole cement sand (pmap (fun '(a, b) => a - b) (zip critical_porosity upper_bound_porosity)) in
  let* friable := n_friable_sand dense_packing porosity critical_porosity pressure
                    friable_coordination_number shear_reduction in
  let* lower_bound := n_friable_sand dense_packing porosity critical_porosity lower_bound_pressure
                        friable_coordination_number shear_reduction in
  let* upper_bound := n_constant_cement sand cement porosity upper_bound_porosity critical_porosity
                        cement_coordination_number shear_reduction in
  let* contact := n_contact_cement cement sand contact_cement_porosity critical_porosity
                    shear_reduction cement_coordination_number in
  let* r := amap (fun '(a, b) => n_div a b) (zip porosity contact_cement_porosity) in
  let* constant := n_walpole dense_packing contact (pmap (fun r => 1 - r) r) in
  let* wk := n_patchy_weight (n_bulk constant) (n_bulk lower_bound) (n_bulk upper_bound) in
  let* wmu := n_patchy_weight (n_shear constant) (n_shear lower_bound) (n_shear upper_bound) in
  let cement_fraction := pmap (fun '(a, b) => a - b) (zip critical_porosity contact_cement_porosity) in
  let kps := pmap (fun '(f, w, u) => f + w * (u - f)) (zip3 (n_bulk friable) wk (n_bulk upper_bound)) in
  let mups := pmap (fun '(f, w, u) => f + w * (u - f)) (zip3 (n_shear friable) wmu (n_shear upper_bound)) in
  let rps := pmap (fun '(phi, c, ds, dc) => (1 - phi - c) * ds + c * dc)
               (zip4 porosity cement_fraction (n_dens sand) (n_dens cement)) in
  nmat_of_moduli kps mups rps.

(* ------------------------------------------------------------------ *)
(** ** config/pressure.py *)

Record npressure := mkNPressure {
  npr_overburden : arr num;
  npr_reference : arr num;
  npr_fluid : option (arr num);
  npr_max_effective : option (arr num);
  npr_rock : option (arr num) }.

(** [np.clip(x, None, m)] *)
Definition n_clip_above (x : arr num) (m : option (arr num)) : arr num :=
  match m with None => x | Some b => pmap (fun '(x, b) => nmin x b) (zip x b) end.

(** config/pressure.py:46-54, 56-64 *)
Definition n_truncated_reference (p : npressure) : arr num :=
  n_clip_above (pmap (fun '(a, b) => a - b) (zip (npr_overburden p) (npr_reference p))) (npr_max_effective p).
Definition n_truncated_rock (p : npressure) : res (arr num) :=
  match npr_rock p with
  | None => Err TypeError
  | Some f => Ok (n_clip_above (pmap (fun '(a, b) => a - b) (zip (npr_overburden p) f)) (npr_max_effective p))
  end.

(* ------------------------------------------------------------------ *)
(** ** config/model.py.  Coefficients are plain numbers here, not columns. *)

(** A missing coefficient reaches polyval2d as None: TypeError. *)
Definition n_fit_property (x v : num) (c : option (list (list R))) : res num :=
  match c with None => Err TypeError | Some m => n_polyval2d x v m end.

(** material/material.py:17-73: [polyval2d] of single numbers, vectorized. *)
Definition n_fit_material (c : coefficients (list (list R))) (x : num * num * num * num) : res nmaterial :=
  let '(d, p, s, v) := x in
  let* a := n_fit_property d v (c_density c) in
  let* b := n_fit_property p v (c_primary c) in
  let* e := n_fit_property s v (c_secondary c) in
  if uses_moduli c then nmaterial_of_moduli b e a else nmaterial_of_velocities a b e.

Definition n_polyval_material (v : arr num) (m : nmat) (c : coefficients (list (list R))) : res nmat :=
  n_vectorize_material (n_fit_material c)
    (if uses_moduli c then zip4 (n_dens m) (n_bulk m) (n_shear m) v
     else zip4 (n_dens m) (n_vp m) (n_vs m) v).

(** config/model.py:209-228 *)
Record nfriable_model := mkNFriable {
  nfr_critical : arr num; nfr_shear_reduction : arr num; nfr_coordination : arr num }.
Definition n_make_friable (critical shear_reduction : arr num) (coordination : option (arr num)) : nfriable_model :=
  mkNFriable critical shear_reduction
    match coordination with None => pmap n_murphy_coordination_number critical | Some n => n end.

(** config/model.py:261-290 *)
Record npatchy_model := mkNPatchy {
  npa_cement : nmat; npa_critical : arr num; npa_cement_fraction : arr num; npa_lower_pressure : arr num;
  npa_upper_fraction : arr num; npa_coordination : arr num; npa_shear_reduction : arr num }.
Definition n_make_patchy (cement : nmat) (critical fraction lower upper : arr num)
    (coordination : option (arr num)) (shear_reduction : arr num) : npatchy_model :=
  mkNPatchy cement critical fraction lower upper
    match coordination with None => pmap n_murphy_coordination_number critical | Some n => n end
    shear_reduction.

(** config/model.py:244-252 *)
Definition n_friable_material (f : nfriable_model) (p porosity : arr num) (mineral : nmat) : res nmat :=
  n_friable_sand mineral porosity (nfr_critical f) p (nfr_coordination f) (nfr_shear_reduction f).

(** config/model.py:322-334 *)
Definition n_patchy_material (q : npatchy_model) (p porosity : arr num) (mineral : nmat) : res nmat :=
  n_patchy_cement mineral (npa_cement q) porosity
    (pmap (fun '(a, b) => a - b) (zip (npa_critical q) (npa_cement_fraction q)))
    (pmap (fun '(a, b) => a - b) (zip (npa_critical q) (npa_upper_fraction q)))
    p (npa_lower_pressure q) (npa_critical q) (npa_shear_reduction q) (npa_coordination q) (Sc (Num 9)).

(** Evaluate a row function for density, primary and secondary. *)
Definition n_three (f : list R -> res num) (rows : list R * list R * list R) : res (num * num * num) :=
  let '(d, p, s) := rows in
  let* a := f d in
  let* b := f p in
  let* c := f s in
  Ok (a, b, c).

(** config/model.py:89-99.  Without any coefficient the result is an empty
    array: no material, [OtherError]. *)
Definition n_polyfit_row (p : num) (row : list R) : res num :=
  match row with [] => Err OtherError | _ => Ok (n_np_polyval row p) end.
(** config/model.py:112-118 *)
Definition n_expfit_row (p : num) (row : list R) : res num :=
  let* c0 := column row 0 in
  let* c1 := column row 1 in
  let* c2 := column row 2 in
  let* q := n_div p c2 in
  Ok (c0 + c1 * nexp q).
(** config/model.py:130-136 *)
Definition n_logfit_row (p : num) (row : list R) : res num :=
  let* c0 := column row 0 in
  let* c1 := column row 1 in
  let* l := n_log p in
  Ok (c0 + c1 * (l / ln 10)).
(** config/model.py:175-181 *)
Definition n_powerfit_row (p : num) (row : list R) : res num :=
  let* c0 := column row 0 in
  let* c1 := column row 1 in
  let* q := n_pow p c1 in
  Ok (c0 * q).

Definition n_tiny_value (x : num) : bool := nleb (nabs x) (1 / 10 ^ 20).

Inductive ndependency_model :=
  | NPolyfit (c : coefficients (list R))
  | NExpfit (c : coefficients (list R))
  | NLogfit (c : coefficients (list R))
  | NPowerfit (density bulk_ vp_over_vs : option (list R))
  | NFriable (f : nfriable_model)
  | NPatchy (q : npatchy_model).

(** [np.transpose([m.density, m.bulk_modulus, m.shear_modulus])]
    (config/model.py:242, 320): a list of arrays of different shapes is not an
    array (NumPy 1.24 and later raise ValueError). *)
Definition n_stack_moduli (m : nmat) : res (arr (num * num * num)) :=
  let* _ := guard (negb (andb (Bool.eqb (is_vec (n_dens m)) (is_vec (n_bulk m)))
                              (Bool.eqb (is_vec (n_bulk m)) (is_vec (n_shear m))))) ShapeError in
  Ok (zip3 (n_dens m) (n_bulk m) (n_shear m)).

(** The [eval] methods (config/model.py:89-99, 112-118, 130-136, 175-181,
    240-242, 318-320): an array with three numbers per row. *)
Definition n_eval_model (md : ndependency_model) (p porosity : arr num) (mineral : nmat)
    : res (arr (num * num * num)) :=
  match md with
  | NPolyfit c =>
      let* rows := coefficient_rows (c_density c) (c_primary c) (c_secondary c) in
      amap (fun p => n_three (n_polyfit_row p) rows) p
  | NExpfit c =>
      let* rows := coefficient_rows (c_density c) (c_primary c) (c_secondary c) in
      let* _ := guard (no_rows p) ShapeError in
      amap (fun p => n_three (n_expfit_row p) rows) p
  | NLogfit c =>
      let* rows := coefficient_rows (c_density c) (c_primary c) (c_secondary c) in
      let* _ := guard (no_rows p) ShapeError in
      amap (fun p => n_three (n_logfit_row p) rows) p
  | NPowerfit d b v =>
      let* rows := coefficient_rows d b v in
      let* _ := guard (no_rows p) ShapeError in
      amap (fun p => n_three (n_powerfit_row p) rows) p
  | NFriable f => let* m := n_friable_material f p porosity mineral in n_stack_moduli m
  | NPatchy q => let* m := n_patchy_material q p porosity mineral in n_stack_moduli m
  end.

Definition n_model_uses_moduli (md : ndependency_model) : bool :=
  match md with
  | NPolyfit c | NExpfit c | NLogfit c => uses_moduli c
  | NPowerfit _ _ _ | NFriable _ | NPatchy _ => true
  end.

(** [np.abs(ref) <= 1e-20] for one row *)
Definition n_tiny_row (x : num * num * num) : bool :=
  let '(d, p, s) := x in orb (n_tiny_value d) (orb (n_tiny_value p) (n_tiny_value s)).

(** [np.transpose(eff / ref)] *)
Definition n_factors (eff ref : arr (num * num * num)) : arr num * arr num * arr num :=
  let x := zip eff ref in
  (pmap (fun '((a, _, _), (b, _, _)) => a / b) x,
   pmap (fun '((_, a, _), (_, b, _)) => a / b) x,
   pmap (fun '((_, _, a), (_, _, b)) => a / b) x).
(** [np.transpose(eff - ref)] *)
Definition n_differences (eff ref : arr (num * num * num)) : arr num * arr num * arr num :=
  let x := zip eff ref in
  (pmap (fun '((a, _, _), (b, _, _)) => a - b) x,
   pmap (fun '((_, a, _), (_, b, _)) => a - b) x,
   pmap (fun '((_, _, a), (_, _, b)) => a - b) x).

Definition n_times (a b : arr num) : arr num := pmap (fun '(x, y) => x * y) (zip a b).
Definition n_plus (a b : arr num) : arr num := pmap (fun '(x, y) => x + y) (zip a b).

(** config/model.py:31-55 *)
Definition n_generic_dependency (md : ndependency_model) (m : nmat) (p ref_p porosity : arr num)
    (mineral : nmat) : res nmat :=
  let* ref := n_eval_model md ref_p porosity mineral in
  let* eff := n_eval_model md p porosity mineral in
  let* _ := guard (any n_tiny_row ref) ValueError in
  let fd := fst (fst (n_factors eff ref)) in
  let fp := snd (fst (n_factors eff ref)) in
  let fs := snd (n_factors eff ref) in
  if n_model_uses_moduli md
  then nmat_of_moduli (n_times (n_bulk m) fp) (n_times (n_shear m) fs) (n_times (n_dens m) fd)
  else nmat_of_velocities (n_times (n_dens m) fd) (n_times (n_vp m) fp) (n_times (n_vs m) fs).

(** config/model.py:149-168 *)
Definition n_powerfit_dependency (md : ndependency_model) (m : nmat) (p ref_p porosity : arr num)
    (mineral : nmat) : res nmat :=
  let* ref := n_eval_model md ref_p porosity mineral in
  let* eff := n_eval_model md p porosity mineral in
  let dd := fst (fst (n_differences eff ref)) in
  let dp := snd (fst (n_differences eff ref)) in
  let ds := snd (n_differences eff ref) in
  let* ratio := amap (fun '(a, b) => n_div a b) (zip (n_vp m) (n_vs m)) in
  let vp_over_vs := n_plus ratio ds in
  let bmod := n_plus (n_bulk m) dp in
  let smod_reduction := pmap (fun x => x ^ 2 - 4 / 3) vp_over_vs in
  let* _ := guard (any (fun x => nleb x (1 / 10 ^ 20)) smod_reduction) ValueError in
  nmat_of_moduli bmod (pmap (fun '(a, b) => a / b) (zip bmod smod_reduction)) (n_plus (n_dens m) dd).

Definition n_pressure_dependency (md : ndependency_model) (m : nmat) (p ref_p porosity : arr num)
    (mineral : nmat) : res nmat :=
  match md with
  | NPowerfit _ _ _ => n_powerfit_dependency md m p ref_p porosity mineral
  | _ => n_generic_dependency md m p ref_p porosity mineral
  end.

(* ------------------------------------------------------------------ *)
(** ** config/depth_trend.py, config/pressure_dependency.py, config/dry_rock.py *)

Record ndepth_trend := mkNDepth {
  ndt_depth : arr num;
  ndt_coefficients : coefficients (list (list R));
  ndt_reference : option (arr num);
  ndt_max : option (arr num) }.

(** config/depth_trend.py:36-42.  [result -= self.reference_depth] writes into
    [result], whose shape is that of [depth] and cannot grow. *)
Definition n_effective_depth (t : ndepth_trend) : res (arr num) :=
  match ndt_reference t with
  | None => Ok (ndt_depth t)
  | Some r =>
      let* _ := guard (andb (is_vec r) (negb (is_vec (ndt_depth t)))) ShapeError in
      Ok (pmap (fun '(a, b) => a - b) (zip (ndt_depth t) r))
  end.

Inductive nadjustment :=
  | NDepthTrend (t : ndepth_trend)
  | NPressureDependency (md : ndependency_model).

(** config/pressure_dependency.py:31-48 *)
Definition n_adjust_pressure (md : ndependency_model) (m : nmat) (p : npressure) (porosity : arr num)
    (mineral : nmat) : res nmat :=
  let* eff := n_truncated_rock p in
  let* eff' := match md with
               | NPowerfit _ _ _ => match npr_rock p with None => Err TypeError | Some x => Ok x end
               | _ => Ok eff
               end in
  n_pressure_dependency md m eff' (n_truncated_reference p) porosity mineral.

Definition n_adjust_one (a : nadjustment) (m : nmat) (p : npressure) (porosity : arr num)
    (mineral : nmat) : res nmat :=
  match a with
  | NDepthTrend t => let* d := n_effective_depth t in n_polyval_material d m (ndt_coefficients t)
  | NPressureDependency md => n_adjust_pressure md m p porosity mineral
  end.

Inductive nrock_model :=
  | NRockPolyfit (c : coefficients (list (list R)))
  | NRockFriable (f : nfriable_model)
  | NRockPatchy (q : npatchy_model).

Record ndry_rock := mkNDryRock {
  ndr_model : nrock_model;
  ndr_porosity : arr num;
  ndr_adjustments : list nadjustment }.

(** config/dry_rock.py:85-114: both validators. *)
Definition n_check_dry_rock (d : ndry_rock) : res unit :=
  let check critical :=
    guard (any (fun '(c, phi) => nltb c (phi + 1 / 10 ^ 5)) (zip critical (ndr_porosity d))) ValueError in
  match ndr_model d with
  | NRockPolyfit _ => Ok tt
  | NRockFriable f => check (nfr_critical f)
  | NRockPatchy q =>
      let* _ := guard (any (fun '(c, u, phi) => nltb (c - u) (phi - 1 / 10 ^ 5))
                         (zip3 (npa_critical q) (npa_upper_fraction q) (ndr_porosity d))) ValueError in
      check (npa_critical q)
  end.

(** config/dry_rock.py:142-145 *)
Fixpoint n_adjust_material (l : list nadjustment) (m : nmat) (p : npressure) (porosity : arr num)
    (mineral : nmat) : res nmat :=
  match l with
  | [] => Ok m
  | a :: l' =>
      let* m' := n_adjust_one a m p porosity mineral in
      n_adjust_material l' m' p porosity mineral
  end.

(** config/dry_rock.py:151-155 *)
Definition n_material_from_model (d : ndry_rock) (effective_pressure : arr num) (mineral : nmat) : res nmat :=
  match ndr_model d with
  | NRockPolyfit c => n_polyval_material (ndr_porosity d) mineral c
  | NRockFriable f => n_friable_material f effective_pressure (ndr_porosity d) mineral
  | NRockPatchy q => n_patchy_material q effective_pressure (ndr_porosity d) mineral
  end.

(** config/dry_rock.py:147-149 *)
Definition n_dry_rock_material (d : ndry_rock) (mineral : nmat) (p : npressure) : res nmat :=
  let* eff := n_truncated_rock p in
  let* m := n_material_from_model d eff mineral in
  n_adjust_material (ndr_adjustments d) m p (ndr_porosity d) mineral.

(** config/dry_rock.py:135-140 *)
Definition n_nonporous (d : ndry_rock) (mineral : nmat) : res nmat :=
  match ndr_model d with
  | NRockPatchy q => n_walpole (npa_cement q) mineral (npa_upper_fraction q)
  | _ => Ok mineral
  end.

(* ------------------------------------------------------------------ *)
(** ** __main__.py *)

(** config/input.py:49-54 once the columns are inserted.  [ni_fluids] has the
    fractions still to be completed. *)
Record ninput : Type := mkNInput {
  ni_minerals : list (nmat * option (arr num));
  ni_fluids : nfluids;
  ni_fluid_fractions : list (option (arr num));
  ni_dry_rock : ndry_rock;
  ni_pressure : npressure }.

(** The six columns of the result (__main__.py:57-64). *)
Record noutput : Type := mkNOutput {
  no_ksat : arr num; no_kmin : arr num; no_kdry : arr num; no_mysat : arr num; no_rsat : arr num; no_kmin_fls : arr num }.

(** Completing the fractions of the fluid constituents (fluids.py:63-64, 72-78). *)
Definition n_complete_fluids (f : nfluids) (fs : list (option (arr num))) : res nfluids :=
  let* _ := each n_fraction_is_ratio fs in
  let* _ := guard (match fs with [] => true | _ => false end) ValueError in
  let* _ := guard (any (fun s => nltb (1 + 1 / 10 ^ 5) s) (n_sum_given fs)) ValueError in
  let* fs' := n_fix_one_fraction fs in
  Ok (mk_nfluids (nf_temperature f)
        (map (fun cf => mk_nconstituent (nc_material (fst cf)) (snd cf) (nc_fluid_model (fst cf)))
           (combine (nf_constituents f) fs'))
        (nf_mix_method f) (nf_brie_constant f) (nf_brie_gases f) (nf_fluid_model f)).

(** __main__.py:42-66, after construction of Input (the validators of each
    section).  A configuration without any pore pressure fails in
    [pressure.fluid] or [truncated_rock]. *)
Definition n_calculate_results (co2 : n_equation_of_state) (inp : ninput) : res noutput :=
  let* minerals := n_minerals (ni_minerals inp) in
  let* fluids := n_complete_fluids (ni_fluids inp) (ni_fluid_fractions inp) in
  let* _ := n_check_dry_rock (ni_dry_rock inp) in
  let* mixed_mineral := n_minerals_as_mixture minerals in
  let* fluid_pressure := match npr_fluid (ni_pressure inp) with None => Err TypeError | Some p => Ok p end in
  let* mixed_fluid := n_as_mixture co2 fluids fluid_pressure in
  let* dry := n_dry_rock_material (ni_dry_rock inp) mixed_mineral (ni_pressure inp) in
  let* dense_packing := n_nonporous (ni_dry_rock inp) mixed_mineral in
  let* sat := n_fluid_substitution dry dense_packing mixed_fluid (ndr_porosity (ni_dry_rock inp)) in
  Ok (mkNOutput (n_bulk sat) (n_bulk mixed_mineral) (n_bulk dry) (n_shear sat) (n_dens sat)
        (n_bulk dense_packing)).

(** One row of the data frame written (__main__.py:56-66); a constant is
    repeated for every row of the index. *)
Record nrow : Type := mkNRow {
  w_ksat : num; w_kmin : num; w_kdry : num; w_mysat : num; w_rsat : num; w_kmin_fls : num }.

Definition n_result_rows (n : nat) (o : noutput) : list nrow :=
  map (fun '(a, b, c, d, e, f) => mkNRow a b c d e f)
    (combine (combine (combine (combine (combine (expand n (no_ksat o)) (expand n (no_kmin o)))
       (expand n (no_kdry o))) (expand n (no_mysat o))) (expand n (no_rsat o))) (expand n (no_kmin_fls o))).

Definition n_results (co2 : n_equation_of_state) (n : nat) (inp : ninput) : res (list nrow) :=
  let* o := n_calculate_results co2 inp in
  Ok (n_result_rows n o).

