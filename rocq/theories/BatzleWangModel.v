(** Model of material/batzle_wang/*.py (oil, gas, brine, water) and
    material/conversions.py.

    The functions are modelled for one row, as [vectorize_material]
    (material/material.py:76-101) runs them: arguments are plain floats.
    Warnings (oil_properties.py:458-466, water_properties.py:69-75) do not
    change results and are left out, except for the divisions made to
    decide whether to warn.  Fractional powers and square roots of negative
    numbers (complex numbers or nan in Python) end the model with [NonFinite].
    [np.exp] overflow is not modelled. *)
From Verif Require Import Base MaterialModel FluidModel ConfigModel.

(** conversions.py:6-10 *)
Definition celsius_to_kelvin (t : R) : R := t + 27315 / 100.

(* ---- ideal_gas.py ---- *)

(** ideal_gas.py:10, AIR_WEIGHT in g/mol. *)
Definition AIR_WEIGHT : R := 288 / 10.

(** ideal_gas.py:6, scipy.constants.gas_constant in J/(mol K) (CODATA 2018). *)
Definition gas_constant : R := 8314462618 / 10 ^ 9.

(** ideal_gas.py:13-19 *)
Definition molecular_weight (gas_gravity : R) : R := gas_gravity * AIR_WEIGHT.

(** ideal_gas.py:22-29 *)
Definition molar_volume (absolute_temperature pressure : R) : res R :=
  py_div (gas_constant * absolute_temperature) pressure.

(** ideal_gas.py:32-40 *)
Definition ideal_gas_density (absolute_temperature pressure gas_gravity : R) : res R :=
  let* v := molar_volume absolute_temperature pressure in
  py_div (molecular_weight gas_gravity) v.

(** ideal_gas.py:43-49 *)
Definition ideal_gas_primary_velocity (absolute_temperature gas_gravity : R) : res R :=
  let* q := py_div (gas_constant * absolute_temperature) (molecular_weight gas_gravity) in
  np_sqrt q.

(** ideal_gas.py:52-63 *)
Definition ideal_gas (absolute_temperature pressure gas_gravity : R) : res material :=
  let* d := ideal_gas_density absolute_temperature (pressure * 10 ^ 6) gas_gravity in
  let* v := ideal_gas_primary_velocity absolute_temperature gas_gravity in
  fluid_of_velocity (d * 1000) v.

(* ---- hydro_carbon_gas.py ---- *)

(** hydro_carbon_gas.py:103-120 *)
Definition pseudoreduced_temperature (absolute_temperature gas_gravity : R) : res R :=
  py_div absolute_temperature (9472 / 100 + 17075 / 100 * gas_gravity).

(** hydro_carbon_gas.py:123-137 *)
Definition pseudoreduced_pressure (pressure gas_gravity : R) : res R :=
  py_div pressure (4892 / 1000 - 4048 / 10000 * gas_gravity).

(** hydro_carbon_gas.py:140-161 *)
Definition compressability_factor (absolute_temperature pressure gas_gravity : R) : res R :=
  let* tpr := pseudoreduced_temperature absolute_temperature gas_gravity in
  let* ppr := pseudoreduced_pressure pressure gas_gravity in
  let* i := py_div 1 tpr in
  let* q := np_pow ppr (12 / 10) in
  let* e := py_div ((45 / 100 + 8 * (56 / 100 - i) ^ 2) * q) tpr in
  Ok ((3 / 100 + 527 / 100000 * (35 / 10 - tpr) ^ 3) * ppr
      + 642 / 1000 * tpr
      - 7 / 1000 * tpr ^ 4
      - 52 / 100
      + 109 / 1000 * (385 / 100 - tpr) ^ 2 / exp e).

(** hydro_carbon_gas.py:164-175 *)
Definition gas_density (absolute_temperature pressure gas_gravity : R) : res R :=
  let* m := ideal_gas absolute_temperature (pressure * (1 / 10 ^ 6)) gas_gravity in
  let* z := compressability_factor absolute_temperature pressure gas_gravity in
  np_div (dens m) z.

(** hydro_carbon_gas.py:178-202 *)
Definition compressability_rate_per_pseudoreduced_pressure
  (absolute_temperature pressure gas_gravity : R) : res R :=
  let* tpr := pseudoreduced_temperature absolute_temperature gas_gravity in
  let* ppr := pseudoreduced_pressure pressure gas_gravity in
  let* i := py_div 1 tpr in
  let* p02 := np_pow ppr (2 / 10) in
  let* p12 := np_pow ppr (12 / 10) in
  let* e := py_div ((45 / 100 + 8 * (56 / 100 - i) ^ 2) * p12) tpr in
  let* q := np_div (1308 / 10000 * (45 / 100 + 8 * (56 / 100 - i) ^ 2) * (385 / 100 - tpr) ^ 2 * p02)
                   (exp e * tpr) in
  Ok (3 / 100 + 527 / 100000 * (35 / 10 - tpr) ^ 3 - q).

(** hydro_carbon_gas.py:222-227, equation 11b. *)
Definition gamma_0 (ppr : R) : res R :=
  let* a := py_div (56 / 10) (ppr + 2) in
  let* b := py_div (271 / 10) ((ppr + 35 / 10) ^ 2) in
  Ok (85 / 100 + a + b - 87 / 10 * exp (- (65 / 100) * (ppr + 1))).

(** hydro_carbon_gas.py:205-229 *)
Definition gas_bulk_modulus (absolute_temperature pressure gas_gravity : R) : res R :=
  let* z := compressability_factor absolute_temperature pressure gas_gravity in
  let* dz_dppr := compressability_rate_per_pseudoreduced_pressure absolute_temperature pressure gas_gravity in
  let* ppr := pseudoreduced_pressure pressure gas_gravity in
  let* g := gamma_0 ppr in
  let* q := np_div (dz_dppr * ppr) z in
  np_div (g * pressure) (1 - q).

(** hydro_carbon_gas.py:232-247 *)
Definition gas (temperature pressure gas_gravity : R) : res material :=
  let* d := gas_density (celsius_to_kelvin temperature) (pressure * (1 / 10 ^ 6)) gas_gravity in
  let* k := gas_bulk_modulus (celsius_to_kelvin temperature) (pressure * (1 / 10 ^ 6)) gas_gravity in
  fluid_of_bulk (k * 10 ^ 6) d.

(* ---- oil_properties.py ---- *)

(** oil_properties.py:207-267 *)
Definition oil_bubble_point (density gas_oil_ratio gas_gravity temperature : R) : res R :=
  let* ratio := py_div gas_oil_ratio gas_gravity in
  let* q := py_div 4072 density in
  let* r := np_pow ratio (83 / 100) in
  Ok (244697939134 / 10 ^ 4 * r / exp (q - 377 / 100000 * temperature)).

(** oil_properties.py:270-286 *)
Definition pressure_adjusted_dead_oil_density (pressure reference_density : R) : R :=
  reference_density
  + (277 / 100000 * pressure - 171 / 10 ^ 9 * pressure ^ 3) * (reference_density - 115 / 100) ^ 2
  + 349 / 10 ^ 6 * pressure.

(** oil_properties.py:289-299 *)
Definition temperature_adjusted_dead_oil_density (temperature density_at_21c : R) : res R :=
  let* q := np_pow (temperature + 1778 / 100) (1175 / 1000) in
  py_div density_at_21c (972 / 1000 + 381 / 10 ^ 6 * q).

(** oil_properties.py:302-315 *)
Definition dead_oil_density (temperature pressure reference_density : R) : res R :=
  temperature_adjusted_dead_oil_density temperature
    (pressure_adjusted_dead_oil_density pressure reference_density).

(** oil_properties.py:318-338.  A zero divisor is a ZeroDivisionError for dead
    oil and inf for live oil (whose pseudo-density is a NumPy number);
    [NonFinite] in both cases. *)
Definition dead_oil_primary_velocity (temperature pressure reference_density : R) : res R :=
  let* q := np_div reference_density (26 / 10 - reference_density) in
  let* s := np_sqrt q in
  let* i := np_div 1 reference_density in
  let* h := np_sqrt (108 / 100 * i - 1) in
  Ok (2096 * s - 37 / 10 * temperature + 464 / 100 * pressure
      + 115 / 10000 * (412 / 100 * h - 1) * temperature * pressure).

(** oil_properties.py:341-358 *)
Definition dead_oil (temperature pressure reference_density : R) : res material :=
  let* d := dead_oil_density temperature (pressure * (1 / 10 ^ 6)) (reference_density / 1000) in
  let* v := dead_oil_primary_velocity temperature (pressure * (1 / 10 ^ 6)) (reference_density / 1000) in
  fluid_of_velocity (d * 1000) v.

(** oil_properties.py:361-380 *)
Definition live_oil_volume_factor (temperature reference_density gas_oil_ratio gas_gravity : R) : res R :=
  let* q := py_div gas_gravity reference_density in
  let* s := np_sqrt q in
  let* w := np_pow (24 / 10 * gas_oil_ratio * s + temperature + 178 / 10) (1175 / 1000) in
  Ok (972 / 1000 + 38 / 100000 * w).

(** oil_properties.py:383-401 *)
Definition live_oil_pseudo_density (temperature reference_density gas_oil_ratio gas_gravity : R) : res R :=
  let* b0 := live_oil_volume_factor temperature reference_density gas_oil_ratio gas_gravity in
  let* q := np_div reference_density b0 in
  np_div q (1 + 1 / 1000 * gas_oil_ratio).

(** oil_properties.py:404-423 *)
Definition live_oil_density (temperature pressure reference_density gas_oil_ratio gas_gravity : R) : res R :=
  let* b0 := live_oil_volume_factor temperature reference_density gas_oil_ratio gas_gravity in
  np_div (reference_density + 12 / 10000 * gas_gravity * gas_oil_ratio) b0.

(** oil_properties.py:426-445 *)
Definition live_oil_primary_velocity (temperature pressure reference_density gas_oil_ratio gas_gravity : R)
  : res R :=
  let* rho := live_oil_pseudo_density temperature reference_density gas_oil_ratio gas_gravity in
  dead_oil_primary_velocity temperature pressure rho.

(** oil_properties.py:448-482.  Lines 458-466 only warn; they do raise when the
    gas gravity or the reference density is zero.  The power of a negative ratio
    is a complex number, which NumPy compares with the pressure by its real part,
    so that only the warning depends on it. *)
Definition live_oil (temperature pressure reference_density gas_oil_ratio gas_gravity : R) : res material :=
  let* _ := py_div gas_oil_ratio gas_gravity in
  let* _ := py_div 4072 reference_density in
  let* d := live_oil_density temperature (pressure * (1 / 10 ^ 6)) (reference_density / 1000)
              gas_oil_ratio gas_gravity in
  let* v := live_oil_primary_velocity temperature (pressure * (1 / 10 ^ 6)) (reference_density / 1000)
              gas_oil_ratio gas_gravity in
  fluid_of_velocity (d * 1000) v.

(** oil_properties.py:499-512, with length = 2. *)
Definition triangular_window (x : R) : R :=
  if Rlt_dec 1 x then 0
  else if Rlt_dec x (-1) then 0
  else Rabs ((Rabs x - 1) / 1).

(** oil_properties.py:485-523 *)
Definition oil (temperature pressure reference_density gas_oil_ratio gas_gravity : R) : res material :=
  let* loil := live_oil temperature pressure reference_density gas_oil_ratio gas_gravity in
  let* doil := dead_oil temperature pressure reference_density in
  let w := triangular_window gas_oil_ratio in
  fluid_of_velocity (dens doil * w + (1 - w) * dens loil) (vp doil * w + (1 - w) * vp loil).

(* ---- water_properties.py and brine_properties.py ---- *)

(** water_properties.py:46-59 *)
Definition water_density (temperature pressure : R) : res R :=
  polyval2d temperature pressure
    [[1; 489 / 10 ^ 6; - (333 / 10 ^ 9)];
     [- (8 / 10 ^ 5); - (2 / 10 ^ 6); - (2 / 10 ^ 9)];
     [- (33 / 10 ^ 7); 16 / 10 ^ 9; 0];
     [175 / 10 ^ 11; - (13 / 10 ^ 12); 0]].

(** water_properties.py:62-83 *)
Definition water_primary_velocity (temperature pressure : R) : res R :=
  polyval2d temperature pressure
    [[140285 / 100; 1524 / 1000; 3437 / 10 ^ 6; - (1197 / 10 ^ 8)];
     [4871 / 1000; - (111 / 10 ^ 4); 1739 / 10 ^ 7; - (1628 / 10 ^ 9)];
     [- (4783 / 10 ^ 5); 2747 / 10 ^ 7; - (2135 / 10 ^ 9); 1237 / 10 ^ 11];
     [1487 / 10 ^ 7; - (6503 / 10 ^ 10); - (1455 / 10 ^ 11); 1327 / 10 ^ 13];
     [- (2197 / 10 ^ 10); 7987 / 10 ^ 13; 523 / 10 ^ 13; - (4614 / 10 ^ 16)]].

(** water_properties.py:86-95 *)
Definition water (temperature pressure : R) : res material :=
  let* d := water_density temperature pressure in
  let* v := water_primary_velocity temperature pressure in
  fluid_of_velocity d v.

(** numpy.polynomial.polynomial.polyval3d(x, y, z, c): Horner along the first
    axis, then as polyval2d. *)
Fixpoint poly_matrices (x : R) (ms : list (list (list R))) : list (list R) :=
  match ms with
  | [] => []
  | [m] => m
  | m :: ms' =>
      map (fun rr => map2 (fun a acc => a + acc * x) (fst rr) (snd rr)) (combine m (poly_matrices x ms'))
  end.
Definition polyval3d (x y z : R) (c : list (list (list R))) : res R :=
  polyval2d y z (poly_matrices x c).

(** brine_properties.py:111-126 *)
Definition brine_density (temperature pressure salinity : R) : res R :=
  let* w := water_density temperature pressure in
  let* p := polyval3d salinity temperature pressure
    [[[668 / 1000; 3 / 10 ^ 4]; [8 / 10 ^ 5; - (13 / 10 ^ 6)]; [3 / 10 ^ 6; 0]];
     [[44 / 100; - (24 / 10 ^ 4)]; [- (33 / 10 ^ 4); 47 / 10 ^ 6]; [0; 0]]] in
  Ok (w + salinity * p).

(** brine_properties.py:129-154 *)
Definition brine_primary_velocity (temperature pressure salinity : R) : res R :=
  let* w := water_primary_velocity temperature pressure in
  let* s := np_sqrt salinity in
  let* p := polyval3d s temperature pressure
    [[[1170; 26 / 10; - (476 / 10 ^ 4)]; [- (96 / 10); - (29 / 10 ^ 4); 0];
      [55 / 1000; 0; 0]; [- (85 / 10 ^ 6); 0; 0]];
     [[780; -10; 16 / 100]; [0; 0; 0]; [0; 0; 0]; [0; 0; 0]];
     [[-820; 0; 0]; [0; 0; 0]; [0; 0; 0]; [0; 0; 0]]] in
  Ok (w + salinity * p).

(** brine_properties.py:157-169 *)
Definition brine (temperature pressure salinity : R) : res material :=
  let* d := brine_density temperature (pressure * (1 / 10 ^ 6)) (salinity * (1 / 10 ^ 6)) in
  let* v := brine_primary_velocity temperature (pressure * (1 / 10 ^ 6)) (salinity * (1 / 10 ^ 6)) in
  fluid_of_velocity (d * 1000) v.
