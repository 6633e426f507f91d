(** Infinities and nan in the fluids of Batzle and Wang, for one row.  The
    functions run inside [vectorize_material] (material/material.py:76-101), so
    their arguments are Python numbers; [np.sqrt], [np.exp] and polynomials give
    NumPy numbers. *)
From Coq Require Import List.
From Verif Require Import Base MaterialModel BatzleWangModel RowModel InfModel.
Import ListNotations.
Open Scope R_scope.
Open Scope xnum_scope.

(** [x ** 3] *)
Definition xcube (a : xnum) : xnum := a * a * a.

(** fluid.py:12-16 with a primary velocity; the secondary velocity is
    [(0 / d) ** 0.5] (seismic_velocity.py:28-41). *)
Definition x_fluid_of_velocity (kd : kind) (d p : xnum) : res xmaterial :=
  let k := x_bulk_modulus p (XFin 0) d in
  let* _ := guard (match kd with Python => xzero d | _ => false end) ZeroDivisionError in
  let* _ := x_moduli_guards k (XFin 0) d in
  let* s := x_secondary_velocity kd (XFin 0) d in
  let* _ := x_velocity_guards p s in
  Ok (mkX k (XFin 0) d p s).

(** numpy.polynomial.polynomial.polyval3d *)
Fixpoint x_poly_matrices (x : xnum) (ms : list (list (list xnum))) : list (list xnum) :=
  match ms with
  | [] => []
  | [m] => map (map (fun a => a + x * XFin 0)) m
  | m :: ms' =>
      map (fun rr => xmap2 (fun a acc => a + acc * x) (fst rr) (snd rr)) (combine m (x_poly_matrices x ms'))
  end.
Definition x_polyval3d (x y z : xnum) (c : list (list (list R))) : res xnum :=
  match x_poly_rows y (x_poly_matrices x (map (map (map XFin)) c)) with
  | [] => Err IndexError
  | l => Ok (x_poly_eval z l)
  end.

(* ------------------------------------------------------------------ *)
(** ** material/batzle_wang, conversions.py *)

(** conversions.py:6-10 *)
Definition x_celsius_to_kelvin (t : xnum) : xnum := t + XFin (27315 / 100)%R.

(** *** ideal_gas.py *)

(** ideal_gas.py:13-19 *)
Definition x_molecular_weight (gas_gravity : xnum) : xnum := gas_gravity * XFin AIR_WEIGHT.

(** ideal_gas.py:22-29 *)
Definition x_molar_volume (absolute_temperature pressure : xnum) : res xnum :=
  x_div Python (XFin gas_constant * absolute_temperature) pressure.

(** ideal_gas.py:32-40 *)
Definition x_ideal_gas_density (absolute_temperature pressure gas_gravity : xnum) : res xnum :=
  let* v := x_molar_volume absolute_temperature pressure in
  x_div Python (x_molecular_weight gas_gravity) v.

(** ideal_gas.py:43-49 *)
Definition x_ideal_gas_primary_velocity (absolute_temperature gas_gravity : xnum) : res xnum :=
  let* q := x_div Python (XFin gas_constant * absolute_temperature) (x_molecular_weight gas_gravity) in
  x_root Array q.

(** ideal_gas.py:52-63 *)
Definition x_ideal_gas (absolute_temperature pressure gas_gravity : xnum) : res xmaterial :=
  let* d := x_ideal_gas_density absolute_temperature (pressure * XFin (10 ^ 6)%R) gas_gravity in
  let* v := x_ideal_gas_primary_velocity absolute_temperature gas_gravity in
  x_fluid_of_velocity Python (d * XFin 1000) v.

(** *** hydro_carbon_gas.py *)

(** hydro_carbon_gas.py:103-120 *)
Definition x_pseudoreduced_temperature (absolute_temperature gas_gravity : xnum) : res xnum :=
  x_div Python absolute_temperature (XFin (9472 / 100)%R + XFin (17075 / 100)%R * gas_gravity).

(** hydro_carbon_gas.py:123-137 *)
Definition x_pseudoreduced_pressure (pressure gas_gravity : xnum) : res xnum :=
  x_div Python pressure (XFin (4892 / 1000)%R - XFin (4048 / 10000)%R * gas_gravity).

(** hydro_carbon_gas.py:140-161 *)
Definition x_compressability_factor (absolute_temperature pressure gas_gravity : xnum) : res xnum :=
  let* tpr := x_pseudoreduced_temperature absolute_temperature gas_gravity in
  let* ppr := x_pseudoreduced_pressure pressure gas_gravity in
  let* i := x_div Python (XFin 1) tpr in
  let* q := x_power Python ppr (12 / 10)%R in
  let* e := x_div Python ((XFin (45 / 100)%R + XFin 8 * xsquare (XFin (56 / 100)%R - i)) * q) tpr in
  Ok ((XFin (3 / 100)%R + XFin (527 / 100000)%R * xcube (XFin (35 / 10)%R - tpr)) * ppr
      + XFin (642 / 1000)%R * tpr
      - XFin (7 / 1000)%R * xsquare (xsquare tpr)
      - XFin (52 / 100)%R
      + XFin (109 / 1000)%R * xsquare (XFin (385 / 100)%R - tpr) / x_exp e).

(** hydro_carbon_gas.py:164-175 *)
Definition x_gas_density (absolute_temperature pressure gas_gravity : xnum) : res xnum :=
  let* m := x_ideal_gas absolute_temperature (pressure * XFin (1 / 10 ^ 6)%R) gas_gravity in
  let* z := x_compressability_factor absolute_temperature pressure gas_gravity in
  x_div Scalar (x_dens m) z.

(** hydro_carbon_gas.py:178-202 *)
Definition x_compressability_rate_per_pseudoreduced_pressure
  (absolute_temperature pressure gas_gravity : xnum) : res xnum :=
  let* tpr := x_pseudoreduced_temperature absolute_temperature gas_gravity in
  let* ppr := x_pseudoreduced_pressure pressure gas_gravity in
  let* i := x_div Python (XFin 1) tpr in
  let* p02 := x_power Python ppr (2 / 10)%R in
  let* p12 := x_power Python ppr (12 / 10)%R in
  let* e := x_div Python ((XFin (45 / 100)%R + XFin 8 * xsquare (XFin (56 / 100)%R - i)) * p12) tpr in
  let* q := x_div Scalar (XFin (1308 / 10000)%R * (XFin (45 / 100)%R + XFin 8 * xsquare (XFin (56 / 100)%R - i)) * xsquare (XFin (385 / 100)%R - tpr) * p02)
                   (x_exp e * tpr) in
  Ok (XFin (3 / 100)%R + XFin (527 / 100000)%R * xcube (XFin (35 / 10)%R - tpr) - q).

(** hydro_carbon_gas.py:222-227, equation 11b. *)
Definition x_gamma_0 (ppr : xnum) : res xnum :=
  let* a := x_div Python (XFin (56 / 10)%R) (ppr + XFin 2) in
  let* b := x_div Python (XFin (271 / 10)%R) (xsquare (ppr + XFin (35 / 10)%R)) in
  Ok (XFin (85 / 100)%R + a + b - XFin (87 / 10)%R * x_exp (XFin (- (65 / 100))%R * (ppr + XFin 1))).

(** hydro_carbon_gas.py:205-229 *)
Definition x_gas_bulk_modulus (absolute_temperature pressure gas_gravity : xnum) : res xnum :=
  let* z := x_compressability_factor absolute_temperature pressure gas_gravity in
  let* dz_dppr := x_compressability_rate_per_pseudoreduced_pressure absolute_temperature pressure gas_gravity in
  let* ppr := x_pseudoreduced_pressure pressure gas_gravity in
  let* g := x_gamma_0 ppr in
  let* q := x_div Scalar (dz_dppr * ppr) z in
  x_div Scalar (g * pressure) (XFin 1 - q).

(** hydro_carbon_gas.py:232-247 *)
Definition x_gas (temperature pressure gas_gravity : xnum) : res xmaterial :=
  let* d := x_gas_density (x_celsius_to_kelvin temperature) (pressure * XFin (1 / 10 ^ 6)%R) gas_gravity in
  let* k := x_gas_bulk_modulus (x_celsius_to_kelvin temperature) (pressure * XFin (1 / 10 ^ 6)%R) gas_gravity in
  x_fluid_of_bulk Scalar (k * XFin (10 ^ 6)%R) d.

(** *** oil_properties.py *)

(** oil_properties.py:270-286 *)
Definition x_pressure_adjusted_dead_oil_density (pressure reference_density : xnum) : xnum :=
  reference_density
  + (XFin (277 / 100000)%R * pressure - XFin (171 / 10 ^ 9)%R * xcube pressure) * xsquare (reference_density - XFin (115 / 100)%R)
  + XFin (349 / 10 ^ 6)%R * pressure.

(** oil_properties.py:289-299 *)
Definition x_temperature_adjusted_dead_oil_density (temperature density_at_21c : xnum) : res xnum :=
  let* q := x_power Python (temperature + XFin (1778 / 100)%R) (1175 / 1000)%R in
  x_div Python density_at_21c (XFin (972 / 1000)%R + XFin (381 / 10 ^ 6)%R * q).

(** oil_properties.py:302-315 *)
Definition x_dead_oil_density (temperature pressure reference_density : xnum) : res xnum :=
  x_temperature_adjusted_dead_oil_density temperature
    (x_pressure_adjusted_dead_oil_density pressure reference_density).

(** oil_properties.py:318-338.  The density is a Python number for
    dead oil; the pseudo-density of live oil is a NumPy number. *)
Definition x_dead_oil_primary_velocity (kd : kind) (temperature pressure reference_density : xnum) : res xnum :=
  let* q := x_div kd reference_density (XFin (26 / 10)%R - reference_density) in
  let* s := x_root Array q in
  let* i := x_div kd (XFin 1) reference_density in
  let* h := x_root Array (XFin (108 / 100)%R * i - XFin 1) in
  Ok (XFin 2096 * s - XFin (37 / 10)%R * temperature + XFin (464 / 100)%R * pressure
      + XFin (115 / 10000)%R * (XFin (412 / 100)%R * h - XFin 1) * temperature * pressure).

(** oil_properties.py:341-358 *)
Definition x_dead_oil (temperature pressure reference_density : xnum) : res xmaterial :=
  let* d := x_dead_oil_density temperature (pressure * XFin (1 / 10 ^ 6)%R) (reference_density / XFin 1000) in
  let* v := x_dead_oil_primary_velocity Python temperature (pressure * XFin (1 / 10 ^ 6)%R) (reference_density / XFin 1000) in
  x_fluid_of_velocity Python (d * XFin 1000) v.

(** oil_properties.py:361-380; the base of the power is a NumPy number. *)
Definition x_live_oil_volume_factor (temperature reference_density gas_oil_ratio gas_gravity : xnum) : res xnum :=
  let* q := x_div Python gas_gravity reference_density in
  let* s := x_root Array q in
  let* w := x_power Scalar (XFin (24 / 10)%R * gas_oil_ratio * s + temperature + XFin (178 / 10)%R) (1175 / 1000)%R in
  Ok (XFin (972 / 1000)%R + XFin (38 / 100000)%R * w).

(** oil_properties.py:383-401 *)
Definition x_live_oil_pseudo_density (temperature reference_density gas_oil_ratio gas_gravity : xnum) : res xnum :=
  let* b0 := x_live_oil_volume_factor temperature reference_density gas_oil_ratio gas_gravity in
  let* q := x_div Scalar reference_density b0 in
  x_div Scalar q (XFin 1 + XFin (1 / 1000)%R * gas_oil_ratio).

(** oil_properties.py:404-423 *)
Definition x_live_oil_density (temperature pressure reference_density gas_oil_ratio gas_gravity : xnum) : res xnum :=
  let* b0 := x_live_oil_volume_factor temperature reference_density gas_oil_ratio gas_gravity in
  x_div Scalar (reference_density + XFin (12 / 10000)%R * gas_gravity * gas_oil_ratio) b0.

(** oil_properties.py:426-445 *)
Definition x_live_oil_primary_velocity (temperature pressure reference_density gas_oil_ratio gas_gravity : xnum)
  : res xnum :=
  let* rho := x_live_oil_pseudo_density temperature reference_density gas_oil_ratio gas_gravity in
  x_dead_oil_primary_velocity Scalar temperature pressure rho.

(** oil_properties.py:448-482.  Lines 458-466 only warn; they do raise when the
    gas gravity or the reference density is zero. *)
Definition x_live_oil (temperature pressure reference_density gas_oil_ratio gas_gravity : xnum) : res xmaterial :=
  let* _ := x_div Python gas_oil_ratio gas_gravity in
  let* _ := x_div Python (XFin 4072) reference_density in
  let* d := x_live_oil_density temperature (pressure * XFin (1 / 10 ^ 6)%R) (reference_density / XFin 1000)
              gas_oil_ratio gas_gravity in
  let* v := x_live_oil_primary_velocity temperature (pressure * XFin (1 / 10 ^ 6)%R) (reference_density / XFin 1000)
              gas_oil_ratio gas_gravity in
  x_fluid_of_velocity Scalar (d * XFin 1000) v.

(** oil_properties.py:499-512, with length = 2. *)
Definition x_triangular_window (x : xnum) : xnum :=
  if xltb (XFin 1) x then XFin 0
  else if xltb x (XFin (-1)%R) then XFin 0
  else xabs ((xabs x - XFin 1) / XFin 1).

(** oil_properties.py:485-523 *)
Definition x_oil (temperature pressure reference_density gas_oil_ratio gas_gravity : xnum) : res xmaterial :=
  let* loil := x_live_oil temperature pressure reference_density gas_oil_ratio gas_gravity in
  let* doil := x_dead_oil temperature pressure reference_density in
  let w := x_triangular_window gas_oil_ratio in
  x_fluid_of_velocity Scalar (x_dens doil * w + (XFin 1 - w) * x_dens loil) (x_vp doil * w + (XFin 1 - w) * x_vp loil).

(** *** water_properties.py and brine_properties.py *)

(** water_properties.py:46-59 *)
Definition x_water_density (temperature pressure : xnum) : res xnum :=
  x_polyval2d temperature pressure
    [[1; 489 / 10 ^ 6; - (333 / 10 ^ 9)];
     [- (8 / 10 ^ 5); - (2 / 10 ^ 6); - (2 / 10 ^ 9)];
     [- (33 / 10 ^ 7); 16 / 10 ^ 9; 0];
     [175 / 10 ^ 11; - (13 / 10 ^ 12); 0]]%R.

(** water_properties.py:62-83 *)
Definition x_water_primary_velocity (temperature pressure : xnum) : res xnum :=
  x_polyval2d temperature pressure
    [[140285 / 100; 1524 / 1000; 3437 / 10 ^ 6; - (1197 / 10 ^ 8)];
     [4871 / 1000; - (111 / 10 ^ 4); 1739 / 10 ^ 7; - (1628 / 10 ^ 9)];
     [- (4783 / 10 ^ 5); 2747 / 10 ^ 7; - (2135 / 10 ^ 9); 1237 / 10 ^ 11];
     [1487 / 10 ^ 7; - (6503 / 10 ^ 10); - (1455 / 10 ^ 11); 1327 / 10 ^ 13];
     [- (2197 / 10 ^ 10); 7987 / 10 ^ 13; 523 / 10 ^ 13; - (4614 / 10 ^ 16)]]%R.

(** water_properties.py:86-95 *)
Definition x_water (temperature pressure : xnum) : res xmaterial :=
  let* d := x_water_density temperature pressure in
  let* v := x_water_primary_velocity temperature pressure in
  x_fluid_of_velocity Scalar d v.

(** brine_properties.py:111-126 *)
Definition x_brine_density (temperature pressure salinity : xnum) : res xnum :=
  let* w := x_water_density temperature pressure in
  let* p := x_polyval3d salinity temperature pressure
    [[[668 / 1000; 3 / 10 ^ 4]; [8 / 10 ^ 5; - (13 / 10 ^ 6)]; [3 / 10 ^ 6; 0]];
     [[44 / 100; - (24 / 10 ^ 4)]; [- (33 / 10 ^ 4); 47 / 10 ^ 6]; [0; 0]]]%R in
  Ok (w + salinity * p).

(** brine_properties.py:129-154 *)
Definition x_brine_primary_velocity (temperature pressure salinity : xnum) : res xnum :=
  let* w := x_water_primary_velocity temperature pressure in
  let* s := x_root Array salinity in
  let* p := x_polyval3d s temperature pressure
    [[[1170; 26 / 10; - (476 / 10 ^ 4)]; [- (96 / 10); - (29 / 10 ^ 4); 0];
      [55 / 1000; 0; 0]; [- (85 / 10 ^ 6); 0; 0]];
     [[780; -10; 16 / 100]; [0; 0; 0]; [0; 0; 0]; [0; 0; 0]];
     [[-820; 0; 0]; [0; 0; 0]; [0; 0; 0]; [0; 0; 0]]]%R in
  Ok (w + salinity * p).

(** brine_properties.py:157-169 *)
Definition x_brine (temperature pressure salinity : xnum) : res xmaterial :=
  let* d := x_brine_density temperature (pressure * XFin (1 / 10 ^ 6)%R) (salinity * XFin (1 / 10 ^ 6)%R) in
  let* v := x_brine_primary_velocity temperature (pressure * XFin (1 / 10 ^ 6)%R) (salinity * XFin (1 / 10 ^ 6)%R) in
  x_fluid_of_velocity Scalar (d * XFin 1000) v.

(** material.py:76-101: what a column gives is made again from density and
    velocities. *)
Definition x_vectorized (column : bool) (m : xmaterial) : res xmaterial :=
  if column then x_material_of_velocities (x_dens m) (x_vp m) (x_vs m) else Ok m.
