(** Model of material/sandstone/*.py.

    Numbers here are NumPy values or plain floats depending on the caller; a
    division by zero or a fractional power of a negative number is [NonFinite]
    in the model (inf, nan, a complex number or ZeroDivisionError in the code),
    except inside [hashin_shtrikman_walpole], which works on plain floats. *)
From Verif Require Import Base MaterialModel HashinShtrikmanModel.
From Coq Require Import String List.
Open Scope R_scope.

(** sandstone/hertz_mindlin.py:11-56 *)
Definition hertz_mindlin (mineral : material)
    (porosity pressure shear_reduction coordination_number : R) : res material :=
  let* v := poisson_ratio mineral in
  let mu := shear mineral in
  let n := coordination_number in
  let phi := porosity in
  let p := pressure in
  let* q := np_div (3 * PI * (1 - v) * p) (2 * n * (1 - phi) * mu) in
  let* a := np_pow q (1 / 3) in
  let* sn := np_div (4 * a * mu) (1 - v) in
  let* st := np_div (8 * a * mu) (2 - v) in
  let k_eff := n * (1 - phi) / (12 * PI) * sn in
  let mu_eff := n * (1 - phi) / (20 * PI) * (sn + 15 / 10 * st * shear_reduction) in
  mat_of_moduli k_eff mu_eff (dens mineral * (1 - porosity)).

(** sandstone/friable_sand.py:10-51 *)
Definition friable_sand (mineral : material)
    (porosity critical_porosity effective_pressure coordination_number shear_reduction : R)
    : res material :=
  let* critical_mineral :=
    hertz_mindlin mineral critical_porosity effective_pressure shear_reduction coordination_number in
  let* r := np_div porosity critical_porosity in
  let fraction := 1 - r in
  hashin_shtrikman_walpole mineral critical_mineral fraction "lower".

(** sandstone/murphy_coordination_number.py:1-11 *)
Definition murphy_coordination_number (porosity : R) : R :=
  2598805 / 100000 * porosity ^ 2 - 437622 / 10000 * porosity + 216719 / 10000.

(** sandstone/contact_cement.py:11-43 *)
Definition shear_stiffness (cement_mu grain_mu grain_poisson radius_ratio : R) : res R :=
  let poiss := grain_poisson in
  let alpha := radius_ratio in
  let* aat := np_div cement_mu (PI * grain_mu) in
  let* pa := np_pow aat (79 / 1000 * poiss ^ 2 + 1754 / 10000 * poiss - 1342 / 1000) in
  let at_ := - (1 / 100) * (226 / 100 * poiss ^ 2 + 207 / 100 * poiss + 23 / 10) * pa in
  let* pb := np_pow aat (274 / 10000 * poiss ^ 2 + 529 / 10000 * poiss - 8765 / 10000) in
  let bt := (573 / 10000 * poiss ^ 2 + 937 / 10000 * poiss + 202 / 1000) * pb in
  let* pc := np_pow aat (1867 / 100000 * poiss ^ 2 + 4011 / 10000 * poiss - 18186 / 10000) in
  let ct := 1 / 10000 * (9654 / 1000 * poiss ^ 2 + 4945 / 1000 * poiss + 31 / 10) * pc in
  Ok (at_ * alpha ^ 2 + bt * alpha + ct).

(** sandstone/contact_cement.py:46-75 *)
Definition normal_stiffness (grain_poisson cement_poisson cement_mu grain_mu radius_ratio : R)
    : res R :=
  let poiss := grain_poisson in
  let poiss_c := cement_poisson in
  let alpha := radius_ratio in
  let* q1 := np_div (2 * cement_mu) (PI * grain_mu) in
  let* q2 := np_div ((1 - poiss) * (1 - poiss_c)) (1 - 2 * poiss_c) in
  let aan := q1 * q2 in
  let* pc := np_pow aan (- (19864 / 10000)) in
  let cn := 24649 / 100000000 * pc in
  let* pb := np_pow aan (- (89008 / 100000)) in
  let bn := 20405 / 100000 * pb in
  let* pa := np_pow aan (- (13646 / 10000)) in
  let an := - (24153 / 1000000) * pa in
  Ok (an * alpha ^ 2 + bn * alpha + cn).

(** The three range checks shared by sandstone/contact_cement.py:87-96 and
    135-144 (they are written out twice in the code, in the same order). *)
Definition check_porosities (sand_porosity cemented_sand_porosity : R) : res unit :=
  if Rlt_dec 1 sand_porosity then Err ValueError
  else if Rlt_dec sand_porosity 0 then Err ValueError
  else if Rlt_dec 1 cemented_sand_porosity then Err ValueError
  else if Rlt_dec cemented_sand_porosity 0 then Err ValueError
  else if Rlt_dec sand_porosity cemented_sand_porosity then Err ValueError
  else Ok tt.

(** sandstone/contact_cement.py:78-101.  [np.clip(0.0, 1.0, x)] clips the
    number 0.0 from below by 1.0 and from above by x: NumPy evaluates
    min(x, max(0.0, 1.0)). *)
Definition cement_radius_ratio (cemented_sand_porosity grain_porosity : R) : res R :=
  let* _ := check_porosities grain_porosity cemented_sand_porosity in
  let* q := np_div (2 * (grain_porosity - cemented_sand_porosity)) (3 * (1 - grain_porosity)) in
  let* calculated_value := np_sqrt q in
  Ok (Rmin calculated_value (Rmax 0 1)).

(** sandstone/contact_cement.py:104-177 *)
Definition contact_cement (cement mineral : material)
    (cemented_sand_porosity sand_porosity shear_reduction coordination_number : R) : res material :=
  let* _ := check_porosities sand_porosity cemented_sand_porosity in
  let* alpha := cement_radius_ratio cemented_sand_porosity sand_porosity in
  let* nu := poisson_ratio mineral in
  let* st := shear_stiffness (shear cement) (shear mineral) nu alpha in
  let* nu_c := poisson_ratio cement in
  let* sn := normal_stiffness nu nu_c (shear cement) (shear mineral) alpha in
  let k_eff := 1 / 6 * coordination_number * (1 - sand_porosity) * primary_wave_modulus cement * sn in
  let mu_eff := 3 / 5 * k_eff
      + shear_reduction * (3 / 20) * coordination_number * (1 - sand_porosity) * shear cement * st in
  mat_of_moduli k_eff mu_eff
    ((1 - cemented_sand_porosity) * (alpha * dens cement + (1 - alpha) * dens mineral)).

(** sandstone/constant_cement.py:10-59 *)
Definition constant_cement (sand cement : material)
    (porosity contact_cement_porosity sand_porosity coordination_number shear_reduction : R)
    : res material :=
  let* dense_packing :=
    hashin_shtrikman_walpole cement sand (sand_porosity - contact_cement_porosity) "lower" in
  let* cc := contact_cement cement sand contact_cement_porosity sand_porosity
               shear_reduction coordination_number in
  let* r := np_div porosity contact_cement_porosity in
  let fraction := 1 - r in
  hashin_shtrikman_walpole dense_packing cc fraction "lower".

(** The weights of sandstone/patchy_cement.py:102-112: one where upper and
    lower bound agree, the relative position otherwise, clipped to [0, 1].
    [np.clip(w, 0, 1)] = min(1, max(w, 0)). *)
Definition patchy_weight (constant low up : R) : R :=
  let w := if Req_EM_T up low then 1 else (constant - low) / (up - low) in
  Rmin 1 (Rmax w 0).

(** sandstone/patchy_cement.py:15-122 *)
Definition patchy_cement (sand cement : material)
    (porosity contact_cement_porosity upper_bound_porosity pressure lower_bound_pressure
     critical_porosity shear_reduction friable_coordination_number cement_coordination_number : R)
    : res material :=
  let* dense_packing :=
    hashin_shtrikman_walpole cement sand (critical_porosity - upper_bound_porosity) "lower" in
  let* friable := friable_sand dense_packing porosity critical_porosity pressure
                    friable_coordination_number shear_reduction in
  let* lower_bound := friable_sand dense_packing porosity critical_porosity lower_bound_pressure
                        friable_coordination_number shear_reduction in
  let* upper_bound := constant_cement sand cement porosity upper_bound_porosity critical_porosity
                        cement_coordination_number shear_reduction in
  let* contact := contact_cement cement sand contact_cement_porosity critical_porosity
                    shear_reduction cement_coordination_number in
  let* r := np_div porosity contact_cement_porosity in
  let* constant := hashin_shtrikman_walpole dense_packing contact (1 - r) "lower" in
  let wk := patchy_weight (bulk constant) (bulk lower_bound) (bulk upper_bound) in
  let wmu := patchy_weight (shear constant) (shear lower_bound) (shear upper_bound) in
  let cement_fraction := critical_porosity - contact_cement_porosity in
  let kps := bulk friable + wk * (bulk upper_bound - bulk friable) in
  let mups := shear friable + wmu * (shear upper_bound - shear friable) in
  let rps := (1 - porosity - cement_fraction) * dens sand + cement_fraction * dens cement in
  mat_of_moduli kps mups rps.
