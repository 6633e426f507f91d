(** Infinities and nan in the bounds of Hashin and Shtrikman and the models of
    sandstone, for one row.  Each material and the other parameters together
    ([kp]) come from somewhere: from a column ([Array]), a calculation ([Scalar])
    or the configuration ([Python]). *)
From Coq Require Import String List.
From Verif Require Import Base MaterialModel RowModel InfModel.
Import ListNotations.
Open Scope R_scope.
Open Scope xnum_scope.

(** The kind of what two numbers give; the kind of what a vectorised function
    gives. *)
Definition join (a b : kind) : kind :=
  match a, b with Array, _ | _, Array => Array | Scalar, _ | _, Scalar => Scalar | Python, Python => Python end.
Definition calculated (a : kind) : kind := join Scalar a.

(** [x ** y] for an exponent that is no number, as C's pow does it. *)
Definition x_pow_num (a b : xnum) : xnum :=
  match b with
  | XInf s =>
      match a with
      | XNan => XNan
      | _ =>
          if xeqb (xabs a) (XFin 1) then XFin 1
          else if xorb s (xltb (xabs a) (XFin 1)) then XFin 0 else XInf false
      end
  | _ => if xeqb a (XFin 1) then XFin 1 else XNan
  end.
Definition x_power_num (kd : kind) (a b : xnum) : res xnum :=
  match xval b with
  | Some y => x_power kd a y
  | None =>
      match kd with
      | Python => if andb (xzero a) (xltb b (XFin 0)) then Err ZeroDivisionError else Ok (x_pow_num a b)
      | _ => Ok (x_pow_num a b)
      end
  end.

(** material.py:181-192, 194-203 *)
Definition x_poisson_ratio (kd : kind) (m : xmaterial) : res xnum :=
  x_div kd (XFin 3 * x_bulk m - XFin 2 * x_shear m) (XFin 2 * (XFin 3 * x_bulk m + x_shear m)).
Definition x_primary_wave_modulus (m : xmaterial) : xnum := x_bulk m + XFin (4 / 3)%R * x_shear m.

(* ------------------------------------------------------------------ *)
(** ** material/hashin_shtrikman.py *)

(** hashin_shtrikman.py:21-43; nan passes. *)
Definition x_check_is_ratio (ratio : xnum) : res unit :=
  let* _ := guard (xltb (XFin (1 + 1 / 10 ^ 5)%R) ratio) ValueError in
  guard (xltb ratio (XFin (0 - 1 / 10 ^ 5)%R)) ValueError.

(** hashin_shtrikman.py:46-84 *)
Definition x_hashin_shtrikman_bound (kd : kind) (m1 m2 : xmaterial) (ratio : xnum) : res xmaterial :=
  let* _ := x_check_is_ratio ratio in
  let k1 := x_bulk m1 in
  let k2 := x_bulk m2 in
  let mu1 := x_shear m1 in
  let mu2 := x_shear m2 in
  let f := ratio in
  let* inv := x_div kd (XFin 1) (k1 + XFin (4 / 3)%R * mu1) in
  let* qk := x_div kd ((XFin 1 - f) * (k2 - k1)) (XFin 1 + (k2 - k1) * f * inv) in
  let* t := x_div kd (XFin 2 * (mu2 - mu1) * f * (k1 + XFin 2 * mu1)) (XFin 5 * mu1 * (k1 + XFin (4 / 3)%R * mu1)) in
  let* qm := x_div kd ((XFin 1 - f) * (mu2 - mu1)) (XFin 1 + t) in
  x_material_of_moduli kd (k1 + qk) (mu1 + qm) (ratio * x_dens m1 + (XFin 1 - ratio) * x_dens m2).

(** hashin_shtrikman.py:87-127 *)
Definition x_hashin_shtrikman_average (kd : kind) (m1 m2 : xmaterial) (ratio : xnum) : res xmaterial :=
  let* _ := x_check_is_ratio ratio in
  let* b1 := x_hashin_shtrikman_bound kd m1 m2 ratio in
  let* b2 := x_hashin_shtrikman_bound kd m2 m1 (XFin 1 - ratio) in
  x_material_of_moduli kd ((x_bulk b1 + x_bulk b2) / XFin 2) ((x_shear b1 + x_shear b2) / XFin 2)
    (ratio * x_dens m1 + (XFin 1 - ratio) * x_dens m2).

(** hashin_shtrikman.py:159-164 *)
Definition x_calc_density (r1 r2 f1 f2 : xnum) : xnum := if xeqb r1 r2 then r2 else f1 * r1 + f2 * r2.
(** hashin_shtrikman.py:166-172; Python's numbers; [x ** -1] is [1 / x]. *)
Definition x_calc_bulk_modulus (k1 k2 mum f1 f2 : xnum) : res xnum :=
  if xeqb k1 k2 then Ok k1
  else
    let* a := x_div Python (XFin 1) (k2 - k1) in
    let* b := x_div Python (XFin 1) (k1 + XFin (4 / 3)%R * mum) in
    let* q := x_div Python f2 (a + f1 * b) in
    Ok (k1 + q).
(** hashin_shtrikman.py:174-182 *)
Definition x_calc_shear_modulus (mu1 mu2 km mum f1 f2 : xnum) : res xnum :=
  if xeqb mu1 mu2 then Ok mu1
  else
    let* a := x_div Python (XFin 1) (mu2 - mu1) in
    let* z := x_div Python (mum / XFin 6 * (XFin 9 * km + XFin 8 * mum)) (km + XFin 2 * mum) in
    let* b := x_div Python (XFin 1) (mu1 + z) in
    let* q := x_div Python f2 (a + f1 * b) in
    Ok (mu1 + q).
(** hashin_shtrikman.py:130-200; what the vectorised functions give is an array,
    so the material is made of NumPy's numbers. *)
Definition x_hashin_shtrikman_walpole (kd : kind) (m1 m2 : xmaterial) (ratio : xnum) (bound : string) : res xmaterial :=
  let* _ := x_check_is_ratio ratio in
  if negb (orb (String.eqb bound "lower") (String.eqb bound "upper")) then Err ValueError
  else
    let ratio2 := XFin 1 - ratio in
    let km := if String.eqb bound "lower" then xmin (x_bulk m1) (x_bulk m2) else xmax (x_bulk m1) (x_bulk m2) in
    let mum := if String.eqb bound "lower" then xmin (x_shear m1) (x_shear m2) else xmax (x_shear m1) (x_shear m2) in
    let d := x_calc_density (x_dens m1) (x_dens m2) ratio ratio2 in
    let* k := x_calc_bulk_modulus (x_bulk m1) (x_bulk m2) mum ratio ratio2 in
    let* mu := x_calc_shear_modulus (x_shear m1) (x_shear m2) km mum ratio ratio2 in
    x_material_of_moduli (calculated kd) k mu d.

(* ------------------------------------------------------------------ *)
(** ** material/sandstone *)

(** sandstone/hertz_mindlin.py:11-56 *)
Definition x_hertz_mindlin (km kp : kind) (mineral : xmaterial)
    (porosity pressure shear_reduction coordination_number : xnum) : res xmaterial :=
  let kd := join km kp in
  let* v := x_poisson_ratio km mineral in
  let mu := x_shear mineral in
  let n := coordination_number in
  let phi := porosity in
  let p := pressure in
  let* q := x_div kd (XFin (3 * PI)%R * (XFin 1 - v) * p) (XFin 2 * n * (XFin 1 - phi) * mu) in
  let* a := x_power kd q (1 / 3)%R in
  let* sn := x_div kd (XFin 4 * a * mu) (XFin 1 - v) in
  let* st := x_div kd (XFin 8 * a * mu) (XFin 2 - v) in
  let k_eff := n * (XFin 1 - phi) / XFin (12 * PI)%R * sn in
  let mu_eff := n * (XFin 1 - phi) / XFin (20 * PI)%R * (sn + XFin (15 / 10)%R * st * shear_reduction) in
  x_material_of_moduli kd k_eff mu_eff (x_dens mineral * (XFin 1 - porosity)).

(** sandstone/friable_sand.py:10-51 *)
Definition x_friable_sand (km kp : kind) (mineral : xmaterial)
    (porosity critical_porosity effective_pressure coordination_number shear_reduction : xnum) : res xmaterial :=
  let* critical_mineral := x_hertz_mindlin km kp mineral critical_porosity effective_pressure shear_reduction coordination_number in
  let* r := x_div kp porosity critical_porosity in
  x_hashin_shtrikman_walpole (join km kp) mineral critical_mineral (XFin 1 - r) "lower".

(** sandstone/contact_cement.py:11-43 *)
Definition x_shear_stiffness (kd : kind) (cement_mu grain_mu poiss alpha : xnum) : res xnum :=
  let p2 := xsquare poiss in
  let* aat := x_div kd cement_mu (XFin PI * grain_mu) in
  let* pa := x_power_num kd aat (XFin (79 / 1000)%R * p2 + XFin (1754 / 10000)%R * poiss - XFin (1342 / 1000)%R) in
  let at_ := XFin (- (1 / 100))%R * (XFin (226 / 100)%R * p2 + XFin (207 / 100)%R * poiss + XFin (23 / 10)%R) * pa in
  let* pb := x_power_num kd aat (XFin (274 / 10000)%R * p2 + XFin (529 / 10000)%R * poiss - XFin (8765 / 10000)%R) in
  let bt := (XFin (573 / 10000)%R * p2 + XFin (937 / 10000)%R * poiss + XFin (202 / 1000)%R) * pb in
  let* pc := x_power_num kd aat (XFin (1867 / 100000)%R * p2 + XFin (4011 / 10000)%R * poiss - XFin (18186 / 10000)%R) in
  let ct := XFin (1 / 10000)%R * (XFin (9654 / 1000)%R * p2 + XFin (4945 / 1000)%R * poiss + XFin (31 / 10)%R) * pc in
  Ok (at_ * xsquare alpha + bt * alpha + ct).

(** sandstone/contact_cement.py:46-75 *)
Definition x_normal_stiffness (kd : kind) (poiss poiss_c cement_mu grain_mu alpha : xnum) : res xnum :=
  let* q1 := x_div kd (XFin 2 * cement_mu) (XFin PI * grain_mu) in
  let* q2 := x_div kd ((XFin 1 - poiss) * (XFin 1 - poiss_c)) (XFin 1 - XFin 2 * poiss_c) in
  let aan := q1 * q2 in
  let* pc := x_power kd aan (- (19864 / 10000))%R in
  let cn := XFin (24649 / 100000000)%R * pc in
  let* pb := x_power kd aan (- (89008 / 100000))%R in
  let bn := XFin (20405 / 100000)%R * pb in
  let* pa := x_power kd aan (- (13646 / 10000))%R in
  let an := XFin (- (24153 / 1000000))%R * pa in
  Ok (an * xsquare alpha + bn * alpha + cn).

(** sandstone/contact_cement.py:87-96 and 135-144 *)
Definition x_check_porosities (sand_porosity cemented_sand_porosity : xnum) : res unit :=
  let* _ := guard (xltb (XFin 1) sand_porosity) ValueError in
  let* _ := guard (xltb sand_porosity (XFin 0)) ValueError in
  let* _ := guard (xltb (XFin 1) cemented_sand_porosity) ValueError in
  let* _ := guard (xltb cemented_sand_porosity (XFin 0)) ValueError in
  guard (xltb sand_porosity cemented_sand_porosity) ValueError.

(** sandstone/contact_cement.py:78-101 *)
Definition x_cement_radius_ratio (kd : kind) (cemented_sand_porosity grain_porosity : xnum) : res xnum :=
  let* _ := x_check_porosities grain_porosity cemented_sand_porosity in
  let* q := x_div kd (XFin 2 * (grain_porosity - cemented_sand_porosity)) (XFin 3 * (XFin 1 - grain_porosity)) in
  let* calculated_value := x_root kd q in
  Ok (xmin calculated_value (XFin 1)).

(** sandstone/contact_cement.py:104-177; [np.clip] gives NumPy's numbers. *)
Definition x_contact_cement (kc km kp : kind) (cement mineral : xmaterial)
    (cemented_sand_porosity sand_porosity shear_reduction coordination_number : xnum) : res xmaterial :=
  let* _ := x_check_porosities sand_porosity cemented_sand_porosity in
  let* alpha := x_cement_radius_ratio kp cemented_sand_porosity sand_porosity in
  let* nu := x_poisson_ratio km mineral in
  let* st := x_shear_stiffness (join kc km) (x_shear cement) (x_shear mineral) nu alpha in
  let* nu_c := x_poisson_ratio kc cement in
  let* sn := x_normal_stiffness (join kc km) nu nu_c (x_shear cement) (x_shear mineral) alpha in
  let k_eff := XFin (1 / 6)%R * coordination_number * (XFin 1 - sand_porosity) * x_primary_wave_modulus cement * sn in
  let mu_eff := XFin (3 / 5)%R * k_eff
      + shear_reduction * XFin (3 / 20)%R * coordination_number * (XFin 1 - sand_porosity) * x_shear cement * st in
  x_material_of_moduli (calculated (join kc (join km kp))) k_eff mu_eff
    ((XFin 1 - cemented_sand_porosity) * (alpha * x_dens cement + (XFin 1 - alpha) * x_dens mineral)).

(** sandstone/constant_cement.py:10-59 *)
Definition x_constant_cement (ks kc kp : kind) (sand cement : xmaterial)
    (porosity contact_cement_porosity sand_porosity coordination_number shear_reduction : xnum) : res xmaterial :=
  let kd := join kc (join ks kp) in
  let* dense_packing := x_hashin_shtrikman_walpole kd cement sand (sand_porosity - contact_cement_porosity) "lower" in
  let* cc := x_contact_cement kc ks kp cement sand contact_cement_porosity sand_porosity shear_reduction coordination_number in
  let* r := x_div kp porosity contact_cement_porosity in
  x_hashin_shtrikman_walpole kd dense_packing cc (XFin 1 - r) "lower".

(** sandstone/patchy_cement.py:102-112; nan passes [np.clip]. *)
Definition x_patchy_weight (constant low up : xnum) : xnum :=
  let w := if xeqb up low then XFin 1 else (constant - low) / (up - low) in
  xmin (xmax w (XFin 0)) (XFin 1).

(** sandstone/patchy_cement.py:15-122 *)
Definition x_patchy_cement (ks kc kp : kind) (sand cement : xmaterial)
    (porosity contact_cement_porosity upper_bound_porosity pressure lower_bound_pressure
     critical_porosity shear_reduction friable_coordination_number cement_coordination_number : xnum) : res xmaterial :=
  let kd := calculated (join kc (join ks kp)) in
  let* dense_packing := x_hashin_shtrikman_walpole kd cement sand (critical_porosity - upper_bound_porosity) "lower" in
  let* friable := x_friable_sand kd kp dense_packing porosity critical_porosity pressure
                    friable_coordination_number shear_reduction in
  let* lower_bound := x_friable_sand kd kp dense_packing porosity critical_porosity lower_bound_pressure
                        friable_coordination_number shear_reduction in
  let* upper_bound := x_constant_cement ks kc kp sand cement porosity upper_bound_porosity critical_porosity
                        cement_coordination_number shear_reduction in
  let* contact := x_contact_cement kc ks kp cement sand contact_cement_porosity critical_porosity
                    shear_reduction cement_coordination_number in
  let* r := x_div kp porosity contact_cement_porosity in
  let* constant := x_hashin_shtrikman_walpole kd dense_packing contact (XFin 1 - r) "lower" in
  let wk := x_patchy_weight (x_bulk constant) (x_bulk lower_bound) (x_bulk upper_bound) in
  let wmu := x_patchy_weight (x_shear constant) (x_shear lower_bound) (x_shear upper_bound) in
  let cement_fraction := critical_porosity - contact_cement_porosity in
  let kps := x_bulk friable + wk * (x_bulk upper_bound - x_bulk friable) in
  let mups := x_shear friable + wmu * (x_shear upper_bound - x_shear friable) in
  let rps := (XFin 1 - porosity - cement_fraction) * x_dens sand + cement_fraction * x_dens cement in
  x_material_of_moduli kd kps mups rps.
