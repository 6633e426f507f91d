(** Model of a calculation over a whole table: the same functions as in the
    other models, but on values that are either constants of the configuration
    or columns of the data file.

    A value is a NumPy array of shape () ([Sc]) or of shape (n,) ([Vec]); all
    columns of a table have the same length.  Broadcasting, [np.any] and
    [np.vectorize] act as in NumPy.  Every function below is written out as in
    the code: a guard looks at all rows before the next line is executed. *)
From Coq Require Import String List ZArith.
From Verif Require Import Base MaterialModel HashinShtrikmanModel MineralsModel FluidModel
  SandstoneModel ConfigModel BatzleWangModel FluidsModel.
Import ListNotations.
Open Scope R_scope.

Inductive arr (A : Type) : Type := Sc (a : A) | Vec (l : list A).
Arguments Sc {A} a.
Arguments Vec {A} l.

(** The operands of an element-wise operation, after broadcasting. *)
Definition zip {A B} (a : arr A) (b : arr B) : arr (A * B) :=
  match a, b with
  | Sc x, Sc y => Sc (x, y)
  | Sc x, Vec l => Vec (map (fun y => (x, y)) l)
  | Vec l, Sc y => Vec (map (fun x => (x, y)) l)
  | Vec l, Vec l' => Vec (combine l l')
  end.
Definition zip3 {A B C} (a : arr A) (b : arr B) (c : arr C) := zip (zip a b) c.
Definition zip4 {A B C D} (a : arr A) (b : arr B) (c : arr C) (d : arr D) := zip (zip3 a b c) d.
Definition zip5 {A B C D E} (a : arr A) (b : arr B) (c : arr C) (d : arr D) (e : arr E) := zip (zip4 a b c d) e.
Definition zip6 {A B C D E F} (a : arr A) (b : arr B) (c : arr C) (d : arr D) (e : arr E) (f : arr F) :=
  zip (zip5 a b c d e) f.

(** Element-wise operation that cannot fail. *)
Definition pmap {A B} (f : A -> B) (a : arr A) : arr B :=
  match a with Sc x => Sc (f x) | Vec l => Vec (map f l) end.

(** Element-wise operation or [np.vectorize]d function (float_vectorize.py:4-5). *)
Definition amap {A B} (f : A -> res B) (a : arr A) : res (arr B) :=
  match a with
  | Sc x => let* y := f x in Ok (Sc y)
  | Vec l => let* l' := sequence (map f l) in Ok (Vec l')
  end.

Definition any {A} (p : A -> bool) (a : arr A) : bool :=
  match a with Sc x => p x | Vec l => existsb p l end.

Definition is_vec {A} (a : arr A) : bool := match a with Sc _ => false | Vec _ => true end.

(** [if b: raise e] *)
Definition guard (b : bool) (e : exn) : res unit := if b then Err e else Ok tt.

Definition ltb (a b : R) : bool := if Rlt_dec a b then true else false.
Definition leb (a b : R) : bool := if Rle_dec a b then true else false.

(** Python's [sum] of arrays. *)
Fixpoint asum (l : list (arr R)) : arr R :=
  match l with
  | [] => Sc 0
  | a :: l' => pmap (fun x => fst x + snd x) (zip a (asum l'))
  end.

(* ------------------------------------------------------------------ *)
(** ** material/material.py *)

(** material.py:133-137 *)
Record bmat : Type := mkB {
  b_bulk : arr R;
  b_shear : arr R;
  b_dens : arr R;
  b_vp : arr R;
  b_vs : arr R
}.

(** material.py:140-151: the six guards. *)
Definition check_velocities (p s : arr R) : res unit :=
  let* _ := guard (any (fun p => ltb p 0) p) ValueError in
  let* _ := guard (any (fun s => ltb s 0) s) ValueError in
  guard (any (fun x => ltb (fst x) (sqrt (4 / 3) * snd x)) (zip p s)) ValueError.
Definition check_moduli (k mu d : arr R) : res unit :=
  let* _ := guard (any (fun d => ltb d 0) d) ValueError in
  let* _ := guard (any (fun k => ltb k 0) k) ValueError in
  guard (any (fun mu => ltb mu 0) mu) ValueError.

(** material.py:114-179, Material(bulk_modulus=k, shear_modulus=mu, density=d).
    As in MaterialModel a zero density is met first and the first three guards
    run before the velocities are derived. *)
Definition bmat_of_moduli (k mu d : arr R) : res bmat :=
  let* _ := guard (any (fun d => if Req_EM_T d 0 then true else false) d) NonFinite in
  let* _ := check_moduli k mu d in
  let* p := amap (fun x => calculate_primary_velocity (fst (fst x)) (snd (fst x)) (snd x)) (zip3 k mu d) in
  let* s := amap (fun x => calculate_secondary_velocity (fst x) (snd x)) (zip mu d) in
  let* _ := check_velocities p s in
  Ok (mkB k mu d p s).

(** The same, Material(density=d, primary_velocity=p, secondary_velocity=s). *)
Definition bmat_of_velocities (d p s : arr R) : res bmat :=
  let mu := pmap (fun x => calculate_shear_modulus (fst x) (snd x)) (zip s d) in
  let k := pmap (fun x => calculate_bulk_modulus (fst (fst x)) (snd (fst x)) (snd x)) (zip3 p mu d) in
  let* _ := check_moduli k mu d in
  let* _ := check_velocities p s in
  Ok (mkB k mu d p s).

(** The Material objects of an array of materials, as one Material. *)
Definition unpack (a : arr material) : bmat :=
  mkB (pmap bulk a) (pmap shear a) (pmap dens a) (pmap vp a) (pmap vs a).

(** material.py:76-101.  A single material is returned as it is, a vector of
    materials is put together again from densities and velocities. *)
Definition vectorize_material {X} (f : X -> res material) (a : arr X) : res bmat :=
  let* ms := amap f a in
  match ms with
  | Sc m => Ok (unpack (Sc m))
  | Vec l => bmat_of_velocities (Vec (map dens l)) (Vec (map vp l)) (Vec (map vs l))
  end.

(** material.py:181-192 *)
Definition b_poisson_ratio (m : bmat) : res (arr R) :=
  amap (fun x => np_div (3 * fst x - 2 * snd x) (2 * (3 * fst x + snd x))) (zip (b_bulk m) (b_shear m)).

(** material.py:194-203 *)
Definition b_primary_wave_modulus (m : bmat) : arr R :=
  pmap (fun x => fst x + 4 / 3 * snd x) (zip (b_bulk m) (b_shear m)).

(** config/material_type.py:18-30 (only [set_defaults] runs), given moduli. *)
Definition barbitrary (k mu d : arr R) : res bmat :=
  let* p := amap (fun x => calculate_primary_velocity (fst (fst x)) (snd (fst x)) (snd x)) (zip3 k mu d) in
  let* s := amap (fun x => calculate_secondary_velocity (fst x) (snd x)) (zip mu d) in
  Ok (mkB k mu d p s).

(* ------------------------------------------------------------------ *)
(** ** material/hashin_shtrikman.py *)

(** hashin_shtrikman.py:21-43 *)
Definition b_check_is_ratio (ratio : arr R) : res unit :=
  let* _ := guard (any (fun r => ltb (1 + 1 / 10 ^ 5) r) ratio) ValueError in
  guard (any (fun r => ltb r (0 - 1 / 10 ^ 5)) ratio) ValueError.

(** hashin_shtrikman.py:130-200 with bound="lower" (no caller in the pipeline
    passes another one). *)
Definition b_walpole (m1 m2 : bmat) (ratio : arr R) : res bmat :=
  let* _ := b_check_is_ratio ratio in
  let ratio2 := pmap (fun r => 1 - r) ratio in
  let km := pmap (fun x => Rmin (fst x) (snd x)) (zip (b_bulk m1) (b_bulk m2)) in
  let mum := pmap (fun x => Rmin (fst x) (snd x)) (zip (b_shear m1) (b_shear m2)) in
  let d := pmap (fun x => calc_density (fst (fst (fst x))) (snd (fst (fst x))) (snd (fst x)) (snd x))
             (zip4 (b_dens m1) (b_dens m2) ratio ratio2) in
  let* k := amap (fun x => calc_bulk_modulus (fst (fst (fst (fst x)))) (snd (fst (fst (fst x))))
                             (snd (fst (fst x))) (snd (fst x)) (snd x))
              (zip5 (b_bulk m1) (b_bulk m2) mum ratio ratio2) in
  let* mu := amap (fun x => calc_shear_modulus (fst (fst (fst (fst (fst x))))) (snd (fst (fst (fst (fst x)))))
                              (snd (fst (fst (fst x)))) (snd (fst (fst x))) (snd (fst x)) (snd x))
               (zip6 (b_shear m1) (b_shear m2) km mum ratio ratio2) in
  bmat_of_moduli k mu d.

(* ------------------------------------------------------------------ *)
(** ** config/constituent.py, config/minerals.py *)

(** constituent.py:49-57 *)
Definition b_fraction_is_ratio (v : option (arr R)) : res unit :=
  match v with
  | None => Ok tt
  | Some v =>
      let* _ := guard (any (fun x => ltb x (- (1 / 10 ^ 5))) v) ValueError in
      guard (any (fun x => ltb (1 + 1 / 10 ^ 5) x) v) ValueError
  end.

Fixpoint b_sum_given (fs : list (option (arr R))) : arr R :=
  match fs with
  | [] => Sc 0
  | Some a :: fs' => pmap (fun x => fst x + snd x) (zip a (b_sum_given fs'))
  | None :: fs' => b_sum_given fs'
  end.

Fixpoint missing {A} (fs : list (option A)) : nat :=
  match fs with
  | [] => 0
  | Some _ :: fs' => missing fs'
  | None :: fs' => S (missing fs')
  end.

Definition completed (rest : arr R) (o : option (arr R)) : arr R :=
  match o with Some a => a | None => rest end.

(** constituent.py:70-89 *)
Definition b_fix_one_fraction (fs : list (option (arr R))) : res (list (arr R)) :=
  let sum_rest := b_sum_given fs in
  let* _ := guard (any (fun s => ltb (1 + 1 / 10 ^ 5) s) sum_rest) ValueError in
  let rest := pmap (fun s => 1 - s) sum_rest in
  let* _ := match missing fs with
            | 0%nat => Ok tt
            | 1%nat => b_fraction_is_ratio (Some rest)
            | _ => Err ValueError
            end in
  Ok (map (completed rest) fs).

(** Run one check per element of a list. *)
Fixpoint each {A} (f : A -> res unit) (l : list A) : res unit :=
  match l with
  | [] => Ok tt
  | a :: l' => let* _ := f a in each f l'
  end.

(** minerals.py:29, 47-50 *)
Definition b_minerals (cs : list (bmat * option (arr R))) : res (list (bmat * arr R)) :=
  let* _ := guard (match cs with [] => true | _ => false end) ValueError in
  let* _ := each (fun c => b_fraction_is_ratio (snd c)) cs in
  let* fs := b_fix_one_fraction (map snd cs) in
  let* _ := guard (any (fun s => negb (isclose_one s)) (asum fs)) ValueError in
  Ok (combine (map fst cs) fs).

(** minerals.py:67-76 *)
Definition b_mix_minerals (cur next : bmat * arr R) : res (bmat * arr R) :=
  let sub_total := pmap (fun x => fst x + snd x) (zip (snd cur) (snd next)) in
  let* fraction := amap (fun x => part_of_total (fst x) (snd x)) (zip (snd cur) sub_total) in
  let* new_mix := b_walpole (fst cur) (fst next) fraction in
  let* wrapped := barbitrary (b_bulk new_mix) (b_shear new_mix) (b_dens new_mix) in
  let* _ := b_fraction_is_ratio (Some sub_total) in
  Ok (wrapped, sub_total).

Fixpoint b_mix_loop (cur : bmat * arr R) (rest : list (bmat * arr R)) : res (bmat * arr R) :=
  match rest with
  | [] => Ok cur
  | next :: rest' => let* cur' := b_mix_minerals cur next in b_mix_loop cur' rest'
  end.

(** minerals.py:52-77 *)
Definition b_minerals_as_mixture (cs : list (bmat * arr R)) : res bmat :=
  match cs with
  | [] => Err ValueError
  | first :: rest => let* r := b_mix_loop first rest in Ok (fst r)
  end.

(* ------------------------------------------------------------------ *)
(** ** material/fluid.py *)

(** fluid.py:12-16; the shear modulus is the integer 0. *)
Definition b_fluid (k d : arr R) : res bmat := bmat_of_moduli k (Sc 0) d.

(** fluid.py:19-25 *)
Definition b_sum_saturations_to_one (saturations : list (arr R)) : list (arr R) :=
  let total := asum saturations in
  let adjusted := pmap (fun t => Rmax t (1 / 10 ^ 15)) total in
  map (fun s => pmap (fun x => (if Rlt_dec 0 (fst (fst x)) then snd (fst x) else 1 / 10 ^ 15) / snd x)
                  (zip3 total s adjusted)) saturations.

(** fluid.py:28-31 *)
Definition b_mix_densities (fluids : list bmat) (saturations : list (arr R)) : arr R :=
  asum (map (fun fs => pmap (fun x => fst x * snd x) (zip (b_dens (fst fs)) (snd fs))) (combine fluids saturations)).

(** Sum of fallible terms. *)
Fixpoint asum_res (l : list (res (arr R))) : res (arr R) :=
  match l with
  | [] => Ok (Sc 0)
  | r :: l' =>
      let* a := r in
      let* s := asum_res l' in
      Ok (pmap (fun x => fst x + snd x) (zip a s))
  end.

(** fluid.py:34-35 *)
Definition b_mix_bulk_moduli (fluids : list bmat) (saturations : list (arr R)) : res (arr R) :=
  let l := combine saturations fluids in
  let* _ := guard (match l with [] => true | _ => false end) ZeroDivisionError in
  let* t := asum_res (map (fun sf => amap (fun x => np_div (fst x) (snd x)) (zip (fst sf) (b_bulk (snd sf)))) l) in
  amap (fun t => np_div 1 t) t.

(** fluid.py:38-52 *)
Definition b_wood (fluids : list bmat) (saturations : list (arr R)) : res bmat :=
  let saturations := b_sum_saturations_to_one saturations in
  let* k := b_mix_bulk_moduli fluids saturations in
  b_fluid k (b_mix_densities fluids saturations).

(** fluid.py:55-96 *)
Definition b_brie (fluids : list bmat) (fluid_saturations : list (arr R))
    (gases : list bmat) (gas_saturations : list (arr R)) (exponent : R) : res bmat :=
  let* _ := guard (negb (Nat.eqb (length fluids) (length fluid_saturations))) ValueError in
  let* _ := guard (negb (Nat.eqb (length gases) (length gas_saturations))) ValueError in
  match fluids, gases with
  | [], [] => Err ValueError
  | _ :: _, [] => b_wood fluids fluid_saturations
  | [], _ :: _ => b_wood gases gas_saturations
  | _ :: _, _ :: _ =>
      let* liquid := b_wood fluids fluid_saturations in
      let* gas := b_wood gases gas_saturations in
      let total_fluid := asum fluid_saturations in
      let* w := amap (fun t => np_pow t exponent) total_fluid in
      let bulk_mix := pmap (fun x => (fst (fst x) - snd (fst x)) * snd x + snd (fst x))
                        (zip3 (b_bulk liquid) (b_bulk gas) w) in
      let density_mix := b_mix_densities [liquid; gas] [total_fluid; pmap (fun t => 1 - t) total_fluid] in
      b_fluid bulk_mix density_mix
  end.

(** fluid.py:99-154 *)
Definition b_fluid_substitution (dry_rock mineral fluid : bmat) (phi : arr R) : res bmat :=
  let* k := amap (fun x => gassman_equation (fst (fst (fst x))) (snd (fst (fst x))) (snd (fst x)) (snd x))
              (zip4 (b_bulk dry_rock) (b_bulk mineral) (b_bulk fluid) phi) in
  bmat_of_moduli k (b_shear dry_rock)
    (pmap (fun x => fst (fst x) + snd (fst x) * snd x) (zip3 (b_dens dry_rock) phi (b_dens fluid))).

(* ------------------------------------------------------------------ *)
(** ** config/fluids.py, config/fluid_model_providers.py *)

(** config/material_type.py:121-128 *)
Inductive bfluid_type : Type :=
  | BArbitrary (m : bmat)
  | BOil (reference_density gas_oil_ratio gas_gravity : arr R)
  | BGas (gas_gravity : arr R)
  | BBrine (salinity : arr R)
  | BCondensate (reference_density gas_oil_ratio gas_gravity : arr R)
  | BCarbonDioxide (interpolate_density : bool).

(** The equation of state for carbon dioxide works row by row (its density is
    float_vectorized, span_wagner/carbon_dioxide.py:330). *)
Definition b_eos (co2 : equation_of_state) (temperature pressure : arr R) (i : bool) : res bmat :=
  let* a := amap (fun x => co2 (fst x) (snd x) i) (zip temperature pressure) in
  Ok (unpack a).

(** fluid_model_providers.py:10-61, material_type.py:29-118; the second part
    of the result is the fluid pressure afterwards. *)
Definition b_fluid_as_material (co2 : equation_of_state) (p : provider) (f : bfluid_type)
    (temperature pressure : arr R) : res (bmat * arr R) :=
  match f, p with
  | BArbitrary m, _ => Ok (m, pressure)
  | BOil r rg g, BatzleWang =>
      let* m := vectorize_material
                  (fun x => oil (fst (fst (fst (fst x)))) (snd (fst (fst (fst x)))) (snd (fst (fst x)))
                                (snd (fst x)) (snd x))
                  (zip5 temperature pressure r rg g) in
      Ok (m, pressure)
  | BGas g, BatzleWang =>
      let* m := vectorize_material (fun x => gas (fst (fst x)) (snd (fst x)) (snd x))
                  (zip3 temperature pressure g) in
      Ok (m, pressure)
  | BBrine s, BatzleWang =>
      let* m := vectorize_material (fun x => brine (fst (fst x)) (snd (fst x)) (snd x))
                  (zip3 temperature pressure s) in
      Ok (m, pressure)
  | BCarbonDioxide i, SpanWagner =>
      let temperature := pmap celsius_to_kelvin temperature in
      let pressure := pmap (fun p => p / 10 ^ 6) pressure in
      let* m := b_eos co2 temperature pressure i in
      Ok (m, pressure)
  | _, _ => Err NotImplementedError
  end.

(** constituent.py:20-47 *)
Record bconstituent : Type := mk_bconstituent {
  bc_material : bfluid_type;
  bc_fraction : arr R;
  bc_fluid_model : option provider
}.

(** fluids.py:88-95 *)
Fixpoint b_as_materials (co2 : equation_of_state) (p : provider) (temperature pressure : arr R)
    (cs : list bconstituent) : res (list bmat) :=
  match cs with
  | [] => Ok []
  | c :: cs' =>
      let p' := match bc_fluid_model c with None => p | Some q => q end in
      let* mp := b_fluid_as_material co2 p' (bc_material c) temperature pressure in
      let* ms := b_as_materials co2 p temperature (snd mp) cs' in
      Ok (fst mp :: ms)
  end.

Record bfluids : Type := mk_bfluids {
  bf_temperature : arr R;
  bf_constituents : list bconstituent;
  bf_mix_method : mix_method;
  bf_brie_constant : R;
  bf_brie_gases : list Z;
  bf_fluid_model : provider
}.

(** fluids.py:83-116 *)
Definition b_as_mixture (co2 : equation_of_state) (f : bfluids) (pressure : arr R) : res bmat :=
  let* materials := b_as_materials co2 (bf_fluid_model f) (bf_temperature f) pressure (bf_constituents f) in
  let fractions := map bc_fraction (bf_constituents f) in
  match bf_mix_method f with
  | Wood => b_wood materials fractions
  | Brie =>
      let index_of_gas := sorted_desc (bf_brie_gases f) in
      let* g := pop_all index_of_gas materials in
      let* s := pop_all index_of_gas fractions in
      b_brie (snd g) (snd s) (fst g) (fst s) (bf_brie_constant f)
  end.

(* ------------------------------------------------------------------ *)
(** ** material/sandstone *)

(** hertz_mindlin.py:11-56 *)
Definition b_hertz_mindlin (mineral : bmat)
    (porosity pressure shear_reduction coordination_number : arr R) : res bmat :=
  let* v := b_poisson_ratio mineral in
  let mu := b_shear mineral in
  let n := coordination_number in
  let phi := porosity in
  let* q := amap (fun '(v, p, n, phi, mu) => np_div (3 * PI * (1 - v) * p) (2 * n * (1 - phi) * mu))
              (zip5 v pressure n phi mu) in
  let* a := amap (fun q => np_pow q (1 / 3)) q in
  let* sn := amap (fun '(a, mu, v) => np_div (4 * a * mu) (1 - v)) (zip3 a mu v) in
  let* st := amap (fun '(a, mu, v) => np_div (8 * a * mu) (2 - v)) (zip3 a mu v) in
  let k_eff := pmap (fun '(n, phi, sn) => n * (1 - phi) / (12 * PI) * sn) (zip3 n phi sn) in
  let mu_eff := pmap (fun '(n, phi, sn, st, sr) => n * (1 - phi) / (20 * PI) * (sn + 15 / 10 * st * sr))
                  (zip5 n phi sn st shear_reduction) in
  bmat_of_moduli k_eff mu_eff (pmap (fun '(d, phi) => d * (1 - phi)) (zip (b_dens mineral) porosity)).

(** friable_sand.py:10-51 *)
Definition b_friable_sand (mineral : bmat)
    (porosity critical_porosity effective_pressure coordination_number shear_reduction : arr R) : res bmat :=
  let* critical_mineral :=
    b_hertz_mindlin mineral critical_porosity effective_pressure shear_reduction coordination_number in
  let* r := amap (fun '(a, b) => np_div a b) (zip porosity critical_porosity) in
  b_walpole mineral critical_mineral (pmap (fun r => 1 - r) r).

(** contact_cement.py:11-43; no guards, so the rows can be done one by one. *)
Definition b_shear_stiffness (cement_mu grain_mu grain_poisson radius_ratio : arr R) : res (arr R) :=
  amap (fun '(a, b, c, d) => shear_stiffness a b c d) (zip4 cement_mu grain_mu grain_poisson radius_ratio).

(** contact_cement.py:46-75 *)
Definition b_normal_stiffness (grain_poisson cement_poisson cement_mu grain_mu radius_ratio : arr R)
    : res (arr R) :=
  amap (fun '(a, b, c, d, e) => normal_stiffness a b c d e)
    (zip5 grain_poisson cement_poisson cement_mu grain_mu radius_ratio).

(** contact_cement.py:87-96 and 135-144 *)
Definition b_check_porosities (sand cemented : arr R) : res unit :=
  let* _ := guard (any (fun x => ltb 1 x) sand) ValueError in
  let* _ := guard (any (fun x => ltb x 0) sand) ValueError in
  let* _ := guard (any (fun x => ltb 1 x) cemented) ValueError in
  let* _ := guard (any (fun x => ltb x 0) cemented) ValueError in
  guard (any (fun '(a, b) => ltb a b) (zip sand cemented)) ValueError.

(** contact_cement.py:78-101 *)
Definition b_cement_radius_ratio (cemented grain : arr R) : res (arr R) :=
  let* _ := b_check_porosities grain cemented in
  let* q := amap (fun '(g, c) => np_div (2 * (g - c)) (3 * (1 - g))) (zip grain cemented) in
  let* v := amap np_sqrt q in
  Ok (pmap (fun v => Rmin v (Rmax 0 1)) v).

(** contact_cement.py:104-177 *)
Definition b_contact_cement (cement mineral : bmat)
    (cemented sand_porosity shear_reduction coordination_number : arr R) : res bmat :=
  let* _ := b_check_porosities sand_porosity cemented in
  let* alpha := b_cement_radius_ratio cemented sand_porosity in
  let* nu := b_poisson_ratio mineral in
  let* st := b_shear_stiffness (b_shear cement) (b_shear mineral) nu alpha in
  let* nu_c := b_poisson_ratio cement in
  let* sn := b_normal_stiffness nu nu_c (b_shear cement) (b_shear mineral) alpha in
  let k_eff := pmap (fun '(n, phi, m, sn) => 1 / 6 * n * (1 - phi) * m * sn)
                 (zip4 coordination_number sand_porosity (b_primary_wave_modulus cement) sn) in
  let mu_eff := pmap (fun '(k, sr, n, phi, mu, st) => 3 / 5 * k + sr * (3 / 20) * n * (1 - phi) * mu * st)
                  (zip6 k_eff shear_reduction coordination_number sand_porosity (b_shear cement) st) in
  bmat_of_moduli k_eff mu_eff
    (pmap (fun '(c, a, dc, dm) => (1 - c) * (a * dc + (1 - a) * dm))
       (zip4 cemented alpha (b_dens cement) (b_dens mineral))).

(** constant_cement.py:10-59 *)
Definition b_constant_cement (sand cement : bmat)
    (porosity contact_cement_porosity sand_porosity coordination_number shear_reduction : arr R) : res bmat :=
  let* dense_packing :=
    b_walpole cement sand (pmap (fun '(a, b) => a - b) (zip sand_porosity contact_cement_porosity)) in
  let* cc := b_contact_cement cement sand contact_cement_porosity sand_porosity
               shear_reduction coordination_number in
  let* r := amap (fun '(a, b) => np_div a b) (zip porosity contact_cement_porosity) in
  b_walpole dense_packing cc (pmap (fun r => 1 - r) r).

(** patchy_cement.py:92-112: the weight has the shape of [constant]; the
    comparison [up == low] is used as a mask on all three.  A mask with more
    dimensions than the indexed array is an IndexError. *)
Definition b_patchy_weight (constant low up : arr R) : res (arr R) :=
  let mask_is_vec := orb (is_vec up) (is_vec low) in
  let* _ := guard (andb mask_is_vec
                     (negb (andb (is_vec constant) (andb (is_vec low) (is_vec up))))) ShapeError in
  Ok (pmap (fun '(c, l, u) => patchy_weight c l u) (zip3 constant low up)).

(** patchy_cement.py:15-122 *)
Definition b_patchy_cement (sand cement : bmat)
    (porosity contact_cement_porosity upper_bound_porosity pressure lower_bound_pressure
     critical_porosity shear_reduction friable_coordination_number cement_coordination_number : arr R)
    : res bmat :=
  let* dense_packing :=
    b_walpole cement sand (pmap (fun '(a, b) => a - b) (zip critical_porosity upper_bound_porosity)) in
  let* friable := b_friable_sand dense_packing porosity critical_porosity pressure
                    friable_coordination_number shear_reduction in
  let* lower_bound := b_friable_sand dense_packing porosity critical_porosity lower_bound_pressure
                        friable_coordination_number shear_reduction in
  let* upper_bound := b_constant_cement sand cement porosity upper_bound_porosity critical_porosity
                        cement_coordination_number shear_reduction in
  let* contact := b_contact_cement cement sand contact_cement_porosity critical_porosity
                    shear_reduction cement_coordination_number in
  let* r := amap (fun '(a, b) => np_div a b) (zip porosity contact_cement_porosity) in
  let* constant := b_walpole dense_packing contact (pmap (fun r => 1 - r) r) in
  let* wk := b_patchy_weight (b_bulk constant) (b_bulk lower_bound) (b_bulk upper_bound) in
  let* wmu := b_patchy_weight (b_shear constant) (b_shear lower_bound) (b_shear upper_bound) in
  let cement_fraction := pmap (fun '(a, b) => a - b) (zip critical_porosity contact_cement_porosity) in
  let kps := pmap (fun '(f, w, u) => f + w * (u - f)) (zip3 (b_bulk friable) wk (b_bulk upper_bound)) in
  let mups := pmap (fun '(f, w, u) => f + w * (u - f)) (zip3 (b_shear friable) wmu (b_shear upper_bound)) in
  let rps := pmap (fun '(phi, c, ds, dc) => (1 - phi - c) * ds + c * dc)
               (zip4 porosity cement_fraction (b_dens sand) (b_dens cement)) in
  bmat_of_moduli kps mups rps.

(* ------------------------------------------------------------------ *)
(** ** config/pressure.py *)

Record bpressure := mkBPressure {
  bp_overburden : arr R;
  bp_reference : arr R;
  bp_fluid : option (arr R);
  bp_max_effective : option (arr R);
  bp_rock : option (arr R) }.

(** [np.clip(x, None, m)] *)
Definition b_clip_above (x : arr R) (m : option (arr R)) : arr R :=
  match m with None => x | Some b => pmap (fun '(x, b) => Rmin x b) (zip x b) end.

(** config/pressure.py:46-54, 56-64 *)
Definition b_truncated_reference (p : bpressure) : arr R :=
  b_clip_above (pmap (fun '(a, b) => a - b) (zip (bp_overburden p) (bp_reference p))) (bp_max_effective p).
Definition b_truncated_rock (p : bpressure) : res (arr R) :=
  match bp_rock p with
  | None => Err TypeError
  | Some f => Ok (b_clip_above (pmap (fun '(a, b) => a - b) (zip (bp_overburden p) f)) (bp_max_effective p))
  end.

(* ------------------------------------------------------------------ *)
(** ** config/model.py.  Coefficients are plain numbers here, not columns. *)

(** material/material.py:17-73: [polyval2d] of single numbers, vectorized. *)
Definition fit_material (c : coefficients (list (list R))) (x : R * R * R * R) : res material :=
  let '(d, p, s, v) := x in
  let* a := fit_property d v (c_density c) in
  let* b := fit_property p v (c_primary c) in
  let* e := fit_property s v (c_secondary c) in
  if uses_moduli c then mat_of_moduli b e a else mat_of_velocities a b e.

Definition b_polyval_material (v : arr R) (m : bmat) (c : coefficients (list (list R))) : res bmat :=
  vectorize_material (fit_material c)
    (if uses_moduli c then zip4 (b_dens m) (b_bulk m) (b_shear m) v
     else zip4 (b_dens m) (b_vp m) (b_vs m) v).

(** config/model.py:209-228 *)
Record bfriable_model := mkBFriable {
  bfr_critical : arr R; bfr_shear_reduction : arr R; bfr_coordination : arr R }.
Definition b_make_friable (critical shear_reduction : arr R) (coordination : option (arr R)) : bfriable_model :=
  mkBFriable critical shear_reduction
    match coordination with None => pmap murphy_coordination_number critical | Some n => n end.

(** config/model.py:261-290 *)
Record bpatchy_model := mkBPatchy {
  bpa_cement : bmat; bpa_critical : arr R; bpa_cement_fraction : arr R; bpa_lower_pressure : arr R;
  bpa_upper_fraction : arr R; bpa_coordination : arr R; bpa_shear_reduction : arr R }.
Definition b_make_patchy (cement : bmat) (critical fraction lower upper : arr R)
    (coordination : option (arr R)) (shear_reduction : arr R) : bpatchy_model :=
  mkBPatchy cement critical fraction lower upper
    match coordination with None => pmap murphy_coordination_number critical | Some n => n end
    shear_reduction.

(** config/model.py:244-252 *)
Definition b_friable_material (f : bfriable_model) (p porosity : arr R) (mineral : bmat) : res bmat :=
  b_friable_sand mineral porosity (bfr_critical f) p (bfr_coordination f) (bfr_shear_reduction f).

(** config/model.py:322-334 *)
Definition b_patchy_material (q : bpatchy_model) (p porosity : arr R) (mineral : bmat) : res bmat :=
  b_patchy_cement mineral (bpa_cement q) porosity
    (pmap (fun '(a, b) => a - b) (zip (bpa_critical q) (bpa_cement_fraction q)))
    (pmap (fun '(a, b) => a - b) (zip (bpa_critical q) (bpa_upper_fraction q)))
    p (bpa_lower_pressure q) (bpa_critical q) (bpa_shear_reduction q) (bpa_coordination q) (Sc 9).

Inductive bdependency_model :=
  | BPolyfit (c : coefficients (list R))
  | BExpfit (c : coefficients (list R))
  | BLogfit (c : coefficients (list R))
  | BPowerfit (density bulk_ vp_over_vs : option (list R))
  | BFriable (f : bfriable_model)
  | BPatchy (q : bpatchy_model).

(** [np.vectorize(..., signature="()->(n)")] refuses arrays without elements
    (config/model.py:114-118, 132-136, 177-181). *)
Definition no_rows {A} (a : arr A) : bool := match a with Vec [] => true | _ => false end.

(** [np.transpose([m.density, m.bulk_modulus, m.shear_modulus])]
    (config/model.py:242, 320): a list of arrays of different shapes is not an
    array (NumPy 1.24 and later raise ValueError). *)
Definition stack_moduli (m : bmat) : res (arr (R * R * R)) :=
  let* _ := guard (negb (andb (Bool.eqb (is_vec (b_dens m)) (is_vec (b_bulk m)))
                              (Bool.eqb (is_vec (b_bulk m)) (is_vec (b_shear m))))) ShapeError in
  Ok (zip3 (b_dens m) (b_bulk m) (b_shear m)).

(** The [eval] methods (config/model.py:89-99, 112-118, 130-136, 175-181,
    240-242, 318-320): an array with three numbers per row. *)
Definition b_eval_model (md : bdependency_model) (p porosity : arr R) (mineral : bmat)
    : res (arr (R * R * R)) :=
  match md with
  | BPolyfit c =>
      let* rows := coefficient_rows (c_density c) (c_primary c) (c_secondary c) in
      amap (fun p => three (polyfit_row p) rows) p
  | BExpfit c =>
      let* rows := coefficient_rows (c_density c) (c_primary c) (c_secondary c) in
      let* _ := guard (no_rows p) ShapeError in
      amap (fun p => three (expfit_row p) rows) p
  | BLogfit c =>
      let* rows := coefficient_rows (c_density c) (c_primary c) (c_secondary c) in
      let* _ := guard (no_rows p) ShapeError in
      amap (fun p => three (logfit_row p) rows) p
  | BPowerfit d b v =>
      let* rows := coefficient_rows d b v in
      let* _ := guard (no_rows p) ShapeError in
      amap (fun p => three (powerfit_row p) rows) p
  | BFriable f => let* m := b_friable_material f p porosity mineral in stack_moduli m
  | BPatchy q => let* m := b_patchy_material q p porosity mineral in stack_moduli m
  end.

Definition b_model_uses_moduli (md : bdependency_model) : bool :=
  match md with
  | BPolyfit c | BExpfit c | BLogfit c => uses_moduli c
  | BPowerfit _ _ _ | BFriable _ | BPatchy _ => true
  end.

(** [np.abs(ref) <= 1e-20] for one row *)
Definition tiny_row (x : R * R * R) : bool :=
  let '(d, p, s) := x in orb (tiny_value d) (orb (tiny_value p) (tiny_value s)).

(** [np.transpose(eff / ref)] *)
Definition factors (eff ref : arr (R * R * R)) : arr R * arr R * arr R :=
  let x := zip eff ref in
  (pmap (fun '((a, _, _), (b, _, _)) => a / b) x,
   pmap (fun '((_, a, _), (_, b, _)) => a / b) x,
   pmap (fun '((_, _, a), (_, _, b)) => a / b) x).
(** [np.transpose(eff - ref)] *)
Definition differences (eff ref : arr (R * R * R)) : arr R * arr R * arr R :=
  let x := zip eff ref in
  (pmap (fun '((a, _, _), (b, _, _)) => a - b) x,
   pmap (fun '((_, a, _), (_, b, _)) => a - b) x,
   pmap (fun '((_, _, a), (_, _, b)) => a - b) x).

Definition times (a b : arr R) : arr R := pmap (fun '(x, y) => x * y) (zip a b).
Definition plus (a b : arr R) : arr R := pmap (fun '(x, y) => x + y) (zip a b).

(** config/model.py:31-55 *)
Definition b_generic_dependency (md : bdependency_model) (m : bmat) (p ref_p porosity : arr R)
    (mineral : bmat) : res bmat :=
  let* ref := b_eval_model md ref_p porosity mineral in
  let* eff := b_eval_model md p porosity mineral in
  let* _ := guard (any tiny_row ref) ValueError in
  let fd := fst (fst (factors eff ref)) in
  let fp := snd (fst (factors eff ref)) in
  let fs := snd (factors eff ref) in
  if b_model_uses_moduli md
  then bmat_of_moduli (times (b_bulk m) fp) (times (b_shear m) fs) (times (b_dens m) fd)
  else bmat_of_velocities (times (b_dens m) fd) (times (b_vp m) fp) (times (b_vs m) fs).

(** config/model.py:149-168 *)
Definition b_powerfit_dependency (md : bdependency_model) (m : bmat) (p ref_p porosity : arr R)
    (mineral : bmat) : res bmat :=
  let* ref := b_eval_model md ref_p porosity mineral in
  let* eff := b_eval_model md p porosity mineral in
  let dd := fst (fst (differences eff ref)) in
  let dp := snd (fst (differences eff ref)) in
  let ds := snd (differences eff ref) in
  let* ratio := amap (fun '(a, b) => np_div a b) (zip (b_vp m) (b_vs m)) in
  let vp_over_vs := plus ratio ds in
  let bmod := plus (b_bulk m) dp in
  let smod_reduction := pmap (fun x => x ^ 2 - 4 / 3) vp_over_vs in
  let* _ := guard (any (fun x => leb x (1 / 10 ^ 20)) smod_reduction) ValueError in
  bmat_of_moduli bmod (pmap (fun '(a, b) => a / b) (zip bmod smod_reduction)) (plus (b_dens m) dd).

Definition b_pressure_dependency (md : bdependency_model) (m : bmat) (p ref_p porosity : arr R)
    (mineral : bmat) : res bmat :=
  match md with
  | BPowerfit _ _ _ => b_powerfit_dependency md m p ref_p porosity mineral
  | _ => b_generic_dependency md m p ref_p porosity mineral
  end.

(* ------------------------------------------------------------------ *)
(** ** config/depth_trend.py, config/pressure_dependency.py, config/dry_rock.py *)

Record bdepth_trend := mkBDepth {
  bdt_depth : arr R;
  bdt_coefficients : coefficients (list (list R));
  bdt_reference : option (arr R);
  bdt_max : option (arr R) }.

(** config/depth_trend.py:36-42.  [result -= self.reference_depth] writes into
    [result], whose shape is that of [depth] and cannot grow. *)
Definition b_effective_depth (t : bdepth_trend) : res (arr R) :=
  match bdt_reference t with
  | None => Ok (bdt_depth t)
  | Some r =>
      let* _ := guard (andb (is_vec r) (negb (is_vec (bdt_depth t)))) ShapeError in
      Ok (pmap (fun '(a, b) => a - b) (zip (bdt_depth t) r))
  end.

Inductive badjustment :=
  | BDepthTrend (t : bdepth_trend)
  | BPressureDependency (md : bdependency_model).

(** config/pressure_dependency.py:31-48 *)
Definition b_adjust_pressure (md : bdependency_model) (m : bmat) (p : bpressure) (porosity : arr R)
    (mineral : bmat) : res bmat :=
  let* eff := b_truncated_rock p in
  let* eff' := match md with
               | BPowerfit _ _ _ => match bp_rock p with None => Err TypeError | Some x => Ok x end
               | _ => Ok eff
               end in
  b_pressure_dependency md m eff' (b_truncated_reference p) porosity mineral.

Definition b_adjust_one (a : badjustment) (m : bmat) (p : bpressure) (porosity : arr R)
    (mineral : bmat) : res bmat :=
  match a with
  | BDepthTrend t => let* d := b_effective_depth t in b_polyval_material d m (bdt_coefficients t)
  | BPressureDependency md => b_adjust_pressure md m p porosity mineral
  end.

Inductive brock_model :=
  | BRockPolyfit (c : coefficients (list (list R)))
  | BRockFriable (f : bfriable_model)
  | BRockPatchy (q : bpatchy_model).

Record bdry_rock := mkBDryRock {
  bdr_model : brock_model;
  bdr_porosity : arr R;
  bdr_adjustments : list badjustment }.

(** config/dry_rock.py:85-114: both validators. *)
Definition b_check_dry_rock (d : bdry_rock) : res unit :=
  let check critical :=
    guard (any (fun '(c, phi) => ltb c (phi + 1 / 10 ^ 5)) (zip critical (bdr_porosity d))) ValueError in
  match bdr_model d with
  | BRockPolyfit _ => Ok tt
  | BRockFriable f => check (bfr_critical f)
  | BRockPatchy q =>
      let* _ := guard (any (fun '(c, u, phi) => ltb (c - u) (phi - 1 / 10 ^ 5))
                         (zip3 (bpa_critical q) (bpa_upper_fraction q) (bdr_porosity d))) ValueError in
      check (bpa_critical q)
  end.

(** config/dry_rock.py:142-145 *)
Fixpoint b_adjust_material (l : list badjustment) (m : bmat) (p : bpressure) (porosity : arr R)
    (mineral : bmat) : res bmat :=
  match l with
  | [] => Ok m
  | a :: l' =>
      let* m' := b_adjust_one a m p porosity mineral in
      b_adjust_material l' m' p porosity mineral
  end.

(** config/dry_rock.py:151-155 *)
Definition b_material_from_model (d : bdry_rock) (effective_pressure : arr R) (mineral : bmat) : res bmat :=
  match bdr_model d with
  | BRockPolyfit c => b_polyval_material (bdr_porosity d) mineral c
  | BRockFriable f => b_friable_material f effective_pressure (bdr_porosity d) mineral
  | BRockPatchy q => b_patchy_material q effective_pressure (bdr_porosity d) mineral
  end.

(** config/dry_rock.py:147-149 *)
Definition b_dry_rock_material (d : bdry_rock) (mineral : bmat) (p : bpressure) : res bmat :=
  let* eff := b_truncated_rock p in
  let* m := b_material_from_model d eff mineral in
  b_adjust_material (bdr_adjustments d) m p (bdr_porosity d) mineral.

(** config/dry_rock.py:135-140 *)
Definition b_nonporous (d : bdry_rock) (mineral : bmat) : res bmat :=
  match bdr_model d with
  | BRockPatchy q => b_walpole (bpa_cement q) mineral (bpa_upper_fraction q)
  | _ => Ok mineral
  end.

(* ------------------------------------------------------------------ *)
(** ** __main__.py *)

(** config/input.py:49-54 once the columns are inserted.  [bi_fluids] has the
    fractions still to be completed. *)
Record binput : Type := mkBInput {
  bi_minerals : list (bmat * option (arr R));
  bi_fluids : bfluids;
  bi_fluid_fractions : list (option (arr R));
  bi_dry_rock : bdry_rock;
  bi_pressure : bpressure }.

(** The six columns of the result (__main__.py:57-64). *)
Record boutput : Type := mkBOutput {
  bo_ksat : arr R; bo_kmin : arr R; bo_kdry : arr R; bo_mysat : arr R; bo_rsat : arr R; bo_kmin_fls : arr R }.

(** Completing the fractions of the fluid constituents (fluids.py:63-64, 72-78). *)
Definition b_complete_fluids (f : bfluids) (fs : list (option (arr R))) : res bfluids :=
  let* _ := each b_fraction_is_ratio fs in
  let* _ := guard (match fs with [] => true | _ => false end) ValueError in
  let* _ := guard (any (fun s => ltb (1 + 1 / 10 ^ 5) s) (b_sum_given fs)) ValueError in
  let* fs' := b_fix_one_fraction fs in
  Ok (mk_bfluids (bf_temperature f)
        (map (fun cf => mk_bconstituent (bc_material (fst cf)) (snd cf) (bc_fluid_model (fst cf)))
           (combine (bf_constituents f) fs'))
        (bf_mix_method f) (bf_brie_constant f) (bf_brie_gases f) (bf_fluid_model f)).

(** __main__.py:42-66, after construction of Input (the validators of each
    section).  A configuration without any pore pressure fails in
    [pressure.fluid] or [truncated_rock]. *)
Definition b_calculate_results (co2 : equation_of_state) (inp : binput) : res boutput :=
  let* minerals := b_minerals (bi_minerals inp) in
  let* fluids := b_complete_fluids (bi_fluids inp) (bi_fluid_fractions inp) in
  let* _ := b_check_dry_rock (bi_dry_rock inp) in
  let* mixed_mineral := b_minerals_as_mixture minerals in
  let* fluid_pressure := match bp_fluid (bi_pressure inp) with None => Err TypeError | Some p => Ok p end in
  let* mixed_fluid := b_as_mixture co2 fluids fluid_pressure in
  let* dry := b_dry_rock_material (bi_dry_rock inp) mixed_mineral (bi_pressure inp) in
  let* dense_packing := b_nonporous (bi_dry_rock inp) mixed_mineral in
  let* sat := b_fluid_substitution dry dense_packing mixed_fluid (bdr_porosity (bi_dry_rock inp)) in
  Ok (mkBOutput (b_bulk sat) (b_bulk mixed_mineral) (b_bulk dry) (b_shear sat) (b_dens sat)
        (b_bulk dense_packing)).

(** One row of the data frame written (__main__.py:56-66); a constant is
    repeated for every row of the index. *)
Record output_row : Type := mkRow {
  r_ksat : R; r_kmin : R; r_kdry : R; r_mysat : R; r_rsat : R; r_kmin_fls : R }.

Definition expand {A} (n : nat) (a : arr A) : list A :=
  match a with Sc x => repeat x n | Vec l => l end.

Definition result_rows (n : nat) (o : boutput) : list output_row :=
  map (fun '(a, b, c, d, e, f) => mkRow a b c d e f)
    (combine (combine (combine (combine (combine (expand n (bo_ksat o)) (expand n (bo_kmin o)))
       (expand n (bo_kdry o))) (expand n (bo_mysat o))) (expand n (bo_rsat o))) (expand n (bo_kmin_fls o))).

Definition b_results (co2 : equation_of_state) (n : nat) (inp : binput) : res (list output_row) :=
  let* o := b_calculate_results co2 inp in
  Ok (result_rows n o).

(* ------------------------------------------------------------------ *)
(** ** One row, with the scalar models *)

(** config/input.py:49-54, all values being numbers. *)
Record row_input : Type := mkInput {
  i_minerals : list (material * option R);
  i_fluids : fluids;
  i_fluid_fractions : list (option R);
  i_dry_rock : dry_rock;
  i_pressure : pressure }.

(** fluids.py:63-64, 72-78 and constituent.py:49-57 *)
Definition complete_fluids (f : fluids) (fs : list (option R)) : res fluids :=
  let* fs := sequence (map fraction_is_ratio fs) in
  match fs with
  | [] => Err ValueError
  | _ =>
      if Rlt_dec (1 + 1 / 10 ^ 5) (sum_given fs) then Err ValueError
      else
        let* fs' := fix_one_fraction fs in
        Ok (mk_fluids (f_temperature f)
              (map (fun cf => mk_constituent (c_material (fst cf)) (snd cf) (c_fluid_model (fst cf)))
                 (combine (f_constituents f) fs'))
              (f_mix_method f) (f_brie_constant f) (f_brie_gases f) (f_fluid_model f))
  end.

(** config/dry_rock.py:85-114 on a finished dry rock section *)
Definition check_dry_rock (d : dry_rock) : res unit :=
  let i := match dr_model d with
           | RockPolyfit c => InPolyfit (Some c)
           | RockFriable f => InFriable f
           | RockPatchy q => InPatchy q
           end in
  let* _ := check_patchy_bound i (dr_porosity d) in
  check_critical i (dr_porosity d).

(** __main__.py:42-66 for one row *)
Definition calculate_row (co2 : equation_of_state) (inp : row_input) : res output_row :=
  let* ms := minerals (i_minerals inp) in
  let* fl := complete_fluids (i_fluids inp) (i_fluid_fractions inp) in
  let* _ := check_dry_rock (i_dry_rock inp) in
  let* mixed_mineral := minerals_as_mixture ms in
  let* fluid_pressure := match p_fluid (i_pressure inp) with None => Err TypeError | Some p => Ok p end in
  let* mixed_fluid := fst (as_mixture co2 fl fluid_pressure) in
  let* dry := dry_rock_material (i_dry_rock inp) mixed_mineral (i_pressure inp) in
  let* dense_packing := nonporous (i_dry_rock inp) mixed_mineral in
  let* sat := fluid_substitution dry dense_packing mixed_fluid (dr_porosity (i_dry_rock inp)) in
  Ok (mkRow (bulk sat) (bulk mixed_mineral) (bulk dry) (shear sat) (dens sat) (bulk dense_packing)).
