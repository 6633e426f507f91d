(** The warnings the program writes to standard error.  Every calculation that
    can warn appears a second time here, with the warnings it gives on the way
    (also before an error).  NumPy's own warnings about floating point are left
    out. *)
From Coq Require Import String List ZArith Bool.
From Verif Require Import Base MaterialModel FluidModel BatzleWangModel ConfigModel FluidsModel RowModel.
Import ListNotations.
Open Scope R_scope.

(** oil_properties.py:462-465, water_properties.py:70-75 (the text has the
    pressure), config/dry_rock.py:78-82. *)
Inductive warning : Type :=
  | BelowBubblePoint
  | WaterPressure (megapascal : R)
  | PressureDependencies
  | DepthTrends.
Definition warning_dec (a b : warning) : {a = b} + {a <> b}.
Proof. decide equality. apply Req_EM_T. Defined.

(** A calculation with its warnings. *)
Definition logged (A : Type) : Type := list warning * res A.
Definition quiet {A} (r : res A) : logged A := ([], r).
Definition warn (b : bool) (w : warning) : logged unit := (if b then [w] else [], Ok tt).
Definition lbind {A B} (x : logged A) (k : A -> logged B) : logged B :=
  match x with
  | (w, Err e) => (w, Err e)
  | (w, Ok a) => let '(w', r) := k a in (w ++ w', r)
  end.
Notation "'let!' x := e 'in' k" := (lbind e (fun x => k)) (at level 200, x pattern, right associativity).

(** What is printed.  [warnings.warn] with Python's own filters shows a text
    once for each place in the code; __main__.py:23-25 and 347 only change how
    it looks. *)
Fixpoint shown (seen l : list warning) : list warning :=
  match l with
  | [] => []
  | w :: l' => if in_dec warning_dec w seen then shown seen l' else w :: shown (w :: seen) l'
  end.
Definition printed (l : list warning) : list warning := shown [] l.

(* ------------------------------------------------------------------ *)
(** ** material/batzle_wang *)

(** The condition oil_properties.py:458-461 with lines 263-267.  A negative
    ratio has a complex power; NumPy compares by real part, then imaginary part,
    which is positive. *)
Definition below_bubble_point (temperature pressure reference_density gas_oil_ratio gas_gravity : R) : res bool :=
  let* ratio := py_div gas_oil_ratio gas_gravity in
  let* q := py_div 4072 reference_density in
  if Rlt_dec ratio 0 then
    Ok (if Rle_dec pressure (244697939134 / 10 ^ 4 * (Rpower (- ratio) (83 / 100) * cos (83 / 100 * PI))
                             / exp (q - 377 / 100000 * temperature)) then true else false)
  else
    let* b := oil_bubble_point reference_density gas_oil_ratio gas_gravity temperature in
    Ok (ltb pressure b).

(** oil_properties.py:448-482 *)
Definition l_live_oil (temperature pressure reference_density gas_oil_ratio gas_gravity : R) : logged material :=
  let! b := quiet (below_bubble_point temperature pressure reference_density gas_oil_ratio gas_gravity) in
  let! _ := warn b BelowBubblePoint in
  quiet (let* d := live_oil_density temperature (pressure * (1 / 10 ^ 6)) (reference_density / 1000)
                     gas_oil_ratio gas_gravity in
         let* v := live_oil_primary_velocity temperature (pressure * (1 / 10 ^ 6)) (reference_density / 1000)
                     gas_oil_ratio gas_gravity in
         fluid_of_velocity (d * 1000) v).

(** oil_properties.py:485-523: live oil comes first. *)
Definition l_oil (temperature pressure reference_density gas_oil_ratio gas_gravity : R) : logged material :=
  let! loil := l_live_oil temperature pressure reference_density gas_oil_ratio gas_gravity in
  quiet (let* doil := dead_oil temperature pressure reference_density in
         let w := triangular_window gas_oil_ratio in
         fluid_of_velocity (dens doil * w + (1 - w) * dens loil) (vp doil * w + (1 - w) * vp loil)).

(** water_properties.py:62-83 *)
Definition l_water_primary_velocity (temperature pressure : R) : logged R :=
  let! _ := warn (ltb 100 pressure) (WaterPressure pressure) in
  quiet (water_primary_velocity temperature pressure).

(** brine_properties.py:129-154; the water velocity is asked for first. *)
Definition l_brine_primary_velocity (temperature pressure salinity : R) : logged R :=
  let! _ := l_water_primary_velocity temperature pressure in
  quiet (brine_primary_velocity temperature pressure salinity).

(** brine_properties.py:157-169 *)
Definition l_brine (temperature pressure salinity : R) : logged material :=
  let! d := quiet (brine_density temperature (pressure * (1 / 10 ^ 6)) (salinity * (1 / 10 ^ 6))) in
  let! v := l_brine_primary_velocity temperature (pressure * (1 / 10 ^ 6)) (salinity * (1 / 10 ^ 6)) in
  quiet (fluid_of_velocity (d * 1000) v).

(** water_properties.py:86-95 *)
Definition l_water (temperature pressure : R) : logged material :=
  let! d := quiet (water_density temperature pressure) in
  let! v := l_water_primary_velocity temperature pressure in
  quiet (fluid_of_velocity d v).

(* ------------------------------------------------------------------ *)
(** ** Tables *)

(** [np.vectorize]: the rows in order, up to the first error. *)
Fixpoint l_sequence {A B} (f : A -> logged B) (l : list A) : logged (list B) :=
  match l with
  | [] => quiet (Ok [])
  | x :: l' => let! y := f x in let! ys := l_sequence f l' in quiet (Ok (y :: ys))
  end.
Definition l_amap {A B} (f : A -> logged B) (a : arr A) : logged (arr B) :=
  match a with
  | Sc x => let! y := f x in quiet (Ok (Sc y))
  | Vec l => let! l' := l_sequence f l in quiet (Ok (Vec l'))
  end.

(** material.py:76-101 *)
Definition l_vectorize_material {X} (f : X -> logged material) (a : arr X) : logged bmat :=
  let! ms := l_amap f a in
  quiet match ms with
        | Sc m => Ok (unpack (Sc m))
        | Vec l => bmat_of_velocities (Vec (map dens l)) (Vec (map vp l)) (Vec (map vs l))
        end.

(** fluid_model_providers.py:10-61, material_type.py:29-118 *)
Definition l_fluid_as_material (co2 : equation_of_state) (p : provider) (f : bfluid_type)
    (temperature pressure : arr R) : logged (bmat * arr R) :=
  match f, p with
  | BOil r rg g, BatzleWang =>
      let! m := l_vectorize_material
                  (fun x => l_oil (fst (fst (fst (fst x)))) (snd (fst (fst (fst x)))) (snd (fst (fst x)))
                                  (snd (fst x)) (snd x))
                  (zip5 temperature pressure r rg g) in
      quiet (Ok (m, pressure))
  | BBrine s, BatzleWang =>
      let! m := l_vectorize_material (fun x => l_brine (fst (fst x)) (snd (fst x)) (snd x))
                  (zip3 temperature pressure s) in
      quiet (Ok (m, pressure))
  | _, _ => quiet (b_fluid_as_material co2 p f temperature pressure)
  end.

(** fluids.py:88-95 *)
Fixpoint l_as_materials (co2 : equation_of_state) (p : provider) (temperature pressure : arr R)
    (cs : list bconstituent) : logged (list bmat) :=
  match cs with
  | [] => quiet (Ok [])
  | c :: cs' =>
      let p' := match bc_fluid_model c with None => p | Some q => q end in
      let! mp := l_fluid_as_material co2 p' (bc_material c) temperature pressure in
      let! ms := l_as_materials co2 p temperature (snd mp) cs' in
      quiet (Ok (fst mp :: ms))
  end.

(** fluids.py:83-116 *)
Definition l_as_mixture (co2 : equation_of_state) (f : bfluids) (pressure : arr R) : logged bmat :=
  let! materials := l_as_materials co2 (bf_fluid_model f) (bf_temperature f) pressure (bf_constituents f) in
  let fractions := map bc_fraction (bf_constituents f) in
  quiet match bf_mix_method f with
        | Wood => b_wood materials fractions
        | Brie =>
            let index_of_gas := sorted_desc (bf_brie_gases f) in
            let* g := pop_all index_of_gas materials in
            let* s := pop_all index_of_gas fractions in
            b_brie (snd g) (snd s) (fst g) (fst s) (bf_brie_constant f)
        end.

(** config/dry_rock.py:67-83: run by pydantic for the section of the dry rock,
    whether or not other sections are refused. *)
Definition is_pressure_dependency (a : badjustment) : bool :=
  match a with BPressureDependency _ => true | BDepthTrend _ => false end.
Definition is_depth_trend (a : badjustment) : bool := negb (is_pressure_dependency a).
Definition duplicate_adjustments (l : list badjustment) : list warning :=
  (if (1 <? length (filter is_pressure_dependency l))%nat then [PressureDependencies] else []) ++
  (if (1 <? length (filter is_depth_trend l))%nat then [DepthTrends] else []).

(** __main__.py:42-66 and the construction of Input. *)
Definition l_calculate_results (co2 : equation_of_state) (inp : binput) : logged boutput :=
  let! mf := (duplicate_adjustments (bdr_adjustments (bi_dry_rock inp)),
              let* minerals := b_minerals (bi_minerals inp) in
              let* fluids := b_complete_fluids (bi_fluids inp) (bi_fluid_fractions inp) in
              let* _ := b_check_dry_rock (bi_dry_rock inp) in
              Ok (minerals, fluids)) in
  let! mp := quiet (let* mixed_mineral := b_minerals_as_mixture (fst mf) in
                    let* fluid_pressure := match bp_fluid (bi_pressure inp) with None => Err TypeError | Some p => Ok p end in
                    Ok (mixed_mineral, fluid_pressure)) in
  let! mixed_fluid := l_as_mixture co2 (snd mf) (snd mp) in
  quiet (let* dry := b_dry_rock_material (bi_dry_rock inp) (fst mp) (bi_pressure inp) in
         let* dense_packing := b_nonporous (bi_dry_rock inp) (fst mp) in
         let* sat := b_fluid_substitution dry dense_packing mixed_fluid (bdr_porosity (bi_dry_rock inp)) in
         Ok (mkBOutput (b_bulk sat) (b_bulk (fst mp)) (b_bulk dry) (b_shear sat) (b_dens sat)
               (b_bulk dense_packing))).
