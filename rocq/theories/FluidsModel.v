(** Model of config/fluids.py, config/material_type.py,
    config/fluid_model_providers.py and Constituent.as_material
    (config/constituent.py).

    Temperatures, pressures and fractions are modelled for one row.  The
    fluid pressure is passed through as a state, because one provider
    changes it in place: [pressure.fluid] is always an ndarray
    (config/vector_type.py, config/pydantic_config.py), so the augmented
    assignment [pressure /= 1e6] writes into the array owned by the input. *)
From Coq Require Import String.
From Verif Require Import Base MaterialModel FluidModel MineralsModel BatzleWangModel.
Open Scope R_scope.

(** material_type.py:121-128, the union MaterialType.  [FArbitrary] holds the
    finished material (lines 26-30). *)
Inductive fluid_type : Type :=
  | FArbitrary (m : material)                                         (* lines 17-30 *)
  | FOil (reference_density gas_oil_ratio gas_gravity : R)            (* lines 33-52 *)
  | FGas (gas_gravity : R)                                            (* lines 55-66 *)
  | FBrine (salinity : R)                                             (* lines 69-80 *)
  | FCondensate (reference_density gas_oil_ratio gas_gravity : R)     (* lines 83-102 *)
  | FCarbonDioxide (interpolate_density : bool).                      (* lines 105-118 *)

(** The [type] attribute (material_type.py:24, 38, 72, 56, 88, 107). *)
Definition type_name (f : fluid_type) : string :=
  match f with
  | FArbitrary _ => "material"
  | FOil _ _ _ => "oil"
  | FGas _ => "gas"
  | FBrine _ => "brine"
  | FCondensate _ _ _ => "condensate"
  | FCarbonDioxide _ => "carbon_dioxide"
  end%string.

(** The providers shipped with the repository (fluid_model_providers.py:10-61,
    registered in pyproject.toml); third-party plugins are not modelled here. *)
Inductive provider : Type := BatzleWang | SpanWagner.

(** fluid_model_providers.py:83-90 with the two shipped entry points.  Other
    names are refused when the configuration is read (fluids.py:61,
    constituent.py:32, a Literal field). *)
Definition provider_named (name : string) : res provider :=
  if String.eqb name "default" then Ok BatzleWang
  else if String.eqb name "batzle_wang" then Ok BatzleWang
  else if String.eqb name "span_wagner" then Ok SpanWagner
  else Err ValueError.

(** The equation of state span_wagner.carbon_dioxide (absolute temperature,
    pressure in MPa, interpolate) is a parameter here. *)
Definition equation_of_state : Type := R -> R -> bool -> res material.

(** fluid_model_providers.py:52-61: returns the material and the fluid
    pressure afterwards (line 54 is an in-place division). *)
Definition span_wagner_carbon_dioxide (co2 : equation_of_state) (temperature pressure : R) (interpolate : bool)
  : res material * R :=
  let temperature := celsius_to_kelvin temperature in
  let pressure := pressure / 10 ^ 6 in
  (co2 temperature pressure interpolate, pressure).

(** material_type.py:29-30, 40-52, 60-66, 74-80, 90-102, 110-118 dispatched
    over fluid_model_providers.py:10-61. *)
Definition fluid_as_material (co2 : equation_of_state) (p : provider) (f : fluid_type) (temperature pressure : R)
  : res material * R :=
  match f, p with
  | FArbitrary m, _ => (Ok m, pressure)
  | FOil r rg g, BatzleWang => (oil temperature pressure r rg g, pressure)
  | FGas g, BatzleWang => (gas temperature pressure g, pressure)
  | FBrine s, BatzleWang => (brine temperature pressure s, pressure)
  | FCarbonDioxide i, SpanWagner => span_wagner_carbon_dioxide co2 temperature pressure i
  | _, _ => (Err NotImplementedError, pressure)
  end.

(** constituent.py:20-32 after reading: the material, its fraction and the
    optional fluid_model of its own. *)
Record constituent : Type := mk_constituent {
  c_material : fluid_type;
  c_fraction : R;
  c_fluid_model : option provider
}.

(** constituent.py:34-47 *)
Definition constituent_as_material (co2 : equation_of_state) (fluid_model_provider : provider)
    (c : constituent) (temperature pressure : R) : res material * R :=
  let fluid_model_provider :=
    match c_fluid_model c with None => fluid_model_provider | Some p => p end in
  fluid_as_material co2 fluid_model_provider (c_material c) temperature pressure.

(** The list comprehension fluids.py:88-95: every constituent sees the
    pressure array as the previous ones left it. *)
Fixpoint as_materials (co2 : equation_of_state) (p : provider) (temperature pressure : R)
    (cs : list constituent) : res (list material) * R :=
  match cs with
  | [] => (Ok [], pressure)
  | c :: cs' =>
      match constituent_as_material co2 p c temperature pressure with
      | (Err e, pressure') => (Err e, pressure')
      | (Ok m, pressure') =>
          match as_materials co2 p temperature pressure' cs' with
          | (Err e, pressure'') => (Err e, pressure'')
          | (Ok ms, pressure'') => (Ok (m :: ms), pressure'')
          end
      end
  end.

(** [list.pop(i)] with Python's negative indices. *)
Fixpoint pop_nat {A} (i : nat) (l : list A) : res (A * list A) :=
  match l, i with
  | [], _ => Err IndexError
  | x :: l', O => Ok (x, l')
  | x :: l', S i' => let* r := pop_nat i' l' in Ok (fst r, x :: snd r)
  end.
Definition py_pop {A} (i : Z) (l : list A) : res (A * list A) :=
  if (i <? 0)%Z then
    if (i + Z.of_nat (length l) <? 0)%Z then Err IndexError
    else pop_nat (Z.to_nat (i + Z.of_nat (length l))) l
  else pop_nat (Z.to_nat i) l.

(** [[l.pop(i) for i in idx]]: the popped elements and what is left. *)
Fixpoint pop_all {A} (idx : list Z) (l : list A) : res (list A * list A) :=
  match idx with
  | [] => Ok ([], l)
  | i :: idx' =>
      let* r := py_pop i l in
      let* r' := pop_all idx' (snd r) in
      Ok (fst r :: fst r', snd r')
  end.

(** [sorted(l, reverse=True)] *)
Fixpoint insert_desc (i : Z) (l : list Z) : list Z :=
  match l with
  | [] => [i]
  | j :: l' => if (j <? i)%Z then i :: j :: l' else j :: insert_desc i l'
  end.
Definition sorted_desc (l : list Z) : list Z := fold_right insert_desc [] l.

(** fluids.py:48-61, 63-70: the mix_method literals and the settings of a
    Fluids object once constructed. *)
Inductive mix_method : Type := Wood | Brie.
Record fluids : Type := mk_fluids {
  f_temperature : R;
  f_constituents : list constituent;
  f_mix_method : mix_method;
  f_brie_constant : R;
  f_brie_gases : list Z;
  f_fluid_model : provider
}.

(** fluids.py:83-116, the result and the fluid pressure afterwards. *)
Definition as_mixture (co2 : equation_of_state) (f : fluids) (pressure : R) : res material * R :=
  let (materials, pressure') :=
    as_materials co2 (f_fluid_model f) (f_temperature f) pressure (f_constituents f) in
  (let* materials := materials in
   let fractions := map c_fraction (f_constituents f) in
   match f_mix_method f with
   | Wood => wood_fluid_mixing materials fractions
   | Brie =>
       let index_of_gas := sorted_desc (f_brie_gases f) in
       let* g := pop_all index_of_gas materials in
       let* s := pop_all index_of_gas fractions in
       brie_fluid_mixing (snd g) (snd s) (fst g) (fst s) (f_brie_constant f)
   end, pressure').

(** A constituent as written in the configuration. *)
Record raw_constituent : Type := mk_raw_constituent {
  rc_material : fluid_type;
  rc_fraction : option R;
  rc_fluid_model : option string
}.

(** constituent.py:30-32, 49-57 *)
Definition read_constituent (c : raw_constituent) : res raw_constituent :=
  let* _ := fraction_is_ratio (rc_fraction c) in
  let* _ := match rc_fluid_model c with None => Ok BatzleWang | Some n => provider_named n end in
  Ok c.

Definition finish_constituent (c : raw_constituent) (fraction : R) : constituent :=
  mk_constituent (rc_material c) fraction
    match rc_fluid_model c with
    | None => None
    | Some n => match provider_named n with Ok p => Some p | Err _ => None end
    end.

(** fluids.py:66-70 *)
Fixpoint gas_indices (from : Z) (cs : list raw_constituent) : list Z :=
  match cs with
  | [] => []
  | c :: cs' =>
      let n := type_name (rc_material c) in
      if (String.eqb n "carbon_dioxide" || String.eqb n "gas")%bool
      then from :: gas_indices (from + 1) cs'
      else gas_indices (from + 1) cs'
  end.

(** fluids.py:48-78: constructing Fluids from a configuration section.  The
    constituents are validated one by one, then together (lines 72-78), then
    the literals, then the missing fraction is completed (line 64). *)
Definition read_fluids (temperature : R) (cs : list raw_constituent) (method : string) (brie_constant : R)
    (brie_gases : option (list Z)) (fluid_model : string) : res fluids :=
  let* cs := sequence (map read_constituent cs) in
  match cs with
  | [] => Err ValueError
  | _ =>
      let given := map rc_fraction cs in
      if Rlt_dec (1 + 1 / 10 ^ 5) (sum_given given) then Err ValueError
      else
        let* method :=
          (if String.eqb method "wood" then Ok Wood
           else if String.eqb method "brie" then Ok Brie else Err ValueError) in
        let* p := provider_named fluid_model in
        let* fractions := fix_one_fraction given in
        Ok (mk_fluids temperature (map (fun cf => finish_constituent (fst cf) (snd cf)) (combine cs fractions))
              method brie_constant
              match brie_gases with None => gas_indices 0 cs | Some l => l end p)
  end.

(* ---- fluid_model_providers.py:64-90 ---- *)

(** How often a name occurs (collections.Counter, lines 71-73). *)
Fixpoint occurrences (n : string) (names : list string) : nat :=
  match names with
  | [] => 0
  | m :: names' => (if String.eqb n m then 1 else 0) + occurrences n names'
  end.

(** Lines 71-73, as a test. *)
Definition has_duplicates (names : list string) : bool :=
  existsb (fun n => Nat.ltb 1 (occurrences n names)) names.

(** Lines 83-88: the dictionary comprehension; a later entry overwrites. *)
Fixpoint lookup {P} (entries : list (string * P)) (name : string) : option P :=
  match entries with
  | [] => None
  | (n, p) :: entries' =>
      match lookup entries' name with
      | Some q => Some q
      | None => if String.eqb n name then Some p else None
      end
  end.

(** Lines 64-90 for any list of entry points (name, provider object). *)
Definition load_providers {P} (entries : list (string * P)) : res (string -> option P) :=
  if has_duplicates (map fst entries) then Err ImportError
  else
    match lookup entries "batzle_wang" with
    | None => Err KeyError
    | Some p => Ok (fun name => if String.eqb name "default" then Some p else lookup entries name)
    end.
