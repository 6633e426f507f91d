(** Properties C73-C76 and C121-C127: fluid mixtures and fluid models. *)
From Coq Require Import String Permutation.
From Verif Require Import Base BaseProofs MaterialModel Spec MaterialProofs FluidModel FluidProofs MineralsModel MineralsProofs BatzleWangModel BatzleWangProofs FluidsModel FluidsSpec FluidsProofs.
From Coq Require Import List.
Open Scope R_scope.

(** C73.  Evaluating the fluid mixture changes the fluid pressure of the
    input: it is divided by 10^6 once for every Span-Wagner constituent. *)
Theorem C73_pressure_after :
  forall co2 f p m p',
    as_mixture co2 f p = (Ok m, p') ->
    p' = p / 10 ^ (6 * carbon_dioxides (f_fluid_model f) (f_constituents f)).
Proof. exact mixture_in_place. Qed.
Print Assumptions C73_pressure_after.

(** Each constituent is evaluated at the pressure left by those before it. *)
Theorem C73_pressure_seen :
  forall co2 f p m p',
    as_mixture co2 f p = (Ok m, p') ->
    exists ms, length ms = length (f_constituents f) /\
      (forall i c x, nth_error (f_constituents f) i = Some c -> nth_error ms i = Some x ->
         worth co2 (model_of (f_fluid_model f) c) (c_material c) (f_temperature f)
           (p / 10 ^ (6 * carbon_dioxides (f_fluid_model f) (firstn i (f_constituents f)))) x) /\
      (f_mix_method f = Wood -> wood_fluid_mixing ms (map c_fraction (f_constituents f)) = Ok m).
Proof. exact mixture_worth. Qed.
Print Assumptions C73_pressure_seen.

Theorem C73_input_modified_refuted :
  exists f p, 0 < p /\ forall co2, snd (as_mixture co2 f p) <> p.
Proof.
  exists (wood_section [co2_constituent 1]), (20 * 10 ^ 6). split; [lra|].
  intros co2. rewrite pressure_changed. lra.
Qed.
Print Assumptions C73_input_modified_refuted.

Theorem C73_order_refuted :
  exists f f' p,
    Permutation (f_constituents f) (f_constituents f') /\ f_mix_method f = Wood /\ f_mix_method f' = Wood /\
    f_temperature f = f_temperature f' /\ f_fluid_model f = f_fluid_model f' /\
    forall co2, total_eos co2 ->
      exists m m', fst (as_mixture co2 f p) = Ok m /\ fst (as_mixture co2 f' p) = Ok m' /\ dens m' < dens m.
Proof.
  exists (wood_section [brine_constituent (1 / 2); co2_constituent (1 / 2)]),
         (wood_section [co2_constituent (1 / 2); brine_constituent (1 / 2)]), (20 * 10 ^ 6).
  split; [apply perm_swap|]. repeat (split; [reflexivity|]). exact order_matters.
Qed.
Print Assumptions C73_order_refuted.

Theorem C73_second_evaluation_refuted :
  exists f p, forall co2, total_eos co2 ->
    exists m m' p', as_mixture co2 f p = (Ok m, p') /\ fst (as_mixture co2 f p') = Ok m' /\ dens m' < dens m.
Proof.
  exists (wood_section [brine_constituent 1; co2_constituent 0]), (20 * 10 ^ 6). exact repeat_matters.
Qed.
Print Assumptions C73_second_evaluation_refuted.

(** Without Span-Wagner constituents the claim holds. *)
Theorem C73_no_carbon_dioxide_partial :
  forall co2 f p,
    carbon_dioxides (f_fluid_model f) (f_constituents f) = 0%nat -> snd (as_mixture co2 f p) = p.
Proof. exact mixture_keeps_pressure. Qed.
Print Assumptions C73_no_carbon_dioxide_partial.

Theorem C73_order_partial :
  forall co2 t cs cs' e idx idx' pr p m,
    Permutation cs cs' -> carbon_dioxides pr cs = 0%nat ->
    fst (as_mixture co2 (mk_fluids t cs Wood e idx pr) p) = Ok m ->
    as_mixture co2 (mk_fluids t cs' Wood e idx' pr) p = (Ok m, p).
Proof. exact mixture_order. Qed.
Print Assumptions C73_order_partial.

(** An equation of state as in [total_eos], and a mixture without carbon
    dioxide that evaluates. *)
Example C73_nonvacuous :
  total_eos (fun _ _ _ => Ok (sample 1 0 1)) /\
  exists m, as_mixture (fun _ _ _ => Err OtherError) (wood_section [brine_constituent 1]) (20 * 10 ^ 6) = (Ok m, 20 * 10 ^ 6).
Proof.
  split.
  - intros t p i. exists (sample 1 0 1). split; [reflexivity|]. cbn. split; lra.
  - destruct brine_pressure_matters as (b1 & _ & E1 & _ & F1 & K1 & _).
    rewrite as_mixture_wood by reflexivity. unfold wood_section, brine_constituent.
    cbn [f_fluid_model f_temperature f_constituents as_materials fst snd map c_fraction].
    unfold constituent_as_material. cbn [c_fluid_model c_material fluid_as_material]. rewrite E1. cbn [bind fst snd].
    exists b1. f_equal. apply wood_pure; [exact F1|exact K1|lra].
Qed.

(** C74.  Without a fluid model of its own, carbon dioxide is sent to the
    model of the section, by default Batzle-Wang, which has none. *)
Theorem C74_default_model_refuted :
  exists c f, In c (f_constituents f) /\ is_carbon_dioxide (c_material c) = true /\ c_fluid_model c = None /\
    provider_named "default" = Ok (f_fluid_model f) /\
    forall co2 p, fst (as_mixture co2 f p) = Err NotImplementedError.
Proof.
  exists (mk_constituent (FCarbonDioxide true) 1 None), (wood_section [mk_constituent (FCarbonDioxide true) 1 None]).
  split; [left; reflexivity|]. split; [reflexivity|]. split; [reflexivity|]. split; [reflexivity|].
  intros co2 p. reflexivity.
Qed.
Print Assumptions C74_default_model_refuted.

(** In general: a mixture fails as soon as one constituent has no equations
    under the model in force for it, and with NotImplementedError if it is
    the first to fail. *)
Theorem C74_unsupported_constituents :
  forall co2 f p c,
    In c (f_constituents f) -> unsupported_by (model_of (f_fluid_model f) c) (c_material c) ->
    fails (fst (as_mixture co2 f p)) /\
    (forall cs1 cs2, f_constituents f = cs1 ++ c :: cs2 ->
       is_ok (fst (as_materials co2 (f_fluid_model f) (f_temperature f) p cs1)) ->
       fst (as_mixture co2 f p) = Err NotImplementedError).
Proof. exact mixture_unsupported. Qed.
Print Assumptions C74_unsupported_constituents.

(** When Span-Wagner is named, the equation of state is asked at the absolute
    temperature and the pressure in MPa. *)
Theorem C74_named_partial :
  forall co2 section c t p i m,
    c_material c = FCarbonDioxide i -> model_of section c = SpanWagner ->
    (fst (constituent_as_material co2 section c t p) = Ok m <-> co2 (t + 27315 / 100) (p / 10 ^ 6) i = Ok m).
Proof.
  intros co2 section c t p i m Hc Hs. rewrite constituent_worth, Hc, Hs. split.
  - intros W. inversion W. assumption.
  - apply worth_carbon_dioxide.
Qed.
Print Assumptions C74_named_partial.

Example C74_nonvacuous :
  model_of BatzleWang (co2_constituent 1) = SpanWagner /\
  unsupported_by (model_of SpanWagner (brine_constituent 1)) (c_material (brine_constituent 1)).
Proof. split; [reflexivity|exact I]. Qed.

(** C75 *)
Theorem C75_brie_gases :
  forall co2 t cs e model f p ms p',
    read_fluids t cs "brie" e None model = Ok f ->
    as_materials co2 (f_fluid_model f) t p (f_constituents f) = (Ok ms, p') ->
    let part keep := filter (fun cm => Bool.eqb (is_gas (c_material (fst cm))) keep) (combine (f_constituents f) ms) in
    map c_material (f_constituents f) = map rc_material cs /\
    as_mixture co2 f p =
    (brie_fluid_mixing (map snd (part false)) (map (fun cm => c_fraction (fst cm)) (part false))
       (map snd (part true)) (map (fun cm => c_fraction (fst cm)) (part true)) e, p').
Proof. exact brie_default. Qed.
Print Assumptions C75_brie_gases.

Example C75_nonvacuous :
  is_ok (read_fluids 80 [mk_raw_constituent (FGas (7 / 10)) (Some (1 / 4)) None;
                         mk_raw_constituent (FBrine 50000) None None;
                         mk_raw_constituent (FCarbonDioxide true) (Some (1 / 4)) (Some "span_wagner"%string)]
           "brie" 3 None "default") /\
  gas_indices 0 [mk_raw_constituent (FGas (7 / 10)) (Some (1 / 4)) None;
                 mk_raw_constituent (FBrine 50000) None None;
                 mk_raw_constituent (FCarbonDioxide true) (Some (1 / 4)) (Some "span_wagner"%string)] = [0%Z; 2%Z].
Proof.
  split; [|reflexivity]. apply read_fluids_outcome. split; [discriminate|]. split.
  - unfold raw_ok, name_ok. repeat (apply Forall_cons; [cbn; split; [try exact I; lra|auto]|]). apply Forall_nil.
  - split; [left; reflexivity|]. split; [right; reflexivity|]. cbn. split; [lia|]. split; [lra|intros _; lra].
Qed.

(** C76 *)
Theorem C76_collisions :
  forall (P : Type) (entries : list (string * P)),
    (load_providers entries = Err ImportError <-> ~ NoDup (map fst entries)) /\
    (is_ok (load_providers entries) <-> NoDup (map fst entries) /\ In "batzle_wang"%string (map fst entries)).
Proof. intros P entries. split; [apply load_import_error|apply load_outcome]. Qed.
Print Assumptions C76_collisions.

Example C76_nonvacuous :
  is_ok (load_providers [("batzle_wang"%string, 1%nat); ("span_wagner"%string, 2%nat)]) /\
  load_providers [("batzle_wang"%string, 1%nat); ("mine"%string, 2%nat); ("mine"%string, 3%nat)] = Err ImportError.
Proof. split; [eexists; reflexivity|reflexivity]. Qed.

(** C121 *)
Theorem C121_condensate_refuted :
  exists c f, In c (f_constituents f) /\ type_name (c_material c) = "condensate"%string /\
    forall co2 p, fst (as_mixture co2 f p) = Err NotImplementedError.
Proof.
  exists (mk_constituent (FCondensate 800 100 1) 1 None), (wood_section [mk_constituent (FCondensate 800 100 1) 1 None]).
  split; [left; reflexivity|]. split; [reflexivity|]. intros co2 p. reflexivity.
Qed.
Print Assumptions C121_condensate_refuted.

Theorem C121_condensate_fails :
  forall co2 f p c,
    In c (f_constituents f) -> type_name (c_material c) = "condensate"%string ->
    fails (fst (as_mixture co2 f p)).
Proof.
  intros co2 f p c Hc Ht. apply (mixture_unsupported co2 f p c Hc).
  destruct (c_material c); try discriminate. destruct (model_of _ _); exact I.
Qed.
Print Assumptions C121_condensate_fails.

(** C122 *)
Theorem C122_listed_gases_partial :
  forall co2 f p ms p',
    f_mix_method f = Brie ->
    NoDup (f_brie_gases f) ->
    Forall (fun i => (0 <= i < Z.of_nat (length (f_constituents f)))%Z) (f_brie_gases f) ->
    as_materials co2 (f_fluid_model f) (f_temperature f) p (f_constituents f) = (Ok ms, p') ->
    let part {A} keep (l : list A) := at_positions keep (f_brie_gases f) 0 l in
    let fractions := map c_fraction (f_constituents f) in
    as_mixture co2 f p =
    (brie_fluid_mixing (part false ms) (part false fractions) (part true ms) (part true fractions)
       (f_brie_constant f), p').
Proof. exact brie_explicit. Qed.
Print Assumptions C122_listed_gases_partial.

(** Listing the same constituent twice makes its neighbour a gas as well. *)
Theorem C122_listed_twice_refuted :
  exists f f', f_brie_gases f = [0%Z] /\ f_brie_gases f' = [0%Z; 0%Z] /\
    f_constituents f = f_constituents f' /\ f_mix_method f = Brie /\ f_mix_method f' = Brie /\
    f_brie_constant f = f_brie_constant f' /\
    forall co2 p, exists m m', as_mixture co2 f p = (Ok m, p) /\ as_mixture co2 f' p = (Ok m', p) /\ bulk m < bulk m'.
Proof.
  exists (three [0%Z]), (three [0%Z; 0%Z]). repeat (split; [reflexivity|]). intros co2 p.
  destruct (brie_three_first co2 p) as (m & E & K). destruct (brie_three_twice co2 p) as (m' & E' & K').
  exists m, m'. split; [exact E|]. split; [exact E'|]. lra.
Qed.
Print Assumptions C122_listed_twice_refuted.

Theorem C122_out_of_range :
  forall co2 f p ms p' i,
    f_mix_method f = Brie ->
    as_materials co2 (f_fluid_model f) (f_temperature f) p (f_constituents f) = (Ok ms, p') ->
    In i (f_brie_gases f) ->
    (Z.of_nat (length (f_constituents f)) <= i \/ i < - Z.of_nat (length (f_constituents f)))%Z ->
    as_mixture co2 f p = (Err IndexError, p').
Proof. exact brie_out_of_range. Qed.
Print Assumptions C122_out_of_range.

Example C122_nonvacuous :
  f_mix_method (three [1%Z]) = Brie /\ NoDup (f_brie_gases (three [1%Z])) /\
  Forall (fun i => (0 <= i < Z.of_nat (length (f_constituents (three [1%Z]))))%Z) (f_brie_gases (three [1%Z])) /\
  as_mixture (fun _ _ _ => Err OtherError) (three [3%Z]) 1 = (Err IndexError, 1).
Proof.
  split; [reflexivity|]. split; [constructor; [intros []|constructor]|].
  split; [constructor; [cbn; lia|constructor]|reflexivity].
Qed.

(** C123.  The docstring (fluids.py:43-45) says that without a gas the first
    constituent is taken as gas. *)
Theorem C123_no_gas :
  forall co2 t cs e model f f' p,
    read_fluids t cs "brie" e None model = Ok f -> read_fluids t cs "wood" e None model = Ok f' ->
    Forall (fun c => is_gas (rc_material c) = false) cs ->
    as_mixture co2 f p = as_mixture co2 f' p.
Proof. exact brie_no_gas. Qed.
Print Assumptions C123_no_gas.

Definition three_raw : list raw_constituent :=
  [mk_raw_constituent (FArbitrary (sample 1 0 1)) (Some (1 / 3)) None;
   mk_raw_constituent (FArbitrary (sample 2 0 1)) (Some (1 / 3)) None;
   mk_raw_constituent (FArbitrary (sample 4 0 1)) (Some (1 / 3)) None].

Lemma three_raw_read idx : read_fluids 80 three_raw "brie" 1 (Some idx) "default" = Ok (three idx).
Proof.
  destruct (proj1 (read_fluids_outcome 80 three_raw "brie" 1 (Some idx) "default")) as [_ H].
  destruct H as [f F].
  - split; [discriminate|]. split.
    + unfold raw_ok. repeat (apply Forall_cons; [cbn; split; [lra|exact I]|]). apply Forall_nil.
    + split; [left; reflexivity|]. split; [right; reflexivity|]. cbn. split; [lia|]. split; [lra|discriminate].
  - rewrite F. destruct (read_fluids_inv _ _ _ _ _ _ _ F) as (fr & Ef & Hf & Pf & [[? _]|[_ HB]]); [discriminate|].
    destruct (fix_complete _ _ Ef) as (_ & _ & _ & H0 & _). specialize (H0 eq_refl).
    destruct fr as [|a [|b [|c [|d fr]]]]; try discriminate. cbn in H0. injection H0 as -> -> ->.
    cbn in Pf. injection Pf as Pf. rewrite Hf, HB, <- Pf. reflexivity.
Qed.

Theorem C123_first_is_gas_refuted :
  exists cs f f',
    Forall (fun c => is_gas (rc_material c) = false) cs /\
    read_fluids 80 cs "brie" 1 None "default" = Ok f /\
    read_fluids 80 cs "brie" 1 (Some [0%Z]) "default" = Ok f' /\
    forall co2 p, as_mixture co2 f p <> as_mixture co2 f' p.
Proof.
  exists three_raw, (three []), (three [0%Z]).
  split; [repeat (constructor; try reflexivity)|].
  split.
  { rewrite read_default_gases. apply (three_raw_read []). }
  split; [apply three_raw_read|].
  intros co2 p. destruct (brie_three_first co2 p) as (m & E & K). rewrite E.
  unfold as_mixture. rewrite three_materials. cbn -[brie_fluid_mixing sample].
  unfold brie_fluid_mixing. cbn [length Nat.eqb negb].
  intros H. injection H as H. apply brie_three_wood in H. lra.
Qed.
Print Assumptions C123_first_is_gas_refuted.

Example C123_nonvacuous : is_ok (read_fluids 80 three_raw "brie" 1 None "default").
Proof. exists (three []). rewrite read_default_gases. apply (three_raw_read []). Qed.

(** C124 *)
Theorem C124_plugins_reachable_partial :
  forall (P : Type) (entries : list (string * P)) reg,
    load_providers entries = Ok reg ->
    reg "default"%string = reg "batzle_wang"%string /\
    (forall n, n <> "default"%string -> forall q, reg n = Some q <-> In (n, q) entries).
Proof. intros P entries reg H. apply load_ok in H. tauto. Qed.
Print Assumptions C124_plugins_reachable_partial.

Theorem C124_default_plugin_refuted :
  exists (entries : list (string * nat)) reg n q,
    load_providers entries = Ok reg /\ In (n, q) entries /\ reg n <> Some q.
Proof.
  exists [("batzle_wang"%string, 1%nat); ("default"%string, 2%nat)]. eexists. exists "default"%string, 2%nat.
  split; [reflexivity|]. split; [right; left; reflexivity|]. cbn. discriminate.
Qed.
Print Assumptions C124_default_plugin_refuted.

(** With the two plugins shipped, the names of a configuration are those of the
    registry. *)
Theorem C124_shipped : exists reg,
  load_providers [("batzle_wang"%string, BatzleWang); ("span_wagner"%string, SpanWagner)] = Ok reg /\
  forall n, provider_named n = match reg n with Some p => Ok p | None => Err ValueError end.
Proof.
  eexists. split; [reflexivity|]. intros n. unfold provider_named, lookup.
  rewrite (String.eqb_sym "batzle_wang"), (String.eqb_sym "span_wagner").
  destruct (String.eqb n "default"); [reflexivity|]. destruct (String.eqb_spec n "batzle_wang") as [->|_]; [reflexivity|].
  destruct (String.eqb n "span_wagner"); reflexivity.
Qed.
Print Assumptions C124_shipped.

(** C125 *)
Theorem C125_sections_accepted :
  forall t cs method e gases model,
    let fs := map rc_fraction cs in
    let accepted :=
      cs <> [] /\ Forall raw_ok cs /\ name_ok model /\ (method = "wood"%string \/ method = "brie"%string) /\
      (count_missing fs <= 1)%nat /\ sum_given fs <= 1 + 1 / 10 ^ 5 /\
      (count_missing fs = 1%nat -> - (1 / 10 ^ 5) <= sum_given fs) in
    (is_ok (read_fluids t cs method e gases model) <-> accepted) /\
    (read_fluids t cs method e gases model = Err ValueError <-> ~ accepted).
Proof. exact read_fluids_outcome. Qed.
Print Assumptions C125_sections_accepted.

Theorem C125_section_contents :
  forall t cs method e gases model f,
    read_fluids t cs method e gases model = Ok f ->
    f_temperature f = t /\ f_brie_constant f = e /\ provider_named model = Ok (f_fluid_model f) /\
    map c_material (f_constituents f) = map rc_material cs /\
    (forall l, gases = Some l -> f_brie_gases f = l) /\
    (forall i c x, nth_error cs i = Some c -> rc_fraction c = Some x ->
       exists c', nth_error (f_constituents f) i = Some c' /\ c_fraction c' = x) /\
    (count_missing (map rc_fraction cs) = 1%nat -> rsum (map c_fraction (f_constituents f)) = 1).
Proof. exact section_contents. Qed.
Print Assumptions C125_section_contents.

Example C125_nonvacuous : read_fluids 80 three_raw "brie" 1 (Some [2%Z]) "default" = Ok (three [2%Z]).
Proof. apply three_raw_read. Qed.

(** C126.  Unlike minerals, fluids whose fractions add up to less than one are
    accepted. *)
Theorem C126_incomplete_fractions_refuted :
  exists cs f, count_missing (map rc_fraction cs) = 0%nat /\ sum_given (map rc_fraction cs) = 1 / 2 /\
    read_fluids 80 cs "wood" 3 None "default" = Ok f /\
    exists m, forall co2 p, as_mixture co2 f p = (Ok m, p).
Proof. exact incomplete_accepted. Qed.
Print Assumptions C126_incomplete_fractions_refuted.

(** C127 *)
Theorem C127_own_model_wins :
  forall co2 t cs method e idx pr pr' p,
    Forall (fun c => c_fluid_model c <> None) cs ->
    as_mixture co2 (mk_fluids t cs method e idx pr) p = as_mixture co2 (mk_fluids t cs method e idx pr') p.
Proof. exact own_model_wins. Qed.
Print Assumptions C127_own_model_wins.

Example C127_nonvacuous : Forall (fun c => c_fluid_model c <> None) [co2_constituent 1].
Proof. constructor; [discriminate|constructor]. Qed.
