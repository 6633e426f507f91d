(** Missing values: mineral fractions, and concrete tables. *)
From Coq Require Import String List ZArith Lra Lia.
From Verif Require Import Base BaseProofs Spec MaterialModel MaterialProofs MineralsModel FluidModel FluidProofs ConfigModel FluidsModel RowModel
  RowSpec RowScalarProofs RowResultProofs RowProps NumModel NanModel NanSpec RelProofs EmbedProofs EmbedRowProofs NanRowProofs
  NanExampleProofs PoisonSpec PoisonProofs PoisonRowProofs.
Import ListNotations.
Open Scope R_scope.

(** ** A missing mineral fraction *)
Lemma entry_some : forall {A} n i (a : arr A), wfa n a -> (i < n)%nat -> exists x, entry i a = Some x.
Proof.
  intros A n i [x|l] W Hi; [exists x; reflexivity|]. cbn in *. destruct (nth_error l i) as [x|] eqn:E; [exists x; reflexivity|].
  exfalso. apply nth_error_None in E. lia.
Qed.
Lemma nth_combine : forall {A B} (l : list A) (m : list B) i x y, nth_error l i = Some x -> nth_error m i = Some y ->
  nth_error (combine l m) i = Some (x, y).
Proof.
  intros A B l. induction l as [|u l IH]; intros [|v m] [|i] x y H G; cbn in *; try discriminate.
  - injection H as ->. injection G as ->. reflexivity.
  - apply IH; assumption.
Qed.
Lemma entry_zip : forall {A B} i (a : arr A) (b : arr B) x y, entry i a = Some x -> entry i b = Some y ->
  entry i (zip a b) = Some (x, y).
Proof.
  intros A B i [u|l] [v|m] x y H G; cbn in *.
  - congruence.
  - rewrite nth_error_map, G. cbn. congruence.
  - rewrite nth_error_map, H. cbn. congruence.
  - apply nth_combine; assumption.
Qed.
Lemma entry_pmap : forall {A B} i (f : A -> B) a x, entry i a = Some x -> entry i (pmap f a) = Some (f x).
Proof. intros A B i f [u|l] x H; cbn in *; [congruence|]. rewrite nth_error_map, H. reflexivity. Qed.
Lemma any_entry : forall {A} i (p : A -> bool) a x, entry i a = Some x -> p x = true -> any p a = true.
Proof.
  intros A i p [u|l] x H P; cbn in *; [congruence|]. apply existsb_exists. exists x. split; [eapply nth_error_In, H|exact P].
Qed.
Lemma wfa_zip : forall {A B} n (a : arr A) (b : arr B), wfa n a -> wfa n b -> wfa n (zip a b).
Proof. intros A B n [u|l] [v|m] H G; cbn in *; try exact I; rewrite ?map_length, ?combine_length; lia. Qed.
Lemma wfa_pmap : forall {A B} n (f : A -> B) a, wfa n a -> wfa n (pmap f a).
Proof. intros A B n f [u|l] H; cbn in *; [exact I|]. rewrite map_length. exact H. Qed.
Lemma wfa_nsum : forall n l, Forall (wfa n) l -> wfa n (nsum l).
Proof. intros n l H. induction H; cbn [nsum]; [exact I|]. apply wfa_pmap, wfa_zip; assumption. Qed.
Lemma wfa_sum_given : forall n l, Forall (nwfo n) l -> wfa n (n_sum_given l).
Proof. intros n l H. induction H as [|[a|] l H1 H2 IH]; cbn [n_sum_given]; [exact I| |exact IH]. apply wfa_pmap, wfa_zip; assumption. Qed.
Lemma nsum_nan : forall n i l a, Forall (wfa n) l -> (i < n)%nat -> In a l -> entry i a = Some Nan -> entry i (nsum l) = Some Nan.
Proof.
  intros n i l a W Hi I E. induction W as [|b l W1 W2 IH]; [destruct I|]. cbn [nsum].
  destruct (entry_some n i b W1 Hi) as [x X], (entry_some n i (nsum l) (wfa_nsum _ _ W2) Hi) as [y Y].
  rewrite (entry_pmap i _ _ (x, y)) by (apply entry_zip; assumption). cbn [fst snd].
  destruct I as [->|I].
  - rewrite E in X. injection X as <-. reflexivity.
  - rewrite (IH I) in Y. injection Y as <-. destruct x; reflexivity.
Qed.
Lemma ratio_error : forall v e, n_fraction_is_ratio v = Err e -> e = ValueError.
Proof.
  intros [v|] e; cbn; [|discriminate]. destruct (any _ v); cbn; [congruence|]. destruct (any _ v); cbn; congruence.
Qed.
Lemma nan_fraction : forall n i cs m f, (i < n)%nat -> Forall (fun c => nwfm n (fst c) /\ nwfo n (snd c)) cs ->
  In (m, Some f) cs -> entry i f = Some Nan -> n_minerals cs = Err ValueError.
Proof.
  intros n i cs m f Hi W I E. unfold n_minerals.
  destruct cs as [|c cs]; [destruct I|]. cbn [guard bind]. set (l := c :: cs) in *.
  assert (A : forall e, each (fun c : nmat * option (arr num) => n_fraction_is_ratio (snd c)) l = Err e -> e = ValueError).
  { intros e. clear. induction l as [|x l IH]; cbn [each]; [discriminate|].
    destruct (n_fraction_is_ratio (snd x)) eqn:E; cbn [bind]; [exact IH|].
    intro F. injection F as <-. exact (ratio_error _ _ E). }
  destruct (each _ l) as [u|e]; [|rewrite (A e eq_refl); reflexivity]. cbn [bind].
  unfold n_fix_one_fraction. cbv zeta.
  destruct (any _ (n_sum_given (map snd l))); [reflexivity|]. cbn [guard bind].
  assert (R : wfa n (pmap (fun s => nsub (Num 1) s) (n_sum_given (map snd l)))).
  { apply wfa_pmap, wfa_sum_given. apply Forall_map. eapply Forall_impl; [|exact W]. intros x [_ H]. exact H. }
  set (rest := pmap (fun s => nsub (Num 1) s) (n_sum_given (map snd l))) in *.
  assert (G : Forall (wfa n) (map (n_completed rest) (map snd l))).
  { rewrite map_map. apply Forall_map. eapply Forall_impl; [|exact W]. intros x [_ H].
    destruct (snd x); [exact H|exact R]. }
  assert (S : entry i (nsum (map (n_completed rest) (map snd l))) = Some Nan).
  { apply (nsum_nan n i _ f G Hi); [|exact E]. apply in_map_iff. exists (Some f). split; [reflexivity|].
    apply in_map_iff. exists (m, Some f). split; [reflexivity|exact I]. }
  assert (T : any (fun s => negb (n_isclose_one s)) (nsum (map (n_completed rest) (map snd l))) = true)
    by (apply (any_entry i _ _ Nan S); reflexivity).
  destruct (missing (map snd l)) as [|[|k]]; cbn [bind]; [rewrite T; reflexivity| |reflexivity].
  destruct (n_fraction_is_ratio (Some rest)) as [?|e] eqn:F; cbn [bind]; [rewrite T; reflexivity|].
  rewrite (ratio_error _ _ F). reflexivity.
Qed.
Lemma nan_fraction_rejected : forall co2 n i inp m f, (i < n)%nat -> nwf_input n inp ->
  In (m, Some f) (ni_minerals inp) -> entry i f = Some Nan -> n_results co2 n inp = Err ValueError.
Proof.
  intros co2 n i inp m f Hi (W & _) I E. unfold n_results, n_calculate_results.
  rewrite (nan_fraction n i _ m f Hi W I E). reflexivity.
Qed.

(** ** The mineral and the fluid of a simple table *)
Definition simple_table (mineral fl : material) (d : ndry_rock) (p : npressure) : ninput :=
  mkNInput [(num_mat (up mineral), None)]
    (mk_nfluids (Sc (Num 80)) [mk_nconstituent (NArbitrary (num_mat (up fl))) (Sc (Num 1)) None] Wood 3 [] BatzleWang) [None] d p.
Lemma simple_table_results : forall co2 n mineral fl d p q, fluid fl -> 0 < bulk fl -> npr_fluid p = Some q ->
  n_results (with_nan co2) n (simple_table mineral fl d p) =
  (let* o := (let* _ := n_check_dry_rock d in
   let* dry := n_dry_rock_material d (num_mat (up mineral)) p in
   let* dense := n_nonporous d (num_mat (up mineral)) in
   let* sat := n_fluid_substitution dry dense (num_mat (up fl)) (ndr_porosity d) in
   Ok (mkNOutput (n_bulk sat) (Sc (Num (bulk mineral))) (n_bulk dry) (n_shear sat) (n_dens sat) (n_bulk dense))) in
   Ok (n_result_rows n o)).
Proof.
  intros co2 n mineral fl d p q F B Q. unfold n_results. f_equal. unfold n_calculate_results, simple_table.
  cbn [ni_minerals ni_fluids ni_fluid_fractions ni_dry_rock ni_pressure].
  set (inp := simple_input mineral fl 1 1 1 0 []).
  assert (M : exists l, n_minerals [(num_mat (up mineral), None)] = Ok l /\
    n_minerals_as_mixture l = Ok (num_mat (up mineral))).
  { destruct (sim_value _ _ (map upc [(mineral, 1)]) _ (sim_minerals [(up mineral, None)] [(num_mat (up mineral), None)]
      ltac:(constructor; [split; [apply realb_num|exact I]|constructor]))) as [l [L S]].
    { change [(up mineral, None)] with (map (fun c : material * option R => (up (fst c), opt (snd c))) [(mineral, None)]).
      rewrite sc_minerals, one_mineral. reflexivity. }
    exists l. split; [exact L|].
    destruct (sim_value _ _ (up mineral) _ (sim_as_mixture_minerals _ _ S)) as [m [E R]]; [reflexivity|].
    rewrite E, (realb_num_eq _ _ R). reflexivity. }
  destruct M as [l [-> M]]. cbn [bind].
  assert (G : exists f, n_complete_fluids (mk_nfluids (Sc (Num 80)) [mk_nconstituent (NArbitrary (num_mat (up fl))) (Sc (Num 1)) None] Wood 3 []
      BatzleWang) [None] = Ok f /\ n_as_mixture (with_nan co2) f q = Ok (num_mat (up fl))).
  { destruct (sim_value _ _ (up_fluids (i_fluids inp)) _ (sim_complete_fluids (up_fluids (i_fluids inp)) [None])) as [f [E S]].
    { change [None] with (map opt [None]). rewrite sc_complete_fluids. unfold inp, simple_input. cbn [i_fluids]. rewrite one_fluid. reflexivity. }
    exists f. split; [exact E|]. rewrite S.
    destruct (sim_value _ _ (up fl) _ (sim_as_mixture co2 _ (up_fluids (i_fluids inp)) (Sc 0) (Sc (Num 0))
      (with_nan_extends co2) eq_refl)) as [m [E' R]].
    { rewrite sc_fluids_as_mixture. unfold as_mixture, inp, simple_input.
      cbn [i_fluids f_constituents f_fluid_model f_temperature f_mix_method as_materials constituent_as_material c_material
        c_fluid_model fluid_as_material fst bind map c_fraction].
      rewrite wood_pure by (try assumption; lra). reflexivity. }
    rewrite <- (realb_num_eq _ _ R). exact E'. }
  destruct G as [f [-> G]]. cbn [bind]. rewrite M, Q. cbn [bind]. rewrite G. cbn [bind].
  destruct (n_check_dry_rock d); reflexivity.
Qed.

(** ** A value that is only looked at when another one is missing *)
Definition thick : material := sample 4 0 1.
Definition normal : npressure := mkNPressure (Sc (Num 100)) (Sc (Num 0)) (Some (Sc (Num 0))) None (Some (Sc (Num 0))).
Definition deep (depth : arr num) : ninput :=
  simple_table quartz thick
    (mkNDryRock (NRockPolyfit (constant_fit 4 1 2)) (Sc (Num (1 / 3)))
       [NDepthTrend (mkNDepth depth (constant_fit 4 1 2) None None)]) normal.
Lemma thick_fluid : fluid thick.
Proof. apply sample_fluid; lra. Qed.
Definition deep_row (x : R) : row_input :=
  simple_input quartz thick 4 1 2 (1 / 3) [DepthTrend (mkDepth x (constant_fit 4 1 2) None None)].
Lemma deep_row_result : forall co2 x, calculate_row co2 (deep_row x) = Ok (mkRow 4 4 4 1 (7 / 3) 4).
Proof.
  intros co2 x. unfold deep_row. rewrite simple_row by (try apply thick_fluid; cbn; lra).
  rewrite mat_of_moduli_ok by lra. cbn [bind adjust_material adjust_one]. unfold polyval_material.
  cbn [uses_moduli c_flavour constant_fit c_density c_primary c_secondary fit_property dt_coefficients effective_depth dt_reference dt_depth].
  unfold polyval2d. cbn [poly_rows poly_eval fold_right bind uses_moduli c_flavour]. unfold poly_eval. cbn [fold_right].
  rewrite !Rmult_0_l, !Rplus_0_r, mat_of_moduli_ok by lra. cbn [bind]. unfold fluid_substitution, gassman_equation. cbn [bulk shear dens].
  change (bulk quartz) with 4. change (bulk thick) with 4. change (dens thick) with 1.
  destruct (Req_EM_T (1 / 3) 0) as [H|_]; [exfalso; lra|]. destruct (Req_EM_T 4 4) as [_|H]; [|contradiction]. cbn [bind].
  rewrite mat_of_moduli_ok by lra. cbn [bind bulk shear dens]. do 2 f_equal; lra.
Qed.
Definition deep_table (x : R) : binput :=
  let i := up_input (deep_row x) in
  mkBInput (bi_minerals i) (bi_fluids i) (bi_fluid_fractions i)
    (mkBDryRock (bdr_model (bi_dry_rock i)) (bdr_porosity (bi_dry_rock i))
       [BDepthTrend (mkBDepth (Vec [x]) (constant_fit 4 1 2) None None)]) (bi_pressure i).
Lemma deep_table_results : forall co2 x, b_results co2 1 (deep_table x) = Ok [mkRow 4 4 4 1 (7 / 3) 4].
Proof.
  intros co2 x.
  assert (W : wf_input 1 (deep_table x)).
  { destruct (wf_up_input 1 (deep_row x)) as (W1 & W2 & W3 & W4 & W5). unfold deep_table.
    repeat (split; try assumption). cbn [bi_dry_rock bdr_adjustments]. constructor; [|constructor].
    repeat split; exact I. }
  assert (C : combinable (deep_table x)) by (split; [exact I|constructor; [exact I|constructor]]).
  pose proof (batch_scalar co2 1 (deep_table x) false ltac:(lia) W (or_intror C)) as A.
  assert (P : pick_input 0 (deep_table x) = deep_row x) by reflexivity.
  destruct (b_results co2 1 (deep_table x)) as [rows|e].
  - destruct A as [L A]. f_equal. apply nth_error_ext; [exact L|]. intros i Hi. rewrite L in Hi.
    destruct (A i Hi) as [r [N R]]. rewrite N. replace i with 0%nat in * by lia.
    rewrite P, deep_row_result in R. injection R as <-. reflexivity.
  - destruct A as [[A _]|[i [Hi R]]]; [discriminate|]. replace i with 0%nat in * by lia.
    rewrite P, deep_row_result in R. discriminate.
Qed.
Lemma deep_results : forall co2 x, n_results (with_nan co2) 1 (deep (Vec [Num x])) = Ok [num_row (mkRow 4 4 4 1 (7 / 3) 4)].
Proof.
  intros co2 x. exact (proj1 (results_agree co2 _ 1 (deep_table x) (with_nan_extends co2)) _ (deep_table_results co2 x)).
Qed.
Lemma deep_holes : forall x, holes_input (deep (Vec [Num x])) (deep (Vec [Nan])).
Proof.
  intro x. split; [|split; [|split; [|split]]].
  - constructor; [|constructor]. split; [|reflexivity]. repeat split; apply hole_refl.
  - split; [apply hole_refl|]. split; [|repeat split]. constructor; [|constructor].
    split; [|split; [apply hole_refl|reflexivity]]. repeat split; apply hole_refl.
  - constructor; [exact I|constructor].
  - split; [reflexivity|]. split; [apply hole_refl|]. constructor; [|constructor].
    split; [|repeat split]. constructor; [apply hole_nan|constructor].
  - repeat split; try apply hole_refl.
Qed.
Lemma deep_nan : forall co2, n_results (with_nan co2) 1 (deep (Vec [Nan])) = Err ZeroDivisionError.
Proof.
  intros co2. unfold deep. rewrite (simple_table_results co2 1 quartz thick _ _ (Sc (Num 0)));
    [|apply thick_fluid|cbn; lra|reflexivity].
  change (n_check_dry_rock _) with (Ok tt). cbn [bind].
  unfold n_dry_rock_material. change (n_truncated_rock normal) with (Ok (Sc (Num (100 - 0)))). cbn [bind].
  unfold n_material_from_model. cbn [ndr_model ndr_porosity ndr_adjustments n_adjust_material].
  destruct (sim_value _ _ (up (sample 4 1 2)) _ (sim_polyval_material (constant_fit 4 1 2) (Sc (1 / 3)) (Sc (Num (1 / 3)))
    (up quartz) (num_mat (up quartz)) eq_refl (realb_num _))) as [m [-> Q]].
  { rewrite sc_polyval. unfold polyval_material.
    cbn [uses_moduli c_flavour constant_fit c_density c_primary c_secondary fit_property].
    unfold polyval2d. cbn [poly_rows bind]. unfold poly_eval. cbn [fold_right].
    rewrite !Rmult_0_l, !Rplus_0_r, mat_of_moduli_ok by lra. reflexivity. }
  cbn [bind n_adjust_one ndt_coefficients]. change (n_effective_depth _) with (Ok (Vec [Nan])). cbn [bind].
  rewrite (realb_num_eq _ _ Q).
  assert (C : n_polyval_material (Vec [Nan]) (num_mat (up (sample 4 1 2))) (constant_fit 4 1 2) =
    Ok (mkNB (Vec [Nan]) (Vec [Nan]) (Vec [Nan]) (Vec [Nan]) (Vec [Nan]))) by reflexivity.
  rewrite C. cbn [bind]. change (n_nonporous _ _) with (Ok (num_mat (up quartz))). cbn [bind].
  assert (G : n_fluid_substitution (mkNB (Vec [Nan]) (Vec [Nan]) (Vec [Nan]) (Vec [Nan]) (Vec [Nan])) (num_mat (up quartz))
    (num_mat (up thick)) (Sc (Num (1 / 3))) = Err ZeroDivisionError); [|rewrite G; reflexivity].
  assert (D : n_gassman_equation Nan (Num 4) (Num 4) (Num (1 / 3)) = Err ZeroDivisionError).
  { unfold n_gassman_equation, neqb. destruct (Req_EM_T (1 / 3) 0) as [H|_]; [exfalso; lra|].
    cbn [p_div nsub nlift2 nmul bind]. unfold p_div, nmul, nsub, nlift2.
    destruct (Req_EM_T ((4 - 4) * (1 / 3)) 0) as [_|H]; [reflexivity|exfalso; lra]. }
  unfold n_fluid_substitution.
  change (zip4 _ _ _ _) with (Vec [(Nan, Num 4, Num 4, Num (1 / 3))]). cbn [amap map fst snd]. rewrite D. reflexivity.
Qed.

(** The first example again: the porosity of one row is missing. *)
Lemma half_missing_holes : holes_input (num_input two_rows) half_missing.
Proof.
  split; [|split; [|split; [|split]]].
  - constructor; [|constructor]. split; [|reflexivity]. repeat split; apply hole_refl.
  - split; [apply hole_refl|]. split; [|repeat split]. constructor; [|constructor].
    split; [|split; [apply hole_refl|reflexivity]]. repeat split; apply hole_refl.
  - constructor; [exact I|constructor].
  - split; [reflexivity|]. split; [|constructor]. constructor; [apply hole_refl|]. constructor; [apply hole_nan|constructor].
  - repeat split; try apply hole_refl.
Qed.
