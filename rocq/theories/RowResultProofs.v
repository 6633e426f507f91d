(** Rows of the result: bounds on the saturated rock, and examples. *)
From Coq Require Import String List ZArith Lra Lia.
From Verif Require Import Base BaseProofs Spec MaterialModel MaterialProofs HashinShtrikmanModel SandstoneModel
  FluidModel FluidProofs GassmannProofs MineralsModel ConfigModel BatzleWangModel FluidsModel
  RowModel RowSpec RowProofs RowConfigProofs RowScalarProofs.
Import ListNotations.
Open Scope R_scope.

(** ** Every material that is calculated has moduli that are not negative *)
Definition sound (m : material) : Prop := 0 <= bulk m /\ 0 <= shear m.

Lemma sound_moduli : forall k mu d m, mat_of_moduli k mu d = Ok m -> sound m.
Proof. intros k mu d m H. apply mk_material_inv in H. unfold sound. tauto. Qed.
Lemma sound_velocities : forall d p s m, mat_of_velocities d p s = Ok m -> sound m.
Proof. intros d p s m H. apply mk_material_inv in H. unfold sound. tauto. Qed.
Lemma sound_walpole : forall a b r s m, hashin_shtrikman_walpole a b r s = Ok m -> sound m.
Proof.
  intros a b r s m H. unfold hashin_shtrikman_walpole in H. ok_inv H.
  destruct (negb _); [discriminate|]. ok_inv H. eapply sound_moduli, H.
Qed.
Lemma sound_friable : forall f p phi mn m, friable_material f p phi mn = Ok m -> sound m.
Proof. intros f p phi mn m H. unfold friable_material, friable_sand in H. ok_inv H. eapply sound_walpole, H. Qed.
Lemma sound_patchy : forall q p phi mn m, patchy_material q p phi mn = Ok m -> sound m.
Proof. intros q p phi mn m H. unfold patchy_material, patchy_cement in H. ok_inv H. eapply sound_moduli, H. Qed.
Lemma sound_polyval : forall v m0 c m, polyval_material v m0 c = Ok m -> sound m.
Proof.
  intros v m0 c m H. unfold polyval_material in H. destruct (uses_moduli c); ok_inv H;
    [eapply sound_moduli, H|eapply sound_velocities, H].
Qed.
Lemma sound_dependency : forall md m0 p rp phi mn m, pressure_dependency md m0 p rp phi mn = Ok m -> sound m.
Proof.
  assert (G : forall md m0 p rp phi mn m, generic_dependency md m0 p rp phi mn = Ok m -> sound m).
  { intros md m0 p rp phi mn m H. unfold generic_dependency in H. ok_inv H. destruct a as [[? ?] ?], a0 as [[? ?] ?].
    destruct (orb _ _); [discriminate|]. destruct (model_uses_moduli md);
      [eapply sound_moduli, H|eapply sound_velocities, H]. }
  intros md m0 p rp phi mn m H. destruct md; try (eapply G, H).
  cbn [pressure_dependency] in H. unfold powerfit_dependency in H. ok_inv H.
  destruct a as [[? ?] ?], a0 as [[? ?] ?]. ok_inv H.
  destruct (Rle_dec _ _); [discriminate|]. eapply sound_moduli, H.
Qed.
Lemma sound_adjust : forall l m0 p phi mn m, sound m0 -> adjust_material l m0 p phi mn = Ok m -> sound m.
Proof.
  induction l as [|a l IH]; intros m0 p phi mn m S H; cbn [adjust_material] in H; [injection H as <-; exact S|].
  destruct (adjust_one a m0 p phi mn) as [m1|] eqn:E; [|discriminate]. cbn [bind] in H.
  apply (IH m1 p phi mn m); [|exact H]. destruct a as [t|md]; cbn [adjust_one] in E.
  - eapply sound_polyval, E.
  - unfold adjust_pressure in E. ok_inv E. eapply sound_dependency, E.
Qed.
Lemma sound_dry : forall d mn p m, dry_rock_material d mn p = Ok m -> sound m.
Proof.
  intros d mn p m H. unfold dry_rock_material in H. ok_inv H. eapply sound_adjust; [|exact H].
  unfold material_from_model in E0. destruct (dr_model d);
    [eapply sound_polyval, E0|eapply sound_friable, E0|eapply sound_patchy, E0].
Qed.
Lemma sound_wood : forall fl fs m, wood_fluid_mixing fl fs = Ok m -> sound m.
Proof. intros fl fs m H. unfold wood_fluid_mixing in H. ok_inv H. eapply sound_moduli, H. Qed.
Lemma sound_brie : forall fl fs gl gs e m, brie_fluid_mixing fl fs gl gs e = Ok m -> sound m.
Proof.
  intros fl fs gl gs e m H. unfold brie_fluid_mixing in H.
  destruct (negb _); [discriminate|]. destruct (negb _); [discriminate|].
  destruct fl, gl; [discriminate|eapply sound_wood, H|eapply sound_wood, H|]. ok_inv H. eapply sound_moduli, H.
Qed.
Lemma sound_mixture : forall co2 f p m, fst (as_mixture co2 f p) = Ok m -> sound m.
Proof.
  intros co2 f p m H. unfold as_mixture in H.
  destruct (as_materials _ _ _ _ _) as [ms p']. cbn [fst] in H. ok_inv H.
  destruct (f_mix_method f); [eapply sound_wood, H|]. ok_inv H. eapply sound_brie, H.
Qed.

(** ** The row *)
Lemma calculate_row_inv : forall co2 inp r, calculate_row co2 inp = Ok r ->
  exists mineral fl dry dense sat, row_parts co2 inp mineral fl dry dense /\
    check_dry_rock (i_dry_rock inp) = Ok tt /\
    fluid_substitution dry dense fl (dr_porosity (i_dry_rock inp)) = Ok sat /\
    r = mkRow (bulk sat) (bulk mineral) (bulk dry) (shear sat) (dens sat) (bulk dense).
Proof.
  intros co2 inp r H. unfold calculate_row in H. ok_inv H. destruct a1. injection H as <-.
  destruct (p_fluid (i_pressure inp)) as [p|] eqn:P; [|discriminate]. injection E3 as ->.
  exists a2, a4, a5, a6, a7. split; [|auto]. exists a, a0, a3. auto 10.
Qed.

Lemma row_ordered : forall co2 inp r, calculate_row co2 inp = Ok r ->
  exists mineral fl dry dense, row_parts co2 inp mineral fl dry dense /\
    r_kmin r = bulk mineral /\ r_kdry r = bulk dry /\ r_kmin_fls r = bulk dense /\ r_mysat r = shear dry /\
    r_rsat r = dens dry + dr_porosity (i_dry_rock inp) * dens fl /\
    0 <= r_ksat r /\ 0 <= r_kdry r /\ 0 <= r_mysat r /\ 0 < r_rsat r /\ 0 <= bulk fl /\
    (0 <= dr_porosity (i_dry_rock inp) -> r_kdry r < r_kmin_fls r -> bulk fl < r_kmin_fls r ->
       r_kdry r <= r_ksat r <= r_kmin_fls r).
Proof.
  intros co2 inp r H. destruct (calculate_row_inv _ _ _ H) as (mineral & fl & dry & dense & sat & Hp & _ & S & ->).
  exists mineral, fl, dry, dense. split; [exact Hp|]. cbn [r_kmin r_kdry r_kmin_fls r_mysat r_rsat r_ksat].
  destruct Hp as (ms & fls & p & _ & _ & _ & _ & Hf & Hd & _).
  destruct (sound_dry _ _ _ _ Hd) as [Kd Md]. destruct (sound_mixture _ _ _ _ Hf) as [Kf Mf].
  apply substitution_inv in S. destruct S as (G & Ss & Sd & W). destruct W as (W1 & W2 & W3 & _).
  rewrite Ss, Sd in *. repeat split; try assumption; try reflexivity.
  - destruct (Req_EM_T (dr_porosity (i_dry_rock inp)) 0) as [E|E].
    + rewrite E in G. unfold gassman_equation in G. destruct (Req_EM_T 0 0); [|contradiction]. injection G as <-. lra.
    + pose proof (gass_bounds (bulk dry) (bulk dense) (bulk fl) (dr_porosity (i_dry_rock inp))) as B.
      destruct (gassman_ok_inv _ _ _ _ _ G) as [[C _]|[[C _]|(_ & _ & _ & _ & C)]]; [contradiction|lra|].
      unfold gass in B. rewrite <- C in B. destruct B; lra.
  - destruct (Req_EM_T (dr_porosity (i_dry_rock inp)) 0) as [E|E].
    + rewrite E in G. unfold gassman_equation in G. destruct (Req_EM_T 0 0); [|contradiction]. injection G as <-. lra.
    + pose proof (gass_bounds (bulk dry) (bulk dense) (bulk fl) (dr_porosity (i_dry_rock inp))) as B.
      destruct (gassman_ok_inv _ _ _ _ _ G) as [[C _]|[[C _]|(_ & _ & _ & _ & C)]]; [contradiction|lra|].
      unfold gass in B. rewrite <- C in B. destruct B; lra.
Qed.

(** ** A simple configuration: one mineral, one given fluid, and a dry rock by
    a constant polynomial. *)
Definition constant_fit (k mu d : R) : coefficients (list (list R)) :=
  mkCoef Moduli (Some [[d]]) (Some [[k]]) (Some [[mu]]).
Definition simple_input (mineral fl : material) (k mu d phi : R) (l : list adjustment) : row_input :=
  mkInput [(mineral, None)]
    (mk_fluids 80 [mk_constituent (FArbitrary fl) 1 None] Wood 3 [] BatzleWang) [None]
    (mkDryRock (RockPolyfit (constant_fit k mu d)) phi l)
    (mkPressure 100 0 (Some 0) None (Some 0)).

Lemma one_fraction : fix_one_fraction [None] = Ok [1].
Proof.
  unfold fix_one_fraction. cbn [sum_given count_missing]. destruct (Rlt_dec _ _) as [H|_]; [exfalso; lra|].
  unfold fraction_is_ratio. destruct (Rlt_dec _ _) as [H|_]; [exfalso; lra|].
  destruct (Rlt_dec _ _) as [H|_]; [exfalso; lra|]. cbn [bind map]. do 2 f_equal. lra.
Qed.
Lemma one_mineral : forall m, minerals [(m, None)] = Ok [(m, 1)].
Proof.
  intros m. unfold minerals. cbn [map snd fst fraction_is_ratio sequence bind]. rewrite one_fraction. cbn [bind rsum].
  unfold isclose_one. destruct (Rle_dec _ _) as [_|H]; [reflexivity|]. exfalso. apply H.
  replace (1 + 0 - 1) with 0 by ring. rewrite Rabs_R0. pose proof (Rabs_pos 1). lra.
Qed.
Lemma one_fluid : forall fl, complete_fluids (mk_fluids 80 [mk_constituent (FArbitrary fl) 1 None] Wood 3 [] BatzleWang) [None] =
  Ok (mk_fluids 80 [mk_constituent (FArbitrary fl) 1 None] Wood 3 [] BatzleWang).
Proof.
  intros fl. unfold complete_fluids. cbn [map fraction_is_ratio sequence bind sum_given].
  destruct (Rlt_dec _ _) as [H|_]; [exfalso; lra|]. rewrite one_fraction. reflexivity.
Qed.

Lemma simple_row : forall co2 mineral fl k mu d phi l, fluid fl -> 0 < bulk fl ->
  calculate_row co2 (simple_input mineral fl k mu d phi l) =
  (let* dry := (let* m := mat_of_moduli k mu d in
                adjust_material l m (mkPressure 100 0 (Some 0) None (Some 0)) phi mineral) in
   let* sat := fluid_substitution dry mineral fl phi in
   Ok (mkRow (bulk sat) (bulk mineral) (bulk dry) (shear sat) (dens sat) (bulk mineral))).
Proof.
  intros co2 mineral fl k mu d phi l F B. unfold calculate_row, simple_input.
  cbn [i_minerals i_fluids i_fluid_fractions i_dry_rock i_pressure p_fluid].
  rewrite one_mineral, one_fluid. cbn [bind check_dry_rock check_patchy_bound check_critical dr_model].
  unfold check_dry_rock. cbn [bind check_patchy_bound check_critical dr_model minerals_as_mixture mix_loop fst].
  unfold as_mixture. cbn [f_constituents f_fluid_model f_temperature f_mix_method as_materials constituent_as_material c_material c_fluid_model
    fluid_as_material fst bind map c_fraction].
  rewrite wood_pure by (try assumption; lra). cbn [bind].
  unfold dry_rock_material. cbn [truncated_rock p_rock bind material_from_model dr_model dr_porosity dr_adjustments].
  unfold material_from_model, polyval_material. cbn [dr_model uses_moduli c_flavour constant_fit c_density c_primary c_secondary
    fit_property dr_porosity bind].
  unfold nonporous. cbn [dr_model bind]. unfold polyval2d. cbn [poly_rows map2 poly_eval]. 
  assert (P : forall x, poly_eval phi [x] = x) by (intros x; unfold poly_eval; cbn [fold_right]; ring).
  rewrite !P. reflexivity.
Qed.

Definition quartz : material := sample 4 1 3.
Definition water : material := sample 1 0 1.
Lemma water_fluid : fluid water.
Proof. apply sample_fluid; lra. Qed.
Lemma quartz_wf : wf quartz.
Proof. apply sample_wf; lra. Qed.

(** Dry rock of bulk modulus 2: the dry part is 2 / (4 - 2) = 1, the fluid part 1 / 3 / phi. *)
Definition ordinary : row_input := simple_input quartz water 2 1 2 (1 / 3) [].
Definition negative : row_input := simple_input quartz water 2 1 2 (- (1 / 3)) [].

Lemma simple_gassmann : forall co2 phi x, phi <> 0 -> 1 + 1 / 3 / phi = x -> 0 <= x -> 0 < 2 + phi ->
  calculate_row co2 (simple_input quartz water 2 1 2 phi []) = Ok (mkRow (x / (1 + x) * 4) 4 2 1 (2 + phi) 4).
Proof.
  intros co2 phi x Hp Hx X0 D. rewrite simple_row by (try apply water_fluid; cbn; lra).
  rewrite mat_of_moduli_ok by lra. cbn [bind adjust_material]. unfold fluid_substitution.
  change (bulk quartz) with 4. change (bulk water) with 1. cbn [bulk shear dens].
  assert (E : gassman_equation 2 4 1 phi = Ok (x / (1 + x) * 4)).
  { rewrite gassman_value; unfold dfac; try lra.
    - assert (E : 2 / (4 - 2) + 1 / ((4 - 1) * phi) = x) by (rewrite <- Hx; field; assumption). rewrite E. reflexivity.
    - assert (E : 2 / (4 - 2) + 1 / ((4 - 1) * phi) = x) by (rewrite <- Hx; field; assumption). rewrite E. exact X0. }
  rewrite E. cbn [bind]. rewrite mat_of_moduli_ok; [cbn [bind bulk shear dens]|change (dens water) with 1; lra| |lra].
  - change (dens water) with 1. do 2 f_equal; ring.
  - apply Rmult_le_pos; [apply div_nonneg; lra|lra].
Qed.
Lemma ordinary_row : forall co2, calculate_row co2 ordinary = Ok (mkRow (8 / 3) 4 2 1 (7 / 3) 4).
Proof.
  intros co2. unfold ordinary. rewrite (simple_gassmann co2 (1 / 3) 2) by (lra || field). do 2 f_equal; (lra || field).
Qed.
(** A negative porosity is accepted with a polynomial rock model; then the
    saturated rock can be softer than the dry one. *)
Lemma negative_row : forall co2, calculate_row co2 negative = Ok (mkRow 0 4 2 1 (5 / 3) 4).
Proof.
  intros co2. unfold negative. rewrite (simple_gassmann co2 (- (1 / 3)) 0) by (lra || field). do 2 f_equal; (lra || field).
Qed.

(** ** An empty table, with a configuration that fails *)
Definition impossible : row_input := simple_input quartz water (-2) 1 2 (1 / 3) [].
Lemma impossible_row : forall co2, calculate_row co2 impossible = Err ValueError.
Proof.
  intros co2. unfold impossible. rewrite simple_row by (try apply water_fluid; cbn; lra).
  destruct (mat_of_moduli_cases (-2) 1 2) as [[H _]|[[_ H]|[_ [H _]]]]; try (exfalso; lra). rewrite H. reflexivity.
Qed.
Lemma wf_up_input : forall n i, wf_input n (up_input i).
Proof.
  assert (O : forall n o, wfo n (opt o)) by (intros n [x|]; exact I).
  assert (M : forall n m, wfm n (up m)) by (intros n m; repeat split; exact I).
  assert (F : forall n f, wf_friable n (up_friable f)) by (intros n f; repeat split; exact I).
  assert (Q : forall n q, wf_patchy n (up_patchy q)) by (intros n q; split; [apply M|repeat split; exact I]).
  intros n i. unfold wf_input, up_input. cbn [bi_minerals bi_fluids bi_fluid_fractions bi_dry_rock bi_pressure].
  split; [|split; [|split; [|split]]].
  - apply Forall_map. apply Forall_forall. intros c _. cbn [fst snd]. auto.
  - split; [exact I|]. cbn [up_fluids bf_constituents]. apply Forall_map, Forall_forall. intros c _.
    split; [|exact I]. cbn [up_constituent bc_material]. destruct (c_material c); cbn; repeat split; exact I.
  - apply Forall_map, Forall_forall. auto.
  - split; [|split; [exact I|]]; cbn [up_dry_rock bdr_model bdr_adjustments].
    + destruct (dr_model (i_dry_rock i)); cbn [up_rock_model wf_rock_model]; auto.
    + apply Forall_map, Forall_forall. intros a _. destruct a as [t|md]; cbn [up_adjustment wf_adjustment].
      * split; [exact I|]. cbn [bdt_reference bdt_max]. auto.
      * destruct md; cbn [up_dependency wf_dependency]; auto.
  - split; [exact I|]. split; [exact I|]. cbn [up_pressure bp_fluid bp_max_effective bp_rock]. auto.
Qed.
Lemma empty_table : exists inp, wf_input 0 inp /\ forall co2, b_results co2 0 inp = Err ValueError.
Proof.
  exists (up_input impossible). split; [apply wf_up_input|]. intros co2. unfold b_results.
  rewrite sc_calculate, impossible_row. reflexivity.
Qed.

(** ** A column of reference depths with a constant depth *)
Definition at_depth (reference : arr R) : binput :=
  let i := up_input ordinary in
  mkBInput (bi_minerals i) (bi_fluids i) (bi_fluid_fractions i)
    (mkBDryRock (bdr_model (bi_dry_rock i)) (bdr_porosity (bi_dry_rock i))
       [BDepthTrend (mkBDepth (Sc 1000) (constant_fit 2 1 2) (Some reference) None)])
    (bi_pressure i).
Lemma at_depth_constant : forall co2, b_results co2 1 (at_depth (Sc 900)) = Ok [mkRow (8 / 3) 4 2 1 (7 / 3) 4].
Proof.
  intros co2. change (at_depth (Sc 900)) with (up_input (simple_input quartz water 2 1 2 (1 / 3)
    [DepthTrend (mkDepth 1000 (constant_fit 2 1 2) (Some 900) None)])).
  unfold b_results. rewrite sc_calculate, simple_row by (try apply water_fluid; cbn; lra).
  assert (E : forall m p phi mn, mat_of_moduli 2 1 2 = Ok m ->
    adjust_material [DepthTrend (mkDepth 1000 (constant_fit 2 1 2) (Some 900) None)] m p phi mn = Ok m).
  { intros m p phi mn E. cbn [adjust_material adjust_one]. unfold polyval_material.
    cbn [uses_moduli c_flavour constant_fit c_density c_primary c_secondary fit_property dt_coefficients].
    unfold polyval2d. cbn [poly_rows poly_eval fold_right bind uses_moduli c_flavour]. unfold poly_eval. cbn [fold_right].
    rewrite !Rmult_0_l, !Rplus_0_r, E. reflexivity. }
  rewrite mat_of_moduli_ok at 1 by lra. cbn [bind]. rewrite E by (apply mat_of_moduli_ok; lra).
  pose proof (ordinary_row co2) as O. unfold ordinary in O. rewrite simple_row in O by (try apply water_fluid; cbn; lra).
  rewrite mat_of_moduli_ok in O at 1 by lra. cbn [bind adjust_material] in O. cbn [bind]. rewrite O. reflexivity.
Qed.
Lemma at_depth_column : forall co2, b_results co2 1 (at_depth (Vec [900])) = Err ShapeError.
Proof.
  intros co2. unfold b_results, b_calculate_results, at_depth.
  cbn [bi_minerals bi_fluids bi_fluid_fractions bi_dry_rock bi_pressure bdr_model bdr_porosity up_input].
  rewrite sc_minerals, sc_complete_fluids. unfold ordinary, simple_input.
  cbn [i_minerals i_fluids i_fluid_fractions i_dry_rock i_pressure].
  rewrite one_mineral, one_fluid. cbn [lift bind]. unfold b_check_dry_rock. cbn [bdr_model up_dry_rock up_rock_model dr_model bind].
  rewrite sc_as_mixture. cbn [minerals_as_mixture mix_loop lift bind fst up_pressure p_fluid bp_fluid opt option_map].
  rewrite sc_fluids_as_mixture. unfold as_mixture.
  cbn [f_constituents f_fluid_model f_temperature f_mix_method as_materials constituent_as_material c_material c_fluid_model
    fluid_as_material fst bind map c_fraction].
  rewrite wood_pure by (try apply water_fluid; cbn; lra). cbn [lift bind].
  unfold b_dry_rock_material. cbn [b_truncated_rock bp_rock bind].
  unfold b_material_from_model. cbn [bdr_model bdr_porosity dr_porosity bdr_adjustments].
  rewrite sc_truncated_rock. cbn [truncated_rock p_rock lift bind up_dry_rock bdr_porosity dr_porosity].   rewrite sc_polyval. unfold polyval_material.
  cbn [uses_moduli c_flavour constant_fit c_density c_primary c_secondary fit_property].
  unfold polyval2d. cbn [poly_rows bind]. unfold poly_eval. cbn [fold_right].
  rewrite !Rmult_0_l, !Rplus_0_r, mat_of_moduli_ok by lra. reflexivity.
Qed.

(** ** Constants against columns *)
Lemma constant_or_column : forall co2 n inp inp' rows, (0 < n)%nat -> wf_input n inp -> wf_input n inp' ->
  same_values n inp inp' -> b_results co2 n inp = Ok rows ->
  b_results co2 n inp' = Ok rows \/ (b_results co2 n inp' = Err ShapeError /\ ~ combinable inp').
Proof.
  intros co2 n inp inp' rows Hn W W' S E.
  pose proof (batch_scalar co2 n inp true Hn W (or_introl eq_refl)) as A. rewrite E in A. destruct A as [L A].
  pose proof (batch_scalar co2 n inp' true Hn W' (or_introl eq_refl)) as B.
  pose proof (fun C => batch_scalar co2 n inp' false Hn W' (or_intror C)) as B'.
  destruct (b_results co2 n inp') as [rows'|e].
  - left. destruct B as [L' B]. f_equal. apply nth_error_ext; [lia|]. intros i Hi.
    destruct (A i ltac:(lia)) as [r [N R]], (B i ltac:(lia)) as [r' [N' R']].
    rewrite (S i ltac:(lia)) in R. congruence.
  - right. assert (No : ~ exists i, (i < n)%nat /\ calculate_row co2 (pick_input i inp') = Err e).
    { intros [i [Hi R']]. destruct (A i Hi) as [r [_ R]]. rewrite (S i Hi) in R. congruence. }
    destruct B as [[_ ->]|B]; [|contradiction]. split; [reflexivity|]. intros C.
    destruct (B' C) as [[F _]|F]; [discriminate|contradiction].
Qed.

Lemma ordinary_depth_differs : same_values 1 (at_depth (Sc 900)) (at_depth (Vec [900])).
Proof. intros i Hi. replace i with 0%nat by lia. reflexivity. Qed.
Lemma wf_at_depth : forall a, wfa 1 a -> wf_input 1 (at_depth a).
Proof.
  intros a H. destruct (wf_up_input 1 ordinary) as (W1 & W2 & W3 & W4 & W5). unfold at_depth.
  repeat (split; try assumption). cbn [bi_dry_rock bdr_adjustments]. constructor; [|constructor].
  split; [exact I|]. split; [exact H|exact I].
Qed.

(** ** A table of two rows *)
Definition two_rows : binput :=
  let i := up_input ordinary in
  mkBInput (bi_minerals i) (bi_fluids i) (bi_fluid_fractions i)
    (mkBDryRock (bdr_model (bi_dry_rock i)) (Vec [1 / 3; 1 / 6]) []) (bi_pressure i).
Lemma wf_two_rows : wf_input 2 two_rows.
Proof.
  destruct (wf_up_input 2 ordinary) as (W1 & W2 & W3 & W4 & W5). unfold two_rows.
  repeat (split; try assumption). constructor.
Qed.
Lemma combinable_two_rows : combinable two_rows.
Proof. split; [exact I|constructor]. Qed.
Lemma pick_mat_up : forall i m, pick_mat i (up m) = m.
Proof. intros i []. reflexivity. Qed.
Lemma two_rows_0 : pick_input 0 two_rows = ordinary.
Proof. unfold pick_input, two_rows, ordinary, simple_input. cbn. reflexivity. Qed.
Lemma two_rows_1 : pick_input 1 two_rows = simple_input quartz water 2 1 2 (1 / 6) [].
Proof. unfold pick_input, two_rows, ordinary, simple_input. cbn. reflexivity. Qed.
Lemma two_rows_1_row : forall co2, calculate_row co2 (pick_input 1 two_rows) = Ok (mkRow 3 4 2 1 (13 / 6) 4).
Proof.
  intros co2. rewrite two_rows_1, (simple_gassmann co2 (1 / 6) 3) by (lra || field).
  do 2 f_equal; (lra || field).
Qed.
Lemma two_rows_results : forall co2, b_results co2 2 two_rows =
  Ok [mkRow (8 / 3) 4 2 1 (7 / 3) 4; mkRow 3 4 2 1 (13 / 6) 4].
Proof.
  intros co2. pose proof (batch_scalar co2 2 two_rows false ltac:(lia) wf_two_rows (or_intror combinable_two_rows)) as A.
  destruct (b_results co2 2 two_rows) as [rows|e].
  - destruct A as [L A]. f_equal. apply nth_error_ext; [exact L|]. intros i Hi. rewrite L in Hi.
    destruct (A i Hi) as [r [N R]]. rewrite N. destruct i as [|[|i]]; [| |lia].
    + rewrite two_rows_0, ordinary_row in R. injection R as <-. reflexivity.
    + rewrite two_rows_1_row in R. injection R as <-. reflexivity.
  - destruct A as [[A _]|[i [Hi R]]]; [discriminate|]. destruct i as [|[|i]]; [| |lia].
    + rewrite two_rows_0, ordinary_row in R. discriminate.
    + rewrite two_rows_1_row in R. discriminate.
Qed.

(** A table of two rows of which the second fails. *)
Definition one_bad_row : binput :=
  let i := up_input ordinary in
  mkBInput [(up quartz, Some (Vec [1; 2]))] (bi_fluids i) (bi_fluid_fractions i) (bi_dry_rock i) (bi_pressure i).
Lemma wf_one_bad_row : wf_input 2 one_bad_row.
Proof.
  destruct (wf_up_input 2 ordinary) as (W1 & W2 & W3 & W4 & W5). unfold one_bad_row.
  repeat (split; try assumption). constructor; [|constructor]. split; [|reflexivity]. repeat split; exact I.
Qed.
Lemma one_bad_row_fails : forall co2,
  b_results co2 2 one_bad_row = Err ValueError /\ b_results co2 1 (obs_input true 1 one_bad_row) = Err ValueError.
Proof.
  intros co2. split; unfold b_results, b_calculate_results, one_bad_row, obs_input;
  cbn [bi_minerals map fst snd obs_option option_map obs nth_error]; unfold b_minerals;
  cbn [map snd each b_fraction_is_ratio any]; unfold guard, ltb; cbn [any amap].
  - unfold b_fraction_is_ratio. cbn. unfold ltb.
    destruct (Rlt_dec 1 _); [exfalso; lra|]. destruct (Rlt_dec 2 _); [exfalso; lra|]. cbn.
    destruct (Rlt_dec _ 1); [reflexivity|]. destruct (Rlt_dec _ 2); [reflexivity|exfalso; lra].
  - unfold b_fraction_is_ratio. cbn. unfold ltb.
    destruct (Rlt_dec 2 _); [exfalso; lra|]. cbn. destruct (Rlt_dec _ 2); [reflexivity|exfalso; lra].
Qed.

Lemma table_ordered : forall co2 n inp rows i r, (0 < n)%nat -> wf_input n inp ->
  b_results co2 n inp = Ok rows -> nth_error rows i = Some r ->
  exists mineral fl dry dense phi, row_parts co2 (pick_input i inp) mineral fl dry dense /\
    phi = pick i (bdr_porosity (bi_dry_rock inp)) /\
    r_kmin r = bulk mineral /\ r_kdry r = bulk dry /\ r_kmin_fls r = bulk dense /\ r_mysat r = shear dry /\
    r_rsat r = dens dry + phi * dens fl /\
    0 <= r_ksat r /\ 0 <= r_kdry r /\ 0 <= r_mysat r /\ 0 < r_rsat r /\ 0 <= bulk fl /\
    (0 <= phi -> r_kdry r < r_kmin_fls r -> bulk fl < r_kmin_fls r -> r_kdry r <= r_ksat r <= r_kmin_fls r).
Proof.
  intros co2 n inp rows i r Hn W E N.
  pose proof (batch_scalar co2 n inp true Hn W (or_introl eq_refl)) as A. rewrite E in A. destruct A as [L A].
  assert (Hi : (i < n)%nat) by (rewrite <- L; apply nth_error_Some; congruence).
  destruct (A i Hi) as [r' [N' R]]. rewrite N in N'. injection N' as <-.
  destruct (row_ordered _ _ _ R) as (mineral & fl & dry & dense & Hp & H).
  exists mineral, fl, dry, dense, (pick i (bdr_porosity (bi_dry_rock inp))). split; [exact Hp|].
  split; [reflexivity|]. exact H.
Qed.
