(** Examples of runs with warnings. *)
From Coq Require Import String List ZArith Bool Lra Lia.
From Verif Require Import Base BaseProofs MaterialModel FluidModel FluidProofs BatzleWangModel ConfigModel MineralsModel FluidsModel RowModel RowSpec Spec
  RowProofs RowScalarProofs BatzleWangProofs BatzleWangSpec RowResultProofs MaterialProofs WarnModel WarnSpec WarnProofs.
Import ListNotations.
Open Scope R_scope.

(** ** A rock that takes every fluid: as stiff as its mineral *)
Definition stiff_rock (l : list adjustment) : dry_rock := mkDryRock (RockPolyfit (constant_fit 4 1 2)) (1 / 3) l.
Definition stiff_input (f : fluids) (fr : list (option R)) (p : R) : row_input :=
  mkInput [(quartz, None)] f fr (stiff_rock []) (mkPressure (10 ^ 8) 0 (Some p) None (Some p)).
Lemma stiff_row : forall co2 f f' fr p mf, complete_fluids f fr = Ok f' -> fst (as_mixture co2 f' p) = Ok mf -> 0 < dens mf ->
  is_ok (calculate_row co2 (stiff_input f fr p)).
Proof.
  intros co2 f f' fr p mf E1 E2 D. unfold calculate_row, stiff_input.
  cbn [i_minerals i_fluids i_fluid_fractions i_dry_rock i_pressure p_fluid].
  rewrite one_mineral, E1. cbn [bind]. unfold check_dry_rock, stiff_rock. cbn [bind check_patchy_bound check_critical dr_model minerals_as_mixture mix_loop fst].
  rewrite E2. cbn [bind]. unfold dry_rock_material. cbn [truncated_rock p_rock bind material_from_model dr_model dr_porosity dr_adjustments].
  unfold material_from_model, polyval_material. cbn [dr_model uses_moduli c_flavour constant_fit c_density c_primary c_secondary
    fit_property dr_porosity bind].
  unfold nonporous. cbn [dr_model bind]. unfold polyval2d. cbn [poly_rows map2 poly_eval].
  assert (P : forall x, poly_eval (1 / 3) [x] = x) by (intros x; unfold poly_eval; cbn [fold_right]; ring).
  rewrite !P. cbn [bind].
  destruct (mat_of_moduli_spec 4 1 2) as (dry & Ed & (Kd & Sd & Dd & _) & _); [lra|lra|lra|].
  rewrite Ed. cbn [bind adjust_material]. unfold fluid_substitution, gassman_equation.
  destruct (Req_EM_T (1 / 3) 0) as [H|_]; [lra|]. rewrite Kd. change (bulk quartz) with 4.
  destruct (Req_EM_T 4 4) as [_|H]; [|lra]. cbn [bind].
  destruct (mat_of_moduli_spec 4 (shear dry) (dens dry + 1 / 3 * dens mf)) as (sat & Es & _); [lra|lra|lra|].
  rewrite Es. eexists. reflexivity.
Qed.

(** ** An oil *)
Lemma sample_oil : forall p, 0 < p <= 73 * 10 ^ 6 -> exists m, oil 0 p 800 100 (8 / 10) = Ok m /\ fluid m /\ 0 < bulk m.
Proof.
  intros p P. destruct (live_oil_sample p 100) as [l L]; [lra|lra|]. destruct (dead_oil_sample p) as [d D]; [lra|].
  destruct (proj2 (oil_defined 0 p 800 100 (8 / 10))) as [o O]; [split; eexists; eassumption|].
  assert (E : o = l) by (eapply (oil_ends _ _ _ _ _ _ _ _ O D L); rewrite Rabs_right; lra). subst o.
  exists l. split; [exact O|].
  assert (Q : sqrt (8 / 10 / (800 / 1000)) = 1) by (replace (8 / 10 / (800 / 1000)) with 1 by field; apply sqrt_1).
  destruct (live_oil_value 0 p 800 100 (8 / 10) l) as (Dl & PR & V & M); [lra|lra|rewrite Q; lra|exact L|].
  destruct (live_oil_inv _ _ _ _ _ _ L) as (C1 & C2 & _).
  assert (U : 0 < vp l).
  { rewrite V. unfold bw_oil_velocity. set (s := sqrt _). assert (0 <= s) by apply sqrt_pos. clearbody s.
    assert (0 < p / 10 ^ 6) by (apply Rdiv_lt_0_compat; lra). nra. }
  destruct M as (M1 & M2 & M3 & M4).
  assert (B : 0 < bulk l) by (rewrite M1; apply Rmult_lt_0_compat; [apply pow_lt|]; lra).
  split; [|exact B]. split; [|exact M2]. unfold wf. split; [lra|]. split; [lra|]. split; [lra|]. rewrite M1, M2. unfold is_material. rewrite M1, M2. tauto.
Qed.
Lemma sample_bubble_point : 10 ^ 5 < bubble_point_pressure 0 800 100 (8 / 10) < 50 * 10 ^ 6.
Proof.
  unfold bubble_point_pressure. destruct (Rlt_dec _ _) as [_|H]; [|lra].
  replace (100 / (8 / 10)) with 125 by field. replace (377 / 100000 * 0 - 4072 / 800) with (- (509 / 100)) by field.
  assert (A : 11 <= Rpower 125 (83 / 100) <= 125).
  { split.
    - apply Rle_trans with (Rpower 125 (/ 2)); [|apply Rle_Rpower; lra]. rewrite Rpower_sqrt by lra.
      rewrite <- (sqrt_square 11) by lra. apply sqrt_le_1_alt. lra.
    - apply Rle_trans with (Rpower 125 1); [apply Rle_Rpower; lra|]. rewrite Rpower_1; lra. }
  assert (B : 1 / 729 <= exp (- (509 / 100)) <= 1 / 80).
  { split.
    - rewrite exp_Ropp. unfold Rdiv. rewrite Rmult_1_l. apply Rinv_le_contravar; [apply exp_pos|].
      apply Rle_trans with (exp 6); [left; apply exp_increasing; lra|].
      replace 6 with (1 + 1 + 1 + 1 + 1 + 1) by ring. rewrite !exp_plus. pose proof exp_le_3. pose proof (exp_pos 1).
      set (e := exp 1) in *. clearbody e. assert (e * e <= 9) by nra. assert (e * e * (e * e) <= 81) by nra. nra.
    - rewrite exp_Ropp. unfold Rdiv. rewrite Rmult_1_l. apply Rinv_le_contravar; [lra|].
      apply Rle_trans with (exp 5); [|left; apply exp_increasing; lra].
      assert (Q : 5 / 4 <= exp (1 / 4)) by (pose proof (exp_ineq1 (1 / 4) ltac:(lra)); lra).
      assert (E : exp 5 = exp (1 / 4) ^ 20).
      { replace 5 with (INR 20 * (1 / 4)) by (simpl; lra). generalize 20%nat. intros k. induction k as [|k IH].
        - simpl. rewrite Rmult_0_l. apply exp_0.
        - rewrite S_INR, Rmult_plus_distr_r, Rmult_1_l, exp_plus, IH. simpl. ring. }
      rewrite E. apply Rle_trans with ((5 / 4) ^ 20); [lra|]. apply pow_incr. lra. }
  set (a := Rpower 125 (83 / 100)) in *. set (b := exp (- (509 / 100))) in *. clearbody a b.
  assert (11 * (1 / 729) <= a * b) by (apply Rmult_le_compat; lra). assert (a * b <= 125 * (1 / 80)) by (apply Rmult_le_compat; lra).
  replace (244697939134 / 10 ^ 4 * a * b) with (244697939134 / 10 ^ 4 * (a * b)) by ring. split; nra.
Qed.

(** ** A table of two rows: the same oil at 0.1 and at 50 MPa *)
Definition oil_fluids : fluids := mk_fluids 0 [mk_constituent (FOil 800 100 (8 / 10)) 1 None] Wood 3 [] BatzleWang.
Definition oil_table : binput :=
  let i := up_input (stiff_input oil_fluids [None] 0) in
  let p := Some (Vec [10 ^ 5; 50 * 10 ^ 6]) in
  mkBInput (bi_minerals i) (bi_fluids i) (bi_fluid_fractions i) (bi_dry_rock i) (mkBPressure (Sc (10 ^ 8)) (Sc 0) p None p).
Lemma wf_oil_table : wf_input 2 oil_table.
Proof.
  destruct (wf_up_input 2 (stiff_input oil_fluids [None] 0)) as (W1 & W2 & W3 & W4 & W5). unfold oil_table.
  split; [exact W1|]. split; [exact W2|]. split; [exact W3|]. split; [exact W4|]. repeat split.
Qed.
Lemma oil_row : forall co2 p, 0 < p <= 73 * 10 ^ 6 -> is_ok (calculate_row co2 (stiff_input oil_fluids [None] p)).
Proof.
  intros co2 p P. destruct (sample_oil p P) as (m & E & F & B).
  apply (stiff_row co2 oil_fluids oil_fluids [None] p m).
  - unfold complete_fluids. cbn [map fraction_is_ratio sequence bind sum_given].
    destruct (Rlt_dec _ _) as [H|_]; [exfalso; lra|]. rewrite one_fraction. reflexivity.
  - unfold as_mixture, oil_fluids. cbn [f_constituents f_fluid_model f_temperature f_mix_method as_materials constituent_as_material c_material c_fluid_model
      fluid_as_material fst bind map c_fraction]. rewrite E. cbn [fst bind map c_fraction]. apply wood_pure; [exact F|exact B|lra].
  - destruct F as [[F _] _]. exact F.
Qed.
Lemma oil_table_ok : forall co2, is_ok (b_calculate_results co2 oil_table).
Proof.
  intros co2. pose proof (batch_scalar co2 2 oil_table false ltac:(lia) wf_oil_table (or_intror (conj I (Forall_nil _)))) as A.
  unfold b_results in A. destruct (b_calculate_results co2 oil_table) as [o|e]; [exists o; reflexivity|]. exfalso. cbn [bind] in A.
  destruct A as [[A _]|(i & Hi & R)]; [discriminate|]. destruct i as [|[|i]]; [| |lia].
  - destruct (oil_row co2 (10 ^ 5)) as [r E]; [lra|]. change (pick_input 0 oil_table) with (stiff_input oil_fluids [None] (10 ^ 5)) in R. congruence.
  - destruct (oil_row co2 (50 * 10 ^ 6)) as [r E]; [lra|]. change (pick_input 1 oil_table) with (stiff_input oil_fluids [None] (50 * 10 ^ 6)) in R. congruence.
Qed.
Lemma oil_table_pressure : forall i p, (i < 2)%nat -> bp_fluid (bi_pressure oil_table) = Some p -> 0 <= pick i p.
Proof. intros [|[|i]] p Hi E; [| |lia]; injection E as <-; cbn [pick nth]; lra. Qed.
Lemma oil_table_log : forall co2 w, In w (fst (l_calculate_results co2 oil_table)) <-> w = BelowBubblePoint.
Proof.
  intros co2 w. destruct (oil_table_ok co2) as [out E].
  rewrite (results_log co2 2 oil_table out ltac:(lia) wf_oil_table eq_refl oil_table_pressure E w).
  pose proof sample_bubble_point as B. split.
  - intros [[]|(i & j & c & p & Hi & J & _ & D)]. destruct j as [|j]; [|destruct j; discriminate].
    injection J as <-. destruct D as [_ D]. destruct w; cbn in D; try contradiction. reflexivity.
  - intros ->. right. exists 0%nat, 0%nat. do 2 eexists. split; [lia|]. split; [reflexivity|]. split; [reflexivity|].
    split; [reflexivity|]. cbn [up_constituent bc_material c_material pick_fluid up_fluid pick nth carbon_dioxide_before pow]. cbn.
    cbn in B. lra.
Qed.
Lemma nodup_one : forall (l : list warning) w, NoDup l -> (forall v, In v l <-> v = w) -> l = [w].
Proof.
  intros l w N H. destruct l as [|a l]; [destruct (proj2 (H w) eq_refl)|].
  assert (a = w) by (apply H; left; reflexivity). subst a. inversion N as [|? ? Na Nl]; subst. destruct l as [|b l]; [reflexivity|].
  exfalso. apply Na. assert (b = w) by (apply H; right; left; reflexivity). subst b. left. reflexivity.
Qed.
Lemma oil_table_printed : forall co2, printed (fst (l_calculate_results co2 oil_table)) = [BelowBubblePoint].
Proof.
  intros co2. destruct (printed_once (fst (l_calculate_results co2 oil_table))) as [N H]. apply nodup_one; [exact N|].
  intros v. rewrite H. apply oil_table_log.
Qed.

(** ** Carbon dioxide first *)
Definition some_co2 : equation_of_state := fun _ _ _ => Ok water.
Definition carbon_first (f : fluid_type) : fluids :=
  mk_fluids 0 [mk_constituent (FCarbonDioxide false) (1 / 2) (Some SpanWagner); mk_constituent f (1 / 2) None] Wood 3 [] BatzleWang.
Definition carbon_input (f : fluid_type) (p : R) : binput := up_input (stiff_input (carbon_first f) [Some (1 / 2); Some (1 / 2)] p).
Lemma carbon_row : forall f p m, fluid_as_material some_co2 BatzleWang f 0 (p / 10 ^ 6) = (Ok m, p / 10 ^ 6) -> fluid m -> 0 < bulk m ->
  is_ok (b_calculate_results some_co2 (carbon_input f p)).
Proof.
  intros f p m E F B. unfold carbon_input. rewrite sc_calculate.
  destruct (wood_value [water; m] [1 / 2; 1 / 2]) as (x & Ex & Fx & _).
  { constructor; [split; [exact water_fluid|cbn; lra]|]. constructor; [split; assumption|constructor]. }
  { split; [reflexivity|]. split; [repeat constructor; lra|]. cbn. lra. }
  destruct (stiff_row some_co2 (carbon_first f) (carbon_first f) [Some (1 / 2); Some (1 / 2)] p x) as [r Er].
  - unfold complete_fluids. cbn [map sequence].
    assert (Q : fraction_is_ratio (Some (1 / 2)) = Ok (Some (1 / 2))).
    { unfold fraction_is_ratio. destruct (Rlt_dec _ _); [lra|]. destruct (Rlt_dec _ _); [lra|]. reflexivity. }
    rewrite Q. cbn [bind sum_given]. destruct (Rlt_dec _ _) as [H|_]; [exfalso; lra|].
    unfold fix_one_fraction. cbn [sum_given count_missing]. destruct (Rlt_dec _ _) as [H|_]; [exfalso; lra|]. reflexivity.
  - unfold as_mixture, carbon_first. cbn [f_constituents f_fluid_model f_temperature f_mix_method as_materials].
    unfold constituent_as_material at 1. cbn [c_material c_fluid_model fluid_as_material]. unfold span_wagner_carbon_dioxide, some_co2.
    unfold constituent_as_material. cbn [c_material c_fluid_model]. fold some_co2. rewrite E. cbn [fst bind map c_fraction]. exact Ex.
  - destruct Fx as [[Fx _] _]. exact Fx.
  - rewrite Er. eexists. reflexivity.
Qed.
Lemma carbon_wf : forall f p, wf_input 1 (carbon_input f p).
Proof. intros f p. apply wf_up_input. Qed.

Lemma bubble_misled : exists co2 inp out p f, wf_input 1 inp /\ b_calculate_results co2 inp = Ok out /\
  bp_fluid (bi_pressure inp) = Some (Sc p) /\ bf_temperature (bi_fluids inp) = Sc 0 /\ map bc_material (bf_constituents (bi_fluids inp)) = [BCarbonDioxide false; f] /\
  f = BOil (Sc 800) (Sc 100) (Sc (8 / 10)) /\ bubble_point_pressure 0 800 100 (8 / 10) < p /\
  In BelowBubblePoint (fst (l_calculate_results co2 inp)).
Proof.
  pose proof sample_bubble_point as B. destruct (sample_oil (50 * 10 ^ 6 / 10 ^ 6)) as (m & E & F & K); [lra|].
  destruct (carbon_row (FOil 800 100 (8 / 10)) (50 * 10 ^ 6) m) as [out O]; [cbn [fluid_as_material]; rewrite E; reflexivity|exact F|exact K|].
  exists some_co2, (carbon_input (FOil 800 100 (8 / 10)) (50 * 10 ^ 6)), out, (50 * 10 ^ 6), (BOil (Sc 800) (Sc 100) (Sc (8 / 10))).
  split; [apply carbon_wf|]. split; [exact O|]. do 4 (split; [reflexivity|]). split; [lra|].
  eapply (results_log some_co2 1 _ out ltac:(lia) (carbon_wf _ _) eq_refl); [|exact O|].
  - intros i p Hi Ep. injection Ep as <-. cbn [pick]. lra.
  - right. exists 0%nat, 1%nat. do 2 eexists. split; [lia|]. split; [reflexivity|]. split; [reflexivity|]. split; [reflexivity|].
    cbn. cbn in B. lra.
Qed.

Lemma water_misled : exists co2 inp out p, wf_input 1 inp /\ b_calculate_results co2 inp = Ok out /\
  bp_fluid (bi_pressure inp) = Some (Sc p) /\ bf_fluid_model (bi_fluids inp) = BatzleWang /\
  map bc_material (bf_constituents (bi_fluids inp)) = [BCarbonDioxide false; BBrine (Sc 0)] /\
  100 * 10 ^ 6 < p /\ forall w, ~ In w (fst (l_calculate_results co2 inp)).
Proof.
  destruct (brine_usable 0 (150 * 10 ^ 6 / 10 ^ 6) 0) as (m & E & F & K & _); [lra|lra|lra|].
  destruct (carbon_row (FBrine 0) (150 * 10 ^ 6) m) as [out O]; [cbn [fluid_as_material]; rewrite E; reflexivity|exact F|exact K|].
  exists some_co2, (carbon_input (FBrine 0) (150 * 10 ^ 6)), out, (150 * 10 ^ 6).
  split; [apply carbon_wf|]. split; [exact O|]. do 3 (split; [reflexivity|]). split; [lra|]. intros w Hw.
  apply (results_log some_co2 1 _ out ltac:(lia) (carbon_wf _ _) eq_refl) in Hw; [| |exact O].
  - destruct Hw as [[]|(i & j & c & p & Hi & J & Ep & _ & D)]. injection Ep as <-.
    destruct j as [|[|j]]; [| |destruct j; discriminate]; injection J as <-; destruct w; cbn in D; try contradiction. destruct D as [-> D]. lra.
  - intros i p Hi Ep. injection Ep as <-. cbn [pick]. lra.
Qed.

(** ** Negative pressure *)
Lemma negative_pressure : exists t p s m, p < 0 /\ brine t p s = Ok m /\ fst (l_brine t p s) = [].
Proof.
  destruct (brine_ok 0 (- 10 ^ 6) 0) as [m E]; [lra| | |].
  - replace (0 / 10 ^ 6) with 0 by field. rewrite brine_fresh_density. unfold bw_water_density. lra.
  - replace (0 / 10 ^ 6) with 0 by field. rewrite brine_fresh_velocity. unfold bw_water_velocity. lra.
  - exists 0, (- 10 ^ 6), 0, m. split; [lra|]. split; [exact E|]. rewrite brine_log. unfold ltb. destruct (Rlt_dec _ _); [lra|reflexivity].
Qed.
