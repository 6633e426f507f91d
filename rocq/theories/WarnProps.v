(** C225-C228: warnings. *)
From Coq Require Import String List ZArith Bool Lra Lia.
From Verif Require Import Base MaterialModel FluidModel BatzleWangModel ConfigModel FluidsModel RowModel RowSpec
  RowResultProofs WarnModel WarnSpec WarnProofs WarnExampleProofs.
Import ListNotations.
Open Scope R_scope.

(** C225: with warnings or without, every calculation has the same result, ... *)
Theorem C225_results : forall co2 inp, snd (l_calculate_results co2 inp) = b_calculate_results co2 inp.
Proof. exact erase_results. Qed.
Print Assumptions C225_results.
Theorem C225_fluids : forall t p r rg g s,
  snd (l_oil t p r rg g) = oil t p r rg g /\ snd (l_live_oil t p r rg g) = live_oil t p r rg g /\
  snd (l_brine t p s) = brine t p s /\ snd (l_water t p) = BatzleWangModel.water t p.
Proof.
  intros. split; [apply erase_oil|]. split; [apply erase_live_oil|]. split; [apply erase_brine|apply erase_water].
Qed.
Print Assumptions C225_fluids.
(** ... and what is printed are the warnings given, each once. *)
Theorem C225_printed : forall l, NoDup (printed l) /\ forall w, In w (printed l) <-> In w l.
Proof. exact printed_once. Qed.
Print Assumptions C225_printed.
Example C225_nonvacuous : forall co2, (exists out, snd (l_calculate_results co2 oil_table) = Ok out) /\
  printed (fst (l_calculate_results co2 oil_table)) = [BelowBubblePoint].
Proof.
  intros co2. split; [|apply oil_table_printed]. destruct (oil_table_ok co2) as [o E]. exists o. rewrite erase_results. exact E.
Qed.

(** C226: the warnings of a run are exactly those for adjustments of one kind
    and those a row deserves. *)
Theorem C226_run : forall co2 n inp out, foreseeable n inp -> b_calculate_results co2 inp = Ok out ->
  forall w, In w (fst (l_calculate_results co2 inp)) <->
    repeated (bdr_adjustments (bi_dry_rock inp)) w \/ exists i, (i < n)%nat /\ row_deserves inp i w.
Proof.
  intros co2 n inp out (Hn & W & L & P) E w. rewrite (results_log co2 n inp out Hn W L P E w), duplicates_spec.
  apply or_iff_compat_l. split.
  - intros (i & j & c & p & Hi & D). exists i. split; [exact Hi|]. exists j, c, p. exact D.
  - intros (i & Hi & j & c & p & D). exists i, j, c, p. tauto.
Qed.
Print Assumptions C226_run.
(** C226: so a table is warned about exactly as its rows are, ... *)
Theorem C226_rows : forall co2 n inp out, foreseeable n inp -> b_calculate_results co2 inp = Ok out ->
  forall w, In w (fst (l_calculate_results co2 inp)) <->
    exists i, (i < n)%nat /\ In w (fst (l_calculate_results co2 (obs_input true i inp))).
Proof. intros co2 n inp out (Hn & W & L & P). apply rows_log; assumption. Qed.
Print Assumptions C226_rows.
(** ... and adjustments of one kind are warned about whatever else happens. *)
Theorem C226_adjustments : forall co2 inp w, repeated (bdr_adjustments (bi_dry_rock inp)) w ->
  In w (fst (l_calculate_results co2 inp)).
Proof.
  intros co2 inp w H. apply duplicates_spec in H. unfold l_calculate_results.
  match goal with |- In _ (fst (lbind (?l, ?r) ?k)) => destruct r as [mf|e] end.
  - cbn [lbind]. match goal with |- context [lbind ?a ?b] => destruct (lbind a b) as [l r] end. cbn [fst]. apply in_or_app. left. exact H.
  - exact H.
Qed.
Print Assumptions C226_adjustments.
Example C226_nonvacuous : forall co2, foreseeable 2 oil_table /\ (exists out, b_calculate_results co2 oil_table = Ok out) /\
  row_deserves oil_table 0 BelowBubblePoint /\ forall w, ~ row_deserves oil_table 1 w.
Proof.
  intros co2. pose proof sample_bubble_point as B. split; [|split; [|split]].
  - split; [lia|]. split; [exact wf_oil_table|]. split; [reflexivity|exact oil_table_pressure].
  - apply oil_table_ok.
  - exists 0%nat. do 2 eexists. split; [reflexivity|]. split; [reflexivity|]. split; [reflexivity|]. cbn. cbn in B. lra.
  - intros w (j & c & p & J & Ep & _ & D). destruct j as [|j]; [|destruct j; discriminate].
    injection J as <-. injection Ep as <-. destruct w; cbn in D; try contradiction. cbn in B. lra.
Qed.
Example C226_adjustments_nonvacuous : forall a b, repeated [BDepthTrend a; BPressureDependency (BFriable (mkBFriable (Sc 0) (Sc 0) (Sc 0))); BDepthTrend b] DepthTrends.
Proof. intros a b. right. split; [reflexivity|]. exists 0%nat, 2%nat, a, b. repeat split; lia. Qed.

(** C227: a water velocity is warned about exactly above 100 MPa, with the
    pressure at hand in the text. *)
Theorem C227_above : forall t p w, In w (fst (l_water_primary_velocity t p)) <-> 100 < p /\ w = WaterPressure p.
Proof.
  intros t p w. rewrite water_velocity_log. unfold ltb. destruct (Rlt_dec 100 p) as [H|H]; cbn; [|tauto].
  split; [intros [<-|[]]; auto|intros [_ ->]; auto].
Qed.
Print Assumptions C227_above.
Theorem C227_brine : forall t p s w, In w (fst (l_brine t p s)) <-> 100 < p / 10 ^ 6 /\ w = WaterPressure (p / 10 ^ 6).
Proof.
  intros t p s w. rewrite brine_log. replace (p * (1 / 10 ^ 6)) with (p / 10 ^ 6) by field.
  unfold ltb. destruct (Rlt_dec 100 (p / 10 ^ 6)) as [H|H]; cbn; [|tauto].
  split; [intros [<-|[]]; auto|intros [_ ->]; auto].
Qed.
Print Assumptions C227_brine.
(** C227 is false of negative pressures, though the text says [0,100] MPa, ... *)
Theorem C227_negative_refuted : exists t p s m, p < 0 /\ brine t p s = Ok m /\ fst (l_brine t p s) = [].
Proof. exact negative_pressure. Qed.
Print Assumptions C227_negative_refuted.
(** ... and of brine that comes after carbon dioxide. *)
Theorem C227_missed_refuted : exists co2 inp out p, wf_input 1 inp /\ b_calculate_results co2 inp = Ok out /\
  bp_fluid (bi_pressure inp) = Some (Sc p) /\ bf_fluid_model (bi_fluids inp) = BatzleWang /\
  map bc_material (bf_constituents (bi_fluids inp)) = [BCarbonDioxide false; BBrine (Sc 0)] /\
  100 * 10 ^ 6 < p /\ forall w, ~ In w (fst (l_calculate_results co2 inp)).
Proof. exact water_misled. Qed.
Print Assumptions C227_missed_refuted.
Example C227_nonvacuous : fst (l_brine 20 (150 * 10 ^ 6) 0) = [WaterPressure (150 * 10 ^ 6 * (1 / 10 ^ 6))] /\ fst (l_brine 20 (50 * 10 ^ 6) 0) = [].
Proof. rewrite !brine_log. unfold ltb. split; (destruct (Rlt_dec _ _); [|]); lra || reflexivity. Qed.

(** C228: without carbon dioxide, a run warns of the bubble point exactly if the
    pressure in some row is below the bubble point of an oil there. *)
Theorem C228_plain : forall co2 n inp out, foreseeable n inp -> b_calculate_results co2 inp = Ok out ->
  (forall c b, In c (bf_constituents (bi_fluids inp)) -> bc_material c <> BCarbonDioxide b) ->
  (In BelowBubblePoint (fst (l_calculate_results co2 inp)) <->
   exists i c p r rg g, (i < n)%nat /\ In c (bf_constituents (bi_fluids inp)) /\ bp_fluid (bi_pressure inp) = Some p /\
     bc_material c = BOil r rg g /\ model_of (bf_fluid_model (bi_fluids inp)) c = BatzleWang /\
     pick i p < bubble_point_pressure (pick i (bf_temperature (bi_fluids inp))) (pick i r) (pick i rg) (pick i g)).
Proof.
  intros co2 n inp out F E N.
  assert (Z : forall cs, (forall c b, In c cs -> bc_material c <> BCarbonDioxide b) -> forall j, carbon_dioxide_before j cs = 0%nat).
  { induction cs as [|c cs IH]; intros H [|j]; try reflexivity. cbn [carbon_dioxide_before].
    rewrite IH by (intros c' b Hc; apply H; right; exact Hc). specialize (H c). destruct (bc_material c); try reflexivity. destruct (H interpolate_density); [left|]; reflexivity. }
  rewrite (C226_run co2 n inp out F E). split.
  - intros [[[H _]|[H _]]|(i & Hi & j & c & p & J & Ep & M & D)]; try discriminate. rewrite (Z _ N) in D. cbn [pow] in D. unfold Rdiv in D. rewrite Rinv_1, Rmult_1_r in D.
    destruct (bc_material c) as [|r rg g| | | |] eqn:Ec; cbn in D; try contradiction.
    exists i, c, p, r, rg, g. repeat (split; [assumption || (eapply nth_error_In, J)|]). exact D.
  - intros (i & c & p & r & rg & g & Hi & Hc & Ep & Ec & M & D). right. exists i. split; [exact Hi|].
    apply In_nth_error in Hc. destruct Hc as [j J]. exists j, c, p. split; [exact J|]. split; [exact Ep|]. split; [exact M|].
    rewrite (Z _ N), Ec. cbn [pow pick_fluid]. unfold Rdiv. rewrite Rinv_1, Rmult_1_r. exact D.
Qed.
Print Assumptions C228_plain.
(** C228: the bubble point of an oil without gas is zero, that of an oil with gas
    rises with temperature, density and gas-oil ratio and falls with gas gravity. *)
Theorem C228_dead : forall t r g, bubble_point_pressure t r 0 g = 0.
Proof. intros t r g. unfold bubble_point_pressure, Rdiv. rewrite Rmult_0_l. destruct (Rlt_dec 0 0); [lra|reflexivity]. Qed.
Print Assumptions C228_dead.
Theorem C228_monotone : forall t t' r r' rg rg' g g', t <= t' -> 0 < r <= r' -> 0 < rg <= rg' -> 0 < g' <= g ->
  0 < bubble_point_pressure t r rg g <= bubble_point_pressure t' r' rg' g'.
Proof.
  intros t t' r r' rg rg' g g' T [R1 R2] [S1 S2] [G1 G2].
  assert (Q : 0 < rg / g) by (apply Rdiv_lt_0_compat; lra). assert (Q' : 0 < rg' / g') by (apply Rdiv_lt_0_compat; lra).
  assert (QQ : rg / g <= rg' / g').
  { apply Rmult_le_compat; [lra|left; apply Rinv_0_lt_compat; lra|lra|apply Rinv_le_contravar; lra]. }
  unfold bubble_point_pressure. destruct (Rlt_dec 0 (rg / g)) as [_|H]; [|contradiction]. destruct (Rlt_dec 0 (rg' / g')) as [_|H]; [|contradiction].
  assert (A : 0 < Rpower (rg / g) (83 / 100) <= Rpower (rg' / g') (83 / 100)).
  { split; [apply exp_pos|]. apply Rle_Rpower_l; lra. }
  assert (B : 0 < exp (377 / 100000 * t - 4072 / r) <= exp (377 / 100000 * t' - 4072 / r')).
  { split; [apply exp_pos|]. assert (I : / r' <= / r) by (apply Rinv_le_contravar; lra).
    assert (L : 377 / 100000 * t - 4072 / r <= 377 / 100000 * t' - 4072 / r') by (unfold Rdiv; lra).
    destruct L as [L|L]; [left; apply exp_increasing, L|rewrite L; apply Rle_refl]. }
  split; [apply Rmult_lt_0_compat; [apply Rmult_lt_0_compat|]; lra|].
  apply Rmult_le_compat; [apply Rmult_le_pos; lra|lra|apply Rmult_le_compat_l; lra|lra].
Qed.
Print Assumptions C228_monotone.
(** C228 is false after carbon dioxide: its equation of state leaves the pressure
    divided by a million, and oil well above its bubble point is warned about. *)
Theorem C228_refuted : exists co2 inp out p f, wf_input 1 inp /\ b_calculate_results co2 inp = Ok out /\
  bp_fluid (bi_pressure inp) = Some (Sc p) /\ bf_temperature (bi_fluids inp) = Sc 0 /\
  map bc_material (bf_constituents (bi_fluids inp)) = [BCarbonDioxide false; f] /\
  f = BOil (Sc 800) (Sc 100) (Sc (8 / 10)) /\ bubble_point_pressure 0 800 100 (8 / 10) < p /\
  In BelowBubblePoint (fst (l_calculate_results co2 inp)).
Proof. exact bubble_misled. Qed.
Print Assumptions C228_refuted.
Example C228_nonvacuous : forall co2, foreseeable 2 oil_table /\ (exists out, b_calculate_results co2 oil_table = Ok out) /\
  (forall c b, In c (bf_constituents (bi_fluids oil_table)) -> bc_material c <> BCarbonDioxide b) /\
  In BelowBubblePoint (fst (l_calculate_results co2 oil_table)).
Proof.
  intros co2. destruct (C226_nonvacuous co2) as (F & E & _). split; [exact F|]. split; [exact E|]. split.
  - intros c b [<-|[]]. discriminate.
  - apply oil_table_log. reflexivity.
Qed.
