(** Concrete tables with nan. *)
From Coq Require Import String List ZArith Lra Lia.
From Verif Require Import Base BaseProofs MaterialModel MaterialProofs MineralsModel FluidModel FluidProofs ConfigModel FluidsModel RowModel
  RowSpec RowScalarProofs RowResultProofs RowProps NumModel NanModel NanSpec RelProofs EmbedProofs EmbedRowProofs NanRowProofs.
Import ListNotations.
Open Scope R_scope.

(** The rows of [two_rows] with other porosities. *)
Definition with_porosity (phi : arr num) : ninput :=
  let i := num_input two_rows in
  mkNInput (ni_minerals i) (ni_fluids i) (ni_fluid_fractions i)
    (mkNDryRock (ndr_model (ni_dry_rock i)) phi []) (ni_pressure i).

(** A result of the model without nan, seen by the model with nan. *)
Lemma sim_value : forall {A B} (P : A -> B -> Prop) x a (y : res B), sim P x y -> x = Ok a -> exists b, y = Ok b /\ P a b.
Proof. intros A B P x a y H ->. destruct y as [b|e]; [exists b; split; [reflexivity|exact H]|contradiction]. Qed.

Lemma constant_nan : forall m, n_polyval_material (Vec [Nan]) (num_mat (up m)) (constant_fit 2 1 2) =
  Ok (mkNB (Vec [Nan]) (Vec [Nan]) (Vec [Nan]) (Vec [Nan]) (Vec [Nan])).
Proof. intros m. reflexivity. Qed.

Lemma nan_porosity_row : forall co2,
  n_results (with_nan co2) 1 (with_porosity (Vec [Nan])) = Ok [mkNRow Nan (Num 4) Nan Nan Nan (Num 4)].
Proof.
  intros co2. unfold n_results, n_calculate_results, with_porosity.
  cbn [ni_minerals ni_fluids ni_fluid_fractions ni_dry_rock ni_pressure].
  assert (M : exists l, n_minerals (ni_minerals (num_input two_rows)) = Ok l /\
    n_minerals_as_mixture l = Ok (num_mat (up quartz))).
  { destruct (sim_value _ _ (map upc [(quartz, 1)]) _ (sim_minerals [(up quartz, None)] (ni_minerals (num_input two_rows))
      ltac:(constructor; [split; [apply realb_num|exact I]|constructor]))) as [l [L S]].
    { change [(up quartz, None)] with (map (fun c : material * option R => (up (fst c), opt (snd c))) [(quartz, None)]).
      rewrite sc_minerals, one_mineral. reflexivity. }
    exists l. split; [exact L|].
    destruct (sim_value _ _ (up quartz) _ (sim_as_mixture_minerals _ _ S)) as [m [E R]]; [reflexivity|].
    rewrite E, (realb_num_eq _ _ R). reflexivity. }
  destruct M as [l [-> M]]. cbn [bind].
  assert (F : exists f, n_complete_fluids (ni_fluids (num_input two_rows)) (ni_fluid_fractions (num_input two_rows)) = Ok f /\
    n_as_mixture (with_nan co2) f (Sc (Num 0)) = Ok (num_mat (up water))).
  { destruct (sim_value _ _ (up_fluids (i_fluids ordinary)) _ (sim_complete_fluids (bi_fluids two_rows) (bi_fluid_fractions two_rows))) as [f [E S]].
    { change (bi_fluids two_rows) with (up_fluids (i_fluids ordinary)).
      change (bi_fluid_fractions two_rows) with (map opt [None]).
      rewrite sc_complete_fluids. unfold ordinary, simple_input. cbn [i_fluids]. rewrite one_fluid. reflexivity. }
    exists f. split; [exact E|]. rewrite S.
    destruct (sim_value _ _ (up water) _ (sim_as_mixture co2 _ (up_fluids (i_fluids ordinary)) (Sc 0) (Sc (Num 0))
      (with_nan_extends co2) eq_refl)) as [m [E' R]].
    { rewrite sc_fluids_as_mixture. unfold as_mixture, ordinary, simple_input.
      cbn [i_fluids f_constituents f_fluid_model f_temperature f_mix_method as_materials constituent_as_material c_material
        c_fluid_model fluid_as_material fst bind map c_fraction].
      rewrite wood_pure by (try apply water_fluid; cbn; lra). reflexivity. }
    rewrite E', (realb_num_eq _ _ R). reflexivity. }
  destruct F as [f [-> F]]. cbn [bind].
  change (n_check_dry_rock _) with (Ok tt). cbn [bind]. rewrite M. cbn [bind].
  change (npr_fluid (ni_pressure (num_input two_rows))) with (Some (Sc (Num 0))). cbn [bind]. rewrite F. cbn [bind].
  unfold n_dry_rock_material. change (n_truncated_rock _) with (Ok (Sc (Num (100 - 0)))). cbn [bind].
  unfold n_material_from_model. cbn [ndr_model ndr_porosity ndr_adjustments n_adjust_material].
  change (ndr_model (ni_dry_rock (num_input two_rows))) with (NRockPolyfit (constant_fit 2 1 2)). cbn match.
  rewrite constant_nan. cbn [bind].
  unfold n_nonporous. cbn [ndr_model bind].
  assert (G : n_fluid_substitution (mkNB (Vec [Nan]) (Vec [Nan]) (Vec [Nan]) (Vec [Nan]) (Vec [Nan])) (num_mat (up quartz))
    (num_mat (up water)) (Vec [Nan]) = Ok (mkNB (Vec [Nan]) (Vec [Nan]) (Vec [Nan]) (Vec [Nan]) (Vec [Nan]))) by reflexivity.
  rewrite G. reflexivity.
Qed.

(** The same with another porosity than nan. *)
Lemma wf_with_porosity : forall n phi, wfa n phi -> nwf_input n (with_porosity phi).
Proof.
  intros n phi H. split; [|split; [|split; [|split]]].
  - constructor; [|constructor]. split; [repeat split; exact I|exact I].
  - split; [exact I|]. constructor; [|constructor]. split; [repeat split; exact I|exact I].
  - constructor; [exact I|constructor].
  - split; [exact I|]. split; [exact H|constructor].
  - repeat split; exact I.
Qed.
Lemma obs_with_porosity : forall i phi, nobs_input i (with_porosity phi) = with_porosity (obs true i phi).
Proof. reflexivity. Qed.
Definition first_row : binput := obs_input true 0 two_rows.
Lemma first_row_results : forall co2, b_results co2 1 first_row = Ok [mkRow (8 / 3) 4 2 1 (7 / 3) 4].
Proof.
  intros co2. destruct (proj1 (batch_rows co2 2 two_rows _ ltac:(lia) wf_two_rows) (two_rows_results co2)) as [_ H].
  destruct (H 0%nat ltac:(lia)) as [r [N E]]. injection N as <-. exact E.
Qed.
Lemma first_row_num : with_porosity (Vec [Num (1 / 3)]) = num_input first_row.
Proof. reflexivity. Qed.
Definition half_missing : ninput := with_porosity (Vec [Num (1 / 3); Nan]).
Lemma half_missing_results : forall co2, n_results (with_nan co2) 2 half_missing =
  Ok [num_row (mkRow (8 / 3) 4 2 1 (7 / 3) 4); mkNRow Nan (Num 4) Nan Nan Nan (Num 4)].
Proof.
  intros co2. apply nan_rows; [lia|apply wf_with_porosity; reflexivity|]. split; [reflexivity|].
  intros [|[|i]] Hi; [| |lia]; (eexists; split; [reflexivity|]).
  - unfold half_missing. rewrite obs_with_porosity. cbn [obs nth_error]. rewrite first_row_num.
    exact (proj1 (results_agree co2 _ _ _ (with_nan_extends co2)) _ (first_row_results co2)).
  - unfold half_missing. rewrite obs_with_porosity. cbn [obs nth_error]. apply nan_porosity_row.
Qed.

Lemma nan_untouched : forall co2 nco2 n ninp rows i inp r, (0 < n)%nat -> nwf_input n ninp -> extends co2 nco2 ->
  n_results nco2 n ninp = Ok rows -> (i < n)%nat -> nobs_input i ninp = num_input inp ->
  b_results co2 1 inp = Ok [r] -> nth_error rows i = Some (num_row r).
Proof.
  intros co2 nco2 n ninp rows i inp r Hn W X E Hi O B.
  destruct (proj1 (nan_rows nco2 n ninp rows Hn W) E) as [_ H]. destruct (H i Hi) as [r' [N E']].
  rewrite O, (proj1 (results_agree co2 nco2 1 inp X) _ B) in E'. injection E' as <-. exact N.
Qed.

(** ** Parts *)
Lemma water_agrees : forall t p,
  (forall m, BatzleWangModel.water t p = Ok m -> n_water (Num t) (Num p) = Ok (num_material m)) /\
  (forall e, BatzleWangModel.water t p = Err e -> e <> NonFinite -> n_water (Num t) (Num p) = Err e).
Proof.
  intros t p. pose proof (EmbedProofs.sim_water t p) as S.
  split; intros x E; [|intros N]; rewrite E in S; destruct (n_water (Num t) (Num p)) as [y|e']; cbn in S.
  - rewrite S. reflexivity.
  - contradiction.
  - contradiction.
  - destruct S as [->|S]; congruence.
Qed.

Lemma coordination_agrees : forall cement c f lo u sr n,
  n_make_friable (pmap Num c) (pmap Num sr) (num_option n) = num_friable (b_make_friable c sr n) /\
  n_make_patchy (num_mat cement) (pmap Num c) (pmap Num f) (pmap Num lo) (pmap Num u) (num_option n) (pmap Num sr) =
    num_patchy (b_make_patchy cement c f lo u n sr).
Proof.
  assert (Q : forall c, pmap n_murphy_coordination_number (pmap Num c) = pmap Num (pmap SandstoneModel.murphy_coordination_number c)).
  { intros [x|l]; cbn [pmap]; [reflexivity|]. rewrite !map_map. reflexivity. }
  intros cement c f lo u sr [n|]; (split; [unfold n_make_friable, b_make_friable, num_friable|
    unfold n_make_patchy, b_make_patchy, num_patchy]); cbn [num_option option_map]; [reflexivity..| |]; rewrite Q; reflexivity.
Qed.
