(** What remains true of claims that are refuted: C120, C154, C155, C170. *)
From Coq Require Import String List ZArith Lra Lia.
From Verif Require Import Base BaseProofs MaterialModel Spec BatzleWangModel ConfigModel FluidsModel InputModel MainModel MainSpec RowModel RowSpec ReadModel AppModel
  ReadSpec FileSpec FileRowProofs NumModel NanModel NanSpec EmbedRowProofs PoisonFriableProofs CommandModel CommandSpec EndSpec EndProps AcceptProps.
Import ListNotations.
Open Scope R_scope.

(** C120: all that is asked of the gas-oil ratio is that the base of the power in
    the volume factor is not negative, whatever its sign. *)
Theorem C120_exactly : forall t r rg g, 0 < r -> 0 <= g ->
  (is_ok (live_oil_volume_factor t r rg g) <-> - (t + 178 / 10) <= 24 / 10 * rg * sqrt (g / r)).
Proof.
  intros t r rg g Hr Hg. unfold live_oil_volume_factor. rewrite py_div_ok by lra. cbn [bind].
  assert (Q : 0 <= g / r) by (apply Rmult_le_pos; [exact Hg|apply Rlt_le, Rinv_0_lt_compat, Hr]).
  rewrite np_sqrt_ok by exact Q. cbn [bind].
  set (x := 24 / 10 * rg * sqrt (g / r)). unfold np_pow. replace (x + t + 178 / 10) with (x + (t + 178 / 10)) by ring.
  destruct (Rlt_dec 0 (x + (t + 178 / 10))) as [P|P].
  { cbn [bind]. split; [intros _; lra|intros _; eexists; reflexivity]. }
  destruct (Req_EM_T (x + (t + 178 / 10)) 0) as [Z|Z].
  { destruct (Rlt_dec 0 (1175 / 1000)) as [_|N]; [|lra]. cbn [bind]. split; [intros _; lra|intros _; eexists; reflexivity]. }
  destruct (Req_EM_T (1175 / 1000) (IZR (Int_part (1175 / 1000)))) as [I|I].
  { exfalso. set (z := Int_part (1175 / 1000)) in I. assert (L : (1 < z)%Z) by (apply lt_IZR; lra). assert (U : (z < 2)%Z) by (apply lt_IZR; lra). lia. }
  cbn [bind]. split; [intros [v E]; discriminate|intros H; lra].
Qed.
Print Assumptions C120_exactly.
Example C120_exactly_nonvacuous : 0 < 8 / 10 /\ 0 <= 7 / 10 /\ - (80 + 178 / 10) <= 24 / 10 * - 2 * sqrt ((7 / 10) / (8 / 10)).
Proof.
  assert (sqrt ((7 / 10) / (8 / 10)) <= 1) by (rewrite <- sqrt_1; apply sqrt_le_1_alt; lra).
  pose proof (sqrt_pos ((7 / 10) / (8 / 10))). repeat split; lra.
Qed.

(** C154: a configuration is accepted without a calculation exactly when one of
    the minerals is a fluid, and no run on such a configuration succeeds. *)
Theorem C154_exactly : forall c x, build c = Ok x ->
  (x = None <-> Exists (fun k => forall a, k_material k <> MArbitrary a) (cf_minerals c)).
Proof.
  intros c x E. unfold build in E. apply bind_ok in E. destruct E as (ms & Em & E).
  repeat (apply bind_ok in E; let y := fresh in let Ey := fresh in destruct E as (y & Ey & E)).
  injection E as <-. apply sequence_forall2 in Em. clear - Em. 
  assert (A : all_some ms = None <-> Exists (fun k => forall a, k_material k <> MArbitrary a) (cf_minerals c)).
  { induction Em as [|k o ks os Hk Em IH]; [split; [discriminate|intros X; inversion X]|].
    unfold build_mineral in Hk. cbn [all_some]. destruct (k_material k) as [a| | | | |] eqn:K;
      try (injection Hk as <-; split; [intros _; left; intros a; rewrite K; discriminate|reflexivity]).
    apply bind_ok in Hk. destruct Hk as (m & _ & Hk). injection Hk as <-.
    destruct (all_some os) as [l|].
    - split; [discriminate|]. intros X. inversion X as [? ? X1|? ? X1]; subst; [exfalso; exact (X1 a K)|]. apply IH in X1. discriminate.
    - split; [intros _; right; apply IH; reflexivity|reflexivity]. }
  destruct (all_some ms) as [l|]; split; intros X; try reflexivity; try discriminate.
  - apply A in X. discriminate.
  - apply A. reflexivity.
Qed.
Print Assumptions C154_exactly.
Theorem C154_fluid_minerals : forall (Text : Type) co2 st header (t : tools Text row inp (Z * output_row)) argv d o c rows,
  petro co2 st header t -> correct t argv d -> task t argv d o c rows -> the_threshold o = None ->
  writable c -> Forall (known header) (vals_config c) -> rows <> [] ->
  Exists (fun k => forall a, k_material k <> MArbitrary a) (cf_minerals c) -> status (main t argv d) <> 0%Z.
Proof.
  intros Text co2 st header t argv d o c rows P C T Th Wr Kn Ne X H.
  destruct (C193_success Text co2 st header t argv d o c rows P C T Th Wr Kn Ne H) as (outs & F & _).
  destruct F as [|r x rows outs (i & (M & _) & _) _]; [contradiction|].
  unfold config_of_row in M. cbn [cf_minerals] in M. clear - M X.
  revert M. generalize (i_minerals i). induction X as [k ks N|k ks X IH]; intros ms M; cbn [map] in M; inversion M as [|? ? ? ? A B]; subst.
  - destruct A as (_ & a & A & _). destruct k as [m f q]. cbn [k_material at_constituent] in *.
    destruct m; cbn in A; try discriminate. exact (N _ eq_refl).
  - exact (IH _ B).
Qed.
Print Assumptions C154_fluid_minerals.
(** Brine among the minerals of the sand of C207. *)
Definition wet_file : config given :=
  mkConfig (mkConstituent (MBrine (Number 45000)) (Some (Number 0)) None :: cf_minerals (sand_file Number (Column "phi")))
    (cf_fluids (sand_file Number (Column "phi"))) (cf_dry_rock (sand_file Number (Column "phi"))) (cf_pressure (sand_file Number (Column "phi"))).
Example C154_nonvacuous : forall co2 st, let line := [Config "c.yaml"; DataFile "d.csv"; OutputFile "out.csv"] in
  let o := mkOptions "c.yaml" (Some "d.csv"%string) None (Some "out.csv"%string) None in
  petro co2 st ["phi"%string] (bench co2 st) /\ correct (bench co2 st) line (other_drawer (file wet_file)) /\
  task (bench co2 st) line (other_drawer (file wet_file)) o wet_file [(0%Z, [1 / 3])] /\
  writable wet_file /\ Forall (known ["phi"%string]) (vals_config wet_file) /\
  Exists (fun k => forall a, k_material k <> MArbitrary a) (cf_minerals wet_file).
Proof.
  intros co2 st line o. pose proof (C204_nonvacuous co2 st (file wet_file)) as (C & O & S1 & S2 & _).
  pose proof (C207_nonvacuous co2 st) as (P & _ & _ & (W1 & W) & _).
  split; [exact P|]. split; [exact C|]. split.
  { split; [exact O|]. split; [reflexivity|]. split; [exact S1|]. exists "d.csv"%string. destruct S2 as (x & A & B).
    exists x. split; [reflexivity|]. split; assumption. }
  split; [|split; [repeat constructor|left; intros a; discriminate]].
  split; [|exact W]. split; [discriminate|]. constructor; [exact I|apply W1].
Qed.

(** C155: what is given of a material is taken as it is, whatever the numbers;
    what is missing must come out real, and nothing else is asked. *)
Theorem C155_taken : forall a k mu p s, a_bulk a = Some k -> a_shear a = Some mu -> a_vp a = Some p -> a_vs a = Some s ->
  build_arbitrary a = Ok (mkB k mu (a_density a) p s).
Proof. intros a k mu p s Ek Em Ep Es. unfold build_arbitrary. rewrite Ek, Em, Ep, Es. reflexivity. Qed.
Print Assumptions C155_taken.
Theorem C155_exactly : forall d k mu,
  (is_ok (build_arbitrary (mkArbitrary (Sc d) (Some (Sc k)) (Some (Sc mu)) None None)) <->
   d <> 0 /\ 0 <= (k + 4 / 3 * mu) / d /\ 0 <= mu / d).
Proof.
  intros d k mu. unfold build_arbitrary. cbn [a_density a_shear a_bulk a_vs a_vp bind amap_opt zip zip3 amap fst snd].
  unfold calculate_primary_velocity, calculate_secondary_velocity. split.
  - intros [m E]. repeat (apply bind_ok in E; let y := fresh "y" in let Ey := fresh "E" in destruct E as (y & Ey & E)).
    cbn [fst snd zip3 zip amap] in *. repeat match goal with H : (let* _ := _ in _) = Ok _ |- _ => apply bind_ok in H; destruct H as (? & ? & H) end.
    repeat match goal with H : np_div _ _ = Ok _ |- _ => apply np_div_inv in H; destruct H as (? & ->) end.
    repeat match goal with H : np_sqrt _ = Ok _ |- _ => apply np_sqrt_inv in H; destruct H as (? & ->) end. tauto.
  - intros (N & A & B). rewrite !np_div_ok by exact N. cbn [bind]. rewrite !np_sqrt_ok by assumption. cbn [bind]. eexists. reflexivity.
Qed.
Print Assumptions C155_exactly.
Example C155_exactly_nonvacuous : -3 <> 0 /\ 0 <= (- 4 + 4 / 3 * - 1) / - 3 /\ 0 <= - 1 / - 3.
Proof. repeat split; lra. Qed.


(** C170: a nan among the results of numbers means that the calculation left the
    real numbers on the way. *)
Theorem C170_outside : forall co2 nco2 n inp rows r, extends co2 nco2 ->
  n_results nco2 n (num_input inp) = Ok rows -> In r rows -> (forall x, r <> num_row x) -> b_results co2 n inp = Err NonFinite.
Proof.
  intros co2 nco2 n inp rows r X E I N. destruct (results_agree co2 nco2 n inp X) as [A B].
  destruct (b_results co2 n inp) as [rs|e].
  - rewrite (A rs eq_refl) in E. injection E as <-. apply in_map_iff in I. destruct I as (x & Q & _). destruct (N x). symmetry. exact Q.
  - destruct e; try reflexivity; rewrite (B _ eq_refl) in E by discriminate; discriminate.
Qed.
Print Assumptions C170_outside.
Example C170_outside_nonvacuous : forall co2, extends co2 (with_nan co2) /\ exists inp r,
  n_results (with_nan co2) 1 (num_input inp) = Ok [r] /\ (forall x, r <> num_row x) /\ b_results co2 1 inp = Err NonFinite.
Proof.
  intros co2. split; [apply with_nan_extends|]. do 2 eexists. split; [apply overpressured_nan|].
  assert (N : forall x, mkNRow Nan (Num 4) Nan Nan (Num (3 * (1 - 1 / 3) + 1 / 3 * 1)) (Num 4) <> num_row x) by (intros x; discriminate).
  split; [exact N|]. eapply C170_outside; [apply with_nan_extends|apply overpressured_nan|left; reflexivity|exact N].
Qed.
