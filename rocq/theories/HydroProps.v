(** C229, C230: oil and gas at reservoir conditions; runs on reservoirs that hold them. *)
From Coq Require Import String List ZArith Lra Lia.
From Verif Require Import Base MaterialModel Spec FluidModel BatzleWangModel ConfigModel FluidsModel FluidsSpec InputModel MainModel MainSpec RowModel RowSpec ReadModel AppModel
  ReadSpec FileSpec CommandModel CommandSpec CommandProofs CommandProps EndSpec EndProps AcceptSpec AcceptProofs AcceptProps HydroSpec HydroProofs.
Import ListNotations.
Open Scope R_scope.

(** C229: oil at reservoir conditions is calculated, is a fluid, and its
    properties stay in bounds. *)
Theorem C229_oil : forall t p r rg g, common_oil t p r rg g ->
  exists m, oil t p r rg g = Ok m /\ fluid m /\ 0 < bulk m <= 12 * 10 ^ 9 /\ 330 <= dens m <= 1400 /\ 350 <= vp m <= 2900.
Proof. exact oil_usable. Qed.
Print Assumptions C229_oil.

(** C229: so is gas. *)
Theorem C229_gas : forall t p g, common_gas t p g ->
  exists m, gas t p g = Ok m /\ fluid m /\ 0 < bulk m <= 5 * 10 ^ 9 /\ bulk m <= 83 * p.
Proof. exact gas_usable. Qed.
Print Assumptions C229_gas.

Example C229_nonvacuous : common_oil 75 (30 * 10 ^ 6) 850 120 (7 / 10) /\ common_gas 75 (30 * 10 ^ 6) (6 / 10).
Proof. unfold common_oil, common_gas. lra. Qed.

(** C230: a loose sand that holds them is calculated, and the result is in order. *)
Theorem C230_row : forall co2 klo muhi c, reservoir klo muhi c -> exists o, gives_output co2 c o /\ sensible klo o.
Proof. exact reservoir_row. Qed.
Print Assumptions C230_row.

(** C230: a run on a table of such rows ends with status 0 and delivers a result
    in order for each row. *)
Theorem C230_run : forall (Text : Type) co2 st header (t : tools Text row inp (Z * output_row)) argv d o c rows klo muhi,
  petro co2 st header t -> correct t argv d -> task t argv d o c rows -> the_threshold o = None ->
  writable c -> Forall (known header) (vals_config c) -> rows <> [] ->
  Forall (fun r => reservoir klo muhi (config_of_row header c r)) rows ->
  exists outs, Forall2 (fun r x => gives_output co2 (config_of_row header c r) x) rows outs /\ Forall (sensible klo) outs /\
    status (main t argv d) = 0%Z /\ delivers t o 0 (combine (map fst rows) outs) (main t argv d).
Proof.
  intros Text co2 st header t argv d o c rows klo muhi P C T Th Wr Kn Ne F.
  destruct (reservoir_rows co2 klo muhi header c rows F) as (outs & G & Q). exists outs. split; [exact G|]. split; [exact Q|].
  apply (C193_meant Text co2 st header t argv d o c rows outs P C T Th Wr Kn Ne); [|exact G].
  destruct rows as [|r rows]; [contradiction|]. inversion F; subst. eapply reservoir_combines. eassumption.
Qed.
Print Assumptions C230_run.

(** An example: salt water, oil and gas mixed by Brie's law; the saturation of
    the gas is read from the data and may be zero, oil takes the rest. *)
Definition three_phase {X} (f : R -> X) (gas : X) : config X :=
  mkConfig
    [mkConstituent (MArbitrary (mkArbitrary (f 2650) (Some (f (37 * 10 ^ 9))) (Some (f (44 * 10 ^ 9))) None None)) None None]
    (mkFluidsCfg (f 75)
       [mkConstituent (MBrine (f 45000)) (Some (f (3 / 10))) None;
        mkConstituent (MGas (f (6 / 10))) (Some gas) None;
        mkConstituent (MOil (f 850) (f 120) (f (7 / 10))) None None]
       Brie (N0 3) None BatzleWang)
    (mkDryRockCfg (SFriable (mkFriableCfg (f (4 / 10)) (f (5 / 10)) (Some (f 9)))) (f (25 / 100)) [])
    (mkPressureCfg (f (50 * 10 ^ 6)) (f (30 * 10 ^ 6)) (Some (f (30 * 10 ^ 6))) None None).
Lemma three_phase_reservoir : forall s, s = 0 \/ 1 / 10 ^ 15 <= s <= 6 / 10 ->
  reservoir (37 * 10 ^ 9) (44 * 10 ^ 9) (three_phase (fun x => x) s).
Proof.
  intros s Hs. assert (T : 0 < 1 / 10 ^ 15 < 1 / 10) by lra.
  assert (S01 : 0 <= s <= 6 / 10) by lra. split; [lra|]. split; [discriminate|]. split.
  { constructor; [|constructor]. exists 2650, (37 * 10 ^ 9), (44 * 10 ^ 9). split; [reflexivity|lra]. }
  split.
  { split; [repeat constructor|]. right. split; [reflexivity|]. cbn. lra. }
  split.
  { exists (30 * 10 ^ 6). split; [reflexivity|]. split.
    { exists 3. split; [reflexivity|]. right. split; [lra|]. unfold no_traces. cbn [three_phase cf_fluids fc_constituents map k_fraction total].
      apply Forall_cons; [right; lra|]. apply Forall_cons; [destruct Hs; [left; lra|right; lra]|]. apply Forall_cons; [right; lra|apply Forall_nil]. }
    split; [reflexivity|]. split; [discriminate|]. split.
    { split; [cbn [three_phase cf_fluids fc_constituents map k_fraction]; repeat (apply Forall_cons; [try exact I; lra|]); apply Forall_nil|]. right. split; [reflexivity|]. cbn. lra. }
    cbn [three_phase cf_fluids fc_constituents fc_temperature fc_fluid_model].
    constructor; [|constructor; [|constructor; [|constructor]]].
    - left. right. exists 45000. repeat (split; [reflexivity || lra|]). lra.
    - right. split; [reflexivity|]. split; [lra|]. right. exists (6 / 10). split; [reflexivity|]. unfold common_gas. lra.
    - right. split; [reflexivity|]. split; [lra|]. left. exists 850, 120, (7 / 10). split; [reflexivity|]. unfold common_oil. lra. }
  exists (20 * 10 ^ 6). split; [lra|]. split; [exists (30 * 10 ^ 6); split; [reflexivity|cbn; lra]|].
  exists (mkFriableCfg (4 / 10) (5 / 10) (Some 9)). split; [reflexivity|]. split; [reflexivity|].
  cbn [fr_critical fr_shear_reduction fr_coordination or_murphy dc_porosity three_phase cf_dry_rock]. lra.
Qed.
Example C230_nonvacuous : forall co2 st, let line := [Config "c.yaml"; DataFile "d.csv"; OutputFile "out.csv"] in
  let o := mkOptions "c.yaml" (Some "d.csv"%string) None (Some "out.csv"%string) None in
  let c := three_phase Number (Column "phi") in
  petro co2 st ["phi"%string] (bench co2 st) /\ correct (bench co2 st) line (other_drawer (file c)) /\
  task (bench co2 st) line (other_drawer (file c)) o c [(0%Z, [1 / 3])] /\
  writable c /\ Forall (known ["phi"%string]) (vals_config c) /\
  Forall (fun r => reservoir (37 * 10 ^ 9) (44 * 10 ^ 9) (config_of_row ["phi"%string] c r)) [(0%Z, [1 / 3])] /\
  reservoir (37 * 10 ^ 9) (44 * 10 ^ 9) (config_of_row ["phi"%string] c (0%Z, [0])) /\
  exists x, 0 < r_kdry x < r_ksat x /\ r_ksat x < r_kmin x /\
    files (main (bench co2 st) line (other_drawer (file c))) "out.csv" = Some (File (OutText [(0%Z, x)])).
Proof.
  intros co2 st line o c.
  pose proof (C204_nonvacuous co2 st (file c)) as (C & O & S1 & S2 & _).
  assert (P : petro co2 st ["phi"%string] (bench co2 st)) by (split; reflexivity).
  assert (T : task (bench co2 st) line (other_drawer (file c)) o c [(0%Z, [1 / 3])]).
  { split; [exact O|]. split; [reflexivity|]. split; [exact S1|]. exists "d.csv"%string. destruct S2 as (x & A & B).
    exists x. split; [reflexivity|]. split; assumption. }
  assert (W : writable c).
  { split; [|split; [split|split]].
    - split; [discriminate|]. constructor; [split; left; discriminate|]. constructor.
    - split; [discriminate|]. constructor; [exact I|]. constructor; [exact I|]. constructor; [exact I|]. constructor.
    - split; [|exact I]. exists 3. reflexivity.
    - exact I.
    - constructor. }
  assert (K : Forall (known ["phi"%string]) (vals_config c)) by (repeat constructor).
  assert (F : Forall (fun r => reservoir (37 * 10 ^ 9) (44 * 10 ^ 9) (config_of_row ["phi"%string] c r)) [(0%Z, [1 / 3])]).
  { constructor; [|constructor]. apply (three_phase_reservoir (1 / 3)). right. lra. }
  repeat (split; [assumption|]). split; [apply (three_phase_reservoir 0); left; reflexivity|].
  destruct (C230_run page co2 st ["phi"%string] (bench co2 st) line (other_drawer (file c)) o c _ _ _ P C T eq_refl W K ltac:(discriminate) F)
    as (outs & G & Q & _ & D).
  inversion G as [|? x ? ? _ G1]; subst. inversion G1; subst. inversion Q as [|? ? Qx _]; subst.
  exists x. destruct Qx as (A & B & _). split; [exact A|]. split; [exact B|]. destruct D as (D & _). exact D.
Qed.
