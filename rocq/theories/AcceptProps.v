(** C207: configurations in the physical range are calculated. *)
From Coq Require Import String List ZArith Lra Lia.
From Verif Require Import Base MaterialModel Spec FluidModel BatzleWangModel ConfigModel FluidsModel FluidsSpec InputModel MainModel MainSpec RowModel RowSpec ReadModel AppModel
  ReadSpec FileSpec CommandModel CommandSpec CommandProofs CommandProps EndSpec EndProps AcceptSpec AcceptProofs.
Import ListNotations.
Open Scope R_scope.

(** C207: a loose sand of solid minerals with fluids softer than any mineral is
    calculated, whatever its numbers, and the result is in order: dry rock softer
    than saturated rock, saturated rock softer than mineral. *)
Theorem C207_row : forall co2 klo muhi c, reservoir_sand co2 klo muhi c ->
  exists o, gives_output co2 c o /\ sensible klo o.
Proof. exact sand_row. Qed.
Print Assumptions C207_row.

(** C207: a run on a table of such rows ends with status 0 and delivers, for each
    row, a result that is in order. *)
Theorem C207_run : forall (Text : Type) co2 st header (t : tools Text row inp (Z * output_row)) argv d o c rows klo muhi,
  petro co2 st header t -> correct t argv d -> task t argv d o c rows -> the_threshold o = None ->
  writable c -> Forall (known header) (vals_config c) -> rows <> [] ->
  Forall (fun r => reservoir_sand co2 klo muhi (config_of_row header c r)) rows ->
  exists outs, Forall2 (fun r x => gives_output co2 (config_of_row header c r) x) rows outs /\ Forall (sensible klo) outs /\
    status (main t argv d) = 0%Z /\ delivers t o 0 (combine (map fst rows) outs) (main t argv d).
Proof.
  intros Text co2 st header t argv d o c rows klo muhi P C T Th Wr Kn Ne F.
  destruct (sand_rows co2 klo muhi header c rows F) as (outs & G & Q). exists outs. split; [exact G|]. split; [exact Q|].
  apply (C193_meant Text co2 st header t argv d o c rows outs P C T Th Wr Kn Ne); [|exact G].
  destruct rows as [|r rows]; [contradiction|]. inversion F; subst. eapply sand_combines. eassumption.
Qed.
Print Assumptions C207_run.

(** C207: brine in the range of its formulas is softer than 12 GPa, so that it and
    fluids given by their properties are among the soft fluids. *)
Theorem C207_brine : forall t p s m, 0 <= t <= 100 -> 0 <= p <= 100 * 10 ^ 6 -> 0 <= s <= 300000 -> brine t p s = Ok m ->
  bulk m <= 12 * 10 ^ 9 /\ dens m <= 1360 /\ vp m <= 2870.
Proof. exact brine_soft. Qed.
Print Assumptions C207_brine.
Theorem C207_plain : forall co2 klo section t p k, plain_fluid klo section t p k -> soft_fluid co2 klo section t p k.
Proof. exact plain_soft. Qed.
Print Assumptions C207_plain.

(** An example: quartz with clay, salt water with a light oil given by its
    properties, porosity from the data. *)
Definition sand_file {X} (f : R -> X) (phi : X) : config X :=
  mkConfig
    [mkConstituent (MArbitrary (mkArbitrary (f 2650) (Some (f (37 * 10 ^ 9))) (Some (f (44 * 10 ^ 9))) None None)) (Some (f (8 / 10))) None;
     mkConstituent (MArbitrary (mkArbitrary (f 2580) (Some (f (20 * 10 ^ 9))) (Some (f (7 * 10 ^ 9))) None None)) None None]
    (mkFluidsCfg (f 75)
       [mkConstituent (MBrine (f 45000)) (Some (f (6 / 10))) None;
        mkConstituent (MArbitrary (mkArbitrary (f 700) (Some (f (10 ^ 9))) (Some (f 0)) None None)) (Some (f (4 / 10))) None]
       Wood (N0 3) None BatzleWang)
    (mkDryRockCfg (SFriable (mkFriableCfg (f (4 / 10)) (f (5 / 10)) (Some (f 9)))) phi [])
    (mkPressureCfg (f (50 * 10 ^ 6)) (f (30 * 10 ^ 6)) (Some (f (30 * 10 ^ 6))) None None).
Lemma sand_file_sand : forall co2 phi, 0 < phi <= 39 / 100 ->
  reservoir_sand co2 (20 * 10 ^ 9) (44 * 10 ^ 9) (sand_file (fun x => x) phi).
Proof.
  intros co2 phi Hp. split; [lra|]. split; [discriminate|]. split.
  { constructor; [exists 2650, (37 * 10 ^ 9), (44 * 10 ^ 9)|constructor; [exists 2580, (20 * 10 ^ 9), (7 * 10 ^ 9)|constructor]];
      (split; [reflexivity|lra]). }
  split.
  { split; [repeat constructor; lra|]. right. split; [reflexivity|]. cbn. lra. }
  split.
  { exists (30 * 10 ^ 6). split; [reflexivity|]. split; [reflexivity|]. split; [exists 3; reflexivity|]. split; [reflexivity|].
    split; [discriminate|]. split; [split; [repeat constructor; lra|left; split; [reflexivity|cbn; lra]]|].
    constructor; [|constructor; [|constructor]]; apply C207_plain.
    - right. exists 45000. cbn [sand_file cf_fluids fc_temperature fc_fluid_model]. repeat (split; [reflexivity || lra|]). lra.
    - left. exists 700, (10 ^ 9). split; [reflexivity|]. lra. }
  exists (20 * 10 ^ 6). split; [lra|]. split; [exists (30 * 10 ^ 6); split; [reflexivity|cbn; lra]|].
  exists (mkFriableCfg (4 / 10) (5 / 10) (Some 9)). split; [reflexivity|]. split; [reflexivity|].
  cbn [fr_critical fr_shear_reduction fr_coordination or_murphy dc_porosity sand_file cf_dry_rock]. lra.
Qed.
Example C207_nonvacuous : forall co2 st, let line := [Config "c.yaml"; DataFile "d.csv"; OutputFile "out.csv"] in
  let o := mkOptions "c.yaml" (Some "d.csv"%string) None (Some "out.csv"%string) None in
  let c := sand_file Number (Column "phi") in
  petro co2 st ["phi"%string] (bench co2 st) /\ correct (bench co2 st) line (other_drawer (file c)) /\
  task (bench co2 st) line (other_drawer (file c)) o c [(0%Z, [1 / 3])] /\
  writable c /\ Forall (known ["phi"%string]) (vals_config c) /\
  Forall (fun r => reservoir_sand co2 (20 * 10 ^ 9) (44 * 10 ^ 9) (config_of_row ["phi"%string] c r)) [(0%Z, [1 / 3])] /\
  exists x, 0 < r_kdry x < r_ksat x /\ r_ksat x < r_kmin x /\
    files (main (bench co2 st) line (other_drawer (file c))) "out.csv" = Some (File (OutText [(0%Z, x)])).
Proof.
  intros co2 st line o c.
  pose proof (C204_nonvacuous co2 st (file c)) as (C & O & S1 & S2 & _).
  assert (P : petro co2 st ["phi"%string] (bench co2 st)) by (split; reflexivity).
  assert (T : task (bench co2 st) line (other_drawer (file c)) o c [(0%Z, [1 / 3])]).
  { split; [exact O|]. split; [reflexivity|]. split; [exact S1|]. exists "d.csv"%string. destruct S2 as (x & A & B).
    exists x. split; [reflexivity|]. split; assumption. }
  assert (W : writable c).
  { split; [|split; [split|split]].
    - split; [discriminate|]. constructor; [split; left; discriminate|]. constructor; [split; left; discriminate|]. constructor.
    - split; [discriminate|]. constructor; [exact I|]. constructor; [split; left; discriminate|]. constructor.
    - split; [|exact I]. exists 3. reflexivity.
    - exact I.
    - constructor. }
  assert (K : Forall (known ["phi"%string]) (vals_config c)) by (repeat constructor).
  assert (F : Forall (fun r => reservoir_sand co2 (20 * 10 ^ 9) (44 * 10 ^ 9) (config_of_row ["phi"%string] c r)) [(0%Z, [1 / 3])]).
  { constructor; [|constructor]. apply (sand_file_sand co2 (1 / 3)). lra. }
  repeat (split; [assumption|]).
  destruct (C207_run page co2 st ["phi"%string] (bench co2 st) line (other_drawer (file c)) o c _ _ _ P C T eq_refl W K ltac:(discriminate) F)
    as (outs & G & Q & _ & D).
  inversion G as [|? x ? ? _ G1]; subst. inversion G1; subst. inversion Q as [|? ? Qx _]; subst.
  exists x. destruct Qx as (A & B & _). split; [exact A|]. split; [exact B|]. destruct D as (D & _). exact D.
Qed.
