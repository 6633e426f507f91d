(** A concrete configuration for the theorems about whole runs. *)
From Coq Require Import String List ZArith Lra Lia.
From Verif Require Import Base BaseProofs MaterialModel MaterialProofs FluidModel MineralsModel ConfigModel FluidsModel
  InputModel MainModel MainSpec RowModel RowSpec RowProofs RowScalarProofs RowResultProofs ReadModel AppModel ReadSpec ReadProofs
  ReadRowProofs AppProofs.
Import ListNotations.
Open Scope R_scope.

Definition material_item (k mu d : R) : value :=
  VDict [("density", VNum d); ("bulk_modulus", VNum k); ("shear_modulus", VNum mu)]%string.
Definition pure (k mu d : R) : value :=
  VDict [("constituents", VList [VDict [("material", material_item k mu d)]])]%string.

(** One mineral, one fluid, a constant dry rock, porosity as given. *)
Definition sample_items (porosity : value) : list (string * value) :=
  [("minerals", pure 4 1 3); ("fluids", pure 1 0 1);
   ("dry_rock", VDict [("model", VDict [("type", VStr "polyfit"); ("coefficients", material_item 2 1 2)]);
                       ("porosity", porosity)]);
   ("pressure", VDict [("overburden", VNum 100); ("reference", VNum 0); ("fluid", VNum 0)])]%string.
Definition from_column : value := VDict [("column", VStr "phi")]%string.

Definition sample_config {X} (c : R -> X) (porosity : X) : config X :=
  let mat k mu d := MArbitrary (mkArbitrary (c d) (Some (c k)) (Some (c mu)) None None) in
  mkConfig [mkConstituent (mat 4 1 3) None None]
    (mkFluidsCfg (c 80) [mkConstituent (mat 1 0 1) None None] Wood (N0 3) None BatzleWang)
    (mkDryRockCfg (SPolyfit (Some (mkCoef Moduli (Some (N0 2)) (Some (N0 2)) (Some (N0 1))))) porosity [])
    (mkPressureCfg (c 100) (c 0) (Some (c 0)) None (Some (c 0))).

Lemma sample_insert : forall rows,
  insert_dataframe (sample_items from_column) (Some (frame ["phi"%string] rows)) =
  Ok (VDict (sample_items (VArray (map (fun r : row => nth 0 (snd r) 0) rows)) ++ [("data"%string, VFrame (frame ["phi"%string] rows))])).
Proof. intros rows. reflexivity. Qed.
Lemma sample_read : forall st v x t, np_array st v = Ok x ->
  read_config st (VDict (sample_items v ++ [("data"%string, t)])) = Ok (sample_config N0 x).
Proof.
  intros st v x t H. cbv -[np_array Rplus Rmult Rdiv Ropp Rminus Rinv IZR pow]. rewrite H. reflexivity.
Qed.

Definition sample_binput (porosity : arr R) : binput :=
  let i := up_input ordinary in
  mkBInput (bi_minerals i)
    (mk_bfluids (Sc 80) [mk_bconstituent (BArbitrary (up water)) (Sc 0) None] Wood 3 [] BatzleWang) [None]
    (mkBDryRock (bdr_model (bi_dry_rock i)) porosity []) (bi_pressure i).

Lemma sample_arbitrary : forall k mu d, 0 < d -> 0 <= k -> 0 <= mu ->
  build_arbitrary (mkArbitrary (Sc d) (Some (Sc k)) (Some (Sc mu)) None None) = Ok (up (sample k mu d)).
Proof.
  intros k mu d D K M. unfold build_arbitrary. cbn [a_density a_shear a_vs a_bulk a_vp bind amap_opt amap zip zip3 fst snd].
  pose proof (fill_velocities_none k mu d D K M) as E. unfold fill_velocities in E. cbv [zip3 zip amap fst snd].
  destruct (calculate_primary_velocity k mu d) as [p|]; cbn [bind] in *; [|discriminate E].
  destruct (calculate_secondary_velocity mu d) as [s|]; cbn [bind] in *; [|discriminate E].
  injection E as -> ->. reflexivity.
Qed.

Lemma fractions_checked : forall cs, check_mineral_fractions (map snd cs) = rmap (fun _ => tt) (b_minerals cs).
Proof.
  intros cs. unfold check_mineral_fractions, b_minerals.
  assert (E : each b_fraction_is_ratio (map snd cs) = each (fun c : bmat * _ => b_fraction_is_ratio (snd c)) cs).
  { clear. induction cs as [|c cs IH]; [reflexivity|]. cbn [map each]. rewrite IH. reflexivity. }
  rewrite E. destruct cs as [|c cs]; [reflexivity|]. cbn [map guard bind].
  destruct (each _ (c :: cs)) as [u|e]; [|reflexivity]. cbn [bind].
  destruct (b_fix_one_fraction _) as [fs|e]; [|reflexivity]. cbn [bind].
  destruct (guard _ _) as [[]|e]; reflexivity.
Qed.
Lemma any_fraction : forall fl x, complete_fluids (mk_fluids 80 [mk_constituent (FArbitrary fl) x None] Wood 3 [] BatzleWang) [None] =
  Ok (mk_fluids 80 [mk_constituent (FArbitrary fl) 1 None] Wood 3 [] BatzleWang).
Proof.
  intros fl x. unfold complete_fluids. cbn [map fraction_is_ratio sequence bind sum_given].
  destruct (Rlt_dec _ _) as [H|_]; [exfalso; lra|]. rewrite one_fraction. reflexivity.
Qed.

Lemma sample_build : forall p, build (sample_config Sc p) = Ok (Some (sample_binput p)).
Proof.
  intros p. unfold build, sample_config. cbn [cf_minerals cf_fluids cf_dry_rock cf_pressure map sequence build_mineral k_material].
  unfold build_mineral. cbn [k_material]. rewrite sample_arbitrary by lra. cbn [bind sequence]. unfold build_fluids.
  cbn [fc_constituents map sequence build_constituent k_material build_fluid]. unfold build_constituent. cbn [k_material build_fluid].
  rewrite sample_arbitrary by lra.
  cbn [bind k_fraction completed k_fluid_model fc_brie_constant float_value fc_brie_gases gas_positions is_gas List.app
    fc_temperature fc_mix_method fc_fluid_model sequence k_material].
  unfold build_dry_rock. cbn [dc_model dc_adjustments dc_porosity build_sandstone bind map sequence].
  assert (E : check_mineral_fractions [None] = Ok tt).
  { change [None] with (map snd (map (fun c => (up (fst c), RowScalarProofs.opt (snd c))) [(quartz, None)])). rewrite fractions_checked.
    rewrite sc_minerals, one_mineral. reflexivity. }
  rewrite E. cbn [bind].
  match goal with |- context [b_complete_fluids ?f [None]] =>
    change (b_complete_fluids f [None]) with
      (b_complete_fluids (up_fluids (mk_fluids 80 [mk_constituent (FArbitrary water) 0 None] Wood 3 [] BatzleWang)) (map RowScalarProofs.opt [None])) end.
  rewrite sc_complete_fluids, any_fraction. cbn [lift bind]. unfold b_check_dry_rock. cbn [bdr_model bind all_some combine].
  reflexivity.
Qed.

Lemma sample_parse : forall st rows, parse_input st (sample_items from_column) (Some (frame ["phi"%string] rows)) =
  Ok (Some (sample_binput (Vec (map (fun r : row => nth 0 (snd r) 0) rows)))).
Proof.
  intros st rows. unfold parse_input. rewrite sample_insert. cbn [bind]. erewrite sample_read by reflexivity. cbn [bind].
  unfold per_row.
  set (l := map (fun r : row => nth 0 (snd r) 0) rows).
  change (existsb matrix (vals_config (sample_config N0 (NCol l)))) with false.
  change (all_equal (lengths (vals_config (sample_config N0 (NCol l))))) with true. cbv iota. cbn [bind].
  apply (sample_build (Vec l)).
Qed.
Lemma sample_wf : forall n p, wfa n p -> wf_input n (sample_binput p).
Proof.
  intros n p W. destruct (wf_up_input n ordinary) as (W1 & W2 & W3 & W4 & W5). unfold sample_binput.
  repeat (split; try assumption); try constructor; try (repeat split; exact I); constructor.
Qed.
Lemma sample_row : forall co2 phi, calculate_row co2 (pick_input 0 (sample_binput (Vec [phi]))) =
  calculate_row co2 (simple_input quartz water 2 1 2 phi []).
Proof.
  intros co2 phi.
  assert (E : pick_input 0 (sample_binput (Vec [phi])) =
    mkInput [(quartz, None)] (mk_fluids 80 [mk_constituent (FArbitrary water) 0 None] Wood 3 [] BatzleWang) [None]
      (mkDryRock (RockPolyfit (constant_fit 2 1 2)) phi []) (mkPressure 100 0 (Some 0) None (Some 0))).
  { unfold sample_binput, pick_input. cbn. reflexivity. }
  rewrite E. unfold calculate_row, simple_input. cbn [i_minerals i_fluids i_fluid_fractions i_dry_rock i_pressure].
  rewrite any_fraction, one_fluid. reflexivity.
Qed.
Lemma sample_gives : forall co2 st z phi o,
  gives_rows co2 st ["phi"%string] (sample_items from_column) [(z, [phi])] [o] <->
  calculate_row co2 (simple_input quartz water 2 1 2 phi []) = Ok o.
Proof.
  intros co2 st z phi o. unfold gives_rows. rewrite sample_parse. cbn [map snd nth List.length].
  assert (W : wf_input 1 (sample_binput (Vec [phi]))) by (apply sample_wf; reflexivity).
  assert (E : calculate_input co2 1 (Some (sample_binput (Vec [phi]))) = Ok [o] <->
    calculate_row co2 (simple_input quartz water 2 1 2 phi []) = Ok o).
  { rewrite calculate_input_results by (try lia; exact W). rewrite <- sample_row.
    pose proof (batch_scalar co2 1 (sample_binput (Vec [phi])) false ltac:(lia) W (or_intror (conj I (Forall_nil _)))) as A.
    destruct (b_results co2 1 (sample_binput (Vec [phi]))) as [rows|e].
    - destruct A as [L A]. destruct rows as [|r [|? ?]]; try discriminate L. destruct (A 0%nat ltac:(lia)) as [r' [N R]].
      injection N as <-. rewrite R. split; intros H; injection H as <-; reflexivity.
    - destruct A as [[A _]|[i [Hi A]]]; [discriminate|]. replace i with 0%nat in A by lia. rewrite A.
      split; discriminate. }
  split.
  - intros [inp [X Y]]. injection X as <-. apply E, Y.
  - intros H. exists (Some (sample_binput (Vec [phi]))). split; [reflexivity|apply E, H].
Qed.

Lemma plain_number : forall x, plain (VNum x).
Proof. intros x. apply plain_leaf; discriminate. Qed.
Lemma plain_string : forall x, plain (VStr x).
Proof. intros x. apply plain_leaf; discriminate. Qed.
Ltac plain_tac :=
  repeat first [ apply plain_number | apply plain_string | apply plain_dict | apply plain_list
               | apply Forall_cons | apply Forall_nil | progress cbn [snd] | intros ? R; discriminate R ].
Lemma sample_plain : plain (VDict (sample_items from_column)).
Proof. unfold sample_items, pure, material_item, from_column. plain_tac. Qed.
Lemma sample_constants : forall st, constants_and_columns st ["phi"%string] (sample_items from_column).
Proof.
  intros st rows v c E Rc. rewrite sample_insert in E. apply (f_equal (fun r => match r with Ok v => v | Err _ => VNull end)) in E.
  cbv beta iota in E. subst v. erewrite sample_read in Rc by reflexivity.
  injection Rc as <-. split; repeat (constructor; try exact I).
Qed.

(** Three rows, the last of which has a porosity below 0. *)
Definition sample_rows : list row := [(0%Z, [1 / 3]); (1%Z, [1 / 6]); (2%Z, [- (1 / 6)])].
Lemma sample_first : forall co2 st, gives_rows co2 st ["phi"%string] (sample_items from_column) [(0%Z, [1 / 3])]
  [mkRow (8 / 3) 4 2 1 (7 / 3) 4].
Proof. intros. apply sample_gives. apply ordinary_row. Qed.
Lemma sample_second : forall co2 st, gives_rows co2 st ["phi"%string] (sample_items from_column) [(1%Z, [1 / 6])]
  [mkRow 3 4 2 1 (13 / 6) 4].
Proof. intros. apply sample_gives. rewrite <- two_rows_1. apply two_rows_1_row. Qed.
Lemma sample_third : forall co2 st o, ~ gives_rows co2 st ["phi"%string] (sample_items from_column) [(2%Z, [- (1 / 6)])] [o].
Proof.
  intros co2 st o H. apply sample_gives in H. rewrite simple_row in H by (try apply water_fluid; cbn; lra).
  rewrite mat_of_moduli_ok in H by lra. cbn [bind adjust_material] in H. unfold fluid_substitution in H.
  change (bulk quartz) with 4 in H. change (bulk water) with 1 in H. cbn [bulk shear dens] in H.
  unfold gassman_equation in H.
  destruct (Req_EM_T (- (1 / 6)) 0); [lra|]. destruct (Req_EM_T 2 4); [lra|].
  unfold py_div in H. destruct (Req_EM_T (4 - 2) 0); [lra|]. destruct (Req_EM_T ((4 - 1) * - (1 / 6)) 0); [lra|]. cbn [bind] in H.
  destruct (Rlt_dec _ 0) as [_|N]; [discriminate H|]. apply N.
  replace (2 / (4 - 2) + 1 / ((4 - 1) * - (1 / 6))) with (-1) by field. lra.
Qed.
Lemma sample_succeeding : forall co2 st write compare all,
  succeeding (app co2 st ["phi"%string] (VDict (sample_items from_column)) (Some all) write compare)
    (sample_items from_column) sample_rows [(0%Z, [1 / 3]); (1%Z, [1 / 6])].
Proof.
  intros. unfold sample_rows.
  eapply succeeding_row; [apply app_row; eexists; split; [apply sample_first|reflexivity]|].
  eapply succeeding_row; [apply app_row; eexists; split; [apply sample_second|reflexivity]|].
  eapply failing_row; [|constructor]. intros out H. apply app_row in H. destruct H as [o [H _]]. apply (sample_third co2 st o H).
Qed.
