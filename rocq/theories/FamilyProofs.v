(** More concrete configurations for the theorems about whole runs: a column
    for a coefficient or for the Brie constant, a mineral that no [Material]
    could be, a fluid among the minerals. *)
From Coq Require Import String List ZArith Lra Lia.
From Verif Require Import Base BaseProofs MaterialModel MaterialProofs FluidModel MineralsModel SandstoneModel ConfigModel FluidsModel
  InputModel MainModel MainSpec RowModel RowSpec RowProofs RowScalarProofs RowResultProofs FluidProofs GassmannProofs ReadModel AppModel ReadSpec ReadProofs
  ReadRowProofs AppProofs AppExampleProofs RunProofs DocSpec.
Import ListNotations.
Open Scope R_scope.

Definition family (mineral brie k porosity : value) : list (string * value) :=
  [("minerals", VDict [("constituents", VList [VDict [("material", mineral)]])]);
   ("fluids", VDict [("constituents", VList [VDict [("material", material_item 1 0 1)]]); ("brie_constant", brie)]);
   ("dry_rock", VDict [("model", VDict [("type", VStr "polyfit");
                          ("coefficients", VDict [("density", VNum 2); ("bulk_modulus", k); ("shear_modulus", VNum 1)])]);
                       ("porosity", porosity)]);
   ("pressure", VDict [("overburden", VNum 100); ("reference", VNum 0); ("fluid", VNum 0)])]%string.

Definition family_config (mineral : arbitrary (arr R)) (brie k : nd) (porosity : arr R) : config (arr R) :=
  mkConfig [mkConstituent (MArbitrary mineral) None None]
    (mkFluidsCfg (Sc 80) [mkConstituent (MArbitrary (mkArbitrary (Sc 1) (Some (Sc 1)) (Some (Sc 0)) None None)) None None]
       Wood brie None BatzleWang)
    (mkDryRockCfg (SPolyfit (Some (mkCoef Moduli (Some (N0 2)) (Some k) (Some (N0 1))))) porosity [])
    (mkPressureCfg (Sc 100) (Sc 0) (Some (Sc 0)) None (Some (Sc 0))).
Definition family_binput (mineral : bmat) (brie : R) (k : nd) (porosity : arr R) : binput :=
  mkBInput [(mineral, None)]
    (mk_bfluids (Sc 80) [mk_bconstituent (BArbitrary (up water)) (Sc 0) None] Wood brie [] BatzleWang) [None]
    (mkBDryRock (BRockPolyfit (mkCoef Moduli (Some [[2]]) (Some (matrix_of k)) (Some [[1]]))) porosity [])
    (mkBPressure (Sc 100) (Sc 0) (Some (Sc 0)) None (Some (Sc 0))).

Lemma no_fraction_checked : check_mineral_fractions [None] = Ok tt.
Proof.
  change [None] with (map snd (map (fun c => (up (fst c), RowScalarProofs.opt (snd c))) [(quartz, None)])). rewrite fractions_checked.
  rewrite sc_minerals, one_mineral. reflexivity.
Qed.
Lemma any_brie : forall b i, complete_fluids (mk_fluids 80 [mk_constituent (FArbitrary water) 0 None] Wood b i BatzleWang) [None] =
  Ok (mk_fluids 80 [mk_constituent (FArbitrary water) 1 None] Wood b i BatzleWang).
Proof.
  intros b i. unfold complete_fluids. cbn [map fraction_is_ratio sequence bind sum_given].
  destruct (Rlt_dec _ _) as [H|_]; [exfalso; lra|]. rewrite one_fraction. reflexivity.
Qed.
Lemma family_build : forall a m brie b k p, build_arbitrary a = Ok m -> float_value brie = Ok b ->
  build (family_config a brie k p) = Ok (Some (family_binput m b k p)).
Proof.
  intros a m brie b k p A B. unfold build, family_config. cbn [cf_minerals cf_fluids cf_dry_rock cf_pressure map sequence].
  unfold build_mineral. cbn [k_material]. rewrite A. cbn [bind sequence]. unfold build_fluids.
  cbn [fc_constituents map sequence k_material]. unfold build_constituent. cbn [k_material build_fluid].
  rewrite sample_arbitrary by lra.
  cbn [bind k_fraction completed k_fluid_model fc_brie_constant fc_brie_gases gas_positions is_gas List.app
    fc_temperature fc_mix_method fc_fluid_model sequence k_material].
  rewrite B. cbn [bind].
  unfold build_dry_rock. cbn [dc_model dc_adjustments dc_porosity build_sandstone bind map sequence].
  rewrite no_fraction_checked. cbn [bind].
  assert (E : forall i, b_complete_fluids (up_fluids (mk_fluids 80 [mk_constituent (FArbitrary water) 0 None] Wood b i BatzleWang))
    (map RowScalarProofs.opt [None]) = Ok (up_fluids (mk_fluids 80 [mk_constituent (FArbitrary water) 1 None] Wood b i BatzleWang))).
  { intros i. rewrite sc_complete_fluids, any_brie. reflexivity. }
  match goal with |- context [b_complete_fluids ?f [None]] =>
    change (b_complete_fluids f [None]) with
      (b_complete_fluids (up_fluids (mk_fluids 80 [mk_constituent (FArbitrary water) 0 None] Wood b [] BatzleWang)) (map RowScalarProofs.opt [None])) end.
  rewrite E. cbn [bind]. reflexivity.
Qed.

Lemma family_row : forall co2 mineral b phi cs k, polyval2d (bulk mineral) phi cs = Ok k ->
  calculate_row co2 (mkInput [(mineral, None)] (mk_fluids 80 [mk_constituent (FArbitrary water) 0 None] Wood b [] BatzleWang) [None]
    (mkDryRock (RockPolyfit (mkCoef Moduli (Some [[2]]) (Some cs) (Some [[1]]))) phi [])
    (mkPressure 100 0 (Some 0) None (Some 0))) =
  calculate_row co2 (simple_input mineral water k 1 2 phi []).
Proof.
  intros co2 mineral b phi cs k P. rewrite simple_row by (try apply water_fluid; cbn; lra).
  unfold calculate_row. cbn [i_minerals i_fluids i_fluid_fractions i_dry_rock i_pressure p_fluid].
  rewrite one_mineral, any_brie. cbn [bind].
  unfold check_dry_rock. cbn [bind dr_model minerals_as_mixture mix_loop fst].
  unfold as_mixture. cbn [f_constituents f_fluid_model f_temperature f_mix_method as_materials constituent_as_material c_material c_fluid_model
    fluid_as_material fst bind map c_fraction].
  rewrite wood_pure by (try apply water_fluid; cbn; lra). cbn [bind].
  unfold dry_rock_material. cbn [truncated_rock p_rock bind dr_model dr_porosity dr_adjustments].
  unfold material_from_model, polyval_material. cbn [dr_model uses_moduli c_flavour c_density c_primary c_secondary
    fit_property dr_porosity bind].
  rewrite P. unfold nonporous. cbn [dr_model bind]. unfold polyval2d. cbn [poly_rows map2 poly_eval].
  assert (Q : forall x, poly_eval phi [x] = x) by (intros x; unfold poly_eval; cbn [fold_right]; ring).
  rewrite !Q. reflexivity.
Qed.

(** Outputs row by row. *)
Lemma outputs_of_rows : forall co2 n inp outs, (0 < n)%nat -> wf_input n inp -> combinable inp -> List.length outs = n ->
  (forall i o, nth_error outs i = Some o -> calculate_row co2 (pick_input i inp) = Ok o) ->
  calculate_input co2 n (Some inp) = Ok outs.
Proof.
  intros co2 n inp outs Hn W C L H. rewrite calculate_input_results by assumption.
  pose proof (batch_scalar co2 n inp false Hn W (or_intror C)) as A. destruct (b_results co2 n inp) as [rows|e].
  - destruct A as [L' A]. f_equal. apply nth_ext with (d := mkRow 0 0 0 0 0 0) (d' := mkRow 0 0 0 0 0 0); [congruence|].
    intros i Hi. destruct (A i ltac:(lia)) as [r [N R]]. assert (Hi' : (i < List.length outs)%nat) by lia.
    destruct (nth_error outs i) as [o|] eqn:E; [|apply nth_error_None in E; lia]. specialize (H i o E). rewrite H in R. injection R as <-.
    rewrite (nth_error_nth _ _ _ N), (nth_error_nth _ _ _ E). reflexivity.
  - exfalso. destruct A as [[A _]|[i [Hi A]]]; [discriminate|].
    destruct (nth_error outs i) as [o|] eqn:E; [|apply nth_error_None in E; lia]. rewrite (H i o E) in A. discriminate A.
Qed.
Lemma family_wf : forall n m b k p, wfm n m -> wfa n p -> wf_input n (family_binput m b k p).
Proof.
  intros n m b k p M W. unfold family_binput. split; [|split; [|split; [|split]]]; cbn [bi_minerals bi_fluids bi_fluid_fractions bi_dry_rock bi_pressure].
  - constructor; [split; [exact M|exact I]|constructor].
  - split; [exact I|]. constructor; [split; [repeat split; exact I|exact I]|constructor].
  - constructor; [exact I|constructor].
  - split; [exact I|split; [exact W|constructor]].
  - repeat split; exact I.
Qed.

(** A Gassmann row with any constant dry rock and quartz-like mineral. *)
Lemma gassmann_row : forall co2 mineral kdry phi x, bulk mineral = 4 -> 0 <= kdry -> kdry <> 4 -> phi <> 0 ->
  kdry / (4 - kdry) + 1 / ((4 - 1) * phi) = x -> 0 <= x -> 0 < 2 + phi ->
  calculate_row co2 (simple_input mineral water kdry 1 2 phi []) =
  Ok (mkRow (x / (1 + x) * 4) 4 kdry 1 (2 + phi) 4).
Proof.
  intros co2 mineral kdry phi x B K N P X X0 D. rewrite simple_row by (try apply water_fluid; cbn; lra).
  rewrite mat_of_moduli_ok by lra. cbn [bind adjust_material]. unfold fluid_substitution.
  rewrite B. change (bulk water) with 1. cbn [bulk shear dens].
  assert (E : gassman_equation kdry 4 1 phi = Ok (x / (1 + x) * 4)).
  { rewrite gassman_value; unfold dfac; try lra. rewrite X. reflexivity. }
  rewrite E. cbn [bind]. rewrite mat_of_moduli_ok; [cbn [bind bulk shear dens]|change (dens water) with 1; lra| |lra].
  - change (dens water) with 1. do 2 f_equal; ring.
  - apply Rmult_le_pos; [apply div_nonneg; lra|lra].
Qed.

Ltac parse_tac := unfold parse_input;
  match goal with |- context [insert_dataframe ?i ?d] =>
    let v := eval cbv -[Rplus Rmult Rdiv Ropp Rminus Rinv IZR pow] in (insert_dataframe i d) in
    change (insert_dataframe i d) with v end; cbn [bind];
  match goal with |- context [read_config ?st ?w] =>
    let v := eval cbv -[Rplus Rmult Rdiv Ropp Rminus Rinv IZR pow] in (read_config st w) in
    change (read_config st w) with v end; cbn [bind];
  match goal with |- context [per_row ?w] =>
    let v := eval cbv -[Rplus Rmult Rdiv Ropp Rminus Rinv IZR pow] in (per_row w) in
    change (per_row w) with v end; cbn [bind].
Ltac row_tac := let i := fresh "i" in let o := fresh "o" in let H := fresh "H" in
  intros i o H; destruct i as [|[|i]]; cbn [nth_error] in H; try discriminate H;
  match type of H with Some ?x = Some _ => assert (E : x = o) by congruence; clear H; subst o | _ => exfalso; destruct i; discriminate H end.

Definition quartz_item : value := material_item 4 1 3.
Definition k_column : value := VDict [("column", VStr "k")]%string.

(** ** A column as a coefficient: rows 1 and 1/4 are the polynomial 1 + K/4 *)
Definition coefficient_items : list (string * value) := family quartz_item (VNum 3) k_column (VNum (1 / 3)).
Definition coefficient_rows : list row := [(0%Z, [1]); (1%Z, [1 / 4])].
Lemma quartz_built : build_arbitrary (mkArbitrary (Sc 3) (Some (Sc 4)) (Some (Sc 1)) None None) = Ok (up quartz).
Proof. apply sample_arbitrary; lra. Qed.
Lemma coefficient_together : forall co2 st, gives_rows co2 st ["k"%string] coefficient_items coefficient_rows
  [mkRow (8 / 3) 4 2 1 (7 / 3) 4; mkRow (8 / 3) 4 2 1 (7 / 3) 4].
Proof.
  intros co2 st. exists (Some (family_binput (up quartz) 3 (NCol [1; 1 / 4]) (Sc (1 / 3)))). split.
  - parse_tac. apply (family_build _ _ (N0 3) 3 (NCol [1; 1 / 4]) (Sc (1 / 3)) quartz_built eq_refl).
  - apply outputs_of_rows; try (cbn; lia || reflexivity).
    + apply family_wf; [repeat split; exact I|exact I].
    + split; [exact I|constructor].
    + row_tac.
      * change (calculate_row co2 (mkInput [(quartz, None)] (mk_fluids 80 [mk_constituent (FArbitrary water) 0 None] Wood 3 [] BatzleWang) [None]
          (mkDryRock (RockPolyfit (mkCoef Moduli (Some [[2]]) (Some [[1]; [1 / 4]]) (Some [[1]]))) (1 / 3) [])
          (mkPressure 100 0 (Some 0) None (Some 0))) = Ok (mkRow (8 / 3) 4 2 1 (7 / 3) 4)).
        rewrite (family_row co2 quartz 3 (1 / 3) [[1]; [1 / 4]] 2) by (cbn; f_equal; unfold poly_eval; cbn; field).
        rewrite (gassmann_row co2 quartz 2 (1 / 3) 2) by (reflexivity || lra || field). do 2 f_equal; (lra || field).
      * change (calculate_row co2 (mkInput [(quartz, None)] (mk_fluids 80 [mk_constituent (FArbitrary water) 0 None] Wood 3 [] BatzleWang) [None]
          (mkDryRock (RockPolyfit (mkCoef Moduli (Some [[2]]) (Some [[1]; [1 / 4]]) (Some [[1]]))) (1 / 3) [])
          (mkPressure 100 0 (Some 0) None (Some 0))) = Ok (mkRow (8 / 3) 4 2 1 (7 / 3) 4)).
        rewrite (family_row co2 quartz 3 (1 / 3) [[1]; [1 / 4]] 2) by (cbn; f_equal; unfold poly_eval; cbn; field).
        rewrite (gassmann_row co2 quartz 2 (1 / 3) 2) by (reflexivity || lra || field). do 2 f_equal; (lra || field).
Qed.
Lemma coefficient_alone : forall co2 st, gives_rows co2 st ["k"%string] coefficient_items [(0%Z, [1])] [mkRow (16 / 7) 4 1 1 (7 / 3) 4].
Proof.
  intros co2 st. exists (Some (family_binput (up quartz) 3 (NCol [1]) (Sc (1 / 3)))). split.
  - parse_tac. apply (family_build _ _ (N0 3) 3 (NCol [1]) (Sc (1 / 3)) quartz_built eq_refl).
  - apply outputs_of_rows; try (cbn; lia || reflexivity).
    + apply family_wf; [repeat split; exact I|exact I].
    + split; [exact I|constructor].
    + row_tac.
      change (calculate_row co2 (mkInput [(quartz, None)] (mk_fluids 80 [mk_constituent (FArbitrary water) 0 None] Wood 3 [] BatzleWang) [None]
          (mkDryRock (RockPolyfit (mkCoef Moduli (Some [[2]]) (Some [[1]]) (Some [[1]]))) (1 / 3) [])
          (mkPressure 100 0 (Some 0) None (Some 0))) = Ok (mkRow (16 / 7) 4 1 1 (7 / 3) 4)).
      rewrite (family_row co2 quartz 3 (1 / 3) [[1]] 1) by (cbn; f_equal; unfold poly_eval; cbn; field).
      rewrite (gassmann_row co2 quartz 1 (1 / 3) (4 / 3)) by (reflexivity || lra || field). do 2 f_equal; (lra || field).
Qed.

(** ** The Brie constant from a column *)
Definition brie_items : list (string * value) := family quartz_item (VDict [("column", VStr "e")]%string) (VNum 2) (VNum (1 / 3)).
Definition brie_rows : list row := [(0%Z, [3]); (1%Z, [3])].
Lemma brie_together : forall st inp, parse_input st brie_items (Some (frame ["e"%string] brie_rows)) <> Ok inp.
Proof.
  intros st inp H.
  assert (X : parse_input st brie_items (Some (frame ["e"%string] brie_rows)) = Err ValueError).
  { parse_tac. unfold build. cbn [cf_minerals cf_fluids map sequence]. unfold build_mineral. cbn [k_material]. rewrite sample_arbitrary by lra.
    cbn [bind sequence]. unfold build_fluids. cbn [fc_constituents map sequence]. unfold build_constituent. cbn [k_material build_fluid].
    rewrite sample_arbitrary by lra. reflexivity. }
  rewrite X in H. discriminate H.
Qed.
Lemma brie_alone : forall co2 st r, In r brie_rows -> gives_rows co2 st ["e"%string] brie_items [r] [mkRow (8 / 3) 4 2 1 (7 / 3) 4].
Proof.
  intros co2 st r Hr. exists (Some (family_binput (up quartz) 3 (N0 2) (Sc (1 / 3)))). split.
  - destruct Hr as [<-|[<-|[]]]; parse_tac; apply (family_build _ _ (NCol [3]) 3 (N0 2) (Sc (1 / 3)) quartz_built eq_refl).
  - apply outputs_of_rows; try (cbn; lia || reflexivity).
    + apply family_wf; [repeat split; exact I|exact I].
    + split; [exact I|constructor].
    + row_tac.
      change (calculate_row co2 (mkInput [(quartz, None)] (mk_fluids 80 [mk_constituent (FArbitrary water) 0 None] Wood 3 [] BatzleWang) [None]
          (mkDryRock (RockPolyfit (mkCoef Moduli (Some [[2]]) (Some [[2]]) (Some [[1]]))) (1 / 3) [])
          (mkPressure 100 0 (Some 0) None (Some 0))) = Ok (mkRow (8 / 3) 4 2 1 (7 / 3) 4)).
      rewrite (family_row co2 quartz 3 (1 / 3) [[2]] 2) by (cbn; f_equal; unfold poly_eval; cbn; field).
      rewrite (gassmann_row co2 quartz 2 (1 / 3) 2) by (reflexivity || lra || field). do 2 f_equal; (lra || field).
Qed.

(** ** A mineral that is no material *)
Definition strange_mineral : value :=
  VDict [("density", VNum (-3)); ("bulk_modulus", VNum 4); ("shear_modulus", VNum (-1)); ("primary_velocity", VNum (-2));
         ("secondary_velocity", VNum (-1))]%string.
Definition strange_items : list (string * value) := family strange_mineral (VNum 3) (VNum 2) (VNum (1 / 3)).
Lemma strange_parse : forall st, parse_input st strange_items None =
  Ok (Some (family_binput (up (mkMat 4 (-1) (-3) (-2) (-1))) 3 (N0 2) (Sc (1 / 3)))).
Proof.
  intros st. parse_tac. apply (family_build (mkArbitrary (Sc (-3)) (Some (Sc 4)) (Some (Sc (-1))) (Some (Sc (-1))) (Some (Sc (-2)))) (up (mkMat 4 (-1) (-3) (-2) (-1))) (N0 3) 3 (N0 2) (Sc (1 / 3)) eq_refl eq_refl).
Qed.
Lemma strange_outputs : forall co2,
  calculate_input co2 1 (Some (family_binput (up (mkMat 4 (-1) (-3) (-2) (-1))) 3 (N0 2) (Sc (1 / 3)))) = Ok [mkRow (8 / 3) 4 2 1 (7 / 3) 4].
Proof.
  intros co2. apply outputs_of_rows; try (cbn; lia || reflexivity).
  - apply family_wf; [repeat split; exact I|exact I].
  - split; [exact I|constructor].
  - row_tac.
    change (calculate_row co2 (mkInput [(mkMat 4 (-1) (-3) (-2) (-1), None)] (mk_fluids 80 [mk_constituent (FArbitrary water) 0 None] Wood 3 [] BatzleWang) [None]
        (mkDryRock (RockPolyfit (mkCoef Moduli (Some [[2]]) (Some [[2]]) (Some [[1]]))) (1 / 3) [])
        (mkPressure 100 0 (Some 0) None (Some 0))) = Ok (mkRow (8 / 3) 4 2 1 (7 / 3) 4)).
    rewrite (family_row co2 (mkMat 4 (-1) (-3) (-2) (-1)) 3 (1 / 3) [[2]] 2) by (cbn; f_equal; unfold poly_eval; cbn; field).
    rewrite (gassmann_row co2 (mkMat 4 (-1) (-3) (-2) (-1)) 2 (1 / 3) 2) by (reflexivity || lra || field). do 2 f_equal; (lra || field).
Qed.

(** ** Brine among the minerals *)
Definition brine_items : list (string * value) :=
  family (VDict [("type", VStr "brine"); ("salinity", VNum 45000)])%string (VNum 3) (VNum 2) (VNum (1 / 3)).
Lemma brine_parse : forall st, parse_input st brine_items None = Ok None.
Proof.
  intros st. parse_tac. unfold build. cbn [cf_minerals cf_fluids cf_dry_rock map sequence].
  unfold build_mineral. cbn [k_material bind sequence].
  pose proof (family_build (mkArbitrary (Sc 3) (Some (Sc 4)) (Some (Sc 1)) None None) (up quartz) (N0 3) 3 (N0 2) (Sc (1 / 3)) quartz_built eq_refl) as B.
  unfold build in B. cbn [family_config cf_minerals cf_fluids cf_dry_rock map sequence] in B. unfold build_mineral in B. cbn [k_material] in B.
  rewrite quartz_built in B. cbn [bind sequence] in B.
  match type of B with context [build_fluids ?f] => destruct (build_fluids f) as [fl|] end; [|discriminate B]. cbn [bind] in *.
  match type of B with context [build_dry_rock ?f] => destruct (build_dry_rock f) as [dr|] end; [|discriminate B]. cbn [bind k_fraction] in *.
  rewrite no_fraction_checked in *. cbn [bind] in *.
  match type of B with context [b_complete_fluids ?f ?l] => destruct (b_complete_fluids f l) as [z|] eqn:Z end; [|discriminate B].
  cbn [bind] in B. destruct (b_check_dry_rock dr) as [u|]; [reflexivity|discriminate B].
Qed.

(** ** The examples of friable sand and patchy cement *)
Lemma whole_mineral : forall m, minerals [(m, Some 1)] = Ok [(m, 1)].
Proof.
  intros m. unfold minerals. cbn [map snd fst].
  assert (E : fraction_is_ratio (Some 1) = Ok (Some 1)).
  { unfold fraction_is_ratio. destruct (Rlt_dec _ _) as [H|_]; [exfalso; lra|]. destruct (Rlt_dec _ _) as [H|_]; [exfalso; lra|]. reflexivity. }
  rewrite E. cbn [sequence bind]. unfold fix_one_fraction. cbn [sum_given count_missing].
  destruct (Rlt_dec _ _) as [H|_]; [exfalso; lra|]. cbn [map bind rsum].
  unfold isclose_one. destruct (Rle_dec _ _) as [_|H]; [reflexivity|]. exfalso. apply H.
  replace (1 + 0 - 1) with 0 by ring. rewrite Rabs_R0. pose proof (Rabs_pos 1). lra.
Qed.
Lemma whole_fraction_checked : check_mineral_fractions [Some (Sc 1)] = Ok tt.
Proof.
  change [Some (Sc 1)] with (map snd (map (fun c => (up (fst c), RowScalarProofs.opt (snd c))) [(quartz, Some 1)])). rewrite fractions_checked.
  rewrite sc_minerals, whole_mineral. reflexivity.
Qed.
Lemma one_fluid_complete : forall f x, bf_constituents f = [x] -> exists f', b_complete_fluids f [None] = Ok f'.
Proof.
  intros f x E. unfold b_complete_fluids. cbn [each b_fraction_is_ratio bind guard].
  assert (S : b_sum_given [None] = Sc 0) by apply (sc_sum_given [None]).
  assert (F : b_fix_one_fraction [None] = Ok [Sc 1]) by (pose proof (sc_fix_one_fraction [None]) as F; rewrite one_fraction in F; exact F).
  rewrite S, F. cbn [any]. unfold ltb. destruct (Rlt_dec _ _) as [H|_]; [exfalso; lra|]. cbn [guard bind]. eexists. reflexivity.
Qed.
Ltac material_tac := match goal with |- context [build_arbitrary (mkArbitrary (Sc ?d) (Some (Sc ?k)) (Some (Sc ?mu)) None None)] =>
  rewrite (sample_arbitrary k mu d) by lra end.
Ltac example_tac := parse_tac; unfold build; cbn [cf_minerals cf_fluids cf_dry_rock cf_pressure map sequence];
  unfold build_mineral; cbn [k_material]; material_tac; cbn [bind sequence]; unfold build_fluids;
  cbn [fc_constituents map sequence]; unfold build_constituent; cbn [k_material build_fluid];
  material_tac; cbn [bind k_fraction completed k_fluid_model fc_brie_constant float_value fc_brie_gases gas_positions is_gas List.app
    fc_temperature fc_mix_method fc_fluid_model sequence k_material];
  unfold build_dry_rock; cbn [dc_model dc_adjustments dc_porosity build_sandstone map sequence];
  unfold build_patchy; cbn [pc_cement]; try material_tac; cbn [bind sequence]; rewrite whole_fraction_checked; cbn [bind];
  match goal with |- context [b_complete_fluids ?f [None]] => destruct (one_fluid_complete f _ eq_refl) as [f' E]; rewrite E; clear E end;
  cbn [bind].
Lemma friable_example_accepted : forall st, exists inp, parse_input st friable_sand_example None = Ok (Some inp).
Proof.
  intros st. example_tac.
  match goal with |- context [b_check_dry_rock ?d] => assert (E : b_check_dry_rock d = Ok tt) end.
  { match goal with |- b_check_dry_rock ?d = _ => change d with (up_dry_rock (mkDryRock (RockFriable (make_friable (4 / 10) 1 (Some 9))) (3 / 10) [])) end.
    rewrite sc_check_dry_rock. unfold check_dry_rock. cbn [dr_model dr_porosity]. unfold check_critical, check_patchy_bound. cbn [make_friable make_patchy f_critical pa_critical pa_upper_fraction bind]. 
    destruct (Rlt_dec _ _) as [H|_]; [exfalso; lra|reflexivity]. }
  rewrite E. cbn [bind]. eexists. reflexivity.
Qed.
Lemma patchy_example_accepted : forall st, exists inp, parse_input st patchy_cement_example None = Ok (Some inp).
Proof.
  intros st. example_tac.
  match goal with |- context [b_check_dry_rock ?d] => assert (E : b_check_dry_rock d = Ok tt) end.
  { match goal with |- b_check_dry_rock ?d = _ => change d with (up_dry_rock (mkDryRock (RockPatchy (make_patchy
      (sample (368 / 10 * 10 ^ 9) (44 * 10 ^ 9) 2650) (4 / 10) (4 / 100) (20 * 10 ^ 6) (1 / 10) (Some 9) 1)) (3 / 10) [])) end.
    rewrite sc_check_dry_rock. unfold check_dry_rock. cbn [dr_model dr_porosity]. unfold check_critical, check_patchy_bound. cbn [make_friable make_patchy f_critical pa_critical pa_upper_fraction bind]. 
    repeat (destruct (Rlt_dec _ _) as [H|_]; [exfalso; cbn in H; lra|]). reflexivity. }
  rewrite E. cbn [bind]. eexists. reflexivity.
Qed.
