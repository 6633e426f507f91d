(** Concrete tables and fluids for FurtherProps. *)
From Coq Require Import String List ZArith Lra Lia.
From Verif Require Import Base BaseProofs Spec MaterialModel MaterialProofs FluidModel FluidProofs ConfigModel FluidsModel RowModel RowSpec RowScalarProofs RowResultProofs RowProps NumModel NanModel NanSpec EmbedRowProofs NanRowProofs NanExampleProofs PoisonSpec PoisonExampleProofs RelProofs EmbedProofs FurtherProofs.
Import ListNotations.
Open Scope R_scope.
Lemma nan_fluid d : 0 < d -> exists m, nmat_of_moduli (Sc Nan) (Sc (Num 0)) (Sc (Num d)) = Ok m /\ n_bulk m = Sc Nan.
Proof.
  intros H. unfold nmat_of_moduli, n_check_moduli, n_check_velocities, n_primary_velocity, n_secondary_velocity.
  cbn -[sqrt Rdiv]. destruct (Req_EM_T d 0); [lra|]. cbn -[sqrt Rdiv]. destruct (Rlt_dec d 0); [lra|]. cbn -[sqrt Rdiv].
  destruct (Rlt_dec 0 0); [lra|]. cbn -[sqrt Rdiv].
  assert (Z : 0 / d = 0) by (unfold Rdiv; ring). rewrite !Z.
  destruct (Rlt_dec 0 0); [lra|]. cbn -[sqrt Rdiv]. rewrite sqrt_0. destruct (Rlt_dec 0 0); [lra|]. cbn -[sqrt Rdiv].
  eexists. split; reflexivity.
Qed.
Lemma wood_vacuum : exists m, n_wood [num_mat (up water); num_mat (up (sample 0 0 1))] [Sc (Num 1); Sc (Num 0)] = Ok m /\ n_bulk m = Sc Nan.
Proof.
  unfold n_wood, n_sum_saturations_to_one, n_mix_bulk_moduli, n_mix_densities. cbn -[Rdiv pow Rmax].
  destruct (Rlt_dec 0 (1 + (0 + 0))); [|lra]. cbn -[Rdiv pow Rmax]. rewrite Rmax_left by lra. cbn -[Rdiv pow Rmax].
  destruct (Req_EM_T 1 0); [lra|]. cbn -[Rdiv pow Rmax]. destruct (Req_EM_T 0 0); [|lra]. cbn -[Rdiv pow Rmax].
  destruct (Req_EM_T (0 / (1 + (0 + 0))) 0) as [_|G]; [|exfalso; apply G; unfold Rdiv; ring]. cbn -[Rdiv pow Rmax].
  apply nan_fluid. lra.
Qed.
Lemma number_fluid k d : 0 <= k -> 0 < d -> exists m, nmat_of_moduli (Sc (Num k)) (Sc (Num 0)) (Sc (Num d)) = Ok m /\ n_bulk m = Sc (Num k).
Proof.
  intros K H. unfold nmat_of_moduli, n_check_moduli, n_check_velocities, n_primary_velocity, n_secondary_velocity.
  cbn -[sqrt Rdiv]. destruct (Req_EM_T d 0); [lra|]. cbn -[sqrt Rdiv]. destruct (Rlt_dec d 0); [lra|]. cbn -[sqrt Rdiv].
  destruct (Rlt_dec k 0); [lra|]. cbn -[sqrt Rdiv].
  destruct (Rlt_dec 0 0); [lra|]. cbn -[sqrt Rdiv].
  assert (Z : 0 / d = 0) by (unfold Rdiv; ring). rewrite !Z.
  destruct (Rlt_dec ((k + 4 / 3 * 0) / d) 0) as [G|_].
  { exfalso. pose proof (Rinv_0_lt_compat d H) as I. pose proof (Rmult_le_pos (k + 4 / 3 * 0) (/ d) ltac:(lra) ltac:(lra)). unfold Rdiv in *. lra. }
  destruct (Rlt_dec 0 0); [lra|]. cbn -[sqrt Rdiv]. rewrite sqrt_0. pose proof (sqrt_pos ((k + 4 / 3 * 0) / d)).
  destruct (Rlt_dec (sqrt ((k + 4 / 3 * 0) / d)) 0); [lra|]. cbn -[sqrt Rdiv].
  destruct (Rlt_dec 0 0); [lra|]. cbn -[sqrt Rdiv].
  destruct (Rlt_dec (sqrt ((k + 4 / 3 * 0) / d)) (sqrt (4 / 3) * 0)); [lra|]. cbn -[sqrt Rdiv].
  eexists. split; reflexivity.
Qed.
Lemma wood_water : exists m, n_wood [num_mat (up water)] [Sc (Num 1)] = Ok m /\ n_bulk m = Sc (Num 1).
Proof.
  unfold n_wood, n_sum_saturations_to_one, n_mix_bulk_moduli, n_mix_densities. cbn -[Rdiv pow Rmax].
  destruct (Rlt_dec 0 (1 + 0)); [|lra]. cbn -[Rdiv pow Rmax]. rewrite Rmax_left by lra. cbn -[Rdiv pow Rmax].
  destruct (Req_EM_T 1 0); [lra|]. cbn -[Rdiv pow Rmax].
  replace (1 / (1 + 0) / 1 + 0) with 1 by field. destruct (Req_EM_T 1 0); [lra|]. cbn -[Rdiv pow Rmax].
  replace (1 / 1) with 1 by field. apply number_fluid; lra.
Qed.
Definition overpressured : ninput :=
  simple_table quartz water
    (mkNDryRock (NRockPolyfit (constant_fit 2 1 2)) (Sc (Num (1 / 3)))
       [NPressureDependency (NLogfit (mkCoef Moduli (Some [1; 1]) (Some [1; 1]) (Some [1; 1])))])
    (mkNPressure (Sc (Num 20)) (Sc (Num 10)) (Some (Sc (Num 30))) None (Some (Sc (Num 30)))).
Lemma nan_material : nmat_of_moduli (Sc Nan) (Sc Nan) (Sc Nan) = Ok (mkNB (Sc Nan) (Sc Nan) (Sc Nan) (Sc Nan) (Sc Nan)).
Proof. reflexivity. Qed.
Lemma overpressured_results : forall co2, n_results (with_nan co2) 1 overpressured = Ok [mkNRow Nan (Num 4) Nan Nan Nan (Num 4)].
Proof.
  intros co2. unfold overpressured. rewrite (simple_table_results co2 1 quartz water _ _ (Sc (Num 30)));
    [|apply water_fluid|cbn; lra|reflexivity].
  change (n_check_dry_rock _) with (Ok tt). cbn [bind].
  unfold n_dry_rock_material. change (n_truncated_rock _) with (Ok (Sc (Num (20 - 30)))). cbn [bind].
  unfold n_material_from_model. cbn [ndr_model ndr_porosity ndr_adjustments n_adjust_material].
  destruct (sim_value _ _ (up (sample 2 1 2)) _ (sim_polyval_material (constant_fit 2 1 2) (Sc (1 / 3)) (Sc (Num (1 / 3)))
    (up quartz) (num_mat (up quartz)) eq_refl (realb_num _))) as [m [-> Q]].
  { rewrite sc_polyval. unfold polyval_material.
    cbn [uses_moduli c_flavour constant_fit c_density c_primary c_secondary fit_property].
    unfold polyval2d. cbn [poly_rows bind]. unfold poly_eval. cbn [fold_right].
    rewrite !Rmult_0_l, !Rplus_0_r, mat_of_moduli_ok by lra. reflexivity. }
  cbn [bind n_adjust_one]. rewrite (realb_num_eq _ _ Q). unfold n_adjust_pressure.
  change (n_truncated_rock _) with (Ok (Sc (Num (20 - 30)))). cbn [bind n_pressure_dependency].
  change (n_truncated_reference _) with (Sc (Num (20 - 10))).
  assert (L : n_logfit_row (Num (20 - 10)) [1; 1] = Ok (Num 2)).
  { unfold n_logfit_row. cbn -[ln Rdiv]. destruct (Rlt_dec 0 (20 - 10)); [|lra]. cbn -[ln Rdiv]. do 2 f_equal.
    replace (20 - 10) with 10 by lra. assert (ln 10 <> 0) by (rewrite <- ln_1; intro E; apply ln_inv in E; lra).
    field. assumption. }
  assert (N : n_logfit_row (Num (20 - 30)) [1; 1] = Ok Nan).
  { unfold n_logfit_row. cbn -[ln Rdiv]. destruct (Rlt_dec 0 (20 - 30)); [lra|]. destruct (Req_EM_T (20 - 30) 0); [lra|]. reflexivity. }
  unfold n_generic_dependency, n_eval_model. cbn [c_density c_primary c_secondary coefficient_rows bind no_rows guard amap n_three].
  cbn [length Nat.eqb andb bind n_three]. rewrite L, N. cbn [bind].
  assert (Ty : any n_tiny_row (Sc (Num 2, Num 2, Num 2)) = false).
  { cbn -[pow Rdiv]. rewrite Rabs_pos_eq by lra. destruct (Rle_dec 2 (1 / 10 ^ 20)); [lra|reflexivity]. }
  rewrite Ty. cbn [guard bind n_model_uses_moduli uses_moduli c_flavour].
  change (nmat_of_moduli _ _ _) with (nmat_of_moduli (Sc Nan) (Sc Nan) (Sc Nan)). rewrite nan_material. cbn [bind].
  change (n_nonporous _ _) with (Ok (num_mat (up quartz))). cbn [bind].
  assert (D : n_gassman_equation Nan (Num 4) (Num 1) (Num (1 / 3)) = Ok Nan).
  { unfold n_gassman_equation, neqb. destruct (Req_EM_T (1 / 3) 0) as [H|_]; [exfalso; lra|].
    cbn [p_div nsub nlift2 nmul bind]. unfold p_div, nmul, nsub, nlift2.
    destruct (Req_EM_T ((4 - 1) * (1 / 3)) 0) as [H|_]; [exfalso; lra|reflexivity]. }
  unfold n_fluid_substitution.
  change (zip4 _ _ _ _) with (Sc (Nan, Num 4, Num 1, Num (1 / 3))). cbn [amap fst snd]. rewrite D. reflexivity.
Qed.
