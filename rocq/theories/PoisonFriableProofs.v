(** Numbers that give nan: a friable sand whose pore pressure exceeds the
    overburden pressure. *)
From Coq Require Import String List ZArith Lra Lia.
From Verif Require Import Base BaseProofs Spec MaterialModel MaterialProofs MineralsModel FluidModel FluidProofs ConfigModel FluidsModel RowModel
  RowSpec RowScalarProofs RowResultProofs RowProps NumModel NanModel NanSpec RelProofs EmbedProofs EmbedRowProofs
  NanExampleProofs PoisonSpec PoisonExampleProofs.
Import ListNotations.
Open Scope R_scope.

Lemma root_of_negative : forall q, q < 0 -> n_pow (Num q) (Num (1 / 3)) = Ok Nan.
Proof.
  intros q H. unfold n_pow. destruct (Rlt_dec 0 q); [exfalso; lra|]. destruct (Req_EM_T q 0); [exfalso; lra|].
  destruct (Req_EM_T (1 / 3) (IZR (Int_part (1 / 3)))) as [E|_]; [exfalso|reflexivity].
  assert (0 < IZR (Int_part (1 / 3))) as A by (rewrite <- E; lra).
  assert (IZR (Int_part (1 / 3)) < 1) as B by (rewrite <- E; lra). apply lt_IZR in A, B. lia.
Qed.

Lemma n_div_num : forall x y, y <> 0 -> n_div (Num x) (Num y) = Ok (Num (x / y)).
Proof. intros x y H. unfold n_div. destruct (Req_EM_T y 0); [contradiction|reflexivity]. Qed.
Lemma n_div_nan : forall y, n_div Nan y = Ok Nan.
Proof. intros [y|]; reflexivity. Qed.

(** Nothing is compared with nan: a material without moduli passes all checks. *)
Lemma nan_moduli : forall d, 0 < d ->
  nmat_of_moduli (Sc Nan) (Sc Nan) (Sc (Num d)) = Ok (mkNB (Sc Nan) (Sc Nan) (Sc (Num d)) (Sc Nan) (Sc Nan)).
Proof.
  intros d H. unfold nmat_of_moduli, n_check_moduli. cbn [any].
  unfold neqb, nltb. destruct (Req_EM_T d 0); [exfalso; lra|]. destruct (Rlt_dec d 0); [exfalso; lra|]. reflexivity.
Qed.

Definition no_moduli (d : R) : nmat := mkNB (Sc Nan) (Sc Nan) (Sc (Num d)) (Sc Nan) (Sc Nan).
Lemma hertz_mindlin_negative : forall m phi p sr n, wf m -> 0 < shear m -> phi < 1 -> p < 0 -> 0 < n ->
  n_hertz_mindlin (num_mat (up m)) (Sc (Num phi)) (Sc (Num p)) (Sc (Num sr)) (Sc (Num n)) =
  Ok (no_moduli (dens m * (1 - phi))).
Proof.
  intros m phi p sr n (D & K & _ & _) S Hphi Hp Hn. unfold n_hertz_mindlin, n_poisson_ratio.
  cbn [num_mat up n_bulk n_shear n_dens b_bulk b_shear b_dens pmap zip amap fst snd].
  unfold pmap. cbn [pmap zip amap fst snd bind]. unfold nadd, nsub, nmul. cbn [nlift2].
  rewrite n_div_num by lra. cbn [bind]. set (v := (3 * bulk m - 2 * shear m) / (2 * (3 * bulk m + shear m))).
  assert (V : 0 < 1 - v).
  { replace (1 - v) with ((3 * bulk m + 4 * shear m) / (2 * (3 * bulk m + shear m))) by (unfold v; field; lra).
    apply Rdiv_lt_0_compat; lra. }
  cbn [zip5 zip4 zip3 zip amap bind nlift2].
  assert (B : 0 < 2 * n * (1 - phi) * shear m) by (repeat apply Rmult_lt_0_compat; lra).
  rewrite n_div_num by lra. cbn [bind amap]. rewrite root_of_negative.
  2:{ pose proof PI_RGT_0. unfold Rdiv. rewrite Rmult_comm. rewrite <- (Rmult_0_r (/ (2 * n * (1 - phi) * shear m))).
      apply Rmult_lt_compat_l; [apply Rinv_0_lt_compat; exact B|].
      rewrite <- (Rmult_0_r (3 * PI * (1 - v))). apply Rmult_lt_compat_l; [|exact Hp]. apply Rmult_lt_0_compat; [lra|exact V]. }
  cbn [bind nlift2 amap zip3 zip]. rewrite !n_div_nan. cbn [bind pmap zip3 zip zip4 zip5 amap]. rewrite ?n_div_nan. cbn [bind pmap zip3 zip zip4 zip5 amap nlift2]. unfold nquot. cbn [nlift2].
  apply nan_moduli. apply Rmult_lt_0_compat; lra.
Qed.

Lemma walpole_no_moduli : forall m d f, 0 < dens m -> 0 < d -> 0 <= f <= 1 ->
  n_walpole (num_mat (up m)) (no_moduli d) (Sc (Num f)) = Ok (no_moduli (f * dens m + (1 - f) * d)).
Proof.
  intros m d f D Hd F. unfold n_walpole, n_check_is_ratio. cbn [any]. unfold nltb, nadd, nsub, nquot, npow, nlift1. cbn [nlift2].
  destruct (Rlt_dec (1 + 1 / 10 ^ 5) f) as [H|_]; [exfalso; lra|]. cbn [guard bind].
  destruct (Rlt_dec f (0 - 1 / 10 ^ 5)) as [H|_]; [exfalso; lra|]. cbn [guard bind].
  cbn [num_mat up no_moduli n_bulk n_shear n_dens b_bulk b_shear b_dens]. unfold pmap.
  cbn [zip zip3 zip4 zip5 zip6 pmap amap fst snd]. unfold n_calc_density, n_calc_bulk_modulus, n_calc_shear_modulus.
  unfold neqb. unfold nadd, nsub, nmul, nmin, nquot. cbn [nlift2 p_div bind].
  assert (E : (if (if Req_EM_T (dens m) d then true else false) then Num d else Num (f * dens m + (1 - f) * d))
    = Num (f * dens m + (1 - f) * d)).
  { destruct (Req_EM_T (dens m) d) as [->|_]; [|reflexivity]. f_equal. lra. }
  rewrite E. apply nan_moduli. destruct (Rle_lt_dec f (1 / 2)).
  - apply Rplus_le_lt_0_compat; [apply Rmult_le_pos; lra|apply Rmult_lt_0_compat; lra].
  - apply Rplus_lt_le_0_compat; [apply Rmult_lt_0_compat; lra|apply Rmult_le_pos; lra].
Qed.

Lemma friable_negative : forall m phi phic p n sr, wf m -> 0 < shear m -> 0 <= phi <= phic -> 0 < phic < 1 -> p < 0 -> 0 < n ->
  n_friable_sand (num_mat (up m)) (Sc (Num phi)) (Sc (Num phic)) (Sc (Num p)) (Sc (Num n)) (Sc (Num sr)) =
  Ok (no_moduli (dens m * (1 - phi))).
Proof.
  intros m phi phic p n sr W S Hphi Hc Hp Hn. unfold n_friable_sand.
  rewrite hertz_mindlin_negative by (try assumption; lra). cbn [bind zip amap].
  rewrite n_div_num by lra. cbn [bind pmap]. unfold nsub. cbn [nlift2].
  destruct W as (D & _). rewrite walpole_no_moduli.
  - do 2 f_equal. field. lra.
  - exact D.
  - apply Rmult_lt_0_compat; lra.
  - assert (0 <= phi / phic) by (apply Rmult_le_pos; [lra|left; apply Rinv_0_lt_compat; lra]).
    assert (phi / phic <= 1) by (apply Rmult_le_reg_r with phic; [lra|]; unfold Rdiv; rewrite Rmult_assoc, Rinv_l by lra; lra). lra.
Qed.

Lemma repeat_combine : forall {A B} (a : A) (b : B) n, combine (repeat a n) (repeat b n) = repeat (a, b) n.
Proof. intros A B a b n. induction n as [|n IH]; cbn; [reflexivity|rewrite IH; reflexivity]. Qed.

Lemma map_repeat : forall {A B} (f : A -> B) a n, map f (repeat a n) = repeat (f a) n.
Proof. intros A B f a n. induction n as [|n IH]; cbn; [reflexivity|rewrite IH; reflexivity]. Qed.

Lemma sandpack_nan : forall co2 n mineral fl phi phic sr cn overburden reference pore,
  solid mineral -> fluid fl -> 0 < bulk fl -> bulk fl <> bulk mineral -> 0 < phi -> phi + 1 / 10 ^ 5 <= phic -> phic < 1 -> 0 < cn ->
  overburden < pore ->
  n_results (with_nan co2) n (num_input (up_input (sandpack mineral fl phi phic sr cn overburden reference pore))) =
  Ok (repeat (mkNRow Nan (Num (bulk mineral)) Nan Nan (Num (dens mineral * (1 - phi) + phi * dens fl)) (Num (bulk mineral))) n).
Proof.
  intros co2 n mineral fl phi phic sr cn pob ref pore [W S] F B N Hphi Hc Hc1 Hn Hp.
  set (d := mkNDryRock (NRockFriable (mkNFriable (Sc (Num phic)) (Sc (Num sr)) (Sc (Num cn)))) (Sc (Num phi)) []).
  set (p := mkNPressure (Sc (Num pob)) (Sc (Num ref)) (Some (Sc (Num pore))) None (Some (Sc (Num pore)))).
  change (num_input _) with (simple_table mineral fl d p).
  rewrite (simple_table_results co2 n mineral fl d p (Sc (Num pore)) F B eq_refl).
  unfold n_check_dry_rock. cbn [d ndr_model nfr_critical ndr_porosity zip any]. unfold nltb, nadd, nquot, npow, nlift1. cbn [nlift2].
  destruct (Rlt_dec phic (phi + 1 / 10 ^ 5)) as [H|_]; [exfalso; lra|]. cbn [guard bind].
  unfold n_dry_rock_material. change (n_truncated_rock p) with (Ok (Sc (Num (pob - pore)))). cbn [bind].
  unfold n_material_from_model, n_friable_material. cbn [d ndr_model nfr_critical ndr_porosity nfr_coordination nfr_shear_reduction].
  rewrite friable_negative by (try assumption; lra). cbn [bind]. change (ndr_adjustments d) with (@nil nadjustment). cbn [n_adjust_material bind].
  change (n_nonporous _ _) with (Ok (num_mat (up mineral))). cbn [bind]. unfold n_fluid_substitution.
  cbn [num_mat up no_moduli n_bulk n_shear n_dens b_bulk b_shear b_dens]. unfold pmap. cbn [zip4 zip3 zip pmap amap fst snd].
  unfold n_gassman_equation, neqb. destruct (Req_EM_T phi 0) as [H|_]; [exfalso; lra|].
  unfold nsub, nmul, nadd. cbn [nlift2].
  assert (Z : (bulk mineral - bulk fl) * phi <> 0) by (apply Rmult_integral_contrapositive_currified; lra).
  change (p_div Nan Nan) with (Ok Nan). cbn [bind].
  replace (p_div (Num (bulk fl)) (Num ((bulk mineral - bulk fl) * phi))) with (Ok (Num (bulk fl / ((bulk mineral - bulk fl) * phi))))
    by (unfold p_div; destruct (Req_EM_T _ 0) as [H|_]; [contradiction|reflexivity]).
  cbn [bind nlift2 nltb p_div]. rewrite nan_moduli.
  2:{ destruct F as [(D & _) _], W as (D' & _). apply Rplus_lt_0_compat; apply Rmult_lt_0_compat; lra. }
  cbn [bind no_ksat no_kmin no_kdry no_mysat no_rsat no_kmin_fls n_bulk n_shear n_dens]. unfold n_result_rows.
  cbn [no_ksat no_kmin no_kdry no_mysat no_rsat no_kmin_fls expand]. rewrite !repeat_combine, map_repeat. reflexivity.
Qed.

Lemma overpressured_nan : forall co2,
  n_results (with_nan co2) 1 (num_input (up_input (sandpack quartz water (1 / 3) (2 / 5) 1 9 20 10 30))) =
  Ok [mkNRow Nan (Num 4) Nan Nan (Num (3 * (1 - 1 / 3) + 1 / 3 * 1)) (Num 4)].
Proof.
  intro co2. rewrite sandpack_nan; try (cbn; lra); [reflexivity| |apply sample_fluid; lra].
  split; [apply sample_wf; lra|cbn; lra].
Qed.
