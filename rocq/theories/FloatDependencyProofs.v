(** The correction for pressure at the reference pressure, in double precision. *)
From Coq Require Import Reals List Lra Lia ZArith Bool.
From Verif Require Import Base MaterialModel MainModel FloatModel ConfigModel FloatSpec FloatProofs FloatExampleProofs FloatPolyProofs FloatBrineProofs FloatPressureProofs FloatDependencyModel.
Import ListNotations.
Open Scope R_scope.

Lemma double_small x : double x -> Rabs x < 2 ^ 1024.
Proof.
  intros (m & e & M & E & ->). rewrite Rabs_mult.
  assert (P : 0 < powerRZ 2 e) by (apply powerRZ_lt; lra). rewrite (Rabs_pos_eq (powerRZ 2 e)) by lra.
  assert (A : Rabs (IZR m) < 2 ^ 53). { rewrite <- abs_IZR, pow_IZR. apply IZR_lt. exact M. }
  assert (B : powerRZ 2 e <= 2 ^ 971).
  { replace (2 ^ 971) with (powerRZ 2 971) by (rewrite pow_powerRZ; f_equal). 
    replace 971%Z with (e + Z.of_nat (Z.to_nat (971 - e)))%Z by lia. rewrite powerRZ_add by lra.
    rewrite <- pow_powerRZ. rewrite <- (Rmult_1_r (powerRZ 2 e)) at 1. apply Rmult_le_compat_l; [lra|]. apply pow_R1_Rle. lra. }
  replace 1024%nat with (53 + 971)%nat by lia. rewrite pow_add. pose proof (two_pos 971). pose proof (Rabs_pos (IZR m)).
  apply Rle_lt_trans with (Rabs (IZR m) * 2 ^ 971); [apply Rmult_le_compat_l; assumption|apply Rmult_lt_compat_r; assumption].
Qed.
Lemma rnd_of_double x : double x -> rnd x = Ok x.
Proof.
  intros D. unfold rnd. rewrite (double_rounds _ D). destruct (Rlt_dec _ _) as [|N]; [reflexivity|]. exfalso. apply N, double_small, D.
Qed.
Lemma double_one : double 1.
Proof. exists 1%Z, 0%Z. split; [reflexivity|]. split; [lia|simpl; ring]. Qed.
Lemma same_factor x : x <> 0 -> f_np_div x x = Ok 1.
Proof.
  intros N. unfold f_np_div. destruct (Req_EM_T x 0); [contradiction|]. replace (x / x) with 1 by (field; exact N). apply rnd_of_double, double_one.
Qed.

Lemma limit_bounds : 1 / (2 * 10 ^ 20) < fl (1 / 10 ^ 20) < 2 / 10 ^ 20.
Proof.
  pose proof (fl_error (1 / 10 ^ 20)) as E. assert (T : / 2 ^ 1075 <= / 2 ^ 100) by (apply half_le; lia).
  assert (U : u <= / 2 ^ 10) by (unfold u; apply half_le; lia).
  assert (H : / 2 ^ 100 <= 1 / 10 ^ 25). { unfold Rdiv. rewrite Rmult_1_l. apply Rinv_le_contravar; [lra|]. rewrite !pow_IZR. simpl Z.pow. lra. }
  rewrite (Rabs_pos_eq (1 / 10 ^ 20)) in E by lra.
  assert (u * (1 / 10 ^ 20) <= / 2 ^ 10 * (1 / 10 ^ 20)) by (apply Rmult_le_compat_r; [lra|exact U]).
  assert (B : Rabs (fl (1 / 10 ^ 20) - 1 / 10 ^ 20) <= / 2 ^ 10 * (1 / 10 ^ 20) + 1 / 10 ^ 25) by lra.
  clear - B. revert B. generalize (fl (1 / 10 ^ 20)). intros z B.
  assert (- (/ 2 ^ 10 * (1 / 10 ^ 20) + 1 / 10 ^ 25) <= z - 1 / 10 ^ 20 <= / 2 ^ 10 * (1 / 10 ^ 20) + 1 / 10 ^ 25).
  { revert B. unfold Rabs. destruct (Rcase_abs _); lra. }
  lra.
Qed.
Lemma not_tiny x : 2 / 10 ^ 20 <= Rabs x -> f_tiny_value x = false /\ x <> 0.
Proof.
  intros H. pose proof limit_bounds as L. unfold f_tiny_value. destruct (Rle_dec _ _) as [C|_]; [lra|]. split; [reflexivity|].
  intros ->. rewrite Rabs_R0 in H. lra.
Qed.
Lemma is_tiny x : Rabs x <= 1 / (2 * 10 ^ 20) -> f_tiny_value x = true.
Proof. intros H. pose proof limit_bounds as L. unfold f_tiny_value. destruct (Rle_dec _ _) as [_|C]; [reflexivity|lra]. Qed.

Lemma reference_same root (b : bool) fit rd rp rs x y z m p : fit p rd = Ok x -> fit p rp = Ok y -> fit p rs = Ok z ->
  2 / 10 ^ 20 <= Rabs x -> 2 / 10 ^ 20 <= Rabs y -> 2 / 10 ^ 20 <= Rabs z ->
  double (dens m) -> (if b then double (bulk m) /\ double (shear m) else double (vp m) /\ double (vs m)) ->
  f_generic_dependency root b fit (rd, rp, rs) m p p =
    if b then f_mat_of_moduli root (bulk m) (shear m) (dens m) else f_mat_of_velocities root (dens m) (vp m) (vs m).
Proof.
  intros X Y Z Bx By Bz D S2. destruct (not_tiny x Bx) as (Tx & Nx). destruct (not_tiny y By) as (Ty & Ny). destruct (not_tiny z Bz) as (Tz & Nz).
  unfold f_generic_dependency, three. rewrite X, Y, Z. cbn [bind]. rewrite Tx, Ty, Tz. cbn [orb].
  rewrite !same_factor by assumption. cbn [bind]. rewrite !Rmult_1_r. rewrite (rnd_of_double _ D). cbn [bind].
  destruct b; destruct S2 as (P & Q); rewrite (rnd_of_double _ P); cbn [bind]; rewrite (rnd_of_double _ Q); reflexivity.
Qed.

Lemma made_parts root k mu d m : f_mat_of_moduli root k mu d = Ok m -> bulk m = k /\ shear m = mu /\ dens m = d.
Proof.
  unfold f_mat_of_moduli. destruct (f_primary_velocity root k mu d) as [p|]; [|discriminate]. cbn [bind].
  destruct (f_secondary_velocity root mu d) as [s|]; [|discriminate]. cbn [bind]. unfold f_guards.
  repeat (destruct (Rlt_dec _ _); [discriminate|]). destruct (rnd _); [|discriminate]. cbn [bind].
  destruct (Rlt_dec _ _); [discriminate|]. intros E. injection E as <-. cbn. auto.
Qed.
Lemma made_parts_v root d p s m : f_mat_of_velocities root d p s = Ok m -> dens m = d /\ vp m = p /\ vs m = s.
Proof.
  unfold f_mat_of_velocities. destruct (f_shear_modulus s d) as [mu|]; [|discriminate]. cbn [bind].
  destruct (f_bulk_modulus p mu d) as [k|]; [|discriminate]. cbn [bind]. unfold f_guards.
  repeat (destruct (Rlt_dec _ _); [discriminate|]). destruct (rnd _); [|discriminate]. cbn [bind].
  destruct (Rlt_dec _ _); [discriminate|]. intros E. injection E as <-. cbn. auto.
Qed.

Lemma reference_moduli root fit rd rp rs x y z k mu d m p : fit p rd = Ok x -> fit p rp = Ok y -> fit p rs = Ok z ->
  2 / 10 ^ 20 <= Rabs x -> 2 / 10 ^ 20 <= Rabs y -> 2 / 10 ^ 20 <= Rabs z ->
  double k -> double mu -> double d -> f_mat_of_moduli root k mu d = Ok m ->
  f_generic_dependency root true fit (rd, rp, rs) m p p = Ok m.
Proof.
  intros X Y Z Bx By Bz Dk Dm Dd E. destruct (made_parts _ _ _ _ _ E) as (E1 & E2 & E3).
  rewrite (reference_same root true fit rd rp rs x y z) by (rewrite ?E1, ?E2, ?E3; auto). rewrite E1, E2, E3. exact E.
Qed.
Lemma reference_velocities root fit rd rp rs x y z d a b m p : fit p rd = Ok x -> fit p rp = Ok y -> fit p rs = Ok z ->
  2 / 10 ^ 20 <= Rabs x -> 2 / 10 ^ 20 <= Rabs y -> 2 / 10 ^ 20 <= Rabs z ->
  double d -> double a -> double b -> f_mat_of_velocities root d a b = Ok m ->
  f_generic_dependency root false fit (rd, rp, rs) m p p = Ok m.
Proof.
  intros X Y Z Bx By Bz Dd Da Db E. destruct (made_parts_v _ _ _ _ _ E) as (E1 & E2 & E3).
  rewrite (reference_same root false fit rd rp rs x y z) by (rewrite ?E1, ?E2, ?E3; auto). rewrite E1, E2, E3. exact E.
Qed.
Lemma reference_zero root (b : bool) fit rd rp rs x y z x' y' z' m p r : fit r rd = Ok x -> fit r rp = Ok y -> fit r rs = Ok z ->
  fit p rd = Ok x' -> fit p rp = Ok y' -> fit p rs = Ok z' ->
  Rabs x <= 1 / (2 * 10 ^ 20) \/ Rabs y <= 1 / (2 * 10 ^ 20) \/ Rabs z <= 1 / (2 * 10 ^ 20) ->
  f_generic_dependency root b fit (rd, rp, rs) m p r = Err ValueError.
Proof.
  intros X Y Z X' Y' Z' H. unfold f_generic_dependency, three. rewrite X, Y, Z. cbn [bind]. rewrite X', Y', Z'. cbn [bind].
  destruct H as [H|[H|H]]; rewrite (is_tiny _ H); rewrite ?orb_true_r; reflexivity.
Qed.

Lemma power_reference root fit rows m p r : double (bulk m) -> double (dens m) ->
  f_powerfit_dependency root fit rows m p p = Ok r -> bulk r = bulk m /\ dens r = dens m.
Proof.
  intros Dk Dd. unfold f_powerfit_dependency. destruct (three (fit p) rows) as [[[x y] z]|]; [|discriminate]. cbn [bind].
  rewrite !Rminus_diag_eq by reflexivity. rewrite rnd_0. cbn [bind]. rewrite !Rplus_0_r.
  destruct (f_np_div (vp m) (vs m)) as [q|]; [|discriminate]. cbn [bind]. rewrite ?Rplus_0_r. destruct (rnd q) as [v|]; [|discriminate]. cbn [bind].
  rewrite (rnd_of_double _ Dk). cbn [bind]. destruct (rnd (v * v)) as [w|]; [|discriminate]. cbn [bind].
  destruct (rnd (w - four_thirds)) as [h|]; [|discriminate]. cbn [bind]. destruct (Rle_dec h _) as [|]; [intros C; discriminate C|].
  destruct (f_np_div (bulk m) h) as [mu|]; [|discriminate]. cbn [bind]. rewrite (rnd_of_double _ Dd). cbn [bind].
  intros E. destruct (made_parts _ _ _ _ _ E) as (A & _ & B). auto.
Qed.

(** Examples *)
Lemma near_value x : Rabs x <= 100 -> exists z, rnd x = Ok z /\ x - 1 / 100 <= z <= x + 1 / 100.
Proof.
  intros B. destruct (rnd_error x) as (z & Z & E).
  { apply Rle_trans with (2 ^ 10); [simpl; lra|]. apply Rle_trans with (2 ^ 1000); [apply two_le; lia|]. pose proof (two_pos 1000). lra. }
  exists z. split; [exact Z|]. pose proof u_le as U. pose proof small_50 as U1. pose proof u_pos as U0. pose proof tiny_le as T.
  assert (T1 : / 2 ^ 100 <= / 2 ^ 50) by (apply half_le; lia). pose proof (Rabs_pos x).
  assert (u * Rabs x <= / 1000000000 * 100) by (apply Rmult_le_compat; lra).
  assert (Q : Rabs (z - x) <= 1 / 100) by lra. revert Q. clear. unfold Rabs. destruct (Rcase_abs _); lra.
Qed.
Lemma four_thirds_near : rnd four_thirds = Ok four_thirds /\ 1 <= four_thirds <= 3 / 2.
Proof.
  destruct (near_value (4 / 3) ltac:(rewrite Rabs_pos_eq; lra)) as (z & Z & B). pose proof (rnd_fl _ _ Z) as E.
  change (fl (4 / 3)) with four_thirds in E. subst z. split; [|lra]. apply rnd_of_double. exact (rnd_double _ _ Z).
Qed.
Lemma ratio_example : exists h, rnd (4 - four_thirds) = Ok h /\ 2 <= h <= 4.
Proof.
  destruct four_thirds_near as (_ & B). destruct (near_value (4 - four_thirds) ltac:(rewrite Rabs_pos_eq; lra)) as (h & H & C).
  exists h. split; [exact H|lra].
Qed.
Lemma double_nat z : (0 <= z < 1000)%Z -> double (IZR z).
Proof. intros H. exists z, 0%Z. split; [lia|]. split; [lia|simpl; ring]. Qed.
Lemma velocities_example : exists m, f_mat_of_velocities fl_sqrt 1 2 1 = Ok m.
Proof.
  destruct four_thirds_near as (F & B). destruct ratio_example as (h & H & C).
  unfold f_mat_of_velocities, f_shear_modulus, f_bulk_modulus. replace (1 * 1) with 1 by ring. rewrite (rnd_of_double 1 double_one). cbn [bind].
  replace (1 * 1) with 1 by ring. rewrite (rnd_of_double 1 double_one). cbn [bind].
  replace (2 * 2) with 4 by ring. rewrite (rnd_of_double 4 (double_nat 4 ltac:(lia))). cbn [bind].
  rewrite !Rmult_1_r. rewrite (rnd_of_double 4 (double_nat 4 ltac:(lia))). cbn [bind]. rewrite F. cbn [bind]. rewrite H. cbn [bind].
  unfold f_guards. repeat (destruct (Rlt_dec _ 0); [lra|]). rewrite Rmult_1_r.
  assert (S1 : 1 <= sqrt four_thirds <= 3 / 2).
  { split; [rewrite <- sqrt_1; apply sqrt_le_1_alt; lra|]. rewrite <- (sqrt_square (3 / 2)) by lra. apply sqrt_le_1_alt. lra. }
  pose proof (fl_sqrt_good four_thirds (rnd_double _ _ F) ltac:(lra)) as W. unfold within in W. rewrite (Rabs_pos_eq (sqrt four_thirds)) in W by lra.
  assert (I : / 2 ^ 52 <= / 1000) by (apply Rinv_le_contravar; [lra|]; rewrite pow_IZR; simpl Z.pow; lra).
  assert (R : Rabs (fl_sqrt four_thirds - sqrt four_thirds) <= / 1000 * (3 / 2)).
  { eapply Rle_trans; [exact W|]. apply Rmult_le_compat; try lra. }
  assert (R2 : 9 / 10 <= fl_sqrt four_thirds <= 16 / 10) by (revert R; unfold Rabs; destruct (Rcase_abs _); lra).
  destruct (near_value (fl_sqrt four_thirds) ltac:(rewrite Rabs_pos_eq; lra)) as (l & L & Bl). rewrite L. cbn [bind].
  destruct (Rlt_dec 2 l); [lra|]. eexists. reflexivity.
Qed.
Lemma power_example : exists r, f_powerfit_dependency fl_sqrt (fun p row => rnd p) ([], [], []) (mkMat 8 3 2 2 1) 20 20 = Ok r.
Proof.
  destruct ratio_example as (h & H & C).
  unfold f_powerfit_dependency, three. rewrite (rnd_of_double 20 (double_nat 20 ltac:(lia))). cbn [bind vp vs bulk dens].
  rewrite !Rminus_diag_eq by reflexivity. rewrite rnd_0. cbn [bind]. unfold f_np_div at 1. destruct (Req_EM_T 1 0); [lra|].
  replace (2 / 1) with 2 by field. rewrite (rnd_of_double 2 (double_nat 2 ltac:(lia))). cbn [bind]. rewrite ?Rplus_0_r.
  rewrite (rnd_of_double 2 (double_nat 2 ltac:(lia))). cbn [bind]. rewrite (rnd_of_double 8 (double_nat 8 ltac:(lia))). cbn [bind].
  replace (2 * 2) with 4 by ring. rewrite (rnd_of_double 4 (double_nat 4 ltac:(lia))). cbn [bind]. rewrite H. cbn [bind].
  pose proof limit_bounds as L. destruct (Rle_dec h _) as [N|_]; [exfalso; revert N L; generalize (fl (1 / 10 ^ 20)); intros; lra|].
  unfold f_np_div. destruct (Req_EM_T h 0); [lra|].
  assert (Q : 2 <= 8 / h <= 4).
  { assert (I : / 4 <= / h <= / 2) by (split; apply Rinv_le_contravar; lra). unfold Rdiv. lra. }
  destruct (near_value (8 / h) ltac:(rewrite Rabs_pos_eq; lra)) as (mu & M & Bm). rewrite M. cbn [bind].
  destruct (material_close fl_sqrt 8 mu 2 fl_sqrt_good) as (m & E & _); try (apply ordinary_range; lra); try lra.
  exists m. exact E.
Qed.
