(** Errors of the fits in double precision. *)
From Coq Require Import Reals List Lra Lia ZArith.
From Verif Require Import Base MaterialModel MainModel FloatModel ConfigModel FloatSpec FloatProofs FloatPolyProofs FloatPressureSpec FloatPressureModel.
Import ListNotations.
Open Scope R_scope.

Definition tiny : R := / 2 ^ 1075.
Lemma tiny_pos : 0 < tiny. Proof. apply half_pos. Qed.
Lemma tiny_le : tiny <= / 2 ^ 100. Proof. apply half_le. lia. Qed.
Lemma u_le : u <= / 2 ^ 50. Proof. unfold u. apply half_le. lia. Qed.
Lemma half_50 : / 2 ^ 50 = 8 * u. Proof. unfold u. replace 53%nat with (3 + 50)%nat by lia. rewrite pow_add, Rinv_mult. simpl (2 ^ 3). lra. Qed.
Lemma small_50 : / 2 ^ 50 <= / 1000000000.
Proof. apply Rinv_le_contravar; [lra|]. rewrite pow_IZR. simpl Z.pow. lra. Qed.

Lemma big_1023 : 1 <= 2 ^ 1000 /\ 8 * 2 ^ 1000 <= 2 ^ 1003 /\ 2 ^ 1003 < 2 ^ 1024.
Proof.
  split; [apply pow_R1_Rle; lra|]. split.
  - replace 1003%nat with (3 + 1000)%nat by lia. rewrite pow_add. simpl (2 ^ 3). lra.
  - apply Rlt_pow; [lra|lia].
Qed.

Lemma rnd_error x : Rabs x <= 4 * 2 ^ 1000 -> exists z, rnd x = Ok z /\ Rabs (z - x) <= u * Rabs x + tiny.
Proof.
  intros B. exists (fl x). pose proof (fl_error x) as E. fold tiny in E. split; [|exact E].
  unfold rnd. destruct (Rlt_dec _ _) as [|N]; [reflexivity|]. exfalso. apply N.
  destruct big_1023 as (B1 & B2 & B3). pose proof u_le. pose proof u_pos. pose proof small_50. pose proof tiny_le as T.
  assert (/ 2 ^ 100 <= / 2 ^ 50) by (apply half_le; lia).
  assert (u * Rabs x <= / 2 * Rabs x) by (apply Rmult_le_compat_r; [apply Rabs_pos|lra]).
  assert (Rabs (fl x) <= Rabs x + Rabs (fl x - x)).
  { replace (fl x) with (x + (fl x - x)) at 1 by ring. apply Rabs_triang. }
  revert B1 B2 B3 B. generalize (2 ^ 1000) (2 ^ 1003) (2 ^ 1024). intros. lra.
Qed.

(** A product and a sum *)
Lemma product_error c t t' e : Rabs (t' - t) <= e * Rabs t -> 0 <= e <= / 1000 -> Rabs (c * t) <= 2 ^ 1000 ->
  exists z, rnd (c * t') = Ok z /\ Rabs (z - c * t) <= (e + 2 * u) * Rabs (c * t) + tiny.
Proof.
  intros T E B. pose proof u_pos as U. pose proof u_le as U1. pose proof small_50 as U2.
  assert (D : Rabs (c * t' - c * t) <= e * Rabs (c * t)).
  { replace (c * t' - c * t) with (c * (t' - t)) by ring. rewrite !Rabs_mult. pose proof (Rabs_pos c). nra. }
  assert (S1 : Rabs (c * t') <= (1 + e) * Rabs (c * t)).
  { replace (c * t') with (c * t + (c * t' - c * t)) at 1 by ring. eapply Rle_trans; [apply Rabs_triang|]. lra. }
  pose proof (Rabs_pos (c * t)) as P. destruct big_1023 as (B1 & _ & _).
  destruct (rnd_error (c * t')) as (z & Z & Ez). { revert B B1. generalize (2 ^ 1000). intros. nra. }
  exists z. split; [exact Z|]. replace (z - c * t) with ((z - c * t') + (c * t' - c * t)) by ring.
  eapply Rle_trans; [apply Rabs_triang|].
  assert (u * Rabs (c * t') <= u * (2 * Rabs (c * t))) by (apply Rmult_le_compat_l; [lra|]; nra). lra.
Qed.

Lemma line_error a c t t' e : Rabs (t' - t) <= e * Rabs t -> 0 <= e <= / 1000 -> Rabs a + Rabs (c * t) <= 2 ^ 1000 ->
  exists z r, rnd (c * t') = Ok z /\ rnd (a + z) = Ok r /\
    Rabs (r - (a + c * t)) <= (e + 4 * u) * (Rabs a + Rabs (c * t)) + / 2 ^ 1073.
Proof.
  intros T E B. pose proof u_pos as U. pose proof u_le as U1. pose proof small_50 as U2. pose proof (Rabs_pos a) as PA.
  destruct (product_error c t t' e T E ltac:(lra)) as (z & Z & Ez).
  pose proof (Rabs_pos (c * t)) as P. destruct big_1023 as (B1 & _ & _). pose proof tiny_pos as TP. pose proof tiny_le as TL.
  assert (TT : tiny <= / 1000). { eapply Rle_trans; [exact TL|]. eapply Rle_trans; [apply (half_le 50); lia|]. lra. }
  assert (S1 : Rabs (a + z) <= 2 * (Rabs a + Rabs (c * t)) + tiny).
  { replace (a + z) with (a + (c * t + (z - c * t))) by ring. eapply Rle_trans; [apply Rabs_triang|].
    eapply Rle_trans; [apply Rplus_le_compat_l, Rabs_triang|]. nra. }
  destruct (rnd_error (a + z)) as (r & Q & Er). { revert B B1. generalize (2 ^ 1000). intros. lra. }
  exists z, r. split; [exact Z|]. split; [exact Q|].
  replace (r - (a + c * t)) with ((r - (a + z)) + (z - c * t)) by ring. eapply Rle_trans; [apply Rabs_triang|].
  assert (E4 : / 2 ^ 1073 = 4 * tiny). { unfold tiny. replace 1075%nat with (2 + 1073)%nat by lia. rewrite pow_add, Rinv_mult. simpl (2 ^ 2). lra. }
  rewrite E4.
  assert (u * Rabs (a + z) <= u * (2 * (Rabs a + Rabs (c * t)) + tiny)) by (apply Rmult_le_compat_l; lra).
  assert (u * tiny <= tiny) by nra. assert (0 <= e * Rabs a) by (apply Rmult_le_pos; lra). assert (0 <= u * Rabs a) by (apply Rmult_le_pos; lra). nra.
Qed.

Lemma exp_small d : Rabs d <= / 2 -> Rabs (exp d - 1) <= 2 * Rabs d.
Proof.
  intros H.
  assert (L : - / 2 <= d <= / 2) by (revert H; unfold Rabs; destruct (Rcase_abs d); lra).
  pose proof (exp_ineq1_le d) as A. pose proof (exp_ineq1_le (- d)) as C. pose proof (exp_pos d) as P.
  assert (I : exp d * exp (- d) = 1) by (rewrite <- exp_plus, Rplus_opp_r, exp_0; reflexivity).
  assert (K : exp d * (1 - d) <= 1) by nra.
  unfold Rabs. destruct (Rcase_abs d); destruct (Rcase_abs (exp d - 1)); nra.
Qed.

Lemma exp_mult_nat n : exp (1 * INR n) = exp 1 ^ n.
Proof.
  induction n as [|n IH]; [cbn [INR pow]; rewrite Rmult_0_r; exact exp_0|].
  rewrite S_INR. replace (1 * (INR n + 1)) with (1 + 1 * INR n) by ring. rewrite exp_plus, IH. reflexivity.
Qed.
Lemma exp_600 x : x <= 600 -> exp x <= 2 ^ 1000.
Proof.
  intros H. apply Rle_trans with (exp 600).
  - destruct H as [H| ->]; [left; apply exp_increasing; exact H|lra].
  - replace 600 with (INR 600 * 1) by (rewrite INR_IZR_INZ; simpl Z.of_nat; ring).
    rewrite Rmult_comm, exp_mult_nat. apply Rle_trans with (3 ^ 600).
    + apply pow_incr. split; [left; apply exp_pos|exact exp_le_3].
    + rewrite !pow_IZR. apply IZR_le. vm_compute. discriminate.
Qed.

Lemma exp_error ex p c : good_exp ex -> c <> 0 -> Rabs (p / c) <= 600 ->
  exists q e, f_np_div p c = Ok q /\ f_value (ex q) = Ok e /\
    Rabs (e - exp (p / c)) <= (3 * Rabs (p / c) + 9) * u * Rabs (exp (p / c)).
Proof.
  intros G C B. set (x := p / c) in *. pose proof u_pos as U. pose proof u_le as U1. pose proof small_50 as U2.
  destruct big_1023 as (B1 & B2 & B3). pose proof (Rabs_pos x) as Px.
  destruct (rnd_error x) as (q & Q & Eq). { eapply Rle_trans; [exact B|]. apply Rle_trans with (2 ^ 10); [simpl; lra|]. apply Rle_trans with (2 ^ 1000); [apply two_le; lia|lra]. }
  exists q, (ex q). split. { unfold f_np_div. destruct (Req_EM_T c 0); [contradiction|exact Q]. }
  assert (TT : tiny <= u / 1000).
  { apply Rle_trans with (/ 2 ^ 64); [apply half_le; lia|]. unfold u. replace 64%nat with (53 + 11)%nat by lia. rewrite pow_add, Rinv_mult.
    pose proof (half_pos 53). unfold Rdiv. apply Rmult_le_compat_l; [lra|]. simpl. lra. }
  assert (D : Rabs (q - x) <= u * (Rabs x + / 1000)) by lra.
  assert (D1 : Rabs (q - x) <= / 1000) by nra.
  pose proof (exp_small (q - x) ltac:(lra)) as X. pose proof (exp_pos x) as P.
  assert (EX : exp q = exp x * exp (q - x)) by (rewrite <- exp_plus; f_equal; ring).
  assert (Bq : Rabs q <= 601). { replace q with (x + (q - x)) by ring. eapply Rle_trans; [apply Rabs_triang|]. lra. }
  pose proof (G q (rnd_double _ _ Q) Bq) as W. unfold within in W. rewrite half_50 in W.
  rewrite (Rabs_pos_eq (exp x)) by lra. rewrite (Rabs_pos_eq (exp q)) in W by (left; apply exp_pos).
  assert (X1 : Rabs (exp q - exp x) <= 2 * u * (Rabs x + / 1000) * exp x).
  { rewrite EX. replace (exp x * exp (q - x) - exp x) with (exp x * (exp (q - x) - 1)) by ring.
    rewrite Rabs_mult, (Rabs_pos_eq (exp x)) by lra. nra. }
  assert (X2 : exp q <= (1 + / 100) * exp x).
  { assert (Rabs (exp q - exp x) <= / 100 * exp x). { eapply Rle_trans; [exact X1|]. apply Rmult_le_compat_r; [lra|]. nra. }
    revert H. unfold Rabs. destruct (Rcase_abs _); lra. }
  assert (Z : Rabs (ex q - exp x) <= (3 * Rabs x + 9) * u * exp x).
  { replace (ex q - exp x) with ((ex q - exp q) + (exp q - exp x)) by ring. eapply Rle_trans; [apply Rabs_triang|].
    assert (8 * u * exp q <= 8 * u * ((1 + / 100) * exp x)) by (apply Rmult_le_compat_l; lra).
    assert (0 <= u * exp x) by (apply Rmult_le_pos; lra). assert (0 <= u * exp x * Rabs x) by (apply Rmult_le_pos; lra). lra. }
  split; [|exact Z].
  unfold f_value. destruct (Rlt_dec _ _) as [|N]; [reflexivity|]. exfalso. apply N.
  pose proof (exp_600 x ltac:(pose proof (Rle_abs x); lra)) as Y.
  assert (Rabs (ex q) <= Rabs (ex q - exp x) + exp x).
  { rewrite <- (Rabs_pos_eq (exp x)) at 2 by lra. replace (ex q) with ((ex q - exp x) + exp x) at 1 by ring. apply Rabs_triang. }
  assert ((3 * Rabs x + 9) * u * exp x <= 1 * exp x) by (apply Rmult_le_compat_r; [lra|]; nra).
  clear - H H0 Z Y B1 B2 B3. revert Y B1 B2 B3. generalize (2 ^ 1000) (2 ^ 1003) (2 ^ 1024). intros. lra.
Qed.

Lemma expfit_close ex p c0 c1 c2 rest : good_exp ex -> c2 <> 0 -> Rabs (p / c2) <= 600 ->
  Rabs c0 + Rabs (c1 * exp (p / c2)) <= 2 ^ 1000 ->
  exists r, f_expfit_row ex p (c0 :: c1 :: c2 :: rest) = Ok r /\
    Rabs (r - (c0 + c1 * exp (p / c2))) <= (Rabs (p / c2) + 4) / 2 ^ 51 * (Rabs c0 + Rabs (c1 * exp (p / c2))) + / 2 ^ 1073.
Proof.
  intros G N B M. destruct (exp_error ex p c2 G N B) as (q & e & Q & E & D).
  pose proof u_pos as U. pose proof u_le as U1. pose proof small_50 as U2. pose proof (Rabs_pos (p / c2)) as P.
  destruct (line_error c0 c1 (exp (p / c2)) e _ D ltac:(split; [apply Rmult_le_pos; lra|nra]) M) as (z & r & Z & R1 & Er).
  exists r. unfold f_expfit_row, column. cbn [nth_error bind]. rewrite Q. cbn [bind]. rewrite E. cbn [bind]. rewrite Z. cbn [bind].
  split; [exact R1|]. eapply Rle_trans; [exact Er|]. apply Rplus_le_compat_r.
  apply Rmult_le_compat_r; [pose proof (Rabs_pos c0); pose proof (Rabs_pos (c1 * exp (p / c2))); lra|].
  assert (F : / 2 ^ 51 = 4 * u). { unfold u. replace 53%nat with (2 + 51)%nat by lia. rewrite pow_add, Rinv_mult. simpl (2 ^ 2). lra. }
  unfold Rdiv at 2. rewrite F. nra.
Qed.

Lemma logfit_close lg p c0 c1 rest : good_log10 lg -> double p -> 0 < p ->
  Rabs c0 + Rabs (c1 * (ln p / ln 10)) <= 2 ^ 1000 ->
  exists r, f_logfit_row lg p (c0 :: c1 :: rest) = Ok r /\
    Rabs (r - (c0 + c1 * (ln p / ln 10))) <= 3 / 2 ^ 51 * (Rabs c0 + Rabs (c1 * (ln p / ln 10))) + / 2 ^ 1073.
Proof.
  intros G D P M. pose proof (G p D P) as W. unfold within in W. rewrite half_50 in W.
  pose proof u_pos as U. pose proof u_le as U1. pose proof small_50 as U2.
  destruct (line_error c0 c1 (ln p / ln 10) (lg p) _ W ltac:(lra) M) as (z & r & Z & R1 & Er).
  exists r. unfold f_logfit_row, column. cbn [nth_error bind]. destruct (Rlt_dec 0 p); [|contradiction]. cbn [bind]. rewrite Z. cbn [bind].
  split; [exact R1|]. eapply Rle_trans; [exact Er|]. apply Rplus_le_compat_r.
  apply Rmult_le_compat_r; [pose proof (Rabs_pos c0); pose proof (Rabs_pos (c1 * (ln p / ln 10))); lra|].
  assert (F : / 2 ^ 51 = 4 * u). { unfold u. replace 53%nat with (2 + 51)%nat by lia. rewrite pow_add, Rinv_mult. simpl (2 ^ 2). lra. }
  unfold Rdiv. rewrite F. lra.
Qed.
Lemma logfit_none lg p c0 c1 rest : p <= 0 -> f_logfit_row lg p (c0 :: c1 :: rest) = Err NonFinite.
Proof. intros H. unfold f_logfit_row, column. cbn [nth_error bind]. destruct (Rlt_dec 0 p); [lra|reflexivity]. Qed.

Lemma powerfit_close pw p c0 c1 rest : good_float_power pw -> double p -> double c1 -> 0 < p ->
  / 2 ^ 1000 <= Rpower p c1 <= 2 ^ 1000 -> Rabs (c0 * Rpower p c1) <= 2 ^ 1000 ->
  exists r, f_powerfit_row pw p (c0 :: c1 :: rest) = Ok r /\
    Rabs (r - c0 * Rpower p c1) <= 3 / 2 ^ 51 * Rabs (c0 * Rpower p c1) + / 2 ^ 1073.
Proof.
  intros G D D1 P B M. pose proof (G p c1 D D1 P B) as W. unfold within in W. rewrite half_50 in W.
  pose proof u_pos as U. pose proof u_le as U1. pose proof small_50 as U2. destruct big_1023 as (B1 & B2 & B3).
  pose proof (half_pos 1000) as H1.
  assert (V : f_value (pw p c1) = Ok (pw p c1)).
  { unfold f_value. destruct (Rlt_dec _ _) as [|N]; [reflexivity|]. exfalso. apply N.
    rewrite (Rabs_pos_eq (Rpower p c1)) in W by lra.
    assert (8 * u * Rpower p c1 <= 1 * Rpower p c1) by (apply Rmult_le_compat_r; lra).
    assert (Rabs (pw p c1) <= Rabs (pw p c1 - Rpower p c1) + Rpower p c1).
    { rewrite <- (Rabs_pos_eq (Rpower p c1)) at 2 by lra. replace (pw p c1) with ((pw p c1 - Rpower p c1) + Rpower p c1) at 1 by ring. apply Rabs_triang. }
    clear - B B1 B2 B3 H H0 W. destruct B as [_ B]. revert B B1 B2 B3. generalize (2 ^ 1000) (2 ^ 1003) (2 ^ 1024). intros. lra. }
  destruct (product_error c0 (Rpower p c1) (pw p c1) _ W ltac:(lra) M) as (z & Z & Ez).
  exists z. unfold f_powerfit_row, column. cbn [nth_error bind]. unfold f_float_power. destruct (Rlt_dec 0 p); [|contradiction].
  rewrite V. cbn [bind]. split; [exact Z|]. eapply Rle_trans; [exact Ez|].
  apply Rplus_le_compat.
  - apply Rmult_le_compat_r; [apply Rabs_pos|].
    assert (F : / 2 ^ 51 = 4 * u). { unfold u. replace 53%nat with (2 + 51)%nat by lia. rewrite pow_add, Rinv_mult. simpl (2 ^ 2). lra. }
    unfold Rdiv. rewrite F. lra.
  - unfold tiny. apply half_le. lia.
Qed.

(** The values next to the exact ones are such functions. *)
Lemma exp_601 x : x <= 601 -> exp x <= 2 ^ 1002.
Proof.
  intros H. replace x with (1 + (x - 1)) by ring. rewrite exp_plus. replace 1002%nat with (2 + 1000)%nat by lia. rewrite pow_add.
  apply Rmult_le_compat; [left; apply exp_pos|left; apply exp_pos| |apply exp_600; lra].
  eapply Rle_trans; [exact exp_le_3|]. simpl. lra.
Qed.
Lemma nearest_within x : / 2 ^ 1022 <= x -> within (/ 2 ^ 50) x (fl x).
Proof.
  intros H. pose proof (half_pos 1022) as P. unfold within. eapply Rle_trans; [apply fl_error|]. rewrite half_50, (Rabs_pos_eq x) by lra.
  assert (/ 2 ^ 1075 <= u * x).
  { apply Rle_trans with (u * / 2 ^ 1022); [|apply Rmult_le_compat_l; [left; exact u_pos|exact H]].
    unfold u. rewrite <- Rinv_mult, <- pow_add. apply Rle_refl. }
  pose proof u_pos. assert (0 <= u * x) by (apply Rmult_le_pos; lra). lra.
Qed.
Lemma nearest_exp_good : good_exp (fun x => fl (exp x)).
Proof.
  intros x _ H. apply nearest_within. rewrite <- (Rinv_inv (exp x)). apply Rinv_le_contravar; [apply Rinv_0_lt_compat, exp_pos|].
  rewrite <- exp_Ropp. apply Rle_trans with (2 ^ 1002); [apply exp_601|apply two_le; lia].
  rewrite <- (Rabs_Ropp x) in H. pose proof (Rle_abs (- x)). lra.
Qed.
Lemma exact_log_good : good_log10 (fun x => ln x / ln 10).
Proof.
  intros x _ _. unfold within. rewrite Rminus_diag_eq, Rabs_R0 by reflexivity.
  apply Rmult_le_pos; [left; apply half_pos|apply Rabs_pos].
Qed.
Lemma nearest_float_power_good : good_float_power (fun x y => fl (Rpower x y)).
Proof. intros x y _ _ _ [H _]. apply nearest_within. eapply Rle_trans; [apply half_le|exact H]. lia. Qed.
