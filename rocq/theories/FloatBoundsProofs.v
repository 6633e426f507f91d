(** Rounding in the Hashin-Shtrikman-Walpole bounds. *)
From Coq Require Import Reals Lra Lia List ZArith Psatz String.
From Flocq Require Import Core.
From Verif Require Import Base BaseProofs MaterialModel MainModel MainProofs FloatModel FloatSpec FloatProofs
  FloatExampleProofs PublishedSpec FloatBoundsModel FloatBoundsSpec.
Open Scope R_scope.

Lemma fl_opp x : fl (- x) = - fl x.
Proof. unfold fl. apply round_NE_opp. Qed.
Lemma rnd_opp x y : rnd x = Ok y -> rnd (- x) = Ok (- y).
Proof.
  unfold rnd. rewrite fl_opp, Rabs_Ropp. destruct (Rlt_dec _ _); [|discriminate]. intros E. injection E as <-. reflexivity.
Qed.
Lemma double_opp x : double x -> double (- x).
Proof.
  intros [m [e [M [E ->]]]]. exists (- m)%Z, e. split; [rewrite Z.abs_opp; exact M|]. split; [exact E|]. rewrite opp_IZR. ring.
Qed.
Lemma u_1024 : u <= / 1024.
Proof. eapply Rle_trans; [exact u_small|]. replace (/ 1024) with (/ 2 ^ 10) by (simpl; lra). apply half_le. lia. Qed.
Lemma u_double : / 2 ^ 52 = 2 * u.
Proof. unfold u. replace (2 ^ 53) with (2 * 2 ^ 52) by (simpl; ring). field. Qed.

Section Value.
Variable inv : R -> R.
Hypothesis G : good_inverse inv.

(** One inverse, of a positive or negative number. *)
Lemma inv_close a n x y : approx n x y -> sized a x -> 0 < x -> double y -> (Z.of_nat n <= 2 ^ 50)%Z -> (a <= 900)%nat ->
  f_py_inv inv y = Ok (inv y) /\ approx (n + 3) (/ x) (inv y) /\
  f_py_inv inv (- y) = Ok (inv (- y)) /\ approx (n + 3) (/ x) (- inv (- y)).
Proof.
  intros A Z P D L La. pose proof (approx_pos _ _ _ A P) as Py. pose proof (sized_approx _ _ _ _ A Z L) as Zy.
  pose proof u_pos as U. pose proof u_1024 as U2.
  destruct Zy as [Zy|[Y1 Y2]]; [lra|].
  assert (Y3 : / 2 ^ 1000 <= y) by (eapply Rle_trans; [|exact Y1]; apply half_le; lia).
  assert (Y4 : y <= 2 ^ 1000) by (eapply Rle_trans; [exact Y2|]; apply two_le; lia).
  assert (Aa : Rabs y = y) by (apply Rabs_pos_eq; lra).
  assert (Ab : Rabs (- y) = y) by (rewrite Rabs_Ropp; exact Aa).
  pose proof (Rinv_0_lt_compat _ Py) as Pi. pose proof (approx_inv _ _ _ A P) as Ai.
  assert (K : forall t, within (2 * u) (/ y) t -> approx (n + 3) (/ x) t).
  { intros t W. apply (approx_trans n 3 _ (/ y)); [exact Ai|]. apply within_approx with (2 * u); [lra|exact W|lra| |]; simpl; nra. }
  unfold f_py_inv. destruct (Req_EM_T y 0); [lra|]. destruct (Req_EM_T (- y) 0); [lra|].
  rewrite Aa, Ab. destruct (Rlt_dec y (/ 2 ^ 1000)); [lra|].
  split; [reflexivity|]. split; [|split; [reflexivity|]].
  - apply K. rewrite <- u_double. apply G; [exact D|rewrite Aa; exact Y3|rewrite Aa; exact Y4].
  - apply K. rewrite <- u_double. pose proof (G (- y) (double_opp _ D) ltac:(rewrite Ab; exact Y3) ltac:(rewrite Ab; exact Y4)) as W.
    unfold within in *. rewrite Rinv_opp in W by lra. rewrite Rabs_Ropp in W.
    replace (- inv (- y) - / y) with (- (inv (- y) - - / y)) by ring. rewrite Rabs_Ropp. exact W.
Qed.

Variables v1 v2 z z' f f2' c : R.
Hypothesis (D1 : double v1) (D2 : double v2).
Hypothesis (Z1 : sized 100 v1) (Z2 : sized 100 v2) (P1 : 0 < v1) (P2 : 0 < v2).
Hypothesis (Az : approx 7 z z') (Zz : sized 320 z).
Hypothesis (Of : sized 100 f) (F1 : f <= 1) (Zf : sized 152 (1 - f)) (Af : approx 1 (1 - f) f2').
Hypothesis (C1 : 1 <= c) (C2 : c <= 2 ^ 40) (C : contrast c v1 v2).

Let M := v1 + z.
Lemma walpole_z0 : 0 <= z. Proof. exact (sized_nonneg _ _ Zz). Qed.
Lemma walpole_f0 : 0 <= f. Proof. exact (sized_nonneg _ _ Of). Qed.
Lemma walpole_M : 0 < M. Proof. pose proof walpole_z0. unfold M. lra. Qed.
Lemma walpole_Zm : sized 321 M.
Proof. apply sized_plus; [apply (sized_weaken 100); [lia|exact Z1]|exact Zz]. Qed.

(** The exact value. *)
Let Q := (1 - f) * (v1 + z) + f * (v2 + z).
Let K := M * (v2 + z) / Q - z.
Lemma walpole_Q : 0 < Q.
Proof. pose proof walpole_z0. pose proof walpole_f0. unfold Q. destruct (Rlt_dec f 1); nra. Qed.
Lemma walpole_between : Rmin v1 v2 <= K <= Rmax v1 v2.
Proof.
  pose proof walpole_Q as q. pose proof walpole_z0 as z0. pose proof walpole_f0 as f0. pose proof walpole_M as m0.
  assert (E : (K + z) * Q = M * (v2 + z)) by (unfold K; field; lra).
  assert (q1 : Rmin v1 v2 + z <= Q <= Rmax v1 v2 + z).
  { unfold Q, Rmin, Rmax. destruct (Rle_dec v1 v2); split; nra. }
  unfold Rmin, Rmax in *. destruct (Rle_dec v1 v2); unfold M in *;
    split; apply Rplus_le_reg_r with z; apply Rmult_le_reg_r with Q; try assumption; rewrite E.
  - apply Rmult_le_compat_l; lra.
  - rewrite Rmult_comm. apply Rmult_le_compat_l; lra.
  - rewrite (Rmult_comm (v1 + z)). apply Rmult_le_compat_l; lra.
  - apply Rmult_le_compat_l; lra.
Qed.
Lemma walpole_K : 0 < K.
Proof. pose proof walpole_between as [B _]. unfold Rmin in B. destruct (Rle_dec v1 v2); lra. Qed.

Lemma walpole_value_close : v1 <> v2 -> exists v, f_walpole_value inv v1 v2 (Ok z') f f2' = Ok v /\ within (c / 2 ^ 47) K v /\ double v.
Proof.
  intros Nv.
  pose proof walpole_Q as q0. pose proof walpole_z0 as z0. pose proof walpole_f0 as f0. pose proof walpole_M as m0.
  pose proof walpole_K as k0. pose proof walpole_Zm as Zm. pose proof u_pos as U.
  assert (Mbig : v1 + z' = v1 + z') by reflexivity.
  assert (Am0 : approx 7 M (v1 + z')) by (apply approx_plus; [apply approx_refl; lra|exact Az]).
  destruct (rnd_step _ _ _ _ Am0 Zm ltac:(lia) ltac:(lia)) as [m [Em Am]].
  destruct (inv_close _ _ _ _ Am Zm m0 (rnd_double _ _ Em) ltac:(lia) ltac:(lia)) as [Eb [Ab _]].
  set (b := inv m) in *.
  pose proof (sized_inv _ _ Zm m0) as Zb.
  pose proof (approx_mult 0 _ _ _ _ _ (approx_refl 0 f f0) Ab) as Aw0.
  pose proof (sized_mult _ _ _ _ Of Zb) as Zw.
  destruct (rnd_step _ _ _ _ Aw0 Zw ltac:(lia) ltac:(lia)) as [w [Ew Aw]]. simpl in Aw.
  set (W := f * / M) in *.
  assert (W0 : 0 <= W) by (exact (sized_nonneg _ _ Zw)).
  destruct (Rlt_or_le v1 v2) as [Lt|Ge].
  - (* all terms positive *)
    pose proof (sized_minus _ _ _ D2 D1 Z2 Z1 ltac:(lia) Lt) as Zd.
    assert (d0 : 0 < v2 - v1) by lra.
    destruct (rnd_step 0 _ _ _ (approx_refl 0 _ (Rlt_le _ _ d0)) Zd ltac:(lia) ltac:(lia)) as [d [Ed Ad]].
    destruct (inv_close _ _ _ _ Ad Zd d0 (rnd_double _ _ Ed) ltac:(lia) ltac:(lia)) as [Ea [Aa _]].
    pose proof (sized_inv _ _ Zd d0) as Za.
    assert (As0 : approx 12 (/ (v2 - v1) + W) (inv d + w)) by (apply approx_plus; (eapply approx_weaken; [|eassumption]); lia).
    assert (Zs : sized 422 (/ (v2 - v1) + W)) by (apply sized_plus; (eapply sized_weaken; [|eassumption]); lia).
    destruct (rnd_step _ _ _ _ As0 Zs ltac:(lia) ltac:(lia)) as [s [Es As]].
    pose proof (Rinv_0_lt_compat _ d0) as i0. assert (s0 : 0 < / (v2 - v1) + W) by lra.
    pose proof (approx_pos _ _ _ As s0) as s1.
    pose proof (approx_div _ _ _ _ _ _ Af As s0) as Aq0.
    pose proof (sized_div _ _ _ _ Zf Zs s0) as Zq.
    destruct (rnd_step _ _ _ _ Aq0 Zq ltac:(lia) ltac:(lia)) as [q [Eq Aq]].
    assert (Ek : v1 + (1 - f) / (/ (v2 - v1) + W) = K).
    { unfold K, W, Q, M in *. field. repeat split; lra. }
    assert (Av0 : approx 15 (v1 + (1 - f) / (/ (v2 - v1) + W)) (v1 + q)) by (apply approx_plus; [apply approx_refl; lra|eapply approx_weaken; [|exact Aq]; lia]).
    assert (Zv : sized 575 (v1 + (1 - f) / (/ (v2 - v1) + W))) by (apply sized_plus; (eapply sized_weaken; [|eassumption]); lia).
    destruct (rnd_step _ _ _ _ Av0 Zv ltac:(lia) ltac:(lia)) as [v [Ev Av]].
    exists v. split; [|split; [|exact (rnd_double _ _ Ev)]].
    + unfold f_walpole_value. rewrite Ed. cbn [bind]. rewrite Ea. cbn [bind]. rewrite Em. cbn [bind]. rewrite Eb. cbn [bind].
      fold b. rewrite Ew. cbn [bind]. rewrite Es. cbn [bind]. unfold f_py_div. destruct (Req_EM_T s 0); [lra|].
      rewrite Eq. cbn [bind]. exact Ev.
    + rewrite Ek in Av. eapply approx_bound; [exact Av|lia|]. simpl (INR _). 
      apply Rle_trans with (1 / 2 ^ 47); [unfold u; rewrite !pow_IZR; simpl Z.pow; lra|].
      apply Rmult_le_compat_r; [left; apply half_pos|exact C1].
  - (* a difference *)
    assert (Lt : v2 < v1) by lra. clear Ge.
    pose proof (sized_minus _ _ _ D1 D2 Z1 Z2 ltac:(lia) Lt) as Zd.
    assert (d0 : 0 < v1 - v2) by lra.
    destruct (rnd_step 0 _ _ _ (approx_refl 0 _ (Rlt_le _ _ d0)) Zd ltac:(lia) ltac:(lia)) as [d [Ed Ad]].
    destruct (inv_close _ _ _ _ Ad Zd d0 (rnd_double _ _ Ed) ltac:(lia) ltac:(lia)) as [_ [_ [Ea Aa]]].
    pose proof (sized_inv _ _ Zd d0) as Za.
    pose proof (Rinv_0_lt_compat _ d0) as i0.
    set (a := / (v1 - v2)) in *. set (a' := - inv (- d)) in *.
    (* the exact difference *)
    set (S' := a - W). set (X := M / Q).
    assert (ES : S' * M = a * Q). { unfold S', W, a, Q, M. field. unfold M in m0. lra. }
    assert (S0 : 0 < S') by (apply Rmult_lt_reg_r with M; [exact m0|]; rewrite Rmult_0_l, ES; apply Rmult_lt_0_compat; assumption).
    assert (EX : X * Q = M) by (unfold X; field; lra).
    assert (X1 : 1 <= X). { apply Rmult_le_reg_r with Q; [exact q0|]. rewrite EX. unfold M, Q. nra. }
    assert (aX : a = S' * X). { apply Rmult_eq_reg_r with Q; [|lra]. rewrite Rmult_assoc, EX. symmetry. exact ES. }
    assert (WS : W <= a) by (unfold S' in S0; lra).
    destruct C as [Ca _].
    assert (Xc : X <= c).
    { apply Rmult_le_reg_r with Q; [exact q0|]. rewrite EX. apply Rle_trans with (c * (v2 + z)).
      - unfold M. nra.
      - apply Rmult_le_compat_l; [lra|]. unfold Q. nra. }
    assert (uX : u * X <= / 8192).
    { apply Rle_trans with (u * 2 ^ 40); [apply Rmult_le_compat_l; lra|]. unfold u. rewrite !pow_IZR. simpl Z.pow. lra. }
    pose proof (within_abs _ _ _ Aa ltac:(lia)) as Ba. pose proof (within_abs _ _ _ Aw ltac:(lia)) as Bw.
    apply Rabs_le_inv in Ba. apply Rabs_le_inv in Bw. rewrite INR_IZR_INZ in Ba, Bw. simpl Z.of_nat in Ba, Bw.
    set (p := a' - w).
    assert (uW : u * W <= u * a) by (apply Rmult_le_compat_l; lra).
    assert (Bp : - (32 * (u * X) * S') <= p - S' <= 32 * (u * X) * S').
    { replace (32 * (u * X) * S') with (32 * (u * a)) by (rewrite aX; ring). unfold p, S'. lra. }
    assert (p0 : S' * (255 / 256) <= p). { assert (32 * (u * X) * S' <= 32 / 8192 * S') by (apply Rmult_le_compat_r; lra). lra. }
    assert (p1 : p <= 2 * S'). { assert (32 * (u * X) * S' <= 32 / 8192 * S') by (apply Rmult_le_compat_r; lra). lra. }
    assert (Zp : sized 194 p).
    { right. destruct Za as [Za|[Za1 Za2]]; [lra|]. split.
      - assert (La : a <= 2 ^ 40 * S'). { rewrite aX. rewrite Rmult_comm. apply Rmult_le_compat_r; lra. }
        assert (Lb : / 2 ^ 194 * (2 * 2 ^ 40) <= / 2 ^ (100 + 52)).
        { replace (2 * 2 ^ 40) with (2 ^ 41) by (simpl; ring). replace (2 ^ 194) with (2 ^ (100 + 52) * 2 ^ 42) by (rewrite <- pow_add; reflexivity).
          rewrite Rinv_mult, Rmult_assoc. rewrite <- (Rmult_1_r (/ 2 ^ (100 + 52))) at 2. apply Rmult_le_compat_l; [left; apply half_pos|].
          replace (2 ^ 42) with (2 * 2 ^ 41) by (simpl; ring). rewrite Rinv_mult, Rmult_assoc, Rinv_l by (apply pow_nonzero; lra). lra. }
        pose proof (half_pos 194). pose proof (two_pos 40).
        assert (/ 2 ^ 194 * (2 * 2 ^ 40) <= S' * 2 ^ 40) by lra.
        assert (/ 2 ^ 194 * 2 <= S'); [|lra]. apply Rmult_le_reg_r with (2 ^ 40); [assumption|]. lra.
      - assert (S' <= a) by (unfold S'; lra). pose proof (two_le 153 194 ltac:(lia)). 
        assert (2 ^ 153 = 2 * 2 ^ (100 + 52)) by reflexivity. lra. }
    assert (p2 : 0 < p) by lra.
    destruct (rnd_step 0 _ _ _ (approx_refl 0 _ (Rlt_le _ _ p2)) Zp ltac:(lia) ltac:(lia)) as [s [Es As]].
    pose proof (approx_pos _ _ _ As p2) as s1.
    pose proof (approx_div _ _ _ _ _ _ Af As p2) as Aq0.
    pose proof (sized_div _ _ _ _ Zf Zp p2) as Zq.
    destruct (rnd_step _ _ _ _ Aq0 Zq ltac:(lia) ltac:(lia)) as [q [Eq Aq]].
    pose proof (within_abs _ _ _ Aq ltac:(lia)) as Bq. apply Rabs_le_inv in Bq. rewrite INR_IZR_INZ in Bq. simpl Z.of_nat in Bq.
    set (t := (1 - f) / p) in *. set (T := (1 - f) / S').
    assert (T0 : 0 <= T) by (apply Rmult_le_pos; [lra|left; apply Rinv_0_lt_compat; exact S0]).
    assert (Et : (t - T) * p = T * (S' - p)). { unfold t, T. field. lra. }
    assert (Bt : - (33 * (u * X) * T) <= t - T <= 33 * (u * X) * T).
    { assert (0 <= u * X) by nra. assert (N : 0 <= (u * X) * T) by nra.
      assert (J : T * (32 * (u * X) * S') <= 33 * (u * X) * T * p).
      { replace (T * (32 * (u * X) * S')) with ((u * X) * T * (32 * S')) by ring.
        replace (33 * (u * X) * T * p) with ((u * X) * T * (33 * p)) by ring. apply Rmult_le_compat_l; lra. }
      split; apply Rmult_le_reg_r with p; try assumption; rewrite ?Et.
      - apply Rle_trans with (- (T * (32 * (u * X) * S'))); [lra|]. nra.
      - apply Rle_trans with (T * (32 * (u * X) * S')); [|lra]. apply Rmult_le_compat_l; lra. }
    assert (uXT : 0 <= (u * X) * T) by (apply Rmult_le_pos; [nra|exact T0]).
    assert (uT : u * T <= (u * X) * T). { apply Rmult_le_compat_r; [exact T0|]. rewrite <- (Rmult_1_r u) at 1. apply Rmult_le_compat_l; lra. }
    assert (tT : t <= 2 * T). { assert (33 * (u * X) * T <= 33 / 8192 * T) by (apply Rmult_le_compat_r; lra). lra. }
    assert (ut : u * t <= 2 * ((u * X) * T)). { apply Rle_trans with (u * (2 * T)); [apply Rmult_le_compat_l; lra|lra]. }
    assert (BQ : - (45 * ((u * X) * T)) <= q - T <= 45 * ((u * X) * T)) by lra.
    (* the error against the result *)
    assert (KT : v1 - T = K).
    { unfold T, K. assert (ET : (1 - f) / S' = (1 - f) * (v1 - v2) * M / Q).
      { apply Rmult_eq_reg_r with (S' * Q); [|nra]. replace ((1 - f) / S' * (S' * Q)) with ((1 - f) * Q) by (field; lra).
        replace ((1 - f) * (v1 - v2) * M / Q * (S' * Q)) with ((1 - f) * (v1 - v2) * (S' * M)) by (field; lra).
        rewrite ES. unfold a. field. lra. }
      rewrite ET. unfold Q, M in *. field. lra. }
    assert (XT : X * T <= (c - 1) * K).
    { assert (ET : T * Q = (1 - f) * (v1 - v2) * M).
      { unfold T. replace ((1 - f) / S' * Q) with ((1 - f) / S' * (S' * M) / a) by (rewrite ES; field; lra).
        unfold a. field. lra. }
      assert (EK : (K + z) * Q = M * (v2 + z)) by (unfold K; field; lra).
      assert (L1 : T <= v1 - v2).
      { apply Rmult_le_reg_r with Q; [exact q0|]. rewrite ET. 
        replace ((1 - f) * (v1 - v2) * M) with ((v1 - v2) * ((1 - f) * M)) by ring. apply Rmult_le_compat_l; [lra|].
        unfold Q, M. nra. }
      apply Rle_trans with (X * (v1 - v2)); [apply Rmult_le_compat_l; lra|].
      assert (EX2 : X * (v2 + z) = K + z). { apply Rmult_eq_reg_r with Q; [|lra]. rewrite EK. replace (X * (v2 + z) * Q) with (X * Q * (v2 + z)) by ring. rewrite EX. reflexivity. }
      assert (Kv : v2 <= K). { pose proof walpole_between as [B _]. unfold Rmin in B. destruct (Rle_dec v1 v2); lra. }
      assert (EX3 : X * v2 <= K). { nra. }
      assert (v1 - v2 <= (c - 1) * v2) by lra.
      apply Rle_trans with (X * ((c - 1) * v2)); [apply Rmult_le_compat_l; lra|].
      replace (X * ((c - 1) * v2)) with ((c - 1) * (X * v2)) by ring. apply Rmult_le_compat_l; lra. }
    assert (uXT2 : (u * X) * T <= u * ((c - 1) * K)). { rewrite Rmult_assoc. apply Rmult_le_compat_l; lra. }
    assert (uc : u * (c - 1) <= / 8192).
    { apply Rle_trans with (u * 2 ^ 40); [apply Rmult_le_compat_l; lra|]. unfold u. rewrite !pow_IZR. simpl Z.pow. lra. }
    assert (ucK : u * ((c - 1) * K) <= / 8192 * K). { rewrite <- Rmult_assoc. apply Rmult_le_compat_r; lra. }
    assert (By : - (45 * (u * ((c - 1) * K))) <= (v1 + - q) - K <= 45 * (u * ((c - 1) * K))) by lra.
    set (y := v1 + - q) in *.
    assert (y0 : K * (127 / 128) <= y <= K * (129 / 128)) by lra.
    assert (Zy : sized 102 y).
    { right. pose proof walpole_between as [B1 B2]. unfold Rmin in B1. unfold Rmax in B2. destruct (Rle_dec v1 v2); [lra|].
      destruct Z1 as [?|[Z11 Z12]]; [lra|]. destruct Z2 as [?|[Z21 Z22]]; [lra|].
      assert (E2 : 2 ^ 102 = 4 * 2 ^ 100) by (change 102%nat with (2 + 100)%nat; rewrite pow_add; simpl (2 ^ 2); ring).
      rewrite E2, Rinv_mult. pose proof (half_pos 100). lra. }
    destruct (rnd_step 0 _ _ _ (approx_refl 0 _ (sized_nonneg _ _ Zy)) Zy ltac:(lia) ltac:(lia)) as [v [Ev Av]].
    pose proof (within_abs _ _ _ Av ltac:(lia)) as Bv. apply Rabs_le_inv in Bv. rewrite INR_IZR_INZ in Bv. simpl Z.of_nat in Bv.
    exists v. split; [|split; [|exact (rnd_double _ _ Ev)]].
    + unfold f_walpole_value. replace (v2 - v1) with (- (v1 - v2)) by ring. rewrite (rnd_opp _ _ Ed). cbn [bind]. rewrite Ea. cbn [bind].
      rewrite Em. cbn [bind]. rewrite Eb. cbn [bind]. fold b. rewrite Ew. cbn [bind].
      replace (inv (- d) + w) with (- p) by (unfold p, a'; ring). rewrite (rnd_opp _ _ Es). cbn [bind].
      unfold f_py_div. destruct (Req_EM_T (- s) 0); [lra|]. 
      replace (f2' / - s) with (- (f2' / s)) by (field; lra). rewrite (rnd_opp _ _ Eq). cbn [bind]. exact Ev.
    + unfold within. rewrite (Rabs_pos_eq K) by lra. 
      assert (uy : u * y <= 2 * (u * K)). { apply Rle_trans with (u * (2 * K)); [apply Rmult_le_compat_l; lra|lra]. }
      assert (E3 : c / 2 ^ 47 * K = 64 * (u * ((c - 1) * K)) + 64 * (u * K)).
      { unfold u. replace (2 ^ 53) with (64 * 2 ^ 47) by (rewrite !pow_IZR; simpl Z.pow; lra). field. }
      assert (0 <= u * ((c - 1) * K)). { apply Rmult_le_pos; [lra|]. apply Rmult_le_pos; lra. }
      assert (0 < u * K) by (apply Rmult_lt_0_compat; assumption).
      rewrite E3. apply Rabs_le. lra.
Qed.
End Value.

Lemma sized_int a (k : R) : 1 <= k <= 2 ^ a -> sized a k.
Proof. intros H. right. split; [|lra]. apply Rle_trans with 1; [|lra]. rewrite <- Rinv_1. apply Rinv_le_contravar; [lra|]. apply pow_R1_Rle. lra. Qed.

Lemma shear_shift_close km mum : sized 100 km -> sized 100 mum -> 0 < mum ->
  exists z, f_shear_shift km mum = Ok z /\ approx 7 (mum / 6 * ((9 * km + 8 * mum) / (km + 2 * mum))) z /\
    sized 320 (mum / 6 * ((9 * km + 8 * mum) / (km + 2 * mum))).
Proof.
  intros Zk Zm P. pose proof (sized_nonneg _ _ Zk) as k0.
  assert (Z6 : sized 3 6) by (apply sized_int; simpl; lra). assert (Z9 : sized 4 9) by (apply sized_int; simpl; lra).
  assert (Z8 : sized 3 8) by (apply sized_int; simpl; lra). assert (Z2 : sized 1 2) by (apply sized_int; simpl; lra).
  unfold f_shear_shift.
  pose proof (sized_div _ _ _ _ Zm Z6 ltac:(lra)) as Za. pose proof (sized_mult _ _ _ _ Z9 Zk) as Zb.
  pose proof (sized_mult _ _ _ _ Z8 Zm) as Zc. pose proof (sized_mult _ _ _ _ Z2 Zm) as Ze.
  destruct (rnd_step 0 _ _ _ (approx_refl 0 _ (sized_nonneg _ _ Za)) Za ltac:(lia) ltac:(lia)) as [a [Ea Aa]].
  destruct (rnd_step 0 _ _ _ (approx_refl 0 _ (sized_nonneg _ _ Zb)) Zb ltac:(lia) ltac:(lia)) as [b [Eb Ab]].
  destruct (rnd_step 0 _ _ _ (approx_refl 0 _ (sized_nonneg _ _ Zc)) Zc ltac:(lia) ltac:(lia)) as [c [Ec Ac]].
  destruct (rnd_step 0 _ _ _ (approx_refl 0 _ (sized_nonneg _ _ Ze)) Ze ltac:(lia) ltac:(lia)) as [e [Ee Ae]].
  rewrite Ea. cbn [bind]. rewrite Eb. cbn [bind]. rewrite Ec. cbn [bind].
  assert (Zs : sized 105 (9 * km + 8 * mum)) by (apply sized_plus; (eapply sized_weaken; [|eassumption]); lia).
  destruct (rnd_step _ _ _ _ (approx_plus _ _ _ _ _ Ab Ac) Zs ltac:(lia) ltac:(lia)) as [s [Es As]]. rewrite Es. cbn [bind].
  pose proof (sized_mult _ _ _ _ Za Zs) as Zp.
  destruct (rnd_step _ _ _ _ (approx_mult _ _ _ _ _ _ Aa As) Zp ltac:(lia) ltac:(lia)) as [p [Ep Ap]]. rewrite Ep. cbn [bind].
  rewrite Ee. cbn [bind].
  assert (Zt : sized 102 (km + 2 * mum)) by (apply sized_plus; (eapply sized_weaken; [|eassumption]); lia).
  assert (At : approx 1 (km + 2 * mum) (km + e)) by (apply approx_plus; [apply approx_refl; exact k0|exact Ae]).
  destruct (rnd_step _ _ _ _ At Zt ltac:(lia) ltac:(lia)) as [t [Et Bt]]. rewrite Et. cbn [bind].
  assert (t0 : 0 < km + 2 * mum) by lra. pose proof (approx_pos _ _ _ Bt t0) as t1.
  unfold f_py_div. destruct (Req_EM_T t 0); [lra|].
  pose proof (sized_div _ _ _ _ Zp Zt t0) as Zz.
  destruct (rnd_step _ _ _ _ (approx_div _ _ _ _ _ _ Ap Bt t0) Zz ltac:(lia) ltac:(lia)) as [z [Ez Az]].
  exists z. split; [exact Ez|].
  replace (mum / 6 * ((9 * km + 8 * mum) / (km + 2 * mum))) with (mum / 6 * (9 * km + 8 * mum) / (km + 2 * mum)) by (field; lra).
  split; [eapply approx_weaken; [|exact Az]; lia|eapply sized_weaken; [|exact Zz]; lia].
Qed.

Lemma rest_close f : double f -> ordinary f -> f <= 1 -> exists f2, rnd (1 - f) = Ok f2 /\ approx 1 (1 - f) f2 /\ sized 152 (1 - f).
Proof.
  intros D O L. destruct (Req_EM_T f 1) as [->|N].
  - replace (1 - 1) with 0 by ring. assert (Z : sized 152 0) by (left; reflexivity).
    destruct (rnd_step 0 _ _ _ (approx_refl 0 0 ltac:(lra)) Z ltac:(lia) ltac:(lia)) as [z [E A]]. exists z. auto.
  - pose proof (sized_minus 100 1 f (double_int 1 eq_refl) D (sized_1 100) O ltac:(lia) ltac:(lra)) as Z.
    destruct (rnd_step 0 _ _ _ (approx_refl 0 (1 - f) ltac:(lra)) Z ltac:(lia) ltac:(lia)) as [z [E A]]. exists z. auto.
Qed.

Lemma density_close r1 r2 f f2 : sized 100 r1 -> sized 100 r2 -> sized 100 f -> f <= 1 -> approx 1 (1 - f) f2 -> sized 152 (1 - f) ->
  0 < r1 -> 0 < r2 ->
  exists d, f_calc_density r1 r2 f f2 = Ok d /\ approx 4 (f * r1 + (1 - f) * r2) d /\ sized 253 (f * r1 + (1 - f) * r2) /\
    0 < f * r1 + (1 - f) * r2.
Proof.
  intros Z1 Z2 Zf L Af Zg P1 P2. pose proof (sized_nonneg _ _ Zf) as f0.
  pose proof (sized_mult _ _ _ _ Zf Z1) as Za. pose proof (sized_mult _ _ _ _ Zg Z2) as Zb.
  assert (Zd : sized 253 (f * r1 + (1 - f) * r2)) by (apply sized_plus; (eapply sized_weaken; [|eassumption]); lia).
  assert (Pd : 0 < f * r1 + (1 - f) * r2) by (destruct (Rlt_dec f 1); nra).
  unfold f_calc_density. destruct (Req_EM_T r1 r2) as [->|N].
  { exists r2. split; [reflexivity|]. replace (f * r2 + (1 - f) * r2) with r2 in * by ring. split; [apply approx_refl; lra|split; assumption]. }
  destruct (rnd_step 0 _ _ _ (approx_refl 0 _ (sized_nonneg _ _ Za)) Za ltac:(lia) ltac:(lia)) as [a [Ea Aa]].
  assert (r0 : 0 <= r2) by lra.
  destruct (rnd_step _ _ _ _ (approx_mult _ 0 _ _ _ _ Af (approx_refl 0 r2 r0)) Zb ltac:(lia) ltac:(lia)) as [b [Eb Ab]].
  rewrite Ea. cbn [bind]. rewrite Eb. cbn [bind].
  assert (Ad : approx 3 (f * r1 + (1 - f) * r2) (a + b)) by (apply approx_plus; (eapply approx_weaken; [|eassumption]); lia).
  destruct (rnd_step _ _ _ _ Ad Zd ltac:(lia) ltac:(lia)) as [d [Ed Bd]]. exists d. auto.
Qed.

Lemma ratio_accepted f : 0 <= f <= 1 -> f_check_is_ratio f = Ok tt.
Proof.
  intros H. destruct tol_range as [T1 T2]. unfold f_check_is_ratio. fold tol.
  assert (0 < 1 / 10 ^ 5 - 1 / 10 ^ 11) by (rewrite !pow_IZR; simpl Z.pow; lra).
  pose proof limit_near as N. apply Rabs_le_inv in N.
  assert (2 * / 10 ^ 12 < 1 / 10 ^ 5) by (rewrite !pow_IZR; simpl Z.pow; lra).
  destruct (Rlt_dec _ f); [lra|]. destruct (Rlt_dec f _); [lra|]. reflexivity.
Qed.

(** The value determined by the published equation. *)
Lemma published_value z f v1 v2 v : 0 <= z -> 0 < v1 -> 0 < v2 -> 0 <= f <= 1 -> 0 < v ->
  1 / (v + z) = f / (v1 + z) + (1 - f) / (v2 + z) ->
  v = (v1 + z) * (v2 + z) / ((1 - f) * (v1 + z) + f * (v2 + z)) - z.
Proof.
  intros Hz H1 H2 Hf Hv E. assert (Q : 0 < (1 - f) * (v1 + z) + f * (v2 + z)) by (destruct (Rlt_dec f 1); nra).
  apply Rplus_eq_reg_r with z. ring_simplify. 
  apply Rmult_eq_reg_r with (/ (v + z) * ((1 - f) * (v1 + z) + f * (v2 + z))).
  - replace ((v + z) * (/ (v + z) * ((1 - f) * (v1 + z) + f * (v2 + z)))) with ((1 - f) * (v1 + z) + f * (v2 + z)) by (field; lra).
    replace (/ (v + z)) with (1 / (v + z)) by (unfold Rdiv; ring). rewrite E. field. lra.
  - apply Rmult_integral_contrapositive. split; [apply Rinv_neq_0_compat|]; lra.
Qed.

Lemma bulk_close inv k1 k2 mum f f2 c k : good_inverse inv -> double k1 -> double k2 -> ordinary k1 -> ordinary k2 -> 0 < k1 -> 0 < k2 ->
  ordinary mum -> ordinary f -> f <= 1 -> approx 1 (1 - f) f2 -> sized 152 (1 - f) ->
  1 <= c <= 2 ^ 40 -> contrast c k1 k2 -> 0 < k ->
  1 / (k + 4 / 3 * mum) = f / (k1 + 4 / 3 * mum) + (1 - f) / (k2 + 4 / 3 * mum) ->
  exists k', f_calc_bulk_modulus inv k1 k2 mum f f2 = Ok k' /\ within (c / 2 ^ 47) k k' /\ Rmin k1 k2 <= k <= Rmax k1 k2.
Proof.
  intros G D1 D2 O1 O2 P1 P2 Om Of L Af Zf [C1 C2] C Pk E. pose proof (sized_nonneg _ _ Of) as f0. pose proof (sized_nonneg _ _ Om) as m0.
  apply published_value in E; [|lra|assumption|assumption|lra|exact Pk].
  assert (Zz : sized 320 (4 / 3 * mum)) by (eapply sized_weaken; [|exact (sized_mult _ _ _ _ sized_43 Om)]; lia).
  destruct (rnd_step _ _ _ _ (approx_mult _ 0 _ _ _ _ four_thirds_approx (approx_refl 0 _ m0)) Zz ltac:(lia) ltac:(lia)) as [z [Ez Az]].
  assert (Az7 : approx 7 (4 / 3 * mum) z) by (eapply approx_weaken; [|exact Az]; lia).
  assert (B : Rmin k1 k2 <= k <= Rmax k1 k2) by (rewrite E; eapply walpole_between; eassumption).
  unfold f_calc_bulk_modulus. destruct (Req_EM_T k1 k2) as [Q|Q].
  { exists k1. split; [reflexivity|]. split; [|exact B]. subst k2. unfold Rmin, Rmax in B. destruct (Rle_dec k1 k1); [|lra].
    replace k with k1 by lra. unfold within. rewrite Rminus_diag_eq, Rabs_R0 by reflexivity. apply Rmult_le_pos; [|apply Rabs_pos].
    apply Rmult_le_pos; [lra|left; apply half_pos]. }
  rewrite Ez. destruct (walpole_value_close inv G k1 k2 (4 / 3 * mum) z f f2 c) as [v [Ev [Wv _]]]; try assumption.
  exists v. split; [exact Ev|]. split; [rewrite E; exact Wv|exact B].
Qed.
Lemma shear_close inv s1 s2 km mum f f2 c s z : good_inverse inv -> double s1 -> double s2 -> ordinary s1 -> ordinary s2 -> 0 < s1 -> 0 < s2 ->
  ordinary km -> ordinary mum -> 0 < mum -> ordinary f -> f <= 1 -> approx 1 (1 - f) f2 -> sized 152 (1 - f) ->
  1 <= c <= 2 ^ 40 -> contrast c s1 s2 -> 0 < s -> z = mum / 6 * ((9 * km + 8 * mum) / (km + 2 * mum)) ->
  1 / (s + z) = f / (s1 + z) + (1 - f) / (s2 + z) ->
  exists s', f_calc_shear_modulus inv s1 s2 km mum f f2 = Ok s' /\ within (c / 2 ^ 47) s s' /\ Rmin s1 s2 <= s <= Rmax s1 s2.
Proof.
  intros G D1 D2 O1 O2 P1 P2 Ok' Om Pm Of L Af Zf [C1 C2] C Pk Dz E. pose proof (sized_nonneg _ _ Of) as f0.
  destruct (shear_shift_close km mum Ok' Om Pm) as [z' [Ez [Az Zz]]]. rewrite <- Dz in Az, Zz. pose proof (sized_nonneg _ _ Zz) as z0.
  apply published_value in E; [|lra|assumption|assumption|lra|exact Pk].
  assert (B : Rmin s1 s2 <= s <= Rmax s1 s2) by (rewrite E; eapply walpole_between; eassumption).
  unfold f_calc_shear_modulus. destruct (Req_EM_T s1 s2) as [Q|Q].
  { exists s1. split; [reflexivity|]. split; [|exact B]. subst s2. unfold Rmin, Rmax in B. destruct (Rle_dec s1 s1); [|lra].
    replace s with s1 by lra. unfold within. rewrite Rminus_diag_eq, Rabs_R0 by reflexivity. apply Rmult_le_pos; [|apply Rabs_pos].
    apply Rmult_le_pos; [lra|left; apply half_pos]. }
  rewrite Ez. destruct (walpole_value_close inv G s1 s2 z z' f f2 c) as [v [Ev [Wv _]]]; try assumption.
  exists v. split; [exact Ev|]. split; [rewrite E; exact Wv|exact B].
Qed.

(** A number within half of one between two ordinary ones. *)
Lemma sized_within c x1 x2 x y : ordinary x1 -> ordinary x2 -> 0 < x1 -> 0 < x2 -> c <= 2 ^ 40 -> Rmin x1 x2 <= x <= Rmax x1 x2 ->
  within (c / 2 ^ 47) x y -> sized 101 y /\ 127 / 128 * x <= y <= 129 / 128 * x.
Proof.
  intros O1 O2 P1 P2 C B W. destruct O1 as [?|[A1 B1]]; [lra|]. destruct O2 as [?|[A2 B2]]; [lra|].
  assert (X0 : / 2 ^ 100 <= x <= 2 ^ 100) by (unfold Rmin, Rmax in B; destruct (Rle_dec x1 x2); lra).
  pose proof (half_pos 100) as H. unfold within in W. rewrite (Rabs_pos_eq x) in W by lra.
  assert (E : c / 2 ^ 47 <= 1 / 128).
  { apply Rle_trans with (2 ^ 40 / 2 ^ 47); [apply Rmult_le_compat_r; [left; apply half_pos|exact C]|]. rewrite !pow_IZR. simpl Z.pow. lra. }
  assert (W2 : c / 2 ^ 47 * x <= 1 / 128 * x) by (apply Rmult_le_compat_r; lra).
  apply Rabs_le_inv in W. assert (Y : 127 / 128 * x <= y <= 129 / 128 * x) by lra. split; [|exact Y].
  right. change (2 ^ 101) with (2 * 2 ^ 100). rewrite Rinv_mult. lra.
Qed.

Lemma walpole_close root inv m1 m2 f c bound mix : good_root root -> good_inverse inv ->
  ordinary_material m1 -> ordinary_material m2 -> double f -> ordinary f -> f <= 1 ->
  1 <= c <= 2 ^ 40 -> contrast c (bulk m1) (bulk m2) -> contrast c (shear m1) (shear m2) ->
  Rmax (shear m1) (shear m2) <= 2 ^ 45 * Rmin (bulk m1) (bulk m2) ->
  (bound = "lower"%string /\ lower_mixture f m1 m2 mix) \/ (bound = "upper"%string /\ upper_mixture f m1 m2 mix) ->
  0 < bulk mix -> 0 < shear mix ->
  exists m, f_walpole root inv m1 m2 f bound = Ok m /\
    within (c / 2 ^ 47) (bulk mix) (bulk m) /\ within (c / 2 ^ 47) (shear mix) (shear m) /\ within (/ 2 ^ 50) (dens mix) (dens m).
Proof.
  intros Gr Gi [Dk1 [Ds1 [Dd1 [Ok1 [Os1 [Od1 [Pk1 [Ps1 Pd1]]]]]]]] [Dk2 [Ds2 [Dd2 [Ok2 [Os2 [Od2 [Pk2 [Ps2 Pd2]]]]]]]] Df Of L HC Ck Cs R H Pk Ps.
  pose proof (sized_nonneg _ _ Of) as f0.
  destruct (rest_close f Df Of L) as [f2 [Ef [Af Zf]]].
  set (km := if String.eqb bound "lower" then Rmin (bulk m1) (bulk m2) else Rmax (bulk m1) (bulk m2)).
  set (mum := if String.eqb bound "lower" then Rmin (shear m1) (shear m2) else Rmax (shear m1) (shear m2)).
  assert (HW : walpole_mixture km mum f m1 m2 mix) by (destruct H as [[-> H]|[-> H]]; exact H).
  assert (HB : negb (orb (String.eqb bound "lower") (String.eqb bound "upper")) = false) by (destruct H as [[-> _]|[-> _]]; reflexivity).
  assert (Okm : ordinary km) by (unfold km, Rmin, Rmax; destruct (String.eqb bound "lower"), (Rle_dec (bulk m1) (bulk m2)); assumption).
  assert (Omm : ordinary mum) by (unfold mum, Rmin, Rmax; destruct (String.eqb bound "lower"), (Rle_dec (shear m1) (shear m2)); assumption).
  assert (Pmm : 0 < mum) by (unfold mum, Rmin, Rmax; destruct (String.eqb bound "lower"), (Rle_dec (shear m1) (shear m2)); assumption).
  destruct HW as [Hk [Hs Hd]].
  destruct (bulk_close inv (bulk m1) (bulk m2) mum f f2 c (bulk mix)) as [k [Ek [Wk Bk]]]; try assumption.
  destruct (shear_close inv (shear m1) (shear m2) km mum f f2 c (shear mix) _ Gi Ds1 Ds2 Os1 Os2 Ps1 Ps2 Okm Omm Pmm Of L Af Zf HC Cs Ps eq_refl Hs) as [s [Es [Ws Bs]]].
  destruct (density_close (dens m1) (dens m2) f f2 Od1 Od2 Of L Af Zf Pd1 Pd2) as [d [Ed [Ad [Zd Pd]]]].
  destruct (sized_within c _ _ _ _ Ok1 Ok2 Pk1 Pk2 (proj2 HC) Bk Wk) as [Zk Yk].
  destruct (sized_within c _ _ _ _ Os1 Os2 Ps1 Ps2 (proj2 HC) Bs Ws) as [Zs Ys].
  pose proof (approx_pos _ _ _ Ad Pd) as Pd'. pose proof (sized_approx _ _ _ _ Ad Zd ltac:(lia)) as Zd'.
  destruct (f_moduli_close root Gr 0 k k s s d d) as [p [q [Em _]]].
  - lia.
  - apply approx_refl. lra.
  - apply approx_refl. lra.
  - apply approx_refl. lra.
  - eapply sized_weaken; [|exact Zk]. lia.
  - eapply sized_weaken; [|exact Zs]. lia.
  - eapply sized_weaken; [|exact Zd']. lia.
  - exact Pd'.
  - apply (moduli_hypothesis _ 46); [lra|lia| |].
    + simpl (INR _). unfold u. rewrite !pow_IZR. simpl Z.pow. lra.
    + assert (S1 : shear mix <= 2 ^ 45 * bulk mix).
      { apply Rle_trans with (2 ^ 45 * Rmin (bulk m1) (bulk m2)); [lra|]. apply Rmult_le_compat_l; [left; apply two_pos|lra]. }
      apply Rle_trans with (129 / 128 * (2 ^ 45 * bulk mix)); [lra|].
      change (2 ^ 46) with (2 * 2 ^ 45). pose proof (two_pos 45) as T.
      apply Rle_trans with (2 ^ 45 * (2 * (127 / 128 * bulk mix))).
      * replace (129 / 128 * (2 ^ 45 * bulk mix)) with (2 ^ 45 * (129 / 128 * bulk mix)) by ring. apply Rmult_le_compat_l; lra.
      * replace (2 * 2 ^ 45 * k) with (2 ^ 45 * (2 * k)) by ring. apply Rmult_le_compat_l; lra.
  - exists (mkMat k s d p q). split.
    + unfold f_walpole. rewrite (ratio_accepted f ltac:(lra)). cbn [bind]. rewrite HB, Ef. cbn [bind]. fold km. fold mum.
      rewrite Ed. cbn [bind]. rewrite Ek. cbn [bind]. rewrite Es. cbn [bind].
      unfold f_new_material. destruct (Rlt_dec d 0); [lra|]. destruct (Rlt_dec k 0); [lra|]. destruct (Rlt_dec s 0); [lra|]. exact Em.
    + cbn [bulk shear dens]. split; [exact Wk|]. split; [exact Ws|]. rewrite Hd. eapply approx_bound; [exact Ad|lia|].
      simpl (INR _). unfold u. rewrite !pow_IZR. simpl Z.pow. lra.
Qed.

Lemma fl_inv_good : good_inverse (fun x => fl (/ x)).
Proof.
  intros x D L H. assert (X : x <> 0). { intros ->. rewrite Rabs_R0 in L. pose proof (half_pos 1000). lra. }
  assert (K : forall y, 0 < y -> / 2 ^ 1000 <= y <= 2 ^ 1000 -> within (/ 2 ^ 52) (/ y) (fl (/ y))).
  { intros y P B. eapply approx_bound; [apply fl_approx| |].
    - eapply Rle_trans; [|apply Rinv_le_contravar; [exact P|exact (proj2 B)]]. apply half_le. lia.
    - lia.
    - simpl (INR _). rewrite u_double. lra. }
  destruct (Rle_lt_dec 0 x) as [P|P].
  - rewrite Rabs_pos_eq in L, H by exact P. apply K; [|split]; lra.
  - rewrite Rabs_left in L, H by exact P. specialize (K (- x) ltac:(lra) ltac:(lra)).
    unfold within in *. rewrite Rinv_opp in K. rewrite fl_opp, Rabs_Ropp in K.
    replace (fl (/ x) - / x) with (- (- fl (/ x) - - / x)) by ring. rewrite Rabs_Ropp. exact K.
Qed.

(** The mixture of 3 and 0: below zero. *)
Lemma soft_bulk : f_calc_bulk_modulus (fun x => fl (/ x)) 3 0 0 (3 / 4) (1 / 4) = Ok (dy (-1) 50).
Proof.
  assert (Ha : fl (/ 3) = dy 6004799503160661 54) by (apply (fl_dy _ 1 3 6004799503160661 54); [lra|lia|lia|vm_compute; reflexivity]).
  assert (Hw : fl (3 / 4 * dy 6004799503160661 54) = dy 9007199254740992 55)
    by (apply (fl_dy _ 18014398509481983 72057594037927936 9007199254740992 55); [dyadic|lia|lia|vm_compute; reflexivity]).
  assert (Hs : fl (dy 6004799503160661 54 - dy 9007199254740992 55) = dy 6004799503160660 56)
    by (apply (fl_dy _ 1501199875790165 18014398509481984 6004799503160660 56); [dyadic|lia|lia|vm_compute; reflexivity]).
  assert (Hq : fl (1 / 4 / dy 6004799503160660 56) = dy 6755399441055746 51)
    by (apply (fl_dy _ 4503599627370496 1501199875790165 6755399441055746 51); [dyadic|lia|lia|vm_compute; reflexivity]).
  assert (Hv : fl (dy 6755399441055746 51 - 3) = dy 4503599627370496 102)
    by (apply (fl_dy _ 1 1125899906842624 4503599627370496 102); [dyadic|lia|lia|vm_compute; reflexivity]).
  assert (H3 : fl 3 = 3) by (apply (fl_small_int 3); simpl; lia).
  assert (T : / 2 ^ 1000 <= 3). { apply Rle_trans with 1; [|lra]. rewrite <- Rinv_1. apply Rinv_le_contravar; [lra|]. apply pow_R1_Rle. lra. }
  unfold f_calc_bulk_modulus. destruct (Req_EM_T 3 0) as [Z|_]; [exfalso; lra|]. unfold f_walpole_value.
  replace (0 - 3) with (- (3)) by ring. rewrite (rnd_opp 3 3) by (apply rnd_small; [exact H3|lra]). cbn [bind].
  unfold f_py_inv at 1. destruct (Req_EM_T (- (3)) 0) as [Z|_]; [exfalso; lra|].
  rewrite Rabs_Ropp, (Rabs_pos_eq 3) by lra. destruct (Rlt_dec 3 _) as [Z|_]; [exfalso; lra|]. cbn [bind].
  replace (four_thirds * 0) with 0 by ring. rewrite (rnd_small _ _ fl0) by lra. cbn [bind].
  replace (3 + 0) with 3 by ring. rewrite (rnd_small _ _ H3) by lra. cbn [bind].
  unfold f_py_inv. destruct (Req_EM_T 3 0) as [Z|_]; [exfalso; lra|].
  rewrite (Rabs_pos_eq 3) by lra. destruct (Rlt_dec 3 _) as [Z|_]; [exfalso; lra|]. cbn [bind].
  rewrite Rinv_opp, fl_opp, Ha. rewrite (rnd_small _ _ Hw) by dyadic_small. cbn [bind].
  replace (- dy 6004799503160661 54 + dy 9007199254740992 55) with (- (dy 6004799503160661 54 - dy 9007199254740992 55)) by ring.
  rewrite (rnd_opp _ _ (rnd_small _ _ Hs ltac:(dyadic_small))). cbn [bind].
  unfold f_py_div. destruct (Req_EM_T _ 0) as [Z|_]; [exfalso; revert Z; apply Rlt_not_eq; dyadic_small|].
  replace (1 / 4 / - dy 6004799503160660 56) with (- (1 / 4 / dy 6004799503160660 56))
    by (field; apply Rgt_not_eq; dyadic_small).
  rewrite (rnd_opp _ _ (rnd_small _ _ Hq ltac:(dyadic_small))). cbn [bind].
  replace (3 + - dy 6755399441055746 51) with (- (dy 6755399441055746 51 - 3)) by ring.
  rewrite (rnd_opp _ _ (rnd_small _ _ Hv ltac:(dyadic_small))). f_equal. dyadic_small.
Qed.
