(** Rounding in the Hashin-Shtrikman bounds and their average. *)
From Coq Require Import Reals Lra Lia List ZArith Psatz.
From Flocq Require Import Core.
From Verif Require Import Base BaseProofs MaterialModel MainModel MainProofs FloatModel FloatSpec FloatProofs
  FloatExampleProofs PublishedSpec FloatBoundsModel FloatBoundsSpec FloatBoundsProofs FloatMixModel.
Open Scope R_scope.

Lemma rnd_sign s x y : s = 1 \/ s = -1 -> rnd x = Ok y -> rnd (s * x) = Ok (s * y).
Proof.
  intros [->| ->] E.
  - rewrite !Rmult_1_l. exact E.
  - replace (-1 * x) with (- x) by ring. replace (-1 * y) with (- y) by ring. apply rnd_opp. exact E.
Qed.

Section Tail.
Variables v1 v2 z f c s num e : R.
Hypothesis (D1 : double v1) (D2 : double v2).
Hypothesis (Z1 : sized 100 v1) (Z2 : sized 100 v2) (P1 : 0 < v1) (P2 : 0 < v2).
Hypothesis (Zz : sized 320 z).
Hypothesis (Of : sized 100 f) (F1 : f <= 1) (Zf : sized 152 (1 - f)).
Hypothesis (C1 : 1 <= c) (C2 : c <= 2 ^ 40) (C : contrast c v1 v2).

Let M := v1 + z.
Let Q := (1 - f) * (v1 + z) + f * (v2 + z).
Let K := M * (v2 + z) / Q - z.
Let D := Rabs (v2 - v1).

Lemma distance_sized : sized 152 D.
Proof.
  unfold D. destruct (Rtotal_order v1 v2) as [L|[E|L]].
  - rewrite Rabs_pos_eq by lra. exact (sized_minus _ _ _ D2 D1 Z2 Z1 ltac:(lia) L).
  - rewrite E, Rminus_diag_eq, Rabs_R0 by reflexivity. left. reflexivity.
  - rewrite Rabs_minus_sym, Rabs_pos_eq by lra. exact (sized_minus _ _ _ D1 D2 Z1 Z2 ltac:(lia) L).
Qed.
Lemma distance_rounds : exists d, approx 1 D d /\ (v1 <= v2 -> rnd (v2 - v1) = Ok (1 * d)) /\ (v2 < v1 -> rnd (v2 - v1) = Ok (-1 * d)).
Proof.
  destruct (rnd_step 0 _ _ _ (approx_refl 0 _ (Rabs_pos (v2 - v1))) distance_sized ltac:(lia) ltac:(lia)) as [d [E A]].
  exists d. split; [exact A|]. split; intros L.
  - rewrite Rabs_pos_eq in E by lra. rewrite Rmult_1_l. exact E.
  - rewrite Rabs_minus_sym, Rabs_pos_eq in E by lra. replace (v2 - v1) with (- (v1 - v2)) by ring.
    replace (-1 * d) with (- d) by ring. apply rnd_opp. exact E.
Qed.

Hypothesis An : approx 4 ((1 - f) * D) num.
Hypothesis Ae : approx 12 (D * (f / M)) e.
Hypothesis Sg : (v1 <= v2 /\ s = 1) \/ (v2 < v1 /\ s = -1).

Lemma tail_close : exists t q v, rnd (1 + s * e) = Ok t /\ 0 < t /\ rnd (s * num / t) = Ok q /\ rnd (v1 + q) = Ok v /\
  within (c / 2 ^ 47) K v /\ double v.
Proof.
  pose proof (walpole_Q v1 v2 z f P1 P2 Zz Of F1) as q0. fold Q in q0.
  pose proof (walpole_z0 z Zz) as z0. pose proof (walpole_f0 f Of) as f0.
  pose proof (walpole_M v1 z P1 Zz) as m0. fold M in m0.
  assert (k0 : 0 < K) by exact (walpole_K v1 v2 z f P1 P2 Zz Of F1).
  pose proof (walpole_Zm v1 z Z1 Zz) as Zm. fold M in Zm. pose proof u_pos as U.
  pose proof distance_sized as ZD. pose proof (sized_nonneg _ _ ZD) as d0.
  set (W := f / M) in *.
  assert (W0 : 0 <= W) by (apply Rmult_le_pos; [exact f0|left; apply Rinv_0_lt_compat; exact m0]).
  pose proof (sized_mult _ _ _ _ ZD (sized_div _ _ _ _ Of Zm m0)) as Ze. fold W in Ze.
  pose proof (sized_mult _ _ _ _ Zf ZD) as Zn.
  destruct Sg as [[Le ->]|[Lt ->]].
  - (* all terms positive *)
    rewrite !Rmult_1_l. assert (ED : D = v2 - v1) by (unfold D; apply Rabs_pos_eq; lra).
    assert (At0 : approx 12 (1 + D * W) (1 + e)) by (apply approx_plus; [apply approx_refl; lra|exact Ae]).
    assert (Zt : sized 574 (1 + D * W)) by (apply sized_plus; [apply sized_1|eapply sized_weaken; [|exact Ze]; lia]).
    assert (t0 : 0 < 1 + D * W) by nra.
    destruct (rnd_step _ _ _ _ At0 Zt ltac:(lia) ltac:(lia)) as [t [Et At]].
    pose proof (approx_pos _ _ _ At t0) as t1.
    pose proof (sized_div _ _ _ _ Zn Zt t0) as Zq.
    destruct (rnd_step _ _ _ _ (approx_div _ _ _ _ _ _ An At t0) Zq ltac:(lia) ltac:(lia)) as [q [Eq Aq]].
    assert (Ek : v1 + (1 - f) * D / (1 + D * W) = K).
    { assert (1 + D * W = Q / M) as -> by (unfold W, Q, M in *; rewrite ED; field; lra).
      unfold K. rewrite ED. unfold Q, M in *. field. split; lra. }
    assert (Av0 : approx 18 (v1 + (1 - f) * D / (1 + D * W)) (v1 + q)) by (apply approx_plus; [apply approx_refl; lra|eapply approx_weaken; [|exact Aq]; lia]).
    assert (Zv : sized 880 (v1 + (1 - f) * D / (1 + D * W))) by (apply sized_plus; (eapply sized_weaken; [|eassumption]); lia).
    destruct (rnd_step _ _ _ _ Av0 Zv ltac:(lia) ltac:(lia)) as [v [Ev Av]].
    exists t, q, v. split; [exact Et|]. split; [exact t1|]. split; [exact Eq|]. split; [exact Ev|]. split; [|exact (rnd_double _ _ Ev)].
    rewrite Ek in Av. eapply approx_bound; [exact Av|lia|]. simpl (INR _).
    apply Rle_trans with (1 / 2 ^ 47); [unfold u; rewrite !pow_IZR; simpl Z.pow; lra|].
    apply Rmult_le_compat_r; [left; apply half_pos|exact C1].
  - (* a difference *)
    assert (ED : D = v1 - v2) by (unfold D; rewrite Rabs_minus_sym; apply Rabs_pos_eq; lra).
    set (S' := 1 - D * W). set (X := M / Q).
    assert (ES : S' * M = Q). { unfold S', W, Q, M in *. rewrite ED. field. lra. }
    assert (S0 : 0 < S') by (apply Rmult_lt_reg_r with M; [exact m0|]; rewrite Rmult_0_l, ES; exact q0).
    assert (EX : X * Q = M) by (unfold X; field; lra).
    assert (X1 : 1 <= X). { apply Rmult_le_reg_r with Q; [exact q0|]. rewrite EX. unfold M, Q. nra. }
    assert (aX : 1 = S' * X). { apply Rmult_eq_reg_r with Q; [|lra]. rewrite Rmult_assoc, EX. rewrite ES. ring. }
    assert (WS : D * W <= 1) by (unfold S' in S0; lra).
    destruct C as [Ca _].
    assert (Xc : X <= c).
    { apply Rmult_le_reg_r with Q; [exact q0|]. rewrite EX. apply Rle_trans with (c * (v2 + z)).
      - unfold M. nra.
      - apply Rmult_le_compat_l; [lra|]. unfold Q. nra. }
    assert (uX : u * X <= / 8192).
    { apply Rle_trans with (u * 2 ^ 40); [apply Rmult_le_compat_l; lra|]. unfold u. rewrite !pow_IZR. simpl Z.pow. lra. }
    pose proof (within_abs _ _ _ Ae ltac:(lia)) as Be. apply Rabs_le_inv in Be. rewrite INR_IZR_INZ in Be. simpl Z.of_nat in Be.
    set (p := 1 - e).
    assert (uW : u * (D * W) <= u) by (rewrite <- (Rmult_1_r u) at 2; apply Rmult_le_compat_l; lra).
    assert (Bp : - (32 * (u * X) * S') <= p - S' <= 32 * (u * X) * S').
    { replace (32 * (u * X) * S') with (32 * u * (S' * X)) by ring. rewrite <- aX. unfold p, S'. lra. }
    assert (p0 : S' * (255 / 256) <= p). { assert (32 * (u * X) * S' <= 32 / 8192 * S') by (apply Rmult_le_compat_r; lra). lra. }
    assert (p1 : p <= 2 * S'). { assert (32 * (u * X) * S' <= 32 / 8192 * S') by (apply Rmult_le_compat_r; lra). lra. }
    assert (Zp : sized 41 p).
    { right. change (2 ^ 41) with (2 * 2 ^ 40). rewrite Rinv_mult. pose proof (two_pos 40) as T. pose proof (half_pos 40) as H.
      assert (1 <= 2 ^ 40 * S'). { rewrite aX. rewrite Rmult_comm. apply Rmult_le_compat_r; lra. }
      assert (/ 2 ^ 40 <= S'). { apply Rmult_le_reg_l with (2 ^ 40); [exact T|]. rewrite Rinv_r by lra. assumption. }
      assert (S' <= 1) by (unfold S'; nra). assert (1 <= 2 ^ 40) by (apply pow_R1_Rle; lra). lra. }
    assert (p2 : 0 < p) by lra.
    destruct (rnd_step 0 _ _ _ (approx_refl 0 _ (Rlt_le _ _ p2)) Zp ltac:(lia) ltac:(lia)) as [t [Es As]].
    pose proof (approx_pos _ _ _ As p2) as s1.
    pose proof (approx_div _ _ _ _ _ _ An As p2) as Aq0.
    pose proof (sized_div _ _ _ _ Zn Zp p2) as Zq.
    destruct (rnd_step _ _ _ _ Aq0 Zq ltac:(lia) ltac:(lia)) as [q [Eq Aq]].
    pose proof (within_abs _ _ _ Aq ltac:(lia)) as Bq. apply Rabs_le_inv in Bq. rewrite INR_IZR_INZ in Bq. simpl Z.of_nat in Bq.
    set (w := (1 - f) * D / p) in *. set (T := (1 - f) * D / S').
    assert (T0 : 0 <= T). { apply Rmult_le_pos; [apply Rmult_le_pos; lra|left; apply Rinv_0_lt_compat; exact S0]. }
    assert (Et : (w - T) * p = T * (S' - p)). { unfold w, T. field. lra. }
    assert (Bt : - (33 * (u * X) * T) <= w - T <= 33 * (u * X) * T).
    { assert (0 <= u * X) by nra. assert (N : 0 <= (u * X) * T) by nra.
      assert (J : T * (32 * (u * X) * S') <= 33 * (u * X) * T * p).
      { replace (T * (32 * (u * X) * S')) with ((u * X) * T * (32 * S')) by ring.
        replace (33 * (u * X) * T * p) with ((u * X) * T * (33 * p)) by ring. apply Rmult_le_compat_l; lra. }
      split; apply Rmult_le_reg_r with p; try assumption; rewrite ?Et.
      - apply Rle_trans with (- (T * (32 * (u * X) * S'))); [lra|]. nra.
      - apply Rle_trans with (T * (32 * (u * X) * S')); [|lra]. apply Rmult_le_compat_l; lra. }
    assert (uXT : 0 <= (u * X) * T) by (apply Rmult_le_pos; [nra|exact T0]).
    assert (uT : u * T <= (u * X) * T). { apply Rmult_le_compat_r; [exact T0|]. rewrite <- (Rmult_1_r u) at 1. apply Rmult_le_compat_l; lra. }
    assert (tT : w <= 2 * T). { assert (33 * (u * X) * T <= 33 / 8192 * T) by (apply Rmult_le_compat_r; lra). lra. }
    assert (ut : u * w <= 2 * ((u * X) * T)). { apply Rle_trans with (u * (2 * T)); [apply Rmult_le_compat_l; lra|lra]. }
    assert (BQ : - (60 * ((u * X) * T)) <= q - T <= 60 * ((u * X) * T)) by lra.
    assert (ET : T * Q = (1 - f) * (v1 - v2) * M).
    { unfold T. rewrite <- ES, ED. field. lra. }
    assert (KT : v1 - T = K).
    { unfold K. apply Rmult_eq_reg_r with Q; [|lra]. rewrite Rmult_minus_distr_r, ET.
      replace ((M * (v2 + z) / Q - z) * Q) with (M * (v2 + z) - z * Q) by (field; lra). unfold Q, M. ring. }
    assert (XT : X * T <= (c - 1) * K).
    { assert (EK : (K + z) * Q = M * (v2 + z)) by (unfold K; field; lra).
      assert (L1 : T <= v1 - v2).
      { apply Rmult_le_reg_r with Q; [exact q0|]. rewrite ET.
        replace ((1 - f) * (v1 - v2) * M) with ((v1 - v2) * ((1 - f) * M)) by ring. apply Rmult_le_compat_l; [lra|].
        unfold Q, M. nra. }
      apply Rle_trans with (X * (v1 - v2)); [apply Rmult_le_compat_l; lra|].
      assert (EX2 : X * (v2 + z) = K + z). { apply Rmult_eq_reg_r with Q; [|lra]. rewrite EK. replace (X * (v2 + z) * Q) with (X * Q * (v2 + z)) by ring. rewrite EX. reflexivity. }
      assert (Kv : v2 <= K).
      { assert (B : Rmin v1 v2 <= K) by exact (proj1 (walpole_between v1 v2 z f P1 P2 Zz Of F1)). unfold Rmin in B. destruct (Rle_dec v1 v2); lra. }
      assert (EX3 : X * v2 <= K). { nra. }
      assert (v1 - v2 <= (c - 1) * v2) by lra.
      apply Rle_trans with (X * ((c - 1) * v2)); [apply Rmult_le_compat_l; lra|].
      replace (X * ((c - 1) * v2)) with ((c - 1) * (X * v2)) by ring. apply Rmult_le_compat_l; lra. }
    assert (uXT2 : (u * X) * T <= u * ((c - 1) * K)). { rewrite Rmult_assoc. apply Rmult_le_compat_l; lra. }
    assert (uc : u * (c - 1) <= / 8192).
    { apply Rle_trans with (u * 2 ^ 40); [apply Rmult_le_compat_l; lra|]. unfold u. rewrite !pow_IZR. simpl Z.pow. lra. }
    assert (ucK : u * ((c - 1) * K) <= / 8192 * K). { rewrite <- Rmult_assoc. apply Rmult_le_compat_r; lra. }
    assert (By : - (60 * (u * ((c - 1) * K))) <= (v1 + - q) - K <= 60 * (u * ((c - 1) * K))) by lra.
    set (y := v1 + - q) in *.
    assert (y0 : K * (127 / 128) <= y <= K * (129 / 128)) by lra.
    assert (Zy : sized 102 y).
    { right. assert (B1 : Rmin v1 v2 <= K) by exact (proj1 (walpole_between v1 v2 z f P1 P2 Zz Of F1)).
      assert (B2 : K <= Rmax v1 v2) by exact (proj2 (walpole_between v1 v2 z f P1 P2 Zz Of F1)).
      unfold Rmin in B1. unfold Rmax in B2. destruct (Rle_dec v1 v2); [lra|].
      destruct Z1 as [?|[Z11 Z12]]; [lra|]. destruct Z2 as [?|[Z21 Z22]]; [lra|].
      assert (E2 : 2 ^ 102 = 4 * 2 ^ 100) by (change 102%nat with (2 + 100)%nat; rewrite pow_add; simpl (2 ^ 2); ring).
      rewrite E2, Rinv_mult. pose proof (half_pos 100). lra. }
    destruct (rnd_step 0 _ _ _ (approx_refl 0 _ (sized_nonneg _ _ Zy)) Zy ltac:(lia) ltac:(lia)) as [v [Ev Av]].
    pose proof (within_abs _ _ _ Av ltac:(lia)) as Bv. apply Rabs_le_inv in Bv. rewrite INR_IZR_INZ in Bv. simpl Z.of_nat in Bv.
    exists t, (- q), v. split; [replace (1 + -1 * e) with p by (unfold p; ring); exact Es|]. split; [exact s1|].
    split; [replace (-1 * num / t) with (- (num / t)) by (field; lra); apply rnd_opp; exact Eq|].
    split; [exact Ev|]. split; [|exact (rnd_double _ _ Ev)].
    unfold within. rewrite (Rabs_pos_eq K) by lra.
    assert (uy : u * y <= 2 * (u * K)). { apply Rle_trans with (u * (2 * K)); [apply Rmult_le_compat_l; lra|lra]. }
    assert (E3 : c / 2 ^ 47 * K = 64 * (u * ((c - 1) * K)) + 64 * (u * K)).
    { unfold u. replace (2 ^ 53) with (64 * 2 ^ 47) by (rewrite !pow_IZR; simpl Z.pow; lra). field. }
    assert (0 <= u * ((c - 1) * K)). { apply Rmult_le_pos; [lra|]. apply Rmult_le_pos; lra. }
    assert (0 < u * K) by (apply Rmult_lt_0_compat; assumption).
    rewrite E3. apply Rabs_le. lra.
Qed.
End Tail.

Definition hs_value (v1 v2 z f : R) : R := (v1 + z) * (v2 + z) / ((1 - f) * (v1 + z) + f * (v2 + z)) - z.

Lemma np_inv_close inv a n x y : good_inverse inv -> approx n x y -> sized a x -> 0 < x -> double y -> (Z.of_nat n <= 2 ^ 50)%Z -> (a <= 900)%nat ->
  f_np_inv inv y = Ok (inv y) /\ approx (n + 3) (/ x) (inv y).
Proof.
  intros G A Z P D L La. destruct (inv_close inv G a n x y A Z P D L La) as [E [B _]]. split; [|exact B].
  unfold f_py_inv in E. unfold f_np_inv. destruct (Req_EM_T y 0); [discriminate|]. exact E.
Qed.

Lemma bound_bulk_close inv k1 k2 mu1 f c : good_inverse inv -> double k1 -> double k2 -> ordinary k1 -> ordinary k2 -> 0 < k1 -> 0 < k2 ->
  ordinary mu1 -> double f -> ordinary f -> f <= 1 -> 1 <= c <= 2 ^ 40 -> contrast c k1 k2 ->
  exists k, f_bound_bulk inv k1 k2 mu1 f = Ok k /\ within (c / 2 ^ 47) (hs_value k1 k2 (4 / 3 * mu1) f) k /\ double k.
Proof.
  intros G D1 D2 O1 O2 P1 P2 Om Df Of L [C1 C2] C. pose proof (sized_nonneg _ _ Of) as f0. pose proof (sized_nonneg _ _ Om) as m0.
  destruct (rest_close f Df Of L) as [r [Er [Ar Zr]]].
  assert (Zz0 : sized 101 (4 / 3 * mu1)) by (eapply sized_weaken; [|exact (sized_mult _ _ _ _ sized_43 Om)]; lia).
  assert (Zz : sized 320 (4 / 3 * mu1)) by (eapply sized_weaken; [|exact Zz0]; lia).
  destruct (rnd_step _ _ _ _ (approx_mult _ 0 _ _ _ _ four_thirds_approx (approx_refl 0 _ m0)) Zz0 ltac:(lia) ltac:(lia)) as [z [Ez Az]].
  assert (Zm : sized 102 (k1 + 4 / 3 * mu1)) by (apply sized_plus; [eapply sized_weaken; [|exact O1]; lia|exact Zz0]).
  assert (Pm : 0 < k1 + 4 / 3 * mu1) by lra.
  assert (Am0 : approx 2 (k1 + 4 / 3 * mu1) (k1 + z)) by (apply approx_plus; [apply approx_refl; lra|exact Az]).
  destruct (rnd_step _ _ _ _ Am0 Zm ltac:(lia) ltac:(lia)) as [m [Em Am]].
  destruct (np_inv_close inv _ _ _ _ G Am Zm Pm (rnd_double _ _ Em) ltac:(lia) ltac:(lia)) as [Ei Ai].
  destruct (distance_rounds k1 k2 D1 D2 O1 O2) as [d [Ad [Eup Edown]]].
  pose proof (distance_sized k1 k2 D1 D2 O1 O2) as ZD.
  set (D := Rabs (k2 - k1)) in *.
  destruct (rnd_step _ _ _ _ (approx_mult _ _ _ _ _ _ Ar Ad) (sized_mult _ _ _ _ Zr ZD) ltac:(lia) ltac:(lia)) as [num [En An]].
  destruct (rnd_step _ _ _ _ (approx_mult _ 0 _ _ _ _ Ad (approx_refl 0 _ f0)) (sized_mult _ _ _ _ ZD Of) ltac:(lia) ltac:(lia)) as [e1 [Ee1 Ae1]].
  pose proof (sized_mult _ _ _ _ (sized_mult _ _ _ _ ZD Of) (sized_inv _ _ Zm Pm)) as Ze2.
  destruct (rnd_step _ _ _ _ (approx_mult _ _ _ _ _ _ Ae1 Ai) Ze2 ltac:(lia) ltac:(lia)) as [e2 [Ee2 Ae2]].
  assert (SG : exists s, (s = 1 \/ s = -1) /\ ((k1 <= k2 /\ s = 1) \/ (k2 < k1 /\ s = -1)) /\ rnd (k2 - k1) = Ok (s * d)).
  { destruct (Rle_lt_dec k1 k2) as [Q|Q]; [exists 1|exists (-1)]; auto. }
  destruct SG as [s [S1 [S2 Es]]].
  destruct (tail_close k1 k2 (4 / 3 * mu1) f c s num e2) as [t [q [v [Et [Pt [Eq [Ev [Wv Dv]]]]]]]]; try assumption.
  - eapply approx_weaken; [|exact An]. lia.
  - fold D. replace (D * (f / (k1 + 4 / 3 * mu1))) with (D * f * / (k1 + 4 / 3 * mu1)) by (field; lra).
    eapply approx_weaken; [|exact Ae2]. lia.
  - exists v. split; [|split; [exact Wv|exact Dv]].
    unfold f_bound_bulk. rewrite Er. cbn [bind]. rewrite Es. cbn [bind].
    replace (r * (s * d)) with (s * (r * d)) by ring. rewrite (rnd_sign _ _ _ S1 En). cbn [bind].
    replace (s * d * f) with (s * (d * f)) by ring. rewrite (rnd_sign _ _ _ S1 Ee1). cbn [bind].
    rewrite Ez. cbn [bind]. rewrite Em. cbn [bind]. rewrite Ei. cbn [bind].
    replace (s * e1 * inv m) with (s * (e1 * inv m)) by ring. rewrite (rnd_sign _ _ _ S1 Ee2). cbn [bind].
    rewrite Et. cbn [bind]. unfold f_np_div. destruct (Req_EM_T t 0); [lra|]. rewrite Eq. cbn [bind]. exact Ev.
Qed.

Lemma bound_shear_close mu1 mu2 k1 f c z : double mu1 -> double mu2 -> ordinary mu1 -> ordinary mu2 -> 0 < mu1 -> 0 < mu2 ->
  ordinary k1 -> double f -> ordinary f -> f <= 1 -> 1 <= c <= 2 ^ 40 -> contrast c mu1 mu2 ->
  z = mu1 / 6 * ((9 * k1 + 8 * mu1) / (k1 + 2 * mu1)) ->
  exists mu, f_bound_shear mu1 mu2 k1 f = Ok mu /\ within (c / 2 ^ 47) (hs_value mu1 mu2 z f) mu /\ double mu.
Proof.
  intros D1 D2 O1 O2 P1 P2 Ok1 Df Of L [C1 C2] C Dz. pose proof (sized_nonneg _ _ Of) as f0. pose proof (sized_nonneg _ _ Ok1) as k0.
  destruct (rest_close f Df Of L) as [r [Er [Ar Zr]]].
  destruct (shear_shift_close k1 mu1 Ok1 O1 P1) as [z' [_ [_ Zz]]]. rewrite <- Dz in Zz.
  assert (m0 : 0 <= mu1) by lra.
  assert (Z2 : sized 1 2) by (apply sized_int; simpl; lra). assert (Z5 : sized 3 5) by (apply sized_int; simpl; lra).
  assert (N2 : 0 <= 2) by lra. assert (N5 : 0 <= 5) by lra.
  assert (Zz0 : sized 101 (4 / 3 * mu1)) by (eapply sized_weaken; [|exact (sized_mult _ _ _ _ sized_43 O1)]; lia).
  destruct (rnd_step _ _ _ _ (approx_mult _ 0 _ _ _ _ four_thirds_approx (approx_refl 0 _ m0)) Zz0 ltac:(lia) ltac:(lia)) as [y [Ey Ay]].
  assert (Zm : sized 102 (k1 + 4 / 3 * mu1)) by (apply sized_plus; [eapply sized_weaken; [|exact Ok1]; lia|exact Zz0]).
  assert (Pm : 0 < k1 + 4 / 3 * mu1) by lra.
  assert (Am0 : approx 2 (k1 + 4 / 3 * mu1) (k1 + y)) by (apply approx_plus; [apply approx_refl; lra|exact Ay]).
  destruct (rnd_step _ _ _ _ Am0 Zm ltac:(lia) ltac:(lia)) as [m [Em Am]].
  (* k1 + 2 mu1 *)
  assert (Za0 : sized 101 (2 * mu1)) by (eapply sized_weaken; [|exact (sized_mult _ _ _ _ Z2 O1)]; lia).
  destruct (rnd_step 0 _ _ _ (approx_refl 0 _ (sized_nonneg _ _ Za0)) Za0 ltac:(lia) ltac:(lia)) as [a1 [Ea1 Aa1]].
  assert (Za : sized 102 (k1 + 2 * mu1)) by (apply sized_plus; [eapply sized_weaken; [|exact Ok1]; lia|exact Za0]).
  assert (Aa0 : approx 1 (k1 + 2 * mu1) (k1 + a1)) by (apply approx_plus; [apply approx_refl; lra|exact Aa1]).
  destruct (rnd_step _ _ _ _ Aa0 Za ltac:(lia) ltac:(lia)) as [a [Ea Aa]].
  (* 5 mu1 (k1 + 4/3 mu1) *)
  assert (Zb0 : sized 103 (5 * mu1)) by (eapply sized_weaken; [|exact (sized_mult _ _ _ _ Z5 O1)]; lia).
  destruct (rnd_step 0 _ _ _ (approx_refl 0 _ (sized_nonneg _ _ Zb0)) Zb0 ltac:(lia) ltac:(lia)) as [b1 [Eb1 Ab1]].
  pose proof (sized_mult _ _ _ _ Zb0 Zm) as Zb.
  destruct (rnd_step _ _ _ _ (approx_mult _ _ _ _ _ _ Ab1 Am) Zb ltac:(lia) ltac:(lia)) as [b [Eb Ab]].
  assert (Pb : 0 < 5 * mu1 * (k1 + 4 / 3 * mu1)) by (apply Rmult_lt_0_compat; lra).
  pose proof (approx_pos _ _ _ Ab Pb) as Pb'.
  (* the difference and what is multiplied to it *)
  destruct (distance_rounds mu1 mu2 D1 D2 O1 O2) as [d [Ad [Eup Edown]]].
  pose proof (distance_sized mu1 mu2 D1 D2 O1 O2) as ZD.
  set (D := Rabs (mu2 - mu1)) in *.
  destruct (rnd_step _ _ _ _ (approx_mult _ _ _ _ _ _ Ar Ad) (sized_mult _ _ _ _ Zr ZD) ltac:(lia) ltac:(lia)) as [num [En An]].
  pose proof (sized_mult _ _ _ _ Z2 ZD) as Ze1.
  destruct (rnd_step _ _ _ _ (approx_mult 0 _ _ _ _ _ (approx_refl 0 _ N2) Ad) Ze1 ltac:(lia) ltac:(lia)) as [e1 [Ee1 Ae1]].
  pose proof (sized_mult _ _ _ _ Ze1 Of) as Ze2.
  destruct (rnd_step _ _ _ _ (approx_mult _ 0 _ _ _ _ Ae1 (approx_refl 0 _ f0)) Ze2 ltac:(lia) ltac:(lia)) as [e2 [Ee2 Ae2]].
  pose proof (sized_mult _ _ _ _ Ze2 Za) as Ze3.
  destruct (rnd_step _ _ _ _ (approx_mult _ _ _ _ _ _ Ae2 Aa) Ze3 ltac:(lia) ltac:(lia)) as [e3 [Ee3 Ae3]].
  pose proof (sized_div _ _ _ _ Ze3 Zb Pb) as Ze4.
  destruct (rnd_step _ _ _ _ (approx_div _ _ _ _ _ _ Ae3 Ab Pb) Ze4 ltac:(lia) ltac:(lia)) as [e4 [Ee4 Ae4]].
  assert (SG : exists s, (s = 1 \/ s = -1) /\ ((mu1 <= mu2 /\ s = 1) \/ (mu2 < mu1 /\ s = -1)) /\ rnd (mu2 - mu1) = Ok (s * d)).
  { destruct (Rle_lt_dec mu1 mu2) as [Q|Q]; [exists 1|exists (-1)]; auto. }
  destruct SG as [s [S1 [S2 Es]]].
  destruct (tail_close mu1 mu2 z f c s num e4) as [t [q [v [Et [Pt [Eq [Ev [Wv Dv]]]]]]]]; try assumption.
  - eapply approx_weaken; [|exact An]. lia.
  - fold D. replace (D * (f / (mu1 + z))) with (2 * D * f * (k1 + 2 * mu1) / (5 * mu1 * (k1 + 4 / 3 * mu1))).
    + eapply approx_weaken; [|exact Ae4]. lia.
    + assert (mu1 + z = 5 * mu1 * (k1 + 4 / 3 * mu1) / (2 * (k1 + 2 * mu1))) as -> by (rewrite Dz; field; lra). field. lra.
  - exists v. split; [|split; [exact Wv|exact Dv]].
    unfold f_bound_shear. rewrite Er. cbn [bind]. rewrite Es. cbn [bind].
    replace (r * (s * d)) with (s * (r * d)) by ring. rewrite (rnd_sign _ _ _ S1 En). cbn [bind].
    replace (2 * (s * d)) with (s * (2 * d)) by ring. rewrite (rnd_sign _ _ _ S1 Ee1). cbn [bind].
    replace (s * e1 * f) with (s * (e1 * f)) by ring. rewrite (rnd_sign _ _ _ S1 Ee2). cbn [bind].
    rewrite Ea1. cbn [bind]. rewrite Ea. cbn [bind].
    replace (s * e2 * a) with (s * (e2 * a)) by ring. rewrite (rnd_sign _ _ _ S1 Ee3). cbn [bind].
    rewrite Eb1. cbn [bind]. rewrite Ey. cbn [bind]. rewrite Em. cbn [bind]. rewrite Eb. cbn [bind].
    unfold f_np_div at 1. destruct (Req_EM_T b 0); [lra|].
    replace (s * e3 / b) with (s * (e3 / b)) by (field; lra). rewrite (rnd_sign _ _ _ S1 Ee4). cbn [bind].
    rewrite Et. cbn [bind]. unfold f_np_div. destruct (Req_EM_T t 0); [lra|]. rewrite Eq. cbn [bind]. exact Ev.
Qed.

Lemma bound_density_close r1 r2 f : ordinary r1 -> ordinary r2 -> double f -> ordinary f -> f <= 1 -> 0 < r1 -> 0 < r2 ->
  exists d, f_bound_density r1 r2 f = Ok d /\ approx 4 (f * r1 + (1 - f) * r2) d /\ sized 253 (f * r1 + (1 - f) * r2) /\
    0 < f * r1 + (1 - f) * r2.
Proof.
  intros Z1 Z2 Df Zf L P1 P2. pose proof (sized_nonneg _ _ Zf) as f0. destruct (rest_close f Df Zf L) as [f2 [Ef [Af Zg]]].
  pose proof (sized_mult _ _ _ _ Zf Z1) as Za. pose proof (sized_mult _ _ _ _ Zg Z2) as Zb.
  assert (Zd : sized 253 (f * r1 + (1 - f) * r2)) by (apply sized_plus; (eapply sized_weaken; [|eassumption]); lia).
  assert (Pd : 0 < f * r1 + (1 - f) * r2) by (destruct (Rlt_dec f 1); nra).
  unfold f_bound_density.
  destruct (rnd_step 0 _ _ _ (approx_refl 0 _ (sized_nonneg _ _ Za)) Za ltac:(lia) ltac:(lia)) as [a [Ea Aa]].
  assert (r0 : 0 <= r2) by lra.
  destruct (rnd_step _ _ _ _ (approx_mult _ 0 _ _ _ _ Af (approx_refl 0 r2 r0)) Zb ltac:(lia) ltac:(lia)) as [b [Eb Ab]].
  rewrite Ea. cbn [bind]. rewrite Ef. cbn [bind]. rewrite Eb. cbn [bind].
  assert (Ad : approx 3 (f * r1 + (1 - f) * r2) (a + b)) by (apply approx_plus; (eapply approx_weaken; [|eassumption]); lia).
  destruct (rnd_step _ _ _ _ Ad Zd ltac:(lia) ltac:(lia)) as [d [Ed Bd]]. exists d. auto.
Qed.

Lemma hs_value_between v1 v2 z f : 0 < v1 -> 0 < v2 -> 0 <= z -> 0 <= f <= 1 -> Rmin v1 v2 <= hs_value v1 v2 z f <= Rmax v1 v2.
Proof.
  intros p1 p2 z0 F. assert (q0 : 0 < (1 - f) * (v1 + z) + f * (v2 + z)) by (destruct (Rlt_dec f 1); nra).
  unfold hs_value. set (Q := (1 - f) * (v1 + z) + f * (v2 + z)) in *. set (K := (v1 + z) * (v2 + z) / Q - z).
  assert (E : (K + z) * Q = (v1 + z) * (v2 + z)) by (unfold K; field; lra).
  assert (q1 : Rmin v1 v2 + z <= Q <= Rmax v1 v2 + z).
  { unfold Q, Rmin, Rmax. destruct (Rle_dec v1 v2); split; nra. }
  unfold Rmin, Rmax in *. destruct (Rle_dec v1 v2);
    split; apply Rplus_le_reg_r with z; apply Rmult_le_reg_r with Q; try assumption; rewrite E.
  - apply Rmult_le_compat_l; lra.
  - rewrite Rmult_comm. apply Rmult_le_compat_l; lra.
  - rewrite (Rmult_comm (v1 + z)). apply Rmult_le_compat_l; lra.
  - apply Rmult_le_compat_l; lra.
Qed.

(** How much the value depends on the ratio. *)
Lemma hs_value_ratio v1 v2 z f f' c : 0 < v1 -> 0 < v2 -> 0 <= z -> 0 <= f <= 1 -> 0 <= f' <= 1 -> 1 <= c -> contrast c v1 v2 ->
  Rabs (hs_value v1 v2 z f' - hs_value v1 v2 z f) <= Rabs (f' - f) * (c - 1) * hs_value v1 v2 z f.
Proof.
  intros p1 p2 z0 F F' C1 [Ca Cb].
  assert (q0 : 0 < (1 - f) * (v1 + z) + f * (v2 + z)) by (destruct (Rlt_dec f 1); nra).
  assert (q1 : 0 < (1 - f') * (v1 + z) + f' * (v2 + z)) by (destruct (Rlt_dec f' 1); nra).
  pose proof (hs_value_between v1 v2 z f p1 p2 z0 F) as [B _].
  assert (E : hs_value v1 v2 z f' - hs_value v1 v2 z f =
    (f' - f) * ((v1 - v2) * ((hs_value v1 v2 z f + z) / ((1 - f') * (v1 + z) + f' * (v2 + z))))).
  { unfold hs_value. field. split; lra. }
  rewrite E, Rabs_mult, Rmult_assoc. apply Rmult_le_compat_l; [apply Rabs_pos|].
  set (K := hs_value v1 v2 z f) in *. set (q := (1 - f') * (v1 + z) + f' * (v2 + z)) in *.
  set (w := Rmin v1 v2) in *.
  assert (w0 : 0 < w) by (unfold w, Rmin; destruct (Rle_dec v1 v2); lra).
  assert (Lq : w + z <= q) by (unfold w, q, Rmin; destruct (Rle_dec v1 v2); nra).
  assert (Ld : Rabs (v1 - v2) <= (c - 1) * w).
  { unfold w, Rmin; destruct (Rle_dec v1 v2); [rewrite Rabs_left1 by lra|rewrite Rabs_pos_eq by lra]; lra. }
  assert (P : 0 <= (K + z) / q) by (apply Rmult_le_pos; [lra|left; apply Rinv_0_lt_compat; exact q1]).
  rewrite Rabs_mult, (Rabs_pos_eq _ P).
  apply Rle_trans with ((c - 1) * w * ((K + z) / q)); [apply Rmult_le_compat_r; assumption|].
  rewrite Rmult_assoc. apply Rmult_le_compat_l; [lra|].
  apply Rmult_le_reg_r with q; [exact q1|]. replace (w * ((K + z) / q) * q) with (w * (K + z)) by (field; lra).
  nra.
Qed.

Lemma new_material_ok root k s d : good_root root -> sized 470 k -> sized 470 s -> sized 470 d -> 0 < k -> 0 < s -> 0 < d -> s <= 2 ^ 46 * k ->
  exists p q, f_new_material root k s d = Ok (mkMat k s d p q).
Proof.
  intros Gr Zk Zs Zd Pk Ps Pd H.
  destruct (f_moduli_close root Gr 0 k k s s d d) as [p [q [Em _]]]; try assumption; try lia; try (apply approx_refl; lra).
  - apply (moduli_hypothesis _ 46); [lra|lia| |exact H]. simpl (INR _). unfold u. rewrite !pow_IZR. simpl Z.pow. lra.
  - exists p, q. unfold f_new_material. destruct (Rlt_dec d 0); [lra|]. destruct (Rlt_dec k 0); [lra|]. destruct (Rlt_dec s 0); [lra|]. exact Em.
Qed.

(** Shear and bulk moduli close to values between the given ones stay apart. *)
Lemma ratio_kept k1 k2 s1 s2 K S' k s : 0 < K -> 63 / 64 * K <= k -> s <= 65 / 64 * S' -> Rmin k1 k2 <= K -> S' <= Rmax s1 s2 ->
  Rmax s1 s2 <= 2 ^ 45 * Rmin k1 k2 -> s <= 2 ^ 46 * k.
Proof.
  intros P A B C D E. change (2 ^ 46) with (2 * 2 ^ 45). pose proof (two_pos 45) as T.
  assert (S' <= 2 ^ 45 * K). { apply Rle_trans with (2 ^ 45 * Rmin k1 k2); [lra|]. apply Rmult_le_compat_l; lra. }
  apply Rle_trans with (2 ^ 45 * (65 / 64 * K)); [lra|].
  replace (2 * 2 ^ 45 * k) with (2 ^ 45 * (2 * k)) by ring. apply Rmult_le_compat_l; lra.
Qed.

Definition shift_shear (m : material) : R := shear m / 6 * ((9 * bulk m + 8 * shear m) / (bulk m + 2 * shear m)).

Lemma f_bound_close root inv m1 m2 f c : good_root root -> good_inverse inv -> ordinary_material m1 -> ordinary_material m2 ->
  double f -> ordinary f -> f <= 1 -> 1 <= c <= 2 ^ 40 -> contrast c (bulk m1) (bulk m2) -> contrast c (shear m1) (shear m2) ->
  Rmax (shear m1) (shear m2) <= 2 ^ 45 * Rmin (bulk m1) (bulk m2) ->
  exists m, f_bound root inv m1 m2 f = Ok m /\
    within (c / 2 ^ 47) (hs_value (bulk m1) (bulk m2) (4 / 3 * shear m1) f) (bulk m) /\
    within (c / 2 ^ 47) (hs_value (shear m1) (shear m2) (shift_shear m1) f) (shear m) /\
    within (/ 2 ^ 50) (f * dens m1 + (1 - f) * dens m2) (dens m).
Proof.
  intros Gr Gi [Dk1 [Ds1 [Dd1 [Ok1 [Os1 [Od1 [Pk1 [Ps1 Pd1]]]]]]]] [Dk2 [Ds2 [Dd2 [Ok2 [Os2 [Od2 [Pk2 [Ps2 Pd2]]]]]]]] Df Of L HC Ck Cs R.
  pose proof (sized_nonneg _ _ Of) as f0.
  destruct (bound_bulk_close inv (bulk m1) (bulk m2) (shear m1) f c) as [k [Ek [Wk _]]]; try assumption.
  destruct (bound_shear_close (shear m1) (shear m2) (bulk m1) f c (shift_shear m1)) as [s [Es [Ws _]]]; try assumption; try reflexivity.
  destruct (bound_density_close (dens m1) (dens m2) f Od1 Od2 Df Of L Pd1 Pd2) as [d [Ed [Ad [Zd Pd]]]].
  assert (Z0 : 0 <= shift_shear m1).
  { unfold shift_shear. apply Rmult_le_pos; [lra|]. apply Rmult_le_pos; [lra|]. left. apply Rinv_0_lt_compat. lra. }
  pose proof (hs_value_between (bulk m1) (bulk m2) (4 / 3 * shear m1) f Pk1 Pk2 ltac:(lra) ltac:(lra)) as Bk.
  pose proof (hs_value_between (shear m1) (shear m2) (shift_shear m1) f Ps1 Ps2 Z0 ltac:(lra)) as Bs.
  destruct (sized_within c _ _ _ _ Ok1 Ok2 Pk1 Pk2 (proj2 HC) Bk Wk) as [Zk Yk].
  destruct (sized_within c _ _ _ _ Os1 Os2 Ps1 Ps2 (proj2 HC) Bs Ws) as [Zs Ys].
  pose proof (approx_pos _ _ _ Ad Pd) as Pd'. pose proof (sized_approx _ _ _ _ Ad Zd ltac:(lia)) as Zd'.
  assert (K0 : 0 < Rmin (bulk m1) (bulk m2)) by (unfold Rmin; destruct (Rle_dec (bulk m1) (bulk m2)); lra).
  assert (S0 : 0 < Rmin (shear m1) (shear m2)) by (unfold Rmin; destruct (Rle_dec (shear m1) (shear m2)); lra).
  destruct (new_material_ok root k s d Gr) as [p [q Em]].
  - eapply sized_weaken; [|exact Zk]. lia.
  - eapply sized_weaken; [|exact Zs]. lia.
  - eapply sized_weaken; [|exact Zd']. lia.
  - lra.
  - lra.
  - exact Pd'.
  - eapply (ratio_kept (bulk m1) (bulk m2) (shear m1) (shear m2)); [| | |exact (proj1 Bk)|exact (proj2 Bs)|exact R]; lra.
  - exists (mkMat k s d p q). split.
    + unfold f_bound. rewrite (ratio_accepted f ltac:(lra)). cbn [bind]. rewrite Ek. cbn [bind]. rewrite Es. cbn [bind]. rewrite Ed. cbn [bind]. exact Em.
    + cbn [bulk shear dens]. split; [exact Wk|]. split; [exact Ws|]. eapply approx_bound; [exact Ad|lia|].
      simpl (INR _). unfold u. rewrite !pow_IZR. simpl Z.pow. lra.
Qed.

(** The rest of a ratio is a ratio again. *)
Lemma rest_ordinary f : double f -> ordinary f -> f <= 1 ->
  exists r, rnd (1 - f) = Ok r /\ double r /\ ordinary r /\ 0 <= r <= 1 /\ Rabs (r - (1 - f)) <= 2 * u.
Proof.
  intros D O L. pose proof (sized_nonneg _ _ O) as f0. destruct (rest_close f D O L) as [r [E [A _]]]. exists r.
  pose proof (approx_nonneg _ _ _ A) as r0. split; [exact E|]. split; [exact (rnd_double _ _ E)|].
  assert (r1 : r <= 1) by (apply (rnd_below _ _ _ E); [exact fl1|lra]).
  split; [|split; [split; assumption|]].
  - destruct (Req_EM_T f 1) as [->|N].
    { left. rewrite (rnd_fl _ _ E), Rminus_diag_eq by reflexivity. exact fl0. }
    assert (Z : sized 53 (1 - f)).
    { destruct (Rle_lt_dec f (1 / 2)) as [H|H].
      - right. pose proof (half_le 1 53 ltac:(lia)) as T. simpl (2 ^ 1) in T. pose proof (pow_R1_Rle 2 53 ltac:(lra)). lra.
      - apply (sized_minus 1); [apply (double_int 1); reflexivity|exact D|apply sized_1|right; simpl; lra|lia|lra]. }
    pose proof (sized_approx _ _ _ _ A Z ltac:(lia)) as Z2. exact (sized_weaken 54 100 _ ltac:(lia) Z2).
  - pose proof (within_abs _ _ _ A ltac:(lia)) as W. simpl (INR _) in W. eapply Rle_trans; [exact W|]. pose proof u_pos. nra.
Qed.

(** The mean of two values, each close to its own. *)
Lemma mean_close c K1 K2 k1 k2 x1 x2 : ordinary x1 -> ordinary x2 -> 0 < x1 -> 0 < x2 -> 1 <= c <= 2 ^ 40 ->
  Rmin x1 x2 <= K1 <= Rmax x1 x2 -> Rmin x1 x2 <= K2 <= Rmax x1 x2 ->
  within (3 / 2 * c / 2 ^ 47) K1 k1 -> within (3 / 2 * c / 2 ^ 47) K2 k2 ->
  exists s k, rnd (k1 + k2) = Ok s /\ rnd (s / 2) = Ok k /\ within (c / 2 ^ 46) ((K1 + K2) / 2) k /\ sized 104 k /\
    63 / 64 * ((K1 + K2) / 2) <= k <= 65 / 64 * ((K1 + K2) / 2).
Proof.
  intros O1 O2 P1 P2 [C1 C2] B1 B2 W1 W2.
  destruct O1 as [?|[A1 A1']]; [lra|]. destruct O2 as [?|[A2 A2']]; [lra|].
  assert (X1 : / 2 ^ 100 <= K1 <= 2 ^ 100) by (unfold Rmin, Rmax in B1; destruct (Rle_dec x1 x2); lra).
  assert (X2 : / 2 ^ 100 <= K2 <= 2 ^ 100) by (unfold Rmin, Rmax in B2; destruct (Rle_dec x1 x2); lra).
  pose proof (half_pos 100) as H. unfold within in W1, W2. rewrite (Rabs_pos_eq K1) in W1 by lra. rewrite (Rabs_pos_eq K2) in W2 by lra.
  set (g := c / 2 ^ 47) in *. replace (3 / 2 * c / 2 ^ 47) with (3 / 2 * g) in W1, W2 by (unfold g; field).
  assert (g1 : g <= 1 / 128).
  { unfold g. apply Rle_trans with (2 ^ 40 / 2 ^ 47); [apply Rmult_le_compat_r; [left; apply half_pos|exact C2]|]. rewrite !pow_IZR. simpl Z.pow. lra. }
  assert (g2 : 64 * u <= g).
  { unfold g. apply Rle_trans with (1 / 2 ^ 47); [unfold u; rewrite !pow_IZR; simpl Z.pow; lra|]. apply Rmult_le_compat_r; [left; apply half_pos|exact C1]. }
  pose proof u_pos as U.
  assert (gK1 : g * K1 <= 1 / 128 * K1) by (apply Rmult_le_compat_r; lra).
  assert (gK2 : g * K2 <= 1 / 128 * K2) by (apply Rmult_le_compat_r; lra).
  apply Rabs_le_inv in W1. apply Rabs_le_inv in W2.
  set (J := K1 + K2) in *. set (y := k1 + k2).
  assert (gJ : g * J = g * K1 + g * K2) by (unfold J; ring).
  assert (Y : - (3 / 2 * (g * J)) <= y - J <= 3 / 2 * (g * J)) by (unfold y, J in *; lra).
  assert (J0 : / 2 ^ 100 <= J <= 2 ^ 101) by (change (2 ^ 101) with (2 * 2 ^ 100); unfold J; lra).
  assert (gJ2 : g * J <= 1 / 128 * J) by (unfold J in *; lra).
  assert (gJ0 : 64 * (u * J) <= g * J) by (rewrite <- Rmult_assoc; apply Rmult_le_compat_r; lra).
  assert (Zy : sized 102 y).
  { assert (T1 : 2 ^ 102 = 2 * 2 ^ 101) by reflexivity. assert (T2 : 2 ^ 101 = 2 * 2 ^ 100) by reflexivity.
    pose proof (two_pos 100) as T.
    assert (T3 : / 2 ^ 102 = / 4 * / 2 ^ 100) by (rewrite T1, T2; field; lra).
    right. rewrite T3. rewrite T1. lra. }
  destruct (rnd_step 0 _ _ _ (approx_refl 0 _ (sized_nonneg _ _ Zy)) Zy ltac:(lia) ltac:(lia)) as [s [Es As]].
  assert (Z2 : sized 1 2) by (apply sized_int; simpl; lra). assert (N2 : 0 <= 2) by lra. assert (P2' : 0 < 2) by lra.
  pose proof (sized_div _ _ _ _ Zy Z2 P2') as Zh.
  destruct (rnd_step _ _ _ _ (approx_div _ 0 _ _ _ _ As (approx_refl 0 2 N2) P2') Zh ltac:(lia) ltac:(lia)) as [k [Ek Ak]].
  exists s, k. split; [exact Es|]. split; [exact Ek|].
  pose proof (within_abs _ _ _ Ak ltac:(lia)) as Bk. apply Rabs_le_inv in Bk. rewrite INR_IZR_INZ in Bk. simpl Z.of_nat in Bk.
  assert (uy : u * y <= 2 * (u * J)). { replace (2 * (u * J)) with (u * (2 * J)) by ring. apply Rmult_le_compat_l; lra. }
  assert (Q : - (g * J) <= k - J / 2 <= g * J) by lra.
  split; [|split].
  - unfold within. rewrite (Rabs_pos_eq (J / 2)) by lra. replace (c / 2 ^ 46 * (J / 2)) with (g * J).
    + apply Rabs_le. lra.
    + unfold g. change (2 ^ 47) with (2 * 2 ^ 46). field.
  - pose proof (sized_approx _ _ _ _ Ak Zh ltac:(lia)) as Z3. eapply sized_weaken; [|exact Z3]. lia.
  - lra.
Qed.

Lemma f_average_close root inv m1 m2 f c : good_root root -> good_inverse inv -> ordinary_material m1 -> ordinary_material m2 ->
  double f -> ordinary f -> f <= 1 -> 1 <= c <= 2 ^ 40 -> contrast c (bulk m1) (bulk m2) -> contrast c (shear m1) (shear m2) ->
  Rmax (shear m1) (shear m2) <= 2 ^ 45 * Rmin (bulk m1) (bulk m2) ->
  exists m, f_average root inv m1 m2 f = Ok m /\
    within (c / 2 ^ 46) ((hs_value (bulk m1) (bulk m2) (4 / 3 * shear m1) f + hs_value (bulk m2) (bulk m1) (4 / 3 * shear m2) (1 - f)) / 2) (bulk m) /\
    within (c / 2 ^ 46) ((hs_value (shear m1) (shear m2) (shift_shear m1) f + hs_value (shear m2) (shear m1) (shift_shear m2) (1 - f)) / 2) (shear m) /\
    within (/ 2 ^ 50) (f * dens m1 + (1 - f) * dens m2) (dens m).
Proof.
  intros Gr Gi M1 M2 Df Of L HC Ck Cs R. pose proof (sized_nonneg _ _ Of) as f0.
  destruct (f_bound_close root inv m1 m2 f c Gr Gi M1 M2 Df Of L HC Ck Cs R) as [b1 [E1 [Wk1 [Ws1 _]]]].
  destruct (rest_ordinary f Df Of L) as [r [Er [Dr [Or [Br Ar]]]]].
  assert (Ck' : contrast c (bulk m2) (bulk m1)) by (destruct Ck; split; assumption).
  assert (Cs' : contrast c (shear m2) (shear m1)) by (destruct Cs; split; assumption).
  destruct (f_bound_close root inv m2 m1 r c Gr Gi M2 M1 Dr Or (proj2 Br) HC Ck' Cs') as [b2 [E2 [Wk2 [Ws2 _]]]].
  { rewrite Rmax_comm, Rmin_comm. exact R. }
  destruct M1 as [Dk1 [Ds1 [Dd1 [Ok1 [Os1 [Od1 [Pk1 [Ps1 Pd1]]]]]]]]. destruct M2 as [Dk2 [Ds2 [Dd2 [Ok2 [Os2 [Od2 [Pk2 [Ps2 Pd2]]]]]]]].
  assert (ZS : forall m, 0 < bulk m -> 0 < shear m -> 0 <= shift_shear m).
  { intros m A B. unfold shift_shear. apply Rmult_le_pos; [lra|]. apply Rmult_le_pos; [lra|]. left. apply Rinv_0_lt_compat. lra. }
  pose proof (ZS m1 Pk1 Ps1) as Z1. pose proof (ZS m2 Pk2 Ps2) as Z2. clear ZS.
  assert (T : forall v1 v2 z v, 0 < v1 -> 0 < v2 -> 0 <= z -> contrast c v1 v2 -> within (c / 2 ^ 47) (hs_value v1 v2 z r) v ->
    within (3 / 2 * c / 2 ^ 47) (hs_value v1 v2 z (1 - f)) v).
  { intros v1 v2 z v p1 p2 z0 C W. pose proof (hs_value_ratio v1 v2 z (1 - f) r c p1 p2 z0 ltac:(lra) Br (proj1 HC) C) as D.
    pose proof (hs_value_between v1 v2 z (1 - f) p1 p2 z0 ltac:(lra)) as [B _].
    pose proof (hs_value_between v1 v2 z r p1 p2 z0 Br) as [B' _].
    set (K := hs_value v1 v2 z (1 - f)) in *. set (K' := hs_value v1 v2 z r) in *.
    assert (w0 : 0 < Rmin v1 v2) by (unfold Rmin; destruct (Rle_dec v1 v2); lra).
    unfold within in *. rewrite (Rabs_pos_eq K) by lra. rewrite (Rabs_pos_eq K') in W by lra.
    pose proof u_pos as U. set (g := c / 2 ^ 47) in *.
    assert (gc : 64 * (u * c) = g). { unfold g, u. replace (2 ^ 53) with (64 * 2 ^ 47) by (rewrite !pow_IZR; simpl Z.pow; lra). field. }
    assert (g1 : g <= 1 / 128).
    { unfold g. apply Rle_trans with (2 ^ 40 / 2 ^ 47); [apply Rmult_le_compat_r; [left; apply half_pos|exact (proj2 HC)]|]. rewrite !pow_IZR. simpl Z.pow. lra. }
    assert (g0 : 0 < g) by (rewrite <- gc; assert (0 < u * c) by (apply Rmult_lt_0_compat; lra); lra).
    assert (D2 : Rabs (K' - K) <= g / 32 * K).
    { eapply Rle_trans; [exact D|]. apply Rmult_le_compat_r; [lra|]. apply Rle_trans with (2 * u * (c - 1)); [apply Rmult_le_compat_r; lra|].
      assert (0 < u * c) by (apply Rmult_lt_0_compat; lra). lra. }
    replace (3 / 2 * c / 2 ^ 47) with (3 / 2 * g) by (unfold g; field).
    apply Rabs_le_inv in W. apply Rabs_le_inv in D2. apply Rabs_le.
    assert (gK : 0 < g * K) by (apply Rmult_lt_0_compat; lra).
    assert (gK' : g * K' <= g * K + g * (g / 32 * K)). { rewrite <- Rmult_plus_distr_l. apply Rmult_le_compat_l; lra. }
    assert (ggK : g * (g / 32 * K) <= 1 / 128 * (g * K)).
    { replace (g * (g / 32 * K)) with (g / 32 * (g * K)) by field. apply Rmult_le_compat_r; lra. }
    lra. }
  assert (W3 : forall x y, within (c / 2 ^ 47) x y -> within (3 / 2 * c / 2 ^ 47) x y).
  { intros x y W. unfold within in *. eapply Rle_trans; [exact W|]. apply Rmult_le_compat_r; [apply Rabs_pos|].
    unfold Rdiv. apply Rmult_le_compat_r; [left; apply half_pos|lra]. }
  pose proof (T _ _ (4 / 3 * shear m2) _ Pk2 Pk1 ltac:(lra) Ck' Wk2) as Vk2. pose proof (T _ _ _ _ Ps2 Ps1 Z2 Cs' Ws2) as Vs2.
  pose proof (hs_value_between (bulk m1) (bulk m2) (4 / 3 * shear m1) f Pk1 Pk2 ltac:(lra) ltac:(lra)) as Bk1.
  pose proof (hs_value_between (shear m1) (shear m2) (shift_shear m1) f Ps1 Ps2 Z1 ltac:(lra)) as Bs1.
  pose proof (hs_value_between (bulk m2) (bulk m1) (4 / 3 * shear m2) (1 - f) Pk2 Pk1 ltac:(lra) ltac:(lra)) as Bk2.
  pose proof (hs_value_between (shear m2) (shear m1) (shift_shear m2) (1 - f) Ps2 Ps1 Z2 ltac:(lra)) as Bs2.
  rewrite Rmin_comm, Rmax_comm in Bk2, Bs2.
  destruct (mean_close c _ _ _ _ _ _ Ok1 Ok2 Pk1 Pk2 HC Bk1 Bk2 (W3 _ _ Wk1) Vk2) as [sk [k [Esk [Ek [Wk [Zk Yk]]]]]].
  destruct (mean_close c _ _ _ _ _ _ Os1 Os2 Ps1 Ps2 HC Bs1 Bs2 (W3 _ _ Ws1) Vs2) as [ss [s [Ess [Es [Ws [Zs Ys]]]]]].
  destruct (bound_density_close (dens m1) (dens m2) f Od1 Od2 Df Of L Pd1 Pd2) as [d [Ed [Ad [Zd Pd]]]].
  pose proof (approx_pos _ _ _ Ad Pd) as Pd'. pose proof (sized_approx _ _ _ _ Ad Zd ltac:(lia)) as Zd'.
  assert (K0 : 0 < Rmin (bulk m1) (bulk m2)) by (unfold Rmin; destruct (Rle_dec (bulk m1) (bulk m2)); lra).
  assert (S0 : 0 < Rmin (shear m1) (shear m2)) by (unfold Rmin; destruct (Rle_dec (shear m1) (shear m2)); lra).
  destruct (new_material_ok root k s d Gr) as [p [q Em]].
  - eapply sized_weaken; [|exact Zk]. lia.
  - eapply sized_weaken; [|exact Zs]. lia.
  - eapply sized_weaken; [|exact Zd']. lia.
  - lra.
  - lra.
  - exact Pd'.
  - eapply (ratio_kept (bulk m1) (bulk m2) (shear m1) (shear m2)); [|exact (proj1 Yk)|exact (proj2 Ys)| | |exact R]; lra.
  - exists (mkMat k s d p q). split.
    + unfold f_average. rewrite (ratio_accepted f ltac:(lra)). cbn [bind]. rewrite E1. cbn [bind]. rewrite Er. cbn [bind].
      rewrite E2. cbn [bind]. rewrite Esk. cbn [bind]. rewrite Ek. cbn [bind]. rewrite Ess. cbn [bind]. rewrite Es. cbn [bind].
      rewrite Ed. cbn [bind]. exact Em.
    + cbn [bulk shear dens]. split; [exact Wk|]. split; [exact Ws|]. eapply approx_bound; [exact Ad|lia|].
      simpl (INR _). unfold u. rewrite !pow_IZR. simpl Z.pow. lra.
Qed.

Lemma bound_close root inv m1 m2 f c mix : good_root root -> good_inverse inv -> ordinary_material m1 -> ordinary_material m2 ->
  double f -> ordinary f -> f <= 1 -> 1 <= c <= 2 ^ 40 -> contrast c (bulk m1) (bulk m2) -> contrast c (shear m1) (shear m2) ->
  Rmax (shear m1) (shear m2) <= 2 ^ 45 * Rmin (bulk m1) (bulk m2) ->
  walpole_mixture (bulk m1) (shear m1) f m1 m2 mix -> 0 < bulk mix -> 0 < shear mix ->
  exists m, f_bound root inv m1 m2 f = Ok m /\
    within (c / 2 ^ 47) (bulk mix) (bulk m) /\ within (c / 2 ^ 47) (shear mix) (shear m) /\ within (/ 2 ^ 50) (dens mix) (dens m).
Proof.
  intros Gr Gi M1 M2 Df Of L HC Ck Cs R [Hk [Hs Hd]] Pk Ps.
  pose proof (sized_nonneg _ _ Of) as f0.
  destruct (f_bound_close root inv m1 m2 f c Gr Gi M1 M2 Df Of L HC Ck Cs R) as [m [E [Wk [Ws Wd]]]].
  destruct M1 as [_ [_ [_ [_ [_ [_ [Pk1 [Ps1 _]]]]]]]]. destruct M2 as [_ [_ [_ [_ [_ [_ [Pk2 [Ps2 _]]]]]]]].
  assert (Z0 : 0 <= shift_shear m1).
  { unfold shift_shear. apply Rmult_le_pos; [lra|]. apply Rmult_le_pos; [lra|]. left. apply Rinv_0_lt_compat. lra. }
  exists m. split; [exact E|].
  rewrite (published_value (4 / 3 * shear m1) f (bulk m1) (bulk m2) (bulk mix)) by (assumption || lra).
  rewrite (published_value (shift_shear m1) f (shear m1) (shear m2) (shear mix)) by (assumption || lra).
  rewrite Hd. split; [exact Wk|]. split; [exact Ws|exact Wd].
Qed.

Lemma hs_value_swap v1 v2 z f : hs_value v1 v2 z f = hs_value v2 v1 z (1 - f).
Proof.
  unfold hs_value. replace ((1 - (1 - f)) * (v2 + z) + (1 - f) * (v1 + z)) with ((1 - f) * (v1 + z) + f * (v2 + z)) by ring.
  rewrite (Rmult_comm (v2 + z)). reflexivity.
Qed.

Lemma average_close root inv m1 m2 f c x1 x2 : good_root root -> good_inverse inv -> ordinary_material m1 -> ordinary_material m2 ->
  double f -> ordinary f -> f <= 1 -> 1 <= c <= 2 ^ 40 -> contrast c (bulk m1) (bulk m2) -> contrast c (shear m1) (shear m2) ->
  Rmax (shear m1) (shear m2) <= 2 ^ 45 * Rmin (bulk m1) (bulk m2) ->
  walpole_mixture (bulk m1) (shear m1) f m1 m2 x1 -> 0 < bulk x1 -> 0 < shear x1 ->
  walpole_mixture (bulk m2) (shear m2) f m1 m2 x2 -> 0 < bulk x2 -> 0 < shear x2 ->
  exists m, f_average root inv m1 m2 f = Ok m /\
    within (c / 2 ^ 46) ((bulk x1 + bulk x2) / 2) (bulk m) /\ within (c / 2 ^ 46) ((shear x1 + shear x2) / 2) (shear m) /\
    within (/ 2 ^ 50) (dens x1) (dens m).
Proof.
  intros Gr Gi M1 M2 Df Of L HC Ck Cs R [Hk1 [Hs1 Hd1]] Qk1 Qs1 [Hk2 [Hs2 _]] Qk2 Qs2.
  pose proof (sized_nonneg _ _ Of) as f0.
  destruct (f_average_close root inv m1 m2 f c Gr Gi M1 M2 Df Of L HC Ck Cs R) as [m [E [Wk [Ws Wd]]]].
  destruct M1 as [_ [_ [_ [_ [_ [_ [Pk1 [Ps1 _]]]]]]]]. destruct M2 as [_ [_ [_ [_ [_ [_ [Pk2 [Ps2 _]]]]]]]].
  assert (ZS : forall m, 0 < bulk m -> 0 < shear m -> 0 <= shift_shear m).
  { intros x A B. unfold shift_shear. apply Rmult_le_pos; [lra|]. apply Rmult_le_pos; [lra|]. left. apply Rinv_0_lt_compat. lra. }
  pose proof (ZS m1 Pk1 Ps1) as Z1. pose proof (ZS m2 Pk2 Ps2) as Z2. clear ZS.
  rewrite <- !hs_value_swap in Wk, Ws.
  exists m. split; [exact E|].
  rewrite (published_value (4 / 3 * shear m1) f (bulk m1) (bulk m2) (bulk x1)) by (assumption || lra).
  rewrite (published_value (4 / 3 * shear m2) f (bulk m1) (bulk m2) (bulk x2)) by (assumption || lra).
  rewrite (published_value (shift_shear m1) f (shear m1) (shear m2) (shear x1)) by (assumption || lra).
  rewrite (published_value (shift_shear m2) f (shear m1) (shear m2) (shear x2)) by (assumption || lra).
  rewrite Hd1. split; [exact Wk|]. split; [exact Ws|exact Wd].
Qed.

(** Nothing but the second material: the moduli 3 and 2^-60. *)
Lemma rnd_int z : (Z.abs z < 1000)%Z -> rnd (IZR z) = Ok (IZR z).
Proof.
  intros H. apply rnd_small; [apply double_rounds; apply double_int; lia|]. 
  assert (-1000 <= z <= 1000)%Z as [A B] by lia. apply IZR_le in A. apply IZR_le in B. lra.
Qed.
Lemma none_bulk : f_bound_bulk (fun x => fl (/ x)) 3 (/ 2 ^ 60) 7 0 = Ok 0.
Proof.
  assert (Hd : fl (3 - / 2 ^ 60) = dy 6755399441055744 51)
    by (apply (fl_dy _ 3458764513820540927 1152921504606846976 6755399441055744 51); [rewrite pow_IZR; simpl Z.pow; field_simplify; lra|lia|lia|vm_compute; reflexivity]).
  assert (D3 : dy 6755399441055744 51 = 3) by (dyadic_values; lra).
  assert (Hc : fl (dy 6004799503160661 52 * 7) = dy 5254199565265578 49) by (apply (fl_dy _ 42033596522124627 4503599627370496 5254199565265578 49); [dyadic|lia|lia|vm_compute; reflexivity]).
  assert (Hm : fl (3 + dy 5254199565265578 49) = dy 6943049425529514 49) by (apply (fl_dy _ 6943049425529514 562949953421312 6943049425529514 49); [dyadic|lia|lia|vm_compute; reflexivity]).
  unfold f_bound_bulk. rewrite (Rminus_0_r 1), (rnd_int 1) by lia. cbn [bind].
  replace (/ 2 ^ 60 - 3) with (- (3 - / 2 ^ 60)) by ring. rewrite (rnd_opp _ 3) by (rewrite <- D3 at 2; apply rnd_small; [exact Hd|rewrite D3; lra]). cbn [bind].
  replace (1 * - (3)) with (-3) by ring. rewrite (rnd_int (-3)) by lia. cbn [bind].
  replace (- (3) * 0) with 0 by ring. rewrite (rnd_int 0) by lia. cbn [bind].
  rewrite four_thirds_value, (rnd_small _ _ Hc) by dyadic_small. cbn [bind].
  rewrite (rnd_small _ _ Hm) by dyadic_small. cbn [bind].
  unfold f_np_inv. destruct (Rlt_dec _ _) as [L|_].
  { exfalso. revert L. apply Rle_not_lt. apply Rle_trans with 1; [rewrite <- Rinv_1; apply Rinv_le_contravar; [lra|]; apply pow_R1_Rle; lra|].
    rewrite Rabs_pos_eq by dyadic_small. dyadic_small. }
  cbn [bind]. rewrite Rmult_0_l, (rnd_int 0) by lia. cbn [bind]. rewrite Rplus_0_r, (rnd_int 1) by lia. cbn [bind].
  unfold f_np_div. destruct (Req_EM_T 1 0); [lra|]. replace (-3 / 1) with (-3) by field. rewrite (rnd_int (-3)) by lia. cbn [bind].
  replace (3 + -3) with 0 by ring. apply (rnd_int 0). lia.
Qed.
Lemma none_shear : f_bound_shear 7 7 3 0 = Ok 7.
Proof.
  assert (Hc : fl (dy 6004799503160661 52 * 7) = dy 5254199565265578 49) by (apply (fl_dy _ 42033596522124627 4503599627370496 5254199565265578 49); [dyadic|lia|lia|vm_compute; reflexivity]).
  assert (Hm : fl (3 + dy 5254199565265578 49) = dy 6943049425529514 49) by (apply (fl_dy _ 6943049425529514 562949953421312 6943049425529514 49); [dyadic|lia|lia|vm_compute; reflexivity]).
  assert (Hb : fl (35 * dy 6943049425529514 49) = dy 7593960309172906 44) by (apply (fl_dy _ 243006729893532990 562949953421312 7593960309172906 44); [dyadic|lia|lia|vm_compute; reflexivity]).
  unfold f_bound_shear. rewrite (Rminus_0_r 1), (rnd_int 1) by lia. cbn [bind].
  replace (7 - 7) with 0 by ring. rewrite (rnd_int 0) by lia. cbn [bind].
  rewrite ?Rmult_0_r, (rnd_int 0) by lia. cbn [bind]. rewrite ?Rmult_0_r, (rnd_int 0) by lia. cbn [bind].
  replace (2 * 7) with 14 by ring. rewrite (rnd_int 14) by lia. cbn [bind]. replace (3 + 14) with 17 by ring. rewrite (rnd_int 17) by lia. cbn [bind].
  rewrite Rmult_0_l, (rnd_int 0) by lia. cbn [bind]. replace (5 * 7) with 35 by ring. rewrite (rnd_int 35) by lia. cbn [bind].
  rewrite four_thirds_value, (rnd_small _ _ Hc) by dyadic_small. cbn [bind].
  rewrite (rnd_small _ _ Hm) by dyadic_small. cbn [bind]. rewrite (rnd_small _ _ Hb) by dyadic_small. cbn [bind].
  unfold f_np_div at 1. destruct (Req_EM_T _ 0) as [Z|_]; [exfalso; revert Z; apply Rgt_not_eq; dyadic_small|].
  unfold Rdiv at 1. rewrite Rmult_0_l, (rnd_int 0) by lia. cbn [bind]. rewrite Rplus_0_r, (rnd_int 1) by lia. cbn [bind].
  unfold f_np_div. destruct (Req_EM_T 1 0); [lra|]. replace (0 / 1) with 0 by field. rewrite (rnd_int 0) by lia. cbn [bind].
  rewrite Rplus_0_r. apply (rnd_int 7). lia.
Qed.
Lemma none_density : f_bound_density 1 1 0 = Ok 1.
Proof.
  unfold f_bound_density. rewrite Rmult_0_l, (rnd_int 0) by lia. cbn [bind]. rewrite (Rminus_0_r 1), (rnd_int 1) by lia. cbn [bind].
  rewrite Rmult_1_l, (rnd_int 1) by lia. cbn [bind]. rewrite Rplus_0_l. apply (rnd_int 1). lia.
Qed.
Lemma none_refused : f_bound fl_sqrt (fun x => fl (/ x)) (mkMat 3 7 1 0 0) (mkMat (/ 2 ^ 60) 7 1 0 0) 0 = Err ValueError.
Proof.
  unfold f_bound. rewrite (ratio_accepted 0) by lra. cbn [bind bulk shear dens]. rewrite none_bulk. cbn [bind]. rewrite none_shear. cbn [bind].
  rewrite none_density. cbn [bind]. unfold f_new_material. destruct (Rlt_dec 1 0); [lra|]. destruct (Rlt_dec 0 0); [lra|]. destruct (Rlt_dec 7 0); [lra|].
  exact moduli_rejected.
Qed.
