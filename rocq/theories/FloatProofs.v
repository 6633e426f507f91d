(** Rounding errors as factors: [approx n x y] says that [y] is [x] after at
    most [n] roundings. *)
From Coq Require Import Reals Lra Lia List ZArith Psatz.
From Flocq Require Import Core Relative Plus_error.
From Verif Require Import Base BaseProofs MaterialModel MainModel MainProofs FloatModel FloatSpec.
Import ListNotations.
Open Scope R_scope.

Definition u : R := / 2 ^ 53.
Lemma u_pos : 0 < u.
Proof. apply Rinv_0_lt_compat, pow_lt. lra. Qed.
Lemma u_small : u <= / 2 ^ 50.
Proof. unfold u. apply Rinv_le_contravar; [apply pow_lt; lra|]. apply Rle_pow; [lra|lia]. Qed.
Lemma u1 : 1 <= 1 + u. Proof. pose proof u_pos. lra. Qed.
Lemma un n : 1 <= (1 + u) ^ n. Proof. apply pow_R1_Rle, u1. Qed.
Lemma un0 n : 0 < (1 + u) ^ n. Proof. pose proof (un n). lra. Qed.

Definition approx (n : nat) (x y : R) : Prop := 0 <= x /\ x <= y * (1 + u) ^ n /\ y <= x * (1 + u) ^ n.

Lemma approx_nonneg n x y : approx n x y -> 0 <= y.
Proof.
  intros [H [H1 _]]. pose proof (un0 n). destruct (Rle_lt_dec 0 y) as [L|L]; [exact L|].
  assert (y * (1 + u) ^ n < 0) by nra. lra.
Qed.
Lemma approx_refl n x : 0 <= x -> approx n x x.
Proof. intros H. pose proof (un n). repeat split; [exact H|nra|nra]. Qed.
Lemma approx_weaken n m x y : (n <= m)%nat -> approx n x y -> approx m x y.
Proof.
  intros L A. pose proof (approx_nonneg _ _ _ A). destruct A as [H0 [H1 H2]].
  assert (P : (1 + u) ^ n <= (1 + u) ^ m) by (apply Rle_pow; [exact u1|exact L]).
  repeat split; [exact H0|nra|nra].
Qed.
Lemma approx_trans a b x y z : approx a x y -> approx b y z -> approx (a + b) x z.
Proof.
  intros A B. pose proof (approx_nonneg _ _ _ B). destruct A as [H0 [H1 H2]]. destruct B as [G [G1 G2]].
  pose proof (un a). pose proof (un b). unfold approx. rewrite pow_add. repeat split; [exact H0| |].
  - eapply Rle_trans; [exact H1|]. replace (z * ((1 + u) ^ a * (1 + u) ^ b)) with (z * (1 + u) ^ b * (1 + u) ^ a) by ring.
    apply Rmult_le_compat_r; [lra|exact G1].
  - eapply Rle_trans; [exact G2|]. rewrite <- Rmult_assoc. apply Rmult_le_compat_r; [lra|exact H2].
Qed.
Lemma approx_mult a b x x' y y' : approx a x x' -> approx b y y' -> approx (a + b) (x * y) (x' * y').
Proof.
  intros A B. pose proof (approx_nonneg _ _ _ A) as NA. pose proof (approx_nonneg _ _ _ B) as NB.
  destruct A as [H0 [H1 H2]]. destruct B as [G0 [G1 G2]]. unfold approx. rewrite pow_add. repeat split.
  - apply Rmult_le_pos; assumption.
  - replace (x' * y' * ((1 + u) ^ a * (1 + u) ^ b)) with ((x' * (1 + u) ^ a) * (y' * (1 + u) ^ b)) by ring.
    apply Rmult_le_compat; assumption.
  - replace (x * y * ((1 + u) ^ a * (1 + u) ^ b)) with ((x * (1 + u) ^ a) * (y * (1 + u) ^ b)) by ring.
    apply Rmult_le_compat; assumption.
Qed.
Lemma approx_pos n x y : approx n x y -> 0 < x -> 0 < y.
Proof. intros A P. pose proof (approx_nonneg _ _ _ A) as N. destruct A as [_ [H _]]. pose proof (un0 n). destruct (Req_dec y 0) as [E|E]; [subst y; lra|lra]. Qed.
Lemma approx_inv n x y : approx n x y -> 0 < x -> approx n (/ x) (/ y).
Proof.
  intros A P. pose proof (approx_pos _ _ _ A P) as Q. destruct A as [H0 [H1 H2]]. pose proof (un0 n) as U. repeat split.
  - left. apply Rinv_0_lt_compat, P.
  - apply Rmult_le_reg_r with (x * y); [nra|]. replace (/ x * (x * y)) with y by (field; lra).
    replace (/ y * (1 + u) ^ n * (x * y)) with (x * (1 + u) ^ n) by (field; lra). exact H2.
  - apply Rmult_le_reg_r with (x * y); [nra|]. replace (/ y * (x * y)) with x by (field; lra).
    replace (/ x * (1 + u) ^ n * (x * y)) with (y * (1 + u) ^ n) by (field; lra). exact H1.
Qed.
Lemma approx_div a b x x' y y' : approx a x x' -> approx b y y' -> 0 < y -> approx (a + b) (x / y) (x' / y').
Proof. intros A B P. apply approx_mult; [exact A|]. apply approx_inv; assumption. Qed.
Lemma approx_plus n x x' y y' : approx n x x' -> approx n y y' -> approx n (x + y) (x' + y').
Proof. intros [H0 [H1 H2]] [G0 [G1 G2]]. repeat split; [lra| |]; rewrite Rmult_plus_distr_r; lra. Qed.
Lemma approx_sqrt n x y : approx (n + n) x y -> approx n (sqrt x) (sqrt y).
Proof.
  intros A. pose proof (approx_nonneg _ _ _ A) as N. destruct A as [H0 [H1 H2]]. pose proof (un0 n) as U.
  assert (Q : sqrt ((1 + u) ^ (n + n)) = (1 + u) ^ n).
  { rewrite pow_add. apply sqrt_square. lra. }
  assert (V : 0 <= (1 + u) ^ (n + n)) by (left; apply un0).
  repeat split; [apply sqrt_pos| |].
  - rewrite <- Q, <- sqrt_mult by assumption. apply sqrt_le_1_alt. exact H1.
  - rewrite <- Q, <- sqrt_mult by assumption. apply sqrt_le_1_alt. exact H2.
Qed.

(** The factors stay close to one. *)
Lemma factor_bound n : (Z.of_nat n <= 2 ^ 50)%Z -> (1 + u) ^ n <= 1 + 2 * INR n * u.
Proof.
  induction n as [|n IH]; intros L; [simpl; lra|].
  specialize (IH ltac:(lia)). rewrite S_INR. simpl pow.
  assert (B : INR n <= 2 ^ 50).
  { rewrite INR_IZR_INZ. replace (2 ^ 50) with (IZR (2 ^ 50)) by (rewrite pow_IZR; reflexivity). apply IZR_le. lia. }
  assert (P : INR n * u <= / 8).
  { replace (/ 8) with (2 ^ 50 * u) by (unfold u; field). apply Rmult_le_compat_r; [left; exact u_pos|exact B]. }
  pose proof u_pos. pose proof (pos_INR n). assert (0 <= INR n * u) by nra.
  apply Rle_trans with ((1 + u) * (1 + 2 * INR n * u)); [apply Rmult_le_compat_l; [lra|exact IH]|]. nra.
Qed.
Lemma factor_two n : (Z.of_nat n <= 2 ^ 50)%Z -> (1 + u) ^ n <= 2.
Proof.
  intros L. eapply Rle_trans; [apply factor_bound; exact L|].
  assert (B : INR n <= 2 ^ 50).
  { rewrite INR_IZR_INZ. replace (2 ^ 50) with (IZR (2 ^ 50)) by (rewrite pow_IZR; reflexivity). apply IZR_le. lia. }
  assert (P : INR n * u <= / 8).
  { replace (/ 8) with (2 ^ 50 * u) by (unfold u; field). apply Rmult_le_compat_r; [left; exact u_pos|exact B]. }
  lra.
Qed.

(** From factors to relative errors. *)
Lemma approx_within n e x y : approx n x y -> (1 + u) ^ n <= 1 + e -> within e x y.
Proof.
  intros A E. pose proof (approx_nonneg _ _ _ A) as N. destruct A as [H0 [H1 H2]]. pose proof (un n) as U.
  unfold within. rewrite (Rabs_pos_eq x H0). apply Rabs_le. split.
  - assert (x - y <= e * x); [|lra]. assert (x <= y * (1 + e)) by nra.
    destruct (Rle_lt_dec y x) as [L|L]; nra.
  - nra.
Qed.
Lemma within_approx n e x y : 0 <= x -> within e x y -> 0 <= e -> 1 <= (1 - e) * (1 + u) ^ n -> 1 + e <= (1 + u) ^ n -> approx n x y.
Proof.
  intros H W E L1 L2. unfold within in W. rewrite (Rabs_pos_eq x H) in W. apply Rabs_le_inv in W. destruct W as [W1 W2].
  pose proof (un0 n). assert (x * (1 - e) <= y) by lra. repeat split; [exact H| |nra].
  apply Rle_trans with (x * (1 - e) * (1 + u) ^ n); [|apply Rmult_le_compat_r; lra].
  rewrite Rmult_assoc. rewrite <- (Rmult_1_r x) at 1. apply Rmult_le_compat_l; assumption.
Qed.

(* ---- one rounding ---- *)
Lemma fl0 : fl 0 = 0. Proof. apply (fl_small_int 0); simpl; lia. Qed.
Lemma fl1 : fl 1 = 1. Proof. apply (fl_small_int 1); simpl; lia. Qed.

Lemma u_ro_u : u_ro radix2 53 = u.
Proof.
  unfold u_ro, u. change (bpow radix2 (-53 + 1)) with (/ IZR (2 ^ 52)).
  replace (2 ^ 53) with (2 * IZR (2 ^ 52)); [rewrite Rinv_mult; reflexivity|].
  rewrite (pow_IZR 2 53). rewrite <- mult_IZR. reflexivity.
Qed.

Lemma approx_factor x eps : 0 <= x -> Rabs eps <= u / (1 + u) -> approx 1 x (x * (1 + eps)).
Proof.
  intros H E. pose proof u_pos as U. apply Rabs_le_inv in E.
  assert (K : u / (1 + u) <= u). { apply Rmult_le_reg_r with (1 + u); [lra|]. unfold Rdiv. rewrite Rmult_assoc, Rinv_l by lra. nra. }
  assert (J : (1 - u / (1 + u)) * (1 + u) = 1) by (field; lra).
  unfold approx. rewrite pow_1. repeat split; [exact H| |].
  - rewrite Rmult_assoc. rewrite <- (Rmult_1_r x) at 1. apply Rmult_le_compat_l; [exact H|].
    apply Rle_trans with ((1 - u / (1 + u)) * (1 + u)); [right; symmetry; exact J|]. apply Rmult_le_compat_r; lra.
  - apply Rmult_le_compat_l; [exact H|lra].
Qed.

Lemma fl_approx x : / 2 ^ 1022 <= x -> approx 1 x (fl x).
Proof.
  intros H.
  assert (B : bpow radix2 (-1074 + 53 - 1) <= Rabs x).
  { assert (P : 0 <= x). { eapply Rle_trans; [|exact H]. left. apply Rinv_0_lt_compat, pow_lt. lra. }
    rewrite Rabs_pos_eq by exact P. eapply Rle_trans; [|exact H]. right.
    change (-1074 + 53 - 1)%Z with (- Z.of_nat 1022)%Z. rewrite bpow_opp. f_equal.
    rewrite <- (IZR_Zpower radix2) by lia. change (Zpower radix2 (Z.of_nat 1022)) with (2 ^ Z.of_nat 1022)%Z. rewrite pow_IZR. reflexivity. }
  unfold fl.
  destruct (relative_error_N_FLX'_ex radix2 53 ltac:(lia) (fun n => negb (Z.even n)) x) as [d [Bd Hd]].
  rewrite u_ro_u in Bd.
  rewrite (round_FLT_FLX radix2 (-1074) 53 (Znearest (fun n => negb (Z.even n))) x B).
  rewrite Hd. apply approx_factor; [|exact Bd].
  eapply Rle_trans; [|exact H]. left. apply Rinv_0_lt_compat, pow_lt. lra.
Qed.

(** Sizes *)
Definition sized (a : nat) (x : R) : Prop := x = 0 \/ / 2 ^ a <= x <= 2 ^ a.
Lemma two_pos a : 0 < 2 ^ a. Proof. apply pow_lt. lra. Qed.
Lemma half_pos a : 0 < / 2 ^ a. Proof. apply Rinv_0_lt_compat, two_pos. Qed.
Lemma two_le a b : (a <= b)%nat -> 2 ^ a <= 2 ^ b. Proof. intros L. apply Rle_pow; [lra|exact L]. Qed.
Lemma half_le a b : (a <= b)%nat -> / 2 ^ b <= / 2 ^ a.
Proof. intros L. apply Rinv_le_contravar; [apply two_pos|apply two_le; exact L]. Qed.
Lemma sized_nonneg a x : sized a x -> 0 <= x.
Proof. pose proof (half_pos a). intros [E|E]; lra. Qed.
Lemma sized_weaken a b x : (a <= b)%nat -> sized a x -> sized b x.
Proof. intros L [E|E]; [left; exact E|right]. pose proof (two_le _ _ L). pose proof (half_le _ _ L). lra. Qed.
Lemma sized_mult a b x y : sized a x -> sized b y -> sized (a + b) (x * y).
Proof.
  intros [->|X]; [intros _; left; ring|]. intros [->|Y]; [left; ring|]. right.
  rewrite pow_add, Rinv_mult. pose proof (half_pos a). pose proof (half_pos b).
  split; apply Rmult_le_compat; lra.
Qed.
Lemma sized_inv a x : sized a x -> 0 < x -> sized a (/ x).
Proof.
  intros [E|[X1 X2]] P; [lra|]. right. split.
  - apply Rinv_le_contravar; assumption.
  - rewrite <- (Rinv_inv (2 ^ a)). apply Rinv_le_contravar; [apply half_pos|exact X1].
Qed.
Lemma sized_div a b x y : sized a x -> sized b y -> 0 < y -> sized (a + b) (x / y).
Proof. intros X Y P. apply sized_mult; [exact X|]. apply sized_inv; assumption. Qed.
Lemma sized_plus a x y : sized a x -> sized a y -> sized (S a) (x + y).
Proof.
  intros X Y. destruct (Req_dec (x + y) 0) as [E|E]; [left; exact E|]. right.
  pose proof (sized_nonneg _ _ X). pose proof (sized_nonneg _ _ Y). pose proof (half_pos a). pose proof (two_pos a).
  pose proof (half_le a (S a) ltac:(lia)). simpl pow in *.
  destruct X as [->|X]; destruct Y as [->|Y]; lra.
Qed.
Lemma sized_sqrt a x : sized a x -> sized a (sqrt x).
Proof.
  intros [->|[X1 X2]]; [left; apply sqrt_0|]. right.
  assert (B : 1 <= 2 ^ a) by (apply pow_R1_Rle; lra). pose proof (half_pos a).
  assert (C : / 2 ^ a <= 1). { rewrite <- Rinv_1. apply Rinv_le_contravar; [lra|exact B]. }
  split.
  - apply Rsqr_incr_0; [|left; exact H|apply sqrt_pos]. rewrite Rsqr_sqrt by lra. unfold Rsqr. nra.
  - apply Rsqr_incr_0; [|apply sqrt_pos|lra]. rewrite Rsqr_sqrt by lra. unfold Rsqr. nra.
Qed.
Lemma sized_approx n a x y : approx n x y -> sized a x -> (Z.of_nat n <= 2 ^ 50)%Z -> sized (S a) y.
Proof.
  intros A [->|[X1 X2]] L; pose proof (approx_nonneg _ _ _ A) as N; destruct A as [H0 [H1 H2]].
  - left. lra.
  - right. pose proof (factor_two n L). pose proof (un n). pose proof (half_pos a). pose proof (two_pos a).
    simpl pow. rewrite Rinv_mult. split; [|nra]. assert (x <= y * 2) by nra. lra.
Qed.

Lemma rnd_approx a x : sized a x -> (a <= 1020)%nat -> exists y, rnd x = Ok y /\ approx 1 x y.
Proof.
  intros S' L. exists (fl x).
  assert (A : approx 1 x (fl x)).
  { destruct S' as [->|[X1 X2]]; [rewrite fl0; apply approx_refl; lra|]. apply fl_approx.
    eapply Rle_trans; [apply half_le|exact X1]. lia. }
  split; [|exact A]. unfold rnd.
  pose proof (sized_approx 1 a x (fl x) A S' ltac:(lia)) as Z.
  destruct (Rlt_dec (Rabs (fl x)) (2 ^ 1024)) as [_|N]; [reflexivity|]. exfalso. apply N.
  pose proof (sized_nonneg _ _ Z). rewrite Rabs_pos_eq by assumption.
  apply Rle_lt_trans with (2 ^ S a).
  - destruct Z as [->|[_ Z]]; [left; apply two_pos|exact Z].
  - apply Rlt_pow; [lra|lia].
Qed.
(** One more rounding of a value known up to [n] roundings. *)
Lemma rnd_step n a x y : approx n x y -> sized a x -> (Z.of_nat n <= 2 ^ 50)%Z -> (a <= 1000)%nat ->
  exists z, rnd y = Ok z /\ approx (S n) x z.
Proof.
  intros A S' L M. destruct (rnd_approx (S a) y (sized_approx n a x y A S' L) ltac:(lia)) as [z [E B]].
  exists z. split; [exact E|]. replace (S n) with (n + 1)%nat by lia. exact (approx_trans _ _ _ _ _ A B).
Qed.

(* ---- doubles ---- *)
Lemma powerRZ_bpow e : powerRZ 2 e = bpow radix2 e.
Proof. rewrite bpow_powerRZ. reflexivity. Qed.

Lemma double_format x : double x -> generic_format radix2 (FLT_exp (-1074) 53) x.
Proof.
  intros [m [e [M [E ->]]]]. apply generic_format_FLT. exists (Float radix2 m e).
  - unfold F2R; simpl. rewrite powerRZ_bpow. reflexivity.
  - simpl. change (Z.pow_pos 2 53) with (2 ^ 53)%Z. exact M.
  - simpl. lia.
Qed.

Lemma double_rounds x : double x -> fl x = x.
Proof. intros D. unfold fl. apply round_generic; [apply valid_rnd_N|]. apply double_format, D. Qed.

(** What is rounded without overflow is a double. *)
Lemma format_double x : generic_format radix2 (FLT_exp (-1074) 53) x -> Rabs x < 2 ^ 1024 -> double x.
Proof.
  intros Fx Lx. destruct (Req_EM_T x 0) as [->|N].
  { exists 0%Z, 0%Z. split; [reflexivity|]. split; [lia|ring]. }
  pose proof Fx as E. unfold generic_format, F2R in E. simpl in E.
  assert (M : (mag radix2 x <= 1024)%Z).
  { apply mag_le_bpow; [exact N|]. rewrite bpow_powerRZ. simpl (IZR radix2). 
    change (powerRZ 2 1024) with (2 ^ Pos.to_nat 1024). exact Lx. }
  exists (Ztrunc (scaled_mantissa radix2 (FLT_exp (-1074) 53) x)), (cexp radix2 (FLT_exp (-1074) 53) x).
  split; [|split].
  - apply lt_IZR. rewrite abs_IZR. rewrite <- scaled_mantissa_generic by exact Fx.
    eapply Rlt_le_trans; [apply scaled_mantissa_lt_bpow|].
    change (IZR (2 ^ 53)) with (bpow radix2 53). apply bpow_le. unfold cexp, FLT_exp. lia.
  - unfold cexp, FLT_exp. lia.
  - rewrite powerRZ_bpow. exact E.
Qed.
Lemma rnd_double x y : rnd x = Ok y -> double y.
Proof.
  unfold rnd. destruct (Rlt_dec _ _) as [L|]; [|discriminate]. intros E. injection E as <-.
  apply format_double; [|exact L]. apply generic_format_round; [apply FLT_exp_valid; reflexivity|apply valid_rnd_N].
Qed.

Lemma bpow_half a : bpow radix2 (- Z.of_nat a) = / 2 ^ a.
Proof.
  rewrite bpow_opp. f_equal. rewrite <- (IZR_Zpower radix2) by lia.
  change (Zpower radix2 (Z.of_nat a)) with (2 ^ Z.of_nat a)%Z. rewrite pow_IZR. reflexivity.
Qed.

(** A double that is not too small is a multiple of a small power of two. *)
Lemma double_multiple a x : double x -> sized a x -> (a <= 1000)%nat ->
  exists m : Z, x = IZR m * / 2 ^ (a + 52).
Proof.
  intros D [->|[X _]] L; [exists 0%Z; ring|]. apply double_format in D. unfold generic_format, F2R in D. simpl in D.
  set (m := Ztrunc (scaled_mantissa radix2 (FLT_exp (-1074) 53) x)) in D.
  assert (C : (- Z.of_nat (a + 52) <= cexp radix2 (FLT_exp (-1074) 53) x)%Z).
  { unfold cexp, FLT_exp. assert (G : (- Z.of_nat a + 1 <= mag radix2 x)%Z); [|lia].
    apply mag_ge_bpow. rewrite Rabs_pos_eq.
    - replace (- Z.of_nat a + 1 - 1)%Z with (- Z.of_nat a)%Z by lia. rewrite bpow_half. exact X.
    - pose proof (half_pos a). lra. }
  set (e := cexp radix2 (FLT_exp (-1074) 53) x) in *.
  exists (m * 2 ^ (e + Z.of_nat (a + 52)))%Z. rewrite mult_IZR. rewrite D at 1.
  replace (IZR (2 ^ (e + Z.of_nat (a + 52)))) with (bpow radix2 (e + Z.of_nat (a + 52))).
  - rewrite Rmult_assoc. f_equal. rewrite <- bpow_half, <- bpow_plus. f_equal. lia.
  - rewrite <- (IZR_Zpower radix2) by lia. reflexivity.
Qed.

Lemma sized_minus a x y : double x -> double y -> sized a x -> sized a y -> (a <= 900)%nat -> y < x ->
  sized (a + 52) (x - y).
Proof.
  intros Dx Dy Sx Sy L Lt. right.
  destruct (double_multiple a x Dx Sx ltac:(lia)) as [m Ex]. destruct (double_multiple a y Dy Sy ltac:(lia)) as [n Ey].
  pose proof (half_pos (a + 52)) as P. pose proof (sized_nonneg _ _ Sy) as Y0.
  assert (M : (n + 1 <= m)%Z).
  { assert (n < m)%Z; [|lia]. apply lt_IZR. rewrite Ex, Ey in Lt. nra. }
  apply IZR_le in M. rewrite plus_IZR in M. split.
  - rewrite Ex, Ey. nra.
  - apply Rle_trans with x; [lra|]. destruct Sx as [->|[_ X]]; [left; apply two_pos|].
    eapply Rle_trans; [exact X|apply two_le; lia].
Qed.

Lemma sized_ordinary x : ordinary x -> sized 100 x.
Proof. exact (fun H => H). Qed.

(* ---- roots ---- *)
Lemma good_root_approx root x : good_root root -> double x -> 0 <= x -> approx 3 (sqrt x) (root x).
Proof.
  intros G D H. pose proof u_pos as U. pose proof u_small as S'.
  assert (U2 : u <= / 1024). { eapply Rle_trans; [exact S'|]. replace (/ 1024) with (/ 2 ^ 10) by (simpl; lra). apply half_le. lia. }
  assert (E : / 2 ^ 52 = 2 * u). { unfold u. replace (2 ^ 53) with (2 * 2 ^ 52) by (simpl; ring). field. }
  pose proof (G x D H) as W. rewrite E in W.
  apply within_approx with (2 * u); [apply sqrt_pos|exact W|lra| |]; simpl; nra.
Qed.
Lemma four_thirds_approx : approx 1 (4 / 3) four_thirds.
Proof.
  unfold four_thirds. apply fl_approx. apply Rle_trans with 1; [|lra].
  rewrite <- (Rinv_1). apply Rinv_le_contravar; [lra|]. apply pow_R1_Rle. lra.
Qed.
Lemma four_thirds_double : double four_thirds.
Proof.
  apply format_double; [apply generic_format_round; [apply FLT_exp_valid; reflexivity|apply valid_rnd_N]|].
  pose proof four_thirds_approx as [_ [_ A]]. pose proof (factor_two 1 ltac:(lia)) as T.
  assert (0 <= four_thirds) by exact (approx_nonneg _ _ _ four_thirds_approx).
  rewrite Rabs_pos_eq by assumption. apply Rle_lt_trans with (2 ^ 2); [lra|]. apply Rlt_pow; [lra|lia].
Qed.
Lemma sized_43 : sized 1 (4 / 3). Proof. right. simpl. lra. Qed.

(* ---- velocities of moduli known up to [a] roundings ---- *)
Section Velocities.
Variable root : R -> R.
Hypothesis G : good_root root.
Variables (a : nat) (k k' mu mu' d d' : R).
Hypothesis La : (Z.of_nat a <= 2 ^ 40)%Z.
Hypothesis Ak : approx a k k'.
Hypothesis Am : approx a mu mu'.
Hypothesis Ad : approx a d d'.
Hypothesis Zk : sized 470 k.
Hypothesis Zm : sized 470 mu.
Hypothesis Zd : sized 470 d.
Hypothesis Pd : 0 < d.

Lemma f_primary_close : exists p, f_primary_velocity root k' mu' d' = Ok p /\ approx (a + 5) (sqrt ((k + 4 / 3 * mu) / d)) p.
Proof.
  pose proof (approx_mult _ _ _ _ _ _ four_thirds_approx Am) as A1.
  destruct (rnd_step _ (1 + 470) _ _ A1 (sized_mult _ _ _ _ sized_43 Zm) ltac:(lia) ltac:(lia)) as [c [E1 B1]].
  assert (Ak2 : approx (S (1 + a)) k k') by (eapply approx_weaken; [|exact Ak]; lia).
  pose proof (approx_plus _ _ _ _ _ Ak2 B1) as A2.
  assert (Z2 : sized 472 (k + 4 / 3 * mu)).
  { apply sized_plus; [apply (sized_weaken 470); [lia|exact Zk]|]. exact (sized_mult _ _ _ _ sized_43 Zm). }
  destruct (rnd_step _ _ _ _ A2 Z2 ltac:(lia) ltac:(lia)) as [b [E2 B2]].
  pose proof (approx_div _ _ _ _ _ _ B2 Ad Pd) as A3.
  pose proof (sized_div _ _ _ _ Z2 Zd Pd) as Z3.
  destruct (rnd_step _ _ _ _ A3 Z3 ltac:(lia) ltac:(lia)) as [q [E3 B3]].
  assert (P' : d' <> 0) by (pose proof (approx_pos _ _ _ Ad Pd); lra).
  pose proof (approx_nonneg _ _ _ B3) as Nq.
  exists (root q). unfold f_primary_velocity. rewrite E1. simpl bind. rewrite E2. simpl bind.
  unfold f_np_div. destruct (Req_EM_T d' 0) as [X|_]; [contradiction|]. rewrite E3. simpl bind.
  unfold f_root. destruct (Rlt_dec q 0) as [X|_]; [lra|]. split; [reflexivity|].
  replace (a + 5)%nat with ((a + 2) + 3)%nat by lia. apply approx_trans with (sqrt q).
  - apply approx_sqrt. eapply approx_weaken; [|exact B3]. lia.
  - apply good_root_approx; [exact G|exact (rnd_double _ _ E3)|exact Nq].
Qed.

Lemma f_secondary_close : exists s, f_secondary_velocity root mu' d' = Ok s /\ approx (a + 4) (sqrt (mu / d)) s.
Proof.
  pose proof (approx_div _ _ _ _ _ _ Am Ad Pd) as A3.
  pose proof (sized_div _ _ _ _ Zm Zd Pd) as Z3.
  destruct (rnd_step _ _ _ _ A3 Z3 ltac:(lia) ltac:(lia)) as [q [E3 B3]].
  assert (P' : d' <> 0) by (pose proof (approx_pos _ _ _ Ad Pd); lra).
  pose proof (approx_nonneg _ _ _ B3) as Nq.
  exists (root q). unfold f_secondary_velocity, f_np_div. destruct (Req_EM_T d' 0) as [X|_]; [contradiction|].
  rewrite E3. simpl bind. unfold f_root. destruct (Rlt_dec q 0) as [X|_]; [lra|]. split; [reflexivity|].
  replace (a + 4)%nat with ((a + 1) + 3)%nat by lia. apply approx_trans with (sqrt q).
  - apply approx_sqrt. eapply approx_weaken; [|exact B3]. lia.
  - apply good_root_approx; [exact G|exact (rnd_double _ _ E3)|exact Nq].
Qed.

Lemma f_guards_ok p s : approx (a + 5) (sqrt ((k + 4 / 3 * mu) / d)) p -> approx (a + 4) (sqrt (mu / d)) s ->
  4 / 3 * mu * ((1 + u) ^ (4 * a + 28) - 1) <= k ->
  f_guards root k' mu' d' p s = Ok (mkMat k' mu' d' p s).
Proof.
  intros Ap As Hk. unfold f_guards.
  pose proof (approx_nonneg _ _ _ Ak). pose proof (approx_nonneg _ _ _ Am). pose proof (approx_nonneg _ _ _ Ad).
  pose proof (approx_nonneg _ _ _ Ap) as Np. pose proof (approx_nonneg _ _ _ As).
  destruct (Rlt_dec d' 0); [lra|]. destruct (Rlt_dec k' 0); [lra|]. destruct (Rlt_dec mu' 0); [lra|].
  destruct (Rlt_dec p 0); [lra|]. destruct (Rlt_dec s 0); [lra|].
  assert (A0 : approx 4 (sqrt (4 / 3)) (root four_thirds)).
  { apply (approx_trans 1 3 _ (sqrt four_thirds)).
    - apply approx_sqrt. eapply approx_weaken; [|exact four_thirds_approx]. lia.
    - apply good_root_approx; [exact G|exact four_thirds_double|]. exact (approx_nonneg _ _ _ four_thirds_approx). }
  pose proof (approx_mult _ _ _ _ _ _ A0 As) as A1.
  assert (Z1 : sized (1 + 940) (sqrt (4 / 3) * sqrt (mu / d))).
  { apply sized_mult; [apply sized_sqrt, sized_43|]. apply sized_sqrt. exact (sized_div _ _ _ _ Zm Zd Pd). }
  destruct (rnd_step _ _ _ _ A1 Z1 ltac:(lia) ltac:(lia)) as [l [E1 B1]]. rewrite E1. simpl bind.
  destruct (Rlt_dec p l) as [Lt|_]; [exfalso|reflexivity].
  destruct B1 as [_ [_ B1]]. destruct Ap as [Q0 [Ap _]].
  rewrite <- sqrt_mult_alt in B1 by lra.
  set (X := 4 / 3 * (mu / d)) in *.
  set (F := (1 + u) ^ (2 * a + 14)).
  assert (EF : F = (1 + u) ^ S (4 + (a + 4)) * (1 + u) ^ (a + 5)) by (unfold F; rewrite <- pow_add; f_equal; lia).
  assert (Hlt : sqrt ((k + 4 / 3 * mu) / d) < sqrt X * F).
  { pose proof (un0 (a + 5)). apply Rle_lt_trans with (p * (1 + u) ^ (a + 5)); [exact Ap|].
    apply Rlt_le_trans with (l * (1 + u) ^ (a + 5)); [apply Rmult_lt_compat_r; lra|].
    rewrite EF, <- Rmult_assoc. apply Rmult_le_compat_r; [lra|exact B1]. }
  assert (F0 : 0 < F) by apply un0.
  assert (FF : F * F = (1 + u) ^ (4 * a + 28)) by (unfold F; rewrite <- pow_add; f_equal; lia).
  assert (X0 : 0 <= X).
  { unfold X. apply Rmult_le_pos; [lra|]. apply Rmult_le_pos; [destruct Am; assumption|]. left. apply Rinv_0_lt_compat, Pd. }
  assert (V : sqrt ((k + 4 / 3 * mu) / d) ^ 2 < (sqrt X * F) ^ 2).
  { simpl. rewrite !Rmult_1_r. apply Rmult_le_0_lt_compat; try assumption; apply sqrt_pos. }
  assert (W0 : 0 <= (k + 4 / 3 * mu) / d).
  { apply Rmult_le_pos; [destruct Ak; destruct Am; nra|]. left. apply Rinv_0_lt_compat, Pd. }
  replace ((sqrt X * F) ^ 2) with (sqrt X * sqrt X * (F * F)) in V by ring.
  replace (sqrt ((k + 4 / 3 * mu) / d) ^ 2) with (sqrt ((k + 4 / 3 * mu) / d) * sqrt ((k + 4 / 3 * mu) / d)) in V by ring.
  rewrite !sqrt_sqrt in V by assumption. rewrite FF in V. unfold X in V.
  apply (Rmult_lt_compat_r d) in V; [|exact Pd].
  replace ((k + 4 / 3 * mu) / d * d) with (k + 4 / 3 * mu) in V by (field; lra).
  replace (4 / 3 * (mu / d) * (1 + u) ^ (4 * a + 28) * d) with (4 / 3 * mu * (1 + u) ^ (4 * a + 28)) in V by (field; lra).
  lra.
Qed.

Lemma f_moduli_close : 4 / 3 * mu * ((1 + u) ^ (4 * a + 28) - 1) <= k ->
  exists p s, f_mat_of_moduli root k' mu' d' = Ok (mkMat k' mu' d' p s) /\
    approx (a + 5) (sqrt ((k + 4 / 3 * mu) / d)) p /\ approx (a + 4) (sqrt (mu / d)) s.
Proof.
  intros Hk. destruct f_primary_close as [p [E1 A1]]. destruct f_secondary_close as [s [E2 A2]].
  exists p, s. split; [|split; assumption]. unfold f_mat_of_moduli. rewrite E1. simpl bind. rewrite E2. simpl bind.
  apply f_guards_ok; assumption.
Qed.
End Velocities.

(* ---- Gassmann's equation ---- *)
Lemma sized_share a f : sized a f -> sized (S a) (f / (1 + f)).
Proof.
  intros [->|[L H]]; [left; lra|right]. pose proof (half_pos a) as P. pose proof (half_pos (S a)) as P'.
  assert (E : / 2 ^ a = 2 * / 2 ^ S a) by (simpl; field; apply pow_nonzero; lra).
  assert (One : / 2 ^ a <= 1). { rewrite <- Rinv_1. apply Rinv_le_contravar; [lra|]. apply pow_R1_Rle. lra. }
  split.
  - apply Rmult_le_reg_r with (1 + f); [lra|]. replace (f / (1 + f) * (1 + f)) with f by (field; lra). nra.
  - apply Rle_trans with 1; [|apply pow_R1_Rle; lra]. apply Rmult_le_reg_r with (1 + f); [lra|].
    replace (f / (1 + f) * (1 + f)) with f by (field; lra). lra.
Qed.
Lemma rnd_fl y z : rnd y = Ok z -> z = fl y.
Proof. unfold rnd. destruct (Rlt_dec _ _); [intros E; injection E as <-; reflexivity|discriminate]. Qed.
Lemma rnd_rounds y z : rnd y = Ok z -> fl z = z.
Proof.
  intros E. rewrite (rnd_fl _ _ E). unfold fl. apply round_generic; [apply valid_rnd_N|].
  apply generic_format_round; [apply FLT_exp_valid; reflexivity|apply valid_rnd_N].
Qed.
Lemma rnd_above y z x : rnd y = Ok z -> fl x = x -> x <= y -> x <= z.
Proof. intros E F L. rewrite (rnd_fl _ _ E), <- F. apply fl_le, L. Qed.
Lemma rnd_below y z x : rnd y = Ok z -> fl x = x -> y <= x -> z <= x.
Proof. intros E F L. rewrite (rnd_fl _ _ E). rewrite <- F. apply fl_le, L. Qed.

Lemma sized_1 a : sized a 1.
Proof. right. split; [rewrite <- Rinv_1; apply Rinv_le_contravar; [lra|]|]; apply pow_R1_Rle; lra. Qed.

Section Gassmann.
Variables kdry kmin kf phi : R.
Hypothesis (Dd : double kdry) (Dm : double kmin) (Df : double kf).
Hypothesis (Od : ordinary kdry) (Om : ordinary kmin) (Of : ordinary kf) (Op : ordinary phi).
Hypothesis (Ld : kdry < kmin) (Lf : kf < kmin) (Pp : 0 < phi).
Let F := kdry / (kmin - kdry) + kf / ((kmin - kf) * phi).

Lemma f_gassman_factor_sized : sized 353 F.
Proof.
  apply sized_plus.
  - eapply sized_weaken; [|apply (sized_div _ _ _ _ Od (sized_minus _ _ _ Dm Dd Om Od ltac:(lia) Ld)); lra]. lia.
  - apply (sized_div _ _ _ _ Of (sized_mult _ _ _ _ (sized_minus _ _ _ Dm Df Om Of ltac:(lia) Lf) Op)). nra.
Qed.
Lemma f_gassman_sized : sized 454 (F / (1 + F) * kmin).
Proof. exact (sized_mult _ _ _ _ (sized_share _ _ f_gassman_factor_sized) Om). Qed.

Lemma f_gassman_close : exists k', f_gassman_equation kdry kmin kf phi = Ok k' /\
  approx 11 (F / (1 + F) * kmin) k' /\ 0 <= k' <= kmin.
Proof.
  pose proof (sized_nonneg _ _ Om) as Nm. pose proof (sized_nonneg _ _ Od) as Nd. pose proof (sized_nonneg _ _ Of) as Nf.
  pose proof (sized_minus _ _ _ Dm Dd Om Od ltac:(lia) Ld) as Zx. pose proof (sized_minus _ _ _ Dm Df Om Of ltac:(lia) Lf) as Zy.
  unfold f_gassman_equation. destruct (Req_EM_T phi 0); [lra|]. destruct (Req_EM_T kdry kmin); [lra|].
  destruct (rnd_step 0 _ _ _ (approx_refl _ _ (sized_nonneg _ _ Zx)) Zx ltac:(lia) ltac:(lia)) as [x [Ex Ax]].
  rewrite Ex. simpl bind. assert (Px : 0 < x) by (eapply approx_pos; [exact Ax|lra]).
  unfold f_py_div. destruct (Req_EM_T x 0); [lra|].
  pose proof (approx_div 0 _ _ _ _ _ (approx_refl _ _ Nd) Ax ltac:(lra)) as Aa.
  pose proof (sized_div _ _ _ _ Od Zx ltac:(lra)) as Za.
  destruct (rnd_step _ _ _ _ Aa Za ltac:(lia) ltac:(lia)) as [a [Ea Ba]]. rewrite Ea. simpl bind.
  destruct (rnd_step 0 _ _ _ (approx_refl _ _ (sized_nonneg _ _ Zy)) Zy ltac:(lia) ltac:(lia)) as [y [Ey Ay]].
  rewrite Ey. simpl bind.
  pose proof (sized_mult _ _ _ _ Zy Op) as Zz.
  pose proof (approx_mult _ 0 _ _ _ _ Ay (approx_refl _ _ (sized_nonneg _ _ Op))) as Az.
  destruct (rnd_step _ _ _ _ Az Zz ltac:(lia) ltac:(lia)) as [z [Ez Bz]]. rewrite Ez. simpl bind.
  assert (Pz0 : 0 < (kmin - kf) * phi) by nra.
  assert (Pz : 0 < z) by (eapply approx_pos; [exact Bz|exact Pz0]).
  destruct (Req_EM_T z 0); [lra|].
  pose proof (approx_div 0 _ _ _ _ _ (approx_refl _ _ Nf) Bz Pz0) as Ab.
  pose proof (sized_div _ _ _ _ Of Zz Pz0) as Zb.
  destruct (rnd_step _ _ _ _ Ab Zb ltac:(lia) ltac:(lia)) as [b [Eb Bb]]. rewrite Eb. simpl bind.
  assert (Af : approx 3 F (a + b)) by (apply approx_plus; (eapply approx_weaken; [|eassumption]); lia).
  pose proof f_gassman_factor_sized as ZF.
  destruct (rnd_step _ _ _ _ Af ZF ltac:(lia) ltac:(lia)) as [f [Ef Bf]]. rewrite Ef. simpl bind.
  pose proof (approx_nonneg _ _ _ Bf) as F0. destruct (Rlt_dec f 0); [lra|].
  assert (At : approx 4 (1 + F) (1 + f)) by (apply approx_plus; [apply approx_refl; lra|exact Bf]).
  assert (Zt : sized 354 (1 + F)) by (apply sized_plus; [apply sized_1|exact ZF]).
  destruct (rnd_step _ _ _ _ At Zt ltac:(lia) ltac:(lia)) as [t [Et Bt]]. rewrite Et. simpl bind.
  pose proof (sized_nonneg _ _ ZF) as NF.
  assert (Pt : 0 < t) by (eapply approx_pos; [exact Bt|lra]). destruct (Req_EM_T t 0); [lra|].
  pose proof (approx_div _ _ _ _ _ _ Bf Bt ltac:(lra)) as Aq.
  destruct (rnd_step _ _ _ _ Aq (sized_share _ _ ZF) ltac:(lia) ltac:(lia)) as [q [Eq Bq]]. rewrite Eq. simpl bind.
  pose proof (approx_mult _ 0 _ _ _ _ Bq (approx_refl _ _ Nm)) as Ak.
  destruct (rnd_step _ _ _ _ Ak f_gassman_sized ltac:(lia) ltac:(lia)) as [k' [Ek Bk]]. exists k'.
  split; [exact Ek|]. split; [eapply approx_weaken; [|exact Bk]; lia|]. split; [exact (approx_nonneg _ _ _ Bk)|].
  assert (Ft : f <= t) by (apply (rnd_above _ _ _ Et); [exact (rnd_rounds _ _ Ef)|lra]).
  assert (Q1 : q <= 1).
  { apply (rnd_below _ _ _ Eq fl1). apply Rmult_le_reg_r with t; [exact Pt|].
    replace (f / t * t) with f by (field; lra). lra. }
  apply (rnd_below _ _ _ Ek (double_rounds _ Dm)). nra.
Qed.

Lemma f_gassman_exact_between : 0 <= F /\ kdry <= F / (1 + F) * kmin <= kmin.
Proof.
  pose proof (sized_nonneg _ _ Om) as Nm. pose proof (sized_nonneg _ _ Od) as Nd. pose proof (sized_nonneg _ _ Of) as Nf.
  assert (A : 0 <= kf / ((kmin - kf) * phi)).
  { apply Rmult_le_pos; [exact Nf|]. left. apply Rinv_0_lt_compat. nra. }
  assert (B : 0 <= kdry / (kmin - kdry)).
  { apply Rmult_le_pos; [exact Nd|]. left. apply Rinv_0_lt_compat. lra. }
  assert (FF : kdry / (kmin - kdry) <= F) by (unfold F; lra). assert (F0 : 0 <= F) by lra. split; [exact F0|].
  apply (Rmult_le_compat_r (kmin - kdry)) in FF; [|lra].
  replace (kdry / (kmin - kdry) * (kmin - kdry)) with kdry in FF by (field; lra).
  split; apply Rmult_le_reg_r with (1 + F); try lra; replace (F / (1 + F) * kmin * (1 + F)) with (F * kmin) by (field; lra); nra.
Qed.
End Gassmann.

(* ---- a correctly rounded root ---- *)
Definition fl_sqrt (x : R) : R := fl (sqrt x).
Lemma double_min x : double x -> 0 < x -> / 2 ^ 1074 <= x.
Proof.
  intros [m [e [M [E ->]]]] P.
  assert (Q : 0 < powerRZ 2 e) by (apply powerRZ_lt; lra).
  assert (M1 : (1 <= m)%Z). { assert (0 < m)%Z; [|lia]. apply lt_IZR. nra. }
  apply IZR_le in M1. apply Rle_trans with (powerRZ 2 e); [|nra].
  rewrite powerRZ_bpow. rewrite <- bpow_half. apply bpow_le. lia.
Qed.
Lemma fl_sqrt_good : good_root fl_sqrt.
Proof.
  intros x D P. unfold fl_sqrt. destruct P as [P|<-].
  - apply approx_within with 1%nat.
    + apply fl_approx. pose proof (double_min _ D P) as M.
      apply Rle_trans with (/ 2 ^ 537); [apply half_le; lia|].
      replace (/ 2 ^ 537) with (sqrt (/ 2 ^ 1074)); [apply sqrt_le_1_alt, M|].
      replace (/ 2 ^ 1074) with (/ 2 ^ 537 * / 2 ^ 537).
      * apply sqrt_square. left. apply half_pos.
      * rewrite <- Rinv_mult. f_equal. rewrite <- pow_add. f_equal.
    + rewrite pow_1. unfold u. apply Rplus_le_compat_l. apply half_le. lia.
  - rewrite sqrt_0. change (fl 0) with (fl 0). rewrite fl0. unfold within. rewrite !Rminus_0_r, Rabs_R0. lra.
Qed.

(* ---- repacking: moduli recomputed from the velocities ---- *)
Lemma within_abs n x y : approx n x y -> (Z.of_nat n <= 2 ^ 50)%Z -> Rabs (y - x) <= 2 * INR n * u * x.
Proof.
  intros A L. pose proof (approx_within n (2 * INR n * u) x y A) as W. unfold within in W.
  rewrite (Rabs_pos_eq x) in W by (destruct A; assumption). apply W.
  apply factor_bound, L.
Qed.

Section Repack.
Variable root : R -> R.
Hypothesis G : good_root root.
Variables (k mu d : R).
Hypothesis Zk : sized 200 k.
Hypothesis Zm : sized 200 mu.
Hypothesis Zd : sized 200 d.
Hypothesis Pd : 0 < d.
Hypothesis Hk : 4 / 3 * mu * ((1 + u) ^ 28 - 1) <= k.

Lemma f_repack_close : exists p s k2 mu2,
  f_mat_of_moduli root k mu d = Ok (mkMat k mu d p s) /\
  f_repack root (mkMat k mu d p s) = Ok (mkMat k2 mu2 d p s) /\
  approx 10 mu mu2 /\ Rabs (k2 - k) <= 100 * u * (k + 4 / 3 * mu).
Proof.
  pose proof (sized_nonneg _ _ Zk) as Nk. pose proof (sized_nonneg _ _ Zm) as Nm.
  assert (Wk : sized 470 k) by (apply (sized_weaken 200); [lia|exact Zk]).
  assert (Wm : sized 470 mu) by (apply (sized_weaken 200); [lia|exact Zm]).
  assert (Wd : sized 470 d) by (apply (sized_weaken 200); [lia|exact Zd]).
  destruct (f_moduli_close root G 0 k k mu mu d d ltac:(lia) (approx_refl _ _ Nk) (approx_refl _ _ Nm)
    (approx_refl _ _ (Rlt_le _ _ Pd)) Wk Wm Wd Pd Hk) as [p [s [E [Ap As]]]]. cbn [Nat.add] in Ap, As.
  exists p, s.
  (* shear modulus *)
  assert (Nq : 0 <= mu / d) by (apply Rmult_le_pos; [exact Nm|left; apply Rinv_0_lt_compat, Pd]).
  pose proof (approx_mult _ _ _ _ _ _ As As) as A1. rewrite sqrt_sqrt in A1 by exact Nq.
  pose proof (sized_div _ _ _ _ Zm Zd Pd) as Z1.
  destruct (rnd_step _ _ _ _ A1 Z1 ltac:(lia) ltac:(lia)) as [x1 [E1 B1]].
  pose proof (approx_mult _ 0 _ _ _ _ B1 (approx_refl _ _ (Rlt_le _ _ Pd))) as A2.
  replace (mu / d * d) with mu in A2 by (field; lra).
  destruct (rnd_step _ _ _ _ A2 Zm ltac:(lia) ltac:(lia)) as [mu2 [E2 B2]].
  (* bulk modulus *)
  assert (ZM : sized 202 (k + 4 / 3 * mu)).
  { apply sized_plus; [apply (sized_weaken 200); [lia|exact Zk]|]. exact (sized_mult _ _ _ _ sized_43 Zm). }
  assert (NM : 0 <= (k + 4 / 3 * mu) / d) by (apply Rmult_le_pos; [lra|left; apply Rinv_0_lt_compat, Pd]).
  pose proof (approx_mult _ _ _ _ _ _ Ap Ap) as A3. rewrite sqrt_sqrt in A3 by exact NM.
  destruct (rnd_step _ _ _ _ A3 (sized_div _ _ _ _ ZM Zd Pd) ltac:(lia) ltac:(lia)) as [x2 [E3 B3]].
  pose proof (approx_mult _ 0 _ _ _ _ B3 (approx_refl _ _ (Rlt_le _ _ Pd))) as A4.
  replace ((k + 4 / 3 * mu) / d * d) with (k + 4 / 3 * mu) in A4 by (field; lra).
  destruct (rnd_step _ _ _ _ A4 ZM ltac:(lia) ltac:(lia)) as [b [E4 B4]].
  pose proof (approx_mult _ _ _ _ _ _ four_thirds_approx B2) as A5.
  pose proof (sized_mult _ _ _ _ sized_43 Zm) as Z5.
  destruct (rnd_step _ _ _ _ A5 Z5 ltac:(lia) ltac:(lia)) as [c [E5 B5]].
  cbn [Nat.add] in B2, B4, B5.
  pose proof (within_abs _ _ _ B4 ltac:(lia)) as W4. pose proof (within_abs _ _ _ B5 ltac:(lia)) as W5.
  simpl (INR 12) in W4, W5.
  assert (Lc : c <= b).
  { destruct B4 as [_ [B4 _]]. destruct B5 as [_ [_ B5]].
    apply Rmult_le_reg_r with ((1 + u) ^ 12); [apply un0|].
    apply Rle_trans with (4 / 3 * mu * (1 + u) ^ 24).
    - replace 24%nat with (12 + 12)%nat by reflexivity. rewrite pow_add. rewrite <- Rmult_assoc.
      apply Rmult_le_compat_r; [left; apply un0|]. exact B5.
    - eapply Rle_trans; [|exact B4].
      assert ((1 + u) ^ 24 <= (1 + u) ^ 28) by (apply Rle_pow; [apply u1|lia]). nra. }
  assert (ZD : sized 260 (b - c)).
  { destruct Lc as [Lc| ->]; [|left; lra].
    assert (Zb : sized 203 b) by (eapply sized_approx; [exact B4|exact ZM|lia]).
    assert (Zc : sized 203 c) by (apply (sized_weaken 202); [lia|]; eapply sized_approx; [exact B5|exact Z5|lia]).
    eapply sized_weaken; [|exact (sized_minus _ _ _ (rnd_double _ _ E4) (rnd_double _ _ E5) Zb Zc ltac:(lia) Lc)]. lia. }
  destruct (rnd_step 0 _ _ _ (approx_refl _ _ (sized_nonneg _ _ ZD)) ZD ltac:(lia) ltac:(lia)) as [k2 [E6 B6]].
  pose proof (within_abs _ _ _ B6 ltac:(lia)) as W6. simpl (INR 1) in W6.
  exists k2, mu2. split; [exact E|]. split; [|split].
  - unfold f_repack, f_mat_of_velocities, f_shear_modulus, f_bulk_modulus. cbn [dens vp vs].
    rewrite E1. simpl bind. rewrite E2. simpl bind. rewrite E3. simpl bind. rewrite E4. simpl bind. rewrite E5. simpl bind.
    rewrite E6. simpl bind.
    (* the guards: the velocities are the same as before *)
    unfold f_mat_of_moduli in E. destruct (f_primary_velocity root k mu d) as [p0|]; [|discriminate]. simpl bind in E.
    destruct (f_secondary_velocity root mu d) as [s0|]; [|discriminate]. simpl bind in E.
    unfold f_guards in E |- *.
    pose proof (approx_nonneg _ _ _ B6). pose proof (approx_nonneg _ _ _ B2).
    destruct (Rlt_dec d 0); [lra|]. destruct (Rlt_dec k 0); [lra|]. destruct (Rlt_dec mu 0); [lra|].
    destruct (Rlt_dec k2 0); [lra|]. destruct (Rlt_dec mu2 0); [lra|].
    destruct (Rlt_dec p0 0); [discriminate|]. destruct (Rlt_dec s0 0); [discriminate|].
    destruct (rnd (root four_thirds * s0)) as [l|] eqn:El; [|discriminate]. simpl bind in E.
    destruct (Rlt_dec p0 l); [discriminate|]. injection E as -> ->.
    destruct (Rlt_dec p 0); [contradiction|]. destruct (Rlt_dec s 0); [contradiction|].
    rewrite El. simpl bind. destruct (Rlt_dec p l); [contradiction|reflexivity].
  - exact B2.
  - pose proof u_pos as U. pose proof u_small as U5.
    assert (U2 : u <= / 1024). { eapply Rle_trans; [exact U5|]. replace (/ 1024) with (/ 2 ^ 10) by (simpl; lra). apply half_le. lia. }
    set (M := k + 4 / 3 * mu) in *.
    assert (M0 : 0 <= M) by (unfold M; lra). assert (M1 : 4 / 3 * mu <= M) by (unfold M; lra).
    assert (W7 : Rabs (b - c - k) <= 48 * u * M).
    { replace (b - c - k) with ((b - M) + - (c - 4 / 3 * mu)) by (unfold M; ring).
      eapply Rle_trans; [apply Rabs_triang|]. rewrite Rabs_Ropp.
      assert (2 * (12) * u * (4 / 3 * mu) <= 24 * u * M) by nra.
      replace (48 * u * M) with (24 * u * M + 24 * u * M) by ring. apply Rplus_le_compat; lra. }
    assert (W8 : b - c <= 2 * M).
    { apply Rabs_le_inv in W7. assert (48 * u * M <= M) by nra. unfold M in *. lra. }
    replace (k2 - k) with ((k2 - (b - c)) + (b - c - k)) by ring.
    eapply Rle_trans; [apply Rabs_triang|].
    assert (2 * 1 * u * (b - c) <= 4 * u * M) by nra. nra.
Qed.
End Repack.

(* ---- fluid substitution ---- *)
Section Substitution.
Variable root : R -> R.
Hypothesis G : good_root root.
Variables (dry mineral fluid : material) (phi : R).
Hypothesis (Dd : double (bulk dry)) (Dm : double (bulk mineral)) (Df : double (bulk fluid)).
Hypothesis (Od : ordinary (bulk dry)) (Om : ordinary (bulk mineral)) (Of : ordinary (bulk fluid)) (Op : ordinary phi).
Hypothesis (Os : ordinary (shear dry)) (Or : ordinary (dens dry)) (Ofr : ordinary (dens fluid)).
Hypothesis (Ld : bulk dry < bulk mineral) (Lf : bulk fluid < bulk mineral) (Pp : 0 < phi) (Pr : 0 < dens dry).
Hypothesis Hs : 4 / 3 * shear dry * ((1 + u) ^ 72 - 1) <= bulk dry.
Let F := bulk dry / (bulk mineral - bulk dry) + bulk fluid / ((bulk mineral - bulk fluid) * phi).
Let K := F / (1 + F) * bulk mineral.
Let D := dens dry + phi * dens fluid.

Lemma f_substitution_close : exists m, f_fluid_substitution root dry mineral fluid phi = Ok m /\
  approx 11 K (bulk m) /\ bulk m <= bulk mineral /\ shear m = shear dry /\ approx 2 D (dens m) /\
  approx 16 (sqrt ((K + 4 / 3 * shear dry) / D)) (vp m) /\ approx 15 (sqrt (shear dry / D)) (vs m).
Proof.
  destruct (f_gassman_close _ _ _ _ Dd Dm Df Od Om Of Op Ld Lf Pp) as [k' [Ek [Ak [_ Lk]]]].
  pose proof (f_gassman_sized _ _ _ _ Dd Dm Df Od Om Of Op Ld Lf Pp) as Zk.
  destruct (f_gassman_exact_between _ _ _ _ Od Om Of Ld Lf Pp) as [_ [Kd _]].
  fold F in Ak, Zk, Kd. fold K in Ak, Zk, Kd.
  pose proof (sized_nonneg _ _ Op) as Np. pose proof (sized_nonneg _ _ Ofr) as Nf. pose proof (sized_nonneg _ _ Os) as Ns.
  pose proof (sized_mult _ _ _ _ Op Ofr) as Z1.
  destruct (rnd_step 0 _ _ _ (approx_refl _ _ (sized_nonneg _ _ Z1)) Z1 ltac:(lia) ltac:(lia)) as [x [E1 A1]].
  assert (A2 : approx 1 D (dens dry + x)) by (apply approx_plus; [apply approx_refl; lra|exact A1]).
  assert (Z2 : sized 201 D) by (apply sized_plus; [apply (sized_weaken 100); [lia|exact Or]|exact Z1]).
  destruct (rnd_step _ _ _ _ A2 Z2 ltac:(lia) ltac:(lia)) as [d' [E2 B2]].
  assert (PD : 0 < D) by (unfold D; nra).
  destruct (f_moduli_close root G 11 K k' (shear dry) (shear dry) D d') as [p [s [E3 [Ap As]]]].
  - lia.
  - exact Ak.
  - apply approx_refl, Ns.
  - eapply approx_weaken; [|exact B2]. lia.
  - eapply sized_weaken; [|exact Zk]. lia.
  - apply (sized_weaken 100); [lia|exact Os].
  - eapply sized_weaken; [|exact Z2]. lia.
  - exact PD.
  - eapply Rle_trans; [exact Hs|exact Kd].
  - exists (mkMat k' (shear dry) d' p s). cbn [bulk shear dens vp vs]. unfold f_fluid_substitution.
    rewrite Ek. simpl bind. rewrite E1. simpl bind. rewrite E2. simpl bind.
    repeat split; try assumption; try (destruct Ak as [? [? ?]]; assumption);
      try (destruct B2 as [? [? ?]]; assumption); try (destruct Ap as [? [? ?]]; assumption);
      try (destruct As as [? [? ?]]; assumption).
Qed.
End Substitution.

(* ---- sums ---- *)
Definition psum (b j : nat) (x : R) : Prop := x = 0 \/ / 2 ^ b <= x <= INR j * 2 ^ b.
Lemma psum_step b j x y : psum b j x -> sized b y -> psum b (S j) (x + y).
Proof.
  intros X Y. pose proof (two_pos b) as T. pose proof (half_pos b) as H. pose proof (pos_INR j) as J. unfold psum. rewrite S_INR.
  destruct X as [->|[X1 X2]]; destruct Y as [->|[Y1 Y2]]; [left; ring|right|right|right]; nra.
Qed.
Lemma psum_sized b j x : psum b j x -> (Z.of_nat j <= 2 ^ 40)%Z -> sized (b + 40) x.
Proof.
  intros [->|[L H]] J; [left; reflexivity|right]. split.
  - eapply Rle_trans; [apply half_le|exact L]. lia.
  - eapply Rle_trans; [exact H|]. rewrite pow_add, Rmult_comm. apply Rmult_le_compat_l; [left; apply two_pos|].
    rewrite INR_IZR_INZ. apply IZR_le in J. rewrite pow_IZR. exact J.
Qed.

Lemma f_sum_from_close a b : forall l l' acc acc' n j, Forall2 (approx a) l l' -> Forall (sized b) l ->
  approx (a + n) acc acc' -> psum b j acc -> (Z.of_nat (j + length l) <= 2 ^ 40)%Z ->
  (Z.of_nat (a + n + length l) <= 2 ^ 50)%Z -> (b <= 900)%nat ->
  exists t, f_sum_from acc' l' = Ok t /\ approx (a + (n + length l)) (acc + rsum l) t.
Proof.
  induction l as [|x l IH]; intros l' acc acc' n j Al Zl Aa Pj Lj Ln Lb; inversion Al as [|? x' ? l2 Ax Al' E0 E1]; subst.
  - exists acc'. split; [reflexivity|]. simpl. rewrite Nat.add_0_r, Rplus_0_r. exact Aa.
  - inversion Zl as [|? ? Zx Zl']; subst. cbn [List.length] in Lj, Ln.
    assert (A1 : approx (a + n) (acc + x) (acc' + x')) by (apply approx_plus; [exact Aa|eapply approx_weaken; [|exact Ax]; lia]).
    pose proof (psum_step _ _ _ _ Pj Zx) as P1.
    destruct (rnd_step _ _ _ _ A1 (psum_sized _ _ _ P1 ltac:(lia)) ltac:(lia) ltac:(lia)) as [z [Ez Az]].
    destruct (IH l2 (acc + x) z (S n) (S j) Al' Zl') as [t [Et At]]; try lia; [|exact P1|].
    + replace (a + S n)%nat with (S (a + n)) by lia. exact Az.
    + exists t. cbn [f_sum_from]. rewrite Ez. simpl bind. split; [exact Et|].
      cbn [List.length rsum]. replace (a + (n + S (length l)))%nat with (a + (S n + length l))%nat by lia.
      rewrite <- Rplus_assoc. exact At.
Qed.
Lemma f_sum_close a b l l' : Forall2 (approx a) l l' -> Forall (sized b) l ->
  (Z.of_nat (length l) <= 2 ^ 40)%Z -> (Z.of_nat a <= 2 ^ 45)%Z -> (b <= 900)%nat ->
  exists t, f_sum l' = Ok t /\ approx (a + length l) (rsum l) t /\ sized (b + 40) (rsum l).
Proof.
  intros Al Zl L1 L2 L3.
  destruct (f_sum_from_close a b l l' 0 0 0 0 Al Zl) as [t [E A]]; try lia.
  - apply approx_refl. lra.
  - left. reflexivity.
  - exists t. split; [exact E|]. rewrite Rplus_0_l in A. simpl in A. split; [exact A|].
    clear - Zl L1. apply psum_sized with (length l); [|exact L1].
    induction Zl as [|x l Zx Zl IH]; [left; reflexivity|].
    cbn [rsum List.length]. rewrite Rplus_comm. apply psum_step; [apply IH|exact Zx].
    cbn [List.length] in L1. lia.
Qed.
Lemma approx_same l : Forall (fun x => 0 <= x) l -> forall a, Forall2 (approx a) l l.
Proof. intros F a. induction F; constructor; [apply approx_refl; assumption|assumption]. Qed.

(* a list of operations that each succeed *)
Lemma sequence_close {A : Type} (f : A -> R) (g : A -> res R) a l :
  Forall (fun x => exists y, g x = Ok y /\ approx a (f x) y) l ->
  exists ys, sequence (map g l) = Ok ys /\ Forall2 (approx a) (map f l) ys.
Proof.
  induction 1 as [|x l [y [E A']] _ [ys [Es As]]]; [exists []; split; [reflexivity|constructor]|].
  exists (y :: ys). cbn [map sequence]. rewrite E. simpl bind. rewrite Es. simpl bind.
  split; [reflexivity|constructor; assumption].
Qed.

Lemma fl_1e15 : fl (1 / 10 ^ 15) <= 1 / 10 ^ 15 * (1 + u).
Proof.
  assert (A : approx 1 (1 / 10 ^ 15) (fl (1 / 10 ^ 15))).
  { apply fl_approx. apply Rle_trans with (/ 2 ^ 100); [apply half_le; lia|].
    unfold Rdiv. rewrite Rmult_1_l. apply Rinv_le_contravar; [apply pow_lt; lra|].
    rewrite !pow_IZR. apply IZR_le. vm_compute. discriminate. }
  destruct A as [_ [_ A]]. rewrite pow_1 in A. exact A.
Qed.

Section Saturations.
Variable saturations : list R.
Hypothesis Os : Forall ordinary saturations.
Hypothesis Ln : (Z.of_nat (length saturations) <= 2 ^ 35)%Z.
Hypothesis Hs : 1 / 10 ^ 14 <= rsum saturations.
Let n := length saturations.
Let T := rsum saturations.

Lemma saturations_total : exists t, f_sum saturations = Ok t /\ approx n T t /\ sized 140 T /\ 0 < T /\ fl (1 / 10 ^ 15) < t.
Proof.
  destruct (f_sum_close 0 100 saturations saturations) as [t [E [A Z]]]; try lia; [|exact Os|].
  { apply approx_same. eapply Forall_impl; [|exact Os]. intros x. exact (sized_nonneg 100 x). }
  exists t. split; [exact E|]. split; [exact A|]. split; [exact Z|].
  assert (P : 0 < / 10 ^ 14) by (apply Rinv_0_lt_compat, pow_lt; lra).
  assert (Q : 1 / 10 ^ 15 = / 10 ^ 14 / 10) by (simpl; field).
  assert (HT : / 10 ^ 14 <= T) by (unfold T; rewrite <- (Rmult_1_l (/ 10 ^ 14)); exact Hs).
  split; [lra|]. eapply Rle_lt_trans; [apply fl_1e15|]. pose proof u_small as U. pose proof u_pos as U0.
  assert (U2 : u <= 1). { eapply Rle_trans; [exact U|]. rewrite <- Rinv_1. apply Rinv_le_contravar; [lra|apply pow_R1_Rle; lra]. }
  destruct A as [_ [A _]]. cbn [Nat.add] in A. pose proof (factor_two n ltac:(unfold n; lia)) as F2.
  pose proof (un0 n) as F0. fold n in A. fold T in A.
  assert (T <= 2 * t). { destruct (Rle_dec 0 t) as [L|L]; [nra|]. exfalso. assert (t * (1 + u) ^ n <= 0) by nra. lra. }
  rewrite Q. set (x := / 10 ^ 14) in *. nra.
Qed.

Lemma saturations_close : exists s', f_sum_saturations_to_one saturations = Ok s' /\
  Forall2 (approx (S n)) (map (fun s => s / T) saturations) s' /\ Forall (sized 240) (map (fun s => s / T) saturations).
Proof.
  destruct saturations_total as [t [E [A [Z [P L]]]]]. unfold f_sum_saturations_to_one. rewrite E. cbn [bind]. cbv zeta.
  assert (M : Rmax t (fl (1 / 10 ^ 15)) = t) by (apply Rmax_left; lra). rewrite M.
  assert (Pt : 0 < t) by (eapply approx_pos; [exact A|exact P]).
  destruct (sequence_close (fun s => s / T) (fun s => f_np_div (if Rlt_dec 0 t then s else fl (1 / 10 ^ 15)) t) (S n) saturations) as [s' [Es As]].
  - eapply Forall_impl; [|exact Os]. intros s Hs'. unfold f_np_div. destruct (Rlt_dec 0 t); [|contradiction].
    destruct (Req_EM_T t 0); [lra|].
    pose proof (approx_div 0 _ _ _ _ _ (approx_refl _ _ (sized_nonneg _ _ Hs')) A P) as A2.
    destruct (rnd_step _ _ _ _ A2 (sized_div _ _ _ _ Hs' Z P) ltac:(unfold n; lia) ltac:(lia)) as [z [Ez Az]].
    exists z. split; [exact Ez|exact Az].
  - exists s'. split; [exact Es|]. split; [exact As|]. apply Forall_map.
    eapply Forall_impl; [|exact Os]. intros s Hs'. exact (sized_div _ _ _ _ Hs' Z P).
Qed.
End Saturations.

Lemma sum_positive b l : Forall (sized b) l -> Exists (fun x => 0 < x) l -> 0 < rsum l.
Proof.
  intros F E. induction E as [x l P|x l E IH]; inversion F as [|? ? Zx Zl]; subst; cbn [rsum].
  - assert (0 <= rsum l); [|lra]. apply rsum_nonneg. eapply Forall_impl; [|exact Zl]. intros y. exact (sized_nonneg b y).
  - pose proof (IH Zl). pose proof (sized_nonneg _ _ Zx). lra.
Qed.

(* pairs of fluids and saturations *)
Lemma combine_close (P : material -> Prop) (f : material -> R -> R) (g : material -> R -> res R) a b c :
  (forall m s s', P m -> approx a s s' -> sized b s -> (exists y, g m s' = Ok y /\ approx c (f m s) y)) ->
  forall fluids S S', Forall P fluids -> Forall2 (approx a) S S' -> Forall (sized b) S ->
  exists ys, sequence (map (fun fs => g (fst fs) (snd fs)) (combine fluids S')) = Ok ys /\ Forall2 (approx c) (map (fun fs => f (fst fs) (snd fs)) (combine fluids S)) ys.
Proof.
  intros H. induction fluids as [|m fluids IH]; intros l l' F A Z; [exists []; split; [reflexivity|constructor]|].
  inversion F as [|? ? Pm Fm]; subst. inversion A as [|s s' l1 l1' As Al]; subst; [exists []; split; [reflexivity|constructor]|].
  inversion Z as [|? ? Zs Zl]; subst.
  destruct (H m s s' Pm As Zs) as [y [Ey Ay]]. destruct (IH l1 l1' Fm Al Zl) as [ys [Es Bs]].
  exists (y :: ys). cbn [combine map sequence fst snd]. rewrite Ey. cbn [bind]. rewrite Es. cbn [bind].
  split; [reflexivity|constructor; assumption].
Qed.
Lemma combine_swap {A B} (l : list A) (l' : list B) : combine l' l = map (fun p => (snd p, fst p)) (combine l l').
Proof. revert l'. induction l as [|x l IH]; intros [|y l']; [reflexivity|reflexivity|reflexivity|]. cbn. f_equal. apply IH. Qed.

Lemma combine_sized (P : material -> Prop) (f : material -> R -> R) b c fluids : Forall P fluids ->
  (forall m s, P m -> sized b s -> sized c (f m s)) -> forall l, Forall (sized b) l ->
  Forall (sized c) (map (fun fs => f (fst fs) (snd fs)) (combine fluids l)).
Proof.
  intros F H. induction F as [|m fluids Pm F IH]; intros l Z; [constructor|].
  destruct Z as [|x l Zx Z]; [constructor|]. cbn [combine map fst snd]. constructor; [apply H; assumption|apply IH, Z].
Qed.
Lemma combine_exists (P : material -> Prop) (f : material -> R -> R) l : Exists (fun x => 0 < x) l ->
  (forall m s, P m -> 0 < s -> 0 < f m s) -> forall fluids, Forall P fluids -> length fluids = length l ->
  Exists (fun x => 0 < x) (map (fun fs => f (fst fs) (snd fs)) (combine fluids l)).
Proof.
  intros E H. induction E as [x l X|x l E IH]; intros [|m fluids] F L; try discriminate; inversion F as [|? ? Pm F']; subst; cbn [combine map fst snd].
  - left. apply H; assumption.
  - right. apply IH; [exact F'|]. injection L as L. exact L.
Qed.

Section Wood.
Variable root : R -> R.
Hypothesis G : good_root root.
Variables (fluids : list material) (saturations : list R).
Hypothesis El : length fluids = length saturations.
Hypothesis Of : Forall (fun m => ordinary (bulk m) /\ ordinary (dens m) /\ 0 < bulk m /\ 0 < dens m) fluids.
Hypothesis Os : Forall ordinary saturations.
Hypothesis Ln : (Z.of_nat (length saturations) <= 2 ^ 35)%Z.
Hypothesis Hs : 1 / 10 ^ 14 <= rsum saturations.
Let n := length saturations.
Let T := rsum saturations.
Let C := rsum (map (fun fs => snd fs / T / bulk (fst fs)) (combine fluids saturations)).
Let D := rsum (map (fun fs => dens (fst fs) * (snd fs / T)) (combine fluids saturations)).

Lemma wood_sums : exists c d s', f_sum_saturations_to_one saturations = Ok s' /\
  sequence (map (fun sf => f_np_div (fst sf) (bulk (snd sf))) (combine s' fluids)) = Ok c /\
  sequence (map (fun fs => rnd (dens (fst fs) * snd fs)) (combine fluids s')) = Ok d /\
  exists tc td, f_sum c = Ok tc /\ f_sum d = Ok td /\
  approx (2 * n + 2) C tc /\ approx (2 * n + 2) D td /\ sized 380 C /\ sized 380 D /\ 0 < C /\ 0 < D.
Proof.
  destruct (saturations_close saturations Os Ln Hs) as [s' [E [A Z]]]. fold T in A, Z. fold n in A.
  set (S := map (fun s => s / T) saturations) in *.
  destruct (saturations_total saturations Os Ln Hs) as [_ [_ [_ [_ [PT _]]]]]. fold T in PT.
  assert (CS : forall {X} (h : material -> R -> X), map (fun fs => h (fst fs) (snd fs)) (combine fluids S) =
     map (fun fs => h (fst fs) (snd fs / T)) (combine fluids saturations)).
  { intros X h. unfold S. clear. clearbody T. revert saturations. induction fluids as [|m l IH]; intros [|x ls]; try reflexivity. cbn. f_equal. apply IH. }
  destruct (combine_close (fun m => ordinary (bulk m) /\ ordinary (dens m) /\ 0 < bulk m /\ 0 < dens m)
    (fun m s => s / bulk m) (fun m s => f_np_div s (bulk m)) (Datatypes.S n) 240 (n + 2)) with (fluids := fluids) (S := S) (S' := s') as [c [Ec Ac]];
    [|exact Of|exact A|exact Z|].
  { intros m x x' [Ob [_ [Pb _]]] Ax Zx. unfold f_np_div. destruct (Req_EM_T (bulk m) 0); [lra|].
    pose proof (approx_div _ 0 _ _ _ _ Ax (approx_refl _ _ (Rlt_le _ _ Pb)) Pb) as A2.
    destruct (rnd_step _ _ _ _ A2 (sized_div _ _ _ _ Zx Ob Pb) ltac:(unfold n; lia) ltac:(lia)) as [z [Ez Az]].
    exists z. split; [exact Ez|]. eapply approx_weaken; [|exact Az]. lia. }
  destruct (combine_close (fun m => ordinary (bulk m) /\ ordinary (dens m) /\ 0 < bulk m /\ 0 < dens m)
    (fun m s => dens m * s) (fun m s => rnd (dens m * s)) (Datatypes.S n) 240 (n + 2)) with (fluids := fluids) (S := S) (S' := s') as [d [Ed Ad]];
    [|exact Of|exact A|exact Z|].
  { intros m x x' [_ [Ob [_ Pb]]] Ax Zx.
    pose proof (approx_mult 0 _ _ _ _ _ (approx_refl _ _ (Rlt_le _ _ Pb)) Ax) as A2.
    destruct (rnd_step _ _ _ _ A2 (sized_mult _ _ _ _ Ob Zx) ltac:(unfold n; lia) ltac:(lia)) as [z [Ez Az]].
    exists z. split; [exact Ez|]. eapply approx_weaken; [|exact Az]. lia. }
  assert (LenS : length (combine fluids S) = n) by (rewrite combine_length; unfold S; rewrite map_length, El; apply Nat.min_id).
  assert (ZC : Forall (sized 340) (map (fun fs => snd fs / bulk (fst fs)) (combine fluids S))).
  { apply (combine_sized _ (fun m x => x / bulk m) 240 340 fluids Of); [|exact Z]. intros m x [Ob [_ [Pb _]]] Zx. exact (sized_div _ _ _ _ Zx Ob Pb). }
  assert (ZD : Forall (sized 340) (map (fun fs => dens (fst fs) * snd fs) (combine fluids S))).
  { apply (combine_sized _ (fun m x => dens m * x) 240 340 fluids Of); [|exact Z]. intros m x [_ [Ob _]] Zx. exact (sized_mult _ _ _ _ Ob Zx). }
  destruct (f_sum_close (n + 2) 340 _ _ Ac ZC) as [tc [Etc [Atc Ztc]]]; try (rewrite ?map_length, ?LenS; unfold n; lia).
  destruct (f_sum_close (n + 2) 340 _ _ Ad ZD) as [td [Etd [Atd Ztd]]]; try (rewrite ?map_length, ?LenS; unfold n; lia).
  rewrite map_length, LenS in Atc, Atd.
  assert (EC : rsum (map (fun fs => snd fs / bulk (fst fs)) (combine fluids S)) = C).
  { unfold C. rewrite (CS R (fun m s => s / bulk m)). reflexivity. }
  assert (ED : rsum (map (fun fs => dens (fst fs) * snd fs) (combine fluids S)) = D).
  { unfold D. rewrite (CS R (fun m s => dens m * s)). reflexivity. }
  rewrite EC in Atc, Ztc. rewrite ED in Atd, Ztd.
  (* some saturation is positive *)
  assert (PS : Exists (fun x => 0 < x) S).
  { assert (PS0 : Exists (fun x => 0 < x) saturations).
    { clear - PT. subst T. revert PT. induction saturations as [|x l IH]; cbn [rsum]; intros PT; [lra|].
      destruct (Rlt_dec 0 x) as [X|X]; [left; exact X|]. right. apply IH. lra. }
    unfold S. apply Exists_exists in PS0. destruct PS0 as [x [I P]]. apply Exists_exists. exists (x / T).
    split; [apply in_map_iff; exists x; tauto|]. apply Rmult_lt_0_compat; [exact P|apply Rinv_0_lt_compat, PT]. }
  assert (LS : length fluids = length S) by (unfold S; rewrite map_length; exact El).
  assert (PC : 0 < C).
  { rewrite <- EC. apply (sum_positive 340 _ ZC). apply (combine_exists _ (fun m x => x / bulk m) S PS) with (fluids := fluids) (2 := Of); [|exact LS].
    intros m x [_ [_ [Pb _]]] X. apply Rmult_lt_0_compat; [exact X|apply Rinv_0_lt_compat, Pb]. }
  assert (PD : 0 < D).
  { rewrite <- ED. apply (sum_positive 340 _ ZD). apply (combine_exists _ (fun m x => dens m * x) S PS) with (fluids := fluids) (2 := Of); [|exact LS].
    intros m x [_ [_ [_ Pb]]] X. apply Rmult_lt_0_compat; [exact Pb|exact X]. }
  exists c, d, s'. split; [exact E|]. split.
  { rewrite (combine_swap fluids s'), map_map. cbn [fst snd]. exact Ec. }
  split; [exact Ed|]. exists tc, td. split; [exact Etc|]. split; [exact Etd|].
  split; [replace (2 * n + 2)%nat with (n + 2 + n)%nat by lia; exact Atc|].
  split; [replace (2 * n + 2)%nat with (n + 2 + n)%nat by lia; exact Atd|]. repeat (split; [assumption|]). exact PD.
Qed.

Lemma f_wood_close : exists m, f_wood root fluids saturations = Ok m /\
  approx (2 * n + 3) (1 / C) (bulk m) /\ shear m = 0 /\ approx (2 * n + 2) D (dens m) /\
  approx (2 * n + 8) (sqrt (1 / C / D)) (vp m) /\ vs m = 0.
Proof.
  destruct wood_sums as [c [d [s' [E [Ec [Ed [tc [td [Etc [Etd [Ac [Ad [Zc [Zd [Pc Pd]]]]]]]]]]]]]]].
  assert (Ptc : 0 < tc) by (eapply approx_pos; [exact Ac|exact Pc]).
  pose proof (approx_div 0 _ _ _ _ _ (approx_refl 0 1 Rle_0_1) Ac Pc) as Ak.
  pose proof (sized_div _ _ _ _ (sized_1 1) Zc Pc) as Zk.
  destruct (rnd_step _ _ _ _ Ak Zk ltac:(unfold n; lia) ltac:(lia)) as [k [Ek Bk]].
  cbn [Nat.add] in Bk.
  assert (Bk' : approx (2 * n + 3) (1 / C) k) by (eapply approx_weaken; [|exact Bk]; lia).
  destruct (f_moduli_close root G (2 * n + 3) (1 / C) k 0 0 D td) as [p [s [Em [Ap As]]]].
  - unfold n. lia.
  - exact Bk'.
  - apply approx_refl. lra.
  - eapply approx_weaken; [|exact Ad]. lia.
  - eapply sized_weaken; [|exact Zk]. lia.
  - left. reflexivity.
  - eapply sized_weaken; [|exact Zd]. lia.
  - exact Pd.
  - pose proof (sized_nonneg _ _ Zk). lra.
  - exists (mkMat k 0 td p s). cbn [bulk shear dens vp vs].
    split; [|split; [exact Bk'|split; [reflexivity|split; [exact Ad|split]]]].
    + unfold f_wood. rewrite E. cbn [bind]. unfold f_mix_bulk_moduli. rewrite Ec. cbn [bind]. rewrite Etc. cbn [bind].
      unfold f_np_div at 1. destruct (Req_EM_T tc 0); [lra|]. rewrite Ek. cbn [bind].
      unfold f_mix_densities. rewrite Ed. cbn [bind]. rewrite Etd. cbn [bind]. exact Em.
    + replace (1 / C + 4 / 3 * 0) with (1 / C) in Ap by ring. eapply approx_weaken; [|exact Ap]. lia.
    + replace (0 / D) with 0 in As by (unfold Rdiv; ring). rewrite sqrt_0 in As. destruct As as [_ [A1 A2]].
      pose proof (un0 (2 * n + 3 + 4)). nra.
Qed.
End Wood.

(* ---- volume fractions ---- *)
Lemma big_pow : 2 ^ 10 < 2 ^ 1024. Proof. apply Rlt_pow; [lra|lia]. Qed.
Lemma rnd_near x : Rabs x <= 4 -> rnd x = Ok (fl x) /\ Rabs (fl x - x) <= / 10 ^ 12.
Proof.
  intros H. pose proof (fl_close x 4 H) as C.
  assert (E : 4 * / 2 ^ 53 + / 2 ^ 60 <= / 10 ^ 12).
  { replace (4 * / 2 ^ 53) with (/ 2 ^ 51) by (replace (2 ^ 53) with (4 * 2 ^ 51) by (simpl; ring); field; apply pow_nonzero; lra).
    rewrite !pow_IZR. simpl Z.pow. lra. }
  split; [|lra]. unfold rnd. destruct (Rlt_dec (Rabs (fl x)) (2 ^ 1024)) as [|N]; [reflexivity|].
  exfalso. apply N. apply Rlt_trans with (2 ^ 10); [|exact big_pow].
  replace (fl x) with ((fl x - x) + x) by ring. eapply Rle_lt_trans; [apply Rabs_triang|].
  assert (/ 10 ^ 12 <= 1). { rewrite <- Rinv_1. apply Rinv_le_contravar; [lra|apply pow_R1_Rle; lra]. }
  replace (2 ^ 10) with 1024 by (simpl; ring). lra.
Qed.

Definition tol : R := fl (1 / 10 ^ 5).
Lemma tol_near : Rabs (tol - 1 / 10 ^ 5) <= / 10 ^ 12.
Proof. apply rnd_near. rewrite Rabs_pos_eq; rewrite pow_IZR; simpl Z.pow; lra. Qed.
Lemma limit_near : Rabs (fl (1 + tol) - (1 + 1 / 10 ^ 5)) <= 2 * / 10 ^ 12.
Proof.
  pose proof tol_near as T. replace (fl (1 + tol) - (1 + 1 / 10 ^ 5)) with ((fl (1 + tol) - (1 + tol)) + (tol - 1 / 10 ^ 5)) by ring.
  eapply Rle_trans; [apply Rabs_triang|]. assert (Rabs (fl (1 + tol) - (1 + tol)) <= / 10 ^ 12); [|lra].
  apply rnd_near. apply Rabs_le. apply Rabs_le_inv in T. rewrite !pow_IZR in T. simpl Z.pow in T. lra.
Qed.
Lemma tol_range : 1 / 10 ^ 5 - 1 / 10 ^ 11 <= tol <= 1 / 10 ^ 5 + 1 / 10 ^ 11 /\
  1 + 1 / 10 ^ 5 - 1 / 10 ^ 11 <= fl (1 + tol) <= 1 + 1 / 10 ^ 5 + 1 / 10 ^ 11.
Proof.
  pose proof tol_near as T. pose proof limit_near as L. apply Rabs_le_inv in T. apply Rabs_le_inv in L.
  rewrite !pow_IZR in *. simpl Z.pow in *. lra.
Qed.

Lemma ratio_ok x : - (9 / 10 ^ 6) - 1 / 10 ^ 6 + 1 / 10 ^ 10 <= x <= 1 -> f_fraction_is_ratio x = Ok tt.
Proof.
  intros [X1 X2]. destruct tol_range as [[T1 _] [L1 _]]. unfold f_fraction_is_ratio. fold tol.
  rewrite !pow_IZR in *. simpl Z.pow in *.
  destruct (Rlt_dec x (- tol)); [lra|]. destruct (Rlt_dec (fl (1 + tol)) x); [lra|reflexivity].
Qed.

Section Fractions.
Variable fractions : list R.
Hypothesis Of : Forall ordinary fractions.
Hypothesis Ln : (Z.of_nat (length fractions) <= 2 ^ 30)%Z.
Let n := length fractions.
Let T := rsum fractions.

Lemma fractions_total : exists t, f_sum fractions = Ok t /\ 0 <= T /\ 0 <= t /\ Rabs (t - T) <= 2 * INR n * u * T /\ 2 * INR n * u <= / 2 ^ 22.
Proof.
  destruct (f_sum_close 0 100 fractions fractions) as [t [E [A Z]]]; try lia; [|exact Of|].
  { apply approx_same. eapply Forall_impl; [|exact Of]. intros x. exact (sized_nonneg 100 x). }
  exists t. split; [exact E|]. split; [destruct A; assumption|]. split; [exact (approx_nonneg _ _ _ A)|].
  split; [apply (within_abs n); [exact A|unfold n; lia]|].
  assert (N : INR n <= 2 ^ 30). { rewrite INR_IZR_INZ, pow_IZR. apply IZR_le. exact Ln. }
  unfold u. replace (/ 2 ^ 22) with (2 * 2 ^ 30 * / 2 ^ 53).
  - apply Rmult_le_compat_r; [left; apply half_pos|]. lra.
  - replace (2 ^ 53) with (2 * 2 ^ 30 * 2 ^ 22) by (rewrite !pow_IZR; simpl Z.pow; lra). field.
Qed.

Lemma f_minerals_accepts : Forall (fun x => x <= 1) fractions ->
  1 - 19 / 10 ^ 6 <= T <= 1 + 9 / 10 ^ 6 -> f_minerals fractions = Ok tt.
Proof.
  intros F1 [S1 S2]. destruct fractions_total as [t [E [T0 [_ [A U]]]]]. destruct tol_range as [[T1 T2] [L1 L2]].
  unfold f_minerals.
  assert (Q : exists l, sequence (map f_fraction_is_ratio fractions) = Ok l).
  { clear - Of F1. induction fractions as [|x l IH]; [exists []; reflexivity|].
    inversion Of as [|? ? Ox Ol]; subst. inversion F1 as [|? ? Fx Fl]; subst. destruct (IH Ol Fl) as [l' E].
    exists (tt :: l'). cbn [map sequence]. rewrite ratio_ok; [cbn [bind]; rewrite E; reflexivity|].
    pose proof (sized_nonneg _ _ Ox). rewrite !pow_IZR. simpl Z.pow. lra. }
  destruct Q as [l ->]. cbn [bind]. rewrite E. cbn [bind]. fold tol.
  assert (A' : Rabs (t - T) <= / 2 ^ 21).
  { eapply Rle_trans; [exact A|]. apply Rle_trans with (/ 2 ^ 22 * 2).
    - apply Rmult_le_compat; [|exact T0|exact U|].
      + apply Rmult_le_pos; [|left; apply u_pos]. pose proof (pos_INR n). lra.
      + rewrite !pow_IZR in *. simpl Z.pow in *. lra.
    - right. replace (2 ^ 22) with (2 ^ 21 * 2) by (simpl; ring). field. }
  apply Rabs_le_inv in A'. 
  destruct (Rlt_dec (fl (1 + tol)) t) as [C|_].
  { exfalso. rewrite !pow_IZR in *. simpl Z.pow in *. lra. }
  unfold f_isclose_one. fold tol.
  destruct (rnd_near (t - 1)) as [E1 W1]; [apply Rabs_le; rewrite !pow_IZR in *; simpl Z.pow in *; lra|].
  rewrite E1. cbn [bind]. rewrite Rmult_1_r.
  destruct (rnd_near tol) as [E2 W2]; [apply Rabs_le; rewrite !pow_IZR in *; simpl Z.pow in *; lra|].
  rewrite E2. cbn [bind]. apply Rabs_le_inv in W2.
  destruct (rnd_near (tol + fl tol)) as [E3 W3]; [apply Rabs_le; rewrite !pow_IZR in *; simpl Z.pow in *; lra|].
  rewrite E3. cbn [bind]. apply Rabs_le_inv in W3. apply Rabs_le_inv in W1.
  destruct (Rle_dec (Rabs (fl (t - 1))) (fl (tol + fl tol))) as [_|N]; [reflexivity|].
  exfalso. apply N. apply Rabs_le. rewrite !pow_IZR in *. simpl Z.pow in *. lra.
Qed.

Lemma f_minerals_rejects : Forall (fun x => x <= 1) fractions ->
  T < 1 - 21 / 10 ^ 6 \/ 1 + 11 / 10 ^ 6 < T -> f_minerals fractions = Err ValueError.
Proof.
  intros F1 H. destruct fractions_total as [t [E [T0 [P0 [A U]]]]]. destruct tol_range as [[T1 T2] [L1 L2]].
  unfold f_minerals.
  assert (Q : exists l, sequence (map f_fraction_is_ratio fractions) = Ok l).
  { clear - Of F1. induction fractions as [|x l IH]; [exists []; reflexivity|].
    inversion Of as [|? ? Ox Ol]; subst. inversion F1 as [|? ? Fx Fl]; subst. destruct (IH Ol Fl) as [l' E].
    exists (tt :: l'). cbn [map sequence]. rewrite ratio_ok; [cbn [bind]; rewrite E; reflexivity|].
    pose proof (sized_nonneg _ _ Ox). rewrite !pow_IZR. simpl Z.pow. lra. }
  destruct Q as [l ->]. cbn [bind]. rewrite E. cbn [bind]. fold tol.
  assert (A' : Rabs (t - T) <= / 2 ^ 22 * T).
  { eapply Rle_trans; [exact A|]. apply Rmult_le_compat_r; [exact T0|exact U]. }
  apply Rabs_le_inv in A'.
  destruct (Rlt_dec (fl (1 + tol)) t) as [_|C]; [reflexivity|].
  destruct H as [H|H]; [|exfalso; apply C; rewrite !pow_IZR in *; simpl Z.pow in *; lra].
  unfold f_isclose_one. fold tol.
  destruct (rnd_near (t - 1)) as [E1 W1]; [apply Rabs_le; rewrite !pow_IZR in *; simpl Z.pow in *; lra|].
  rewrite E1. cbn [bind]. rewrite Rmult_1_r.
  destruct (rnd_near tol) as [E2 W2]; [apply Rabs_le; rewrite !pow_IZR in *; simpl Z.pow in *; lra|].
  rewrite E2. cbn [bind]. apply Rabs_le_inv in W2.
  destruct (rnd_near (tol + fl tol)) as [E3 W3]; [apply Rabs_le; rewrite !pow_IZR in *; simpl Z.pow in *; lra|].
  rewrite E3. cbn [bind]. apply Rabs_le_inv in W3. apply Rabs_le_inv in W1.
  destruct (Rle_dec (Rabs (fl (t - 1))) (fl (tol + fl tol))) as [N|_]; [|reflexivity].
  exfalso. apply Rabs_le_inv in N. rewrite !pow_IZR in *. simpl Z.pow in *. lra.
Qed.

Lemma f_rest_close : T <= 1 + 9 / 10 ^ 6 ->
  exists r, f_rest fractions = Ok r /\ Rabs (r - (1 - T)) <= INR (n + 1) / 2 ^ 51.
Proof.
  intros H. destruct fractions_total as [t [E [T0 [P0 [A U]]]]]. destruct tol_range as [[T1 T2] [L1 L2]].
  unfold f_rest. rewrite E. cbn [bind]. fold tol.
  pose proof u_pos as U0. pose proof (pos_INR n) as N0.
  assert (A2 : Rabs (t - T) <= 3 * INR n * u).
  { eapply Rle_trans; [exact A|]. assert (T <= 3 / 2) by (rewrite !pow_IZR in *; simpl Z.pow in *; lra).
    assert (0 <= INR n * u) by (apply Rmult_le_pos; lra). nra. }
  assert (A3 : Rabs (t - T) <= / 2 ^ 21).
  { eapply Rle_trans; [exact A2|]. replace (/ 2 ^ 21) with (2 * / 2 ^ 22); [lra|].
    replace (2 ^ 22) with (2 ^ 21 * 2) by (simpl; ring). field. }
  apply Rabs_le_inv in A3.
  destruct (Rlt_dec (fl (1 + tol)) t) as [C|_]; [exfalso; rewrite !pow_IZR in *; simpl Z.pow in *; lra|].
  assert (B : Rabs (1 - t) <= 1 + 1 / 2) by (apply Rabs_le; rewrite !pow_IZR in *; simpl Z.pow in *; lra).
  destruct (rnd_near (1 - t)) as [E1 W1]; [lra|]. rewrite E1. cbn [bind].
  rewrite ratio_ok.
  - cbn [bind]. exists (fl (1 - t)). split; [reflexivity|].
    replace (fl (1 - t) - (1 - T)) with ((fl (1 - t) - (1 - t)) + - (t - T)) by ring.
    eapply Rle_trans; [apply Rabs_triang|]. rewrite Rabs_Ropp.
    pose proof (fl_close _ _ B) as W. fold u in W.
    assert (S60 : / 2 ^ 60 <= u) by (apply half_le; lia).
    replace (INR (n + 1) / 2 ^ 51) with (4 * (INR n + 1) * u).
    + nra.
    + rewrite plus_INR. simpl (INR 1). unfold u. replace (2 ^ 53) with (4 * 2 ^ 51) by (simpl; ring). field.
  - apply Rabs_le_inv in W1. split; [rewrite !pow_IZR in *; simpl Z.pow in *; lra|].
    apply Rle_trans with (fl 1); [apply fl_le; lra|right; exact fl1].
Qed.
End Fractions.

(* ---- fractions written with decimals ---- *)
Lemma fl_pow2_small a : (a <= 1000)%nat -> fl (/ 2 ^ a) = / 2 ^ a.
Proof.
  intros L. rewrite <- bpow_half. unfold fl. apply round_generic; [apply valid_rnd_N|].
  apply generic_format_FLT_bpow; [reflexivity|lia].
Qed.
Lemma fl_ordinary x : ordinary x -> x <= 1 -> ordinary (fl x) /\ fl x <= 1 /\ Rabs (fl x - x) <= 2 * u * x.
Proof.
  intros [->|[X1 X2]] L.
  - rewrite fl0. split; [left; reflexivity|]. split; [lra|]. rewrite Rminus_0_r, Rabs_R0. lra.
  - assert (A : approx 1 x (fl x)) by (apply fl_approx; eapply Rle_trans; [apply half_le|exact X1]; lia).
    assert (F1 : fl x <= 1) by (apply Rle_trans with (fl 1); [apply fl_le, L|right; exact fl1]).
    split; [right; split|split].
    + rewrite <- (fl_pow2_small 100) by lia. apply fl_le, X1.
    + eapply Rle_trans; [exact F1|]. apply pow_R1_Rle. lra.
    + exact F1.
    + pose proof (within_abs _ _ _ A ltac:(lia)) as W. simpl (INR 1) in W. lra.
Qed.
Lemma decimals_sum ds : Forall ordinary ds -> Forall (fun x => x <= 1) ds ->
  Forall ordinary (map fl ds) /\ Forall (fun x => x <= 1) (map fl ds) /\ Rabs (rsum (map fl ds) - rsum ds) <= 2 * u * rsum ds.
Proof.
  intros O L. induction ds as [|x l IH].
  - cbn [map rsum]. split; [constructor|]. split; [constructor|]. rewrite Rminus_0_r, Rabs_R0. lra.
  - inversion O as [|? ? Ox Ol]; subst. inversion L as [|? ? Lx Ll]; subst. destruct (IH Ol Ll) as [H1 [H2 H3]].
    destruct (fl_ordinary x Ox Lx) as [G1 [G2 G3]]. cbn [map rsum].
    split; [constructor; assumption|]. split; [constructor; assumption|].
    replace (fl x + rsum (map fl l) - (x + rsum l)) with ((fl x - x) + (rsum (map fl l) - rsum l)) by ring.
    eapply Rle_trans; [apply Rabs_triang|]. lra.
Qed.
Lemma decimals_accepted ds : Forall ordinary ds -> (Z.of_nat (length ds) <= 2 ^ 30)%Z -> rsum ds = 1 ->
  f_minerals (map fl ds) = Ok tt.
Proof.
  intros O Ln E.
  assert (L : Forall (fun x => x <= 1) ds).
  { apply Forall_forall. intros x I. rewrite <- E. clear E Ln. induction ds as [|y l IH]; [contradiction|].
    inversion O as [|? ? Oy Ol]; subst. cbn [rsum]. destruct I as [->|I].
    - assert (0 <= rsum l); [|lra]. apply rsum_nonneg. eapply Forall_impl; [|exact Ol]. intros z. exact (sized_nonneg 100 z).
    - pose proof (IH Ol I). pose proof (sized_nonneg _ _ Oy). lra. }
  destruct (decimals_sum ds O L) as [H1 [H2 H3]].
  apply f_minerals_accepts; [exact H1|rewrite map_length; exact Ln|exact H2|].
  rewrite E in H3. apply Rabs_le_inv in H3. unfold u in H3. rewrite !pow_IZR in *. simpl Z.pow in *. lra.
Qed.

(* ---- the bounds of the theorems ---- *)
Lemma approx_bound n e x y : approx n x y -> (Z.of_nat n <= 2 ^ 50)%Z -> 2 * INR n * u <= e -> within e x y.
Proof.
  intros A L E. apply (approx_within n); [exact A|]. eapply Rle_trans; [apply factor_bound, L|]. lra.
Qed.
Lemma moduli_hypothesis n c mu k : 0 <= mu -> (Z.of_nat n <= 2 ^ 50)%Z -> 4 / 3 * (2 * INR n * u) <= / 2 ^ c -> mu <= 2 ^ c * k ->
  4 / 3 * mu * ((1 + u) ^ n - 1) <= k.
Proof.
  intros M L C H. pose proof (factor_bound n L) as F. pose proof (un n) as F1. pose proof (two_pos c) as T. pose proof (half_pos c) as I.
  apply Rle_trans with (mu * / 2 ^ c); [nra|].
  apply Rle_trans with (2 ^ c * k * / 2 ^ c); [apply Rmult_le_compat_r; lra|]. right. field. lra.
Qed.

Lemma material_close root k mu d : good_root root -> ordinary k -> ordinary mu -> ordinary d -> 0 < d -> mu <= 2 ^ 46 * k ->
  exists m, f_mat_of_moduli root k mu d = Ok m /\ bulk m = k /\ shear m = mu /\ dens m = d /\
    within (/ 2 ^ 49) (sqrt ((k + 4 / 3 * mu) / d)) (vp m) /\ within (/ 2 ^ 49) (sqrt (mu / d)) (vs m).
Proof.
  intros G Ok' Om Od P H. pose proof (sized_nonneg _ _ Ok') as Nk. pose proof (sized_nonneg _ _ Om) as Nm.
  destruct (f_moduli_close root G 0 k k mu mu d d) as [p [s [E [A B]]]]; try (apply approx_refl; lra); try (apply (sized_weaken 100); [lia|assumption]).
  - lia.
  - exact P.
  - apply (moduli_hypothesis _ 46); [exact Nm|lia| |exact H]. simpl (INR _). unfold u. rewrite !pow_IZR. simpl Z.pow. lra.
  - exists (mkMat k mu d p s). split; [exact E|]. repeat (split; [reflexivity|]). cbn [vp vs].
    split; (eapply approx_bound; [eassumption|lia|simpl (INR _); unfold u; rewrite !pow_IZR; simpl Z.pow; lra]).
Qed.

Lemma repack_close root k mu d : good_root root -> ordinary k -> ordinary mu -> ordinary d -> 0 < d -> mu <= 2 ^ 46 * k ->
  exists m m', f_mat_of_moduli root k mu d = Ok m /\ f_repack root m = Ok m' /\
    dens m' = d /\ vp m' = vp m /\ vs m' = vs m /\ within (/ 2 ^ 48) mu (shear m') /\
    Rabs (bulk m' - k) <= / 2 ^ 46 * (k + 4 / 3 * mu).
Proof.
  intros G Ok' Om Od P H. pose proof (sized_nonneg _ _ Ok') as Nk. pose proof (sized_nonneg _ _ Om) as Nm.
  destruct (f_repack_close root G k mu d) as [p [s [k2 [m2 [E1 [E2 [A B]]]]]]]; try (apply (sized_weaken 100); [lia|assumption]).
  - exact P.
  - apply (moduli_hypothesis _ 46); [exact Nm|lia| |exact H]. simpl (INR _). unfold u. rewrite !pow_IZR. simpl Z.pow. lra.
  - exists (mkMat k mu d p s), (mkMat k2 m2 d p s). split; [exact E1|]. split; [exact E2|]. repeat (split; [reflexivity|]).
    cbn [bulk shear]. split.
    + eapply approx_bound; [exact A|lia|]. simpl (INR _). unfold u. rewrite !pow_IZR. simpl Z.pow. lra.
    + eapply Rle_trans; [exact B|]. apply Rmult_le_compat_r; [lra|]. unfold u. rewrite !pow_IZR. simpl Z.pow. lra.
Qed.

Lemma gassman_close kdry kmin kf phi : double kdry -> double kmin -> double kf ->
  ordinary kdry -> ordinary kmin -> ordinary kf -> ordinary phi -> kdry <= kmin -> kf < kmin ->
  exists k', f_gassman_equation kdry kmin kf phi = Ok k' /\ 0 <= k' <= kmin /\
    (phi = 0 -> k' = kmin) /\ (kdry = kmin -> k' = kmin) /\
    forall f, 0 < phi -> kdry < kmin -> f = kdry / (kmin - kdry) + kf / ((kmin - kf) * phi) ->
      within (/ 2 ^ 48) (f / (1 + f) * kmin) k'.
Proof.
  intros Dd Dm Df Od Om Of Op Ld Lf. pose proof (sized_nonneg _ _ Om) as Nm. pose proof (sized_nonneg _ _ Op) as Np.
  destruct (Req_EM_T phi 0) as [Z|Z].
  { exists kmin. unfold f_gassman_equation. destruct (Req_EM_T phi 0); [|contradiction].
    split; [reflexivity|]. split; [lra|]. split; [reflexivity|]. split; [reflexivity|]. intros; lra. }
  destruct (Req_EM_T kdry kmin) as [Q|Q].
  { exists kmin. unfold f_gassman_equation. destruct (Req_EM_T phi 0); [contradiction|]. destruct (Req_EM_T kdry kmin); [|contradiction].
    split; [reflexivity|]. split; [lra|]. split; [reflexivity|]. split; [reflexivity|]. intros; lra. }
  destruct (f_gassman_close kdry kmin kf phi Dd Dm Df Od Om Of Op ltac:(lra) Lf ltac:(lra)) as [k' [E [A B]]].
  exists k'. split; [exact E|]. split; [exact B|]. split; [intros; contradiction|]. split; [intros; contradiction|].
  intros f _ _ ->. eapply approx_bound; [exact A|lia|]. simpl (INR _). unfold u. rewrite !pow_IZR. simpl Z.pow. lra.
Qed.

Lemma substitution_close root dry mineral fluid phi : good_root root ->
  double (bulk dry) -> double (bulk mineral) -> double (bulk fluid) ->
  ordinary (bulk dry) -> ordinary (bulk mineral) -> ordinary (bulk fluid) -> ordinary phi ->
  ordinary (shear dry) -> ordinary (dens dry) -> ordinary (dens fluid) ->
  bulk dry < bulk mineral -> bulk fluid < bulk mineral -> 0 < phi -> 0 < dens dry -> shear dry <= 2 ^ 45 * bulk dry ->
  exists m, f_fluid_substitution root dry mineral fluid phi = Ok m /\
    bulk m <= bulk mineral /\ shear m = shear dry /\
    forall f k d, f = bulk dry / (bulk mineral - bulk dry) + bulk fluid / ((bulk mineral - bulk fluid) * phi) ->
      k = f / (1 + f) * bulk mineral -> d = dens dry + phi * dens fluid ->
      within (/ 2 ^ 48) k (bulk m) /\ within (/ 2 ^ 48) d (dens m) /\
      within (/ 2 ^ 48) (sqrt ((k + 4 / 3 * shear dry) / d)) (vp m) /\ within (/ 2 ^ 48) (sqrt (shear dry / d)) (vs m).
Proof.
  intros G Dd Dm Df Od Om Of Op Os Or Ofr Ld Lf Pp Pr Hs.
  destruct (f_substitution_close root G dry mineral fluid phi Dd Dm Df Od Om Of Op Os Or Ofr Ld Lf Pp Pr) as [m [E [A [B [C [D [P Q]]]]]]].
  - apply (moduli_hypothesis _ 45); [exact (sized_nonneg _ _ Os)|lia| |exact Hs]. rewrite INR_IZR_INZ. simpl Z.of_nat. unfold u. rewrite !pow_IZR. simpl Z.pow. lra.
  - exists m. split; [exact E|]. split; [exact B|]. split; [exact C|]. intros f k d -> -> ->.
    repeat split; (eapply approx_bound; [eassumption|lia|simpl (INR _); unfold u; rewrite !pow_IZR; simpl Z.pow; lra]).
Qed.

Lemma wood_close root fluids saturations : good_root root -> length fluids = length saturations ->
  Forall (fun m => ordinary (bulk m) /\ ordinary (dens m) /\ 0 < bulk m /\ 0 < dens m) fluids ->
  Forall ordinary saturations -> (Z.of_nat (length saturations) <= 2 ^ 35)%Z -> 1 / 10 ^ 14 <= rsum saturations ->
  exists m, f_wood root fluids saturations = Ok m /\ shear m = 0 /\ vs m = 0 /\
    forall t c d e, t = rsum saturations ->
      c = rsum (map (fun fs => snd fs / t / bulk (fst fs)) (combine fluids saturations)) ->
      d = rsum (map (fun fs => dens (fst fs) * (snd fs / t)) (combine fluids saturations)) ->
      e = (INR (length saturations) + 4) / 2 ^ 51 ->
      within e (1 / c) (bulk m) /\ within e d (dens m) /\ within e (sqrt (1 / c / d)) (vp m).
Proof.
  intros G El Of Os Ln Hs.
  destruct (f_wood_close root G fluids saturations El Of Os Ln Hs) as [m [E [A [B [C [D F]]]]]].
  exists m. split; [exact E|]. split; [exact B|]. split; [exact F|]. intros t c d e -> -> -> ->.
  set (n := length saturations) in *.
  assert (K : forall a, (a <= 2 * n + 8)%nat -> (Z.of_nat a <= 2 ^ 50)%Z /\ 2 * INR a * u <= (INR n + 4) / 2 ^ 51).
  { intros a La. split; [unfold n in *; lia|]. apply le_INR in La. rewrite plus_INR, mult_INR in La. simpl (INR 2) in La. simpl (INR 8) in La.
    replace ((INR n + 4) / 2 ^ 51) with (4 * (INR n + 4) * u).
    - pose proof u_pos. nra.
    - unfold u. replace (2 ^ 53) with (4 * 2 ^ 51) by (simpl; ring). field. }
  repeat split; (eapply approx_bound; [eassumption|apply K; lia|apply K; lia]).
Qed.

Lemma sum_zeros n : f_sum (repeat 0 n) = Ok 0.
Proof.
  unfold f_sum. induction n as [|n IH]; [reflexivity|]. cbn [repeat f_sum_from]. rewrite Rplus_0_r.
  destruct (rnd_near 0) as [E _]; [rewrite Rabs_R0; lra|]. rewrite E. cbn [bind]. rewrite fl0. exact IH.
Qed.
Lemma saturations_zeros n : f_sum_saturations_to_one (repeat 0 n) = Ok (repeat 1 n).
Proof.
  unfold f_sum_saturations_to_one. rewrite sum_zeros. cbn [bind]. cbv zeta.
  assert (P : 0 < fl (1 / 10 ^ 15)).
  { eapply approx_pos; [apply fl_approx|].
    - apply Rle_trans with (/ 2 ^ 100); [apply half_le; lia|].
      unfold Rdiv. rewrite Rmult_1_l. apply Rinv_le_contravar; [apply pow_lt; lra|].
      rewrite !pow_IZR. apply IZR_le. vm_compute. discriminate.
    - apply Rmult_lt_0_compat; [lra|]. apply Rinv_0_lt_compat, pow_lt. lra. }
  set (x := fl (1 / 10 ^ 15)) in *. rewrite Rmax_right by lra.
  induction n as [|n IH]; [reflexivity|]. cbn [repeat map sequence]. rewrite IH. unfold f_np_div.
  destruct (Rlt_dec 0 0); [lra|]. destruct (Req_EM_T x 0); [lra|]. replace (x / x) with 1 by (field; lra).
  destruct (rnd_near 1) as [E _]; [rewrite Rabs_R1; lra|]. rewrite E, fl1. reflexivity.
Qed.

Lemma double_int z : (Z.abs z < 2 ^ 53)%Z -> double (IZR z).
Proof. intros H. exists z, 0%Z. split; [exact H|]. split; [lia|]. simpl. ring. Qed.
Lemma ordinary_range x : 1 / 10 ^ 6 <= x <= 10 ^ 6 -> ordinary x.
Proof.
  intros [A B]. right. split.
  - eapply Rle_trans; [|exact A]. apply Rle_trans with (/ 2 ^ 20); [apply half_le; lia|]. rewrite !pow_IZR. simpl Z.pow. lra.
  - eapply Rle_trans; [exact B|]. apply Rle_trans with (2 ^ 20); [rewrite !pow_IZR; simpl Z.pow; lra|]. apply two_le. lia.
Qed.
