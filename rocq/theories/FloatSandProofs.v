(** Hertz-Mindlin in double precision. *)
From Coq Require Import Reals Lra Lia List ZArith Psatz.
From Flocq Require Import Core.
From Verif Require Import Base BaseProofs MaterialModel MaterialProofs MainModel MainProofs HashinShtrikmanModel SandstoneModel Spec SandstoneProofs.
From Verif Require Import PublishedSpec PublishedProofs.
From Verif Require Import FloatModel FloatSpec FloatProofs FloatPolySpec FloatPolyProofs FloatBrineProofs FloatBoundsModel FloatSandModel FloatSandSpec.
Open Scope R_scope.

(** Cube roots. *)
Lemma cbrt_factor j x : 0 <= x -> cbrt (((1 + u) ^ j) ^ 3 * x) = (1 + u) ^ j * cbrt x.
Proof. intros H. apply cbrt_scale; [apply un0|exact H]. Qed.
Lemma approx_cbrt j x y : approx (3 * j) x y -> approx j (cbrt x) (cbrt y).
Proof.
  intros A. pose proof (approx_nonneg _ _ _ A) as Py. destruct A as (P & A & B).
  replace ((1 + u) ^ (3 * j)) with (((1 + u) ^ j) ^ 3) in A, B by (rewrite <- pow_mult; f_equal; lia).
  split; [apply cbrt_nonneg|]. split.
  - rewrite (Rmult_comm (cbrt y)), <- cbrt_factor by exact Py. apply cbrt_le; [exact P|lra].
  - rewrite (Rmult_comm (cbrt x)), <- cbrt_factor by exact P. apply cbrt_le; [exact Py|lra].
Qed.
Lemma sized_cbrt a x : sized a x -> sized a (cbrt x).
Proof.
  intros [->|(L & H)]; [left; apply cbrt_0|]. right. pose proof (half_pos a). pose proof (cbrt_cube x ltac:(lra)) as C. pose proof (cbrt_nonneg x) as N.
  assert (1 <= 2 ^ a) by (apply pow_R1_Rle; lra). assert (HI : / 2 ^ a <= 1) by (rewrite <- Rinv_1; apply Rinv_le_contravar; lra).
  set (y := cbrt x) in *. split.
  - destruct (Rle_lt_dec (/ 2 ^ a) y) as [|Q]; [assumption|]. exfalso. assert (y ^ 3 < / 2 ^ a); [|lra].
    assert (y * (y * y) <= y * 1) by (apply Rmult_le_compat_l; [exact N|nra]). simpl. rewrite Rmult_1_r. lra.
  - destruct (Rle_lt_dec y (2 ^ a)) as [|Q]; [assumption|]. exfalso. assert (2 ^ a < y ^ 3); [|lra].
    assert (y * 1 <= y * (y * y)) by (apply Rmult_le_compat_l; [exact N|nra]). simpl. rewrite Rmult_1_r. lra.
Qed.

(** The exponent is not quite a third. *)
Lemma exp_half_u : exp (u / 2) <= 1 + u.
Proof.
  pose proof (exp_ineq1_le (- (u / 2))) as H. pose proof u_pos as U. pose proof (exp_pos (u / 2)) as E.
  assert (S1 : u <= 1). { pose proof u_small. rewrite pow_IZR in H0. simpl Z.pow in H0. lra. }
  assert (M : exp (u / 2) * exp (- (u / 2)) = 1) by (rewrite <- exp_plus; replace (u / 2 + - (u / 2)) with 0 by ring; apply exp_0).
  assert (exp (u / 2) * (1 + - (u / 2)) <= 1) by (rewrite <- M; apply Rmult_le_compat_l; lra). nra.
Qed.
Lemma exp_counts J x : x <= INR J * (u / 2) -> exp x <= (1 + u) ^ J.
Proof.
  intros H. apply Rle_trans with (exp (INR J * (u / 2))).
  - destruct H as [H|H]; [left; apply exp_increasing; exact H|right; congruence].
  - clear H. induction J as [|J IH]; [simpl; rewrite Rmult_0_l, exp_0; lra|]. rewrite S_INR.
    replace ((INR J + 1) * (u / 2)) with (u / 2 + INR J * (u / 2)) by ring. rewrite exp_plus. cbn [pow].
    apply Rmult_le_compat; try (left; apply exp_pos); [apply exp_half_u|exact IH].
Qed.
Lemma ln_mono x y : 0 < x -> x <= y -> ln x <= ln y.
Proof. intros P [L|E]; [left; apply ln_increasing; assumption|right; congruence]. Qed.
Lemma ln_pow2 b : ln (2 ^ b) <= INR b.
Proof.
  induction b as [|b IH]; [simpl; rewrite ln_1; lra|]. cbn [pow]. rewrite ln_mult by (try apply two_pos; lra). rewrite S_INR.
  assert (ln 2 <= 1) by (rewrite <- (ln_exp 1); apply ln_mono; [lra|]; pose proof (exp_ineq1_le 1); lra). lra.
Qed.
Lemma ln_sized b x : sized b x -> 0 < x -> Rabs (ln x) <= INR b.
Proof.
  intros [->|(L & H)] P; [lra|]. pose proof (ln_pow2 b) as Q. apply Rabs_le. split.
  - apply (ln_mono _ _ (half_pos b)) in L. rewrite ln_Rinv in L by apply two_pos. lra.
  - apply (ln_mono _ _ P) in H. lra.
Qed.
Lemma third_error : Rabs (fl (1 / 3) - 1 / 3) <= u / 2.
Proof.
  assert (A : approx 1 (1 / 3) (fl (1 / 3))).
  { apply fl_approx. apply Rle_trans with (/ 2 ^ 2); [apply half_le; lia|]. simpl. lra. }
  destruct (approx_noisy 1 (1 / 3) _ _ A ltac:(lra)) as (_ & H). simpl in H. pose proof u_pos. lra.
Qed.
Lemma approx_third b x : sized b x -> 0 < x -> approx b (cbrt x) (Rpower x (fl (1 / 3))).
Proof.
  intros Sz P. unfold cbrt. destruct (Rlt_dec 0 x) as [_|]; [|lra]. pose proof (ln_sized b x Sz P) as L. pose proof third_error as T.
  assert (B : Rabs ((fl (1 / 3) - 1 / 3) * ln x) <= INR b * (u / 2)).
  { rewrite Rabs_mult, Rmult_comm. apply Rmult_le_compat; try apply Rabs_pos; assumption. }
  unfold Rpower. split; [left; apply exp_pos|].
  assert (B1 := Rle_abs ((fl (1 / 3) - 1 / 3) * ln x)). assert (B2 := Rle_abs (- ((fl (1 / 3) - 1 / 3) * ln x))). rewrite Rabs_Ropp in B2.
  split.
  - replace (exp (1 / 3 * ln x)) with (exp (fl (1 / 3) * ln x) * exp (- ((fl (1 / 3) - 1 / 3) * ln x)))
      by (rewrite <- exp_plus; f_equal; ring).
    apply Rmult_le_compat_l; [left; apply exp_pos|]. apply exp_counts. lra.
  - replace (exp (fl (1 / 3) * ln x)) with (exp (1 / 3 * ln x) * exp ((fl (1 / 3) - 1 / 3) * ln x))
      by (rewrite <- exp_plus; f_equal; ring).
    apply Rmult_le_compat_l; [left; apply exp_pos|]. apply exp_counts. lra.
Qed.

Lemma third_double : double (fl (1 / 3)).
Proof.
  destruct (rnd_approx 2 (1 / 3)) as (y & E & _); [right; simpl; lra|lia|]. pose proof (rnd_fl _ _ E). subst y. eapply rnd_double. exact E.
Qed.
Lemma f_cube_root_close pw n b x y : good_power pw -> approx (3 * n) x y -> sized b x -> double y -> (b <= 900)%nat -> (Z.of_nat n <= 2 ^ 40)%Z ->
  exists a, f_cube_root pw y = Ok a /\ approx (n + (b + 4)) (cbrt x) a.
Proof.
  intros G A Sz D Lb Ln. destruct (Req_dec x 0) as [->|Nx].
  { assert (y = 0) as -> by (destruct A as (_ & A1 & A2); pose proof (un0 (3 * n)); nra).
    exists 0. unfold f_cube_root. destruct (Rlt_dec 0 0); [lra|]. destruct (Req_EM_T 0 0); [|lra]. split; [reflexivity|].
    rewrite cbrt_0. apply approx_refl. lra. }
  assert (P : 0 < x) by (pose proof (sized_nonneg _ _ Sz); lra).
  pose proof (approx_pos _ _ _ A P) as Py.
  assert (Sy : sized (S b) y) by (eapply sized_approx; [exact A|exact Sz|lia]).
  pose proof (approx_third (S b) y Sy Py) as A2.
  assert (Sp : sized (S (S b)) (Rpower y (fl (1 / 3)))) by (eapply sized_approx; [exact A2|apply sized_cbrt; exact Sy|lia]).
  assert (Pp : 0 < Rpower y (fl (1 / 3))) by apply exp_pos.
  assert (W : within (/ 2 ^ 52) (Rpower y (fl (1 / 3))) (pw y (fl (1 / 3)))).
  { apply G; [exact D|exact third_double|exact Py|]. destruct Sp as [Q|(Q1 & Q2)]; [lra|]. split.
    - eapply Rle_trans; [|exact Q1]. apply half_le. lia.
    - eapply Rle_trans; [exact Q2|]. apply two_le. lia. }
  exists (pw y (fl (1 / 3))). unfold f_cube_root. destruct (Rlt_dec y 0); [lra|]. destruct (Req_EM_T y 0); [lra|]. split; [reflexivity|].
  replace (n + (b + 4))%nat with (n + (S b + 3))%nat by lia. apply approx_trans with (cbrt y); [apply approx_cbrt; exact A|].
  apply approx_trans with (Rpower y (fl (1 / 3))); [exact A2|].
  assert (Q := within_approx 3 (/ 2 ^ 52) _ _ (Rlt_le _ _ Pp) W). apply Q.
  - left. apply half_pos.
  - pose proof (bernoulli 3) as B. simpl INR in B. pose proof u_small as U. pose proof u_pos as U0.
    assert (E : / 2 ^ 52 = 2 * u). { unfold u. cbn [pow]. field. } rewrite E.
    rewrite pow_IZR in U. simpl Z.pow in U. nra.
  - pose proof (bernoulli 3) as B. simpl INR in B. pose proof u_pos as U0.
    assert (E : / 2 ^ 52 = 2 * u). { unfold u. cbn [pow]. field. } rewrite E. lra.
Qed.

Lemma noisy_opp n M x y : noisy n M x y -> noisy n M (- x) (- y).
Proof.
  intros (A & B). split; [rewrite Rabs_Ropp; exact A|]. replace (- y - - x) with (- (y - x)) by ring. rewrite Rabs_Ropp. exact B.
Qed.
Lemma noisy_minus n M N x x' y y' : noisy n M x x' -> noisy n N y y' -> noisy n (M + N) (x - y) (x' - y').
Proof. intros A B. apply noisy_plus; [exact A|apply noisy_opp; exact B]. Qed.
Lemma sized_moderate x : 0 <= x -> moderate x -> sized 40 x.
Proof. intros P [H|H]; [left; exact H|right]. rewrite (Rabs_pos_eq x P) in H. exact H. Qed.
Lemma div_step n m a b x x' y y' : approx n x x' -> approx m y y' -> sized a x -> sized b y -> 0 < y ->
  (Z.of_nat (n + m) <= 2 ^ 50)%Z -> (a + b <= 1000)%nat -> exists z, f_np_div x' y' = Ok z /\ approx (S (n + m)) (x / y) z.
Proof.
  intros A B Sx Sy P L M. unfold f_np_div. pose proof (approx_pos _ _ _ B P) as P'. destruct (Req_EM_T y' 0); [lra|].
  apply (rnd_step (n + m) (a + b)); [apply approx_div; assumption|apply sized_div; assumption|exact L|exact M].
Qed.
Lemma sized_lit a c : / 2 ^ a <= c <= 2 ^ a -> sized a c. Proof. intros H. right. exact H. Qed.

Section HertzMindlin.
Variables (root : R -> R) (pw : R -> R -> R).
Hypothesis (Gr : good_root root) (Gp : good_power pw).
Variables (m : material) (phi p sr n : R).
Hypothesis Pack : grain_pack m phi sr n.
Hypothesis Hp : 0 <= p.
Hypothesis (Mk : moderate (bulk m)) (Mm : moderate (shear m)) (Md : moderate (dens m)).
Hypothesis (Mphi : moderate (1 - phi)) (Mp : moderate p) (Msr : moderate sr) (Mn : moderate n).

Let Sol : solid m. Proof. apply Pack. Qed.
Let Pk : 0 <= bulk m. Proof. destruct Sol as [[_ [K _]] _]. exact K. Qed.
Let Pm : 0 < shear m. Proof. apply Sol. Qed.
Let Pd : 0 < dens m. Proof. destruct Sol as [[D _] _]. exact D. Qed.
Let Pphi : 0 < 1 - phi. Proof. destruct Pack as [_ [H _]]. lra. Qed.
Let Psr : 0 <= sr. Proof. apply Pack. Qed.
Let Pn : 0 < n. Proof. apply Pack. Qed.
Let Zk : sized 40 (bulk m). Proof. apply sized_moderate; assumption. Qed.
Let Zm : sized 40 (shear m). Proof. apply sized_moderate; [lra|assumption]. Qed.
Let Zd : sized 40 (dens m). Proof. apply sized_moderate; [lra|assumption]. Qed.
Let Zphi : sized 40 (1 - phi). Proof. apply sized_moderate; [lra|assumption]. Qed.
Let Zp : sized 40 p. Proof. apply sized_moderate; assumption. Qed.
Let Zsr : sized 40 sr. Proof. apply sized_moderate; assumption. Qed.
Let Zn : sized 40 n. Proof. apply sized_moderate; [lra|assumption]. Qed.

Lemma nu_bounds : -1 <= nu m < 1 / 2. Proof. apply nu_ok, Sol. Qed.

Lemma poisson_close : exists v, f_poisson_ratio m = Ok v /\ noisy 8 1 (nu m) v.
Proof.
  unfold f_poisson_ratio.
  assert (Z3 : sized 42 (3 * bulk m)) by (apply (sized_mult 2 40); [apply sized_lit; simpl; lra|exact Zk]).
  destruct (rnd_approx 42 (3 * bulk m) Z3 ltac:(lia)) as (a & Ea & Aa). rewrite Ea. cbn [bind].
  assert (Z2 : sized 41 (2 * shear m)) by (apply (sized_mult 1 40); [apply sized_lit; simpl; lra|exact Zm]).
  destruct (rnd_approx 41 (2 * shear m) Z2 ltac:(lia)) as (b & Eb & Ab). rewrite Eb. cbn [bind].
  set (D := 2 * (3 * bulk m + shear m)). assert (PD : 0 < D) by (unfold D; lra).
  assert (Z1 : sized 43 (3 * bulk m + shear m)) by (apply sized_plus; [exact Z3|eapply sized_weaken; [|exact Zm]; lia]).
  assert (ZD : sized 44 D) by (apply (sized_mult 1 43); [apply sized_lit; simpl; lra|exact Z1]).
  assert (N1 : noisy 1 (3 * bulk m + 2 * shear m) (3 * bulk m - 2 * shear m) (a - b)).
  { apply noisy_minus; apply approx_noisy; try assumption; lra. }
  destruct (rnd_noisy_to 1 44 _ D _ _ N1 ltac:(unfold D; lra) ZD ltac:(lia) ltac:(lia)) as (num & En & An). rewrite En. cbn [bind].
  destruct (rnd_step 1 43 (3 * bulk m + shear m) (a + shear m)) as (c & Ec & Ac);
    [apply approx_plus; [exact Aa|apply approx_refl; lra]|exact Z1|lia|lia|]. rewrite Ec. cbn [bind].
  destruct (rnd_step (0 + 2) 44 D (2 * c)) as (den & Ed & Aden); [apply approx_mult; [apply approx_refl; lra|exact Ac]|exact ZD|lia|lia|].
  rewrite Ed. cbn [bind]. pose proof (approx_pos _ _ _ Aden PD) as Pden. unfold f_np_div. destruct (Req_EM_T den 0); [lra|].
  assert (AI : noisy 3 (/ D) (/ D) (/ den)).
  { apply approx_noisy; [apply approx_inv; assumption|]. split; [left; apply Rinv_0_lt_compat; exact PD|lra]. }
  pose proof (noisy_mult _ _ _ _ _ _ _ _ An AI) as N2. rewrite Rinv_r in N2 by lra.
  destruct (rnd_noisy (1 + 2 + 3) 1 1 _ _ N2 (sized_1 1) ltac:(lia) ltac:(lia)) as (v & Ev & Nv).
  exists v. split; [exact Ev|exact Nv].
Qed.

Lemma rest_of c v : 1 <= c <= 2 -> noisy 8 1 (nu m) v -> exists z, rnd (c - v) = Ok z /\ approx 240 (c - nu m) z.
Proof.
  intros Hc N. pose proof nu_bounds as V.
  assert (N1 : noisy 8 (2 + 1) (c - nu m) (c - v)) by (apply noisy_minus; [apply noisy_refl; rewrite Rabs_pos_eq; lra|exact N]).
  destruct (rnd_noisy_to 8 2 _ 3 _ _ N1 ltac:(lra) ltac:(apply sized_lit; simpl; lra) ltac:(lia) ltac:(lia)) as (z & E & A).
  exists z. split; [exact E|]. pose proof (noisy_within (8 + 2) 6 3 _ _ A ltac:(lra) ltac:(simpl; lra) ltac:(lia)) as W.
  replace (2 * INR (8 + 2) * INR 6 * u) with (INR 120 * u) in W by (rewrite (INR_IZR_INZ 120); simpl; ring).
  apply within_counts in W; [exact W|lra|lia].
Qed.

Let Qx : R := 3 * PI * (1 - nu m) * p.
Let Qy : R := 2 * n * (1 - phi) * shear m.
Let za : sized 166 (hm_a m phi n p).
Proof.
  pose proof nu_bounds as V. pose proof PI_4 as P4. pose proof PI2_3_2 as P3. apply sized_cbrt. apply (sized_div 45 121).
  - apply (sized_mult 5 40); [|exact Zp]. apply (sized_mult 4 1); [apply sized_lit; simpl; lra|apply sized_lit; simpl; lra].
  - apply (sized_mult 81 40); [|exact Zm]. apply (sized_mult 41 40); [|exact Zphi]. apply (sized_mult 1 40); [apply sized_lit; simpl; lra|exact Zn].
  - exact (hm_den _ _ _ _ Pack).
Qed.

Lemma f_hm_close : exists g, f_hertz_mindlin root pw m phi p sr n = Ok g /\
  approx 600 (hm_bulk m phi n p) (bulk g) /\ approx 600 (hm_shear m phi sr n p) (shear g) /\
  approx 600 ((1 - phi) * dens m) (dens g) /\
  approx 605 (sqrt ((hm_bulk m phi n p + 4 / 3 * hm_shear m phi sr n p) / ((1 - phi) * dens m))) (vp g) /\
  approx 605 (sqrt (hm_shear m phi sr n p / ((1 - phi) * dens m))) (vs g).
Proof.
  pose proof nu_bounds as V. pose proof PI_4 as P4. pose proof PI2_3_2 as P3.
  assert (P2 : 3 < PI) by lra.
  unfold f_hertz_mindlin. destruct poisson_close as (v & Ev & Nv). rewrite Ev. cbn [bind]. cbv zeta.
  destruct (rest_of 1 v ltac:(lra) Nv) as (o1 & E & A1). rewrite E. cbn [bind]. clear E.
  destruct (rest_of 2 v ltac:(lra) Nv) as (o2 & E & A2). rewrite E. cbn [bind]. clear E.
  destruct (rnd_approx 40 (1 - phi) Zphi ltac:(lia)) as (sol & E & As). rewrite E. cbn [bind]. clear E.
  assert (API : approx 1 PI (fl PI)). { apply fl_approx. apply Rle_trans with (/ 2 ^ 1); [apply half_le; lia|]. simpl. lra. }
  assert (ZO1 : sized 1 (1 - nu m)) by (apply sized_lit; simpl; lra).
  assert (ZO2 : sized 2 (2 - nu m)) by (apply sized_lit; simpl; lra).
  (* the radius of contact *)
  assert (L : forall c, 0 <= c -> approx 0 c c) by (intros; apply approx_refl; assumption).
  assert (z1 : sized 4 (3 * PI)) by (apply sized_lit; simpl; lra).
  destruct (rnd_step _ 4 _ _ (approx_mult _ _ _ _ _ _ (L 3 ltac:(lra)) API) z1 ltac:(lia) ltac:(lia)) as (x1 & E & X1). rewrite E. cbn [bind]. clear E.
  assert (z2 : sized 5 (3 * PI * (1 - nu m))) by (apply (sized_mult 4 1); assumption).
  destruct (rnd_step _ 5 _ _ (approx_mult _ _ _ _ _ _ X1 A1) z2 ltac:(lia) ltac:(lia)) as (x2 & E & X2). rewrite E. cbn [bind]. clear E.
  assert (z3 : sized 45 (3 * PI * (1 - nu m) * p)) by (apply (sized_mult 5 40); assumption).
  destruct (rnd_step _ 45 _ _ (approx_mult _ _ _ _ _ _ X2 (L p Hp)) z3 ltac:(lia) ltac:(lia)) as (x3 & E & X3). rewrite E. cbn [bind]. clear E.
  assert (w1 : sized 41 (2 * n)) by (apply (sized_mult 1 40); [apply sized_lit; simpl; lra|exact Zn]).
  destruct (rnd_approx 41 _ w1 ltac:(lia)) as (y1 & E & Y1). rewrite E. cbn [bind]. clear E.
  assert (w2 : sized 81 (2 * n * (1 - phi))) by (apply (sized_mult 41 40); assumption).
  destruct (rnd_step _ 81 _ _ (approx_mult _ _ _ _ _ _ Y1 As) w2 ltac:(lia) ltac:(lia)) as (y2 & E & Y2). rewrite E. cbn [bind]. clear E.
  assert (w3 : sized 121 (2 * n * (1 - phi) * shear m)) by (apply (sized_mult 81 40); assumption).
  destruct (rnd_step _ 121 _ _ (approx_mult _ _ _ _ _ _ Y2 (L (shear m) (Rlt_le _ _ Pm))) w3 ltac:(lia) ltac:(lia)) as (y3 & E & Y3). rewrite E. cbn [bind]. clear E.
  pose proof (hm_den _ _ _ _ Pack) as Pden.
  destruct (div_step _ _ 45 121 _ _ _ _ X3 Y3 z3 w3 Pden ltac:(lia) ltac:(lia)) as (q & E & Q).
  assert (Dq : double q). { unfold f_np_div in E. destruct (Req_EM_T y3 0); [discriminate|]. eapply rnd_double; exact E. }
  rewrite E. cbn [bind]. clear E.
  assert (Q' : approx (3 * 84) (3 * PI * (1 - nu m) * p / (2 * n * (1 - phi) * shear m)) q) by (eapply approx_weaken; [|exact Q]; lia).
  assert (zq : sized 166 (3 * PI * (1 - nu m) * p / (2 * n * (1 - phi) * shear m))) by (apply (sized_div 45 121); assumption).
  destruct (f_cube_root_close pw 84 166 _ q Gp Q' zq Dq ltac:(lia) ltac:(lia)) as (a & E & A). rewrite E. cbn [bind]. clear E.
  fold (hm_a m phi n p) in A.
  pose proof (cbrt_nonneg (3 * PI * (1 - nu m) * p / (2 * n * (1 - phi) * shear m))) as Pa. fold (hm_a m phi n p) in Pa.
  (* stiffness of the contacts *)
  assert (s1 : sized 168 (4 * hm_a m phi n p)) by (apply (sized_mult 2 166); [apply sized_lit; simpl; lra|exact za]).
  destruct (rnd_step _ 168 _ _ (approx_mult _ _ _ _ _ _ (L 4 ltac:(lra)) A) s1 ltac:(lia) ltac:(lia)) as (a1 & E & B1). rewrite E. cbn [bind]. clear E.
  assert (s2 : sized 208 (4 * hm_a m phi n p * shear m)) by (apply (sized_mult 168 40); assumption).
  destruct (rnd_step _ 208 _ _ (approx_mult _ _ _ _ _ _ B1 (L (shear m) (Rlt_le _ _ Pm))) s2 ltac:(lia) ltac:(lia)) as (a2 & E & B2). rewrite E. cbn [bind]. clear E.
  destruct (div_step _ _ 208 1 _ _ _ _ B2 A1 s2 ZO1 ltac:(lra) ltac:(lia) ltac:(lia)) as (sn & E & SN). rewrite E. cbn [bind]. clear E.
  assert (zsn : sized 209 (4 * hm_a m phi n p * shear m / (1 - nu m))) by (apply (sized_div 208 1); [assumption|assumption|lra]).
  assert (t1 : sized 169 (8 * hm_a m phi n p)) by (apply (sized_mult 3 166); [apply sized_lit; simpl; lra|exact za]).
  destruct (rnd_step _ 169 _ _ (approx_mult _ _ _ _ _ _ (L 8 ltac:(lra)) A) t1 ltac:(lia) ltac:(lia)) as (b1 & E & C1). rewrite E. cbn [bind]. clear E.
  assert (t2 : sized 209 (8 * hm_a m phi n p * shear m)) by (apply (sized_mult 169 40); assumption).
  destruct (rnd_step _ 209 _ _ (approx_mult _ _ _ _ _ _ C1 (L (shear m) (Rlt_le _ _ Pm))) t2 ltac:(lia) ltac:(lia)) as (b2 & E & C2). rewrite E. cbn [bind]. clear E.
  destruct (div_step _ _ 209 2 _ _ _ _ C2 A2 t2 ZO2 ltac:(lra) ltac:(lia) ltac:(lia)) as (st & E & ST). rewrite E. cbn [bind]. clear E.
  assert (zst : sized 211 (8 * hm_a m phi n p * shear m / (2 - nu m))) by (apply (sized_div 209 2); [assumption|assumption|lra]).
  (* bulk modulus *)
  assert (k1 : sized 80 (n * (1 - phi))) by (apply (sized_mult 40 40); assumption).
  destruct (rnd_step _ 80 _ _ (approx_mult _ _ _ _ _ _ (L n (Rlt_le _ _ Pn)) As) k1 ltac:(lia) ltac:(lia)) as (d1 & E & D1). rewrite E. cbn [bind]. clear E.
  assert (k2 : sized 6 (12 * PI)) by (apply sized_lit; simpl; lra).
  destruct (rnd_step _ 6 _ _ (approx_mult _ _ _ _ _ _ (L 12 ltac:(lra)) API) k2 ltac:(lia) ltac:(lia)) as (d2 & E & D2). rewrite E. cbn [bind]. clear E.
  destruct (div_step _ _ 80 6 _ _ _ _ D1 D2 k1 k2 ltac:(lra) ltac:(lia) ltac:(lia)) as (d3 & E & D3). rewrite E. cbn [bind]. clear E.
  assert (k3 : sized 86 (n * (1 - phi) / (12 * PI))) by (apply (sized_div 80 6); [assumption|assumption|lra]).
  assert (zbulk : sized 295 (hm_bulk m phi n p)) by (apply (sized_mult 86 209); assumption).
  destruct (rnd_step _ 295 _ _ (approx_mult _ _ _ _ _ _ D3 SN) zbulk ltac:(lia) ltac:(lia)) as (kk & E & KK). rewrite E. cbn [bind]. clear E.
  (* shear modulus *)
  assert (k4 : sized 7 (20 * PI)) by (apply sized_lit; simpl; lra).
  destruct (rnd_step _ 7 _ _ (approx_mult _ _ _ _ _ _ (L 20 ltac:(lra)) API) k4 ltac:(lia) ltac:(lia)) as (e1 & E & E1). rewrite E. cbn [bind]. clear E.
  destruct (div_step _ _ 80 7 _ _ _ _ D1 E1 k1 k4 ltac:(lra) ltac:(lia) ltac:(lia)) as (e2 & E & E2). rewrite E. cbn [bind]. clear E.
  assert (k5 : sized 87 (n * (1 - phi) / (20 * PI))) by (apply (sized_div 80 7); [assumption|assumption|lra]).
  assert (r1 : sized 212 (15 / 10 * (8 * hm_a m phi n p * shear m / (2 - nu m)))) by (apply (sized_mult 1 211); [apply sized_lit; simpl; lra|assumption]).
  destruct (rnd_step _ 212 _ _ (approx_mult _ _ _ _ _ _ (L (15 / 10) ltac:(lra)) ST) r1 ltac:(lia) ltac:(lia)) as (f1 & E & F1). rewrite E. cbn [bind]. clear E.
  assert (r2 : sized 252 (15 / 10 * (8 * hm_a m phi n p * shear m / (2 - nu m)) * sr)) by (apply (sized_mult 212 40); assumption).
  destruct (rnd_step _ 252 _ _ (approx_mult _ _ _ _ _ _ F1 (L sr Psr)) r2 ltac:(lia) ltac:(lia)) as (f2 & E & F2). rewrite E. cbn [bind]. clear E.
  assert (r3 : sized 253 (4 * hm_a m phi n p * shear m / (1 - nu m) + 15 / 10 * (8 * hm_a m phi n p * shear m / (2 - nu m)) * sr)).
  { apply sized_plus; [eapply sized_weaken; [|exact zsn]; lia|exact r2]. }
  destruct (rnd_step 550 253 (4 * hm_a m phi n p * shear m / (1 - nu m) + 15 / 10 * (8 * hm_a m phi n p * shear m / (2 - nu m)) * sr) (sn + f2)) as (f3 & E & F3);
    [apply approx_plus; (eapply approx_weaken; [|eassumption]; lia)|exact r3|lia|lia|]. rewrite E. cbn [bind]. clear E.
  assert (zshear : sized 340 (hm_shear m phi sr n p)) by (apply (sized_mult 87 253); assumption).
  destruct (rnd_step _ 340 _ _ (approx_mult _ _ _ _ _ _ E2 F3) zshear ltac:(lia) ltac:(lia)) as (mm & E & MM). rewrite E. cbn [bind]. clear E.
  assert (zden : sized 80 (dens m * (1 - phi))) by (apply (sized_mult 40 40); assumption).
  destruct (rnd_step _ 80 _ _ (approx_mult _ _ _ _ _ _ (L (dens m) (Rlt_le _ _ Pd)) As) zden ltac:(lia) ltac:(lia)) as (dd & E & DD). rewrite E. cbn [bind]. clear E.
  rewrite (Rmult_comm (1 - phi)).
  assert (F600 : approx 600 (hm_bulk m phi n p) kk) by (eapply approx_weaken; [|exact KK]; lia).
  assert (G600 : approx 600 (hm_shear m phi sr n p) mm) by (eapply approx_weaken; [|exact MM]; lia).
  assert (H600 : approx 600 (dens m * (1 - phi)) dd) by (eapply approx_weaken; [|exact DD]; lia).
  destruct (f_moduli_close root Gr 600 _ _ _ _ _ _ ltac:(lia) F600 G600 H600
    ltac:(eapply sized_weaken; [|exact zbulk]; lia) ltac:(eapply sized_weaken; [|exact zshear]; lia)
    ltac:(eapply sized_weaken; [|exact zden]; lia) ltac:(apply Rmult_lt_0_compat; assumption)) as (vp' & vs' & E & VP & VS).
  - rewrite (hm_shear_bulk m phi sr n p Pack).
    pose proof (hm_bulk_nonneg m phi sr n p Pack Hp) as Kn. set (c := 3 / 5 * (1 + 3 * sr * (1 - nu m) / (2 - nu m))).
    pose proof (factor_bound (4 * 600 + 28) ltac:(lia)) as Fb. pose proof (un (4 * 600 + 28)) as Fp.
    assert (Hsr : sr <= 2 ^ 40) by (destruct Zsr as [->|[_ H]]; [left; apply two_pos|exact H]).
    assert (Hc : 0 <= c <= 3 / 5 * (1 + 2 * 2 ^ 40)).
    { assert (X : 0 <= (1 - nu m) / (2 - nu m) <= 2 / 3).
      { split; [apply div_nonneg; lra|]. apply Rmult_le_reg_r with (2 - nu m); [lra|]. unfold Rdiv at 1. rewrite Rmult_assoc, Rinv_l by lra. lra. }
      assert (Y : 3 * sr * (1 - nu m) / (2 - nu m) = 3 * sr * ((1 - nu m) / (2 - nu m))) by (unfold Rdiv; ring).
      unfold c. rewrite Y. assert (3 * sr * ((1 - nu m) / (2 - nu m)) <= 3 * sr * (2 / 3)) by (apply Rmult_le_compat_l; lra).
      assert (0 <= 3 * sr * ((1 - nu m) / (2 - nu m))) by (apply Rmult_le_pos; lra). lra. }
    set (F := (1 + u) ^ (4 * 600 + 28) - 1) in *.
    assert (HF : 0 <= F <= 4856 * u). { split; [unfold F; lra|]. unfold F. rewrite (INR_IZR_INZ (4 * 600 + 28)) in Fb. simpl Z.of_nat in Fb. lra. }
    assert (HcF : c * F <= 3 / 5 * (1 + 2 * 2 ^ 40) * (4856 * u)) by (apply Rmult_le_compat; tauto).
    assert (3 / 5 * (1 + 2 * 2 ^ 40) * (4856 * u) <= 3 / 4). { unfold u. rewrite !pow_IZR. simpl Z.pow. lra. }
    replace (4 / 3 * (c * hm_bulk m phi n p) * F) with (4 / 3 * (c * F) * hm_bulk m phi n p) by ring. nra.
  - rewrite E. exists (mkMat kk mm dd vp' vs'). split; [reflexivity|]. cbn [bulk shear dens vp vs].
    split; [exact F600|]. split; [exact G600|]. split; [exact H600|]. split; [exact VP|]. eapply approx_weaken; [|exact VS]. lia.
Qed.
End HertzMindlin.

Lemma cube_eq x y : x ^ 3 = y ^ 3 -> x = y.
Proof.
  intros H. assert (E : (x - y) * (x * x + x * y + y * y) = 0) by (simpl in H; rewrite !Rmult_1_r in H; lra).
  apply Rmult_integral in E. destruct E as [E|E]; [lra|].
  assert (x * x + x * y + y * y = ((2 * x + y) * (2 * x + y) + 3 * (y * y)) / 4) by field.
  pose proof (Rle_0_sqr (2 * x + y)) as A. pose proof (Rle_0_sqr y) as B. unfold Rsqr in *.
  assert (y * y = 0) by lra. assert (y = 0) by (apply Rmult_integral in H1; tauto). subst y.
  assert (x * x = 0) by lra. apply Rmult_integral in H2. tauto.
Qed.
Lemma pack_values m phi p sr n g : grain_pack m phi sr n -> 0 <= p -> hertz_mindlin_pack m phi p sr n g ->
  bulk g = hm_bulk m phi n p /\ shear g = hm_shear m phi sr n p /\ dens g = (1 - phi) * dens m.
Proof.
  intros G Hp (A & B & C). destruct (hm_published m phi p sr n G Hp) as (g0 & E & A0 & B0 & C0).
  destruct (hm_value m phi p sr n G Hp) as (g1 & E1 & _ & K1 & M1 & D1). assert (g1 = g0) by congruence. subst g1.
  assert (V : -1 <= poisson m < 1 / 2) by (apply nu_ok; apply G).
  split; [rewrite <- K1; apply cube_eq; congruence|]. split; [|exact C].
  rewrite <- M1. assert (Q : 5 * (2 - poisson m) * shear g = 5 * (2 - poisson m) * shear g0) by (apply cube_eq; congruence).
  apply Rmult_eq_reg_l in Q; [exact Q|lra].
Qed.

(** The same mineral with its velocities not rounded. *)
Definition exact (m : material) : material :=
  mkMat (bulk m) (shear m) (dens m) (sqrt ((bulk m + 4 / 3 * shear m) / dens m)) (sqrt (shear m / dens m)).
Lemma exact_solid m : 0 <= bulk m -> 0 < shear m -> 0 < dens m -> solid (exact m).
Proof.
  intros K S' D. unfold solid, wf, is_material, exact. cbn [bulk shear dens vp vs].
  assert (A : 0 <= (bulk m + 4 / 3 * shear m) / dens m) by (apply div_nonneg; lra).
  assert (B : 0 <= shear m / dens m) by (apply div_nonneg; lra).
  rewrite !sqrt_sqrt by assumption. repeat split; try lra; try apply sqrt_pos; field; lra.
Qed.

Definition grains (m : material) (phi sr n : R) : Prop :=
  0 <= bulk m /\ 0 < shear m /\ 0 < dens m /\ 0 <= phi < 1 /\ 0 <= sr /\ 0 < n /\
  moderate (bulk m) /\ moderate (shear m) /\ moderate (dens m) /\ moderate (1 - phi) /\ moderate sr /\ moderate n.

Lemma f_hm_grains root pw m phi p sr n pack : good_root root -> good_power pw ->
  grains m phi sr n -> 0 <= p -> moderate p -> hertz_mindlin_pack m phi p sr n pack ->
  exists g, f_hertz_mindlin root pw m phi p sr n = Ok g /\
  approx 600 (bulk pack) (bulk g) /\ approx 600 (shear pack) (shear g) /\ approx 600 (dens pack) (dens g) /\
  approx 605 (sqrt ((bulk pack + 4 / 3 * shear pack) / dens pack)) (vp g) /\
  approx 605 (sqrt (shear pack / dens pack)) (vs g).
Proof.
  intros Gr Gp (K & S' & D & F & R & N & Mk & Mm & Md & Mphi & Msr & Mn) Hp Mp P.
  assert (G : grain_pack (exact m) phi sr n) by (split; [apply exact_solid; assumption|tauto]).
  destruct (pack_values (exact m) phi p sr n pack G Hp P) as (-> & -> & ->).
  exact (f_hm_close root pw Gr Gp (exact m) phi p sr n G Hp Mk Mm Md Mphi Mp Msr Mn).
Qed.

Lemma f_hm_published root pw m phi p sr n pack : good_root root -> good_power pw ->
  0 <= bulk m -> 0 < shear m -> 0 < dens m -> 0 <= phi < 1 -> 0 <= p -> 0 <= sr -> 0 < n ->
  moderate (bulk m) -> moderate (shear m) -> moderate (dens m) ->
  moderate (1 - phi) -> moderate p -> moderate sr -> moderate n ->
  hertz_mindlin_pack m phi p sr n pack ->
  exists g, f_hertz_mindlin root pw m phi p sr n = Ok g /\
    within (/ 2 ^ 42) (bulk pack) (bulk g) /\ within (/ 2 ^ 42) (shear pack) (shear g) /\ within (/ 2 ^ 42) (dens pack) (dens g) /\
    within (/ 2 ^ 42) (sqrt ((bulk pack + 4 / 3 * shear pack) / dens pack)) (vp g) /\
    within (/ 2 ^ 42) (sqrt (shear pack / dens pack)) (vs g).
Proof.
  intros Gr Gp K S' D F Hp R N Mk Mm Md Mphi Mp Msr Mn P.
  destruct (f_hm_grains root pw m phi p sr n pack Gr Gp ltac:(unfold grains; tauto) Hp Mp P) as (g & E & A & B & C & V & W').
  assert (Q : 2 * INR 605 * u <= / 2 ^ 42). { unfold u. rewrite (INR_IZR_INZ 605). simpl Z.of_nat. rewrite !pow_IZR. simpl Z.pow. lra. }
  assert (W : forall x y, approx 600 x y -> within (/ 2 ^ 42) x y).
  { intros x y H. apply (approx_bound 605); [eapply approx_weaken; [|exact H]; lia|lia|exact Q]. }
  exists g. split; [exact E|]. split; [apply W; exact A|]. split; [apply W; exact B|]. split; [apply W; exact C|].
  split; (apply (approx_bound 605); [assumption|lia|exact Q]).
Qed.

(** A power that is good: the nearest double. *)
Lemma nearest_power_good : good_power (fun x y => fl (Rpower x y)).
Proof.
  intros x y _ _ _ (L & _).
  assert (A : approx 1 (Rpower x y) (fl (Rpower x y))).
  { apply fl_approx. eapply Rle_trans; [|exact L]. apply half_le. lia. }
  apply (approx_bound 1); [exact A|lia|]. unfold u. simpl INR. cbn [pow]. lra.
Qed.
