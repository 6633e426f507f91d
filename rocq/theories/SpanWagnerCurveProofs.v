(** Saturation curves and the bracket of the density search. *)
From Coq Require Import String List ZArith Reals Lra Lia.
From Verif Require Import Base BaseProofs Spec MaterialModel FluidModel SpanWagnerModel SpanWagnerSpec SpanWagnerProofs.
Import ListNotations.
Open Scope R_scope.

(** ** Powers *)
Lemma pw_pos : forall x a, 0 < Rpower x a.
Proof. intros x a. apply exp_pos. Qed.
Lemma pw_anti : forall t a b, 0 < t <= 1 -> a <= b -> Rpower t b <= Rpower t a.
Proof.
  intros t a b [H0 H1] L. unfold Rpower.
  assert (N : ln t <= 0).
  { destruct (Rle_lt_or_eq_dec t 1 H1) as [S| ->]; [|rewrite ln_1; lra].
    rewrite <- ln_1. apply Rlt_le, ln_increasing; assumption. }
  destruct (Rle_lt_or_eq_dec (b * ln t) (a * ln t)) as [S| ->]; [nra|apply Rlt_le, exp_increasing, S|lra].
Qed.
Lemma pw_base : forall s t a, 0 < s <= t -> 0 < a -> Rpower s a <= Rpower t a.
Proof. intros s t a [H0 H1] Ha. apply Rle_Rpower_l; lra. Qed.
Lemma pw_base_lt : forall s t a, 0 < s < t -> 0 < a -> Rpower s a < Rpower t a.
Proof. intros s t a [H0 H1] Ha. apply Rlt_Rpower_l; lra. Qed.
Lemma pw_nat : forall t n, 0 < t -> Rpower t (INR n) = t ^ n.
Proof. intros t n H. apply Rpower_pow, H. Qed.
Lemma pw_le_nat : forall t n a, 0 < t <= 1 -> INR n <= a -> Rpower t a <= t ^ n.
Proof. intros t n a H L. rewrite <- (pw_nat t n) by lra. apply pw_anti; assumption. Qed.
Lemma pw_ge_nat : forall t n a, 0 < t <= 1 -> a <= INR n -> t ^ n <= Rpower t a.
Proof. intros t n a H L. rewrite <- (pw_nat t n) by lra. apply pw_anti; assumption. Qed.
(** t^a <= b when t <= b^n and 1/n <= a, for t <= 1. *)
Lemma pw_root : forall t b a n, 0 < t <= 1 -> 0 < b -> t <= b ^ S n -> / INR (S n) <= a -> Rpower t a <= b.
Proof.
  intros t b a n Ht Hb L A.
  eapply Rle_trans; [apply (pw_anti t (/ INR (S n)) a Ht A)|].
  assert (P : 0 < INR (S n)) by (apply lt_0_INR; lia).
  eapply Rle_trans; [apply (pw_base t (b ^ S n)); [lra|apply Rinv_0_lt_compat, P]|].
  rewrite <- Rpower_pow by exact Hb. rewrite Rpower_mult, Rinv_r, Rpower_1 by lra. lra.
Qed.
Lemma pw_root_ge : forall t b a n, 0 < b -> b ^ S n <= t <= 1 -> a <= / INR (S n) -> b <= Rpower t a.
Proof.
  intros t b a n Hb L A. pose proof (pow_lt b (S n) Hb).
  eapply Rle_trans; [|apply (pw_anti t a (/ INR (S n)) ltac:(lra) A)].
  assert (P : 0 < INR (S n)) by (apply lt_0_INR; lia).
  eapply Rle_trans; [|apply (pw_base (b ^ S n) t); [lra|apply Rinv_0_lt_compat, P]].
  rewrite <- Rpower_pow by exact Hb. rewrite Rpower_mult, Rinv_r, Rpower_1 by lra. lra.
Qed.
Lemma exp_upper : forall x, 0 <= x < 1 -> exp x <= 1 / (1 - x).
Proof.
  intros x H. pose proof (exp_ineq1_le (- x)) as L. pose proof (exp_pos (- x)).
  replace x with (- - x) at 1 by ring. rewrite exp_Ropp. unfold Rdiv. rewrite Rmult_1_l.
  apply Rinv_le_contravar; lra.
Qed.

(** ** The curves as formulas *)
Definition tc (T : R) : R := 1 - T / CO2_CRITICAL_TEMPERATURE.
Definition tt (T : R) : R := 1 - T / CO2_TRIPLE_TEMPERATURE.
Lemma tc_pos : forall T, T < CO2_CRITICAL_TEMPERATURE -> 0 < tc T.
Proof.
  intros T H. pose proof Tc_pos. unfold tc. apply Rlt_Rminus.
  apply (Rmult_lt_reg_r CO2_CRITICAL_TEMPERATURE); [assumption|]. unfold Rdiv. rewrite Rmult_assoc, Rinv_l; lra.
Qed.
Lemma tc_lt1 : forall T, 0 < T -> tc T < 1.
Proof. intros T H. pose proof (Rdiv_lt_0_compat T _ H Tc_pos). unfold tc. lra. Qed.
Lemma tc_decr : forall S T, S < T -> tc T < tc S.
Proof.
  intros S T H. unfold tc. assert (S / CO2_CRITICAL_TEMPERATURE < T / CO2_CRITICAL_TEMPERATURE); [|lra].
  apply Rmult_lt_compat_r; [apply Rinv_0_lt_compat, Tc_pos|exact H].
Qed.
Lemma tc_triple : forall T, CO2_TRIPLE_TEMPERATURE <= T -> tc T <= 288 / 1000.
Proof.
  intros T H. unfold tc. assert (CO2_TRIPLE_TEMPERATURE / CO2_CRITICAL_TEMPERATURE <= T / CO2_CRITICAL_TEMPERATURE).
  { apply Rmult_le_compat_r; [apply Rlt_le, Rinv_0_lt_compat, Tc_pos|exact H]. }
  assert (712 / 1000 <= CO2_TRIPLE_TEMPERATURE / CO2_CRITICAL_TEMPERATURE)
    by (unfold CO2_TRIPLE_TEMPERATURE, CO2_CRITICAL_TEMPERATURE; lra).
  lra.
Qed.

Definition vap_inner (t : R) : R :=
  - (17074879 / 10 ^ 7) * Rpower t (34 / 100) + - (82274670 / 10 ^ 8) * Rpower t (5 / 10) + - (46008549 / 10 ^ 7) * t
  + - (10111178 / 10 ^ 6) * Rpower t (7 / 3) + - (29742252 / 10 ^ 6) * Rpower t (14 / 3).
Definition liq_inner (t : R) : R :=
  19245108 / 10 ^ 7 * Rpower t (34 / 100) + - (62385555 / 10 ^ 8) * Rpower t (5 / 10)
  + - (32731127 / 10 ^ 8) * Rpower t (10 / 6) + 39245142 / 10 ^ 8 * Rpower t (11 / 6).
Definition vp_inner (t : R) : R :=
  - (70602087 / 10 ^ 7) * t + 19391218 / 10 ^ 7 * Rpower t (15 / 10) + - (16463597 / 10 ^ 7) * t ^ 2
  + - (32995634 / 10 ^ 7) * t ^ 4.
Lemma vap_ok : forall T, T < CO2_CRITICAL_TEMPERATURE ->
  saturated_vapor_density T = Ok (CO2_CRITICAL_DENSITY * exp (vap_inner (tc T))).
Proof.
  intros T H. pose proof (tc_pos T H) as P. unfold saturated_vapor_density. fold (tc T).
  rewrite !np_pow_pos by exact P. reflexivity.
Qed.
Lemma liq_ok : forall T, T < CO2_CRITICAL_TEMPERATURE ->
  saturated_liquid_density T = Ok (CO2_CRITICAL_DENSITY * exp (liq_inner (tc T))).
Proof.
  intros T H. pose proof (tc_pos T H) as P. unfold saturated_liquid_density. fold (tc T).
  rewrite !np_pow_pos by exact P. reflexivity.
Qed.
Lemma vp_ok : forall T, 0 < T < CO2_CRITICAL_TEMPERATURE ->
  vapor_pressure T = Ok (CO2_CRITICAL_PRESSURE * exp (vp_inner (tc T) / (1 - tc T))).
Proof.
  intros T [H0 H]. pose proof (tc_pos T H) as P. pose proof (tc_lt1 T H0) as Q. unfold vapor_pressure. fold (tc T).
  rewrite !np_pow_pos by exact P. cbn [bind]. rewrite np_div_ok by lra.
  replace 1 with (INR 1) by reflexivity.
  rewrite Rpower_1 by exact P. replace (Rpower (tc T) 2) with (tc T ^ 2).
  2:{ rewrite <- (pw_nat (tc T) 2) by exact P. f_equal; cbn; lra. }
  replace (Rpower (tc T) 4) with (tc T ^ 4).
  2:{ rewrite <- (pw_nat (tc T) 4) by exact P. f_equal; cbn; lra. }
  reflexivity.
Qed.

Lemma vap_neg : forall t, 0 < t -> vap_inner t < 0.
Proof.
  intros t H. unfold vap_inner. pose proof (pw_pos t (34 / 100)). pose proof (pw_pos t (5 / 10)).
  pose proof (pw_pos t (7 / 3)). pose proof (pw_pos t (14 / 3)). lra.
Qed.
Lemma liq_pos : forall t, 0 < t <= 1 -> 0 < liq_inner t.
Proof.
  intros t H. unfold liq_inner. pose proof (pw_pos t (34 / 100)). pose proof (pw_pos t (11 / 6)).
  pose proof (pw_anti t (34 / 100) (5 / 10) H ltac:(lra)). pose proof (pw_anti t (34 / 100) (10 / 6) H ltac:(lra)). lra.
Qed.
Lemma times_exp_lt : forall c x y, 0 < c -> x < y -> c * exp x < c * exp y.
Proof. intros c x y Hc H. apply Rmult_lt_compat_l; [exact Hc|]. apply exp_increasing, H. Qed.
Lemma below_critical_density : forall t, 0 < t -> CO2_CRITICAL_DENSITY * exp (vap_inner t) < CO2_CRITICAL_DENSITY.
Proof.
  intros t H. pose proof (times_exp_lt CO2_CRITICAL_DENSITY _ _ rc_pos (vap_neg t H)) as L. rewrite exp_0 in L. lra.
Qed.
Lemma above_critical_density : forall t, 0 < t <= 1 -> CO2_CRITICAL_DENSITY < CO2_CRITICAL_DENSITY * exp (liq_inner t).
Proof.
  intros t H. pose proof (times_exp_lt CO2_CRITICAL_DENSITY _ _ rc_pos (liq_pos t H)) as L. rewrite exp_0 in L. lra.
Qed.

(** Bounds between the triple and the critical temperature. *)
Lemma vap_lower : forall t, 0 < t <= 288 / 1000 -> 1 < CO2_CRITICAL_DENSITY * exp (vap_inner t).
Proof.
  intros t H. assert (H1 : 0 < t <= 1) by lra.
  pose proof (pw_le_nat t 0 (34 / 100) H1 ltac:(cbn; lra)) as A. pose proof (pw_le_nat t 0 (5 / 10) H1 ltac:(cbn; lra)) as B.
  pose proof (pw_le_nat t 2 (7 / 3) H1 ltac:(cbn; lra)) as C. pose proof (pw_le_nat t 4 (14 / 3) H1 ltac:(cbn; lra)) as D.
  assert (T2 : t ^ 2 <= (288 / 1000) ^ 2) by (apply pow_incr; lra).
  assert (T4 : t ^ 4 <= (288 / 1000) ^ 4) by (apply pow_incr; lra).
  assert (L : -5 <= vap_inner t) by (unfold vap_inner; cbn [pow] in *; lra).
  assert (E : exp (-5) <= exp (vap_inner t)) by (destruct L as [L|L]; [apply Rlt_le, exp_increasing, L|rewrite L; lra]).
  assert (F : / 3 ^ 5 <= exp (-5)).
  { replace (-5) with (- (INR 5 * 1)) by (cbn; lra). rewrite exp_Ropp.
    apply Rinv_le_contravar; [apply exp_pos|].
    assert (G : exp (INR 5 * 1) = exp 1 ^ 5) by (cbn [INR pow]; rewrite !Rmult_1_r, !exp_plus; ring).
    rewrite G. apply pow_incr. split; [apply Rlt_le, exp_pos|apply exp_le_3]. }
  assert (K : 1 < CO2_CRITICAL_DENSITY * / 3 ^ 5) by (unfold CO2_CRITICAL_DENSITY; lra).
  eapply Rlt_le_trans; [exact K|]. apply Rmult_le_compat_l; [apply Rlt_le, rc_pos|]. lra.
Qed.
Lemma liq_upper : forall t, 0 < t <= 288 / 1000 -> CO2_CRITICAL_DENSITY * exp (liq_inner t) < 1500.
Proof.
  intros t H. assert (H1 : 0 < t <= 1) by lra.
  assert (A : Rpower t (34 / 100) <= 6604 / 10000) by (apply (pw_root t (6604 / 10000) (34 / 100) 2); cbn; lra).
  pose proof (pw_pos t (10 / 6)) as P3. pose proof (pw_pos t (5 / 10)) as P2.
  pose proof (pw_anti t (10 / 6) (11 / 6) H1 ltac:(lra)) as C.
  pose proof (pw_le_nat t 1 (10 / 6) H1 ltac:(cbn; lra)) as D. rewrite pow_1 in D.
  assert (L : liq_inner t <= 105 / 100).
  { unfold liq_inner. destruct (Rle_dec t (15 / 100)) as [S|S].
    - assert (B : Rpower t (34 / 100) <= 5314 / 10000) by (apply (pw_root t (5314 / 10000) (34 / 100) 2); cbn; lra). lra.
    - assert (B : 387 / 1000 <= Rpower t (5 / 10)) by (apply (pw_root_ge t (387 / 1000) (5 / 10) 1); cbn; lra). lra. }
  assert (E : exp (liq_inner t) <= exp (105 / 100)) by (destruct L as [L|L]; [apply Rlt_le, exp_increasing, L|rewrite L; lra]).
  assert (F : exp (105 / 100) <= 3 * (1 / (1 - 5 / 100))).
  { replace (105 / 100) with (1 + 5 / 100) by lra. rewrite exp_plus.
    apply Rmult_le_compat; try (apply Rlt_le, exp_pos); [apply exp_le_3|apply exp_upper; lra]. }
  assert (K : CO2_CRITICAL_DENSITY * (3 * (1 / (1 - 5 / 100))) < 1500) by (unfold CO2_CRITICAL_DENSITY; lra).
  eapply Rle_lt_trans; [|exact K]. apply Rmult_le_compat_l; [apply Rlt_le, rc_pos|]. lra.
Qed.

(** ** Phases *)
Lemma triple_below_critical : CO2_TRIPLE_TEMPERATURE < CO2_CRITICAL_TEMPERATURE.
Proof. unfold CO2_TRIPLE_TEMPERATURE, CO2_CRITICAL_TEMPERATURE. lra. Qed.

Lemma bounds_phase : forall T p, CO2_TRIPLE_TEMPERATURE <= T < CO2_CRITICAL_TEMPERATURE ->
  exists pv v l, vapor_pressure T = Ok pv /\ saturated_vapor_density T = Ok v /\ saturated_liquid_density T = Ok l /\
    1 / 10 < v /\ v < CO2_CRITICAL_DENSITY /\ CO2_CRITICAL_DENSITY < l /\ l < 1500 /\
    density_bounds T p ForceVapor = Ok (1 / 10, v) /\
    density_bounds T p ForceLiquid = Ok (l, 1500) /\
    (p < pv -> density_bounds T p Auto = Ok (1 / 10, v)) /\
    (pv <= p -> density_bounds T p Auto = Ok (l, 1500)).
Proof.
  intros T p [H1 H2].
  assert (H0 : 0 < T) by (unfold CO2_TRIPLE_TEMPERATURE in H1; lra).
  pose proof (tc_pos T H2) as P. pose proof (tc_triple T H1) as Q.
  pose proof (vp_ok T ltac:(lra)) as V. pose proof (vap_ok T H2) as A. pose proof (liq_ok T H2) as L.
  do 3 eexists. split; [exact V|]. split; [exact A|]. split; [exact L|].
  split; [pose proof (vap_lower (tc T) ltac:(lra)); lra|]. split; [apply below_critical_density, P|].
  split; [apply above_critical_density; lra|]. split; [apply liq_upper; lra|].
  unfold density_bounds.
  destruct (Rlt_dec T CO2_TRIPLE_TEMPERATURE) as [F|_]; [exfalso; lra|].
  destruct (Rlt_dec T CO2_CRITICAL_TEMPERATURE) as [_|F]; [|exfalso; lra].
  rewrite A, L. cbn [bind]. split; [reflexivity|]. split; [reflexivity|].
  unfold below_vapor_pressure. rewrite V.
  split; intros C; destruct (Rlt_dec p _) as [F|F]; try reflexivity; exfalso; [contradiction|lra].
Qed.
Lemma bounds_cold : forall T p fv, T < CO2_TRIPLE_TEMPERATURE -> exists v, saturated_vapor_density T = Ok v /\
  v < CO2_CRITICAL_DENSITY /\ density_bounds T p fv = Ok (1 / 10, v).
Proof.
  intros T p fv H. pose proof triple_below_critical as C. assert (H2 : T < CO2_CRITICAL_TEMPERATURE) by lra.
  eexists. split; [apply vap_ok, H2|]. split; [apply below_critical_density, tc_pos, H2|].
  unfold density_bounds. destruct (Rlt_dec T CO2_TRIPLE_TEMPERATURE) as [_|F]; [|contradiction].
  rewrite vap_ok by exact H2. reflexivity.
Qed.
Lemma bounds_hot : forall T p fv, CO2_CRITICAL_TEMPERATURE <= T -> density_bounds T p fv = Ok (1 / 10, 1500).
Proof.
  intros T p fv H. pose proof triple_below_critical as C. unfold density_bounds.
  destruct (Rlt_dec T CO2_TRIPLE_TEMPERATURE) as [F|_]; [exfalso; lra|].
  destruct (Rlt_dec T CO2_CRITICAL_TEMPERATURE) as [F|_]; [exfalso; lra|]. reflexivity.
Qed.
Lemma bracket_nonempty : forall T p fv, CO2_TRIPLE_TEMPERATURE <= T ->
  exists a b, density_bracket T p fv = Ok (a, b) /\ 0 < a /\ a < b.
Proof.
  intros T p fv H. unfold density_bracket.
  destruct (Rlt_dec T CO2_CRITICAL_TEMPERATURE) as [C|C].
  - destruct (bounds_phase T p ltac:(lra)) as (pv & v & l & _ & _ & _ & V1 & V2 & L1 & L2 & BV & BL & A1 & A2).
    pose proof rc_pos as RC.
    destruct fv.
    + rewrite BV. cbn [bind fst snd]. do 2 eexists. split; [reflexivity|]. lra.
    + rewrite BL. cbn [bind fst snd]. do 2 eexists. split; [reflexivity|]. lra.
    + destruct (Rlt_dec p pv) as [S|S]; [rewrite (A1 S)|rewrite (A2 (Rnot_lt_le _ _ S))]; cbn [bind fst snd];
        do 2 eexists; (split; [reflexivity|lra]).
  - rewrite bounds_hot by lra. cbn [bind fst snd]. do 2 eexists. split; [reflexivity|]. lra.
Qed.

(** ** Where the bracket is empty *)
Lemma exp_pow : forall n x, exp (INR n * x) = exp x ^ n.
Proof.
  induction n as [|n IH]; intros x; [cbn; rewrite Rmult_0_l, exp_0; reflexivity|].
  rewrite S_INR. replace ((INR n + 1) * x) with (x + INR n * x) by ring. rewrite exp_plus, IH. reflexivity.
Qed.
Lemma exp_11 : 18000 <= exp 11.
Proof.
  replace 11 with (INR 44 * (1 / 4)) by (cbn [INR]; lra). rewrite exp_pow.
  eapply Rle_trans; [|apply (pow_incr (5 / 4)); split; [lra|pose proof (exp_ineq1_le (1 / 4)); lra]]. lra.
Qed.
Lemma cold_bracket : exists T p fv a b, 0 < T /\ 0 < p /\ density_bracket T p fv = Ok (a, b) /\ b <= a.
Proof.
  exists 100, 1, Auto. pose proof rc_pos as RC.
  assert (C : 100 < CO2_TRIPLE_TEMPERATURE) by (unfold CO2_TRIPLE_TEMPERATURE; lra).
  assert (C2 : 100 < CO2_CRITICAL_TEMPERATURE) by (unfold CO2_CRITICAL_TEMPERATURE; lra).
  unfold density_bracket. destruct (bounds_cold 100 1 Auto C) as (v & V & _ & ->). cbn [bind fst snd].
  do 2 eexists. split; [lra|]. split; [lra|]. split; [reflexivity|].
  rewrite vap_ok in V by exact C2. injection V as <-.
  assert (B : 67 / 100 <= tc 100 <= 68 / 100) by (unfold tc, CO2_CRITICAL_TEMPERATURE; lra).
  set (t := tc 100) in *. assert (H1 : 0 < t <= 1) by lra.
  pose proof (pw_ge_nat t 1 (34 / 100) H1 ltac:(cbn; lra)) as A1. pose proof (pw_ge_nat t 1 (5 / 10) H1 ltac:(cbn; lra)) as A2.
  pose proof (pw_ge_nat t 3 (7 / 3) H1 ltac:(cbn; lra)) as A3. pose proof (pw_ge_nat t 5 (14 / 3) H1 ltac:(cbn; lra)) as A4.
  rewrite pow_1 in A1, A2.
  assert (T3 : (67 / 100) ^ 3 <= t ^ 3) by (apply pow_incr; lra).
  assert (T5 : (67 / 100) ^ 5 <= t ^ 5) by (apply pow_incr; lra).
  assert (L : vap_inner t < - 11) by (unfold vap_inner; lra).
  assert (E : exp (vap_inner t) < / 18000).
  { eapply Rlt_le_trans; [apply exp_increasing, L|]. replace (-11) with (- (11)) by lra. rewrite exp_Ropp. apply Rinv_le_contravar; [lra|apply exp_11]. }
  assert (M : CO2_CRITICAL_DENSITY * exp (vap_inner t) <= CO2_CRITICAL_DENSITY * / 18000) by (apply Rmult_le_compat_l; lra).
  unfold CO2_CRITICAL_DENSITY in *. lra.
Qed.
Lemma brackets_overlap : exists T p v1 v2 l1 l2, CO2_TRIPLE_TEMPERATURE <= T < CO2_CRITICAL_TEMPERATURE /\ 0 < p /\
  density_bracket T p ForceVapor = Ok (v1, v2) /\ density_bracket T p ForceLiquid = Ok (l1, l2) /\ l1 < v2.
Proof.
  set (T := CO2_CRITICAL_TEMPERATURE * (1 - 1 / 10 ^ 9)).
  assert (R : CO2_TRIPLE_TEMPERATURE <= T < CO2_CRITICAL_TEMPERATURE)
    by (unfold T, CO2_CRITICAL_TEMPERATURE, CO2_TRIPLE_TEMPERATURE; lra).
  destruct (bounds_phase T 1 R) as (pv & v & l & _ & V & L & _ & _ & _ & _ & BV & BL & _).
  exists T, 1. do 4 eexists. split; [exact R|]. split; [lra|]. unfold density_bracket. rewrite BV, BL. cbn [bind fst snd].
  split; [reflexivity|]. split; [reflexivity|].
  rewrite vap_ok in V by lra. rewrite liq_ok in L by lra. injection V as <-. injection L as <-.
  assert (B : tc T = 1 / 10 ^ 9) by (unfold tc, T; pose proof Tc_pos; field; lra).
  rewrite B. set (t := 1 / 10 ^ 9). assert (H1 : 0 < t <= 1) by (unfold t; lra).
  assert (A : Rpower t (34 / 100) <= 1 / 1000) by (apply (pw_root t (1 / 1000) (34 / 100) 2); unfold t; cbn; lra).
  pose proof (pw_anti t (34 / 100) (5 / 10) H1 ltac:(lra)). pose proof (pw_anti t (34 / 100) (11 / 6) H1 ltac:(lra)).
  pose proof (pw_anti t (34 / 100) (7 / 3) H1 ltac:(lra)). pose proof (pw_anti t (34 / 100) (14 / 3) H1 ltac:(lra)).
  pose proof (pw_pos t (5 / 10)). pose proof (pw_pos t (10 / 6)).
  assert (T1 : t <= 1 / 1000) by (unfold t; lra).
  assert (LV : - (5 / 100) <= vap_inner t) by (unfold vap_inner; lra).
  assert (LL : 0 <= liq_inner t <= 1 / 100) by (pose proof (liq_pos t H1); unfold liq_inner in *; lra).
  pose proof (exp_ineq1_le (vap_inner t)) as EV.
  pose proof (exp_upper (liq_inner t) ltac:(lra)) as EL.
  assert (EM : 1 / (1 - liq_inner t) <= 1 / (1 - 1 / 100)).
  { unfold Rdiv. rewrite !Rmult_1_l. apply Rinv_le_contravar; lra. }
  assert (M1 : CO2_CRITICAL_DENSITY * exp (liq_inner t) <= CO2_CRITICAL_DENSITY * (1 / (1 - 1 / 100)))
    by (apply Rmult_le_compat_l; [apply Rlt_le, rc_pos|lra]).
  assert (M2 : CO2_CRITICAL_DENSITY * (95 / 100) <= CO2_CRITICAL_DENSITY * exp (vap_inner t))
    by (apply Rmult_le_compat_l; [apply Rlt_le, rc_pos|lra]).
  unfold CO2_CRITICAL_DENSITY in *. lra.
Qed.

(** ** The ends of the curves *)
Lemma tc_critical : tc CO2_CRITICAL_TEMPERATURE = 0.
Proof. unfold tc. pose proof Tc_pos. field. lra. Qed.
Lemma tt_triple : tt CO2_TRIPLE_TEMPERATURE = 0.
Proof. unfold tt, CO2_TRIPLE_TEMPERATURE. lra. Qed.
Lemma curve_ends :
  saturated_liquid_density CO2_CRITICAL_TEMPERATURE = Ok CO2_CRITICAL_DENSITY /\
  saturated_vapor_density CO2_CRITICAL_TEMPERATURE = Ok CO2_CRITICAL_DENSITY /\
  vapor_pressure CO2_CRITICAL_TEMPERATURE = Ok CO2_CRITICAL_PRESSURE /\
  sublimation_pressure CO2_TRIPLE_TEMPERATURE = Ok CO2_TRIPLE_PRESSURE /\
  melting_pressure CO2_TRIPLE_TEMPERATURE = CO2_TRIPLE_PRESSURE.
Proof.
  unfold saturated_liquid_density, saturated_vapor_density, vapor_pressure, sublimation_pressure, melting_pressure.
  fold (tc CO2_CRITICAL_TEMPERATURE). fold (tt CO2_TRIPLE_TEMPERATURE). rewrite tc_critical, tt_triple.
  rewrite !np_pow_zero by lra. cbn [bind]. rewrite !np_div_ok by lra. cbn [bind].
  assert (E : forall c x, x = 0 -> c * exp x = c) by (intros c x ->; rewrite exp_0; ring).
  rewrite !E by (lra || field). repeat split; try reflexivity.
  assert (Z : CO2_TRIPLE_TEMPERATURE / CO2_TRIPLE_TEMPERATURE - 1 = 0) by (unfold CO2_TRIPLE_TEMPERATURE; lra).
  rewrite Z. ring.
Qed.

(** ** Monotone curves *)
Lemma increasing_by_derivative : forall f f' a b, a < b -> (forall c, a <= c <= b -> derivable_pt_lim f c (f' c)) ->
  (forall c, a < c < b -> 0 < f' c) -> f a < f b.
Proof.
  intros f f' a b H D P. destruct (MVT_cor2 f f' a b H D) as (c & E & C). specialize (P c C). nra.
Qed.
Lemma power_deriv : forall k a t, 0 < t -> derivable_pt_lim (fun x => k * Rpower x a) t (k * (a * Rpower t (a - 1))).
Proof. intros k a t H. apply (derivable_pt_lim_scal (fun x => Rpower x a)). apply derivable_pt_lim_power, H. Qed.

Lemma vap_inner_decr : forall s t, 0 < s < t -> vap_inner t < vap_inner s.
Proof.
  intros s t H. unfold vap_inner.
  pose proof (pw_base_lt s t (34 / 100) H ltac:(lra)). pose proof (pw_base_lt s t (5 / 10) H ltac:(lra)).
  pose proof (pw_base_lt s t (7 / 3) H ltac:(lra)). pose proof (pw_base_lt s t (14 / 3) H ltac:(lra)). lra.
Qed.
Lemma vapor_density_increasing : forall S T, S < T -> T < CO2_CRITICAL_TEMPERATURE -> exists u v,
  saturated_vapor_density S = Ok u /\ saturated_vapor_density T = Ok v /\ 0 < u /\ u < v.
Proof.
  intros S T H1 H2. rewrite !vap_ok by lra. do 2 eexists. split; [reflexivity|]. split; [reflexivity|].
  split; [apply Rmult_lt_0_compat; [apply rc_pos|apply exp_pos]|].
  apply times_exp_lt; [apply rc_pos|]. apply vap_inner_decr. split; [apply tc_pos, H2|apply tc_decr, H1].
Qed.

Lemma liq_inner_incr : forall s t, 0 < s < t -> t <= 288 / 1000 -> liq_inner s < liq_inner t.
Proof.
  intros s t H L.
  set (f' := fun c => 19245108 / 10 ^ 7 * (34 / 100 * Rpower c (34 / 100 - 1)) + - (62385555 / 10 ^ 8) * (5 / 10 * Rpower c (5 / 10 - 1))
     + - (32731127 / 10 ^ 8) * (10 / 6 * Rpower c (10 / 6 - 1)) + 39245142 / 10 ^ 8 * (11 / 6 * Rpower c (11 / 6 - 1))).
  apply (increasing_by_derivative liq_inner f' s t).
  - apply H.
  - intros c C. assert (P : 0 < c) by lra. unfold liq_inner, f'.
    apply (derivable_pt_lim_plus (fun x => _ + _ + _) (fun x => 39245142 / 10 ^ 8 * Rpower x (11 / 6))); [|apply power_deriv, P].
    apply (derivable_pt_lim_plus (fun x => _ + _) (fun x => - (32731127 / 10 ^ 8) * Rpower x (10 / 6))); [|apply power_deriv, P].
    apply (derivable_pt_lim_plus (fun x => 19245108 / 10 ^ 7 * Rpower x (34 / 100)) (fun x => - (62385555 / 10 ^ 8) * Rpower x (5 / 10)));
      apply power_deriv, P.
  - intros c C. assert (P : 0 < c <= 1) by lra. unfold f'.
    pose proof (pw_anti c (34 / 100 - 1) (5 / 10 - 1) P ltac:(lra)) as A.
    pose proof (pw_anti c (34 / 100 - 1) 0 P ltac:(lra)) as B. rewrite Rpower_O in B by lra.
    pose proof (pw_pos c (11 / 6 - 1)) as Q.
    assert (D : Rpower c (10 / 6 - 1) <= 54 / 100) by (apply (pw_root c (54 / 100) (10 / 6 - 1) 1); cbn; lra).
    lra.
Qed.
Lemma liquid_density_decreasing : forall S T, CO2_TRIPLE_TEMPERATURE <= S -> S < T -> T < CO2_CRITICAL_TEMPERATURE ->
  exists u v, saturated_liquid_density S = Ok u /\ saturated_liquid_density T = Ok v /\ v < u.
Proof.
  intros S T H0 H1 H2. rewrite !liq_ok by lra. do 2 eexists. split; [reflexivity|]. split; [reflexivity|].
  apply times_exp_lt; [apply rc_pos|]. apply liq_inner_incr; [split; [apply tc_pos, H2|apply tc_decr, H1]|].
  apply tc_triple, H0.
Qed.

(** A numerator that falls from 0 over 1 - t. *)
Lemma quotient_decr : forall n s t, 0 < s < t -> t < 1 -> n t < n s -> n s < 0 -> n t / (1 - t) < n s / (1 - s).
Proof.
  intros n s t H1 H2 L N. apply (Rmult_lt_reg_r ((1 - s) * (1 - t))); [apply Rmult_lt_0_compat; lra|].
  replace (n t / (1 - t) * ((1 - s) * (1 - t))) with (n t * (1 - s)) by (field; lra).
  replace (n s / (1 - s) * ((1 - s) * (1 - t))) with (n s * (1 - t)) by (field; lra). nra.
Qed.
Lemma decreasing_by_derivative : forall f f' a b, a < b -> (forall c, a <= c <= b -> derivable_pt_lim f c (f' c)) ->
  (forall c, a < c < b -> f' c < 0) -> f b < f a.
Proof.
  intros f f' a b H D P. destruct (MVT_cor2 f f' a b H D) as (c & E & C). specialize (P c C). nra.
Qed.
Lemma neg_over_pos : forall a b, a < 0 -> 0 < b -> a / b < 0.
Proof. intros a b Ha Hb. pose proof (Rinv_0_lt_compat b Hb). unfold Rdiv. nra. Qed.
Lemma vp_inner_neg : forall t, 0 < t <= 1 -> vp_inner t < 0.
Proof.
  intros t H. unfold vp_inner. pose proof (pw_le_nat t 1 (15 / 10) H ltac:(cbn; lra)) as A. rewrite pow_1 in A.
  pose proof (pow_lt t 2 ltac:(lra)). pose proof (pow_lt t 4 ltac:(lra)). lra.
Qed.
Lemma vp_inner_decr : forall s t, 0 < s < t -> t <= 1 -> vp_inner t < vp_inner s.
Proof.
  intros s t H L.
  assert (A : Rpower t (15 / 10) - Rpower s (15 / 10) <= 15 / 10 * (t - s)).
  { destruct (MVT_cor2 (fun x => Rpower x (15 / 10)) (fun x => 15 / 10 * Rpower x (15 / 10 - 1)) s t ltac:(lra)) as (c & E & C).
    - intros c C. apply derivable_pt_lim_power. lra.
    - cbv beta in E. rewrite E. apply Rmult_le_compat_r; [lra|].
      pose proof (pw_le_nat c 0 (15 / 10 - 1) ltac:(lra) ltac:(cbn; lra)) as B. cbn [pow] in B. lra. }
  assert (B : s ^ 2 <= t ^ 2) by (apply pow_incr; lra). assert (C : s ^ 4 <= t ^ 4) by (apply pow_incr; lra).
  unfold vp_inner. lra.
Qed.
Lemma vapor_pressure_increasing : forall S T, 0 < S -> S < T -> T < CO2_CRITICAL_TEMPERATURE -> exists u v,
  vapor_pressure S = Ok u /\ vapor_pressure T = Ok v /\ 0 < u /\ u < v /\ v < CO2_CRITICAL_PRESSURE.
Proof.
  intros S T H0 H1 H2. rewrite !vp_ok by lra. do 2 eexists. split; [reflexivity|]. split; [reflexivity|].
  assert (PC : 0 < CO2_CRITICAL_PRESSURE) by (unfold CO2_CRITICAL_PRESSURE; lra).
  pose proof (tc_pos T H2) as P. pose proof (tc_decr S T H1) as D. pose proof (tc_lt1 S H0) as L.
  split; [apply Rmult_lt_0_compat; [exact PC|apply exp_pos]|]. split.
  - apply times_exp_lt; [exact PC|].
    apply (quotient_decr vp_inner); [lra|lra|apply vp_inner_decr; lra|apply vp_inner_neg; lra].
  - assert (N : vp_inner (tc T) / (1 - tc T) < 0).
    { pose proof (vp_inner_neg (tc T) ltac:(lra)). apply neg_over_pos; lra. }
    pose proof (times_exp_lt _ _ _ PC N) as X. rewrite exp_0, Rmult_1_r in X. exact X.
Qed.

Definition sub_inner (t : R) : R :=
  - (14740846 / 10 ^ 6) * t + 24327015 / 10 ^ 7 * Rpower t (19 / 10) + - (53061778 / 10 ^ 7) * Rpower t (29 / 10).
Lemma tt_pos : forall T, T < CO2_TRIPLE_TEMPERATURE -> 0 < tt T.
Proof. intros T H. unfold tt, CO2_TRIPLE_TEMPERATURE in *. lra. Qed.
Lemma tt_lt1 : forall T, 0 < T -> tt T < 1.
Proof. intros T H. unfold tt, CO2_TRIPLE_TEMPERATURE in *. lra. Qed.
Lemma tt_decr : forall S T, S < T -> tt T < tt S.
Proof. intros S T H. unfold tt, CO2_TRIPLE_TEMPERATURE in *. lra. Qed.
Lemma sub_ok : forall T, 0 < T < CO2_TRIPLE_TEMPERATURE ->
  sublimation_pressure T = Ok (CO2_TRIPLE_PRESSURE * exp (sub_inner (tt T) / (1 - tt T))).
Proof.
  intros T [H0 H]. pose proof (tt_pos T H) as P. pose proof (tt_lt1 T H0) as Q. unfold sublimation_pressure. fold (tt T).
  rewrite !np_pow_pos by exact P. cbn [bind]. rewrite np_div_ok by lra. reflexivity.
Qed.
Lemma sub_inner_neg : forall t, 0 < t <= 1 -> sub_inner t < 0.
Proof.
  intros t H. unfold sub_inner. pose proof (pw_le_nat t 1 (19 / 10) H ltac:(cbn; lra)) as A. rewrite pow_1 in A.
  pose proof (pw_pos t (29 / 10)). lra.
Qed.
Lemma sub_inner_decr : forall s t, 0 < s < t -> t <= 1 -> sub_inner t < sub_inner s.
Proof.
  intros s t H L.
  assert (A : Rpower t (19 / 10) - Rpower s (19 / 10) <= 19 / 10 * (t - s)).
  { destruct (MVT_cor2 (fun x => Rpower x (19 / 10)) (fun x => 19 / 10 * Rpower x (19 / 10 - 1)) s t ltac:(lra)) as (c & E & C).
    - intros c C. apply derivable_pt_lim_power. lra.
    - cbv beta in E. rewrite E. apply Rmult_le_compat_r; [lra|].
      pose proof (pw_le_nat c 0 (19 / 10 - 1) ltac:(lra) ltac:(cbn; lra)) as B. cbn [pow] in B. lra. }
  pose proof (pw_base_lt s t (29 / 10) H ltac:(lra)). unfold sub_inner. lra.
Qed.
Lemma sublimation_pressure_increasing : forall S T, 0 < S -> S < T -> T < CO2_TRIPLE_TEMPERATURE -> exists u v,
  sublimation_pressure S = Ok u /\ sublimation_pressure T = Ok v /\ 0 < u /\ u < v /\ v < CO2_TRIPLE_PRESSURE.
Proof.
  intros S T H0 H1 H2. rewrite !sub_ok by lra. do 2 eexists. split; [reflexivity|]. split; [reflexivity|].
  assert (PC : 0 < CO2_TRIPLE_PRESSURE) by (unfold CO2_TRIPLE_PRESSURE; lra).
  pose proof (tt_pos T H2) as P. pose proof (tt_decr S T H1) as D. pose proof (tt_lt1 S H0) as L.
  split; [apply Rmult_lt_0_compat; [exact PC|apply exp_pos]|]. split.
  - apply times_exp_lt; [exact PC|].
    apply (quotient_decr sub_inner); [lra|lra|apply sub_inner_decr; lra|apply sub_inner_neg; lra].
  - assert (N : sub_inner (tt T) / (1 - tt T) < 0).
    { pose proof (sub_inner_neg (tt T) ltac:(lra)). apply neg_over_pos; lra. }
    pose proof (times_exp_lt _ _ _ PC N) as X. rewrite exp_0, Rmult_1_r in X. exact X.
Qed.
Lemma melting_pressure_increasing : forall S T, CO2_TRIPLE_TEMPERATURE <= S -> S < T ->
  CO2_TRIPLE_PRESSURE <= melting_pressure S /\ melting_pressure S < melting_pressure T.
Proof.
  intros S T H0 H1. unfold melting_pressure.
  assert (A : 0 <= S / CO2_TRIPLE_TEMPERATURE - 1) by (unfold CO2_TRIPLE_TEMPERATURE in *; lra).
  assert (B : S / CO2_TRIPLE_TEMPERATURE - 1 < T / CO2_TRIPLE_TEMPERATURE - 1) by (unfold CO2_TRIPLE_TEMPERATURE in *; lra).
  set (s := S / CO2_TRIPLE_TEMPERATURE - 1) in *. set (t := T / CO2_TRIPLE_TEMPERATURE - 1) in *.
  assert (C : s ^ 2 <= t ^ 2) by (apply pow_incr; lra). pose proof (pow2_ge_0 s).
  unfold CO2_TRIPLE_PRESSURE. lra.
Qed.

(** ** The density found *)
Lemma density_solves : forall solve T p fv re x, sound_root_finder solve ->
  calculate_carbon_dioxide_density solve T p fv re = Ok (Some x) ->
  exists a b, density_bracket T p fv = Ok (a, b) /\ a <= x <= b /\ carbon_dioxide_pressure T x 0 0 false = Ok (Some p).
Proof.
  intros solve T p fv re x [S _] H. unfold calculate_carbon_dioxide_density in H.
  destruct (density_bracket T p fv) as [[a b]|e]; [|discriminate]. cbn [bind fst snd] in H.
  destruct (solve (pressure_mismatch T p) a b) as [y|e] eqn:Y.
  - injection H as ->. destruct (S _ _ _ _ Y) as [B F]. exists a, b. split; [reflexivity|]. split; [exact B|].
    unfold pressure_mismatch in F. destruct (carbon_dioxide_pressure T x 0 0 false) as [[q|]|]; cbn [bind] in F; try discriminate.
    injection F as F. do 2 f_equal. lra.
  - destruct e; try destruct re; discriminate.
Qed.
Lemma density_cold_fails : exists T p, 0 < T /\ 0 < p /\ forall solve, sound_root_finder solve ->
  calculate_carbon_dioxide_density solve T p Auto true = Err ValueError /\
  calculate_carbon_dioxide_density solve T p Auto false = Ok None.
Proof.
  destruct cold_bracket as (T & p & fv & a & b & HT & Hp & B & L).
  assert (BA : density_bracket T p Auto = Ok (a, b)).
  { destruct (Rlt_dec T CO2_TRIPLE_TEMPERATURE) as [C|C].
    - unfold density_bracket in *. destruct (bounds_cold T p fv C) as (v & V & _ & E). destruct (bounds_cold T p Auto C) as (w & W & _ & F).
      rewrite E in B. rewrite F. assert (v = w) by congruence. subst w. exact B.
    - exfalso. destruct (bracket_nonempty T p fv (Rnot_lt_le _ _ C)) as (x & y & E & _ & X). rewrite E in B. injection B as -> ->. lra. }
  exists T, p. split; [exact HT|]. split; [exact Hp|]. intros solve [_ S]. unfold calculate_carbon_dioxide_density. rewrite BA.
  cbn [bind fst snd]. rewrite (S _ _ _ L). split; reflexivity.
Qed.
