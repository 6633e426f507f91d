(** Lemmas about the Batzle-Wang fluid models. *)
From Coq Require Import Reals Lra.
From Coquelicot Require Import Coquelicot.
From Verif Require Import Base BaseProofs MaterialModel Spec MaterialProofs FluidModel ConfigModel BatzleWangModel BatzleWangSpec.
Open Scope R_scope.

Lemma fluid_of_velocity_ok d p :
  0 < d -> 0 <= p -> exists m, fluid_of_velocity d p = Ok m /\ is_material m (p ^ 2 * d) 0 d /\ vp m = p.
Proof.
  intros Hd Hp. unfold fluid_of_velocity, mk_material, fill_moduli, calculate_bulk_modulus.
  cbn [bind]. destruct (Req_EM_T d 0); [lra|]. destruct (Rlt_dec d 0); [lra|].
  assert (0 <= p ^ 2 * d - 4 / 3 * 0) by nra.
  destruct (Rlt_dec (p ^ 2 * d - 4 / 3 * 0) 0); [lra|]. destruct (Rlt_dec 0 0); [lra|].
  unfold fill_velocities, calculate_secondary_velocity. cbn [bind].
  rewrite np_div_ok by lra. cbn [bind]. replace (0 / d) with 0 by (field; lra).
  rewrite np_sqrt_ok by lra. cbn [bind]. rewrite sqrt_0.
  destruct (Rlt_dec p 0); [lra|]. destruct (Rlt_dec 0 0); [lra|].
  destruct (Rlt_dec p (sqrt (4 / 3) * 0)); [lra|].
  eexists; split; [reflexivity|]. split; [|reflexivity].
  unfold is_material; simpl. repeat split; lra.
Qed.

Lemma fluid_of_velocity_inv d p m :
  fluid_of_velocity d p = Ok m -> 0 < d /\ 0 <= p /\ is_material m (p ^ 2 * d) 0 d /\ vp m = p.
Proof.
  intros H. assert (A : 0 < d /\ 0 <= p).
  { revert H. unfold fluid_of_velocity, mk_material, fill_moduli, calculate_bulk_modulus.
    cbn [bind]. destruct (Req_EM_T d 0); [discriminate|]. destruct (Rlt_dec d 0); [discriminate|].
    destruct (Rlt_dec (p ^ 2 * d - 4 / 3 * 0) 0); [discriminate|]. destruct (Rlt_dec 0 0); [lra|].
    unfold fill_velocities, calculate_secondary_velocity. cbn [bind].
    rewrite np_div_ok by lra. cbn [bind]. replace (0 / d) with 0 by (field; lra).
    rewrite np_sqrt_ok by lra. cbn [bind].
    destruct (Rlt_dec p 0); [discriminate|]. intros _. lra. }
  destruct A as [A B]. destruct (fluid_of_velocity_ok d p A B) as (m' & E & M & V).
  rewrite E in H. injection H as <-. auto.
Qed.

Lemma fluid_of_velocity_eq d p d' p' m m' :
  fluid_of_velocity d p = Ok m -> fluid_of_velocity d' p' = Ok m' -> d = d' -> p = p' -> m = m'.
Proof. intros A B -> ->. congruence. Qed.

(* ---- oil ---- *)
Lemma window_value x : triangular_window x = Rmax 0 (1 - Rabs x).
Proof.
  unfold triangular_window. replace ((Rabs x - 1) / 1) with (Rabs x - 1) by field.
  destruct (Rlt_dec 1 x) as [H|H].
  { rewrite Rabs_right by lra. rewrite Rmax_left; lra. }
  destruct (Rlt_dec x (-1)) as [H'|H'].
  { rewrite Rabs_left by lra. rewrite Rmax_left; lra. }
  assert (Rabs x <= 1) by (apply Rabs_le; lra).
  rewrite (Rabs_left1 (Rabs x - 1)) by lra. rewrite Rmax_right; lra.
Qed.

Lemma window_range x : 0 <= triangular_window x <= 1.
Proof.
  rewrite window_value. split; [apply Rmax_l|]. apply Rmax_lub; [lra|].
  pose proof (Rabs_pos x). lra.
Qed.

Lemma dead_oil_inv t p r m :
  dead_oil t p r = Ok m -> 0 < dens m /\ 0 <= vp m /\ fluid_of_velocity (dens m) (vp m) = Ok m.
Proof.
  unfold dead_oil. intros H. ok_inv H. pose proof H as H0.
  apply fluid_of_velocity_inv in H. destruct H as (A & B & (M1 & M2 & M3 & _) & V).
  rewrite M3, V. auto.
Qed.

Lemma live_oil_inv t p r rg g m :
  live_oil t p r rg g = Ok m -> 0 < dens m /\ 0 <= vp m /\ fluid_of_velocity (dens m) (vp m) = Ok m.
Proof.
  unfold live_oil. intros H. ok_inv H. pose proof H as H0.
  apply fluid_of_velocity_inv in H. destruct H as (A & B & (M1 & M2 & M3 & _) & V).
  rewrite M3, V. auto.
Qed.

Lemma oil_blend t p r rg g m :
  oil t p r rg g = Ok m ->
  exists d l w, dead_oil t p r = Ok d /\ live_oil t p r rg g = Ok l /\
    w = Rmax 0 (1 - Rabs rg) /\
    dens m = w * dens d + (1 - w) * dens l /\ vp m = w * vp d + (1 - w) * vp l /\
    is_material m (vp m ^ 2 * dens m) 0 (dens m).
Proof.
  unfold oil. intros H. ok_inv H. apply fluid_of_velocity_inv in H.
  destruct H as (A & B & M & V). exists a0, a, (triangular_window rg).
  split; [reflexivity|]. split; [reflexivity|]. split; [apply window_value|].
  destruct M as (M1 & M2 & M3 & M4). rewrite M3, V.
  split; [ring|]. split; [ring|]. repeat split; try tauto.
Qed.

Lemma oil_defined t p r rg g :
  is_ok (oil t p r rg g) <-> is_ok (dead_oil t p r) /\ is_ok (live_oil t p r rg g).
Proof.
  split.
  - intros [m H]. destruct (oil_blend _ _ _ _ _ _ H) as (d & l & w & E1 & E2 & _).
    split; eexists; eassumption.
  - intros [[d E1] [l E2]]. unfold oil. rewrite E2; cbn [bind]. rewrite E1; cbn [bind].
    pose proof (window_range rg) as W.
    destruct (dead_oil_inv _ _ _ _ E1) as (A & B & _).
    destruct (live_oil_inv _ _ _ _ _ _ E2) as (C & D & _).
    set (w := triangular_window rg) in *.
    destruct (fluid_of_velocity_ok (dens d * w + (1 - w) * dens l) (vp d * w + (1 - w) * vp l)) as (m & E & _).
    + destruct (Rle_dec w (1/2)); nra.
    + nra.
    + exists m; exact E.
Qed.

Lemma oil_ends t p r rg g m d l :
  oil t p r rg g = Ok m -> dead_oil t p r = Ok d -> live_oil t p r rg g = Ok l ->
  (rg = 0 -> m = d) /\ (1 <= Rabs rg -> m = l).
Proof.
  unfold oil. intros H E1 E2. rewrite E2 in H; cbn [bind] in H. rewrite E1 in H; cbn [bind] in H.
  rewrite window_value in H.
  destruct (dead_oil_inv _ _ _ _ E1) as (A & B & Fd).
  destruct (live_oil_inv _ _ _ _ _ _ E2) as (C & D & Fl).
  split; intros Hrg.
  - subst rg. rewrite Rabs_R0, Rmax_right in H by lra.
    eapply fluid_of_velocity_eq; [exact H|exact Fd|ring|ring].
  - rewrite Rmax_left in H by lra.
    eapply fluid_of_velocity_eq; [exact H|exact Fl|ring|ring].
Qed.

(* ---- water and brine ---- *)
Lemma water_density_value t p : water_density t p = Ok (bw_water_density t p).
Proof.
  unfold water_density, polyval2d. cbn -[pow]. f_equal. unfold bw_water_density. field.
Qed.

Lemma water_velocity_value t p : water_primary_velocity t p = Ok (bw_water_velocity t p).
Proof.
  unfold water_primary_velocity, polyval2d. cbn -[pow]. f_equal. unfold bw_water_velocity. field.
Qed.

Lemma brine_density_value t p s : brine_density t p s = Ok (bw_brine_density t p s).
Proof.
  unfold brine_density. rewrite water_density_value. cbn [bind].
  unfold polyval3d, polyval2d. cbn -[pow]. f_equal. unfold bw_brine_density. field.
Qed.

Lemma brine_velocity_value t p s :
  0 <= s -> brine_primary_velocity t p s = Ok (bw_brine_velocity t p s).
Proof.
  intros Hs. unfold brine_primary_velocity. rewrite water_velocity_value. cbn [bind].
  rewrite np_sqrt_ok by assumption. cbn [bind]. unfold polyval3d, polyval2d. cbn -[pow]. f_equal.
  unfold bw_brine_velocity.
  assert (Q : sqrt s * sqrt s = s) by (apply sqrt_sqrt; assumption).
  set (r := sqrt s) in *. clearbody r. subst s. field.
Qed.

Lemma brine_value t p s m :
  brine t p s = Ok m ->
  0 <= s /\ dens m = 1000 * bw_brine_density t (p / 10 ^ 6) (s / 10 ^ 6) /\
  vp m = bw_brine_velocity t (p / 10 ^ 6) (s / 10 ^ 6) /\
  is_material m (vp m ^ 2 * dens m) 0 (dens m).
Proof.
  unfold brine. intros H. rewrite brine_density_value in H. cbn [bind] in H.
  replace (p * (1 / 10 ^ 6)) with (p / 10 ^ 6) in H by field.
  replace (s * (1 / 10 ^ 6)) with (s / 10 ^ 6) in H by field.
  destruct (Rle_dec 0 (s / 10 ^ 6)) as [Hs|Hs].
  - rewrite brine_velocity_value in H by assumption. cbn [bind] in H.
    apply fluid_of_velocity_inv in H. destruct H as (A & B & M & V).
    destruct M as (M1 & M2 & M3 & M4).
    assert (0 <= s) by (apply Rmult_le_reg_r with (/ 10 ^ 6); [apply Rinv_0_lt_compat; lra|];
                        unfold Rdiv in Hs; lra).
    split; [assumption|]. rewrite M3, V. split; [ring|]. split; [reflexivity|].
    repeat split; try tauto.
  - exfalso. unfold brine_primary_velocity in H. rewrite water_velocity_value in H. cbn [bind] in H.
    unfold np_sqrt in H. destruct (Rlt_dec (s / 10 ^ 6) 0); [discriminate|lra].
Qed.

Lemma brine_ok t p s :
  0 <= s -> 0 < bw_brine_density t (p / 10 ^ 6) (s / 10 ^ 6) ->
  0 <= bw_brine_velocity t (p / 10 ^ 6) (s / 10 ^ 6) -> is_ok (brine t p s).
Proof.
  intros Hs D V. unfold brine.
  replace (p * (1 / 10 ^ 6)) with (p / 10 ^ 6) by field.
  replace (s * (1 / 10 ^ 6)) with (s / 10 ^ 6) by field.
  rewrite brine_density_value; cbn [bind].
  rewrite brine_velocity_value by (apply Rmult_le_pos; [lra|apply Rlt_le, Rinv_0_lt_compat; lra]).
  cbn [bind]. destruct (fluid_of_velocity_ok (bw_brine_density t (p / 10 ^ 6) (s / 10 ^ 6) * 1000)
    (bw_brine_velocity t (p / 10 ^ 6) (s / 10 ^ 6))) as (m & E & _); [lra|lra|].
  exists m; exact E.
Qed.

Lemma water_value t p m :
  water t p = Ok m ->
  dens m = bw_water_density t p /\ vp m = bw_water_velocity t p /\
  is_material m (vp m ^ 2 * dens m) 0 (dens m).
Proof.
  unfold water. rewrite water_density_value; cbn [bind]. rewrite water_velocity_value; cbn [bind].
  intros H. apply fluid_of_velocity_inv in H. destruct H as (A & B & M & V).
  destruct M as (M1 & M2 & M3 & M4). rewrite M3, V. repeat split; try tauto.
Qed.

Lemma brine_fresh_density t p : bw_brine_density t p 0 = bw_water_density t p.
Proof. unfold bw_brine_density. ring. Qed.
Lemma brine_fresh_velocity t p : bw_brine_velocity t p 0 = bw_water_velocity t p.
Proof. unfold bw_brine_velocity. ring. Qed.

Lemma fresh_brine t p :
  (forall w, water t p = Ok w ->
     exists b, brine t (p * 10 ^ 6) 0 = Ok b /\ dens b = 1000 * dens w /\ vp b = vp w) /\
  (forall b, brine t (p * 10 ^ 6) 0 = Ok b ->
     exists w, water t p = Ok w /\ dens b = 1000 * dens w /\ vp b = vp w).
Proof.
  unfold water, brine.
  replace (p * 10 ^ 6 * (1 / 10 ^ 6)) with p by field.
  replace (0 * (1 / 10 ^ 6)) with 0 by ring.
  rewrite water_density_value, brine_density_value; cbn [bind].
  rewrite water_velocity_value, brine_velocity_value by lra; cbn [bind].
  rewrite brine_fresh_density, brine_fresh_velocity.
  split; intros m H; apply fluid_of_velocity_inv in H; destruct H as (A & B & (M1 & M2 & M3 & _) & V).
  - destruct (fluid_of_velocity_ok (bw_water_density t p * 1000) (bw_water_velocity t p))
      as (b & E & (B1 & B2 & B3 & _) & BV); [lra|lra|].
    exists b. split; [exact E|]. rewrite B3, M3, BV, V. split; [ring|reflexivity].
  - destruct (fluid_of_velocity_ok (bw_water_density t p) (bw_water_velocity t p))
      as (b & E & (B1 & B2 & B3 & _) & BV); [lra|lra|].
    exists b. split; [exact E|]. rewrite B3, M3, BV, V. split; [ring|reflexivity].
Qed.

(** Salinity. *)
Lemma brine_density_salinity t p s1 s2 :
  0 <= t <= 350 -> 0 <= p <= 100 -> 0 <= s1 -> s1 < s2 -> s2 <= 3 / 10 ->
  bw_brine_density t p s1 < bw_brine_density t p s2.
Proof.
  intros Ht Hp H1 H2 H3. unfold bw_brine_density.
  set (w := bw_water_density t p).
  set (a := 668 / 1000 + 1 / 10 ^ 6 * (300 * p + t * (80 + 3 * t - 13 * p))).
  set (b := 44 / 100 + 1 / 10 ^ 6 * (- 2400 * p + t * (- 3300 + 47 * p))).
  assert (E : forall s, w + s * (668 / 1000 + 44 / 100 * s
         + 1 / 10 ^ 6 * (300 * p - 2400 * p * s
                         + t * (80 + 3 * t - 3300 * s - 13 * p + 47 * p * s))) = w + s * (a + b * s))
    by (intros s; unfold a, b; ring).
  rewrite !E.
  assert (A : 0 < a).
  { unfold a. assert (0 <= t * (100 - p)) by nra. nra. }
  assert (B : 0 < a + 6 / 10 * b).
  { unfold a, b. assert (0 <= t * p) by nra. nra. }
  assert (0 < (s2 - s1) * (a + b * (s1 + s2))).
  { apply Rmult_lt_0_compat; [lra|].
    assert (0 <= (s1 + s2) <= 6 / 10) by lra. nra. }
  nra.
Qed.

Lemma prod_range x y a b : 0 <= x <= a -> 0 <= y <= b -> 0 <= x * y <= a * b.
Proof. intros. split; [nra|]. apply Rmult_le_compat; lra. Qed.

Lemma pow2_range x a : 0 <= x <= a -> 0 <= x ^ 2 <= a ^ 2.
Proof. intros. split; [apply pow_le; lra|apply pow_incr; lra]. Qed.
Lemma pow3_range x a : 0 <= x <= a -> 0 <= x ^ 3 <= a ^ 3.
Proof. intros. split; [apply pow_le; lra|apply pow_incr; lra]. Qed.
Lemma pow4_range x a : 0 <= x <= a -> 0 <= x ^ 4 <= a ^ 4.
Proof. intros. split; [apply pow_le; lra|apply pow_incr; lra]. Qed.

Lemma water_density_low t p : 0 <= t <= 100 -> 0 <= p <= 100 -> 9 / 10 <= bw_water_density t p.
Proof.
  intros Ht Hp. unfold bw_water_density.
  pose proof (pow2_range _ _ Ht). pose proof (pow3_range _ _ Ht). pose proof (pow2_range _ _ Hp).
  assert (0 <= p * (489 - 2 * t + 16 / 1000 * t ^ 2 - 13 / 10 ^ 6 * t ^ 3)) by (apply Rmult_le_pos; lra).
  assert (T2 := prod_range _ _ _ _ Ht H1).
  lra.
Qed.

Lemma water_velocity_low t p : 0 <= t <= 100 -> 0 <= p <= 100 -> 800 <= bw_water_velocity t p.
Proof.
  intros Ht Hp. unfold bw_water_velocity.
  pose proof (pow2_range _ _ Ht) as T2. pose proof (pow3_range _ _ Ht) as T3.
  pose proof (pow4_range _ _ Ht) as T4.
  pose proof (pow2_range _ _ Hp) as P2. pose proof (pow3_range _ _ Hp) as P3.
  assert (A0 : 0 <= 4871 / 1000 * t - 4783 / 10 ^ 5 * t ^ 2 + 1487 / 10 ^ 7 * t ^ 3 - 2197 / 10 ^ 10 * t ^ 4).
  { replace (4871 / 1000 * t - 4783 / 10 ^ 5 * t ^ 2 + 1487 / 10 ^ 7 * t ^ 3 - 2197 / 10 ^ 10 * t ^ 4)
      with (t * (4871 / 1000 - 4783 / 10 ^ 5 * t) + t ^ 3 * (1487 / 10 ^ 7 - 2197 / 10 ^ 10 * t)) by field.
    assert (0 <= t * (4871 / 1000 - 4783 / 10 ^ 5 * t)) by (apply Rmult_le_pos; lra).
    assert (0 <= t ^ 3 * (1487 / 10 ^ 7 - 2197 / 10 ^ 10 * t)) by (apply Rmult_le_pos; lra). lra. }
  assert (A1 : 0 <= p * (1524 / 1000 - 111 / 10 ^ 4 * t + 2747 / 10 ^ 7 * t ^ 2 - 6503 / 10 ^ 10 * t ^ 3 + 7987 / 10 ^ 13 * t ^ 4)).
  { apply Rmult_le_pos; [lra|]. nra. }
  assert (A2 : - 360 <= p ^ 2 * (3437 / 10 ^ 6 + 1739 / 10 ^ 7 * t - 2135 / 10 ^ 9 * t ^ 2 - 1455 / 10 ^ 11 * t ^ 3 + 523 / 10 ^ 13 * t ^ 4)).
  { set (c := 3437 / 10 ^ 6 + 1739 / 10 ^ 7 * t - 2135 / 10 ^ 9 * t ^ 2 - 1455 / 10 ^ 11 * t ^ 3 + 523 / 10 ^ 13 * t ^ 4).
    assert (- 36 / 1000 <= c) by (unfold c; lra). clearbody c. nra. }
  assert (A3 : - 230 <= p ^ 3 * (- (1197 / 10 ^ 8) - 1628 / 10 ^ 9 * t + 1237 / 10 ^ 11 * t ^ 2 + 1327 / 10 ^ 13 * t ^ 3 - 4614 / 10 ^ 16 * t ^ 4)).
  { set (c := - (1197 / 10 ^ 8) - 1628 / 10 ^ 9 * t + 1237 / 10 ^ 11 * t ^ 2 + 1327 / 10 ^ 13 * t ^ 3 - 4614 / 10 ^ 16 * t ^ 4).
    assert (- 23 / 10 ^ 5 <= c) by (unfold c; lra). clearbody c.
    assert (Q : 0 <= p ^ 3 * (c + 23 / 10 ^ 5)) by (apply Rmult_le_pos; lra). lra. }
  lra.
Qed.

Lemma brine_velocity_low t p s :
  0 <= t <= 100 -> 0 <= p <= 100 -> 0 <= s <= 3 / 10 -> 700 <= bw_brine_velocity t p s.
Proof.
  intros Ht Hp Hs. unfold bw_brine_velocity.
  pose proof (water_velocity_low _ _ Ht Hp) as W.
  pose proof (pow2_range _ _ Ht) as T2. pose proof (pow3_range _ _ Ht) as T3.
  pose proof (pow2_range _ _ Hp) as P2. pose proof (prod_range _ _ _ _ Ht Hp) as TP.
  assert (A : 0 <= s * (1170 - 96 / 10 * t + 55 / 1000 * t ^ 2 - 85 / 10 ^ 6 * t ^ 3 + 26 / 10 * p
         - 29 / 10 ^ 4 * t * p - 476 / 10 ^ 4 * p ^ 2)).
  { apply Rmult_le_pos; [lra|]. nra. }
  assert (B : 0 <= s * sqrt s * (780 - 10 * p + 16 / 100 * p ^ 2)).
  { apply Rmult_le_pos; [apply Rmult_le_pos; [lra|apply sqrt_pos]|]. nra. }
  assert (s ^ 2 <= (3 / 10) ^ 2) by (apply pow_incr; lra). lra.
Qed.

Lemma div_range x a c : 0 < c -> 0 <= x <= a * c -> 0 <= x / c <= a.
Proof.
  intros Hc H. split.
  - apply Rmult_le_pos; [lra|apply Rlt_le, Rinv_0_lt_compat; lra].
  - apply Rmult_le_reg_r with c; [lra|]. unfold Rdiv. rewrite Rmult_assoc, Rinv_l by lra. lra.
Qed.

Lemma brine_usable t p s :
  0 <= t <= 100 -> 0 <= p <= 100 * 10 ^ 6 -> 0 <= s <= 300000 ->
  exists m, brine t p s = Ok m /\ fluid m /\ 0 < bulk m /\ 900 <= dens m /\ 700 <= vp m.
Proof.
  intros Ht Hp Hs.
  assert (Hp' : 0 <= p / 10 ^ 6 <= 100) by (apply div_range; lra).
  assert (Hs' : 0 <= s / 10 ^ 6 <= 3 / 10) by (apply div_range; lra).
  pose proof (brine_velocity_low _ _ _ Ht Hp' Hs') as V.
  assert (D : 9 / 10 <= bw_brine_density t (p / 10 ^ 6) (s / 10 ^ 6)).
  { pose proof (water_density_low _ _ Ht Hp') as W. rewrite <- brine_fresh_density in W.
    destruct (Rle_lt_or_eq_dec 0 (s / 10 ^ 6)) as [L|L]; [lra| |rewrite <- L; lra].
    pose proof (brine_density_salinity t (p / 10 ^ 6) 0 (s / 10 ^ 6)). lra. }
  destruct (brine_ok t p s) as [m E]; [lra|lra|lra|]. exists m. split; [exact E|].
  destruct (brine_value _ _ _ _ E) as (_ & Dm & Vm & M).
  assert (900 <= dens m) by (rewrite Dm; lra). assert (700 <= vp m) by (rewrite Vm; lra).
  destruct M as (M1 & M2 & M3 & M4).
  assert (0 < bulk m) by (rewrite M1; apply Rmult_lt_0_compat; [apply pow_lt|]; lra).
  split; [|tauto]. split; [|exact M2]. unfold wf.
  split; [lra|]. split; [lra|]. split; [lra|]. rewrite M1, M2.
  unfold is_material. rewrite M1, M2. tauto.
Qed.

Lemma brine_denser_with_salinity t p s1 s2 m1 m2 :
  0 <= t <= 350 -> 0 <= p <= 100 * 10 ^ 6 -> s1 < s2 -> s2 <= 300000 ->
  brine t p s1 = Ok m1 -> brine t p s2 = Ok m2 -> dens m1 < dens m2.
Proof.
  intros Ht Hp H1 H2 E1 E2.
  destruct (brine_value _ _ _ _ E1) as (S1 & D1 & _). destruct (brine_value _ _ _ _ E2) as (_ & D2 & _).
  rewrite D1, D2. apply Rmult_lt_compat_l; [lra|]. apply brine_density_salinity; [lra| | | |].
  - apply div_range; lra.
  - apply (div_range s1 (3/10)); lra.
  - apply Rmult_lt_compat_r; [apply Rinv_0_lt_compat|]; lra.
  - apply (div_range s2 (3/10)); lra.
Qed.

(** water() is in g/cc. *)
Lemma water_units : exists t p w b,
  water t p = Ok w /\ brine t (p * 10 ^ 6) 0 = Ok b /\ dens w < 2 /\ 900 <= dens b /\ bulk b = 1000 * bulk w.
Proof.
  destruct (brine_usable 20 (10 * 10 ^ 6) 0) as (b & E & _ & _ & D & _); [lra|lra|lra|].
  destruct (fresh_brine 20 10) as [_ F]. destruct (F b E) as (w & W & D1 & V1).
  exists 20, 10, w, b. split; [exact W|]. split; [exact E|].
  destruct (water_value _ _ _ W) as (Dw & Vw & Mw & _). destruct (brine_value _ _ _ _ E) as (_ & _ & _ & Mb & _).
  split; [rewrite Dw; unfold bw_water_density; lra|]. split; [exact D|].
  rewrite Mb, Mw, D1, V1. ring.
Qed.

(* ---- gas ---- *)
Lemma tpr_pos ta g : 0 < ta -> 0 <= g -> 0 < bw_tpr ta g.
Proof. intros. unfold bw_tpr. apply Rmult_lt_0_compat; [lra|apply Rinv_0_lt_compat; lra]. Qed.
Lemma ppr_pos p g : 0 < p -> g <= 12 -> 0 < bw_ppr p g.
Proof. intros. unfold bw_ppr. apply Rmult_lt_0_compat; [lra|apply Rinv_0_lt_compat; lra]. Qed.

Lemma factor_value ta p g :
  0 < ta -> 0 < p -> 0 <= g <= 12 ->
  compressability_factor ta p g = Ok (bw_z (bw_tpr ta g) (bw_ppr p g)).
Proof.
  intros Ht Hp Hg. unfold compressability_factor, pseudoreduced_temperature, pseudoreduced_pressure.
  pose proof (tpr_pos ta g Ht (proj1 Hg)) as T. pose proof (ppr_pos p g Hp (proj2 Hg)) as P.
  rewrite py_div_ok by lra; cbn [bind]. rewrite py_div_ok by lra; cbn [bind].
  fold (bw_tpr ta g) (bw_ppr p g).
  rewrite py_div_ok by lra; cbn [bind]. rewrite np_pow_pos by lra; cbn [bind].
  rewrite py_div_ok by lra; cbn [bind]. f_equal. unfold bw_z, bw_e. rewrite exp_Ropp.
  set (x := exp _). assert (0 < x) by apply exp_pos. field. lra.
Qed.

Definition bw_dz (tpr ppr : R) : R :=
  3 / 100 + 527 / 100000 * (35 / 10 - tpr) ^ 3
  - 12 / 10 * (109 / 1000) * (45 / 100 + 8 * (56 / 100 - 1 / tpr) ^ 2) * (385 / 100 - tpr) ^ 2
    * Rpower ppr (2 / 10) / tpr
    * exp (- ((45 / 100 + 8 * (56 / 100 - 1 / tpr) ^ 2) * Rpower ppr (12 / 10) / tpr)).

Lemma rate_value ta p g :
  0 < ta -> 0 < p -> 0 <= g <= 12 ->
  compressability_rate_per_pseudoreduced_pressure ta p g = Ok (bw_dz (bw_tpr ta g) (bw_ppr p g)).
Proof.
  intros Ht Hp Hg. unfold compressability_rate_per_pseudoreduced_pressure, pseudoreduced_temperature, pseudoreduced_pressure.
  pose proof (tpr_pos ta g Ht (proj1 Hg)) as T. pose proof (ppr_pos p g Hp (proj2 Hg)) as P.
  rewrite py_div_ok by lra; cbn [bind]. rewrite py_div_ok by lra; cbn [bind].
  fold (bw_tpr ta g) (bw_ppr p g).
  rewrite py_div_ok by lra; cbn [bind]. rewrite np_pow_pos by lra; cbn [bind].
  rewrite np_pow_pos by lra; cbn [bind].
  rewrite py_div_ok by lra; cbn [bind].
  set (e := _ * Rpower _ (12 / 10) / _).
  pose proof (exp_pos e) as X.
  assert (Y : 0 < exp e * bw_tpr ta g) by (apply Rmult_lt_0_compat; assumption).
  rewrite np_div_ok by lra; cbn [bind]. f_equal. unfold bw_dz. fold e. rewrite exp_Ropp.
  field. lra.
Qed.

Lemma rpower_split x : 0 < x -> Rpower x (12 / 10) = x * Rpower x (2 / 10).
Proof.
  intros H. replace (12 / 10) with (1 + 2 / 10) by field. rewrite Rpower_plus, Rpower_1; auto.
Qed.

Lemma z_derive tpr ppr : 0 < tpr -> 0 < ppr -> is_derive (bw_z tpr) ppr (bw_dz tpr ppr).
Proof.
  intros T P. unfold bw_z, bw_e, bw_dz, Rpower. auto_derive; [repeat split; assumption|].
  fold (Rpower ppr (12 / 10)) (Rpower ppr (2 / 10)).
  replace (exp (12 * / 10 * ln ppr)) with (Rpower ppr (12 / 10)) by reflexivity.
  rewrite rpower_split by assumption.
  set (q := Rpower ppr (2 / 10)).
  replace (- ((45 * / 100 + 8 * ((56 * / 100 + - (1 * / tpr)) * ((56 * / 100 + - (1 * / tpr)) * 1))) *
           (ppr * q) * / tpr)) with
   (- ((45 / 100 + 8 * (56 / 100 - 1 / tpr) ^ 2) * (ppr * q) / tpr)) by (unfold Rdiv; ring).
  set (x := exp _). field. lra.
Qed.

Lemma rate_is_derivative ta p g :
  0 < ta -> 0 < p -> 0 <= g <= 12 ->
  exists Z dz,
    (forall x, 0 < x -> compressability_factor ta x g = Ok (Z x)) /\
    compressability_rate_per_pseudoreduced_pressure ta p g = Ok dz /\
    is_derive (fun x => Z (x * (4892 / 1000 - 4048 / 10000 * g))) (p / (4892 / 1000 - 4048 / 10000 * g)) dz.
Proof.
  intros Ht Hp Hg. exists (fun x => bw_z (bw_tpr ta g) (bw_ppr x g)), (bw_dz (bw_tpr ta g) (bw_ppr p g)).
  split; [intros x Hx; apply factor_value; assumption|]. split; [apply rate_value; assumption|].
  assert (C : 0 < 4892 / 1000 - 4048 / 10000 * g) by lra.
  apply is_derive_ext with (f := bw_z (bw_tpr ta g)).
  - intros x. unfold bw_ppr.
    assert (E : forall y c : R, 0 < c -> y * c / c = y) by (intros y c Hc; field; lra).
    rewrite E by assumption. reflexivity.
  - apply z_derive; [apply tpr_pos; lra|]. apply ppr_pos; lra.
Qed.

Lemma base_pos t : 83 / 100 <= t <= 41 / 10 -> 0 < 642 / 1000 * t - 7 / 1000 * t ^ 4 - 52 / 100.
Proof.
  intros H.
  assert (Q : 0 <= (t - 83 / 100) * (41 / 10 - t)) by nra.
  (* t^4 lies below its chord *)
  assert (L : t ^ 4 <= (83 / 100) ^ 4 + (t - 83 / 100) * (((41 / 10) ^ 4 - (83 / 100) ^ 4) / (41 / 10 - 83 / 100))).
  { replace (((41 / 10) ^ 4 - (83 / 100) ^ 4) / (41 / 10 - 83 / 100))
      with ((41 / 10 + 83 / 100) * ((41 / 10) ^ 2 + (83 / 100) ^ 2)) by field.
    set (a := 83 / 100) in *. set (b := 41 / 10) in *.
    assert (E : a ^ 4 + (t - a) * ((b + a) * (b ^ 2 + a ^ 2)) - t ^ 4
                = (t - a) * (b - t) * (t ^ 2 + t * (a + b) + (a ^ 2 + a * b + b ^ 2))) by ring.
    assert (0 <= (t - a) * (b - t) * (t ^ 2 + t * (a + b) + (a ^ 2 + a * b + b ^ 2))).
    { apply Rmult_le_pos; [exact Q|]. unfold a, b in *. nra. }
    lra. }
  lra.
Qed.

Lemma slope_pos t : t <= 41 / 10 -> 0 < 3 / 100 + 527 / 100000 * (35 / 10 - t) ^ 3.
Proof.
  intros H. destruct (Rle_dec t (35 / 10)).
  - assert (0 <= (35 / 10 - t) ^ 3) by (apply pow_le; lra). lra.
  - replace ((35 / 10 - t) ^ 3) with (- (t - 35 / 10) ^ 3) by ring.
    assert ((t - 35 / 10) ^ 3 <= (6 / 10) ^ 3) by (apply pow_incr; lra). lra.
Qed.

Lemma z_pos tpr ppr : 83 / 100 <= tpr <= 41 / 10 -> 0 < ppr -> 0 < bw_z tpr ppr.
Proof.
  intros T P. unfold bw_z. pose proof (base_pos tpr T). pose proof (slope_pos tpr (proj2 T)) as S.
  assert (0 < (3 / 100 + 527 / 100000 * (35 / 10 - tpr) ^ 3) * ppr) by (apply Rmult_lt_0_compat; assumption).
  assert (0 <= bw_e tpr ppr).
  { unfold bw_e. apply Rmult_le_pos; [apply Rmult_le_pos; [lra|apply pow2_ge_0]|apply Rlt_le, exp_pos]. }
  lra.
Qed.

Lemma z_minus_pos tpr ppr :
  83 / 100 <= tpr <= 41 / 10 -> 0 < ppr -> 0 < bw_z tpr ppr - bw_dz tpr ppr * ppr.
Proof.
  intros T P. unfold bw_z, bw_dz, bw_e. pose proof (base_pos tpr T) as B.
  rewrite (rpower_split ppr) by assumption.
  set (q := Rpower ppr (2 / 10)). assert (Q : 0 < q) by apply exp_pos.
  set (c := 45 / 100 + 8 * (56 / 100 - 1 / tpr) ^ 2).
  assert (C : 0 < c) by (unfold c; pose proof (pow2_ge_0 (56 / 100 - 1 / tpr)); lra).
  set (x := exp _). assert (X : 0 < x) by apply exp_pos.
  set (s := 3 / 100 + 527 / 100000 * (35 / 10 - tpr) ^ 3).
  replace (s * ppr + (642 / 1000 * tpr - 7 / 1000 * tpr ^ 4 - 52 / 100) + 109 / 1000 * (385 / 100 - tpr) ^ 2 * x -
   (s - 12 / 10 * (109 / 1000) * c * (385 / 100 - tpr) ^ 2 * q / tpr * x) * ppr)
   with ((642 / 1000 * tpr - 7 / 1000 * tpr ^ 4 - 52 / 100)
         + 109 / 1000 * ((385 / 100 - tpr) ^ 2 * (x * (1 + 12 / 10 * c * q * ppr / tpr)))) by (field; lra).
  assert (0 <= 12 / 10 * c * q * ppr / tpr).
  { apply Rmult_le_pos; [|apply Rlt_le, Rinv_0_lt_compat; lra].
    repeat apply Rmult_le_pos; lra. }
  assert (0 <= (385 / 100 - tpr) ^ 2 * (x * (1 + 12 / 10 * c * q * ppr / tpr))).
  { apply Rmult_le_pos; [apply pow2_ge_0|]. apply Rmult_le_pos; lra. }
  lra.
Qed.

Lemma gamma_pos ppr : 0 <= ppr -> 0 < bw_gamma ppr.
Proof.
  intros P. unfold bw_gamma. rewrite exp_Ropp.
  set (u := 65 / 100 * (ppr + 1)).
  assert (E : (1 + u / 2) ^ 2 <= exp u).
  { replace (exp u) with (exp (u / 2) ^ 2).
    - apply pow_incr. split; [unfold u; lra|]. apply exp_ineq1_le.
    - simpl. rewrite Rmult_1_r, <- exp_plus. f_equal. field. }
  set (y := ppr + 53 / 13).
  assert (Y : (1 + u / 2) ^ 2 = (13 / 40) ^ 2 * y ^ 2) by (unfold u, y; field).
  rewrite Y in E.
  assert (Y2 : 0 < y ^ 2) by (unfold y; apply pow_lt; lra).
  assert (I : / exp u <= / ((13 / 40) ^ 2 * y ^ 2)) by (apply Rinv_le_contravar; lra).
  assert (B : 271 / 10 / y ^ 2 <= 271 / 10 / (ppr + 35 / 10) ^ 2).
  { apply Rmult_le_compat_l; [lra|]. apply Rinv_le_contravar; [apply pow_lt; lra|].
    apply pow_incr. unfold y. lra. }
  assert (D : 0 < 85 / 100 + 56 / 10 / (ppr + 2) + 271 / 10 / y ^ 2 - 87 / 10 * / ((13 / 40) ^ 2 * y ^ 2)).
  { replace (85 / 100 + 56 / 10 / (ppr + 2) + 271 / 10 / y ^ 2 - 87 / 10 * / ((13 / 40) ^ 2 * y ^ 2))
      with (((85 / 100 * (ppr + 2) + 56 / 10) * y ^ 2 - (87 / 10 * (40 / 13) ^ 2 - 271 / 10) * (ppr + 2)) / ((ppr + 2) * y ^ 2)).
    - apply Rmult_lt_0_compat; [|apply Rinv_0_lt_compat, Rmult_lt_0_compat; lra].
      unfold y. nra.
    - field. unfold y. lra. }
  lra.
Qed.

Lemma gamma_value ppr : 0 < ppr -> gamma_0 ppr = Ok (bw_gamma ppr).
Proof.
  intros P. unfold gamma_0, bw_gamma. rewrite py_div_ok by lra; cbn [bind].
  assert (0 < (ppr + 35 / 10) ^ 2) by (apply pow_lt; lra).
  rewrite py_div_ok by lra; cbn [bind]. f_equal.
  replace (- (65 / 100) * (ppr + 1)) with (- (65 / 100 * (ppr + 1))) by ring. reflexivity.
Qed.

Lemma const_pos : 0 < gas_constant. Proof. unfold gas_constant. lra. Qed.
Lemma air_pos : 0 < AIR_WEIGHT. Proof. unfold AIR_WEIGHT. lra. Qed.

Lemma ideal_gas_inv ta p g m :
  ideal_gas ta p g = Ok m ->
  ta <> 0 /\ p <> 0 /\ 0 < dens m /\ dens m = g * AIR_WEIGHT * p * 10 ^ 9 / (gas_constant * ta) /\
  vp m = sqrt (gas_constant * ta / (g * AIR_WEIGHT)) /\ is_material m (vp m ^ 2 * dens m) 0 (dens m).
Proof.
  unfold ideal_gas, ideal_gas_density, molar_volume, ideal_gas_primary_velocity, molecular_weight.
  intros H. pose proof const_pos as RP.
  destruct (py_div (gas_constant * ta) (p * 10 ^ 6)) as [v|] eqn:E1; cbn [bind] in H; [|discriminate].
  apply py_div_inv in E1. destruct E1 as [N1 ->].
  destruct (py_div (g * AIR_WEIGHT) _) as [v|] eqn:E2; cbn [bind] in H; [|discriminate].
  apply py_div_inv in E2. destruct E2 as [N2 ->].
  destruct (py_div (gas_constant * ta) (g * AIR_WEIGHT)) as [v|] eqn:E3; cbn [bind] in H; [|discriminate].
  apply py_div_inv in E3. destruct E3 as [N3 ->].
  destruct (np_sqrt _) as [v|] eqn:E4; cbn [bind] in H; [|discriminate].
  apply np_sqrt_inv in E4. destruct E4 as [N4 ->].
  assert (P : p <> 0) by (intros ->; apply N1; ring).
  assert (T : ta <> 0) by (intros ->; apply N2; field; lra).
  apply fluid_of_velocity_inv in H. destruct H as (A & B & (M1 & M2 & M3 & M4) & V).
  assert (DV : g * AIR_WEIGHT / (gas_constant * ta / (p * 10 ^ 6)) * 1000 = g * AIR_WEIGHT * p * 10 ^ 9 / (gas_constant * ta))
    by (field; lra).
  split; [exact T|]. split; [exact P|]. rewrite M3, V.
  split; [exact A|]. split; [exact DV|]. split; [reflexivity|]. repeat split; tauto.
Qed.

Lemma ideal_gas_ok ta p g : 0 < ta -> 0 < p -> 0 < g -> is_ok (ideal_gas ta p g).
Proof.
  intros T P G. unfold ideal_gas, ideal_gas_density, molar_volume, ideal_gas_primary_velocity, molecular_weight.
  pose proof const_pos. pose proof air_pos.
  assert (0 < gas_constant * ta) by (apply Rmult_lt_0_compat; lra).
  assert (0 < g * AIR_WEIGHT) by (apply Rmult_lt_0_compat; lra).
  assert (0 < gas_constant * ta / (p * 10 ^ 6)) by (apply Rmult_lt_0_compat; [lra|apply Rinv_0_lt_compat; lra]).
  rewrite py_div_ok by lra; cbn [bind]. rewrite py_div_ok by lra; cbn [bind].
  rewrite py_div_ok by lra; cbn [bind].
  assert (0 < gas_constant * ta / (g * AIR_WEIGHT)) by (apply Rmult_lt_0_compat; [lra|apply Rinv_0_lt_compat; lra]).
  rewrite np_sqrt_ok by lra; cbn [bind].
  destruct (fluid_of_velocity_ok (g * AIR_WEIGHT / (gas_constant * ta / (p * 10 ^ 6)) * 1000)
    (sqrt (gas_constant * ta / (g * AIR_WEIGHT)))) as (m & E & _).
  - apply Rmult_lt_0_compat; [|lra]. apply Rmult_lt_0_compat; [lra|apply Rinv_0_lt_compat; lra].
  - apply sqrt_pos.
  - exists m; exact E.
Qed.

Lemma gas_law t p g m :
  gas t p g = Ok m ->
  exists z, compressability_factor (t + 27315 / 100) (p / 10 ^ 6) g = Ok z /\
    dens m * z * (8314462618 / 10 ^ 9 * (t + 27315 / 100)) = g * (288 / 10) / 1000 * p.
Proof.
  unfold gas, gas_density, celsius_to_kelvin. intros H.
  replace (p * (1 / 10 ^ 6)) with (p / 10 ^ 6) in H by field.
  destruct (ideal_gas _ _ _) as [i|] eqn:E1; cbn [bind] in H; [|discriminate].
  destruct (compressability_factor _ _ _) as [z|] eqn:E2; cbn [bind] in H; [|discriminate].
  destruct (np_div _ _) as [d|] eqn:E3; cbn [bind] in H; [|discriminate].
  apply np_div_inv in E3. destruct E3 as [NZ ->].
  destruct (gas_bulk_modulus _ _ _) as [k|] eqn:E4; cbn [bind] in H; [|discriminate].
  exists z. split; [reflexivity|].
  apply mat_of_moduli_inv in H.
  destruct (ideal_gas_inv _ _ _ _ E1) as (T & P & D0 & D & _).
  assert (DM : dens m = dens i / z) by (destruct H as (_ & _ & _ & ->); reflexivity).
  rewrite DM, D. unfold gas_constant, AIR_WEIGHT. field. split; [intros Q; apply T; lra|exact NZ].
Qed.

Lemma gas_value t p g :
  0 < t + 27315 / 100 -> 0 < p -> 0 < g <= 12 ->
  83 / 100 <= bw_tpr (t + 27315 / 100) g <= 41 / 10 ->
  exists m, gas t p g = Ok m /\ fluid m /\ 0 < bulk m /\
    (let tpr := bw_tpr (t + 27315 / 100) g in let ppr := bw_ppr (p / 10 ^ 6) g in
     bulk m = bw_gamma ppr * p / (1 - bw_dz tpr ppr * ppr / bw_z tpr ppr) /\
     dens m = g * AIR_WEIGHT / 1000 * p / (gas_constant * (t + 27315 / 100)) / bw_z tpr ppr).
Proof.
  intros T P G TPR.
  assert (P6 : 0 < p / 10 ^ 6) by (apply Rmult_lt_0_compat; [lra|apply Rinv_0_lt_compat; lra]).
  assert (P12 : 0 < p / 10 ^ 6 * (1 / 10 ^ 6)) by lra.
  assert (PPR : 0 < bw_ppr (p / 10 ^ 6) g) by (apply ppr_pos; lra).
  pose proof (z_pos _ _ TPR PPR) as Z. pose proof (z_minus_pos _ _ TPR PPR) as ZM.
  pose proof (gamma_pos _ (Rlt_le _ _ PPR)) as GA.
  destruct (ideal_gas_ok (t + 27315 / 100) (p / 10 ^ 6 * (1 / 10 ^ 6)) g T P12 (proj1 G)) as [i E].
  destruct (ideal_gas_inv _ _ _ _ E) as (_ & _ & D0 & D & _).
  set (tpr := bw_tpr (t + 27315 / 100) g) in *. set (ppr := bw_ppr (p / 10 ^ 6) g) in *.
  assert (Q : 0 < 1 - bw_dz tpr ppr * ppr / bw_z tpr ppr).
  { replace (1 - bw_dz tpr ppr * ppr / bw_z tpr ppr) with ((bw_z tpr ppr - bw_dz tpr ppr * ppr) / bw_z tpr ppr)
      by (field; lra).
    apply Rmult_lt_0_compat; [lra|apply Rinv_0_lt_compat; lra]. }
  assert (K : 0 < bw_gamma ppr * (p / 10 ^ 6) / (1 - bw_dz tpr ppr * ppr / bw_z tpr ppr)).
  { apply Rmult_lt_0_compat; [apply Rmult_lt_0_compat; lra|apply Rinv_0_lt_compat; lra]. }
  assert (DD : 0 < dens i / bw_z tpr ppr) by (apply Rmult_lt_0_compat; [lra|apply Rinv_0_lt_compat; lra]).
  assert (EG : gas t p g = mat_of_moduli (bw_gamma ppr * (p / 10 ^ 6) / (1 - bw_dz tpr ppr * ppr / bw_z tpr ppr) * 10 ^ 6) 0 (dens i / bw_z tpr ppr)).
  { unfold gas, gas_density, gas_bulk_modulus, celsius_to_kelvin.
    replace (p * (1 / 10 ^ 6)) with (p / 10 ^ 6) by field.
    rewrite E; cbn [bind]. rewrite factor_value by lra; cbn [bind]. fold tpr ppr.
    rewrite np_div_ok by lra; cbn [bind]. rewrite rate_value by lra; cbn [bind]. fold tpr ppr.
    unfold pseudoreduced_pressure. rewrite py_div_ok by lra; cbn [bind].
    fold (bw_ppr (p / 10 ^ 6) g). fold ppr. rewrite gamma_value by assumption; cbn [bind].
    rewrite np_div_ok by lra; cbn [bind]. rewrite np_div_ok by lra; cbn [bind]. reflexivity. }
  destruct (mat_of_moduli_spec (bw_gamma ppr * (p / 10 ^ 6) / (1 - bw_dz tpr ppr * ppr / bw_z tpr ppr) * 10 ^ 6) 0
              (dens i / bw_z tpr ppr)) as (m & EM & (M1 & M2 & M3 & _) & WF); [lra|lra|lra|].
  rewrite EM in EG. exists m. split; [exact EG|].
  split; [split; [exact WF|exact M2]|]. split; [rewrite M1; lra|]. cbv zeta. rewrite M1, M3. split.
  - field. split; lra.
  - rewrite D. pose proof const_pos. field. repeat split; try lra.
Qed.

Lemma rpower_incr x y a : 0 < a -> 0 < x -> x <= y -> Rpower x a <= Rpower y a.
Proof.
  intros A X Y. apply Rle_Rpower_l; lra.
Qed.

Lemma rpower_sincr x y a : 0 < a -> 0 < x -> x < y -> Rpower x a < Rpower y a.
Proof.
  intros A X Y. unfold Rpower. apply exp_increasing. apply Rmult_lt_compat_l; [lra|].
  apply ln_increasing; lra.
Qed.

Lemma exp_incr x y : x <= y -> exp x <= exp y.
Proof. intros [H| ->]; [apply Rlt_le, exp_increasing; assumption|lra]. Qed.

Lemma e_decr tpr x y : 0 < tpr -> 0 < x -> x <= y -> bw_e tpr y <= bw_e tpr x.
Proof.
  intros T X Y. unfold bw_e. apply Rmult_le_compat_l.
  - apply Rmult_le_pos; [lra|apply pow2_ge_0].
  - apply exp_incr. apply Ropp_le_contravar. apply Rmult_le_compat_r; [apply Rlt_le, Rinv_0_lt_compat; lra|].
    apply Rmult_le_compat_l; [pose proof (pow2_ge_0 (56 / 100 - 1 / tpr)); lra|].
    apply rpower_incr; lra.
Qed.

Lemma gas_denser_with_pressure t p1 p2 g m1 m2 :
  0 < t + 27315 / 100 -> 0 < p1 -> p1 < p2 -> 0 < g <= 12 ->
  83 / 100 <= bw_tpr (t + 27315 / 100) g <= 41 / 10 ->
  gas t p1 g = Ok m1 -> gas t p2 g = Ok m2 -> dens m1 < dens m2.
Proof.
  intros T P1 P12 G TPR E1 E2.
  destruct (gas_value t p1 g T P1 G TPR) as (m & E & _ & _ & _ & D1). rewrite E1 in E. injection E as <-.
  assert (P2 : 0 < p2) by lra.
  destruct (gas_value t p2 g T P2 G TPR) as (m & E & _ & _ & _ & D2). rewrite E2 in E. injection E as <-.
  rewrite D1, D2.
  assert (A1 : 0 < bw_ppr (p1 / 10 ^ 6) g) by (apply ppr_pos; lra).
  assert (A2 : 0 < bw_ppr (p2 / 10 ^ 6) g) by (apply ppr_pos; lra).
  pose proof (z_pos _ _ TPR A1) as Z1. pose proof (z_pos _ _ TPR A2) as Z2.
  set (tpr := bw_tpr (t + 27315 / 100) g) in *.
  assert (X : p1 * bw_z tpr (bw_ppr (p2 / 10 ^ 6) g) < p2 * bw_z tpr (bw_ppr (p1 / 10 ^ 6) g)).
  { unfold bw_z.
    assert (EQ : p1 * bw_ppr (p2 / 10 ^ 6) g = p2 * bw_ppr (p1 / 10 ^ 6) g) by (unfold bw_ppr; field; lra).
    pose proof (base_pos tpr TPR) as B.
    assert (LE : bw_ppr (p1 / 10 ^ 6) g <= bw_ppr (p2 / 10 ^ 6) g).
    { unfold bw_ppr. apply Rmult_le_compat_r; [apply Rlt_le, Rinv_0_lt_compat|]; lra. }
    assert (TP : 0 < tpr) by lra.
    pose proof (e_decr tpr _ _ TP A1 LE) as ED.
    assert (EP : 0 <= bw_e tpr (bw_ppr (p2 / 10 ^ 6) g)).
    { unfold bw_e. apply Rmult_le_pos; [apply Rmult_le_pos; [lra|apply pow2_ge_0]|apply Rlt_le, exp_pos]. }
    set (s := 3 / 100 + 527 / 100000 * (35 / 10 - tpr) ^ 3) in *.
    set (x1 := bw_ppr (p1 / 10 ^ 6) g) in *. set (x2 := bw_ppr (p2 / 10 ^ 6) g) in *.
    set (b := 642 / 1000 * tpr - 7 / 1000 * tpr ^ 4 - 52 / 100) in *.
    set (e1 := bw_e tpr x1) in *. set (e2 := bw_e tpr x2) in *.
    assert (p1 * (s * x2) = p2 * (s * x1)) by (rewrite <- !Rmult_assoc, !(Rmult_comm _ s), !Rmult_assoc, EQ; reflexivity).
    assert (p1 * b < p2 * b) by (apply Rmult_lt_compat_r; lra).
    assert (p1 * e2 <= p2 * e1) by (apply Rmult_le_compat; lra).
    lra. }
  set (z1 := bw_z tpr (bw_ppr (p1 / 10 ^ 6) g)) in *. set (z2 := bw_z tpr (bw_ppr (p2 / 10 ^ 6) g)) in *.
  assert (C : 0 < g * AIR_WEIGHT / 1000 / (gas_constant * (t + 27315 / 100))).
  { pose proof const_pos. pose proof air_pos.
    apply Rmult_lt_0_compat; [apply Rmult_lt_0_compat; [apply Rmult_lt_0_compat|]|apply Rinv_0_lt_compat, Rmult_lt_0_compat]; lra. }
  assert (F : forall p z, 0 < z -> g * AIR_WEIGHT / 1000 * p / (gas_constant * (t + 27315 / 100)) / z
     = g * AIR_WEIGHT / 1000 / (gas_constant * (t + 27315 / 100)) * (p / z)).
  { intros p z Hz. pose proof const_pos. field. repeat split; lra. }
  rewrite !F by assumption. apply Rmult_lt_compat_l; [exact C|].
  apply Rmult_lt_reg_r with (z1 * z2); [apply Rmult_lt_0_compat; assumption|].
  replace (p1 / z1 * (z1 * z2)) with (p1 * z2) by (field; lra).
  replace (p2 / z2 * (z1 * z2)) with (p2 * z1) by (field; lra). exact X.
Qed.

Lemma gas_zero_pressure t g : gas t 0 g = Err ZeroDivisionError.
Proof.
  unfold gas, gas_density, ideal_gas, ideal_gas_density, molar_volume.
  replace (0 * (1 / 10 ^ 6) * (1 / 10 ^ 6) * 10 ^ 6) with 0 by ring. rewrite py_div_0. reflexivity.
Qed.

Lemma ideal_gas_units ta p g m :
  ideal_gas ta p g = Ok m ->
  dens m = 10 ^ 12 * (g * AIR_WEIGHT / 1000 * p / (gas_constant * ta)) /\
  (0 < ta -> 0 < g -> bulk m = 10 ^ 9 * p).
Proof.
  intros E. destruct (ideal_gas_inv _ _ _ _ E) as (T & P & D0 & D & V & M1 & _).
  pose proof const_pos. pose proof air_pos. split.
  - rewrite D. field. lra.
  - intros HT HG. rewrite M1, V, D.
    assert (0 < g * AIR_WEIGHT) by (apply Rmult_lt_0_compat; lra).
    simpl (sqrt _ ^ 2). rewrite Rmult_1_r, sqrt_sqrt.
    + field. lra.
    + apply Rmult_le_pos; [apply Rmult_le_pos; lra|apply Rlt_le, Rinv_0_lt_compat; lra].
Qed.

(* ---- dead and live oil against the published equations ---- *)
Lemma rpow_pos x y : 0 < Rpower x y. Proof. apply exp_pos. Qed.

Lemma dead_density_value t p r :
  - (1778 / 100) < t -> dead_oil_density t p r = Ok (bw_dead_density t p r).
Proof.
  intros T. unfold dead_oil_density, temperature_adjusted_dead_oil_density, pressure_adjusted_dead_oil_density.
  rewrite np_pow_pos by lra; cbn [bind].
  pose proof (rpow_pos (t + 1778 / 100) (1175 / 1000)). rewrite py_div_ok by lra. reflexivity.
Qed.

Lemma oil_velocity_value t p r :
  0 < r <= 108 / 100 -> dead_oil_primary_velocity t p r = Ok (bw_oil_velocity t p r).
Proof.
  intros Hr. unfold dead_oil_primary_velocity.
  rewrite np_div_ok by lra; cbn [bind].
  rewrite np_sqrt_ok by (apply Rmult_le_pos; [lra|apply Rlt_le, Rinv_0_lt_compat; lra]); cbn [bind].
  rewrite np_div_ok by lra; cbn [bind].
  assert (Q : 1 <= 108 / 100 * (1 / r)).
  { replace (108 / 100 * (1 / r)) with (108 / 100 / r) by (field; lra).
    apply Rmult_le_reg_r with r; [lra|]. unfold Rdiv at 1. rewrite Rmult_assoc, Rinv_l by lra. lra. }
  rewrite np_sqrt_ok by lra; cbn [bind]. f_equal. unfold bw_oil_velocity.
  replace (108 / 100 * (1 / r)) with (108 / 100 / r) by (field; lra). reflexivity.
Qed.

Lemma oil_velocity_inv t p r v :
  dead_oil_primary_velocity t p r = Ok v -> 0 < r <= 108 / 100.
Proof.
  unfold dead_oil_primary_velocity. intros H.
  destruct (np_div r _) as [q|] eqn:E1; cbn [bind] in H; [|discriminate].
  apply np_div_inv in E1. destruct E1 as [N1 ->].
  destruct (np_sqrt _) as [s|] eqn:E2; cbn [bind] in H; [|discriminate].
  destruct (np_div 1 r) as [i|] eqn:E3; cbn [bind] in H; [|discriminate].
  apply np_div_inv in E3. destruct E3 as [N3 ->].
  destruct (np_sqrt (108 / 100 * (1 / r) - 1)) as [h|] eqn:E4; cbn [bind] in H; [|discriminate].
  apply np_sqrt_inv in E4. destruct E4 as [N4 _].
  assert (R0 : 0 < r).
  { destruct (Rlt_dec r 0) as [L|L]; [|lra].
    assert (1 / r < 0) by (unfold Rdiv; rewrite Rmult_1_l; apply Rinv_lt_0_compat; lra). lra. }
  split; [assumption|].
  assert (Q : 1 * r <= 108 / 100 * (1 / r) * r) by (apply Rmult_le_compat_r; lra).
  replace (108 / 100 * (1 / r) * r) with (108 / 100) in Q by (field; lra). lra.
Qed.

Lemma thousandth r : 0 < r / 1000 <= 108 / 100 <-> 0 < r <= 1080.
Proof. lra. Qed.

Lemma dead_oil_value t p r m :
  - (1778 / 100) < t -> dead_oil t p r = Ok m ->
  0 < r <= 1080 /\
  dens m = 1000 * bw_dead_density t (p / 10 ^ 6) (r / 1000) /\
  vp m = bw_oil_velocity t (p / 10 ^ 6) (r / 1000) /\
  is_material m (vp m ^ 2 * dens m) 0 (dens m).
Proof.
  intros T H. unfold dead_oil in H.
  replace (p * (1 / 10 ^ 6)) with (p / 10 ^ 6) in H by field.
  rewrite dead_density_value in H by assumption. cbn [bind] in H.
  destruct (dead_oil_primary_velocity _ _ _) as [v|] eqn:E; cbn [bind] in H; [|discriminate].
  pose proof (oil_velocity_inv _ _ _ _ E) as RR. rewrite oil_velocity_value in E by assumption.
  injection E as <-. apply fluid_of_velocity_inv in H. destruct H as (A & B & (M1 & M2 & M3 & M4) & V).
  split; [apply thousandth; assumption|]. rewrite M3, V. split; [ring|]. split; [reflexivity|].
  repeat split; tauto.
Qed.

Lemma dead_oil_ok t p r :
  - (1778 / 100) < t -> 0 < r <= 1080 ->
  0 < bw_dead_density t (p / 10 ^ 6) (r / 1000) -> 0 <= bw_oil_velocity t (p / 10 ^ 6) (r / 1000) ->
  is_ok (dead_oil t p r).
Proof.
  intros T Hr D V. unfold dead_oil.
  replace (p * (1 / 10 ^ 6)) with (p / 10 ^ 6) by field.
  rewrite dead_density_value by assumption. cbn [bind].
  rewrite oil_velocity_value by (apply thousandth; assumption). cbn [bind].
  destruct (fluid_of_velocity_ok (bw_dead_density t (p / 10 ^ 6) (r / 1000) * 1000)
     (bw_oil_velocity t (p / 10 ^ 6) (r / 1000))) as (m & E & _); [lra|lra|]. exists m; exact E.
Qed.

Lemma heavy_dead_oil t p r : 1080 < r -> fails (dead_oil t p r).
Proof.
  intros Hr. destruct (dead_oil t p r) as [m|e] eqn:E; [|exists e; reflexivity].
  exfalso. unfold dead_oil in E.
  destruct (dead_oil_density _ _ _); cbn [bind] in E; [|discriminate].
  destruct (dead_oil_primary_velocity _ _ _) as [v|] eqn:V; cbn [bind] in E; [|discriminate].
  apply oil_velocity_inv in V. lra.
Qed.

Lemma heavy_oil t p r rg g : 1080 < r -> fails (oil t p r rg g).
Proof.
  intros Hr. destruct (oil t p r rg g) as [m|e] eqn:E; [|exists e; reflexivity].
  exfalso. destruct (oil_blend _ _ _ _ _ _ E) as (d & l & w & D & _).
  destruct (heavy_dead_oil t p r Hr) as [e X]. congruence.
Qed.

(** Dead oil density against pressure and temperature. *)
Lemma dead_den_pos t : 0 < 972 / 1000 + 381 / 10 ^ 6 * Rpower (t + 1778 / 100) (1175 / 1000).
Proof. pose proof (rpow_pos (t + 1778 / 100) (1175 / 1000)). lra. Qed.

Lemma dead_num_incr p1 p2 r :
  0 <= p1 -> p1 < p2 -> p2 <= 73 ->
  r + (277 / 100000 * p1 - 171 / 10 ^ 9 * p1 ^ 3) * (r - 115 / 100) ^ 2 + 349 / 10 ^ 6 * p1 <
  r + (277 / 100000 * p2 - 171 / 10 ^ 9 * p2 ^ 3) * (r - 115 / 100) ^ 2 + 349 / 10 ^ 6 * p2.
Proof.
  intros A B C.
  assert (L : 277 / 100000 * p1 - 171 / 10 ^ 9 * p1 ^ 3 <= 277 / 100000 * p2 - 171 / 10 ^ 9 * p2 ^ 3).
  { assert (0 <= (p2 - p1) * (277 / 100000 - 171 / 10 ^ 9 * (p1 ^ 2 + p1 * p2 + p2 ^ 2))).
    { apply Rmult_le_pos; [lra|].
      assert (p1 ^ 2 <= 73 ^ 2) by (apply pow_incr; lra). assert (p2 ^ 2 <= 73 ^ 2) by (apply pow_incr; lra).
      assert (p1 * p2 <= 73 * 73) by (apply Rmult_le_compat; lra). lra. }
    lra. }
  pose proof (pow2_ge_0 (r - 115 / 100)) as S.
  pose proof (Rmult_le_compat_r _ _ _ S L). lra.
Qed.

Lemma dead_oil_denser_with_pressure t p1 p2 r m1 m2 :
  - (1778 / 100) < t -> 0 <= p1 -> p1 < p2 -> p2 <= 73 * 10 ^ 6 ->
  dead_oil t p1 r = Ok m1 -> dead_oil t p2 r = Ok m2 -> dens m1 < dens m2.
Proof.
  intros T A B C E1 E2.
  destruct (dead_oil_value _ _ _ _ T E1) as (_ & D1 & _). destruct (dead_oil_value _ _ _ _ T E2) as (_ & D2 & _).
  rewrite D1, D2. apply Rmult_lt_compat_l; [lra|]. unfold bw_dead_density.
  apply Rmult_lt_compat_r; [apply Rinv_0_lt_compat, dead_den_pos|].
  apply dead_num_incr; lra.
Qed.

Lemma dead_oil_denser_iff t p1 p2 r m1 m2 :
  - (1778 / 100) < t -> p1 < p2 ->
  dead_oil t p1 r = Ok m1 -> dead_oil t p2 r = Ok m2 ->
  let a := p1 / 10 ^ 6 in let b := p2 / 10 ^ 6 in
  (dens m1 < dens m2 <->
   0 < (r / 1000 - 115 / 100) ^ 2 * (277 / 100000 - 171 / 10 ^ 9 * (a ^ 2 + a * b + b ^ 2)) + 349 / 10 ^ 6).
Proof.
  intros T B E1 E2 a b.
  destruct (dead_oil_value _ _ _ _ T E1) as (_ & D1 & _). destruct (dead_oil_value _ _ _ _ T E2) as (_ & D2 & _).
  rewrite D1, D2. unfold bw_dead_density. fold a. fold b.
  set (x := r / 1000) in *. pose proof (dead_den_pos t) as Q.
  set (q := 972 / 1000 + 381 / 10 ^ 6 * Rpower (t + 1778 / 100) (1175 / 1000)) in *.
  set (e := (x - 115 / 100) ^ 2 * (277 / 100000 - 171 / 10 ^ 9 * (a ^ 2 + a * b + b ^ 2)) + 349 / 10 ^ 6).
  assert (AB : 0 < b - a) by (unfold a, b; lra).
  assert (I : 0 < / q) by (apply Rinv_0_lt_compat, Q).
  match goal with |- 1000 * (?u / q) < 1000 * (?v / q) <-> _ =>
    assert (X : v / q * 1000 - u / q * 1000 = (b - a) * e * / q * 1000) by (unfold e; field; lra) end.
  split; intros H.
  - destruct (Rlt_dec 0 e) as [|N]; [assumption|exfalso].
    assert (0 <= (b - a) * (- e)) by (apply Rmult_le_pos; lra).
    assert (0 <= (b - a) * (- e) * / q) by (apply Rmult_le_pos; lra). lra.
  - assert (0 < (b - a) * e * / q) by (repeat apply Rmult_lt_0_compat; assumption). lra.
Qed.

Lemma dead_oil_lighter_with_temperature t1 t2 p r m1 m2 :
  - (1778 / 100) < t1 -> t1 < t2 ->
  dead_oil t1 p r = Ok m1 -> dead_oil t2 p r = Ok m2 -> dens m2 < dens m1.
Proof.
  intros T B E1 E2. assert (T2 : - (1778 / 100) < t2) by lra.
  destruct (dead_oil_inv _ _ _ _ E1) as (P1 & _).
  destruct (dead_oil_value _ _ _ _ T E1) as (_ & D1 & _). destruct (dead_oil_value _ _ _ _ T2 E2) as (_ & D2 & _).
  rewrite D1, D2. rewrite D1 in P1. apply Rmult_lt_compat_l; [lra|]. unfold bw_dead_density in *.
  set (n := _ + _ + _) in *.
  pose proof (dead_den_pos t1) as Q1. pose proof (dead_den_pos t2) as Q2.
  assert (N : 0 < n).
  { assert (0 < n / (972 / 1000 + 381 / 10 ^ 6 * Rpower (t1 + 1778 / 100) (1175 / 1000))) by lra.
    replace n with (n / (972 / 1000 + 381 / 10 ^ 6 * Rpower (t1 + 1778 / 100) (1175 / 1000)) *
      (972 / 1000 + 381 / 10 ^ 6 * Rpower (t1 + 1778 / 100) (1175 / 1000))) by (field; lra).
    apply Rmult_lt_0_compat; assumption. }
  apply Rmult_lt_compat_l; [exact N|]. apply Rinv_lt_contravar; [apply Rmult_lt_0_compat; assumption|].
  assert (Rpower (t1 + 1778 / 100) (1175 / 1000) < Rpower (t2 + 1778 / 100) (1175 / 1000)) by (apply rpower_sincr; lra).
  lra.
Qed.

Lemma div_pos a b : 0 < a -> 0 < b -> 0 < a / b.
Proof. intros. apply Rmult_lt_0_compat; [lra|apply Rinv_0_lt_compat; lra]. Qed.

Lemma freezing_velocity p r : 0 <= p -> 0 <= bw_oil_velocity 0 p r.
Proof. intros. unfold bw_oil_velocity. pose proof (sqrt_pos (r / (26 / 10 - r))). lra. Qed.

Lemma dead_oil_high_pressure : exists t p1 p2 r m1 m2,
  0 <= t /\ 0 <= p1 /\ p1 < p2 /\ p2 <= 150 * 10 ^ 6 /\ dead_oil t p1 r = Ok m1 /\ dead_oil t p2 r = Ok m2 /\ dens m2 < dens m1.
Proof.
  assert (A : is_ok (dead_oil 0 (100 * 10 ^ 6) 600)).
  { apply dead_oil_ok; [lra|lra| |apply freezing_velocity; lra].
    unfold bw_dead_density. apply div_pos; [lra|apply dead_den_pos]. }
  assert (B : is_ok (dead_oil 0 (150 * 10 ^ 6) 600)).
  { apply dead_oil_ok; [lra|lra| |apply freezing_velocity; lra].
    unfold bw_dead_density. apply div_pos; [lra|apply dead_den_pos]. }
  destruct A as [m1 A]. destruct B as [m2 B].
  exists 0, (100 * 10 ^ 6), (150 * 10 ^ 6), 600, m1, m2.
  split; [lra|]. split; [lra|]. split; [lra|]. split; [lra|]. split; [exact A|]. split; [exact B|].
  assert (T : - (1778 / 100) < 0) by lra.
  destruct (dead_oil_value _ _ _ _ T A) as (_ & D1 & _). destruct (dead_oil_value _ _ _ _ T B) as (_ & D2 & _).
  rewrite D1, D2. apply Rmult_lt_compat_l; [lra|]. unfold bw_dead_density.
  apply Rmult_lt_compat_r; [apply Rinv_0_lt_compat, dead_den_pos|]. lra.
Qed.

(** Live oil. *)
Lemma b0_value t r rg g :
  0 < r -> 0 <= g -> 0 < 24 / 10 * rg * sqrt (g / r) + t + 178 / 10 ->
  live_oil_volume_factor t r rg g = Ok (bw_b0 t r rg g).
Proof.
  intros R G W. unfold live_oil_volume_factor. rewrite py_div_ok by lra; cbn [bind].
  rewrite np_sqrt_ok by (apply Rmult_le_pos; [lra|apply Rlt_le, Rinv_0_lt_compat; lra]); cbn [bind].
  rewrite np_pow_pos by assumption; cbn [bind]. reflexivity.
Qed.

Lemma b0_pos t r rg g : 972 / 1000 < bw_b0 t r rg g.
Proof. unfold bw_b0. pose proof (rpow_pos (24 / 10 * rg * sqrt (g / r) + t + 178 / 10) (1175 / 1000)). lra. Qed.

Lemma live_oil_value t p r rg g m :
  0 < r -> 0 < g -> 0 < 24 / 10 * rg * sqrt (g / (r / 1000)) + t + 178 / 10 ->
  live_oil t p r rg g = Ok m ->
  dens m = 1000 * bw_live_density t (r / 1000) rg g /\
  0 < bw_pseudo_density t (r / 1000) rg g <= 108 / 100 /\
  vp m = bw_oil_velocity t (p / 10 ^ 6) (bw_pseudo_density t (r / 1000) rg g) /\
  is_material m (vp m ^ 2 * dens m) 0 (dens m).
Proof.
  intros R G W H. unfold live_oil, live_oil_density, live_oil_primary_velocity, live_oil_pseudo_density in H.
  rewrite !py_div_ok in H by lra; cbn [bind] in H.
  rewrite b0_value in H by lra. cbn [bind] in H.
  pose proof (b0_pos t (r / 1000) rg g) as B. rewrite !np_div_ok in H by lra. cbn [bind] in H.
  replace (p * (1 / 10 ^ 6)) with (p / 10 ^ 6) in H by field.
  destruct (np_div _ (1 + 1 / 1000 * rg)) as [q|] eqn:E; cbn [bind] in H; [|discriminate].
  apply np_div_inv in E. destruct E as [N E]. fold (bw_pseudo_density t (r / 1000) rg g) in E. subst q.
  destruct (dead_oil_primary_velocity _ _ _) as [v|] eqn:E; cbn [bind] in H; [|discriminate].
  pose proof (oil_velocity_inv _ _ _ _ E) as RR. rewrite oil_velocity_value in E by assumption.
  injection E as <-. apply fluid_of_velocity_inv in H. destruct H as (A & C & (M1 & M2 & M3 & M4) & V).
  rewrite M3, V. unfold bw_live_density. split; [ring|]. split; [exact RR|]. split; [reflexivity|].
  repeat split; tauto.
Qed.

Lemma live_oil_ok t p r rg g :
  0 < r -> 0 < g -> 0 < 24 / 10 * rg * sqrt (g / (r / 1000)) + t + 178 / 10 ->
  0 < r / 1000 + 12 / 10000 * g * rg -> 1 + 1 / 1000 * rg <> 0 ->
  0 < bw_pseudo_density t (r / 1000) rg g <= 108 / 100 ->
  0 <= bw_oil_velocity t (p / 10 ^ 6) (bw_pseudo_density t (r / 1000) rg g) ->
  is_ok (live_oil t p r rg g).
Proof.
  intros R G W D N PD V. unfold live_oil, live_oil_density, live_oil_primary_velocity, live_oil_pseudo_density.
  rewrite !py_div_ok by lra; cbn [bind].
  rewrite b0_value by lra. cbn [bind].
  pose proof (b0_pos t (r / 1000) rg g) as B. rewrite !np_div_ok by lra. cbn [bind].
  rewrite np_div_ok by exact N. cbn [bind]. fold (bw_pseudo_density t (r / 1000) rg g).
  replace (p * (1 / 10 ^ 6)) with (p / 10 ^ 6) by field.
  rewrite oil_velocity_value by exact PD. cbn [bind].
  destruct (fluid_of_velocity_ok ((r / 1000 + 12 / 10000 * g * rg) / bw_b0 t (r / 1000) rg g * 1000)
     (bw_oil_velocity t (p / 10 ^ 6) (bw_pseudo_density t (r / 1000) rg g))) as (m & E & _).
  - apply Rmult_lt_0_compat; [apply div_pos; lra|lra].
  - exact V.
  - exists m; exact E.
Qed.

Lemma live_oil_density_ignores_pressure t p1 p2 r rg g m1 m2 :
  live_oil t p1 r rg g = Ok m1 -> live_oil t p2 r rg g = Ok m2 -> dens m1 = dens m2.
Proof.
  unfold live_oil, live_oil_density. intros H1 H2.
  destruct (py_div rg g); cbn [bind] in *; [|discriminate].
  destruct (py_div 4072 r); cbn [bind] in *; [|discriminate].
  destruct (live_oil_volume_factor _ _ _ _); cbn [bind] in *; [|discriminate].
  destruct (np_div _ a1); cbn [bind] in *; [|discriminate].
  destruct (live_oil_primary_velocity t (p1 * _) _ _ _); cbn [bind] in *; [|discriminate].
  destruct (live_oil_primary_velocity t (p2 * _) _ _ _); cbn [bind] in *; [|discriminate].
  apply fluid_of_velocity_inv in H1. apply fluid_of_velocity_inv in H2.
  destruct H1 as (_ & _ & (_ & _ & D1 & _) & _). destruct H2 as (_ & _ & (_ & _ & D2 & _) & _).
  congruence.
Qed.

Lemma live_oil_lighter_with_temperature t1 t2 p r rg g m1 m2 :
  0 < r -> 0 < g -> 0 <= rg -> - (178 / 10) < t1 -> t1 < t2 ->
  live_oil t1 p r rg g = Ok m1 -> live_oil t2 p r rg g = Ok m2 -> dens m2 < dens m1.
Proof.
  intros R G RG T B E1 E2.
  assert (S : 0 <= 24 / 10 * rg * sqrt (g / (r / 1000))) by (apply Rmult_le_pos; [lra|apply sqrt_pos]).
  destruct (live_oil_value t1 p r rg g m1) as (D1 & _); [lra|lra|lra|exact E1|].
  destruct (live_oil_value t2 p r rg g m2) as (D2 & _); [lra|lra|lra|exact E2|].
  rewrite D1, D2. apply Rmult_lt_compat_l; [lra|]. unfold bw_live_density.
  pose proof (b0_pos t1 (r / 1000) rg g). pose proof (b0_pos t2 (r / 1000) rg g).
  apply Rmult_lt_compat_l.
  { assert (0 <= 12 / 10000 * g * rg) by (repeat apply Rmult_le_pos; lra). lra. }
  apply Rinv_lt_contravar; [apply Rmult_lt_0_compat; lra|]. unfold bw_b0.
  assert (Rpower (24 / 10 * rg * sqrt (g / (r / 1000)) + t1 + 178 / 10) (1175 / 1000) <
          Rpower (24 / 10 * rg * sqrt (g / (r / 1000)) + t2 + 178 / 10) (1175 / 1000)) by (apply rpower_sincr; lra).
  lra.
Qed.

Lemma pseudo_density_range t r rg g :
  0 < r <= 1 -> - (1 / 2) <= rg -> 0 < bw_pseudo_density t r rg g <= 108 / 100.
Proof.
  intros R G. unfold bw_pseudo_density. pose proof (b0_pos t r rg g) as B.
  split; [apply div_pos; [apply div_pos|]; lra|].
  assert (r / bw_b0 t r rg g <= 1 / (972 / 1000)).
  { apply Rmult_le_compat; [lra|apply Rlt_le, Rinv_0_lt_compat; lra|lra|]. apply Rinv_le_contravar; lra. }
  apply Rle_trans with (1 / (972 / 1000) / (1999 / 2000)); [|lra].
  apply Rmult_le_compat; [apply Rlt_le, div_pos; lra|apply Rlt_le, Rinv_0_lt_compat; lra|lra|].
  apply Rinv_le_contravar; lra.
Qed.

Lemma live_oil_sample p rg :
  0 <= p -> - (1 / 2) <= rg -> is_ok (live_oil 0 p 800 rg (8 / 10)).
Proof.
  intros P RG.
  assert (S : sqrt (8 / 10 / (800 / 1000)) = 1).
  { replace (8 / 10 / (800 / 1000)) with 1 by field. apply sqrt_1. }
  apply live_oil_ok; try lra.
  - rewrite S. lra.
  - apply pseudo_density_range; lra.
  - apply freezing_velocity. apply Rmult_le_pos; [lra|apply Rlt_le, Rinv_0_lt_compat; lra].
Qed.

Lemma dead_oil_sample p : 0 <= p <= 73 * 10 ^ 6 -> is_ok (dead_oil 0 p 800).
Proof.
  intros P. assert (P' : 0 <= p / 10 ^ 6 <= 73) by lra.
  apply dead_oil_ok; [lra|lra| |apply freezing_velocity; lra].
  unfold bw_dead_density. apply div_pos; [|apply dead_den_pos].
  destruct (Rle_lt_or_eq_dec 0 (p / 10 ^ 6) (proj1 P')) as [L|L]; [|rewrite <- L; lra].
  pose proof (dead_num_incr 0 (p / 10 ^ 6) (800 / 1000)). lra.
Qed.

Lemma live_oil_pressure_refuted : exists t p1 p2 r rg g m1 m2,
  0 <= p1 /\ p1 < p2 /\ 1 <= rg /\ live_oil t p1 r rg g = Ok m1 /\ live_oil t p2 r rg g = Ok m2 /\
  oil t p1 r rg g = Ok m1 /\ oil t p2 r rg g = Ok m2 /\ dens m1 = dens m2.
Proof.
  destruct (live_oil_sample (10 * 10 ^ 6) 100) as [m1 E1]; [lra|lra|].
  destruct (live_oil_sample (50 * 10 ^ 6) 100) as [m2 E2]; [lra|lra|].
  destruct (dead_oil_sample (10 * 10 ^ 6)) as [d1 D1]; [lra|].
  destruct (dead_oil_sample (50 * 10 ^ 6)) as [d2 D2]; [lra|].
  exists 0, (10 * 10 ^ 6), (50 * 10 ^ 6), 800, 100, (8 / 10), m1, m2.
  split; [lra|]. split; [lra|]. split; [lra|]. split; [exact E1|]. split; [exact E2|].
  assert (RA : 1 <= Rabs 100) by (rewrite Rabs_right; lra).
  split.
  { destruct (proj2 (oil_defined 0 (10 * 10 ^ 6) 800 100 (8 / 10))) as [o O].
    - split; eexists; eassumption.
    - rewrite O. f_equal. eapply (oil_ends _ _ _ _ _ _ _ _ O D1 E1). exact RA. }
  split.
  { destruct (proj2 (oil_defined 0 (50 * 10 ^ 6) 800 100 (8 / 10))) as [o O].
    - split; eexists; eassumption.
    - rewrite O. f_equal. eapply (oil_ends _ _ _ _ _ _ _ _ O D2 E2). exact RA. }
  eapply live_oil_density_ignores_pressure; eassumption.
Qed.

Lemma negative_gor_accepted : exists t p r rg g m, rg < 0 /\ oil t p r rg g = Ok m.
Proof.
  destruct (live_oil_sample (10 * 10 ^ 6) (- (1 / 2))) as [m1 E1]; [lra|lra|].
  destruct (dead_oil_sample (10 * 10 ^ 6)) as [d1 D1]; [lra|].
  destruct (proj2 (oil_defined 0 (10 * 10 ^ 6) 800 (- (1 / 2)) (8 / 10))) as [o O].
  - split; eexists; eassumption.
  - do 6 eexists. split; [|exact O]. lra.
Qed.

(* ---- bubble point ---- *)
Lemma bubble_value r rg g t :
  0 < r -> 0 < rg -> 0 < g ->
  oil_bubble_point r rg g t =
    Ok (244697939134 / 10 ^ 4 * Rpower (rg / g) (83 / 100) * exp (377 / 100000 * t - 4072 / r)).
Proof.
  intros A B C. unfold oil_bubble_point. rewrite py_div_ok by lra; cbn [bind].
  rewrite py_div_ok by lra; cbn [bind]. rewrite np_pow_pos by (apply div_pos; lra); cbn [bind].
  f_equal. unfold Rdiv at 1. rewrite <- exp_Ropp. f_equal. f_equal. ring.
Qed.

Lemma bubble_monotone r1 r2 rg1 rg2 g1 g2 t1 t2 :
  0 < r1 -> r1 <= r2 -> 0 < rg1 -> rg1 <= rg2 -> 0 < g2 -> g2 <= g1 -> t1 <= t2 ->
  exists b1 b2, oil_bubble_point r1 rg1 g1 t1 = Ok b1 /\ oil_bubble_point r2 rg2 g2 t2 = Ok b2 /\
    0 < b1 <= b2 /\ ((r1 < r2 \/ rg1 < rg2 \/ g2 < g1 \/ t1 < t2) -> b1 < b2).
Proof.
  intros R R2 RG RG2 G G2 T. rewrite !bubble_value by lra.
  do 2 eexists. split; [reflexivity|]. split; [reflexivity|].
  assert (Q : rg1 / g1 <= rg2 / g2).
  { apply Rmult_le_compat; [lra|apply Rlt_le, Rinv_0_lt_compat; lra|lra|apply Rinv_le_contravar; lra]. }
  assert (Q0 : 0 < rg1 / g1) by (apply div_pos; lra).
  assert (QP : Rpower (rg1 / g1) (83 / 100) <= Rpower (rg2 / g2) (83 / 100)) by (apply rpower_incr; lra).
  assert (RI : 4072 / r2 <= 4072 / r1) by (apply Rmult_le_compat_l; [lra|apply Rinv_le_contravar; lra]).
  assert (XE : exp (377 / 100000 * t1 - 4072 / r1) <= exp (377 / 100000 * t2 - 4072 / r2)) by (apply exp_incr; lra).
  pose proof (rpow_pos (rg1 / g1) (83 / 100)) as P1.
  pose proof (exp_pos (377 / 100000 * t1 - 4072 / r1)) as X1.
  split.
  { split; [apply Rmult_lt_0_compat; [apply Rmult_lt_0_compat|]; lra|].
    apply Rmult_le_compat; [apply Rmult_le_pos; lra|lra|apply Rmult_le_compat_l; lra|lra]. }
  intros S.
  assert (ST : Rpower (rg1 / g1) (83 / 100) < Rpower (rg2 / g2) (83 / 100) \/
               exp (377 / 100000 * t1 - 4072 / r1) < exp (377 / 100000 * t2 - 4072 / r2)).
  { destruct S as [S|[S|[S|S]]].
    - right. apply exp_increasing.
      assert (4072 / r2 < 4072 / r1) by (apply Rmult_lt_compat_l; [lra|apply Rinv_lt_contravar; [apply Rmult_lt_0_compat|]; lra]).
      lra.
    - left. apply rpower_sincr; [lra|lra|].
      apply Rlt_le_trans with (rg2 / g1).
      + apply Rmult_lt_compat_r; [apply Rinv_0_lt_compat; lra|lra].
      + apply Rmult_le_compat_l; [lra|apply Rinv_le_contravar; lra].
    - left. apply rpower_sincr; [lra|lra|].
      apply Rlt_le_trans with (rg1 / g2).
      + apply Rmult_lt_compat_l; [lra|]. apply Rinv_lt_contravar; [apply Rmult_lt_0_compat|]; lra.
      + apply Rmult_le_compat_r; [apply Rlt_le, Rinv_0_lt_compat; lra|lra].
    - right. apply exp_increasing. lra. }
  rewrite !Rmult_assoc. apply Rmult_lt_compat_l; [lra|].
  destruct ST as [ST|ST].
  - apply Rlt_le_trans with (Rpower (rg2 / g2) (83 / 100) * exp (377 / 100000 * t1 - 4072 / r1)).
    + apply Rmult_lt_compat_r; lra.
    + apply Rmult_le_compat_l; lra.
  - apply Rle_lt_trans with (Rpower (rg2 / g2) (83 / 100) * exp (377 / 100000 * t1 - 4072 / r1)).
    + apply Rmult_le_compat_r; lra.
    + apply Rmult_lt_compat_l; lra.
Qed.

(* ---- combined statements ---- *)
Lemma rate_is_derivative_std ta p g :
  0 < ta -> 0 < p -> 0 <= g <= 12 ->
  exists Z dz,
    (forall x, 0 < x -> compressability_factor ta x g = Ok (Z x)) /\
    compressability_rate_per_pseudoreduced_pressure ta p g = Ok dz /\
    derivable_pt_lim (fun ppr => Z (ppr * (4892 / 1000 - 4048 / 10000 * g))) (p / (4892 / 1000 - 4048 / 10000 * g)) dz.
Proof.
  intros A B C. destruct (rate_is_derivative ta p g A B C) as (Z & dz & F & Rt & D).
  exists Z, dz. split; [exact F|]. split; [exact Rt|]. apply is_derive_Reals. exact D.
Qed.

Lemma gas_published t p g :
  0 < t + 27315 / 100 -> 0 < p -> 0 < g <= 12 ->
  83 / 100 <= bw_tpr (t + 27315 / 100) g <= 41 / 10 ->
  exists m dz, gas t p g = Ok m /\ fluid m /\ 0 < bulk m /\
    derivable_pt_lim (bw_z (bw_tpr (t + 27315 / 100) g)) (bw_ppr (p / 10 ^ 6) g) dz /\
    (let tpr := bw_tpr (t + 27315 / 100) g in let ppr := bw_ppr (p / 10 ^ 6) g in
     bulk m = bw_gamma ppr * p / (1 - ppr / bw_z tpr ppr * dz) /\
     dens m = g * (288 / 10) / 1000 * p / (8314462618 / 10 ^ 9 * (t + 27315 / 100)) / bw_z tpr ppr).
Proof.
  intros T P G TPR. destruct (gas_value t p g T P G TPR) as (m & E & F & K & V).
  exists m, (bw_dz (bw_tpr (t + 27315 / 100) g) (bw_ppr (p / 10 ^ 6) g)).
  assert (A : 0 < bw_ppr (p / 10 ^ 6) g) by (apply ppr_pos; lra).
  split; [exact E|]. split; [exact F|]. split; [exact K|]. split.
  { apply is_derive_Reals, z_derive; [lra|exact A]. }
  cbv zeta in *. destruct V as [V1 V2]. split; [|exact V2].
  rewrite V1. pose proof (z_pos _ _ TPR A) as ZP. set (z := bw_z _ _) in *. set (dz := bw_dz _ _) in *.
  replace (dz * bw_ppr (p / 10 ^ 6) g / z) with (bw_ppr (p / 10 ^ 6) g / z * dz) by (field; lra). reflexivity.
Qed.

Lemma ideal_gas_units_refuted : exists ta p g m,
  0 < ta /\ 0 < p /\ 0 < g /\ ideal_gas ta p g = Ok m /\
  dens m <> g * (288 / 10) / 1000 * p / (8314462618 / 10 ^ 9 * ta) /\ bulk m <> p.
Proof.
  destruct (ideal_gas_ok 300 (10 ^ 6) 1) as [m E]; [lra|lra|lra|].
  exists 300, (10 ^ 6), 1, m. split; [lra|]. split; [lra|]. split; [lra|]. split; [exact E|].
  destruct (ideal_gas_units _ _ _ _ E) as [D K]. rewrite K by lra. unfold AIR_WEIGHT, gas_constant in D.
  rewrite D. split; lra.
Qed.

(** Oil at ten degrees. *)
Lemma surface_velocity t r : 0 <= t <= 10 -> 1 / 50 <= r <= 1 -> 0 <= bw_oil_velocity t 0 r.
Proof.
  intros T Hr. unfold bw_oil_velocity.
  assert (S : 5 / 100 <= sqrt (r / (26 / 10 - r))).
  { replace (5 / 100) with (sqrt ((5 / 100) ^ 2)) by (apply sqrt_pow2; lra).
    apply sqrt_le_1_alt. apply Rmult_le_reg_r with (26 / 10 - r); [lra|].
    replace (r / (26 / 10 - r) * (26 / 10 - r)) with r by (field; lra). lra. }
  lra.
Qed.

Lemma dead_oil_sample10 t : 0 <= t <= 10 -> is_ok (dead_oil t 0 800).
Proof.
  intros T. apply dead_oil_ok; [lra|lra| |].
  - unfold bw_dead_density. apply div_pos; [lra|apply dead_den_pos].
  - replace (0 / 10 ^ 6) with 0 by field. apply surface_velocity; lra.
Qed.

Lemma live_oil_sample10 t : 0 <= t <= 10 -> is_ok (live_oil t 0 800 100 (8 / 10)).
Proof.
  intros T.
  assert (S : sqrt (8 / 10 / (800 / 1000)) = 1).
  { replace (8 / 10 / (800 / 1000)) with 1 by field. apply sqrt_1. }
  assert (PR : 1 / 50 <= bw_pseudo_density t (800 / 1000) 100 (8 / 10) <= 1).
  { pose proof (b0_pos t (800 / 1000) 100 (8 / 10)) as B. unfold bw_pseudo_density.
    assert (U : bw_b0 t (800 / 1000) 100 (8 / 10) <= 30).
    { unfold bw_b0. rewrite S.
      assert (Q : Rpower (24 / 10 * 100 * 1 + t + 178 / 10) (1175 / 1000) <= Rpower (24 / 10 * 100 * 1 + t + 178 / 10) 2).
      { apply Rle_Rpower; lra. }
      replace 2 with (1 + 1) in Q by ring. rewrite Rpower_plus, Rpower_1 in Q by lra. nra. }
    set (b := bw_b0 t (800 / 1000) 100 (8 / 10)) in *. split.
    - apply Rmult_le_reg_r with (b * (1 + 1 / 1000 * 100)); [apply Rmult_lt_0_compat; lra|].
      replace (800 / 1000 / b / (1 + 1 / 1000 * 100) * (b * (1 + 1 / 1000 * 100))) with (800 / 1000) by (field; lra).
      lra.
    - apply Rmult_le_reg_r with (b * (1 + 1 / 1000 * 100)); [apply Rmult_lt_0_compat; lra|].
      replace (800 / 1000 / b / (1 + 1 / 1000 * 100) * (b * (1 + 1 / 1000 * 100))) with (800 / 1000) by (field; lra).
      lra. }
  apply live_oil_ok; try lra.
  replace (0 / 10 ^ 6) with 0 by field. apply surface_velocity; lra.
Qed.
