(** The correction for pressure at any pressure, in double precision. *)
From Coq Require Import Reals List Lra Lia ZArith Bool.
From Verif Require Import Base MaterialModel MainModel FloatModel ConfigModel FloatSpec FloatProofs FloatExampleProofs FloatPolyProofs FloatPressureProofs FloatDependencyModel FloatDependencyProofs.
Import ListNotations.
Open Scope R_scope.

Lemma fl_err x : Rabs (fl x - x) <= u * Rabs x + tiny.
Proof. exact (fl_error x). Qed.
Lemma rnd_err x y : rnd x = Ok y -> Rabs (y - x) <= u * Rabs x + tiny.
Proof. intros E. rewrite (rnd_fl _ _ E). apply fl_err. Qed.
Lemma div_err a b y : f_np_div a b = Ok y -> b <> 0 /\ Rabs (y - a / b) <= u * Rabs (a / b) + tiny.
Proof. unfold f_np_div. destruct (Req_EM_T b 0) as [|N]; [discriminate|]. intros E. split; [exact N|apply rnd_err, E]. Qed.
Lemma tiny_u : tiny <= u / 1000.
Proof.
  apply Rle_trans with (/ 2 ^ 64); [apply half_le; lia|]. unfold u. replace 64%nat with (53 + 11)%nat by lia. rewrite pow_add, Rinv_mult.
  pose proof (half_pos 53). unfold Rdiv. apply Rmult_le_compat_l; [lra|]. simpl. lra.
Qed.
Lemma u_small : 0 < u <= / 1000000.
Proof. pose proof u_pos. pose proof u_le. pose proof small_50. lra. Qed.
Lemma quarter : / 2 ^ 1073 = 4 * tiny.
Proof. unfold tiny. replace 1075%nat with (2 + 1073)%nat by lia. rewrite pow_add, Rinv_mult. simpl (2 ^ 2). lra. Qed.
Lemma four_u : / 2 ^ 51 = 4 * u.
Proof. unfold u. replace 53%nat with (2 + 51)%nat by lia. rewrite pow_add, Rinv_mult. simpl (2 ^ 2). lra. Qed.
Lemma sixteen_u : / 2 ^ 49 = 16 * u.
Proof. unfold u. replace 53%nat with (4 + 49)%nat by lia. rewrite pow_add, Rinv_mult. simpl (2 ^ 4). lra. Qed.
Lemma abs_from x y e : Rabs (y - x) <= e -> Rabs y <= Rabs x + e.
Proof. intros H. replace y with (x + (y - x)) by ring. eapply Rle_trans; [apply Rabs_triang|]. lra. Qed.

Lemma scaled_error b x y q z : f_np_div x y = Ok q -> rnd (b * q) = Ok z ->
  Rabs (z - b * (x / y)) <= Rabs (b * (x / y)) / 2 ^ 51 + (Rabs b + 1) / 2 ^ 1073.
Proof.
  intros Q Z. destruct (div_err _ _ _ Q) as (_ & Eq). apply rnd_err in Z. set (w := x / y) in *.
  pose proof u_small as U. pose proof tiny_pos as T.
  assert (D : Rabs (b * q - b * w) <= u * Rabs (b * w) + Rabs b * tiny).
  { replace (b * q - b * w) with (b * (q - w)) by ring. rewrite !Rabs_mult. pose proof (Rabs_pos b). nra. }
  pose proof (abs_from _ _ _ D) as A. pose proof (Rabs_pos (b * w)) as P. pose proof (Rabs_pos b) as Pb.
  replace (z - b * w) with ((z - b * q) + (b * q - b * w)) by ring. eapply Rle_trans; [apply Rabs_triang|].
  unfold Rdiv. rewrite four_u, quarter.
  assert (u * Rabs (b * q) <= u * (Rabs (b * w) + (u * Rabs (b * w) + Rabs b * tiny))) by (apply Rmult_le_compat_l; lra).
  assert (0 <= Rabs b * tiny) by (apply Rmult_le_pos; lra).
  assert (u * (Rabs b * tiny) <= Rabs b * tiny) by nra.
  assert (u * (u * Rabs (b * w)) <= u * Rabs (b * w)). { apply Rmult_le_compat_l; [lra|]. nra. }
  assert (0 <= u * Rabs (b * w)) by (apply Rmult_le_pos; lra). lra.
Qed.

Lemma correction_moduli root fit rd rp rs x y z x' y' z' m p r g :
  fit r rd = Ok x -> fit r rp = Ok y -> fit r rs = Ok z -> fit p rd = Ok x' -> fit p rp = Ok y' -> fit p rs = Ok z' ->
  f_generic_dependency root true fit (rd, rp, rs) m p r = Ok g ->
  Rabs (dens g - dens m * (x' / x)) <= Rabs (dens m * (x' / x)) / 2 ^ 51 + (Rabs (dens m) + 1) / 2 ^ 1073 /\
  Rabs (bulk g - bulk m * (y' / y)) <= Rabs (bulk m * (y' / y)) / 2 ^ 51 + (Rabs (bulk m) + 1) / 2 ^ 1073 /\
  Rabs (shear g - shear m * (z' / z)) <= Rabs (shear m * (z' / z)) / 2 ^ 51 + (Rabs (shear m) + 1) / 2 ^ 1073.
Proof.
  intros X Y Z X' Y' Z'. unfold f_generic_dependency, three. rewrite X, Y, Z. cbn [bind]. rewrite X', Y', Z'. cbn [bind].
  destruct (orb _ _); [discriminate|].
  destruct (f_np_div x' x) as [fd|] eqn:F1; [|discriminate]. cbn [bind]. destruct (f_np_div y' y) as [fp|] eqn:F2; [|discriminate]. cbn [bind].
  destruct (f_np_div z' z) as [fs|] eqn:F3; [|discriminate]. cbn [bind]. destruct (rnd (dens m * fd)) as [d|] eqn:F4; [|discriminate]. cbn [bind].
  destruct (rnd (bulk m * fp)) as [k|] eqn:F5; [|discriminate]. cbn [bind]. destruct (rnd (shear m * fs)) as [mu|] eqn:F6; [|discriminate]. cbn [bind].
  intros E. destruct (made_parts _ _ _ _ _ E) as (-> & -> & ->).
  split; [|split]; eapply scaled_error; eassumption.
Qed.
Lemma correction_velocities root fit rd rp rs x y z x' y' z' m p r g :
  fit r rd = Ok x -> fit r rp = Ok y -> fit r rs = Ok z -> fit p rd = Ok x' -> fit p rp = Ok y' -> fit p rs = Ok z' ->
  f_generic_dependency root false fit (rd, rp, rs) m p r = Ok g ->
  Rabs (dens g - dens m * (x' / x)) <= Rabs (dens m * (x' / x)) / 2 ^ 51 + (Rabs (dens m) + 1) / 2 ^ 1073 /\
  Rabs (vp g - vp m * (y' / y)) <= Rabs (vp m * (y' / y)) / 2 ^ 51 + (Rabs (vp m) + 1) / 2 ^ 1073 /\
  Rabs (vs g - vs m * (z' / z)) <= Rabs (vs m * (z' / z)) / 2 ^ 51 + (Rabs (vs m) + 1) / 2 ^ 1073.
Proof.
  intros X Y Z X' Y' Z'. unfold f_generic_dependency, three. rewrite X, Y, Z. cbn [bind]. rewrite X', Y', Z'. cbn [bind].
  destruct (orb _ _); [discriminate|].
  destruct (f_np_div x' x) as [fd|] eqn:F1; [|discriminate]. cbn [bind]. destruct (f_np_div y' y) as [fp|] eqn:F2; [|discriminate]. cbn [bind].
  destruct (f_np_div z' z) as [fs|] eqn:F3; [|discriminate]. cbn [bind]. destruct (rnd (dens m * fd)) as [d|] eqn:F4; [|discriminate]. cbn [bind].
  destruct (rnd (vp m * fp)) as [k|] eqn:F5; [|discriminate]. cbn [bind]. destruct (rnd (vs m * fs)) as [mu|] eqn:F6; [|discriminate]. cbn [bind].
  intros E. destruct (made_parts_v _ _ _ _ _ E) as (-> & -> & ->).
  split; [|split]; eapply scaled_error; eassumption.
Qed.

(** The power fit *)
Lemma shifted_error b x s z : rnd x = Ok s -> rnd (b + s) = Ok z ->
  Rabs (z - (b + x)) <= (Rabs b + Rabs x) / 2 ^ 51 + / 2 ^ 1073.
Proof.
  intros X Z. apply rnd_err in X. apply rnd_err in Z. pose proof u_small as U. pose proof tiny_pos as T. rewrite quarter. unfold Rdiv. rewrite four_u.
  pose proof (abs_from _ _ _ X) as A. pose proof (Rabs_triang b s) as A2. pose proof (Rabs_pos b). pose proof (Rabs_pos x).
  replace (z - (b + x)) with ((z - (b + s)) + (s - x)) by ring. eapply Rle_trans; [apply Rabs_triang|].
  assert (u * Rabs (b + s) <= u * (Rabs b + (Rabs x + (u * Rabs x + tiny)))) by (apply Rmult_le_compat_l; lra).
  assert (u * (u * Rabs x) <= u * Rabs x) by (apply Rmult_le_compat_l; [lra|nra]). assert (u * tiny <= tiny) by nra.
  assert (0 <= u * Rabs b) by (apply Rmult_le_pos; lra). assert (0 <= u * Rabs x) by (apply Rmult_le_pos; lra). lra.
Qed.

Lemma ratio_error a b q s w sq h : Rabs (q - a) <= u * Rabs a + tiny -> rnd b = Ok s -> rnd (q + s) = Ok w -> rnd (w * w) = Ok sq ->
  rnd (sq - four_thirds) = Ok h ->
  Rabs (h - ((a + b) ^ 2 - 4 / 3)) <= ((Rabs a + Rabs b) ^ 2 + 1) / 2 ^ 49.
Proof.
  intros Q B W Sq H. apply rnd_err in B. apply rnd_err in W. apply rnd_err in Sq. apply rnd_err in H.
  pose proof (fl_err (4 / 3)) as F. change (fl (4 / 3)) with four_thirds in F. rewrite (Rabs_pos_eq (4 / 3)) in F by lra.
  pose proof u_small as U. pose proof tiny_u as T. pose proof tiny_pos as T0. pose proof (Rabs_pos a) as Pa. pose proof (Rabs_pos b) as Pb.
  unfold Rdiv at 2. rewrite sixteen_u. set (V := Rabs a + Rabs b). set (v := a + b).
  assert (Vv : Rabs v <= V) by apply Rabs_triang.
  assert (PV : 0 <= V) by (unfold V; lra).
  assert (E1 : Rabs (q + s - v) <= u * (V + / 500)).
  { unfold v, V. replace (q + s - (a + b)) with ((q - a) + (s - b)) by ring. eapply Rle_trans; [apply Rabs_triang|]. lra. }
  pose proof (abs_from _ _ _ E1) as A1.
  assert (E2 : Rabs (w - v) <= u * (21 / 10 * V + / 100)).
  { replace (w - v) with ((w - (q + s)) + (q + s - v)) by ring. eapply Rle_trans; [apply Rabs_triang|].
    assert (u * Rabs (q + s) <= u * (V + u * (V + / 500))) by (apply Rmult_le_compat_l; lra).
    assert (u * (V + / 500) <= / 1000000 * (V + / 500)) by (apply Rmult_le_compat_r; lra).
    assert (u * (u * (V + / 500)) <= u * (/ 10 * V + / 500)) by (apply Rmult_le_compat_l; lra). lra. }
  assert (B2 : u * (21 / 10 * V + / 100) <= / 1000 * (V + 1)).
  { apply Rle_trans with (/ 1000000 * (21 / 10 * V + / 100)); [apply Rmult_le_compat_r; lra|lra]. }
  assert (E3 : Rabs (w * w - v ^ 2) <= u * (5 * V ^ 2 + / 2)).
  { replace (w * w - v ^ 2) with ((w - v) * (w - v + 2 * v)) by ring. rewrite Rabs_mult.
    assert (Rabs (w - v + 2 * v) <= / 1000 * (V + 1) + 2 * V).
    { eapply Rle_trans; [apply Rabs_triang|]. rewrite Rabs_mult, (Rabs_pos_eq 2) by lra. lra. }
    apply Rle_trans with (u * (21 / 10 * V + / 100) * (/ 1000 * (V + 1) + 2 * V)).
    - apply Rmult_le_compat; try apply Rabs_pos; assumption.
    - rewrite Rmult_assoc. apply Rmult_le_compat_l; [lra|]. assert (Y1 : 0 <= (V - 1) * (V - 1)) by apply Rle_0_sqr. assert (Y2 : 0 <= V * V) by apply Rle_0_sqr. clear - Y1 Y2. clearbody V. lra. }
  assert (V2 : Rabs (v ^ 2) <= V ^ 2). { rewrite <- RPow_abs. apply pow_incr. split; [apply Rabs_pos|exact Vv]. }
  assert (PV2 : 0 <= V ^ 2) by (apply pow_le; exact PV).
  pose proof (abs_from _ _ _ E3) as A3. assert (UV : 0 <= u * V ^ 2) by (apply Rmult_le_pos; lra).
  assert (A3' : Rabs (w * w) <= 11 / 10 * V ^ 2 + / 10).
  { assert (u * (5 * V ^ 2 + / 2) <= / 1000000 * (5 * V ^ 2 + / 2)) by (apply Rmult_le_compat_r; lra). lra. }
  assert (E4 : Rabs (sq - v ^ 2) <= u * (62 / 10 * V ^ 2 + 7 / 10)).
  { replace (sq - v ^ 2) with ((sq - w * w) + (w * w - v ^ 2)) by ring. eapply Rle_trans; [apply Rabs_triang|].
    assert (u * Rabs (w * w) <= u * (11 / 10 * V ^ 2 + / 10)) by (apply Rmult_le_compat_l; lra). lra. }
  assert (E5 : Rabs (sq - four_thirds - (v ^ 2 - 4 / 3)) <= u * (62 / 10 * V ^ 2 + 3)).
  { replace (sq - four_thirds - (v ^ 2 - 4 / 3)) with ((sq - v ^ 2) - (four_thirds - 4 / 3)) by ring.
    eapply Rle_trans; [apply Rabs_triang|]. rewrite Rabs_Ropp. lra. }
  pose proof (abs_from _ _ _ E5) as A5.
  assert (A6 : Rabs (v ^ 2 - 4 / 3) <= V ^ 2 + 4 / 3). { eapply Rle_trans; [apply Rabs_triang|]. rewrite Rabs_Ropp, (Rabs_pos_eq (4 / 3)) by lra. lra. }
  assert (A7 : Rabs (sq - four_thirds) <= 2 * V ^ 2 + 2).
  { assert (u * (62 / 10 * V ^ 2 + 3) <= / 1000000 * (62 / 10 * V ^ 2 + 3)) by (apply Rmult_le_compat_r; lra). lra. }
  replace (h - (v ^ 2 - 4 / 3)) with ((h - (sq - four_thirds)) + (sq - four_thirds - (v ^ 2 - 4 / 3))) by ring.
  eapply Rle_trans; [apply Rabs_triang|].
  assert (u * Rabs (sq - four_thirds) <= u * (2 * V ^ 2 + 2)) by (apply Rmult_le_compat_l; lra).
  assert (0 <= u * V ^ 2) by (apply Rmult_le_pos; lra). lra.
Qed.

Lemma correction_power root fit rd rp rs x y z x' y' z' m p r g :
  fit r rd = Ok x -> fit r rp = Ok y -> fit r rs = Ok z -> fit p rd = Ok x' -> fit p rp = Ok y' -> fit p rs = Ok z' ->
  f_powerfit_dependency root fit (rd, rp, rs) m p r = Ok g ->
  Rabs (dens g - (dens m + (x' - x))) <= (Rabs (dens m) + Rabs (x' - x)) / 2 ^ 51 + / 2 ^ 1073 /\
  Rabs (bulk g - (bulk m + (y' - y))) <= (Rabs (bulk m) + Rabs (y' - y)) / 2 ^ 51 + / 2 ^ 1073 /\
  exists h, 0 < h /\
    Rabs (h - ((vp m / vs m + (z' - z)) ^ 2 - 4 / 3)) <= ((Rabs (vp m / vs m) + Rabs (z' - z)) ^ 2 + 1) / 2 ^ 49 /\
    Rabs (shear g - bulk g / h) <= Rabs (bulk g / h) / 2 ^ 53 + / 2 ^ 1073.
Proof.
  intros X Y Z X' Y' Z'. unfold f_powerfit_dependency, three. rewrite X, Y, Z. cbn [bind]. rewrite X', Y', Z'. cbn [bind].
  destruct (rnd (x' - x)) as [fd|] eqn:F1; [|discriminate]. cbn [bind]. destruct (rnd (y' - y)) as [fp|] eqn:F2; [|discriminate]. cbn [bind].
  destruct (rnd (z' - z)) as [fs|] eqn:F3; [|discriminate]. cbn [bind]. destruct (f_np_div (vp m) (vs m)) as [q|] eqn:F4; [|discriminate]. cbn [bind].
  destruct (rnd (q + fs)) as [w|] eqn:F5; [|discriminate]. cbn [bind]. destruct (rnd (bulk m + fp)) as [k|] eqn:F6; [|discriminate]. cbn [bind].
  destruct (rnd (w * w)) as [sq|] eqn:F7; [|discriminate]. cbn [bind]. destruct (rnd (sq - four_thirds)) as [h|] eqn:F8; [|discriminate]. cbn [bind].
  destruct (Rle_dec h _) as [|N]; [intros C; discriminate C|].
  destruct (f_np_div k h) as [mu|] eqn:F9; [|discriminate]. cbn [bind]. destruct (rnd (dens m + fd)) as [d|] eqn:F10; [|discriminate]. cbn [bind].
  intros E. destruct (made_parts _ _ _ _ _ E) as (-> & -> & ->).
  split; [eapply shifted_error; eassumption|]. split; [eapply shifted_error; eassumption|].
  exists h. split; [|split].
  - pose proof limit_bounds as L. assert (0 < 1 / (2 * 10 ^ 20)) by lra. revert N L H. generalize (fl (1 / 10 ^ 20)) (1 / (2 * 10 ^ 20)) (2 / 10 ^ 20). intros. lra.
  - destruct (div_err _ _ _ F4) as (_ & Eq). eapply ratio_error; eassumption.
  - destruct (div_err _ _ _ F9) as (_ & Eq). rewrite quarter. pose proof tiny_pos.
    assert (K : forall t, t / 2 ^ 53 = u * t) by (intros t; unfold u, Rdiv; apply Rmult_comm). rewrite K. lra.
Qed.

(** Examples *)
Lemma int_rnd z : (0 <= z < 1000)%Z -> rnd (IZR z) = Ok (IZR z).
Proof. intros H. apply rnd_of_double, double_nat, H. Qed.
Lemma div_one x : f_np_div x 1 = rnd x.
Proof. unfold f_np_div. destruct (Req_EM_T 1 0); [lra|]. f_equal. field. Qed.
Lemma one_not_tiny : f_tiny_value 1 = false.
Proof. apply not_tiny. rewrite Rabs_R1. lra. Qed.
Lemma moduli_correction_example : exists g,
  f_generic_dependency fl_sqrt true (fun p row => rnd p) ([], [], []) (mkMat 4 1 1 0 0) 2 1 = Ok g.
Proof.
  unfold f_generic_dependency, three. rewrite !(int_rnd 1 ltac:(lia)), !(int_rnd 2 ltac:(lia)). cbn [bind dens bulk shear].
  rewrite one_not_tiny. cbn [orb]. rewrite !div_one, !(int_rnd 2 ltac:(lia)). cbn [bind].
  rewrite !Rmult_1_l. rewrite !(int_rnd 2 ltac:(lia)). cbn [bind]. replace (4 * 2) with 8 by ring. rewrite (int_rnd 8 ltac:(lia)). cbn [bind].
  destruct (material_close fl_sqrt 8 2 2 fl_sqrt_good) as (m & E & _); try (apply ordinary_range; lra); try lra.
  exists m. exact E.
Qed.
Lemma velocities_correction_example : exists g,
  f_generic_dependency fl_sqrt false (fun p row => rnd p) ([], [], []) (mkMat 0 0 (1 / 2) 1 (1 / 2)) 2 1 = Ok g.
Proof.
  unfold f_generic_dependency, three. rewrite !(int_rnd 1 ltac:(lia)), !(int_rnd 2 ltac:(lia)). cbn [bind dens vp vs].
  rewrite one_not_tiny. cbn [orb]. rewrite !div_one, !(int_rnd 2 ltac:(lia)). cbn [bind].
  replace (1 / 2 * 2) with 1 by field. rewrite !(int_rnd 1 ltac:(lia)). cbn [bind]. rewrite Rmult_1_l, (int_rnd 2 ltac:(lia)). cbn [bind].
  exact velocities_example.
Qed.
Lemma power_correction_example : exists g,
  f_powerfit_dependency fl_sqrt (fun p row => rnd p) ([], [], []) (mkMat 7 3 1 1 1) 21 20 = Ok g.
Proof.
  destruct ratio_example as (h & H & C).
  unfold f_powerfit_dependency, three. rewrite !(int_rnd 20 ltac:(lia)), !(int_rnd 21 ltac:(lia)). cbn [bind vp vs bulk dens].
  replace (21 - 20) with 1 by ring. rewrite !(int_rnd 1 ltac:(lia)). cbn [bind]. rewrite div_one, !(int_rnd 1 ltac:(lia)). cbn [bind].
  replace (1 + 1) with 2 by ring. rewrite (int_rnd 2 ltac:(lia)). cbn [bind]. replace (7 + 1) with 8 by ring. rewrite (int_rnd 8 ltac:(lia)). cbn [bind].
  replace (2 * 2) with 4 by ring. rewrite (int_rnd 4 ltac:(lia)). cbn [bind]. rewrite H. cbn [bind].
  pose proof limit_bounds as L. destruct (Rle_dec h _) as [N|_]; [exfalso; revert N L; generalize (fl (1 / 10 ^ 20)); intros; lra|].
  unfold f_np_div. destruct (Req_EM_T h 0); [lra|].
  assert (Q : 2 <= 8 / h <= 4).
  { assert (I : / 4 <= / h <= / 2) by (split; apply Rinv_le_contravar; lra). unfold Rdiv. lra. }
  destruct (near_value (8 / h) ltac:(rewrite Rabs_pos_eq; lra)) as (mu & M & Bm). rewrite M. cbn [bind].
  destruct (material_close fl_sqrt 8 mu 2 fl_sqrt_good) as (m & E & _); try (apply ordinary_range; lra); try lra.
  exists m. exact E.
Qed.
