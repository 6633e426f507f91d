(** Brine in double precision. *)
From Coq Require Import Reals Lra Lia List ZArith Psatz.
From Flocq Require Import Core.
From Verif Require Import Base BaseProofs MaterialModel MaterialProofs MainModel MainProofs ConfigModel BatzleWangModel BatzleWangSpec BatzleWangProofs.
From Verif Require Import FloatModel FloatSpec FloatProofs FloatPolyModel FloatPolyProofs.
Import ListNotations.
Open Scope R_scope.

Lemma sized60 x : 1 / 10 ^ 18 <= x <= 10 ^ 4 -> sized 60 x.
Proof.
  intros H. right. split.
  - apply Rle_trans with (1 / 10 ^ 18); [|tauto]. rewrite !pow_IZR. simpl Z.pow. lra.
  - apply Rle_trans with (10 ^ 4); [tauto|]. rewrite !pow_IZR. simpl Z.pow. lra.
Qed.
Ltac size60 := first [left; reflexivity | apply sized60; rewrite ?pow_IZR; simpl Z.pow; lra].
Ltac lit := apply literal with 60%nat; [first [left; lra | right; lra] | size60 | lia].
Ltac lits := repeat first [apply noisy_cons; [lit|] | apply noisy_nil | apply rows_nil | apply rows_cons | apply matrices_nil | apply matrices_cons].
Ltac sizes := repeat first [apply Forall_nil | apply Forall_cons | size60].

Lemma rnd_noisy_to n a M N x y : noisy n M x y -> M <= N -> sized a N -> (a <= 1000)%nat -> (Z.of_nat n + 2 <= 2 ^ 50)%Z ->
  exists z, rnd y = Ok z /\ noisy (n + 2) N x z.
Proof. intros H L. apply rnd_noisy. eapply noisy_grow; eassumption. Qed.

Lemma sized_100 : sized 7 100. Proof. right. simpl. lra. Qed.

Lemma water_density_noisy t p p' : 0 <= t <= 100 -> noisy 4 100 p p' ->
  exists z, f_water_density t p' = Ok z /\ noisy 42 2 (bw_water_density t p) z.
Proof.
  intros Ht Np. pose proof (water_density_value t p) as W. unfold water_density in W.
  assert (Nt : noisy 0 100 t t) by (apply noisy_refl; rewrite Rabs_pos_eq; lra).
  pose (Ms := [[1; 489 / 10 ^ 6; 333 / 10 ^ 9]; [8 / 10 ^ 5; 2 / 10 ^ 6; 2 / 10 ^ 9]; [33 / 10 ^ 7; 16 / 10 ^ 9; 0]; [175 / 10 ^ 11; 13 / 10 ^ 12; 0]]).
  destruct (polyval2d_noisy 2 60 0 7 100 t t 4 7 100 p p' Ms _
      (map (map fl) [[1; 489 / 10 ^ 6; - (333 / 10 ^ 9)]; [- (8 / 10 ^ 5); - (2 / 10 ^ 6); - (2 / 10 ^ 9)]; [- (33 / 10 ^ 7); 16 / 10 ^ 9; 0]; [175 / 10 ^ 11; - (13 / 10 ^ 12); 0]])
      3 _ _ Nt sized_100 Np sized_100 ltac:(cbn [map]; unfold Ms; lits) ltac:(unfold Ms; sizes) (eq_refl _) ltac:(discriminate)
      ltac:(cbn [map length]; lia) ltac:(cbn [map length]; lia) (eq_refl _) W) as (z & E & N & _).
  exists z. split; [exact E|]. eapply noisy_grow; [|exact N]. unfold Ms. cbn -[pow]. lra.
Qed.

Lemma water_velocity_noisy t p p' : 0 <= t <= 100 -> noisy 4 100 p p' ->
  exists z, f_water_primary_velocity t p' = Ok z /\ noisy 54 5000 (bw_water_velocity t p) z.
Proof.
  intros Ht Np. pose proof (water_velocity_value t p) as W. unfold water_primary_velocity in W.
  assert (Nt : noisy 0 100 t t) by (apply noisy_refl; rewrite Rabs_pos_eq; lra).
  pose (Ms := [[140285 / 100; 1524 / 1000; 3437 / 10 ^ 6; 1197 / 10 ^ 8];
     [4871 / 1000; 111 / 10 ^ 4; 1739 / 10 ^ 7; 1628 / 10 ^ 9];
     [4783 / 10 ^ 5; 2747 / 10 ^ 7; 2135 / 10 ^ 9; 1237 / 10 ^ 11];
     [1487 / 10 ^ 7; 6503 / 10 ^ 10; 1455 / 10 ^ 11; 1327 / 10 ^ 13];
     [2197 / 10 ^ 10; 7987 / 10 ^ 13; 523 / 10 ^ 13; 4614 / 10 ^ 16]]).
  destruct (polyval2d_noisy 2 60 0 7 100 t t 4 7 100 p p' Ms _
      (map (map fl) [[140285 / 100; 1524 / 1000; 3437 / 10 ^ 6; - (1197 / 10 ^ 8)];
     [4871 / 1000; - (111 / 10 ^ 4); 1739 / 10 ^ 7; - (1628 / 10 ^ 9)];
     [- (4783 / 10 ^ 5); 2747 / 10 ^ 7; - (2135 / 10 ^ 9); 1237 / 10 ^ 11];
     [1487 / 10 ^ 7; - (6503 / 10 ^ 10); - (1455 / 10 ^ 11); 1327 / 10 ^ 13];
     [- (2197 / 10 ^ 10); 7987 / 10 ^ 13; 523 / 10 ^ 13; - (4614 / 10 ^ 16)]])
      4 _ _ Nt sized_100 Np sized_100 ltac:(cbn [map]; unfold Ms; lits) ltac:(unfold Ms; sizes) (eq_refl _) ltac:(discriminate)
      ltac:(cbn [map length]; lia) ltac:(cbn [map length]; lia) (eq_refl _) W) as (z & E & N & _).
  exists z. split; [exact E|]. eapply noisy_grow; [|exact N]. unfold Ms. cbn -[pow]. lra.
Qed.

Lemma brine_density_noisy t p p' s s' : 0 <= t <= 100 -> noisy 4 100 p p' -> noisy 2 (3 / 10) s s' ->
  exists z, f_brine_density t p' s' = Ok z /\ noisy 48 3 (bw_brine_density t p s) z.
Proof.
  intros Ht Np Ns. destruct (water_density_noisy t p p' Ht Np) as (w & Ew & Nw).
  pose proof (brine_density_value t p s) as W. unfold brine_density in W. rewrite water_density_value in W. cbn [bind] in W.
  assert (Nt : noisy 0 100 t t) by (apply noisy_refl; rewrite Rabs_pos_eq; lra).
  pose (Ms := [[[668 / 1000; 3 / 10 ^ 4]; [8 / 10 ^ 5; 13 / 10 ^ 6]; [3 / 10 ^ 6; 0]];
     [[44 / 100; 24 / 10 ^ 4]; [33 / 10 ^ 4; 47 / 10 ^ 6]; [0; 0]]]).
  destruct (polyval3d s t p _) as [v|] eqn:V in W; [|discriminate]. cbn [bind] in W.
  assert (S3 : sized 2 (3 / 10)) by (right; simpl; lra).
  destruct (polyval3d_noisy 2 60 2 2 (3 / 10) s s' 0 7 100 t t 4 7 100 p p' Ms _
      (map (map (map fl)) [[[668 / 1000; 3 / 10 ^ 4]; [8 / 10 ^ 5; - (13 / 10 ^ 6)]; [3 / 10 ^ 6; 0]];
     [[44 / 100; - (24 / 10 ^ 4)]; [- (33 / 10 ^ 4); 47 / 10 ^ 6]; [0; 0]]])
      3 2 _ _ Ns S3 Nt sized_100 Np sized_100 ltac:(cbn [map]; unfold Ms; lits) ltac:(unfold Ms; sizes) (eq_refl _) (eq_refl _) ltac:(discriminate)
      ltac:(cbn [map length]; lia) ltac:(cbn [map length]; lia) (eq_refl _) V) as (q & E & N & _).
  assert (N' : noisy 42 2 v q) by (eapply noisy_grow; [|exact N]; unfold Ms; cbn -[pow]; lra). clear N.
  destruct (rnd_noisy_to _ 2 _ (6 / 10) _ _ (noisy_mult _ _ _ _ _ _ _ _ Ns N')) as (m & Em & Nm);
    [lra|right; simpl; lra|lia|lia|]. cbn [Nat.add] in Nm.
  destruct (rnd_noisy_to _ 2 _ 3 _ _ (noisy_plus 46 _ _ _ _ _ _ (noisy_weaken 42 46 _ _ _ ltac:(lia) Nw) Nm)) as (z & Ez & Nz);
    [lra|right; simpl; lra|lia|lia|]. cbn [Nat.add] in Nz.
  exists z. unfold f_brine_density. rewrite Ew. cbn [bind]. rewrite E. cbn [bind]. rewrite Em. cbn [bind]. split; [exact Ez|].
  assert (I : forall p q : R, Ok p = Ok q -> p = q) by (intros ? ? H; congruence). apply I in W. rewrite <- W. exact Nz.
Qed.

Lemma brine_velocity_noisy root t p p' s s' : 0 <= t <= 100 -> noisy 4 100 p p' -> noisy 2 (3 / 10) s s' -> 0 <= s -> 0 <= s' ->
  noisy 4 (6 / 10) (sqrt s) (root s') ->
  exists z, f_brine_primary_velocity root t p' s' = Ok z /\ noisy 72 7000 (bw_brine_velocity t p s) z.
Proof.
  intros Ht Np Ns P P' Nr. destruct (water_velocity_noisy t p p' Ht Np) as (w & Ew & Nw).
  pose proof (brine_velocity_value t p s P) as W. unfold brine_primary_velocity in W. rewrite water_velocity_value in W. cbn [bind] in W.
  rewrite np_sqrt_ok in W by assumption. cbn [bind] in W.
  assert (Nt : noisy 0 100 t t) by (apply noisy_refl; rewrite Rabs_pos_eq; lra).
  pose (Ms := [[[1170; 26 / 10; 476 / 10 ^ 4]; [96 / 10; 29 / 10 ^ 4; 0];
      [55 / 1000; 0; 0]; [85 / 10 ^ 6; 0; 0]];
     [[780; 10; 16 / 100]; [0; 0; 0]; [0; 0; 0]; [0; 0; 0]];
     [[820; 0; 0]; [0; 0; 0]; [0; 0; 0]; [0; 0; 0]]]).
  destruct (polyval3d (sqrt s) t p _) as [v|] eqn:V in W; [|discriminate]. cbn [bind] in W.
  assert (S3 : sized 2 (6 / 10)) by (right; simpl; lra).
  destruct (polyval3d_noisy 2 60 4 2 (6 / 10) (sqrt s) (root s') 0 7 100 t t 4 7 100 p p' Ms _
      (map (map (map fl)) [[[1170; 26 / 10; - (476 / 10 ^ 4)]; [- (96 / 10); - (29 / 10 ^ 4); 0];
      [55 / 1000; 0; 0]; [- (85 / 10 ^ 6); 0; 0]];
     [[780; -10; 16 / 100]; [0; 0; 0]; [0; 0; 0]; [0; 0; 0]];
     [[-820; 0; 0]; [0; 0; 0]; [0; 0; 0]; [0; 0; 0]]])
      4 3 _ _ Nr S3 Nt sized_100 Np sized_100 ltac:(cbn [map]; unfold Ms; lits) ltac:(unfold Ms; sizes) (eq_refl _) (eq_refl _) ltac:(discriminate)
      ltac:(cbn [map length]; lia) ltac:(cbn [map length]; lia) (eq_refl _) V) as (q & E & N & _).
  assert (N' : noisy 66 6000 v q) by (eapply noisy_grow; [|exact N]; unfold Ms; cbn -[pow]; lra). clear N.
  destruct (rnd_noisy_to _ 11 _ 1800 _ _ (noisy_mult _ _ _ _ _ _ _ _ Ns N')) as (m & Em & Nm);
    [lra|right; simpl; lra|lia|lia|]. cbn [Nat.add] in Nm.
  destruct (rnd_noisy_to _ 13 _ 7000 _ _ (noisy_plus 70 _ _ _ _ _ _ (noisy_weaken 54 70 _ _ _ ltac:(lia) Nw) Nm)) as (z & Ez & Nz);
    [lra|right; simpl; lra|lia|lia|]. cbn [Nat.add] in Nz.
  exists z. unfold f_brine_primary_velocity. rewrite Ew. cbn [bind]. unfold f_root. destruct (Rlt_dec s' 0); [lra|]. cbn [bind].
  rewrite E. cbn [bind]. rewrite Em. cbn [bind]. split; [exact Ez|].
  assert (I : forall p q : R, Ok p = Ok q -> p = q) by (intros ? ? H; congruence). apply I in W. rewrite <- W. exact Nz.
Qed.

(** Where the value is not much smaller than its magnitude. *)
Lemma noisy_within n K M x y : noisy n M x y -> 0 < x -> M <= INR K * x -> (Z.of_nat n <= 2 ^ 50)%Z ->
  within (2 * INR n * INR K * u) x y.
Proof.
  intros (A & B) P L Ln. unfold within. rewrite (Rabs_pos_eq x) by lra. eapply Rle_trans; [exact B|].
  pose proof (factor_bound n Ln) as F. pose proof (un n). pose proof (Rabs_pos x). pose proof u_pos. pose proof (pos_INR n).
  apply Rle_trans with ((2 * INR n * u) * M); [apply Rmult_le_compat_r; lra|].
  replace (2 * INR n * INR K * u * x) with ((2 * INR n * u) * (INR K * x)) by ring. apply Rmult_le_compat_l; [nra|exact L].
Qed.
Lemma bernoulli m : 1 + INR m * u <= (1 + u) ^ m.
Proof.
  pose proof u_pos as U. induction m as [|m IH]; [simpl; lra|]. rewrite S_INR. cbn [pow]. pose proof (pos_INR m).
  assert ((1 + INR m * u) * (1 + u) <= (1 + u) * (1 + u) ^ m) by (rewrite Rmult_comm; apply Rmult_le_compat_l; lra).
  assert (0 <= INR m * u * u) by (repeat apply Rmult_le_pos; lra). lra.
Qed.
Lemma within_counts m x y : 0 <= x -> within (INR m * u) x y -> (Z.of_nat m <= 2 ^ 50)%Z -> approx (2 * m) x y.
Proof.
  intros P W L. pose proof (bernoulli (2 * m)) as B. pose proof (pos_INR m) as Pm. pose proof u_pos as U.
  assert (Q : INR m * u <= / 4).
  { rewrite INR_IZR_INZ. apply IZR_le in L. unfold u.
    apply Rle_trans with (IZR (2 ^ 50) * / 2 ^ 53); [apply Rmult_le_compat_r; [left; apply Rinv_0_lt_compat, pow_lt; lra|exact L]|].
    rewrite !pow_IZR. simpl Z.pow. lra. }
  rewrite mult_INR in B. change (INR 2) with 2 in B. assert (0 <= INR m * u) by nra. set (e := INR m * u) in *.
  replace (2 * INR m * u) with (2 * e) in B by (unfold e; ring).
  eapply within_approx; [exact P|exact W|assumption| |].
  - apply Rle_trans with ((1 - e) * (1 + 2 * e)); [nra|]. apply Rmult_le_compat_l; lra.
  - lra.
Qed.

Lemma root_zero root : good_root root -> root 0 = 0.
Proof.
  intros G. specialize (G 0 (double_int 0 ltac:(reflexivity)) (Rle_refl 0)). unfold within in G.
  rewrite sqrt_0, Rabs_R0, Rmult_0_r, Rminus_0_r in G. apply Rabs_eq_R0. pose proof (Rabs_pos (root 0)). lra.
Qed.
Lemma rnd_0 : rnd 0 = Ok 0.
Proof. unfold rnd. rewrite fl0, Rabs_R0. destruct (Rlt_dec 0 (2 ^ 1024)) as [|C]; [reflexivity|]. exfalso. apply C, two_pos. Qed.

Lemma f_fluid_close root n d d' p p' : good_root root -> approx n d d' -> approx n p p' -> sized 14 d -> sized 14 p -> 0 < d ->
  (Z.of_nat n <= 2 ^ 40)%Z ->
  exists m, f_fluid_of_velocity root d' p' = Ok m /\ dens m = d' /\ vp m = p' /\ shear m = 0 /\ vs m = 0 /\ approx (3 * n + 3) (p ^ 2 * d) (bulk m).
Proof.
  intros G Ad Ap Sd Sp Pd Ln.
  destruct (rnd_step (n + n) 28 (p * p) (p' * p') (approx_mult _ _ _ _ _ _ Ap Ap) (sized_mult 14 14 _ _ Sp Sp) ltac:(lia) ltac:(lia)) as (a & Ea & Aa).
  destruct (rnd_step _ 42 (p * p * d) (a * d') (approx_mult _ _ _ _ _ _ Aa Ad) (sized_mult 28 14 _ _ (sized_mult 14 14 _ _ Sp Sp) Sd) ltac:(lia) ltac:(lia)) as (b & Eb & Ab).
  assert (Ab' : approx (3 * n + 2) (p * p * d) b) by (eapply approx_weaken; [|exact Ab]; lia).
  destruct (rnd_step _ 42 (p * p * d) b Ab' (sized_mult 28 14 _ _ (sized_mult 14 14 _ _ Sp Sp) Sd) ltac:(lia) ltac:(lia)) as (k & Ek & Ak).
  pose proof (approx_pos _ _ _ Ad Pd) as Pd'. pose proof (approx_nonneg _ _ _ Ap) as Pp'. pose proof (approx_nonneg _ _ _ Ak) as Pk.
  exists (mkMat k 0 d' p' 0). unfold f_fluid_of_velocity, f_bulk_modulus, f_secondary_velocity, f_np_div, f_root.
  rewrite Ea. cbn [bind]. rewrite Eb. cbn [bind]. rewrite Rmult_0_r, rnd_0. cbn [bind]. rewrite Rminus_0_r, Ek. cbn [bind].
  destruct (Req_EM_T d' 0); [lra|]. replace (0 / d') with 0 by (field; lra). rewrite rnd_0. cbn [bind].
  destruct (Rlt_dec 0 0); [lra|]. cbn [bind]. rewrite (root_zero root G). unfold f_guards.
  destruct (Rlt_dec d' 0); [lra|]. destruct (Rlt_dec k 0); [lra|]. destruct (Rlt_dec 0 0); [lra|].
  destruct (Rlt_dec p' 0); [lra|]. rewrite Rmult_0_r, rnd_0. cbn [bind]. destruct (Rlt_dec p' 0); [lra|].
  split; [reflexivity|]. cbn [dens vp shear vs bulk]. split; [reflexivity|]. split; [reflexivity|]. split; [reflexivity|]. split; [reflexivity|].
  replace (p ^ 2 * d) with (p * p * d) by ring. eapply approx_weaken; [|exact Ak]. lia.
Qed.

Lemma f_brine_close root t p s : good_root root -> 0 <= t <= 100 -> 0 <= p <= 100 * 10 ^ 6 -> 0 <= s <= 300000 -> ordinary s ->
  exists m, f_brine root t p s = Ok m /\
    within (1 / 10 ^ 13) (1000 * bw_brine_density t (p / 10 ^ 6) (s / 10 ^ 6)) (dens m) /\
    within (1 / 10 ^ 12) (bw_brine_velocity t (p / 10 ^ 6) (s / 10 ^ 6)) (vp m) /\
    within (1 / 10 ^ 11) (bw_brine_velocity t (p / 10 ^ 6) (s / 10 ^ 6) ^ 2 * (1000 * bw_brine_density t (p / 10 ^ 6) (s / 10 ^ 6))) (bulk m) /\
    shear m = 0 /\ vs m = 0.
Proof.
  intros G Ht Hp Hs Os.
  assert (Hp' : 0 <= p / 10 ^ 6 <= 100) by (apply div_range; lra).
  assert (Hs' : 0 <= s / 10 ^ 6 <= 3 / 10) by (apply div_range; lra).
  assert (D : 9 / 10 <= bw_brine_density t (p / 10 ^ 6) (s / 10 ^ 6)).
  { pose proof (water_density_low _ _ Ht Hp') as W. rewrite <- brine_fresh_density in W.
    destruct (Rle_lt_or_eq_dec 0 (s / 10 ^ 6)) as [L|L]; [lra| |rewrite <- L; lra].
    pose proof (brine_density_salinity t (p / 10 ^ 6) 0 (s / 10 ^ 6)). lra. }
  pose proof (brine_velocity_low _ _ _ Ht Hp' Hs') as V.
  assert (S6 : sized 60 (1 / 10 ^ 6)) by size60.
  assert (A6 : approx 1 (1 / 10 ^ 6) (fl (1 / 10 ^ 6))).
  { apply fl_approx. apply Rle_trans with (/ 2 ^ 60); [apply half_le; lia|]. rewrite !pow_IZR. simpl Z.pow. lra. }
  (* pressure *)
  destruct (rnd_noisy_to _ 7 _ 100 _ _ (noisy_mult 0 2 (100 * 10 ^ 6) (1 / 10 ^ 6) p p (1 / 10 ^ 6) (fl (1 / 10 ^ 6))
     ltac:(apply noisy_refl; rewrite Rabs_pos_eq; lra) ltac:(apply noisy_weaken with 1%nat; [lia|]; apply approx_noisy; [exact A6|lra])))
    as (p1 & Ep & Np); [lra|exact sized_100|lia|lia|]. cbn [Nat.add] in Np.
  replace (p * (1 / 10 ^ 6)) with (p / 10 ^ 6) in Np by field.
  (* salinity *)
  pose proof (sized_ordinary _ Os) as Ss.
  assert (Sz : sized 160 (s * (1 / 10 ^ 6))) by (apply (sized_mult 100 60); assumption).
  destruct (rnd_step 1 160 (s * (1 / 10 ^ 6)) (s * fl (1 / 10 ^ 6)) (approx_mult 0 1 _ _ _ _ (approx_refl 0 s ltac:(lra)) A6) Sz ltac:(lia) ltac:(lia))
    as (s1 & Es & As). replace (s * (1 / 10 ^ 6)) with (s / 10 ^ 6) in As, Sz by field.
  assert (Ns : noisy 2 (3 / 10) (s / 10 ^ 6) s1) by (apply approx_noisy; [eapply approx_weaken; [|exact As]; lia|lra]).
  pose proof (approx_nonneg _ _ _ As) as Ps.
  assert (Ar : approx 4 (sqrt (s / 10 ^ 6)) (root s1)).
  { apply (approx_trans 1 3) with (sqrt s1); [apply approx_sqrt; eapply approx_weaken; [|exact As]; lia|].
    apply good_root_approx; [exact G|eapply rnd_double; exact Es|exact Ps]. }
  assert (Nr : noisy 4 (6 / 10) (sqrt (s / 10 ^ 6)) (root s1)).
  { apply approx_noisy; [exact Ar|]. split; [apply sqrt_pos|]. rewrite <- (sqrt_pow2 (6 / 10)) by lra. apply sqrt_le_1_alt. lra. }
  (* density *)
  destruct (brine_density_noisy t _ _ _ _ Ht Np Ns) as (d & Ed & Nd).
  destruct (rnd_noisy_to _ 12 _ 3000 _ _ (noisy_mult 48 0 3 1000 _ d 1000 1000 Nd ltac:(apply noisy_refl; rewrite Rabs_pos_eq; lra))) as (d' & Ed' & Nd');
    [lra|right; simpl; lra|lia|lia|]. cbn [Nat.add] in Nd'. rewrite Rmult_comm in Nd'.
  destruct (brine_velocity_noisy root t _ _ _ _ Ht Np Ns ltac:(lra) Ps Nr) as (v & Ev & Nv).
  set (D0 := bw_brine_density t (p / 10 ^ 6) (s / 10 ^ 6)) in *. set (V0 := bw_brine_velocity t (p / 10 ^ 6) (s / 10 ^ 6)) in *.
  pose proof (noisy_within 50 4 _ _ _ Nd' ltac:(lra) ltac:(simpl; lra) ltac:(lia)) as Wd.
  pose proof (noisy_within 72 10 _ _ _ Nv ltac:(lra) ltac:(simpl; lra) ltac:(lia)) as Wv.
  assert (Ad : approx 2880 (1000 * D0) d').
  { apply (within_counts 1440); [lra| |lia]. eapply Rle_trans; [exact Wd|]. apply Rmult_le_compat_r; [apply Rabs_pos|].
    apply Rmult_le_compat_r; [left; exact u_pos|]. rewrite !INR_IZR_INZ. simpl. lra. }
  assert (Av : approx 2880 V0 v).
  { apply (within_counts 1440); [lra| |lia]. eapply Rle_trans; [exact Wv|]. apply Rmult_le_compat_r; [apply Rabs_pos|].
    apply Rmult_le_compat_r; [left; exact u_pos|]. rewrite !INR_IZR_INZ. simpl. lra. }
  assert (UD : 1000 * D0 <= 3000) by (destruct Nd' as (Q & _); pose proof (Rle_abs (1000 * D0)); lra).
  assert (UV : V0 <= 7000) by (destruct Nv as (Q & _); pose proof (Rle_abs V0); lra).
  destruct (f_fluid_close root 2880 _ _ _ _ G Ad Av) as (m & Em & M1 & M2 & M3 & M4 & M5);
    [right; simpl; lra|right; simpl; lra|lra|lia|].
  exists m. unfold f_brine. rewrite Ep. cbn [bind]. rewrite Es. cbn [bind]. rewrite Ed. cbn [bind]. rewrite Ed'. cbn [bind].
  rewrite Ev. cbn [bind]. split; [exact Em|]. rewrite M1, M2. split; [|split; [|split; [|split; assumption]]].
  - eapply Rle_trans; [exact Wd|]. apply Rmult_le_compat_r; [apply Rabs_pos|]. unfold u. rewrite !INR_IZR_INZ, !pow_IZR. simpl. lra.
  - eapply Rle_trans; [exact Wv|]. apply Rmult_le_compat_r; [apply Rabs_pos|]. unfold u. rewrite !INR_IZR_INZ, !pow_IZR. simpl. lra.
  - eapply approx_bound; [exact M5|lia|]. unfold u. rewrite INR_IZR_INZ, !pow_IZR. 
    change (Z.of_nat (3 * 2880 + 3)) with 8643%Z. simpl Z.pow. lra.
Qed.
