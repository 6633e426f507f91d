(** Oil and gas at reservoir conditions are calculated and softer than minerals. *)
From Coq Require Import List ZArith Lra Lia.
From Verif Require Import Base BaseProofs MaterialModel Spec MaterialProofs FluidModel FluidProofs GassmannProofs MineralsModel MineralsProofs BatzleWangModel BatzleWangSpec BatzleWangProofs FluidsModel FluidsSpec FluidsProofs ConfigModel RowModel InputModel ReadModel ReadSpec FileSpec PublishedSpec PublishedProofs SandstoneModel SandstoneProofs AppModel AcceptSpec AcceptProofs HydroSpec.
Import ListNotations.
Open Scope R_scope.

(** ** Powers and roots *)
Lemma power_split x : 0 < x -> Rpower x (1175 / 1000) = x * Rpower x (175 / 1000).
Proof.
  intros X. replace (1175 / 1000) with (1 + 175 / 1000) by field. rewrite Rpower_plus, Rpower_1 by exact X. reflexivity.
Qed.

Lemma fifth_root x : 0 < x <= 756 -> Rpower x (175 / 1000) <= 38 / 10.
Proof.
  intros X. destruct (Rle_dec 1 x) as [L|L].
  - apply Rle_trans with (Rpower x (1 / 5)); [apply Rle_Rpower; lra|].
    apply Rle_trans with (Rpower ((38 / 10) ^ 5) (1 / 5)); [apply Rle_Rpower_l; lra|].
    rewrite <- Rpower_pow by lra. rewrite Rpower_mult.
    replace (INR 5 * (1 / 5)) with 1 by (cbn; field). rewrite Rpower_1 by lra. lra.
  - apply Rle_trans with (Rpower 1 (175 / 1000)); [apply Rle_Rpower_l; lra|].
    unfold Rpower. rewrite ln_1, Rmult_0_r, exp_0. lra.
Qed.

Lemma sqrt_at_most a b : 0 <= b -> a <= b ^ 2 -> sqrt a <= b.
Proof.
  intros B A. apply Rle_trans with (sqrt (b ^ 2)); [apply sqrt_le_1_alt; exact A|].
  replace (b ^ 2) with (b * b) by ring. rewrite sqrt_square by exact B. lra.
Qed.
Lemma sqrt_at_least a b : 0 <= b -> b ^ 2 <= a -> b <= sqrt a.
Proof.
  intros B A. apply Rle_trans with (sqrt (b ^ 2)); [|apply sqrt_le_1_alt; exact A].
  replace (b ^ 2) with (b * b) by ring. rewrite sqrt_square by exact B. lra.
Qed.
Lemma over_at_most a b c : 0 < b -> a <= c * b -> a / b <= c.
Proof. intros B H. apply Rmult_le_reg_r with b; [exact B|]. unfold Rdiv. rewrite Rmult_assoc, Rinv_l by lra. lra. Qed.
Lemma over_at_least a b c : 0 < b -> c * b <= a -> c <= a / b.
Proof. intros B H. apply Rmult_le_reg_r with b; [exact B|]. unfold Rdiv. rewrite Rmult_assoc, Rinv_l by lra. lra. Qed.

(** ** Oil *)
Lemma b0_range t r rg g :
  0 <= t <= 100 -> 7 / 10 <= r <= 1 -> 0 <= rg <= 200 -> 1 / 2 <= g <= 12 / 10 ->
  0 < 24 / 10 * rg * sqrt (g / r) + t + 178 / 10 /\ 972 / 1000 < bw_b0 t r rg g <= 207 / 100.
Proof.
  intros T Hr G1 G2. pose proof (sqrt_pos (g / r)) as S0.
  assert (S1 : sqrt (g / r) <= 131 / 100).
  { apply sqrt_at_most; [lra|]. apply over_at_most; lra. }
  assert (M : 0 <= rg * sqrt (g / r) <= 262) by nra.
  split; [lra|]. split; [apply b0_pos|]. unfold bw_b0.
  set (x := 24 / 10 * rg * sqrt (g / r) + t + 178 / 10).
  assert (X : 0 < x <= 756) by (unfold x; lra).
  rewrite power_split by lra. pose proof (fifth_root x X) as F. pose proof (rpow_pos x (175 / 1000)) as P.
  assert (x * Rpower x (175 / 1000) <= 756 * (38 / 10)) by (apply Rmult_le_compat; lra). lra.
Qed.

Lemma oil_velocity_range t p r : 0 <= t <= 100 -> 0 <= p <= 100 -> 28 / 100 <= r <= 103 / 100 ->
  350 <= bw_oil_velocity t p r <= 2900.
Proof.
  intros T P Hr. unfold bw_oil_velocity.
  assert (A1 : 347 / 1000 <= sqrt (r / (26 / 10 - r))).
  { apply sqrt_at_least; [lra|]. apply over_at_least; lra. }
  assert (A2 : sqrt (r / (26 / 10 - r)) <= 81 / 100).
  { apply sqrt_at_most; [lra|]. apply over_at_most; lra. }
  pose proof (sqrt_pos (108 / 100 / r - 1)) as B1.
  assert (B2 : sqrt (108 / 100 / r - 1) <= 17 / 10).
  { apply sqrt_at_most; [lra|]. assert (108 / 100 / r <= 3 + 89 / 100) by (apply over_at_most; lra). lra. }
  set (a := sqrt (r / (26 / 10 - r))) in *. set (b := sqrt (108 / 100 / r - 1)) in *.
  assert (TP : 0 <= t * p <= 100 * p) by nra.
  assert (L : - (115 / 10000) * (t * p) <= 115 / 10000 * (412 / 100 * b - 1) * t * p).
  { replace (115 / 10000 * (412 / 100 * b - 1) * t * p) with (- (115 / 10000) * (t * p) + 115 / 10000 * (412 / 100) * (b * (t * p))) by ring.
    assert (0 <= b * (t * p)) by (apply Rmult_le_pos; lra). lra. }
  assert (U : 115 / 10000 * (412 / 100 * b - 1) * t * p <= 115 / 10000 * (6004 / 1000) * (t * p)).
  { replace (115 / 10000 * (412 / 100 * b - 1) * t * p) with (115 / 10000 * ((412 / 100 * b - 1) * (t * p))) by ring.
    assert ((412 / 100 * b - 1) * (t * p) <= 6004 / 1000 * (t * p)) by (apply Rmult_le_compat_r; lra). lra. }
  split; lra.
Qed.

Lemma dead_density_range t p r : 0 <= t <= 100 -> 0 <= p <= 100 -> 7 / 10 <= r <= 1 ->
  33 / 100 <= bw_dead_density t p r <= 14 / 10.
Proof.
  intros T P Hr. unfold bw_dead_density. pose proof (rpow_pos (t + 1778 / 100) (1175 / 1000)) as Q.
  assert (Q2 : Rpower (t + 1778 / 100) (1175 / 1000) <= 756 * (38 / 10)).
  { rewrite power_split by lra. pose proof (fifth_root (t + 1778 / 100)) as F.
    pose proof (rpow_pos (t + 1778 / 100) (175 / 1000)). apply Rmult_le_compat; lra. }
  set (q := Rpower (t + 1778 / 100) (1175 / 1000)) in *.
  assert (C : 0 <= 277 / 100000 * p - 171 / 10 ^ 9 * p ^ 3 <= 277 / 1000).
  { assert (P2 : 0 <= p ^ 2 <= 100 ^ 2) by (split; [apply pow2_ge_0|apply pow_incr; lra]).
    replace (p ^ 3) with (p * p ^ 2) by ring. nra. }
  set (c := 277 / 100000 * p - 171 / 10 ^ 9 * p ^ 3) in *.
  assert (S2 : 0 <= (r - 115 / 100) ^ 2 <= 21 / 100) by nra.
  assert (CS : 0 <= c * (r - 115 / 100) ^ 2 <= 6 / 100) by nra.
  split; [apply over_at_least; lra|apply over_at_most; lra].
Qed.

Lemma live_density_range t r rg g :
  0 <= t <= 100 -> 7 / 10 <= r <= 1 -> 0 <= rg <= 200 -> 1 / 2 <= g <= 12 / 10 ->
  33 / 100 <= bw_live_density t r rg g <= 14 / 10 /\ 28 / 100 <= bw_pseudo_density t r rg g <= 103 / 100.
Proof.
  intros T Hr G1 G2. destruct (b0_range t r rg g T Hr G1 G2) as (_ & B).
  set (b := bw_b0 t r rg g) in *. unfold bw_live_density, bw_pseudo_density. fold b.
  assert (GG : 0 <= g * rg <= 240) by nra. split; split.
  - apply over_at_least; nra.
  - apply over_at_most; nra.
  - apply over_at_least; [lra|]. apply over_at_least; nra.
  - apply over_at_most; [lra|]. apply over_at_most; nra.
Qed.

Lemma oil_usable t p r rg g : common_oil t p r rg g ->
  exists m, oil t p r rg g = Ok m /\ fluid m /\ 0 < bulk m <= 12 * 10 ^ 9 /\ 330 <= dens m <= 1400 /\ 350 <= vp m <= 2900.
Proof.
  intros (T & Hp & Hr & G1 & G2).
  assert (P : 0 <= p / 10 ^ 6 <= 100) by (apply div_range; lra).
  assert (R1 : 7 / 10 <= r / 1000 <= 1) by lra.
  destruct (live_density_range t (r / 1000) rg g T R1 G1 G2) as (LD & PD).
  destruct (b0_range t (r / 1000) rg g T R1 G1 G2) as (W & _).
  pose proof (dead_density_range t (p / 10 ^ 6) (r / 1000) T P R1) as DD.
  assert (GG : 0 <= g * rg <= 240) by nra.
  assert (PD' : 0 < bw_pseudo_density t (r / 1000) rg g <= 108 / 100) by lra.
  pose proof (oil_velocity_range t (p / 10 ^ 6) (r / 1000) T P ltac:(lra)) as V1.
  pose proof (oil_velocity_range t (p / 10 ^ 6) (bw_pseudo_density t (r / 1000) rg g) T P PD) as V2.
  destruct (dead_oil_ok t p r) as [d Ed]; [lra|lra|lra|lra|].
  destruct (live_oil_ok t p r rg g) as [l El]; [lra|lra|exact W|lra|lra|exact PD'|lra|].
  destruct (proj2 (oil_defined t p r rg g)) as [m E]; [split; eexists; eassumption|].
  exists m. split; [exact E|].
  destruct (oil_blend _ _ _ _ _ _ E) as (d' & l' & w & Ed' & El' & Ew & Dm & Vm & M).
  rewrite Ed in Ed'. rewrite El in El'. injection Ed' as <-. injection El' as <-.
  destruct (dead_oil_value t p r d ltac:(lra) Ed) as (_ & D1 & D2 & _).
  destruct (live_oil_value t p r rg g l ltac:(lra) ltac:(lra) W El) as (L1 & _ & L2 & _).
  assert (Wr : 0 <= w <= 1).
  { subst w. split; [apply Rmax_l|]. apply Rmax_lub; [lra|]. pose proof (Rabs_pos rg). lra. }
  clear Ew. rewrite <- D2 in V1. rewrite <- L2 in V2.
  assert (X1 : 330 <= dens d <= 1400) by lra. assert (X2 : 330 <= dens l <= 1400) by lra.
  assert (Y1 : 330 <= dens m <= 1400) by (rewrite Dm; nra). assert (Y2 : 350 <= vp m <= 2900) by (rewrite Vm; nra).
  destruct M as (M1 & M2 & M3 & M4 & M5).
  assert (Z : 350 ^ 2 <= vp m ^ 2 <= 2900 ^ 2) by (split; apply pow_incr; lra).
  split; [|split; [rewrite M1; nra|split; assumption]].
  split; [|exact M2]. unfold wf. repeat split; try lra; try nra.
Qed.

(** ** Gas *)
Lemma tpr_range t g : 0 <= t <= 100 -> 1 / 2 <= g <= 1 -> 1 <= bw_tpr (t + 27315 / 100) g <= 21 / 10.
Proof. intros T G. unfold bw_tpr. split; [apply over_at_least; lra|apply over_at_most; lra]. Qed.

Lemma ppr_range p g : 0 < p <= 60 -> 1 / 2 <= g <= 1 -> 0 < bw_ppr p g <= 1338 / 100.
Proof.
  intros P G. unfold bw_ppr. split; [apply Rmult_lt_0_compat; [lra|apply Rinv_0_lt_compat; lra]|apply over_at_most; lra].
Qed.

Lemma base_range t : 1 <= t <= 21 / 10 -> 115 / 1000 <= 642 / 1000 * t - 7 / 1000 * t ^ 4 - 52 / 100.
Proof.
  intros T. assert (0 <= (t - 1) * (642 / 1000 - 7 / 1000 * (t ^ 3 + t ^ 2 + t + 1))).
  { apply Rmult_le_pos; [lra|]. assert (t ^ 3 <= (21 / 10) ^ 3) by (apply pow_incr; lra).
    assert (t ^ 2 <= (21 / 10) ^ 2) by (apply pow_incr; lra). lra. }
  replace (642 / 1000 * t - 7 / 1000 * t ^ 4 - 52 / 100)
    with (115 / 1000 + (t - 1) * (642 / 1000 - 7 / 1000 * (t ^ 3 + t ^ 2 + t + 1))) by field. lra.
Qed.

Lemma z_ratio tpr ppr : 1 <= tpr <= 21 / 10 -> 0 < ppr <= 1338 / 100 ->
  0 < bw_z tpr ppr <= 14074 / 1000 * (bw_z tpr ppr - bw_dz tpr ppr * ppr).
Proof.
  intros T P. split; [apply z_pos; lra|].
  unfold bw_z, bw_dz, bw_e. pose proof (base_range tpr T) as B.
  rewrite (rpower_split ppr) by lra.
  set (q := Rpower ppr (2 / 10)). assert (Q : 0 < q) by apply exp_pos.
  set (c := 45 / 100 + 8 * (56 / 100 - 1 / tpr) ^ 2).
  assert (C : 0 < c) by (unfold c; pose proof (pow2_ge_0 (56 / 100 - 1 / tpr)); lra).
  set (x := exp _). assert (X : 0 < x) by apply exp_pos.
  assert (SL : 0 <= 3 / 100 + 527 / 100000 * (35 / 10 - tpr) ^ 3 <= 11235 / 100000).
  { assert (0 <= (35 / 10 - tpr) ^ 3) by (apply pow_le; lra).
    assert ((35 / 10 - tpr) ^ 3 <= (25 / 10) ^ 3) by (apply pow_incr; lra). lra. }
  set (s := 3 / 100 + 527 / 100000 * (35 / 10 - tpr) ^ 3) in *.
  assert (SP : s * ppr <= 11235 / 100000 * (1338 / 100)) by (apply Rmult_le_compat; lra).
  replace (s * ppr + (642 / 1000 * tpr - 7 / 1000 * tpr ^ 4 - 52 / 100) + 109 / 1000 * (385 / 100 - tpr) ^ 2 * x -
   (s - 12 / 10 * (109 / 1000) * c * (385 / 100 - tpr) ^ 2 * q / tpr * x) * ppr)
   with ((642 / 1000 * tpr - 7 / 1000 * tpr ^ 4 - 52 / 100)
         + 109 / 1000 * (385 / 100 - tpr) ^ 2 * x + 109 / 1000 * ((385 / 100 - tpr) ^ 2 * x * (12 / 10 * c * q * ppr / tpr))) by (field; lra).
  assert (E : 0 <= (385 / 100 - tpr) ^ 2 * x) by (apply Rmult_le_pos; [apply pow2_ge_0|lra]).
  assert (F : 0 <= 12 / 10 * c * q * ppr / tpr).
  { apply Rmult_le_pos; [|apply Rlt_le, Rinv_0_lt_compat; lra]. repeat apply Rmult_le_pos; lra. }
  pose proof (Rmult_le_pos _ _ E F) as EF.
  replace (109 / 1000 * (385 / 100 - tpr) ^ 2 * x) with (109 / 1000 * ((385 / 100 - tpr) ^ 2 * x)) by ring.
  lra.
Qed.

Lemma gamma_high ppr : 0 < ppr -> bw_gamma ppr <= 587 / 100.
Proof.
  intros P. unfold bw_gamma. pose proof (exp_pos (- (65 / 100 * (ppr + 1)))).
  assert (56 / 10 / (ppr + 2) <= 28 / 10) by (apply over_at_most; lra).
  assert (271 / 10 / (ppr + 35 / 10) ^ 2 <= 2213 / 1000) by (apply over_at_most; nra). lra.
Qed.

Lemma gas_usable t p g : common_gas t p g ->
  exists m, gas t p g = Ok m /\ fluid m /\ 0 < bulk m <= 5 * 10 ^ 9 /\ bulk m <= 83 * p.
Proof.
  intros (T & Hp & G).
  assert (P : 0 < p / 10 ^ 6 <= 60) by lra.
  pose proof (tpr_range t g T G) as TR. pose proof (ppr_range _ g P G) as PR.
  destruct (gas_value t p g) as (m & E & F & K & B & _); [lra|lra|lra|lra|].
  exists m. split; [exact E|]. split; [exact F|].
  set (tpr := bw_tpr (t + 27315 / 100) g) in *. set (ppr := bw_ppr (p / 10 ^ 6) g) in *.
  destruct (z_ratio tpr ppr TR PR) as (Z & ZR). pose proof (gamma_high ppr (proj1 PR)) as GH.
  pose proof (gamma_pos ppr ltac:(lra)) as GP.
  assert (Q : bulk m <= 83 * p); [|lra]. rewrite B.
  set (z := bw_z tpr ppr) in *. set (y := z - bw_dz tpr ppr * ppr) in *.
  replace (1 - bw_dz tpr ppr * ppr / z) with (y / z) by (unfold y; field; lra).
  assert (Y : 0 < y) by lra.
  replace (bw_gamma ppr * p / (y / z)) with (bw_gamma ppr * (z / y) * p) by (field; lra).
  apply Rmult_le_compat_r; [lra|].
  assert (z / y <= 14074 / 1000) by (apply over_at_most; lra).
  assert (0 < z / y) by (apply Rmult_lt_0_compat; [lra|apply Rinv_0_lt_compat; lra]).
  assert (bw_gamma ppr * (z / y) <= 587 / 100 * (14074 / 1000)) by (apply Rmult_le_compat; lra). lra.
Qed.

Lemma reservoir_soft co2 klo section t p k : reservoir_fluid klo section t p k -> soft_fluid co2 klo section t p k.
Proof.
  intros [H|(Eq & Hk & [(r & rg & g & Ek & C)|(g & Ek & C)])]; [apply plain_soft; exact H| |].
  - split; [intros i Q; congruence|]. destruct (oil_usable _ _ _ _ _ C) as (m & E & F & B & _).
    exists (FOil r rg g), m. rewrite Ek, Eq. split; [constructor|]. split; [constructor; exact E|]. split; [exact F|lra].
  - split; [intros i Q; congruence|]. destruct (gas_usable _ _ _ C) as (m & E & F & B & _).
    exists (FGas g), m. rewrite Ek, Eq. split; [constructor|]. split; [constructor; exact E|]. split; [exact F|lra].
Qed.

(** ** Parts of the list *)
Lemma at_forall : forall {A} (P : A -> Prop) keep idx l from, Forall P l -> Forall P (at_positions keep idx from l).
Proof.
  intros A P keep idx l from F. revert from. induction F as [|x l H F IH]; intros from; cbn [at_positions]; [constructor|].
  destruct (Bool.eqb _ _); [constructor; [exact H|]|]; apply IH.
Qed.
Lemma at_length : forall {A B} keep idx (l : list A) (m : list B) from, length l = length m ->
  length (at_positions keep idx from l) = length (at_positions keep idx from m).
Proof.
  intros A B keep idx l. induction l as [|x l IH]; intros [|y m] from L; cbn [at_positions length] in *; try discriminate; [reflexivity|].
  destruct (Bool.eqb _ _); cbn [length]; [f_equal|]; apply IH; congruence.
Qed.
Lemma at_sum : forall idx l from, rsum (at_positions true idx from l) + rsum (at_positions false idx from l) = rsum l.
Proof.
  intros idx l. induction l as [|x l IH]; intros from; cbn [at_positions rsum]; [lra|].
  specialize (IH (from + 1)%Z). destruct (existsb (Z.eqb from) idx); cbn [Bool.eqb rsum]; lra.
Qed.
Lemma at_none : forall {A} idx (l : list A) from,
  at_positions true idx from l = [] -> at_positions false idx from l = [] -> l = [].
Proof.
  intros A idx [|x l] from H1 H2; [reflexivity|]. cbn [at_positions] in *.
  destruct (existsb (Z.eqb from) idx); cbn [Bool.eqb] in *; discriminate.
Qed.

Lemma gases_inside : forall cs, NoDup (gases_at cs) /\ Forall (fun i => (0 <= i < Z.of_nat (length cs))%Z) (gases_at cs).
Proof.
  intros cs. unfold gases_at. split.
  - apply FinFun.Injective_map_NoDup; [intros a b; lia|]. apply NoDup_filter, seq_NoDup.
  - apply Forall_forall. intros z I. apply in_map_iff in I. destruct I as (i & <- & I). apply filter_In in I.
    destruct I as (I & _). apply in_seq in I. lia.
Qed.

Lemma completed : forall fs xs, parts_of_one fs -> fix_one_fraction fs = Ok xs -> no_traces fs -> Forall (fun x => x = 0 \/ 1 / 10 ^ 15 <= x) xs.
Proof.
  intros fs xs Pa E T. destruct (parts_missing fs Pa) as (_ & _ & Cm & _).
  unfold fix_one_fraction in E. destruct (Rlt_dec _ _); [discriminate|].
  assert (Q : xs = map (fun o => match o with Some x => x | None => 1 - sum_given fs end) fs).
  { destruct (count_missing fs) as [|[|k]]; [congruence| |discriminate]. apply bind_ok in E. destruct E as (u & _ & E). congruence. }
  rewrite Q. apply Forall_forall. intros x I. apply in_map_iff in I. destruct I as (o & <- & I).
  unfold no_traces in T. rewrite Forall_forall in T. specialize (T o I). rewrite total_given in T. destruct o as [x|]; lra.
Qed.

(** ** Mixtures of soft fluids are soft *)
Lemma soft_range : forall klo l, l <> [] -> Forall (fun m : material => fluid m /\ 0 < bulk m < klo) l ->
  exists lo hi, 0 < lo /\ hi < klo /\ all_ge lo (map bulk l) /\ all_le hi (map bulk l).
Proof.
  intros klo l Ne F. induction F as [|x l H F IH]; [contradiction|]. destruct l as [|y l].
  - exists (bulk x), (bulk x). split; [lra|]. split; [lra|]. split; (constructor; [lra|constructor]).
  - destruct IH as (lo & hi & L & Hh & A & B); [discriminate|]. exists (Rmin lo (bulk x)), (Rmax hi (bulk x)).
    split; [apply Rmin_glb_lt; lra|]. split; [apply Rmax_lub_lt; lra|].
    split; (constructor; [apply Rmin_r || apply Rmax_r|]).
    + eapply Forall_impl; [|exact A]. cbn. intros z Hz. eapply Rle_trans; [apply Rmin_l|exact Hz].
    + eapply Forall_impl; [|exact B]. cbn. intros z Hz. eapply Rle_trans; [exact Hz|apply Rmax_l].
Qed.

Lemma tiny_le_one : 1 / 10 ^ 15 <= 1.
Proof.
  apply Rmult_le_reg_r with (10 ^ 15); [apply pow_lt; lra|]. unfold Rdiv. rewrite Rmult_assoc, Rinv_l by (apply pow_nonzero; lra).
  assert (1 <= 10 ^ 15) by (apply pow_R1_Rle; lra). lra.
Qed.

Lemma wood_soft : forall klo ms xs, ms <> [] -> Forall (fun m : material => fluid m /\ 0 < bulk m < klo) ms ->
  length xs = length ms -> Forall (fun x => 0 <= x) xs -> 1 / 10 ^ 15 <= rsum xs ->
  exists w, wood_fluid_mixing ms xs = Ok w /\ fluid w /\ 0 < bulk w < klo.
Proof.
  intros klo ms xs Ne F L P T.
  assert (Us : usable ms) by (eapply Forall_impl; [|exact F]; cbn; tauto).
  destruct (wood_between ms xs Us (conj L (conj P T))) as (w & Ew & Fw & Wlo & Whi & _ & _).
  exists w. split; [exact Ew|]. split; [exact Fw|].
  destruct (soft_range klo ms Ne F) as (lo & hi & A & B & C & D). specialize (Wlo lo C). specialize (Whi hi D). lra.
Qed.

Lemma wood_absent : forall klo ms xs, ms <> [] -> Forall (fun m : material => fluid m /\ 0 < bulk m < klo) ms ->
  length xs = length ms -> rsum xs = 0 ->
  exists w, wood_fluid_mixing ms xs = Ok w /\ fluid w /\ 0 < bulk w < klo.
Proof.
  intros klo ms xs Ne F L Z.
  assert (Us : usable ms) by (eapply Forall_impl; [|exact F]; cbn; tauto).
  unfold wood_fluid_mixing. rewrite sats_zero by lra.
  set (ones := map (fun _ : R => 1) xs).
  assert (Lo : length ones = length ms) by (unfold ones; rewrite map_length; exact L).
  assert (Po : Forall (fun w => 0 <= w) ones).
  { unfold ones. apply Forall_forall. intros w I. apply in_map_iff in I. destruct I as (x & <- & _). lra. }
  assert (So : 1 <= rsum ones).
  { unfold ones. destruct xs as [|x xs]; [destruct ms; [contradiction|discriminate]|]. cbn [map rsum].
    assert (0 <= rsum (map (fun _ => 1) xs)) by (clear; induction xs; cbn [map rsum]; lra). lra. }
  assert (K : 0 < klo) by (destruct F as [|m ms' H]; [contradiction|lra]).
  assert (Hc : / klo < compl ones ms).
  { destruct (soft_range klo ms Ne F) as (lo & hi & A & B & C & D).
    assert (Q : all_ge (/ hi) (map (fun f => / bulk f) ms)).
    { unfold all_ge. apply Forall_forall. intros x I. apply in_map_iff in I. destruct I as (m & <- & I).
      unfold all_le in D. rewrite Forall_forall in D, F. specialize (D (bulk m) (in_map bulk _ _ I)). specialize (F m I).
      apply Rinv_le_contravar; lra. }
    pose proof (wsum_lower ones (map (fun f => / bulk f) ms) (/ hi) ltac:(rewrite map_length; exact Lo) Po Q) as W.
    assert (H0 : 0 < hi).
    { destruct F as [|m ms' H]; [contradiction|]. inversion D; subst. lra. }
    assert (/ klo < / hi) by (apply Rinv_lt_contravar; [apply Rmult_lt_0_compat; lra|lra]).
    assert (0 < / hi) by (apply Rinv_0_lt_compat; lra). unfold compl. nra. }
  assert (Ik : 0 < / klo) by (apply Rinv_0_lt_compat; lra).
  rewrite mix_bulk_value; [|apply usable_nz; exact Us|apply combine_nonempty; [exact Lo|destruct ones; [cbn in So; lra|discriminate]]|lra].
  cbn [bind]. rewrite mix_densities_wsum.
  assert (Hd : 0 < wsum ones (map dens ms)) by (apply wsum_pos; [rewrite map_length; exact Lo|exact Po|apply usable_dens_pos; exact Us|lra]).
  assert (Hb : 0 < 1 / compl ones ms < klo).
  { split; [apply Rdiv_lt_0_compat; lra|]. apply Rmult_lt_reg_r with (compl ones ms); [lra|]. unfold Rdiv. rewrite Rmult_assoc, Rinv_l by lra.
    assert (klo * / klo = 1) by (apply Rinv_r; lra). nra. }
  unfold fluid_of_bulk. destruct (mat_of_moduli_spec (1 / compl ones ms) 0 (wsum ones (map dens ms))) as (w & Ew & (Hk & Hs & _) & Wf); [exact Hd|lra|lra|].
  exists w. split; [exact Ew|]. split; [split; assumption|]. rewrite Hk. exact Hb.
Qed.

Lemma trace_sum : forall xs, Forall (fun x => x = 0 \/ 1 / 10 ^ 15 <= x) xs -> rsum xs = 0 \/ 1 / 10 ^ 15 <= rsum xs.
Proof. intros xs F. pose proof tiny_pos. induction F as [|x l H1 F IH]; cbn [rsum]; [left; reflexivity|lra]. Qed.

Lemma part_soft : forall klo ms xs, ms <> [] -> Forall (fun m : material => fluid m /\ 0 < bulk m < klo) ms ->
  length xs = length ms -> Forall (fun x => x = 0 \/ 1 / 10 ^ 15 <= x) xs ->
  exists w, wood_fluid_mixing ms xs = Ok w /\ fluid w /\ 0 < bulk w < klo.
Proof.
  intros klo ms xs Ne F L T. pose proof tiny_pos. destruct (trace_sum xs T) as [Z|Z].
  - apply wood_absent; assumption.
  - apply wood_soft; try assumption. eapply Forall_impl; [|exact T]. cbn. intros; lra.
Qed.

Lemma brie_soft : forall klo e ls ss gs sg, ls <> [] \/ gs <> [] -> 0 < e ->
  Forall (fun m : material => fluid m /\ 0 < bulk m < klo) ls -> Forall (fun m : material => fluid m /\ 0 < bulk m < klo) gs ->
  length ss = length ls -> length sg = length gs ->
  Forall (fun x => x = 0 \/ 1 / 10 ^ 15 <= x) ss -> Forall (fun x => x = 0 \/ 1 / 10 ^ 15 <= x) sg -> rsum ss + rsum sg = 1 ->
  exists w, brie_fluid_mixing ls ss gs sg e = Ok w /\ fluid w /\ 0 < bulk w < klo.
Proof.
  intros klo e ls ss gs sg Ne He Fl Fg L1 L2 T1 T2 Sm. pose proof tiny_pos as Tp.
  destruct (brie_rejects ls ss gs sg e) as (_ & _ & _ & R4 & R5).
  destruct ls as [|l ls]; [|destruct gs as [|g gs]].
  - destruct ss; [|discriminate]. destruct gs as [|g gs]; [destruct Ne; contradiction|].
    rewrite R5 by congruence. apply part_soft; try assumption. discriminate.
  - destruct sg; [|discriminate]. rewrite R4 by congruence. apply part_soft; try assumption. discriminate.
  - destruct (part_soft klo (l :: ls) ss) as (wl & El & Fwl & Bl); try assumption; [discriminate|].
    destruct (part_soft klo (g :: gs) sg) as (wg & Eg & Fwg & Bg); try assumption; [discriminate|].
    pose proof (trace_sum ss T1). pose proof (trace_sum sg T2).
    destruct (brie_between (l :: ls) ss (g :: gs) sg e wl wg ltac:(discriminate) ltac:(discriminate) (eq_sym L1) (eq_sym L2) El Eg ltac:(lra) He)
      as (m & Em & Fm & Bm & _).
    exists m. split; [exact Em|]. split; [exact Fm|]. destruct Bm as (B1 & B2). split.
    + eapply Rlt_le_trans; [|exact B1]. apply Rmin_glb_lt; lra.
    + eapply Rle_lt_trans; [exact B2|]. apply Rmax_lub_lt; lra.
Qed.

Lemma reservoir_mixture : forall co2 klo p f, reservoir_mix klo p f ->
  exists g xs w, means_fluids f g /\ length (f_constituents g) = length (fc_constituents f) /\
    fix_one_fraction (map k_fraction (fc_constituents f)) = Ok xs /\
    fst (as_mixture co2 (mk_fluids (f_temperature g) (refraction (f_constituents g) xs) (f_mix_method g)
                           (f_brie_constant g) (f_brie_gases g) (f_fluid_model g)) p) = Ok w /\
    fluid w /\ 0 < bulk w < klo.
Proof.
  intros co2 klo p f ((e & Be & Mx) & Bg & Nf & Pf & Ff).
  assert (Fs : Forall (soft_fluid co2 klo (fc_fluid_model f) (fc_temperature f) p) (fc_constituents f))
    by (eapply Forall_impl; [|exact Ff]; intros k; apply reservoir_soft).
  destruct (soft_means _ _ _ _ _ _ Fs) as (fs & ms & Mfs & Ncs & Wfs & Fms).
  destruct (parts_fixed _ Pf) as (xs & Ex & Lx & Px & Sx). rewrite map_length in Lx.
  pose proof (Forall2_same_length _ _ _ Mfs) as Lfs. pose proof (Forall2_same_length _ _ _ Wfs) as Lms.
  assert (Lf : length xs = length fs) by congruence.
  destruct (refraction_worth co2 (fc_fluid_model f) (fc_temperature f) p fs ms xs Lf Ncs Wfs) as (Ea & Ef).
  assert (Ne : ms <> []) by (intros ->; destruct fs; [destruct (fc_constituents f); [contradiction|discriminate]|discriminate]).
  exists (mk_fluids (fc_temperature f) fs (fc_mix_method f) e (gases_at (fc_constituents f)) (fc_fluid_model f)), xs.
  cbn [f_temperature f_constituents f_mix_method f_brie_constant f_brie_gases f_fluid_model].
  assert (M : means_fluids f (mk_fluids (fc_temperature f) fs (fc_mix_method f) e (gases_at (fc_constituents f)) (fc_fluid_model f))).
  { unfold means_fluids. cbn [f_temperature f_constituents f_mix_method f_brie_constant f_brie_gases f_fluid_model].
    rewrite Bg. split; [reflexivity|]. split; [exact Mfs|]. split; [reflexivity|]. split; [exact Be|]. split; reflexivity. }
  destruct (fc_mix_method f) eqn:Em.
  - destruct (wood_soft klo ms xs Ne Fms ltac:(congruence) Px) as (w & Ew & Fw & Bw); [rewrite Sx; apply tiny_le_one|].
    exists w. split; [exact M|]. split; [congruence|]. split; [exact Ex|]. split; [|split; assumption].
    unfold as_mixture. cbn [f_temperature f_constituents f_mix_method f_brie_constant f_brie_gases f_fluid_model].
    rewrite Ea, Ef. cbn [bind fst]. exact Ew.
  - destruct Mx as [Q|(He & Tr)]; [discriminate|].
    pose proof (completed _ _ Pf Ex Tr) as Tx.
    destruct (gases_inside (fc_constituents f)) as (Nd & In).
    assert (Lr : length (refraction fs xs) = length (fc_constituents f)).
    { unfold refraction. rewrite map_length, combine_length. lia. }
    pose proof (brie_explicit co2 (mk_fluids (fc_temperature f) (refraction fs xs) Brie e (gases_at (fc_constituents f)) (fc_fluid_model f)) p ms p eq_refl Nd
      ltac:(cbn [f_brie_gases f_constituents]; rewrite Lr; exact In) Ea) as B.
    cbv zeta in B. cbn [f_temperature f_constituents f_mix_method f_brie_constant f_brie_gases f_fluid_model] in B. rewrite Ef in B.
    set (idx := gases_at (fc_constituents f)) in *.
    destruct (brie_soft klo e (at_positions false idx 0 ms) (at_positions false idx 0 xs) (at_positions true idx 0 ms) (at_positions true idx 0 xs))
      as (w & Ew & Fw & Bw); try (apply at_forall; assumption); try (apply at_length; congruence).
    + destruct (at_positions false idx 0 ms) eqn:Q; [|left; discriminate]. right. intros Q2. apply Ne. eapply at_none; eassumption.
    + exact He.
    + rewrite Rplus_comm, at_sum. exact Sx.
    + exists w. split; [exact M|]. split; [congruence|]. split; [exact Ex|]. split; [|split; assumption].
      rewrite B. cbn [fst]. exact Ew.
Qed.

(** ** A row *)
Lemma reservoir_row : forall co2 klo muhi c, reservoir klo muhi c -> exists o, gives_output co2 c o /\ sensible klo o.
Proof.
  intros co2 klo muhi c (Hk & Nm & Fm & Pm & (p & Ep & Mx) & e & He & (r & Er & Ee) & f & Df & Da & Hphi & Hc & Hsr & Hn & Hs).
  destruct (grains_mean klo muhi _ Hk Fm) as (cs & Mcs & Scs & Fcs).
  assert (Ncs0 : cs <> []) by (intros ->; inversion Mcs; subst; congruence).
  rewrite <- Scs in Pm. destruct (minerals_pass cs Ncs0 Pm) as (l & El & Ll & Pl & Sl).
  destruct (reservoir_mixture co2 klo p _ Mx) as (g & xs & w & Mg & Lg & Ex & Ew & Fw & Bw).
  destruct Mx as (_ & _ & Nf & Pf & _).
  set (d := mkDryRock (RockFriable (means_friable f)) (dc_porosity (cf_dry_rock c)) []).
  set (i := mkInput cs g (map k_fraction (fc_constituents (cf_fluids c))) d (means_pressure (cf_pressure c))).
  assert (Mi : means c i).
  { unfold means, i. cbn [i_minerals i_fluids i_fluid_fractions i_dry_rock i_pressure].
    split; [exact Mcs|]. split; [exact Mg|split; [reflexivity|split; [|reflexivity]]].
    unfold means_dry_rock, d. cbn [dr_model dr_porosity dr_adjustments]. rewrite Df, Da. split; [constructor|]. split; [reflexivity|constructor]. }
  assert (Fl : Forall (fun c : material * R => solid (fst c) /\ klo <= bulk (fst c) /\ shear (fst c) <= muhi) l).
  { clear - Ll Fcs. revert cs Ll Fcs. induction l as [|x l IH]; intros [|y cs] Ll Fcs; try discriminate; constructor.
    - cbn [map] in Ll. injection Ll as E1 E2. rewrite E1. inversion Fcs; subst. assumption.
    - cbn [map] in Ll. injection Ll as E1 E2. inversion Fcs; subst. apply (IH cs E2). assumption. }
  assert (ML : mineral_list l).
  { split; [intros ->; apply Ncs0; destruct cs; [reflexivity|discriminate]|]. split; [|pose proof eps_pos; lra].
    apply Forall_forall. intros x I. rewrite Forall_forall in Fl, Pl. split; [apply Fl, I|apply Pl, in_map, I]. }
  destruct (mixture_range l ML) as (m & Em & Sm & Blo & _ & _ & Mhi).
  assert (Bm : klo <= bulk m).
  { apply Blo. apply (all_ge_map (fun c : material * R => bulk (fst c))). eapply Forall_impl; [|exact Fl]. cbn. tauto. }
  assert (Mm : shear m <= muhi).
  { apply Mhi. apply (all_le_map (fun c : material * R => shear (fst c))). eapply Forall_impl; [|exact Fl]. cbn. tauto. }
  set (n := or_murphy (fr_coordination f) (fr_critical f)) in *.
  destruct (sand_soft m (dc_porosity (cf_dry_rock c)) (fr_critical f) e n (fr_shear_reduction f) klo muhi Sm Hk Bm Mm Hphi Hc Hsr Hn He Hs)
    as (s & Es & Ss & Bs).
  destruct (substitution_between s m w (dc_porosity (cf_dry_rock c)) (proj1 Ss) (proj1 Sm) (proj1 Fw) ltac:(lra) ltac:(lra) Hphi)
    as (sat & Esat & Bsat & Bz).
  exists (mkRow (bulk sat) (bulk m) (bulk s) (shear sat) (dens sat) (bulk m)). split.
  - exists i. split; [exact Mi|]. unfold calculate_row, i. cbn [i_minerals i_fluids i_fluid_fractions i_dry_rock i_pressure].
    rewrite El. cbn [bind]. unfold complete_fluids. rewrite ratios_pass by (apply parts_ratio; exact Pf). cbn [bind].
    destruct (map k_fraction (fc_constituents (cf_fluids c))) as [|x0 xs0] eqn:Emap.
    { destruct (fc_constituents (cf_fluids c)); [contradiction|discriminate]. }
    rewrite <- Emap in *. destruct (parts_missing _ Pf) as (_ & S01 & _). pose proof eps_pos as Eps.
    destruct (Rlt_dec _ _) as [Q|_]; [lra|]. rewrite Ex. cbn [bind].
    unfold d, check_dry_rock. cbn [dr_model dr_porosity check_patchy_bound check_critical f_critical means_friable bind].
    destruct (Rlt_dec _ _) as [Q|_]; [lra|]. cbn [bind]. rewrite Em. cbn [bind]. unfold means_pressure at 1. cbn [p_fluid]. rewrite Ep. cbn [bind].
    fold (refraction (f_constituents g) xs). rewrite Ew. cbn [bind].
    unfold dry_rock_material, truncated_rock, means_pressure. cbn [p_rock p_overburden p_max_effective]. rewrite Er. cbn [bind].
    unfold material_from_model, friable_material. cbn [dr_model dr_porosity dr_adjustments f_critical f_coordination f_shear_reduction means_friable].
    fold n. replace (clip_above _ _) with e by (rewrite Ee; unfold clip_above; destruct (pr_max_effective (cf_pressure c)); reflexivity).
    rewrite Es. cbn [bind adjust_material nonporous dr_model]. rewrite Esat. cbn [bind]. reflexivity.
  - destruct (substitution_inv _ _ _ _ _ Esat) as (_ & Sh & De & _). unfold sensible. cbn [r_kdry r_ksat r_kmin r_kmin_fls r_mysat r_rsat].
    assert (bulk sat <> bulk s) by (intros Q; apply Bz in Q; lra).
    split; [lra|]. split; [lra|]. split; [lra|]. split; [reflexivity|]. split; [rewrite Sh; apply Ss|].
    rewrite De. destruct Ss as ((Ds & _) & _). destruct Fw as ((Dw & _) & _). nra.
Qed.

Lemma reservoir_rows : forall co2 klo muhi header c (rows : list row),
  Forall (fun r => reservoir klo muhi (config_of_row header c r)) rows ->
  exists outs, Forall2 (fun r o => gives_output co2 (config_of_row header c r) o) rows outs /\ Forall (sensible klo) outs.
Proof.
  intros co2 klo muhi header c rows F. induction F as [|r rows H F IH]; [exists []; split; constructor|].
  destruct IH as (outs & A & B). destruct (reservoir_row co2 _ _ _ H) as (o & G & Q). exists (o :: outs). split; constructor; assumption.
Qed.

Lemma reservoir_combines : forall klo muhi header c (r : row),
  reservoir klo muhi (config_of_row header c r) -> combines c.
Proof.
  intros klo muhi header c r (_ & _ & _ & _ & _ & e & _ & _ & f & Dm & Da & _).
  destruct c as [mi fl d p]. destruct d as [m phi adj]. unfold config_of_row in *.
  cbn [cf_dry_rock dc_model dc_adjustments dc_porosity] in *. split.
  - destruct m; cbn in Dm; try discriminate. exact I.
  - destruct adj; [constructor|discriminate].
Qed.
