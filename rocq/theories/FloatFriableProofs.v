(** Friable sand in double precision. *)
From Coq Require Import Reals Lra Lia List ZArith String Psatz.
From Flocq Require Import Core.
From Verif Require Import Base BaseProofs MaterialModel MaterialProofs MainModel MainProofs HashinShtrikmanModel HashinShtrikmanProofs SandstoneModel Spec SandstoneProofs.
From Verif Require Import PublishedSpec.
From Verif Require Import FloatModel FloatSpec FloatProofs FloatPolySpec FloatPolyProofs FloatBrineProofs FloatBoundsModel FloatBoundsSpec FloatBoundsProofs FloatSandModel FloatSandSpec FloatSandProofs.
Open Scope R_scope.

(* ---- what is calculated is a double ---- *)
Lemma moduli_fields root k mu d g : f_mat_of_moduli root k mu d = Ok g -> bulk g = k /\ shear g = mu /\ dens g = d.
Proof.
  unfold f_mat_of_moduli, f_guards. intros E.
  repeat match type of E with
  | bind ?e _ = _ => destruct e; cbn [bind] in E; [|discriminate E]
  | (if ?b then _ else _) = _ => destruct b; [discriminate E|]
  end.
  injection E as <-. auto.
Qed.
Lemma f_hm_doubles root pw m phi p sr n g : f_hertz_mindlin root pw m phi p sr n = Ok g ->
  double (bulk g) /\ double (shear g) /\ double (dens g).
Proof.
  unfold f_hertz_mindlin. cbv zeta. intros E.
  repeat match type of E with bind ?e _ = _ => let Q := fresh "Q" in destruct e eqn:Q; cbn [bind] in E; [|discriminate E] end.
  apply moduli_fields in E. destruct E as (-> & -> & ->).
  repeat split; eapply rnd_double; eassumption.
Qed.

(* ---- the bound when its parts change a little ---- *)
Lemma approx_sym n x y : approx n x y -> approx n y x.
Proof. intros A. pose proof (approx_nonneg _ _ _ A). destruct A as (B & C & D). split; [assumption|split; assumption]. Qed.
Lemma approx_min n a x y : 0 <= a -> approx n x y -> approx n (Rmin a x) (Rmin a y).
Proof.
  intros P A. pose proof (approx_nonneg _ _ _ A) as N. destruct A as (B & C & D). pose proof (un n) as U.
  split; [unfold Rmin; destruct (Rle_dec a x); assumption|]. unfold Rmin. destruct (Rle_dec a x), (Rle_dec a y); split; nra.
Qed.
Lemma hs_up n f x1 x2 y2 z w : 0 <= f <= 1 -> 0 <= x1 -> 0 <= x2 -> 0 <= y2 -> 0 < z -> 0 < w ->
  y2 <= x2 * (1 + u) ^ n -> w <= z * (1 + u) ^ n -> hs f x1 y2 w <= hs f x1 x2 z * (1 + u) ^ n.
Proof.
  intros F P1 P2 Q2 Z W A B. pose proof (un n) as U. set (l := (1 + u) ^ n) in *.
  rewrite (Rmult_comm (hs f x1 x2 z)), <- hs_scale by (try assumption; lra).
  apply Rle_trans with (hs f x1 (l * x2) w); [apply hs_mono_2; try assumption; lra|].
  apply Rle_trans with (hs f (l * x1) (l * x2) w); [apply hs_mono_1; try assumption; nra|].
  apply hs_mono_z; try assumption; try nra.
Qed.
Lemma hs_approx n f x1 x2 y2 z w : 0 <= f <= 1 -> 0 <= x1 -> 0 < z -> approx n x2 y2 -> approx n z w ->
  approx n (hs f x1 x2 z) (hs f x1 y2 w).
Proof.
  intros F P1 Z A B. pose proof (approx_nonneg _ _ _ A). pose proof (approx_pos _ _ _ B Z). destruct A as (A1 & A2 & A3). destruct B as (B1 & B2 & B3).
  split; [apply hs_nonneg; assumption|]. split; apply hs_up; assumption.
Qed.
Lemma zeta_up n k k' m m' : 0 <= k -> 0 < m -> 0 <= k' -> 0 < m' -> k' <= k * (1 + u) ^ n -> m' <= m * (1 + u) ^ n ->
  zeta k' m' <= zeta k m * (1 + u) ^ n.
Proof.
  intros K M K' M' A B. pose proof (un0 n) as U. rewrite Rmult_comm, <- zeta_scale by assumption. apply zeta_mono; lra.
Qed.
Lemma zeta_approx n k k' m m' : 0 < m -> approx n k k' -> approx n m m' -> approx n (zeta k m) (zeta k' m').
Proof.
  intros P A B. pose proof (approx_nonneg _ _ _ A). pose proof (approx_pos _ _ _ B P). destruct A as (A1 & A2 & A3). destruct B as (B1 & B2 & B3).
  split; [left; apply zeta_pos; assumption|]. split; apply zeta_up; assumption.
Qed.

(* the share *)
Lemma hs_share c f g x1 x2 z : 0 <= f <= 1 -> 0 <= g <= 1 -> 0 < x1 -> 0 < x2 -> 0 < z -> 1 <= c -> contrast c x1 x2 ->
  Rabs (hs g x1 x2 z - hs f x1 x2 z) <= c * Rabs (g - f) * hs f x1 x2 z.
Proof.
  assert (H : forall f g x1 x2, 0 <= f <= 1 -> 0 <= g <= 1 -> 0 < x1 -> 0 < x2 -> 0 < z -> 1 <= c -> x1 <= c * x2 -> x2 <= x1 ->
    Rabs (hs g x1 x2 z - hs f x1 x2 z) <= c * Rabs (g - f) * hs f x1 x2 z).
  { clear. intros f g x1 x2 F G P1 P2 Z C L O.
    pose proof (hs_den_pos f x1 x2 z F ltac:(lra) ltac:(lra) Z) as Df. pose proof (hs_den_pos g x1 x2 z G ltac:(lra) ltac:(lra) Z) as Dg.
    pose proof (hs_between f x1 x2 z F ltac:(lra) ltac:(lra) Z) as B. unfold between in B. rewrite Rmin_right, Rmax_left in B by lra.
    set (h := hs f x1 x2 z) in *.
    assert (E : hs g x1 x2 z - h = (g - f) * ((x1 - x2) * ((h + z) / (g * x2 + (1 - g) * x1 + z)))).
    { unfold h, hs. field. split; lra. }
    rewrite E, Rabs_mult.
    assert (T : 0 <= (x1 - x2) * ((h + z) / (g * x2 + (1 - g) * x1 + z)) <= c * h).
    { assert (I : 0 <= (h + z) / (g * x2 + (1 - g) * x1 + z)) by (apply div_nonneg; lra).
      assert (J : (h + z) / (g * x2 + (1 - g) * x1 + z) * x2 <= h).
      { apply Rmult_le_reg_r with (g * x2 + (1 - g) * x1 + z); [exact Dg|].
        replace ((h + z) / (g * x2 + (1 - g) * x1 + z) * x2 * (g * x2 + (1 - g) * x1 + z)) with ((h + z) * x2) by (field; lra).
        assert (x2 + z <= g * x2 + (1 - g) * x1 + z) by nra.
        apply Rle_trans with (h * (x2 + z)); [nra|]. apply Rmult_le_compat_l; lra. }
      split; [apply Rmult_le_pos; lra|]. set (t := (h + z) / (g * x2 + (1 - g) * x1 + z)) in *.
      apply Rle_trans with (c * x2 * t); [apply Rmult_le_compat_r; lra|]. replace (c * x2 * t) with (c * (t * x2)) by ring.
      apply Rmult_le_compat_l; lra. }
    rewrite (Rabs_pos_eq ((x1 - x2) * _)) by tauto. replace (c * Rabs (g - f) * h) with (Rabs (g - f) * (c * h)) by ring.
    apply Rmult_le_compat_l; [apply Rabs_pos|tauto]. }
  intros F G P1 P2 Z C (C1 & C2). destruct (Rle_lt_dec x2 x1) as [O|O]; [apply H; assumption|].
  rewrite (hs_sym g), (hs_sym f). replace (Rabs (g - f)) with (Rabs ((1 - g) - (1 - f))) by (rewrite <- Rabs_Ropp; f_equal; ring).
  apply H; lra.
Qed.
Lemma hs_equation f x1 x2 z : 0 <= f <= 1 -> 0 < x1 -> 0 < x2 -> 0 < z ->
  1 / (hs f x1 x2 z + z) = f / (x1 + z) + (1 - f) / (x2 + z).
Proof.
  intros F P1 P2 Z. pose proof (hs_den_pos f x1 x2 z F ltac:(lra) ltac:(lra) Z) as D.
  replace (hs f x1 x2 z + z) with ((x1 + z) * (x2 + z) / (f * x2 + (1 - f) * x1 + z)) by (unfold hs; field; lra).
  field. repeat split; lra.
Qed.
Lemma hs_unique f x1 x2 z v : 0 <= f <= 1 -> 0 < x1 -> 0 < x2 -> 0 < z -> 0 < v ->
  1 / (v + z) = f / (x1 + z) + (1 - f) / (x2 + z) -> v = hs f x1 x2 z.
Proof.
  intros F P1 P2 Z P E. rewrite <- hs_equation in E by assumption.
  pose proof (hs_nonneg f x1 x2 z F ltac:(lra) ltac:(lra) Z) as N.
  assert (Q : / (v + z) = / (hs f x1 x2 z + z)) by lra.
  assert (Q2 : / / (v + z) = / / (hs f x1 x2 z + z)) by congruence. rewrite !Rinv_inv in Q2. lra.
Qed.

(* ---- the share of the mineral ---- *)
Lemma near_one x y : approx 1 x y -> x <= 1 -> y <= 1 -> Rabs (y - x) <= u.
Proof.
  intros A X Y. pose proof (approx_nonneg _ _ _ A) as N. destruct A as (P & B & C). simpl in B, C. pose proof u_pos as U.
  apply Rabs_le. split; nra.
Qed.
Lemma rnd_le_one x y : rnd x = Ok y -> x <= 1 -> y <= 1.
Proof. intros E L. rewrite (rnd_fl _ _ E), <- fl1. apply fl_le, L. Qed.
Lemma share_close phi c : 0 < c -> 0 <= phi <= c -> moderate phi -> moderate c ->
  exists r f, f_np_div phi c = Ok r /\ rnd (1 - r) = Ok f /\ double f /\ ordinary f /\ 0 <= f <= 1 /\
    Rabs (f - (1 - phi / c)) <= 2 * u.
Proof.
  intros Pc Hphi Mp Mc. pose proof (sized_moderate phi ltac:(lra) Mp) as Zp. pose proof (sized_moderate c ltac:(lra) Mc) as Zc.
  destruct (div_step 0 0 40 40 phi phi c c) as (r & Er & Ar); try assumption; try lia; try (apply approx_refl; lra).
  assert (Q : 0 <= phi / c <= 1).
  { split; [apply div_nonneg; lra|]. apply Rmult_le_reg_r with c; [lra|]. unfold Rdiv. rewrite Rmult_assoc, Rinv_l by lra. lra. }
  assert (R1 : rnd (phi / c) = Ok r) by (unfold f_np_div in Er; destruct (Req_EM_T c 0); [lra|exact Er]).
  pose proof (rnd_le_one _ _ R1 (proj2 Q)) as Lr. pose proof (approx_nonneg _ _ _ Ar) as Nr. pose proof (rnd_double _ _ R1) as Dr.
  assert (Z : sized 53 (1 - r)).
  { destruct (Rle_lt_dec (1 / 2) r) as [H|H].
    - destruct (Req_dec r 1) as [->|N]; [left; ring|].
      apply (sized_minus 1 1 r); [apply (double_int 1 eq_refl)|exact Dr|apply sized_1|right; simpl; lra|lia|lra].
    - apply (sized_weaken 1); [lia|]. right. simpl. lra. }
  destruct (rnd_step 0 53 (1 - r) (1 - r)) as (f & Ef & Af); [apply approx_refl; lra|exact Z|lia|lia|].
  pose proof (rnd_le_one _ _ Ef ltac:(lra)) as Lf. pose proof (approx_nonneg _ _ _ Af) as Nf.
  exists r, f. split; [exact Er|]. split; [exact Ef|]. split; [exact (rnd_double _ _ Ef)|].
  split; [apply (sized_weaken 54 100); [lia|]; eapply sized_approx; [exact Af|exact Z|lia]|]. split; [lra|].
  pose proof (near_one _ _ Ar (proj2 Q) Lr) as B1. pose proof (near_one _ _ Af ltac:(lra) Lf) as B2.
  apply Rabs_le_inv in B1. apply Rabs_le_inv in B2. apply Rabs_le. lra.
Qed.

(* ---- three errors in a row ---- *)
Lemma chain_small t x y w v : 0 <= x -> 0 < u -> 1200 * u <= / 100 -> u <= t <= / 16384 ->
  Rabs (y - x) <= 1200 * u * x -> Rabs (w - y) <= 4 * t * y -> Rabs (v - w) <= 128 * t * w -> Rabs (v - x) <= 2048 * (t * x).
Proof.
  intros X U S1 T Y W V. apply Rabs_le_inv in Y. apply Rabs_le_inv in W. apply Rabs_le_inv in V.
  assert (u0 : 0 <= u * x) by (apply Rmult_le_pos; lra).
  assert (uX : u * x <= t * x) by (apply Rmult_le_compat_r; lra).
  assert (h : 1200 * u * x <= / 100 * x) by (apply Rmult_le_compat_r; lra).
  assert (y1 : 0 <= y <= 101 / 100 * x) by lra.
  assert (ty : t * y <= t * (101 / 100 * x)) by (apply Rmult_le_compat_l; lra).
  assert (ty0 : 0 <= t * y) by (apply Rmult_le_pos; lra).
  assert (ty1 : t * y <= / 16384 * y) by (apply Rmult_le_compat_r; lra).
  assert (w1 : 0 <= w <= 103 / 100 * x) by lra.
  assert (tw : t * w <= t * (103 / 100 * x)) by (apply Rmult_le_compat_l; lra).
  assert (tw0 : 0 <= t * w) by (apply Rmult_le_pos; lra).
  apply Rabs_le. lra.
Qed.
Lemma chain c x y w v : 0 <= x -> 1 <= c <= 2 ^ 39 -> within (1200 * u) x y -> Rabs (w - y) <= 4 * (c * u) * y -> Rabs (v - w) <= 128 * (c * u) * w ->
  within (c / 2 ^ 42) x v.
Proof.
  intros X C Y W V. pose proof u_pos as U. unfold within in *. rewrite (Rabs_pos_eq x X) in *.
  assert (E : c / 2 ^ 42 * x = 2048 * (c * u * x)).
  { unfold u. replace (2 ^ 53) with (2048 * 2 ^ 42) by (rewrite !pow_IZR; simpl Z.pow; clear; lra). field. }
  rewrite E. apply chain_small with y w; try assumption.
  - unfold u. rewrite pow_IZR. simpl Z.pow. clear. lra.
  - split.
    + rewrite <- (Rmult_1_l u) at 1. apply Rmult_le_compat_r; [left; exact U|tauto].
    + apply Rle_trans with (2 ^ 39 * u); [apply Rmult_le_compat_r; [left; exact U|tauto]|].
      unfold u. rewrite !pow_IZR. simpl Z.pow. clear. lra.
Qed.

Lemma two_600 : (1 + u) ^ 600 <= 2.
Proof.
  pose proof (factor_bound 600 ltac:(lia)) as F. rewrite (INR_IZR_INZ 600) in F. simpl Z.of_nat in F.
  assert (u <= / 10000). { unfold u. rewrite !pow_IZR. simpl Z.pow. clear. lra. }
  revert F. generalize ((1 + u) ^ 600). intros l F. lra.
Qed.
Lemma approx_double y z : approx 600 y z -> 0 <= z /\ y <= 2 * z /\ z <= 2 * y.
Proof.
  intros A. pose proof (approx_nonneg _ _ _ A) as N. destruct A as (P & Q & R1). pose proof two_600 as T.
  revert Q R1 T. generalize ((1 + u) ^ 600). intros l Q R1 T. split; [exact N|].
  assert (z * l <= z * 2) by (apply Rmult_le_compat_l; assumption). assert (y * l <= y * 2) by (apply Rmult_le_compat_l; assumption). lra.
Qed.
Lemma contrast_approx c x y z : 0 <= c -> 0 <= x -> contrast c x y -> approx 600 y z -> contrast (2 * c) x z.
Proof.
  intros C X (A & B) Ap. apply approx_double in Ap. destruct Ap as (N & Q & R1). split.
  - apply Rle_trans with (c * y); [exact A|]. replace (2 * c * z) with (c * (2 * z)) by ring. apply Rmult_le_compat_l; assumption.
  - lra.
Qed.
Lemma contrast_sized c x y : sized 40 x -> 0 < x -> 1 <= c <= 2 ^ 39 -> contrast c x y -> sized 79 y /\ 0 < y.
Proof.
  intros [->|(L & H)] P C (A & B); [lra|]. assert (Y : 0 < y) by nra. split; [|exact Y]. right.
  change 79%nat with (40 + 39)%nat. rewrite pow_add, Rinv_mult. pose proof (half_pos 39) as H39. pose proof (two_pos 39) as T39. split.
  - apply Rle_trans with (x * / 2 ^ 39); [apply Rmult_le_compat_r; lra|].
    apply Rmult_le_reg_r with (2 ^ 39); [lra|]. rewrite Rmult_assoc, Rinv_l by lra. nra.
  - rewrite Rmult_comm. apply Rle_trans with (c * x); [exact B|]. apply Rmult_le_compat; lra.
Qed.

Lemma f_friable_close root inv pw m phi c p n sr k pack s : good_root root -> good_inverse inv -> good_power pw ->
  double (bulk m) -> double (shear m) -> double (dens m) ->
  0 < bulk m -> grains m c sr n -> 0 < c -> moderate c -> 0 <= phi <= c -> moderate phi -> 0 <= p -> moderate p ->
  hertz_mindlin_pack m c p sr n pack -> lower_mixture (1 - phi / c) m pack s -> 0 < bulk s -> 0 < shear s ->
  1 <= k <= 2 ^ 39 -> contrast k (bulk m) (bulk pack) -> contrast k (shear m) (shear pack) -> contrast k (dens m) (dens pack) ->
  Rmax (shear m) (shear pack) <= 2 ^ 43 * Rmin (bulk m) (bulk pack) ->
  exists r, f_friable_sand root inv pw m phi c p n sr = Ok r /\
    within (k / 2 ^ 42) (bulk s) (bulk r) /\ within (k / 2 ^ 42) (shear s) (shear r) /\ within (k / 2 ^ 42) (dens s) (dens r).
Proof.
  intros Gr Gi Gp Dk Ds Dd Pk G Pc Mc Hphi Mphi Hp Mp P L Sk Ss Hk Ck Cs Cd Rr.
  destruct (f_hm_grains root pw m c p sr n pack Gr Gp G Hp Mp P) as (g & Eg & Ak & As & Ad & _).
  destruct (f_hm_doubles _ _ _ _ _ _ _ _ Eg) as (Gk & Gs & Gd).
  destruct (share_close phi c Pc Hphi Mphi Mc) as (r & f & Er & Ef & Df & Of & Hf & Bf).
  unfold f_friable_sand. rewrite Eg. cbn [bind]. rewrite Er. cbn [bind]. rewrite Ef. cbn [bind].
  destruct G as (_ & Ps & Pd & _ & _ & _ & Mk & Mm & Md & _).
  assert (Zk : sized 40 (bulk m)) by (apply sized_moderate; [lra|assumption]).
  assert (Zs : sized 40 (shear m)) by (apply sized_moderate; [lra|assumption]).
  assert (Zd : sized 40 (dens m)) by (apply sized_moderate; [lra|assumption]).
  destruct (contrast_sized k _ _ Zk Pk Hk Ck) as (Yk & Qk). destruct (contrast_sized k _ _ Zs Ps Hk Cs) as (Ys & Qs).
  destruct (contrast_sized k _ _ Zd Pd Hk Cd) as (Yd & Qd).
  pose proof (approx_pos _ _ _ Ak Qk) as Pgk. pose proof (approx_pos _ _ _ As Qs) as Pgs. pose proof (approx_pos _ _ _ Ad Qd) as Pgd.
  pose proof (contrast_approx k _ _ _ ltac:(lra) (Rlt_le _ _ Pk) Ck Ak) as Ck'.
  pose proof (contrast_approx k _ _ _ ltac:(lra) (Rlt_le _ _ Ps) Cs As) as Cs'.
  pose proof (contrast_approx k _ _ _ ltac:(lra) (Rlt_le _ _ Pd) Cd Ad) as Cd'.
  assert (Ford : forall x y, sized 79 x -> approx 600 x y -> ordinary y).
  { intros x y S1 A. apply (sized_weaken 80 100); [lia|]. eapply sized_approx; [exact A|exact S1|lia]. }
  assert (Om : ordinary_material m).
  { unfold ordinary_material. repeat split; try assumption; (apply (sized_weaken 40 100); [lia|assumption]). }
  assert (Og : ordinary_material g).
  { unfold ordinary_material. repeat split; try assumption; (eapply Ford; [|eassumption]; assumption). }
  assert (Q : 0 <= 1 - phi / c <= 1).
  { assert (0 <= phi / c) by (apply div_nonneg; lra). assert (phi / c <= 1); [|lra].
    apply Rmult_le_reg_r with c; [lra|]. unfold Rdiv. rewrite Rmult_assoc, Rinv_l by lra. lra. }
  set (q := 1 - phi / c) in *.
  pose proof (approx_min 600 (bulk m) _ _ (Rlt_le _ _ Pk) Ak) as Amk. pose proof (approx_min 600 (shear m) _ _ (Rlt_le _ _ Ps) As) as Ams.
  assert (Pmk : 0 < Rmin (bulk m) (bulk pack)) by (apply Rmin_pos; assumption).
  assert (Pms : 0 < Rmin (shear m) (shear pack)) by (apply Rmin_pos; assumption).
  assert (Pmk' : 0 < Rmin (bulk m) (bulk g)) by (apply Rmin_pos; assumption).
  assert (Pms' : 0 < Rmin (shear m) (shear g)) by (apply Rmin_pos; assumption).
  set (z := 4 / 3 * Rmin (shear m) (shear pack)). set (z' := 4 / 3 * Rmin (shear m) (shear g)).
  set (y := zeta (Rmin (bulk m) (bulk pack)) (Rmin (shear m) (shear pack))).
  set (y' := zeta (Rmin (bulk m) (bulk g)) (Rmin (shear m) (shear g))).
  assert (Az : approx 600 z z') by (apply (approx_mult 0 600); [apply approx_refl; lra|exact Ams]).
  assert (Ay : approx 600 y y') by (apply zeta_approx; assumption).
  assert (Pz : 0 < z) by (unfold z; lra). assert (Pz' : 0 < z') by (unfold z'; lra).
  assert (Py : 0 < y) by (apply zeta_pos; lra). assert (Py' : 0 < y') by (apply zeta_pos; lra).
  destruct L as (Lk & Ls & Ld). cbv zeta in Ls. fold z in Lk.
  assert (Eyz : forall a b, 0 < a -> 0 < b -> b / 6 * ((9 * a + 8 * b) / (a + 2 * b)) = zeta a b) by (intros a b Ha Hb; unfold zeta; field; lra).
  rewrite Eyz in Ls by assumption. fold y in Ls.
  apply hs_unique in Lk; [|assumption..]. apply hs_unique in Ls; [|assumption..].
  set (mix := mkMat (hs f (bulk m) (bulk g) z') (hs f (shear m) (shear g) y') (f * dens m + (1 - f) * dens g) 0 0).
  assert (Bk : between (bulk m) (hs f (bulk m) (bulk g) z') (bulk g)) by (apply hs_between; lra).
  assert (Bs : between (shear m) (hs f (shear m) (shear g) y') (shear g)) by (apply hs_between; lra).
  destruct (walpole_close root inv m g f (2 * k) "lower" mix Gr Gi Om Og Df Of (proj2 Hf)) as (res & Eres & Wk & Ws & Wd).
  - split; [lra|]. change (2 ^ 40) with (2 * 2 ^ 39). lra.
  - exact Ck'.
  - exact Cs'.
  - destruct (approx_double _ _ Ak) as (_ & X1 & _). destruct (approx_double _ _ As) as (_ & _ & X2).
    clear - Rr X1 X2 Pk Ps Qk Qs Pgk Pgs.
    change (2 ^ 45) with (2 * (2 * 2 ^ 43)). pose proof (two_pos 43).
    assert (Y1 : Rmax (shear m) (shear g) <= 2 * Rmax (shear m) (shear pack)).
    { apply Rmax_lub; [pose proof (Rmax_l (shear m) (shear pack)); lra|pose proof (Rmax_r (shear m) (shear pack)); lra]. }
    assert (Y2 : Rmin (bulk m) (bulk pack) <= 2 * Rmin (bulk m) (bulk g)).
    { unfold Rmin at 2. destruct (Rle_dec (bulk m) (bulk g)); [pose proof (Rmin_l (bulk m) (bulk pack)); lra|pose proof (Rmin_r (bulk m) (bulk pack)); lra]. }
    apply Rle_trans with (2 * (2 ^ 43 * Rmin (bulk m) (bulk pack))); [lra|].
    replace (2 * (2 * 2 ^ 43) * Rmin (bulk m) (bulk g)) with (2 * (2 ^ 43 * (2 * Rmin (bulk m) (bulk g)))) by ring.
    apply Rmult_le_compat_l; [lra|]. apply Rmult_le_compat_l; lra.
  - left. split; [reflexivity|]. unfold lower_mixture, walpole_mixture, mix. cbv zeta. cbn [bulk shear dens]. fold z'. rewrite Eyz by assumption. fold y'.
    split; [apply hs_equation; assumption|]. split; [apply hs_equation; assumption|reflexivity].
  - unfold mix. cbn [bulk]. unfold between in Bk. lra.
  - unfold mix. cbn [shear]. unfold between in Bs. lra.
  - exists res. split; [exact Eres|]. unfold mix in Wk, Ws, Wd. cbn [bulk shear dens] in Wk, Ws, Wd.
    pose proof u_pos as U.
    assert (E46 : 2 * k / 2 ^ 47 = 128 * (k * u)).
    { unfold u. replace (2 ^ 53) with (64 * 2 ^ 47) by (rewrite !pow_IZR; simpl Z.pow; lra). field. }
    assert (E50 : / 2 ^ 50 <= 128 * (k * u)).
    { unfold u. replace (2 ^ 53) with (8 * 2 ^ 50) by (rewrite !pow_IZR; simpl Z.pow; lra). rewrite Rinv_mult. pose proof (half_pos 50). nra. }
    assert (W600 : forall a b, approx 600 a b -> within (1200 * u) a b).
    { intros a b H. apply (approx_bound 600); [exact H|lia|]. rewrite (INR_IZR_INZ 600). simpl Z.of_nat. lra. }
    rewrite E46 in Wk, Ws.
    assert (Nk : 0 <= hs f (bulk m) (bulk g) z') by (apply hs_nonneg; lra).
    assert (Ns : 0 <= hs f (shear m) (shear g) y') by (apply hs_nonneg; lra).
    unfold within in Wk, Ws, Wd. rewrite (Rabs_pos_eq _ Nk) in Wk. rewrite (Rabs_pos_eq _ Ns) in Ws.
    assert (SH : forall x1 x2 w, 0 < x1 -> 0 < x2 -> 0 < w -> contrast (2 * k) x1 x2 ->
      Rabs (hs f x1 x2 w - hs q x1 x2 w) <= 4 * (k * u) * hs q x1 x2 w).
    { intros x1 x2 w X1 X2 X3 CC. eapply Rle_trans; [apply (hs_share (2 * k)); try assumption; lra|].
      apply Rmult_le_compat_r; [apply hs_nonneg; lra|]. replace (4 * (k * u)) with (2 * k * (2 * u)) by ring. apply Rmult_le_compat_l; [lra|exact Bf]. }
    split; [|split].
    + apply (chain k _ (hs q (bulk m) (bulk g) z') (hs f (bulk m) (bulk g) z')); [lra|exact Hk| |apply SH; assumption|exact Wk].
      apply W600. rewrite Lk. apply hs_approx; try assumption. lra.
    + apply (chain k _ (hs q (shear m) (shear g) y') (hs f (shear m) (shear g) y')); [lra|exact Hk| |apply SH; assumption|exact Ws].
      apply W600. rewrite Ls. apply hs_approx; try assumption. lra.
    + assert (Nd : 0 <= f * dens m + (1 - f) * dens g) by (apply Rplus_le_le_0_compat; apply Rmult_le_pos; lra).
      rewrite (Rabs_pos_eq _ Nd) in Wd.
      apply (chain k _ (q * dens m + (1 - q) * dens g) (f * dens m + (1 - f) * dens g)).
      * rewrite Ld. apply Rplus_le_le_0_compat; apply Rmult_le_pos; lra.
      * exact Hk.
      * apply W600. rewrite Ld. apply approx_plus; [apply approx_refl; apply Rmult_le_pos; lra|].
        apply (approx_mult 0 600); [apply approx_refl; lra|exact Ad].
      * replace (f * dens m + (1 - f) * dens g - (q * dens m + (1 - q) * dens g)) with ((f - q) * (dens m - dens g)) by ring.
        rewrite Rabs_mult. destruct Cd' as (C1 & C2).
        assert (T : Rabs (dens m - dens g) <= 2 * k * (q * dens m + (1 - q) * dens g)).
        { assert (K0 : 0 <= 2 * k) by lra.
          destruct (Rle_lt_dec (dens g) (dens m)) as [O|O].
          - rewrite Rabs_pos_eq by lra. apply Rle_trans with (2 * k * dens g); [lra|]. apply Rmult_le_compat_l; [lra|]. nra.
          - rewrite Rabs_left1 by lra. apply Rle_trans with (2 * k * dens m); [lra|]. apply Rmult_le_compat_l; [lra|]. nra. }
        replace (4 * (k * u) * (q * dens m + (1 - q) * dens g)) with (2 * u * (2 * k * (q * dens m + (1 - q) * dens g))) by ring.
        apply Rmult_le_compat; [apply Rabs_pos|apply Rabs_pos|exact Bf|exact T].
      * eapply Rle_trans; [exact Wd|]. apply Rmult_le_compat_r; [exact Nd|exact E50].
Qed.

Lemma f_friable_published root inv pw m phi c p n sr k pack s : good_root root -> good_inverse inv -> good_power pw ->
  double (bulk m) -> double (shear m) -> double (dens m) ->
  0 < bulk m -> 0 < shear m -> 0 < dens m -> 0 < c < 1 -> 0 <= phi <= c -> 0 <= p -> 0 <= sr -> 0 < n ->
  moderate (bulk m) -> moderate (shear m) -> moderate (dens m) -> moderate phi -> moderate c ->
  moderate (1 - c) -> moderate p -> moderate sr -> moderate n ->
  hertz_mindlin_pack m c p sr n pack -> lower_mixture (1 - phi / c) m pack s -> 0 < bulk s -> 0 < shear s ->
  1 <= k <= 2 ^ 39 -> contrast k (bulk m) (bulk pack) -> contrast k (shear m) (shear pack) -> contrast k (dens m) (dens pack) ->
  Rmax (shear m) (shear pack) <= 2 ^ 43 * Rmin (bulk m) (bulk pack) ->
  exists r, f_friable_sand root inv pw m phi c p n sr = Ok r /\
    within (k / 2 ^ 42) (bulk s) (bulk r) /\ within (k / 2 ^ 42) (shear s) (shear r) /\ within (k / 2 ^ 42) (dens s) (dens r).
Proof.
  intros Gr Gi Gp Dk Ds Dd Pk Ps Pd Hc Hphi Hp Hsr Hn Mk Ms Md Mphi Mc Mc1 Mp Msr Mn P L Sk Ss Hk Ck Cs Cd Rr.
  apply (f_friable_close root inv pw m phi c p n sr k pack s); try assumption; try tauto.
  unfold grains. repeat split; try assumption; lra.
Qed.

(** For the example: cubes. *)
Lemma cube_le x y : 0 <= y -> x ^ 3 <= y ^ 3 -> x <= y.
Proof.
  intros P H. destruct (Rle_lt_dec x y) as [L|L]; [exact L|exfalso].
  assert (y ^ 3 < x ^ 3); [|lra]. simpl. rewrite !Rmult_1_r.
  assert (y * y <= y * x) by (apply Rmult_le_compat_l; lra). assert (y * x <= x * x) by (apply Rmult_le_compat_r; lra).
  assert (0 < x * x) by nra. nra.
Qed.
