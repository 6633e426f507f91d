(** Velocities of materials whose moduli and density are known up to an error. *)
From Coq Require Import Reals Lra Lia List ZArith String Psatz.
From Flocq Require Import Core.
From Verif Require Import Base BaseProofs MaterialModel MaterialProofs MainModel MainProofs Spec PublishedSpec.
From Verif Require Import FloatModel FloatSpec FloatProofs FloatPolyProofs FloatBrineProofs FloatBoundsModel FloatBoundsSpec FloatBoundsProofs FloatPolySpec FloatSandModel FloatSandSpec FloatSandProofs HashinShtrikmanProofs FloatFriableProofs.
Open Scope R_scope.

Lemma within_range e x y : 0 <= x -> within e x y -> (1 - e) * x <= y <= (1 + e) * x.
Proof. intros P W. unfold within in W. rewrite (Rabs_pos_eq x P) in W. apply Rabs_le_inv in W. lra. Qed.
Lemma sqrt_near e x y : 0 <= e <= 1 / 8 -> 0 <= x -> (1 - e) * x <= (1 + e) * y -> (1 - e) * y <= (1 + e) * x -> 0 <= y ->
  (1 - 2 * e) * sqrt x <= sqrt y <= (1 + 2 * e) * sqrt x.
Proof.
  intros E X A B Y.
  assert (S1 : (1 - 2 * e) * sqrt x = sqrt ((1 - 2 * e) * (1 - 2 * e) * x)) by (rewrite sqrt_mult by nra; rewrite sqrt_square by lra; reflexivity).
  assert (S2 : (1 + 2 * e) * sqrt x = sqrt ((1 + 2 * e) * (1 + 2 * e) * x)) by (rewrite sqrt_mult by nra; rewrite sqrt_square by lra; reflexivity).
  rewrite S1, S2. split; apply sqrt_le_1_alt.
  - apply Rmult_le_reg_l with (1 + e); [lra|]. apply Rle_trans with ((1 - e) * x); [|exact A].
    replace ((1 + e) * ((1 - 2 * e) * (1 - 2 * e) * x)) with ((1 + e) * ((1 - 2 * e) * (1 - 2 * e)) * x) by ring. apply Rmult_le_compat_r; [exact X|]. nra.
  - apply Rmult_le_reg_l with (1 - e); [lra|]. apply Rle_trans with ((1 + e) * x); [exact B|].
    replace ((1 - e) * ((1 + 2 * e) * (1 + 2 * e) * x)) with ((1 - e) * ((1 + 2 * e) * (1 + 2 * e)) * x) by ring. apply Rmult_le_compat_r; [exact X|]. nra.
Qed.
Lemma ratio_near e n n' d d' : 0 <= e <= 1 / 8 -> 0 <= n -> 0 < d -> within e n n' -> within e d d' -> 0 < d' /\ 0 <= n' / d' /\
  (1 - e) * (n / d) <= (1 + e) * (n' / d') /\ (1 - e) * (n' / d') <= (1 + e) * (n / d).
Proof.
  intros E N D Wn Wd. apply within_range in Wn; [|exact N]. apply within_range in Wd; [|lra].
  assert (D' : 0 < d') by nra. assert (N' : 0 <= n') by nra. split; [exact D'|]. split; [apply div_nonneg; lra|].
  split; apply Rmult_le_reg_r with (d * d'); try (apply Rmult_lt_0_compat; assumption).
  - replace ((1 - e) * (n / d) * (d * d')) with ((1 - e) * n * d') by (field; lra).
    replace ((1 + e) * (n' / d') * (d * d')) with (n' * ((1 + e) * d)) by (field; lra).
    apply Rmult_le_compat; try tauto; [apply Rmult_le_pos; lra|lra].
  - replace ((1 - e) * (n' / d') * (d * d')) with (n' * ((1 - e) * d)) by (field; lra).
    replace ((1 + e) * (n / d) * (d * d')) with ((1 + e) * n * d') by (field; lra).
    apply Rmult_le_compat; try tauto. apply Rmult_le_pos; lra.
Qed.
Lemma velocity_near e n n' d d' v : 64 * u <= e <= 1 / 8 -> 0 <= n -> 0 < d -> within e n n' -> within e d d' ->
  approx 5 (sqrt (n' / d')) v -> within (4 * e) (sqrt (n / d)) v.
Proof.
  intros E N D Wn Wd A. pose proof u_pos as U. destruct (ratio_near e n n' d d' ltac:(lra) N D Wn Wd) as (D' & R0 & R1 & R2).
  destruct (sqrt_near e (n / d) (n' / d') ltac:(lra) ltac:(apply div_nonneg; lra) R1 R2 R0) as (S1 & S2).
  pose proof (approx_bound 5 (10 * u) _ _ A ltac:(lia) ltac:(simpl; lra)) as W. apply within_range in W; [|apply sqrt_pos].
  unfold within. pose proof (sqrt_pos (n / d)) as P. rewrite (Rabs_pos_eq _ P). set (s := sqrt (n / d)) in *. set (s' := sqrt (n' / d')) in *.
  assert (T : u * s' <= u * (2 * s)). { apply Rmult_le_compat_l; [lra|]. assert ((1 + 2 * e) * s <= 2 * s) by (apply Rmult_le_compat_r; lra). lra. }
  assert (Q : 64 * u * s <= e * s) by (apply Rmult_le_compat_r; lra).
  assert (0 <= u * s) by (apply Rmult_le_pos; lra).
  apply Rabs_le. lra.
Qed.

Lemma made_velocities root e k mu d g : good_root root -> f_mat_of_moduli root (bulk g) (shear g) (dens g) = Ok g ->
  64 * u <= e <= 1 / 8 -> 0 <= k -> 0 <= mu -> 0 < d -> within e k (bulk g) -> within e mu (shear g) -> within e d (dens g) ->
  sized 469 k -> sized 469 mu -> sized 469 d ->
  within (4 * e) (sqrt ((k + 4 / 3 * mu) / d)) (vp g) /\ within (4 * e) (sqrt (mu / d)) (vs g).
Proof.
  intros G E He Pk Pm Pd Wk Wm Wd Zk Zm Zd. pose proof u_pos as U. pose proof (within_range _ _ _ Pk Wk) as Bk. pose proof (within_range _ _ _ Pm Wm) as Bm.
  pose proof (within_range _ _ _ (Rlt_le _ _ Pd) Wd) as Bd.
  assert (Hs : forall x y, 0 <= x -> (1 - e) * x <= y <= (1 + e) * x -> sized 469 x -> sized 470 y).
  { intros x y X B [->|(L & H)]; [left; lra|right]. change 470%nat with (1 + 469)%nat. rewrite pow_add, Rinv_mult. rewrite pow_1.
    assert (/ 2 * x <= (1 - e) * x) by (apply Rmult_le_compat_r; lra). assert ((1 + e) * x <= 2 * x) by (apply Rmult_le_compat_r; lra). lra. }
  assert (Pk' : 0 <= bulk g) by (apply Rle_trans with ((1 - e) * k); [apply Rmult_le_pos; lra|tauto]).
  assert (Pm' : 0 <= shear g) by (apply Rle_trans with ((1 - e) * mu); [apply Rmult_le_pos; lra|tauto]).
  assert (Pd' : 0 < dens g) by (apply Rlt_le_trans with ((1 - e) * d); [apply Rmult_lt_0_compat; lra|tauto]).
  assert (L0 : (Z.of_nat 0 <= 2 ^ 40)%Z) by lia.
  destruct (f_primary_close root G 0 (bulk g) (bulk g) (shear g) (shear g) (dens g) (dens g) L0 (approx_refl 0 _ Pk') (approx_refl 0 _ Pm')
    (approx_refl 0 _ (Rlt_le _ _ Pd')) (Hs _ _ Pk Bk Zk) (Hs _ _ Pm Bm Zm) (Hs _ _ (Rlt_le _ _ Pd) Bd Zd) Pd') as (p & Ep & Ap).
  destruct (f_secondary_close root G 0 (shear g) (shear g) (dens g) (dens g) L0 (approx_refl 0 _ Pm')
    (approx_refl 0 _ (Rlt_le _ _ Pd')) (Hs _ _ Pm Bm Zm) (Hs _ _ (Rlt_le _ _ Pd) Bd Zd) Pd') as (s & Es & As).
  unfold f_mat_of_moduli in E. rewrite Ep in E. cbn [bind] in E. rewrite Es in E. cbn [bind] in E.
  assert (V : vp g = p /\ vs g = s).
  { unfold f_guards in E. repeat match type of E with
    | bind ?e _ = _ => destruct e; cbn [bind] in E; [|discriminate E]
    | (if ?b then _ else _) = _ => destruct b; [discriminate E|]
    end. apply (f_equal (fun r => match r with Ok m => (vp m, vs m) | Err _ => (0, 0) end)) in E. cbn [vp vs] in E.
    split; congruence. }
  destruct V as (-> & ->). split.
  - apply (velocity_near e _ (bulk g + 4 / 3 * shear g) _ (dens g)); [exact He|lra|exact Pd| |exact Wd|exact Ap].
    unfold within. rewrite (Rabs_pos_eq (k + 4 / 3 * mu)) by lra. apply Rabs_le. lra.
  - apply (velocity_near e _ (shear g) _ (dens g)); [exact He|lra|exact Pd|exact Wm|exact Wd|]. eapply approx_weaken; [|exact As]. lia.
Qed.

Lemma walpole_made root inv m1 m2 f bound g : f_walpole root inv m1 m2 f bound = Ok g ->
  f_mat_of_moduli root (bulk g) (shear g) (dens g) = Ok g.
Proof.
  unfold f_walpole, f_new_material. cbv zeta. intros E.
  repeat match type of E with
  | bind ?e _ = _ => destruct e; cbn [bind] in E; [|discriminate E]
  | (if ?b then Err _ else _) = _ => destruct b; [discriminate E|]
  end.
  pose proof (moduli_fields _ _ _ _ _ E) as (-> & -> & ->). exact E.
Qed.
Lemma sized_between a x1 x2 x : sized a x1 -> sized a x2 -> 0 < x1 -> 0 < x2 -> between x1 x x2 -> sized a x /\ 0 < x.
Proof.
  intros [->|(A1 & B1)] [->|(A2 & B2)] P1 P2 (L & H); try lra. unfold Rmin, Rmax in *. destruct (Rle_dec x1 x2); (split; [right|]; lra).
Qed.
Lemma mix_between f x1 x2 : 0 <= f <= 1 -> between x1 (f * x1 + (1 - f) * x2) x2.
Proof. intros F. unfold between, Rmin, Rmax. destruct (Rle_dec x1 x2); split; nra. Qed.

(** Sizes of a mixture after the published equations. *)
Lemma mixture_sizes a km mum f m1 m2 s : walpole_mixture km mum f m1 m2 s -> 0 <= f <= 1 -> 0 < km -> 0 < mum ->
  sized a (bulk m1) -> sized a (bulk m2) -> sized a (shear m1) -> sized a (shear m2) -> sized a (dens m1) -> sized a (dens m2) ->
  0 < bulk m1 -> 0 < bulk m2 -> 0 < shear m1 -> 0 < shear m2 -> 0 < dens m1 -> 0 < dens m2 -> 0 < bulk s -> 0 < shear s ->
  sized a (bulk s) /\ sized a (shear s) /\ sized a (dens s) /\ 0 < dens s.
Proof.
  intros (Hk & Hs & Hd) F K M Zk1 Zk2 Zs1 Zs2 Zd1 Zd2 Pk1 Pk2 Ps1 Ps2 Pd1 Pd2 Sk Ss. cbv zeta in Hs.
  replace (mum / 6 * ((9 * km + 8 * mum) / (km + 2 * mum))) with (zeta km mum) in Hs by (unfold zeta; field; lra).
  pose proof (zeta_pos km mum ltac:(lra) M) as Z.
  apply hs_unique in Hk; [|try assumption; lra..]. apply hs_unique in Hs; [|try assumption; lra..].
  assert (Bk : between (bulk m1) (bulk s) (bulk m2)) by (rewrite Hk; apply hs_between; lra).
  assert (Bs : between (shear m1) (shear s) (shear m2)) by (rewrite Hs; apply hs_between; lra).
  assert (Bd : between (dens m1) (dens s) (dens m2)) by (rewrite Hd; apply mix_between; exact F).
  destruct (sized_between a _ _ _ Zd1 Zd2 Pd1 Pd2 Bd) as (Zd & Pd).
  split; [apply (sized_between a _ _ _ Zk1 Zk2 Pk1 Pk2 Bk)|]. split; [apply (sized_between a _ _ _ Zs1 Zs2 Ps1 Ps2 Bs)|]. split; assumption.
Qed.

Lemma scale_error j c : 1 <= c -> (j <= 47)%nat -> c / 2 ^ j <= 1 / 8 -> 64 * u <= c / 2 ^ j <= 1 / 8.
Proof.
  intros C J H. split; [|exact H]. apply Rle_trans with (/ 2 ^ 47).
  - unfold u. rewrite !pow_IZR. simpl Z.pow. clear. lra.
  - apply Rle_trans with (/ 2 ^ j); [apply half_le; exact J|]. pose proof (half_pos j). unfold Rdiv.
    rewrite <- (Rmult_1_l (/ 2 ^ j)) at 1. apply Rmult_le_compat_r; lra.
Qed.
Lemma within_grow e e' x y : e <= e' -> within e x y -> within e' x y.
Proof. intros L W. unfold within in *. eapply Rle_trans; [exact W|]. apply Rmult_le_compat_r; [apply Rabs_pos|exact L]. Qed.

Lemma walpole_velocities root inv m1 m2 f c bound mix : good_root root -> good_inverse inv ->
  ordinary_material m1 -> ordinary_material m2 -> double f -> ordinary f -> f <= 1 ->
  1 <= c <= 2 ^ 40 -> contrast c (bulk m1) (bulk m2) -> contrast c (shear m1) (shear m2) ->
  Rmax (shear m1) (shear m2) <= 2 ^ 45 * Rmin (bulk m1) (bulk m2) ->
  (bound = "lower"%string /\ lower_mixture f m1 m2 mix) \/ (bound = "upper"%string /\ upper_mixture f m1 m2 mix) ->
  0 < bulk mix -> 0 < shear mix ->
  exists m, f_walpole root inv m1 m2 f bound = Ok m /\
    within (c / 2 ^ 45) (sqrt ((bulk mix + 4 / 3 * shear mix) / dens mix)) (vp m) /\
    within (c / 2 ^ 45) (sqrt (shear mix / dens mix)) (vs m).
Proof.
  intros Gr Gi O1 O2 Df Of Lf Hc Ck Cs Rr H Pk Ps.
  destruct (walpole_close root inv m1 m2 f c bound mix Gr Gi O1 O2 Df Of Lf Hc Ck Cs Rr H Pk Ps) as (m & E & Wk & Ws & Wd).
  exists m. split; [exact E|]. pose proof (sized_nonneg _ _ Of) as F0.
  destruct O1 as (_ & _ & _ & Zk1 & Zs1 & Zd1 & Pk1 & Ps1 & Pd1). destruct O2 as (_ & _ & _ & Zk2 & Zs2 & Zd2 & Pk2 & Ps2 & Pd2).
  assert (Z : sized 100 (bulk mix) /\ sized 100 (shear mix) /\ sized 100 (dens mix) /\ 0 < dens mix).
  { destruct H as [(_ & L)|(_ & L)]; (eapply mixture_sizes; [exact L|lra|..]; try assumption); [apply Rmin_pos; assumption|apply Rmin_pos; assumption| |];
    eapply Rlt_le_trans; [exact Pk1|apply Rmax_l|exact Ps1|apply Rmax_l]. }
  destruct Z as (Zk & Zs & Zd & Pd).
  assert (He : c / 2 ^ 47 <= 1 / 8).
  { apply Rle_trans with (2 ^ 40 / 2 ^ 47); [apply Rmult_le_compat_r; [left; apply half_pos|tauto]|]. rewrite !pow_IZR. simpl Z.pow. clear. lra. }
  pose proof (scale_error 47 c (proj1 Hc) (le_n _) He) as He'.
  assert (Ed : / 2 ^ 50 <= c / 2 ^ 47).
  { apply Rle_trans with (64 * u); [|tauto]. unfold u. rewrite !pow_IZR. simpl Z.pow. clear. lra. }
  replace (c / 2 ^ 45) with (4 * (c / 2 ^ 47)) by (replace (2 ^ 47) with (4 * 2 ^ 45) by (rewrite !pow_IZR; simpl Z.pow; clear; lra); field; apply Rgt_not_eq, two_pos).
  apply (made_velocities root (c / 2 ^ 47) (bulk mix) (shear mix) (dens mix) m Gr (walpole_made _ _ _ _ _ _ _ E) He'); try (left; assumption); try assumption;
    try (eapply within_grow; eassumption); (apply (sized_weaken 100); [lia|assumption]).
Qed.

Lemma f_friable_full root inv pw m phi c p n sr k pack s : good_root root -> good_inverse inv -> good_power pw ->
  double (bulk m) -> double (shear m) -> double (dens m) ->
  0 < bulk m -> 0 < shear m -> 0 < dens m -> 0 < c < 1 -> 0 <= phi <= c -> 0 <= p -> 0 <= sr -> 0 < n ->
  moderate (bulk m) -> moderate (shear m) -> moderate (dens m) -> moderate phi -> moderate c ->
  moderate (1 - c) -> moderate p -> moderate sr -> moderate n ->
  hertz_mindlin_pack m c p sr n pack -> lower_mixture (1 - phi / c) m pack s -> 0 < bulk s -> 0 < shear s ->
  1 <= k <= 2 ^ 39 -> contrast k (bulk m) (bulk pack) -> contrast k (shear m) (shear pack) -> contrast k (dens m) (dens pack) ->
  Rmax (shear m) (shear pack) <= 2 ^ 43 * Rmin (bulk m) (bulk pack) ->
  exists r, f_friable_sand root inv pw m phi c p n sr = Ok r /\
    within (k / 2 ^ 42) (bulk s) (bulk r) /\ within (k / 2 ^ 42) (shear s) (shear r) /\ within (k / 2 ^ 42) (dens s) (dens r) /\
    within (k / 2 ^ 40) (sqrt ((bulk s + 4 / 3 * shear s) / dens s)) (vp r) /\
    within (k / 2 ^ 40) (sqrt (shear s / dens s)) (vs r).
Proof.
  intros Gr Gi Gp Dk Ds Dd Pk Ps Pd Hc Hphi Hp Hsr Hn Mk Ms Md Mphi Mc Mc1 Mp Msr Mn P L Sk Ss Hk Ck Cs Cd Rr.
  destruct (f_friable_published root inv pw m phi c p n sr k pack s Gr Gi Gp Dk Ds Dd Pk Ps Pd Hc Hphi Hp Hsr Hn Mk Ms Md Mphi Mc Mc1 Mp Msr Mn P L Sk Ss Hk Ck Cs Cd Rr)
    as (r & E & Wk & Ws & Wd).
  exists r. split; [exact E|]. split; [exact Wk|]. split; [exact Ws|]. split; [exact Wd|].
  assert (M : f_mat_of_moduli root (bulk r) (shear r) (dens r) = Ok r).
  { unfold f_friable_sand in E. repeat match type of E with bind ?e _ = _ => destruct e; cbn [bind] in E; [|discriminate E] end.
    eapply walpole_made. exact E. }
  assert (Zk : sized 40 (bulk m)) by (apply sized_moderate; [lra|assumption]).
  assert (Zs : sized 40 (shear m)) by (apply sized_moderate; [lra|assumption]).
  assert (Zd : sized 40 (dens m)) by (apply sized_moderate; [lra|assumption]).
  destruct (contrast_sized k _ _ Zk Pk Hk Ck) as (Yk & Qk). destruct (contrast_sized k _ _ Zs Ps Hk Cs) as (Ys & Qs).
  destruct (contrast_sized k _ _ Zd Pd Hk Cd) as (Yd & Qd).
  assert (Q : 0 <= 1 - phi / c <= 1).
  { assert (0 <= phi / c) by (apply div_nonneg; lra). assert (phi / c <= 1); [|lra].
    apply Rmult_le_reg_r with c; [lra|]. unfold Rdiv. rewrite Rmult_assoc, Rinv_l by lra. lra. }
  assert (Up : forall x, sized 40 x -> sized 79 x) by (intros x; apply sized_weaken; lia).
  destruct (mixture_sizes 79 _ _ _ _ _ _ L Q (Rmin_pos _ _ Pk Qk) (Rmin_pos _ _ Ps Qs) (Up _ Zk) Yk (Up _ Zs) Ys (Up _ Zd) Yd Pk Qk Ps Qs Pd Qd Sk Ss)
    as (Ak & As & Ad & Pds).
  assert (He : k / 2 ^ 42 <= 1 / 8).
  { apply Rle_trans with (2 ^ 39 / 2 ^ 42); [apply Rmult_le_compat_r; [left; apply half_pos|tauto]|]. rewrite !pow_IZR. simpl Z.pow. clear. lra. }
  pose proof (scale_error 42 k (proj1 Hk) ltac:(lia) He) as He'.
  replace (k / 2 ^ 40) with (4 * (k / 2 ^ 42)) by (replace (2 ^ 42) with (4 * 2 ^ 40) by (rewrite !pow_IZR; simpl Z.pow; clear; lra); field; apply Rgt_not_eq, two_pos).
  apply (made_velocities root (k / 2 ^ 42) (bulk s) (shear s) (dens s) r Gr M He'); try (left; assumption); try assumption;
    (apply (sized_weaken 79); [lia|assumption]).
Qed.
