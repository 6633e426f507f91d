From Coq Require Import Reals Lra String.
From Verif Require Import Base BaseProofs MaterialModel Spec MaterialProofs HashinShtrikmanModel HashinShtrikmanProofs
  SandstoneModel SandstoneProofs PublishedSpec.
Open Scope R_scope.

Lemma hs_harmonic f x1 x2 z : 0 <= f <= 1 -> 0 <= x1 -> 0 <= x2 -> 0 < z ->
  1 / (hs f x1 x2 z + z) = f / (x1 + z) + (1 - f) / (x2 + z).
Proof.
  intros Hf H1 H2 Hz. pose proof (hs_den_pos f x1 x2 z Hf H1 H2 Hz) as D. unfold hs.
  assert (N : (x1 * x2 + z * (f * x1 + (1 - f) * x2)) / (f * x2 + (1 - f) * x1 + z) + z =
    (x1 + z) * (x2 + z) / (f * x2 + (1 - f) * x1 + z)) by (field; lra).
  rewrite N. field. split; lra.
Qed.
Lemma zeta_form km mum : 0 <= km -> 0 < mum -> mum / 6 * ((9 * km + 8 * mum) / (km + 2 * mum)) = zeta km mum.
Proof. intros. unfold zeta. field. lra. Qed.

Lemma walpole_mixture_value u m1 m2 f m : mixable u m1 m2 -> 0 <= f <= 1 ->
  hashin_shtrikman_walpole m1 m2 f (bound_name u) = Ok m ->
  walpole_mixture (pick u (bulk m1) (bulk m2)) (pick u (shear m1) (shear m2)) f m1 m2 m.
Proof.
  intros M Hf E. destruct (walpole_value u m1 m2 f M Hf) as [w [Ew [_ [K [S D]]]]].
  assert (w = m) by congruence. subst w. pose proof (pick_pos u m1 m2 M) as P.
  destruct M as [[_ [K1 [S1 _]]] [[_ [K2 [S2 _]]] _]]. pose proof (pick_nonneg u _ _ K1 K2) as Pk.
  split; [|split].
  - rewrite K. apply hs_harmonic; try assumption. lra.
  - cbv zeta. rewrite zeta_form by assumption. rewrite S. apply hs_harmonic; try assumption. apply zeta_pos; assumption.
  - rewrite D. reflexivity.
Qed.
Lemma walpole_lower m1 m2 f : mixable false m1 m2 -> 0 <= f <= 1 ->
  exists m, hashin_shtrikman_walpole m1 m2 f "lower" = Ok m /\ lower_mixture f m1 m2 m.
Proof.
  intros M Hf. destruct (walpole_value false m1 m2 f M Hf) as [w [Ew _]]. exists w. split; [exact Ew|].
  exact (walpole_mixture_value false m1 m2 f w M Hf Ew).
Qed.
Lemma walpole_upper m1 m2 f : mixable true m1 m2 -> 0 <= f <= 1 ->
  exists m, hashin_shtrikman_walpole m1 m2 f "upper" = Ok m /\ upper_mixture f m1 m2 m.
Proof.
  intros M Hf. destruct (walpole_value true m1 m2 f M Hf) as [w [Ew _]]. exists w. split; [exact Ew|].
  exact (walpole_mixture_value true m1 m2 f w M Hf Ew).
Qed.

Lemma bound_mixture m1 m2 f : solid m1 -> wf m2 -> 0 <= f <= 1 ->
  exists m, hashin_shtrikman_bound m1 m2 f = Ok m /\ walpole_mixture (bulk m1) (shear m1) f m1 m2 m.
Proof.
  intros S1 W2 Hf. destruct (hs_bound_value m1 m2 f S1 W2 Hf) as [m [E [_ [K [S D]]]]].
  exists m. split; [exact E|]. destruct S1 as [[_ [K1 _]] P1]. destruct W2 as [_ [K2 [S2 _]]].
  split; [|split].
  - rewrite K. apply hs_harmonic; lra.
  - cbv zeta. rewrite zeta_form by assumption. rewrite S. apply hs_harmonic; try lra. apply zeta_pos; assumption.
  - rewrite D. reflexivity.
Qed.

(** Hertz-Mindlin. *)
Lemma hm_published m phi p sr n : grain_pack m phi sr n -> 0 <= p ->
  exists g, hertz_mindlin m phi p sr n = Ok g /\ hertz_mindlin_pack m phi p sr n g.
Proof.
  intros G Hp. destruct (hm_value m phi p sr n G Hp) as [g [E [_ [K [M D]]]]]. exists g. split; [exact E|].
  pose proof (hm_den m phi sr n G) as Hden. pose proof (hm_shear_bulk m phi sr n p G) as SB.
  pose proof G as [S [P [_ N]]]. pose proof (hm_num m p S Hp) as Hnum.
  destruct (nu_ok m S) as [_ V]. pose proof PI_RGT_0 as HP. pose proof S as [_ Hmu].
  assert (A3 : hm_a m phi n p ^ 3 = 3 * PI * (1 - nu m) * p / (2 * n * (1 - phi) * shear m)).
  { unfold hm_a. apply cbrt_cube. apply div_nonneg; assumption. }
  assert (K3 : bulk g ^ 3 = n ^ 2 * (1 - phi) ^ 2 * shear m ^ 2 * p / (18 * PI ^ 2 * (1 - nu m) ^ 2)).
  { rewrite K. rewrite (hm_bulk_coef m phi sr n p G). rewrite Rpow_mult_distr, A3. field. repeat split; lra. }
  split; [exact K3|]. split.
  - change (poisson m) with (nu m).
    assert (T : 5 * (2 - nu m) * shear g = 3 * (2 - nu m + 3 * sr * (1 - nu m)) * bulk g).
    { rewrite M, K, SB. field. lra. }
    rewrite T. rewrite Rpow_mult_distr, K3. field. split; lra.
  - rewrite D. ring.
Qed.

(** Contact cement. *)
Lemma normal_published cement grain a s :
  normal_stiffness (nu grain) (nu cement) (shear cement) (shear grain) a = Ok s ->
  0 < 2 * shear cement / (PI * shear grain) * ((1 - nu grain) * (1 - nu cement) / (1 - 2 * nu cement)) ->
  PI * shear grain <> 0 -> 1 - 2 * nu cement <> 0 -> s = dvorkin_nur_normal cement grain a.
Proof.
  unfold normal_stiffness. intros E Hx H1 H2. rewrite !np_div_ok in E by assumption. cbn [bind] in E.
  rewrite !np_pow_pos in E by exact Hx. cbn [bind] in E. injection E as <-.
  unfold dvorkin_nur_normal. change poisson with nu. cbv zeta.
  replace (13646 / 10 ^ 4) with (13646 / 10000) by (simpl; lra).
  replace (89008 / 10 ^ 5) with (89008 / 100000) by (simpl; lra).
  replace (19864 / 10 ^ 4) with (19864 / 10000) by (simpl; lra).
  replace (24153 / 10 ^ 6) with (24153 / 1000000) by (simpl; lra).
  replace (20405 / 10 ^ 5) with (20405 / 100000) by (simpl; lra).
  replace (24649 / 10 ^ 8) with (24649 / 100000000) by (simpl; lra). ring.
Qed.
Lemma shear_published cement grain a s :
  shear_stiffness (shear cement) (shear grain) (nu grain) a = Ok s ->
  0 < shear cement / (PI * shear grain) -> PI * shear grain <> 0 -> s = dvorkin_nur_shear cement grain a.
Proof.
  unfold shear_stiffness. intros E Hx H1. rewrite np_div_ok in E by assumption. cbn [bind] in E.
  rewrite !np_pow_pos in E by exact Hx. cbn [bind] in E. injection E as <-.
  unfold dvorkin_nur_shear. change poisson with nu. cbv zeta. set (v := nu grain).
  replace ((790 * v ^ 2 + 1754 * v - 13420) / 10 ^ 4) with (79 / 1000 * v ^ 2 + 1754 / 10000 * v - 1342 / 1000) by (simpl; lra).
  replace ((274 * v ^ 2 + 529 * v - 8765) / 10 ^ 4) with (274 / 10000 * v ^ 2 + 529 / 10000 * v - 8765 / 10000) by (simpl; lra).
  replace ((1867 * v ^ 2 + 40110 * v - 181860) / 10 ^ 5) with (1867 / 100000 * v ^ 2 + 4011 / 10000 * v - 18186 / 10000) by (simpl; lra).
  replace (- (226 * v ^ 2 + 207 * v + 230) / 10 ^ 4) with (- (1 / 100) * (226 / 100 * v ^ 2 + 207 / 100 * v + 23 / 10)) by (simpl; lra).
  replace ((573 * v ^ 2 + 937 * v + 2020) / 10 ^ 4) with (573 / 10000 * v ^ 2 + 937 / 10000 * v + 202 / 1000) by (simpl; lra).
  replace ((9654 * v ^ 2 + 4945 * v + 3100) / 10 ^ 7) with (1 / 10000 * (9654 / 1000 * v ^ 2 + 4945 / 1000 * v + 31 / 10)) by (simpl; lra).
  reflexivity.
Qed.

Lemma layer_published c g a : 0 <= c <= g -> g < 1 -> cement_radius_ratio c g = Ok a -> cement_layer c g a.
Proof.
  intros Hc Hg E. rewrite radius_value in E by assumption. injection E as <-. unfold cement_layer. cbv zeta.
  set (q := 2 * (g - c) / (3 * (1 - g))). assert (Hq : 0 <= q) by (apply div_nonneg; lra).
  pose proof (sqrt_pos q) as Hs. split; [apply Rmin_glb; lra|]. split; intros H.
  - rewrite Rmin_left.
    + simpl. rewrite Rmult_1_r. apply sqrt_sqrt. exact Hq.
    + rewrite <- sqrt_1. apply sqrt_le_1_alt. exact H.
  - apply Rmin_right. rewrite <- sqrt_1. apply sqrt_le_1_alt. exact H.
Qed.

Lemma cemented_published cement sand c g sr n : cementable cement sand c g -> 0 <= sr -> 0 < n ->
  exists cc, contact_cement cement sand c g sr n = Ok cc /\ cemented_sand cement sand c g sr n cc.
Proof.
  intros C Hs Hn. destruct (cc_value cement sand c g sr n C Hs Hn) as [a [cc [Ea [Ha [Ec [_ [_ [_ D]]]]]]]].
  pose proof C as [Sc [Ss [Hmu [Hcg Hg]]]]. exists cc. split; [exact Ec|]. exists a.
  split; [exact (layer_published c g a Hcg Hg Ea)|]. split; [|exact D].
  destruct (nu_ok cement Sc) as [Enc Vc]. destruct (nu_ok sand Ss) as [Ens Vs].
  unfold contact_cement in Ec. destruct (check_porosities g c); [|discriminate]. cbn [bind] in Ec.
  rewrite Ea in Ec. cbn [bind] in Ec. rewrite Ens in Ec. cbn [bind] in Ec.
  destruct (shear_stiffness (shear cement) (shear sand) (nu sand) a) as [st|] eqn:Est; [|discriminate]. cbn [bind] in Ec.
  rewrite Enc in Ec. cbn [bind] in Ec.
  destruct (normal_stiffness (nu sand) (nu cement) (shear cement) (shear sand) a) as [sn|] eqn:Esn; [|discriminate]. cbn [bind] in Ec.
  pose proof PI_RGT_0 as HP. pose proof Sc as [_ Hc0]. pose proof Ss as [_ Hs0].
  assert (Hpg : 0 < PI * shear sand) by (apply Rmult_lt_0_compat; assumption).
  apply normal_published in Esn; [|apply Rmult_lt_0_compat; apply Rdiv_lt_0_compat; try lra; apply Rmult_lt_0_compat; lra|lra|lra].
  apply shear_published in Est; [|apply Rdiv_lt_0_compat; lra|lra].
  destruct (mat_of_moduli_wf _ _ _ _ Ec) as [_ [K [M _]]]. unfold contact_cement_pack. rewrite K, M, Esn, Est.
  unfold primary_wave_modulus. split; field.
Qed.

(** Friable sand. *)
Lemma friable_published m phi c p n sr : grain_pack m c sr n -> 0 < c -> 0 <= phi <= c -> 0 < p ->
  exists s, friable_sand m phi c p n sr = Ok s /\ friable_mixture m phi c p n sr s.
Proof.
  intros G Hc Hphi Hp. destruct (friable_value m phi c p n sr G Hc Hphi Hp) as [g [s [Eg [Sg [_ [_ [Es _]]]]]]].
  destruct (friable_walpole m phi c p n sr G Hc ltac:(lra)) as [g' [Eg' [_ [_ [_ [_ F]]]]]].
  assert (g' = g) by congruence. subst g'. pose proof G as [S _].
  destruct (hm_published m c p sr n G ltac:(lra)) as [g' [Eg2 P]]. assert (g' = g) by congruence. subst g'.
  exists s. split; [exact Es|]. exists g. split; [exact P|].
  exact (walpole_mixture_value false m g (1 - phi / c) s (solid_mixable false m g S Sg) (div_ratio phi c Hc Hphi)
    ltac:(cbn [bound_name]; congruence)).
Qed.

(** When the pack is softer than the mineral, its own moduli are the comparison. *)
Lemma friable_classical m phi c p n sr g s : grain_pack m c sr n -> 0 < c -> 0 <= phi <= c -> 0 < p ->
  hertz_mindlin m c p sr n = Ok g -> bulk g <= bulk m -> shear g <= shear m -> friable_sand m phi c p n sr = Ok s ->
  walpole_mixture (bulk g) (shear g) (1 - phi / c) m g s.
Proof.
  intros G Hc Hphi Hp E Hk Hm Es. destruct (friable_value m phi c p n sr G Hc Hphi Hp) as [g' [s' [Eg [Sg _]]]].
  assert (g' = g) by congruence. subst g'.
  destruct (friable_walpole m phi c p n sr G Hc ltac:(lra)) as [g' [Eg' [_ [_ [_ [_ F]]]]]].
  assert (g' = g) by congruence. subst g'. pose proof G as [S _].
  pose proof (walpole_mixture_value false m g (1 - phi / c) s (solid_mixable false m g S Sg) (div_ratio phi c Hc Hphi)
    ltac:(cbn [bound_name]; congruence)) as W.
  unfold pick in W. rewrite !Rmin_right in W by assumption. exact W.
Qed.

(** Constant cement. *)
Lemma constant_published sand cement phi c g n sr :
  cementable cement sand c g -> 0 < c -> 0 <= phi <= c -> 0 <= sr -> 0 < n ->
  exists r, constant_cement sand cement phi c g n sr = Ok r /\ constant_mixture sand cement phi c g n sr r.
Proof.
  intros C Hc Hphi Hs Hn. pose proof C as [Sc [Ss [_ [Hcg Hg]]]].
  destruct (constant_value sand cement phi c g n sr C Hc Hphi Hs Hn) as [d [cc [r [Ed [Sd [Ec [Scc [Er [_ [Ew _]]]]]]]]]].
  destruct (cemented_published cement sand c g sr n C Hs Hn) as [cc' [Ec' P]]. assert (cc' = cc) by congruence. subst cc'.
  exists r. split; [exact Er|]. exists d, cc. split; [|split; [exact P|]].
  - exact (walpole_mixture_value false cement sand (g - c) d (solid_mixable false _ _ Sc Ss) ltac:(lra) Ed).
  - exact (walpole_mixture_value false d cc (1 - phi / c) r (solid_mixable false _ _ Sd Scc) (div_ratio phi c Hc Hphi) Ew).
Qed.

Lemma patchy_weight_share x low up : patchy_share x low up (patchy_weight x low up).
Proof.
  unfold patchy_share, patchy_weight. destruct (Req_EM_T up low) as [E|N].
  - split; [intros _; rewrite Rmax_left, Rmin_left; lra|]. repeat split; intros; contradiction.
  - split; [contradiction|]. split; [|split]; intros _.
    + intros H. rewrite Rmax_right by exact H. rewrite Rmin_right; lra.
    + intros H. rewrite Rmax_left by lra. apply Rmin_left. exact H.
    + intros [H1 H2]. rewrite Rmax_left by lra. rewrite Rmin_right by exact H2. field. lra.
Qed.


(** Patchy cement. *)
Lemma patchy_published sand cement phi c u p lp g sr nf nc :
  patchy_input sand cement phi c u g -> 0 < p -> 0 < lp -> 0 <= sr -> 0 < nf -> 0 < nc ->
  exists r, patchy_cement sand cement phi c u p lp g sr nf nc = Ok r /\
    patchy_mixture sand cement phi c u p lp g sr nf nc r.
Proof.
  intros I Hp Hlp Hs Hnf Hnc. pose proof I as [Cc [Cu [Hphi [Hpu [Hc Hu]]]]].
  destruct (patchy_value sand cement phi c u p lp g sr nf nc I Hp Hlp Hs Hnf Hnc)
    as [d [fr [lo [up [ct [cst [r [Ed [Sd [Ef [_ [El [_ [Eu [_ [Ect [Sct [Ecst [_ [Er [_ [K [M D]]]]]]]]]]]]]]]]]]]]]]].
  exists r. split; [exact Er|].
  exists d, fr, lo, up, ct, cst, (patchy_weight (bulk cst) (bulk lo) (bulk up)), (patchy_weight (shear cst) (shear lo) (shear up)).
  pose proof Cu as [Sc [Ss [_ [Hug Hg]]]]. pose proof Cc as [_ [_ [_ [Hcg _]]]].
  assert (G : grain_pack d g sr nf) by (split; [exact Sd|]; repeat split; lra).
  split; [exact (walpole_mixture_value false cement sand (g - u) d (solid_mixable false _ _ Sc Ss) ltac:(lra) Ed)|].
  split; [|split; [|split; [|split; [|split; [|split; [apply patchy_weight_share|split; [apply patchy_weight_share|]]]]]]].
  - destruct (friable_published d phi g p nf sr G ltac:(lra) ltac:(lra) Hp) as [x [Ex P]]. congruence.
  - destruct (friable_published d phi g lp nf sr G ltac:(lra) ltac:(lra) Hlp) as [x [Ex P]]. congruence.
  - destruct (constant_published sand cement phi u g nc sr Cu Hu ltac:(lra) Hs Hnc) as [x [Ex P]]. congruence.
  - destruct (cemented_published cement sand c g sr nc Cc Hs Hnc) as [x [Ex P]]. congruence.
  - exact (walpole_mixture_value false d ct (1 - phi / c) cst (solid_mixable false _ _ Sd Sct) (div_ratio phi c Hc Hphi) Ecst).
  - rewrite K, M. split; [ring|split; [ring|exact D]].
Qed.

(** The published mixtures have only one solution. *)
Lemma inv_inj x y : 1 / x = 1 / y -> 0 < 1 / y -> x = y.
Proof.
  intros E P. unfold Rdiv in *. rewrite !Rmult_1_l in *.
  assert (X : / x <> 0) by lra. assert (Y : / y <> 0) by lra.
  rewrite <- (Rinv_inv x), <- (Rinv_inv y). rewrite E. reflexivity.
Qed.
Lemma mixture_unique km mum f m1 m2 m m' : 0 <= km -> 0 < mum -> 0 <= f <= 1 -> wf m1 -> wf m2 ->
  walpole_mixture km mum f m1 m2 m -> walpole_mixture km mum f m1 m2 m' ->
  bulk m' = bulk m /\ shear m' = shear m /\ dens m' = dens m.
Proof.
  intros Hk Hm Hf [_ [K1 [S1 _]]] [_ [K2 [S2 _]]] [A [B C]] [A' [B' C']]. cbv zeta in *.
  rewrite zeta_form in * by assumption. pose proof (zeta_pos km mum Hk Hm) as Z.
  assert (T : forall x1 x2 z, 0 <= x1 -> 0 <= x2 -> 0 < z -> 0 < f / (x1 + z) + (1 - f) / (x2 + z)).
  { intros x1 x2 z H1 H2 H3. rewrite <- hs_harmonic by assumption.
    pose proof (hs_nonneg f x1 x2 z Hf H1 H2 H3). apply Rdiv_lt_0_compat; lra. }
  split; [|split].
  - assert (bulk m' + 4 / 3 * mum = bulk m + 4 / 3 * mum); [|lra]. apply inv_inj; [congruence|]. rewrite A. apply T; lra.
  - assert (shear m' + zeta km mum = shear m + zeta km mum); [|lra]. apply inv_inj; [congruence|]. rewrite B. apply T; lra.
  - congruence.
Qed.
