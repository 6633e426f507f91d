(** Lemmas about sandstone models. *)
From Coq Require Import String List.
From Verif Require Import Base BaseProofs MaterialModel Spec MaterialProofs HashinShtrikmanModel HashinShtrikmanProofs SandstoneModel.
Open Scope R_scope.

(* ---- cube roots ---- *)
Definition cbrt (x : R) : R := if Rlt_dec 0 x then Rpower x (1 / 3) else 0.

Lemma np_pow_cbrt x : 0 <= x -> np_pow x (1 / 3) = Ok (cbrt x).
Proof.
  intros H. unfold cbrt. destruct (Rlt_dec 0 x) as [h|h].
  - apply np_pow_pos; exact h.
  - replace x with 0 by lra. apply np_pow_zero. lra.
Qed.
Lemma cbrt_pos x : 0 < x -> 0 < cbrt x.
Proof. intros H. unfold cbrt. destruct (Rlt_dec 0 x); [apply exp_pos|lra]. Qed.
Lemma cbrt_0 : cbrt 0 = 0.
Proof. unfold cbrt. destruct (Rlt_dec 0 0); [lra|reflexivity]. Qed.
Lemma cbrt_nonneg x : 0 <= cbrt x.
Proof. unfold cbrt. destruct (Rlt_dec 0 x); [left; apply exp_pos|lra]. Qed.
Lemma cbrt_cube x : 0 <= x -> cbrt x ^ 3 = x.
Proof.
  intros H. unfold cbrt. destruct (Rlt_dec 0 x) as [h|h]; [|lra].
  rewrite <- Rpower_pow by apply exp_pos. rewrite Rpower_mult.
  replace (1 / 3 * INR 3) with 1 by (simpl; lra). apply Rpower_1; exact h.
Qed.
Lemma cube_lt a b : 0 <= a -> a < b -> a ^ 3 < b ^ 3.
Proof. intros. assert (0 < (b - a) * (b * b + a * b + a * a)) by (apply Rmult_lt_0_compat; nra). nra. Qed.
Lemma cube_inj a b : 0 <= a -> 0 <= b -> a ^ 3 = b ^ 3 -> a = b.
Proof.
  intros Ha Hb E. destruct (Rtotal_order a b) as [h|[h|h]]; [|exact h|].
  - pose proof (cube_lt a b Ha h). lra.
  - pose proof (cube_lt b a Hb h). lra.
Qed.
Lemma cbrt_lt x y : 0 <= x -> x < y -> cbrt x < cbrt y.
Proof.
  intros Hx H. destruct (Rlt_le_dec (cbrt x) (cbrt y)) as [h|h]; [exact h|exfalso].
  pose proof (cbrt_cube x Hx). pose proof (cbrt_cube y ltac:(lra)).
  destruct h as [h|h].
  - pose proof (cube_lt _ _ (cbrt_nonneg y) h). lra.
  - rewrite <- h in *. lra.
Qed.
Lemma cbrt_le x y : 0 <= x -> x <= y -> cbrt x <= cbrt y.
Proof. intros Hx [h|h]; [left; apply cbrt_lt; assumption|subst; lra]. Qed.
Lemma cbrt_scale l x : 0 < l -> 0 <= x -> cbrt (l ^ 3 * x) = l * cbrt x.
Proof.
  intros Hl Hx. apply cube_inj.
  - apply cbrt_nonneg.
  - apply Rmult_le_pos; [lra|apply cbrt_nonneg].
  - rewrite Rpow_mult_distr, !cbrt_cube; [reflexivity|exact Hx|].
    apply Rmult_le_pos; [left; apply pow_lt; exact Hl|exact Hx].
Qed.

(* ---- Poisson's ratio of a solid ---- *)
Definition nu (m : material) : R := (3 * bulk m - 2 * shear m) / (2 * (3 * bulk m + shear m)).

Lemma nu_ok m : solid m -> poisson_ratio m = Ok (nu m) /\ -1 <= nu m < 1 / 2.
Proof.
  intros [[_ [K _]] S]. unfold poisson_ratio. rewrite np_div_ok by lra. split; [reflexivity|].
  unfold nu. split.
  - apply Rmult_le_reg_r with (2 * (3 * bulk m + shear m)); [lra|].
    unfold Rdiv. rewrite Rmult_assoc, Rinv_l by lra. lra.
  - apply Rmult_lt_reg_r with (2 * (3 * bulk m + shear m)); [lra|].
    unfold Rdiv at 1. rewrite Rmult_assoc, Rinv_l by lra. lra.
Qed.

(* ---- Hertz-Mindlin ---- *)
Definition hm_a (m : material) (phi n p : R) : R :=
  cbrt (3 * PI * (1 - nu m) * p / (2 * n * (1 - phi) * shear m)).
Definition hm_bulk (m : material) (phi n p : R) : R :=
  n * (1 - phi) / (12 * PI) * (4 * hm_a m phi n p * shear m / (1 - nu m)).
Definition hm_shear (m : material) (phi sr n p : R) : R :=
  n * (1 - phi) / (20 * PI) *
  (4 * hm_a m phi n p * shear m / (1 - nu m) + 15 / 10 * (8 * hm_a m phi n p * shear m / (2 - nu m)) * sr).

Lemma hm_den m phi sr n : grain_pack m phi sr n -> 0 < 2 * n * (1 - phi) * shear m.
Proof.
  intros [[_ S] [P [_ N]]]. apply Rmult_lt_0_compat; [|exact S]. apply Rmult_lt_0_compat; lra.
Qed.
Lemma hm_num m p : solid m -> 0 <= p -> 0 <= 3 * PI * (1 - nu m) * p.
Proof.
  intros S Hp. destruct (nu_ok m S) as [_ V]. pose proof PI_RGT_0.
  apply Rmult_le_pos; [|exact Hp]. apply Rmult_le_pos; lra.
Qed.

Lemma hm_shear_bulk m phi sr n p : grain_pack m phi sr n ->
  hm_shear m phi sr n p =
  3 / 5 * (1 + 3 * sr * (1 - nu m) / (2 - nu m)) * hm_bulk m phi n p.
Proof.
  intros [S [P [_ N]]]. destruct (nu_ok m S) as [_ V]. pose proof PI_RGT_0.
  unfold hm_shear, hm_bulk. field. repeat split; lra.
Qed.

Lemma hm_factor_pos m sr : solid m -> 0 <= sr -> 1 <= 1 + 3 * sr * (1 - nu m) / (2 - nu m).
Proof.
  intros S Hs. destruct (nu_ok m S) as [_ V].
  assert (0 <= 3 * sr * (1 - nu m) / (2 - nu m)); [|lra].
  apply div_nonneg; [|lra]. apply Rmult_le_pos; lra.
Qed.

Lemma hm_coef_pos m phi sr n : grain_pack m phi sr n ->
  0 < n * (1 - phi) / (12 * PI) * (4 * shear m / (1 - nu m)).
Proof.
  intros [S [P [_ N]]]. destruct (nu_ok m S) as [_ V]. pose proof PI_RGT_0.
  destruct S as [_ S].
  apply Rmult_lt_0_compat; apply Rdiv_lt_0_compat; try lra. apply Rmult_lt_0_compat; lra.
Qed.
Lemma hm_bulk_coef m phi sr n p : grain_pack m phi sr n ->
  hm_bulk m phi n p = n * (1 - phi) / (12 * PI) * (4 * shear m / (1 - nu m)) * hm_a m phi n p.
Proof.
  intros [S _]. destruct (nu_ok m S) as [_ V]. pose proof PI_RGT_0.
  unfold hm_bulk. field. split; lra.
Qed.

Lemma hm_a_lt m phi sr n p q : grain_pack m phi sr n -> 0 <= p -> p < q ->
  hm_a m phi n p < hm_a m phi n q.
Proof.
  intros G Hp H. pose proof (hm_den _ _ _ _ G) as D. destruct G as [S _].
  destruct (nu_ok m S) as [_ V]. pose proof PI_RGT_0.
  unfold hm_a. apply cbrt_lt.
  - apply div_nonneg; [apply hm_num; assumption|exact D].
  - apply Rmult_lt_compat_r; [apply Rinv_0_lt_compat; exact D|].
    apply Rmult_lt_compat_l; [|exact H]. apply Rmult_lt_0_compat; lra.
Qed.
Lemma hm_a_0 m phi n : hm_a m phi n 0 = 0.
Proof. unfold hm_a. rewrite Rmult_0_r. unfold Rdiv. rewrite Rmult_0_l. apply cbrt_0. Qed.
Lemma hm_a_pos m phi sr n p : grain_pack m phi sr n -> 0 < p -> 0 < hm_a m phi n p.
Proof. intros G H. pose proof (hm_a_lt m phi sr n 0 p G ltac:(lra) H). rewrite hm_a_0 in *. assumption. Qed.
Lemma hm_a_scale m phi sr n p l : grain_pack m phi sr n -> 0 <= p -> 0 < l ->
  hm_a m phi n (l ^ 3 * p) = l * hm_a m phi n p.
Proof.
  intros G Hp Hl. pose proof (hm_den _ _ _ _ G) as D. destruct G as [S _].
  unfold hm_a. rewrite <- cbrt_scale; [f_equal; field|exact Hl|].
  - repeat split; intro Hz; rewrite Hz in D; lra.
  - apply div_nonneg; [apply hm_num; assumption|exact D].
Qed.

Lemma hm_bulk_lt m phi sr n p q : grain_pack m phi sr n -> 0 <= p -> p < q ->
  hm_bulk m phi n p < hm_bulk m phi n q.
Proof.
  intros G Hp H. rewrite !(hm_bulk_coef m phi sr n) by exact G.
  apply Rmult_lt_compat_l; [apply (hm_coef_pos m phi sr n G)|apply (hm_a_lt m phi sr n p q G Hp H)].
Qed.
Lemma hm_bulk_0 m phi sr n : grain_pack m phi sr n -> hm_bulk m phi n 0 = 0.
Proof. intros G. rewrite (hm_bulk_coef m phi sr n) by exact G. rewrite hm_a_0. ring. Qed.
Lemma hm_bulk_nonneg m phi sr n p : grain_pack m phi sr n -> 0 <= p -> 0 <= hm_bulk m phi n p.
Proof.
  intros G [h|h].
  - pose proof (hm_bulk_lt m phi sr n 0 p G ltac:(lra) h). rewrite (hm_bulk_0 m phi sr n) in * by exact G. lra.
  - subst. rewrite (hm_bulk_0 m phi sr n) by exact G. lra.
Qed.
Lemma hm_bulk_pos m phi sr n p : grain_pack m phi sr n -> 0 < p -> 0 < hm_bulk m phi n p.
Proof.
  intros G h. pose proof (hm_bulk_lt m phi sr n 0 p G ltac:(lra) h).
  rewrite (hm_bulk_0 m phi sr n) in * by exact G. lra.
Qed.
Lemma hm_shear_lt m phi sr n p q : grain_pack m phi sr n -> 0 <= p -> p < q ->
  hm_shear m phi sr n p < hm_shear m phi sr n q.
Proof.
  intros G Hp H. rewrite !(hm_shear_bulk m phi sr n) by exact G.
  apply Rmult_lt_compat_l; [|apply (hm_bulk_lt m phi sr n p q G Hp H)].
  destruct G as [S [_ [Hs _]]]. pose proof (hm_factor_pos m sr S Hs). lra.
Qed.
Lemma hm_shear_0 m phi sr n : grain_pack m phi sr n -> hm_shear m phi sr n 0 = 0.
Proof. intros G. rewrite (hm_shear_bulk m phi sr n) by exact G. rewrite (hm_bulk_0 m phi sr n) by exact G. ring. Qed.
Lemma hm_shear_nonneg m phi sr n p : grain_pack m phi sr n -> 0 <= p -> 0 <= hm_shear m phi sr n p.
Proof.
  intros G [h|h].
  - pose proof (hm_shear_lt m phi sr n 0 p G ltac:(lra) h). rewrite (hm_shear_0 m phi sr n) in * by exact G. lra.
  - subst. rewrite (hm_shear_0 m phi sr n) by exact G. lra.
Qed.
Lemma hm_shear_pos m phi sr n p : grain_pack m phi sr n -> 0 < p -> 0 < hm_shear m phi sr n p.
Proof.
  intros G h. pose proof (hm_shear_lt m phi sr n 0 p G ltac:(lra) h).
  rewrite (hm_shear_0 m phi sr n) in * by exact G. lra.
Qed.
Lemma hm_shear_sr m phi sr sr' n p : grain_pack m phi sr n -> sr < sr' -> 0 < p ->
  hm_shear m phi sr n p < hm_shear m phi sr' n p.
Proof.
  intros G H Hp. pose proof G as [S [P [Hs N]]].
  assert (G' : grain_pack m phi sr' n) by (repeat split; try apply S; lra).
  rewrite (hm_shear_bulk m phi sr n), (hm_shear_bulk m phi sr' n) by assumption.
  apply Rmult_lt_compat_r; [apply (hm_bulk_pos m phi sr n p G Hp)|].
  destruct (nu_ok m S) as [_ V].
  apply Rmult_lt_compat_l; [lra|]. apply Rplus_lt_compat_l.
  apply Rmult_lt_compat_r; [apply Rinv_0_lt_compat; lra|].
  apply Rmult_lt_compat_r; lra.
Qed.

Lemma hm_unfold m phi p sr n : grain_pack m phi sr n -> 0 <= p ->
  hertz_mindlin m phi p sr n =
  mat_of_moduli (hm_bulk m phi n p) (hm_shear m phi sr n p) (dens m * (1 - phi)).
Proof.
  intros G Hp. pose proof (hm_den _ _ _ _ G) as D. pose proof G as [S _].
  destruct (nu_ok m S) as [E V]. unfold hertz_mindlin. rewrite E. cbn [bind].
  rewrite np_div_ok by lra. cbn [bind]. rewrite np_pow_cbrt.
  2:{ apply div_nonneg; [apply hm_num; assumption|exact D]. }
  cbn [bind]. rewrite !np_div_ok by lra. reflexivity.
Qed.

Lemma hm_value m phi p sr n : grain_pack m phi sr n -> 0 <= p ->
  exists g, hertz_mindlin m phi p sr n = Ok g /\ wf g /\
    bulk g = hm_bulk m phi n p /\ shear g = hm_shear m phi sr n p /\ dens g = dens m * (1 - phi).
Proof.
  intros G Hp. rewrite hm_unfold by assumption.
  pose proof (hm_bulk_nonneg m phi sr n p G Hp). pose proof (hm_shear_nonneg m phi sr n p G Hp).
  assert (0 < dens m * (1 - phi)).
  { destruct G as [[[D _] _] [P _]]. apply Rmult_lt_0_compat; lra. }
  destruct (mat_of_moduli_spec (hm_bulk m phi n p) (hm_shear m phi sr n p) (dens m * (1 - phi))) as [g [E _]];
    try assumption.
  exists g. split; [exact E|]. destruct (mat_of_moduli_wf _ _ _ _ E) as [W [E1 [E2 E3]]]. auto.
Qed.

Lemma hm_cube_root m phi sr n p l : grain_pack m phi sr n -> 0 <= p -> 0 < l ->
  exists g g', hertz_mindlin m phi p sr n = Ok g /\ hertz_mindlin m phi (l ^ 3 * p) sr n = Ok g' /\
    bulk g' = l * bulk g /\ shear g' = l * shear g /\ dens g' = dens g.
Proof.
  intros G Hp Hl.
  assert (Hp' : 0 <= l ^ 3 * p) by (apply Rmult_le_pos; [left; apply pow_lt; exact Hl|exact Hp]).
  destruct (hm_value m phi p sr n G Hp) as [g [E [W [K [S D]]]]].
  destruct (hm_value m phi (l ^ 3 * p) sr n G Hp') as [g' [E' [W' [K' [S' D']]]]].
  exists g, g'. split; [exact E|]. split; [exact E'|].
  assert (HK : hm_bulk m phi n (l ^ 3 * p) = l * hm_bulk m phi n p).
  { rewrite !(hm_bulk_coef m phi sr n) by exact G. rewrite (hm_a_scale m phi sr n) by assumption. ring. }
  rewrite K, K', S, S', D, D'. split; [exact HK|]. split; [|reflexivity].
  rewrite !(hm_shear_bulk m phi sr n) by exact G. rewrite HK. ring.
Qed.

Lemma hm_pressure m phi sr n p q : grain_pack m phi sr n -> 0 <= p -> p < q ->
  exists g g', hertz_mindlin m phi p sr n = Ok g /\ hertz_mindlin m phi q sr n = Ok g' /\
    bulk g < bulk g' /\ shear g < shear g' /\ (p = 0 -> bulk g = 0 /\ shear g = 0).
Proof.
  intros G Hp H.
  destruct (hm_value m phi p sr n G Hp) as [g [E [W [K [S D]]]]].
  destruct (hm_value m phi q sr n G ltac:(lra)) as [g' [E' [W' [K' [S' D']]]]].
  exists g, g'. split; [exact E|]. split; [exact E'|]. rewrite K, K', S, S'.
  split; [apply (hm_bulk_lt m phi sr); assumption|].
  split; [apply hm_shear_lt; assumption|]. intros ->.
  split; [apply (hm_bulk_0 m phi sr n G)|apply hm_shear_0; exact G].
Qed.

Lemma hm_density_sr m phi sr sr' n p :
  grain_pack m phi sr n -> 0 <= p -> sr < sr' ->
  exists g g', hertz_mindlin m phi p sr n = Ok g /\ hertz_mindlin m phi p sr' n = Ok g' /\
    dens g = dens m * (1 - phi) /\ dens g' = dens g /\ bulk g' = bulk g /\
    shear g <= shear g' /\ (0 < p -> shear g < shear g').
Proof.
  intros G Hp H. pose proof G as [S [P [Hs N]]].
  assert (G' : grain_pack m phi sr' n) by (repeat split; try apply S; lra).
  destruct (hm_value m phi p sr n G Hp) as [g [E [W [K [M D]]]]].
  destruct (hm_value m phi p sr' n G' Hp) as [g' [E' [W' [K' [M' D']]]]].
  exists g, g'. split; [exact E|]. split; [exact E'|]. rewrite D, D', K, K', M, M'.
  split; [reflexivity|]. split; [reflexivity|]. split; [reflexivity|].
  assert (L : 0 < p -> hm_shear m phi sr n p < hm_shear m phi sr' n p)
    by (intros; apply hm_shear_sr; assumption).
  split; [|exact L]. destruct Hp as [h|h]; [left; auto|].
  subst p. rewrite !hm_shear_0 by assumption. lra.
Qed.

(** The closed formulas of the Rock Physics Handbook. *)
Lemma hm_handbook m phi n p nu0 : grain_pack m phi 1 n -> 0 <= p -> poisson_ratio m = Ok nu0 ->
  exists g, hertz_mindlin m phi p 1 n = Ok g /\
    bulk g ^ 3 = n ^ 2 * (1 - phi) ^ 2 * shear m ^ 2 / (18 * PI ^ 2 * (1 - nu0) ^ 2) * p /\
    shear g ^ 3 = ((5 - 4 * nu0) / (5 * (2 - nu0))) ^ 3 *
      (3 * n ^ 2 * (1 - phi) ^ 2 * shear m ^ 2 / (2 * PI ^ 2 * (1 - nu0) ^ 2) * p).
Proof.
  intros G Hp E0. pose proof (hm_den _ _ _ _ G) as Dn. pose proof G as [S [P [_ N]]].
  destruct (nu_ok m S) as [E1 V]. rewrite E1 in E0. injection E0 as <-.
  destruct (hm_value m phi p 1 n G Hp) as [g [E [W [K [M D]]]]].
  exists g. split; [exact E|]. rewrite K, M.
  rewrite (hm_shear_bulk m phi 1 n) by exact G.
  assert (C : hm_bulk m phi n p ^ 3 = n ^ 2 * (1 - phi) ^ 2 * shear m ^ 2 / (18 * PI ^ 2 * (1 - nu m) ^ 2) * p).
  { rewrite (hm_bulk_coef m phi 1 n) by exact G. rewrite Rpow_mult_distr. unfold hm_a.
    rewrite cbrt_cube by (apply div_nonneg; [apply hm_num; assumption|exact Dn]).
    pose proof PI_RGT_0. destruct S as [_ Sm]. field. repeat split; lra. }
  split; [exact C|]. rewrite Rpow_mult_distr, C. pose proof PI_RGT_0. field. repeat split; lra.
Qed.

(* ---- friable sand ---- *)

Lemma div_ratio phi c : 0 < c -> 0 <= phi <= c -> 0 <= 1 - phi / c <= 1.
Proof.
  intros Hc H. assert (0 <= phi / c) by (apply div_nonneg; lra).
  assert (phi / c <= 1); [|lra]. apply Rmult_le_reg_r with c; [lra|].
  unfold Rdiv. rewrite Rmult_assoc, Rinv_l by lra. lra.
Qed.

Lemma friable_walpole m phi c p n sr :
  grain_pack m c sr n -> 0 < c -> 0 <= p ->
  exists g, hertz_mindlin m c p sr n = Ok g /\ wf g /\
    bulk g = hm_bulk m c n p /\ shear g = hm_shear m c sr n p /\ dens g = dens m * (1 - c) /\
    friable_sand m phi c p n sr = hashin_shtrikman_walpole m g (1 - phi / c) "lower".
Proof.
  intros G Hc Hp. destruct (hm_value m c p sr n G Hp) as [g [E [W [K [M D]]]]].
  exists g. repeat (split; [assumption|]).
  unfold friable_sand. rewrite E. cbn [bind]. rewrite np_div_ok by lra. reflexivity.
Qed.

Lemma friable_value m phi c p n sr :
  grain_pack m c sr n -> 0 < c -> 0 <= phi <= c -> 0 < p ->
  exists g s, hertz_mindlin m c p sr n = Ok g /\ solid g /\
    bulk g = hm_bulk m c n p /\ shear g = hm_shear m c sr n p /\
    friable_sand m phi c p n sr = Ok s /\ solid s /\
    bulk s = wbulk false m g (1 - phi / c) /\ shear s = wshear false m g (1 - phi / c) /\
    between (bulk m) (bulk s) (bulk g) /\ between (shear m) (shear s) (shear g) /\
    dens s = dens m * (1 - phi).
Proof.
  intros G Hc Hphi Hp.
  destruct (friable_walpole m phi c p n sr G Hc ltac:(lra)) as [g [E [W [K [M [D F]]]]]].
  pose proof G as [S _].
  assert (Sg : solid g) by (split; [exact W|rewrite M; apply hm_shear_pos; assumption]).
  pose proof (div_ratio phi c Hc Hphi) as Hr.
  destruct (walpole_value false m g (1 - phi / c) (solid_mixable false m g S Sg) Hr)
    as [s [Es [Ws [Ks [Ms Ds]]]]].
  destruct (walpole_between false m g (1 - phi / c) (solid_mixable false m g S Sg) Hr)
    as [s' [Es' [_ [Bk [Bm _]]]]].
  assert (s' = s) by congruence. subst s'.
  exists g, s. split; [exact E|]. split; [exact Sg|]. split; [exact K|]. split; [exact M|].
  split; [rewrite F; exact Es|].
  split.
  { split; [exact Ws|]. destruct Bm as [B _]. eapply Rlt_le_trans; [|exact B].
    apply Rmin_glb_lt; [apply S|apply Sg]. }
  split; [exact Ks|]. split; [exact Ms|]. split; [exact Bk|]. split; [exact Bm|].
  rewrite Ds, D. unfold voigt. field. lra.
Qed.

Lemma friable_endpoints m c p n sr :
  grain_pack m c sr n -> 0 < c -> 0 < p ->
  friable_sand m 0 c p n sr = Ok m /\
  friable_sand m c c p n sr = hertz_mindlin m c p sr n.
Proof.
  intros G Hc Hp. pose proof G as [S _].
  destruct (friable_walpole m 0 c p n sr G Hc ltac:(lra)) as [g [E [W [K [M [D F]]]]]].
  destruct (friable_walpole m c c p n sr G Hc ltac:(lra)) as [g' [E' [_ [_ [_ [_ F']]]]]].
  assert (g' = g) by congruence. subst g'.
  assert (Sg : solid g) by (split; [exact W|rewrite M; apply hm_shear_pos; assumption]).
  destruct (walpole_endpoints false m g (solid_mixable false m g S Sg)) as [E1 E0].
  rewrite F, F', E. split.
  - replace (1 - 0 / c) with 1 by (field; lra). exact E1.
  - replace (1 - c / c) with 0 by (field; lra). exact E0.
Qed.

Lemma friable_zero_pressure m phi c n sr :
  grain_pack m c sr n -> 0 < c -> 0 <= phi <= c ->
  friable_sand m phi c 0 n sr = Err ZeroDivisionError.
Proof.
  intros G Hc Hphi. pose proof G as [[Wm Sm] _]. pose proof Wm as [_ [Km _]].
  destruct (friable_walpole m phi c 0 n sr G Hc ltac:(lra)) as [g [E [W [K [M [D F]]]]]].
  rewrite (hm_bulk_0 m c sr n G) in K. rewrite (hm_shear_0 m c sr n G) in M.
  pose proof (div_ratio phi c Hc Hphi) as Hr. set (f := 1 - phi / c) in *.
  rewrite F. change "lower"%string with (bound_name false). rewrite walpole_unfold, check_ratio_unit by exact Hr.
  cbn [bind]. unfold pick. rewrite K, M. rewrite !(Rmin_right _ 0) by lra.
  assert (X : calc_shear_modulus (shear m) 0 0 0 f (1 - f) = Err ZeroDivisionError).
  { unfold calc_shear_modulus. destruct (Req_EM_T (shear m) 0); [lra|].
    rewrite py_div_ok by lra. cbn [bind].
    replace (0 + 2 * 0) with 0 by ring. rewrite py_div_0. reflexivity. }
  rewrite X. unfold calc_bulk_modulus. destruct (Req_EM_T (bulk m) 0); [reflexivity|].
  rewrite py_div_ok by lra. cbn [bind]. rewrite py_div_ok by lra. cbn [bind].
  unfold py_div. destruct (Req_EM_T _ 0); reflexivity.
Qed.

Lemma Rmin_mono_r a b b' : b <= b' -> Rmin a b <= Rmin a b'.
Proof. intros. apply Rle_min_compat_l. assumption. Qed.

(** The lower bound is monotone in its second material. *)
Lemma wbulk_mono m g g' f : solid m -> solid g -> solid g' -> 0 <= f <= 1 ->
  bulk g <= bulk g' -> shear g <= shear g' ->
  wbulk false m g f <= wbulk false m g' f /\ wshear false m g f <= wshear false m g' f.
Proof.
  intros [[_ [Km _]] Sm] [[_ [Kg _]] Sg] [[_ [Kg' _]] Sg'] Hf Hk Hm.
  unfold wbulk, wshear, pick.
  pose proof (Rmin_mono_r (shear m) _ _ Hm). pose proof (Rmin_mono_r (bulk m) _ _ Hk).
  assert (0 < Rmin (shear m) (shear g)) by (apply Rmin_glb_lt; assumption).
  assert (0 <= Rmin (bulk m) (bulk g)) by (apply Rmin_glb; assumption).
  split.
  - eapply Rle_trans; [apply hs_mono_2 with (y2 := bulk g'); try assumption; lra|].
    apply hs_mono_z; try assumption; lra.
  - pose proof (zeta_mono _ _ _ _ H2 H0 H1 H).
    assert (0 < zeta (Rmin (bulk m) (bulk g)) (Rmin (shear m) (shear g))) by (apply zeta_pos; assumption).
    eapply Rle_trans; [apply hs_mono_2 with (y2 := shear g'); try assumption; lra|].
    apply hs_mono_z; try assumption; lra.
Qed.

Lemma friable_pressure m phi c p q n sr :
  grain_pack m c sr n -> 0 < c -> 0 <= phi <= c -> 0 < p -> p <= q ->
  exists s s', friable_sand m phi c p n sr = Ok s /\ friable_sand m phi c q n sr = Ok s' /\
    bulk s <= bulk s' /\ shear s <= shear s'.
Proof.
  intros G Hc Hphi Hp Hq.
  destruct (friable_value m phi c p n sr G Hc Hphi Hp) as [g [s [_ [Sg [K [M [E [_ [Ek [Em _]]]]]]]]]].
  destruct (friable_value m phi c q n sr G Hc Hphi ltac:(lra)) as [g' [s' [_ [Sg' [K' [M' [E' [_ [Ek' [Em' _]]]]]]]]]].
  exists s, s'. split; [exact E|]. split; [exact E'|]. rewrite Ek, Ek', Em, Em'.
  apply wbulk_mono; try assumption.
  - apply G.
  - apply div_ratio; assumption.
  - rewrite K, K'. destruct Hq as [h| ->]; [left; apply (hm_bulk_lt m c sr n p q G); lra|lra].
  - rewrite M, M'. destruct Hq as [h| ->]; [left; apply (hm_shear_lt m c sr n p q G); lra|lra].
Qed.

Lemma friable_porosity m phi phi' c p n sr g :
  grain_pack m c sr n -> 0 < c -> 0 <= phi -> phi <= phi' -> phi' <= c -> 0 < p ->
  hertz_mindlin m c p sr n = Ok g -> bulk g <= bulk m -> shear g <= shear m ->
  exists s s', friable_sand m phi c p n sr = Ok s /\ friable_sand m phi' c p n sr = Ok s' /\
    bulk s' <= bulk s /\ shear s' <= shear s /\ dens s' <= dens s.
Proof.
  intros G Hc H0 H1 H2 Hp E Hk Hm. pose proof G as [S _].
  destruct (friable_value m phi c p n sr G Hc ltac:(lra) Hp) as [g0 [s [Eg [Sg [K [M [Es [_ [_ [_ [_ [_ D]]]]]]]]]]]].
  destruct (friable_value m phi' c p n sr G Hc ltac:(lra) Hp) as [g1 [s' [Eg' [_ [_ [_ [Es' [_ [_ [_ [_ [_ D']]]]]]]]]]]].
  assert (g0 = g) by congruence. subst g0. clear g1 Eg'.
  exists s, s'. split; [exact Es|]. split; [exact Es'|].
  unfold friable_sand in Es, Es'. rewrite E in Es, Es'. cbn [bind] in Es, Es'.
  rewrite np_div_ok in Es, Es' by lra. cbn [bind] in Es, Es'.
  assert (Hd : phi / c <= phi' / c) by (apply Rmult_le_compat_r; [left; apply Rinv_0_lt_compat; lra|lra]).
  pose proof (div_ratio phi c Hc ltac:(lra)). pose proof (div_ratio phi' c Hc ltac:(lra)).
  destruct (walpole_mono_ratio false m g (1 - phi' / c) (1 - phi / c) s' s
              (solid_mixable false m g S Sg) Hk Hm ltac:(lra) ltac:(lra) ltac:(lra) Es' Es).
  split; [assumption|]. split; [assumption|]. rewrite D, D'.
  destruct S as [[Dm _] _]. apply Rmult_le_compat_l; lra.
Qed.

(* ---- Murphy's coordination number ---- *)
Lemma murphy_pos x : 0 < murphy_coordination_number x.
Proof.
  unfold murphy_coordination_number.
  assert (0 <= (x - 4376220 / 5197610) ^ 2) by apply pow2_ge_0. lra.
Qed.
Lemma murphy_decreasing x y : 0 <= x -> x < y -> y <= 84 / 100 ->
  murphy_coordination_number y < murphy_coordination_number x.
Proof. intros. unfold murphy_coordination_number. nra. Qed.

(* ---- cement radius ratio ---- *)
Definition bad_porosities (g c : R) : Prop := 1 < g \/ g < 0 \/ 1 < c \/ c < 0 \/ g < c.

Lemma check_porosities_cases g c :
  (bad_porosities g c /\ check_porosities g c = Err ValueError) \/
  (0 <= c <= g /\ g <= 1 /\ check_porosities g c = Ok tt).
Proof.
  unfold check_porosities, bad_porosities.
  repeat (dec1; [left; split; [tauto|reflexivity]|]).
  right. repeat split; lra.
Qed.

Lemma radius_value c g : 0 <= c <= g -> g < 1 ->
  cement_radius_ratio c g = Ok (Rmin (sqrt (2 * (g - c) / (3 * (1 - g)))) 1).
Proof.
  intros H H1. unfold cement_radius_ratio.
  destruct (check_porosities_cases g c) as [[B _]|[_ [_ E]]]; [unfold bad_porosities in B; lra|].
  rewrite E. cbn [bind]. rewrite np_div_ok by lra. cbn [bind].
  rewrite np_sqrt_ok by (apply div_nonneg; lra). cbn [bind]. rewrite (Rmax_right 0 1) by lra. reflexivity.
Qed.

Lemma radius_cases c g :
  (bad_porosities g c /\ cement_radius_ratio c g = Err ValueError) \/
  (0 <= c <= g /\ g = 1 /\ cement_radius_ratio c g = Err NonFinite) \/
  (0 <= c <= g /\ g < 1 /\ is_ok (cement_radius_ratio c g)).
Proof.
  destruct (check_porosities_cases g c) as [[B E]|[H [H1 E]]].
  - left. split; [exact B|]. unfold cement_radius_ratio. rewrite E. reflexivity.
  - right. destruct (Req_EM_T g 1) as [->|n].
    + left. repeat split; try lra. unfold cement_radius_ratio. rewrite E. cbn [bind].
      replace (3 * (1 - 1)) with 0 by ring. rewrite np_div_0. reflexivity.
    + right. repeat split; try lra. eexists. apply radius_value; lra.
Qed.

Lemma radius_rejects c g :
  (cement_radius_ratio c g = Err ValueError <-> g < 0 \/ 1 < g \/ c < 0 \/ 1 < c \/ g < c) /\
  (is_ok (cement_radius_ratio c g) <-> 0 <= c <= g /\ g < 1).
Proof.
  destruct (radius_cases c g) as [[B E]|[[H [H1 E]]|[H [H1 E]]]]; unfold bad_porosities in *.
  - split; split; intros; try tauto; try lra.
    destruct H as [a H]. congruence.
  - split; split; intros X; try lra.
    + congruence.
    + destruct X as [a X]. congruence.
  - split; split; intros X; try tauto; try lra.
    destruct E as [a E]. congruence.
Qed.

Lemma radius_range c g a : cement_radius_ratio c g = Ok a ->
  0 <= a <= 1 /\ (a = 0 <-> c = g).
Proof.
  intros H. assert (V : 0 <= c <= g /\ g < 1) by (apply radius_rejects; eexists; exact H).
  destruct V as [V1 V2]. rewrite (radius_value c g V1 V2) in H. injection H as <-.
  assert (0 <= sqrt (2 * (g - c) / (3 * (1 - g)))) by apply sqrt_pos.
  split; [split; [apply Rmin_glb; lra|apply Rmin_r]|]. split.
  - intros Hz. assert (Hs : sqrt (2 * (g - c) / (3 * (1 - g))) = 0).
    { unfold Rmin in Hz. destruct (Rle_dec _ 1); lra. }
    apply sqrt_eq_0 in Hs; [|apply div_nonneg; lra].
    assert (2 * (g - c) = 0); [|lra].
    replace (2 * (g - c)) with (2 * (g - c) / (3 * (1 - g)) * (3 * (1 - g))) by (field; lra).
    rewrite Hs. ring.
  - intros ->. replace (2 * (g - g) / (3 * (1 - g))) with 0 by (field; lra).
    rewrite sqrt_0. apply Rmin_left. lra.
Qed.

Lemma radius_antitone c c' g a a' : c <= c' ->
  cement_radius_ratio c g = Ok a -> cement_radius_ratio c' g = Ok a' -> a' <= a.
Proof.
  intros Hc H H'. assert (V : 0 <= c <= g /\ g < 1) by (apply radius_rejects; eexists; exact H).
  assert (V' : 0 <= c' <= g /\ g < 1) by (apply radius_rejects; eexists; exact H').
  rewrite radius_value in H, H' by tauto. injection H as <-. injection H' as <-.
  apply Rle_min_compat_r. apply sqrt_le_1_alt.
  apply Rmult_le_compat_r; [left; apply Rinv_0_lt_compat; lra|lra].
Qed.

(** The value satisfies equation (2) of the paper whenever that is a ratio. *)
Lemma radius_square c g a : cement_radius_ratio c g = Ok a -> a < 1 ->
  a ^ 2 * (3 * (1 - g)) = 2 * (g - c).
Proof.
  intros H Ha. assert (V : 0 <= c <= g /\ g < 1) by (apply radius_rejects; eexists; exact H).
  rewrite radius_value in H by tauto. injection H as <-.
  unfold Rmin in *. destruct (Rle_dec _ 1); [|lra].
  rewrite pow2_sqrt by (apply div_nonneg; lra). field. lra.
Qed.

(* ---- contact cement ---- *)
Lemma Rpower_neg_le x b e : 0 < b -> / b <= x -> 0 <= e -> Rpower x (- e) <= Rpower b e.
Proof.
  intros Hb Hx He. assert (0 < / b) by (apply Rinv_0_lt_compat; exact Hb).
  rewrite Rpower_Ropp. rewrite <- (Rinv_inv (Rpower b e)).
  apply Rinv_le_contravar; [apply Rinv_0_lt_compat, exp_pos|].
  rewrite <- Rpower_Ropp. replace (Rpower b (- e)) with (Rpower (/ b) e).
  - apply Rle_Rpower_l; [exact He|split; assumption].
  - unfold Rpower. rewrite ln_Rinv by exact Hb. f_equal. ring.
Qed.

Lemma Rpower_nat_le b e c (i j : nat) :
  0 < b -> 0 < c -> e * INR j = INR i -> (0 < j)%nat -> b ^ i <= c ^ j -> Rpower b e <= c.
Proof.
  intros Hb Hc He Hj H. destruct (Rle_lt_dec (Rpower b e) c) as [h|h]; [exact h|exfalso].
  assert (c ^ j < Rpower b e ^ j).
  { clear He H. induction j as [|[|j] IH]; [lia|simpl; lra|].
    specialize (IH ltac:(lia)). assert (0 < c ^ S j) by (apply pow_lt; exact Hc).
    change (c * c ^ S j < Rpower b e * Rpower b e ^ S j).
    apply Rle_lt_trans with (Rpower b e * c ^ S j); [apply Rmult_le_compat_r; lra|].
    apply Rmult_lt_compat_l; [apply exp_pos|exact IH]. }
  rewrite <- (Rpower_pow j (Rpower b e)) in H0 by apply exp_pos.
  rewrite Rpower_mult, He, Rpower_pow in H0 by exact Hb. lra.
Qed.

(** an alpha^2 + bn alpha + cn > 0 on [0,1] when |an| <= bn. *)
Lemma quad_pos a b c x : 0 < b -> 0 < c -> 0 <= a -> a <= b -> 0 <= x <= 1 -> 0 < - a * x ^ 2 + b * x + c.
Proof. intros. assert (0 <= x * (b - a * x)) by (apply Rmult_le_pos; nra). nra. Qed.

Lemma shear_stiffness_pos muc mug v a :
  0 < mug -> mug / 5 <= muc -> -1 <= v <= 1 / 2 -> 0 <= a <= 1 ->
  exists s, shear_stiffness muc mug v a = Ok s /\ 0 < s.
Proof.
  intros Hg Hc Hv Ha. pose proof PI_RGT_0. pose proof PI_4.
  assert (Hd : 0 < PI * mug) by (apply Rmult_lt_0_compat; assumption).
  assert (Hm : 0 < muc) by lra.
  unfold shear_stiffness. rewrite np_div_ok by lra. cbn [bind].
  set (x := muc / (PI * mug)).
  assert (Hx : / 20 <= x).
  { unfold x. apply Rmult_le_reg_r with (PI * mug); [exact Hd|].
    unfold Rdiv. rewrite Rmult_assoc, Rinv_l by lra. nra. }
  assert (Hx0 : 0 < x) by lra.
  rewrite !np_pow_pos by exact Hx0. cbn [bind]. eexists. split; [reflexivity|].
  rewrite <- Ropp_mult_distr_l, <- Ropp_mult_distr_l.
  apply quad_pos; try exact Ha.
  - apply Rmult_lt_0_compat; [nra|apply exp_pos].
  - apply Rmult_lt_0_compat; [nra|apply exp_pos].
  - apply Rmult_le_pos; [nra|left; apply exp_pos].
  - set (eb := 274 / 10000 * v ^ 2 + 529 / 10000 * v - 8765 / 10000).
    set (d := 4655 / 10000 - 1225 / 10000 * v - 516 / 10000 * v ^ 2).
    replace (79 / 1000 * v ^ 2 + 1754 / 10000 * v - 1342 / 1000) with (eb + - d) by (unfold eb, d; lra).
    rewrite Rpower_plus. pose proof (exp_pos (eb * ln x)) as Hp. fold (Rpower x eb) in Hp.
    assert (Hd0 : 0 <= d <= 54 / 100) by (unfold d; split; nra).
    assert (B : Rpower x (- d) <= 6).
    { eapply Rle_trans; [apply (Rpower_neg_le x 20); [lra|exact Hx|lra]|].
      eapply Rle_trans; [apply Rle_Rpower; [lra|apply Hd0]|].
      apply (Rpower_nat_le 20 (54 / 100) 6 27 50); [lra|lra|simpl; lra|lia|].
      apply Rminus_le. match goal with |- ?z <= 0 => ring_simplify z end. lra. }
    assert (0 < Rpower x (- d)) by apply exp_pos.
    rewrite (Rmult_comm (Rpower x eb)), <- Rmult_assoc.
    apply Rmult_le_compat_r; [lra|].
    apply Rle_trans with (1 / 100 * (226 / 100 * v ^ 2 + 207 / 100 * v + 23 / 10) * 6).
    + apply Rmult_le_compat_l; [nra|exact B].
    + nra.
Qed.

Lemma normal_stiffness_pos muc mug v vc a :
  0 < mug -> mug / 5 <= muc -> -1 <= v <= 1 / 2 -> -1 <= vc < 1 / 2 -> 0 <= a <= 1 ->
  exists s, normal_stiffness v vc muc mug a = Ok s /\ 0 < s.
Proof.
  intros Hg Hc Hv Hvc Ha. pose proof PI_RGT_0. pose proof PI_4.
  assert (Hd : 0 < PI * mug) by (apply Rmult_lt_0_compat; assumption).
  unfold normal_stiffness. rewrite !np_div_ok by lra. cbn [bind].
  set (x1 := 2 * muc / (PI * mug)). set (x2 := (1 - v) * (1 - vc) / (1 - 2 * vc)).
  assert (Hx1 : 1 / 10 <= x1).
  { unfold x1. apply Rmult_le_reg_r with (PI * mug); [exact Hd|].
    unfold Rdiv at 2. rewrite Rmult_assoc, Rinv_l by lra. nra. }
  assert (Hx2 : 1 / 3 <= x2).
  { unfold x2. apply Rmult_le_reg_r with (1 - 2 * vc); [lra|].
    unfold Rdiv at 2. rewrite Rmult_assoc, Rinv_l by lra. nra. }
  set (x := x1 * x2). assert (Hx : / 30 <= x) by (unfold x; nra).
  assert (Hx0 : 0 < x) by lra.
  rewrite !np_pow_pos by exact Hx0. cbn [bind]. eexists. split; [reflexivity|].
  rewrite <- Ropp_mult_distr_l.
  apply quad_pos; try exact Ha.
  - apply Rmult_lt_0_compat; [lra|apply exp_pos].
  - apply Rmult_lt_0_compat; [lra|apply exp_pos].
  - apply Rmult_le_pos; [lra|left; apply exp_pos].
  - replace (- (13646 / 10000)) with (- (89008 / 100000) + - (47452 / 100000)) by lra.
    rewrite Rpower_plus. pose proof (exp_pos (- (89008 / 100000) * ln x)) as Hp.
    fold (Rpower x (- (89008 / 100000))) in Hp.
    assert (B : Rpower x (- (47452 / 100000)) <= 6).
    { eapply Rle_trans; [apply (Rpower_neg_le x 30); [lra|exact Hx|lra]|].
      eapply Rle_trans; [apply Rle_Rpower with (m := 1 / 2); lra|].
      apply (Rpower_nat_le 30 (1 / 2) 6 1 2); [lra|lra|simpl; lra|lia|simpl; lra]. }
    assert (0 < Rpower x (- (47452 / 100000))) by apply exp_pos.
    rewrite (Rmult_comm (Rpower x (- (89008 / 100000)))), <- Rmult_assoc.
    apply Rmult_le_compat_r; lra.
Qed.

Lemma cc_rejects cement mineral c g sr n :
  g < 0 \/ 1 < g \/ c < 0 \/ 1 < c \/ g < c ->
  contact_cement cement mineral c g sr n = Err ValueError.
Proof.
  intros H. unfold contact_cement.
  destruct (check_porosities_cases g c) as [[_ E]|[H1 [H2 _]]]; [rewrite E; reflexivity|lra].
Qed.

Lemma cc_value cement sand c g sr n :
  cementable cement sand c g -> 0 <= sr -> 0 < n ->
  exists a cc, cement_radius_ratio c g = Ok a /\ 0 <= a <= 1 /\
    contact_cement cement sand c g sr n = Ok cc /\ solid cc /\ 0 < bulk cc /\
    3 / 5 * bulk cc <= shear cc /\
    dens cc = (1 - c) * (a * dens cement + (1 - a) * dens sand).
Proof.
  intros [Sc [Ss [Hmu [Hcg Hg]]]] Hs Hn.
  destruct (cement_radius_ratio c g) as [a|] eqn:Ea; [|rewrite radius_value in Ea by lra; discriminate].
  destruct (radius_range c g a Ea) as [Ha _].
  destruct (nu_ok cement Sc) as [Enc Vc]. destruct (nu_ok sand Ss) as [Ens Vs].
  destruct (shear_stiffness_pos (shear cement) (shear sand) (nu sand) a) as [st [Est Hst]];
    try assumption; try lra; [apply Ss|].
  destruct (normal_stiffness_pos (shear cement) (shear sand) (nu sand) (nu cement) a) as [sn [Esn Hsn]];
    try assumption; try lra; [apply Ss|].
  assert (Ec : contact_cement cement sand c g sr n =
     mat_of_moduli (1 / 6 * n * (1 - g) * primary_wave_modulus cement * sn)
       (3 / 5 * (1 / 6 * n * (1 - g) * primary_wave_modulus cement * sn)
        + sr * (3 / 20) * n * (1 - g) * shear cement * st)
       ((1 - c) * (a * dens cement + (1 - a) * dens sand))).
  { unfold contact_cement. destruct (check_porosities_cases g c) as [[B _]|[_ [_ E]]];
      [unfold bad_porosities in B; lra|].
    rewrite E. cbn [bind]. rewrite Ea. cbn [bind]. rewrite Ens. cbn [bind]. rewrite Est. cbn [bind].
    rewrite Enc. cbn [bind]. rewrite Esn. cbn [bind]. reflexivity. }
  set (k := 1 / 6 * n * (1 - g) * primary_wave_modulus cement * sn) in *.
  assert (Hk : 0 < k).
  { unfold k, primary_wave_modulus. destruct Sc as [[_ [K _]] S].
    repeat apply Rmult_lt_0_compat; lra. }
  assert (Ht : 0 <= sr * (3 / 20) * n * (1 - g) * shear cement * st).
  { destruct Sc as [_ S]. repeat apply Rmult_le_pos; lra. }
  assert (Hd : 0 < (1 - c) * (a * dens cement + (1 - a) * dens sand)).
  { destruct Sc as [[D1 _] _]. destruct Ss as [[D2 _] _]. apply Rmult_lt_0_compat; [lra|].
    destruct (Req_EM_T a 0) as [->|]; nra. }
  destruct (mat_of_moduli_spec k (3 / 5 * k + sr * (3 / 20) * n * (1 - g) * shear cement * st)
    ((1 - c) * (a * dens cement + (1 - a) * dens sand)) Hd ltac:(lra) ltac:(lra)) as [cc [Ecc _]].
  destruct (mat_of_moduli_wf _ _ _ _ Ecc) as [W [K [M D]]].
  exists a, cc. split; [reflexivity|]. split; [exact Ha|]. split; [rewrite Ec; exact Ecc|].
  split; [split; [exact W|rewrite M; lra]|]. split; [rewrite K; exact Hk|].
  split; [rewrite K, M; lra|exact D].
Qed.

Lemma cc_mass cement sand c g sr n a cc :
  contact_cement cement sand c g sr n = Ok cc -> cement_radius_ratio c g = Ok a ->
  (dens cc = (1 - g) * dens sand + (g - c) * dens cement <->
   dens cement = dens sand \/ a * (1 - c) = g - c).
Proof.
  intros H Ea.
  assert (D : dens cc = (1 - c) * (a * dens cement + (1 - a) * dens sand)).
  { unfold contact_cement in H. destruct (check_porosities g c); [|discriminate]. cbn [bind] in H.
    rewrite Ea in H. cbn [bind] in H.
    destruct (poisson_ratio sand); [|discriminate]. cbn [bind] in H.
    destruct (shear_stiffness _ _ _ _); [|discriminate]. cbn [bind] in H.
    destruct (poisson_ratio cement); [|discriminate]. cbn [bind] in H.
    destruct (normal_stiffness _ _ _ _ _); [|discriminate]. cbn [bind] in H.
    apply mat_of_moduli_wf in H. apply H. }
  rewrite D. split.
  - intros E. assert (Z : (a * (1 - c) - (g - c)) * (dens cement - dens sand) = 0) by lra.
    apply Rmult_integral in Z. destruct Z; [right|left]; lra.
  - intros [E|E]; [rewrite E; ring|].
    replace ((1 - c) * (a * dens cement + (1 - a) * dens sand))
      with (a * (1 - c) * dens cement + ((1 - c) - a * (1 - c)) * dens sand) by ring.
    rewrite E. ring.
Qed.

Lemma quartz_solid : solid (sample 36800000000 44000000000 2650).
Proof. apply sample_solid; lra. Qed.
Lemma calcite_solid : solid (sample 76800000000 32000000000 2710).
Proof. apply sample_solid; lra. Qed.
Lemma quartz_calcite c g : 0 <= c <= g -> g < 1 ->
  cementable (sample 76800000000 32000000000 2710) (sample 36800000000 44000000000 2650) c g.
Proof.
  intros. repeat split; try apply calcite_solid; try apply quartz_solid; simpl; lra.
Qed.

Lemma cc_mass_refuted :
  exists cement sand c g cc,
    cementable cement sand c g /\
    contact_cement cement sand c g 1 9 = Ok cc /\
    dens cc > (1 - g) * dens sand + (g - c) * dens cement.
Proof.
  pose (cement := sample 76800000000 32000000000 2710). pose (sand := sample 36800000000 44000000000 2650).
  assert (C : cementable cement sand (1 / 4) (2 / 5)) by (apply quartz_calcite; lra).
  destruct (cc_value cement sand (1 / 4) (2 / 5) 1 9 C ltac:(lra) ltac:(lra))
    as [a [cc [Ea [Ha [Ec [_ [_ [_ D]]]]]]]].
  exists cement, sand, (1 / 4), (2 / 5), cc. split; [exact C|]. split; [exact Ec|].
  assert (A : 3 / 10 <= a).
  { destruct (Rle_lt_dec 1 a) as [h|h]; [lra|].
    pose proof (radius_square _ _ _ Ea h). nra. }
  rewrite D. unfold cement, sand. simpl. lra.
Qed.

(* ---- constant cement ---- *)
Lemma constant_value sand cement phi c g n sr :
  cementable cement sand c g -> 0 < c -> 0 <= phi <= c -> 0 <= sr -> 0 < n ->
  exists d cc r, hashin_shtrikman_walpole cement sand (g - c) "lower" = Ok d /\ solid d /\
    contact_cement cement sand c g sr n = Ok cc /\ solid cc /\
    constant_cement sand cement phi c g n sr = Ok r /\ solid r /\
    hashin_shtrikman_walpole d cc (1 - phi / c) "lower" = Ok r /\
    between (bulk d) (bulk r) (bulk cc) /\ between (shear d) (shear r) (shear cc).
Proof.
  intros C Hc Hphi Hs Hn. pose proof C as [Sc [Ss [_ [Hcg Hg]]]].
  destruct (walpole_between false cement sand (g - c) (solid_mixable false _ _ Sc Ss) ltac:(lra))
    as [d [Ed [Wd [_ [Bm _]]]]].
  assert (Sd : solid d).
  { split; [exact Wd|]. destruct Bm as [B _]. eapply Rlt_le_trans; [|exact B].
    apply Rmin_glb_lt; [apply Sc|apply Ss]. }
  destruct (cc_value cement sand c g sr n C Hs Hn) as [a [cc [_ [_ [Ec [Scc _]]]]]].
  destruct (walpole_between false d cc (1 - phi / c) (solid_mixable false _ _ Sd Scc)
              (div_ratio phi c Hc Hphi)) as [r [Er [Wr [Bk [Bmu _]]]]].
  exists d, cc, r. split; [exact Ed|]. split; [exact Sd|]. split; [exact Ec|]. split; [exact Scc|].
  split.
  { unfold constant_cement. change "lower"%string with (bound_name false). rewrite Ed. cbn [bind].
    rewrite Ec. cbn [bind]. rewrite np_div_ok by lra. cbn [bind]. exact Er. }
  split.
  { split; [exact Wr|]. destruct Bmu as [B _]. eapply Rlt_le_trans; [|exact B].
    apply Rmin_glb_lt; [apply Sd|apply Scc]. }
  split; [exact Er|]. split; assumption.
Qed.

Lemma constant_endpoints sand cement c g n sr :
  cementable cement sand c g -> 0 < c -> 0 <= sr -> 0 < n ->
  constant_cement sand cement 0 c g n sr = hashin_shtrikman_walpole cement sand (g - c) "lower" /\
  constant_cement sand cement c c g n sr = contact_cement cement sand c g sr n.
Proof.
  intros C Hc Hs Hn.
  destruct (constant_value sand cement 0 c g n sr C Hc ltac:(lra) Hs Hn)
    as [d [cc [r [Ed [Sd [Ec [Scc [Er [_ [Er' _]]]]]]]]]].
  destruct (constant_value sand cement c c g n sr C Hc ltac:(lra) Hs Hn)
    as [d1 [cc1 [r1 [Ed1 [_ [Ec1 [_ [Er1 [_ [Er1' _]]]]]]]]]].
  assert (d1 = d) by congruence. assert (cc1 = cc) by congruence. subst d1 cc1.
  destruct (walpole_endpoints false d cc (solid_mixable false _ _ Sd Scc)) as [E1 E0].
  change (bound_name false) with "lower"%string in *.
  rewrite Er, Er1, Ed, Ec. split.
  - replace (1 - 0 / c) with 1 in Er' by (field; lra). congruence.
  - replace (1 - c / c) with 0 in Er1' by (field; lra). congruence.
Qed.

(* ---- patchy cement ---- *)
Lemma patchy_weight_range k l u : 0 <= patchy_weight k l u <= 1.
Proof.
  unfold patchy_weight. split; [|apply Rmin_l].
  apply Rmin_glb; [lra|apply Rmax_r].
Qed.
Lemma patchy_weight_up l u : patchy_weight u l u = 1.
Proof.
  unfold patchy_weight. destruct (Req_EM_T u l).
  - rewrite (Rmax_left 1 0) by lra. apply Rmin_left. lra.
  - replace ((u - l) / (u - l)) with 1 by (field; lra).
    rewrite (Rmax_left 1 0) by lra. apply Rmin_left. lra.
Qed.
Lemma patchy_weight_inside k l u : l <= k <= u -> l + patchy_weight k l u * (u - l) = k.
Proof.
  intros H. unfold patchy_weight. destruct (Req_EM_T u l) as [->|n0].
  - lra.
  - assert (0 <= (k - l) / (u - l)) by (apply div_nonneg; lra).
    assert ((k - l) / (u - l) <= 1).
    { apply Rmult_le_reg_r with (u - l); [lra|]. unfold Rdiv. rewrite Rmult_assoc, Rinv_l by lra. lra. }
    rewrite Rmax_left by lra. rewrite Rmin_right by lra. field. lra.
Qed.
Lemma blend_between f w u : 0 <= w <= 1 -> between f (f + w * (u - f)) u.
Proof.
  intros H. unfold between. unfold Rmin, Rmax. destruct (Rle_dec f u); split; nra.
Qed.

Lemma dense_solid cement sand u g :
  cementable cement sand u g ->
  exists d, hashin_shtrikman_walpole cement sand (g - u) "lower" = Ok d /\ solid d.
Proof.
  intros [Sc [Ss [_ [Hcg Hg]]]].
  destruct (walpole_between false cement sand (g - u) (solid_mixable false _ _ Sc Ss) ltac:(lra))
    as [d [Ed [Wd [_ [Bm _]]]]].
  exists d. split; [exact Ed|]. split; [exact Wd|]. destruct Bm as [B _]. eapply Rlt_le_trans; [|exact B].
  apply Rmin_glb_lt; [apply Sc|apply Ss].
Qed.

Lemma patchy_value sand cement phi c u p lp g sr nf nc :
  patchy_input sand cement phi c u g -> 0 < p -> 0 < lp -> 0 <= sr -> 0 < nf -> 0 < nc ->
  exists d fr lo up ct cst r,
    hashin_shtrikman_walpole cement sand (g - u) "lower" = Ok d /\ solid d /\
    friable_sand d phi g p nf sr = Ok fr /\ solid fr /\
    friable_sand d phi g lp nf sr = Ok lo /\ solid lo /\
    constant_cement sand cement phi u g nc sr = Ok up /\ solid up /\
    contact_cement cement sand c g sr nc = Ok ct /\ solid ct /\
    hashin_shtrikman_walpole d ct (1 - phi / c) "lower" = Ok cst /\ solid cst /\
    patchy_cement sand cement phi c u p lp g sr nf nc = Ok r /\ solid r /\
    bulk r = bulk fr + patchy_weight (bulk cst) (bulk lo) (bulk up) * (bulk up - bulk fr) /\
    shear r = shear fr + patchy_weight (shear cst) (shear lo) (shear up) * (shear up - shear fr) /\
    dens r = (1 - phi - (g - c)) * dens sand + (g - c) * dens cement.
Proof.
  intros [Cc [Cu [Hphi [Hpu [Hc Hu]]]]] Hp Hlp Hs Hnf Hnc.
  destruct (dense_solid cement sand u g Cu) as [d [Ed Sd]].
  assert (Hg : 0 < g < 1) by (destruct Cc as [_ [_ [_ [? ?]]]]; lra).
  assert (Hcg : c <= g) by (destruct Cc as [_ [_ [_ [? ?]]]]; lra).
  assert (G : grain_pack d g sr nf) by (split; [exact Sd|]; repeat split; lra).
  destruct (friable_value d phi g p nf sr G ltac:(lra) ltac:(lra) Hp)
    as [_ [fr [_ [_ [_ [_ [Ef [Sf _]]]]]]]].
  destruct (friable_value d phi g lp nf sr G ltac:(lra) ltac:(lra) Hlp)
    as [_ [lo [_ [_ [_ [_ [El [Sl _]]]]]]]].
  destruct (constant_value sand cement phi u g nc sr Cu Hu ltac:(lra) Hs Hnc)
    as [d1 [_ [up [_ [_ [_ [_ [Eup [Sup _]]]]]]]]].
  destruct (cc_value cement sand c g sr nc Cc Hs Hnc) as [_ [ct [_ [_ [Ect [Sct _]]]]]].
  destruct (walpole_between false d ct (1 - phi / c) (solid_mixable false _ _ Sd Sct)
              (div_ratio phi c Hc Hphi)) as [cst [Ecst [Wcst [_ [Bmu _]]]]].
  assert (Scst : solid cst).
  { split; [exact Wcst|]. destruct Bmu as [B _]. eapply Rlt_le_trans; [|exact B].
    apply Rmin_glb_lt; [apply Sd|apply Sct]. }
  set (wk := patchy_weight (bulk cst) (bulk lo) (bulk up)).
  set (wm := patchy_weight (shear cst) (shear lo) (shear up)).
  assert (Hwk : 0 <= wk <= 1) by apply patchy_weight_range.
  assert (Hwm : 0 <= wm <= 1) by apply patchy_weight_range.
  assert (Hd : 0 < (1 - phi - (g - c)) * dens sand + (g - c) * dens cement).
  { destruct Cc as [[[D1 _] _] [[[D2 _] _] _]].
    assert (0 < (1 - phi - (g - c)) * dens sand) by (apply Rmult_lt_0_compat; lra).
    assert (0 <= (g - c) * dens cement) by (apply Rmult_le_pos; lra). lra. }
  assert (Hk : 0 <= bulk fr + wk * (bulk up - bulk fr)).
  { destruct Sf as [[_ [? _]] _]. destruct Sup as [[_ [? _]] _]. nra. }
  assert (Hm : 0 < shear fr + wm * (shear up - shear fr)).
  { destruct Sf as [_ ?]. destruct Sup as [_ ?]. destruct (Req_EM_T wm 0) as [->|]; nra. }
  destruct (mat_of_moduli_spec (bulk fr + wk * (bulk up - bulk fr)) (shear fr + wm * (shear up - shear fr))
     _ Hd Hk ltac:(lra)) as [r [Er _]].
  destruct (mat_of_moduli_wf _ _ _ _ Er) as [Wr [K [M D]]].
  exists d, fr, lo, up, ct, cst, r.
  split; [exact Ed|]. split; [exact Sd|]. split; [exact Ef|]. split; [exact Sf|].
  split; [exact El|]. split; [exact Sl|]. split; [exact Eup|]. split; [exact Sup|].
  split; [exact Ect|]. split; [exact Sct|]. split; [exact Ecst|]. split; [exact Scst|].
  split.
  { unfold patchy_cement. rewrite Ed. cbn [bind]. rewrite Ef. cbn [bind]. rewrite El. cbn [bind].
    rewrite Eup. cbn [bind]. rewrite Ect. cbn [bind]. rewrite np_div_ok by lra. cbn [bind].
    change "lower"%string with (bound_name false). rewrite Ecst. cbn [bind]. exact Er. }
  split; [split; [exact Wr|rewrite M; exact Hm]|]. split; [exact K|]. split; [exact M|exact D].
Qed.

Lemma patchy_between sand cement phi c u p lp g sr nf nc :
  patchy_input sand cement phi c u g -> 0 < p -> 0 < lp -> 0 <= sr -> 0 < nf -> 0 < nc ->
  exists d fr up r,
    hashin_shtrikman_walpole cement sand (g - u) "lower" = Ok d /\
    friable_sand d phi g p nf sr = Ok fr /\
    constant_cement sand cement phi u g nc sr = Ok up /\
    patchy_cement sand cement phi c u p lp g sr nf nc = Ok r /\ solid r /\
    between (bulk fr) (bulk r) (bulk up) /\ between (shear fr) (shear r) (shear up) /\
    (c = u -> bulk r = bulk up /\ shear r = shear up).
Proof.
  intros PI0 Hp Hlp Hs Hnf Hnc.
  destruct (patchy_value sand cement phi c u p lp g sr nf nc PI0 Hp Hlp Hs Hnf Hnc)
    as [d [fr [lo [up [ct [cst [r [Ed [Sd [Ef [Sf [El [Sl [Eup [Sup [Ect [Sct [Ecst [Scst [Er [Sr [K [M D]]]]]]]]]]]]]]]]]]]]]]].
  exists d, fr, up, r. split; [exact Ed|]. split; [exact Ef|]. split; [exact Eup|]. split; [exact Er|].
  split; [exact Sr|]. rewrite K, M.
  split; [apply blend_between, patchy_weight_range|].
  split; [apply blend_between, patchy_weight_range|].
  intros ->. assert (Hu : 0 < u) by apply PI0.
  unfold constant_cement in Eup. rewrite Ed in Eup. cbn [bind] in Eup. rewrite Ect in Eup. cbn [bind] in Eup.
  rewrite np_div_ok in Eup by lra. cbn [bind] in Eup.
  assert (cst = up) by congruence. subst cst. rewrite !patchy_weight_up. split; ring.
Qed.

Lemma patchy_density sand cement phi c u p lp g sr nf nc r :
  patchy_cement sand cement phi c u p lp g sr nf nc = Ok r ->
  dens r = (1 - phi - (g - c)) * dens sand + (g - c) * dens cement /\
  (dens cement = dens sand -> dens r = dens sand * (1 - phi)).
Proof.
  intros H.
  assert (D : dens r = (1 - phi - (g - c)) * dens sand + (g - c) * dens cement).
  { unfold patchy_cement in H.
    repeat match type of H with
    | bind ?e _ = _ => destruct e; [|discriminate]; cbn [bind] in H
    end.
    apply mat_of_moduli_wf in H. apply H. }
  split; [exact D|]. intros E. rewrite D, E. ring.
Qed.

Lemma patchy_pressure sand cement phi c u p q lp g sr nf nc :
  patchy_input sand cement phi c u g -> 0 < p -> p <= q -> 0 < lp -> 0 <= sr -> 0 < nf -> 0 < nc ->
  exists r r', patchy_cement sand cement phi c u p lp g sr nf nc = Ok r /\
    patchy_cement sand cement phi c u q lp g sr nf nc = Ok r' /\
    bulk r <= bulk r' /\ shear r <= shear r' /\ dens r = dens r'.
Proof.
  intros PI0 Hp Hq Hlp Hs Hnf Hnc.
  destruct (patchy_value sand cement phi c u p lp g sr nf nc PI0 Hp Hlp Hs Hnf Hnc)
    as [d [fr [lo [up [ct [cst [r [Ed [Sd [Ef [Sf [El [Sl [Eup [Sup [Ect [Sct [Ecst [Scst [Er [Sr [K [M D]]]]]]]]]]]]]]]]]]]]]]].
  destruct (patchy_value sand cement phi c u q lp g sr nf nc PI0 ltac:(lra) Hlp Hs Hnf Hnc)
    as [d' [fr' [lo' [up' [ct' [cst' [r' [Ed' [Sd' [Ef' [Sf' [El' [Sl' [Eup' [Sup' [Ect' [Sct' [Ecst' [Scst' [Er' [Sr' [K' [M' D']]]]]]]]]]]]]]]]]]]]]]].
  assert (d' = d) by congruence. subst d'. assert (lo' = lo) by congruence. subst lo'.
  assert (up' = up) by congruence. subst up'. assert (ct' = ct) by congruence. subst ct'.
  assert (cst' = cst) by congruence. subst cst'.
  exists r, r'. split; [exact Er|]. split; [exact Er'|].
  destruct PI0 as [Cc [Cu [Hphi [Hpu [Hc Hu]]]]].
  assert (Hg : 0 < g < 1 /\ c <= g) by (destruct Cc as [_ [_ [_ [? ?]]]]; lra).
  assert (G : grain_pack d g sr nf) by (split; [exact Sd|]; repeat split; lra).
  destruct (friable_pressure d phi g p q nf sr G ltac:(lra) ltac:(lra) Hp Hq) as [s [s' [E1 [E2 [Lk Lm]]]]].
  assert (s = fr) by congruence. assert (s' = fr') by congruence. subst s s'.
  rewrite K, K', M, M'.
  pose proof (patchy_weight_range (bulk cst) (bulk lo) (bulk up)).
  pose proof (patchy_weight_range (shear cst) (shear lo) (shear up)).
  split; [nra|]. split; [nra|congruence].
Qed.

Lemma patchy_reproduces sand cement phi c u p g sr nf nc :
  patchy_input sand cement phi c u g -> 0 < p -> 0 <= sr -> 0 < nf -> 0 < nc ->
  exists d lo up ct cst r,
    hashin_shtrikman_walpole cement sand (g - u) "lower" = Ok d /\
    friable_sand d phi g p nf sr = Ok lo /\
    constant_cement sand cement phi u g nc sr = Ok up /\
    contact_cement cement sand c g sr nc = Ok ct /\
    hashin_shtrikman_walpole d ct (1 - phi / c) "lower" = Ok cst /\
    patchy_cement sand cement phi c u p p g sr nf nc = Ok r /\
    (bulk lo <= bulk cst <= bulk up -> bulk r = bulk cst) /\
    (shear lo <= shear cst <= shear up -> shear r = shear cst).
Proof.
  intros PI0 Hp Hs Hnf Hnc.
  destruct (patchy_value sand cement phi c u p p g sr nf nc PI0 Hp Hp Hs Hnf Hnc)
    as [d [fr [lo [up [ct [cst [r [Ed [Sd [Ef [Sf [El [Sl [Eup [Sup [Ect [Sct [Ecst [Scst [Er [Sr [K [M D]]]]]]]]]]]]]]]]]]]]]]].
  assert (fr = lo) by congruence. subst fr.
  exists d, lo, up, ct, cst, r. repeat (split; [assumption|]).
  rewrite K, M. split; intros; apply patchy_weight_inside; assumption.
Qed.

(* ---- frictionless packs ---- *)
Lemma nu_frictionless m : solid m -> shear m = 3 / 5 * bulk m -> poisson_ratio m = Ok (1 / 4).
Proof.
  intros S E. destruct (nu_ok m S) as [-> _]. f_equal. unfold nu. rewrite E.
  destruct S as [_ S]. field. lra.
Qed.
Lemma hm_frictionless m phi n p : grain_pack m phi 0 n -> 0 < p ->
  exists g, hertz_mindlin m phi p 0 n = Ok g /\ shear g = 3 / 5 * bulk g /\ poisson_ratio g = Ok (1 / 4).
Proof.
  intros G Hp. destruct (hm_value m phi p 0 n G ltac:(lra)) as [g [E [W [K [M D]]]]].
  assert (E1 : shear g = 3 / 5 * bulk g).
  { rewrite K, M, (hm_shear_bulk m phi 0 n) by exact G. destruct G as [S _].
    destruct (nu_ok m S) as [_ V]. field. lra. }
  exists g. split; [exact E|]. split; [exact E1|]. apply nu_frictionless; [|exact E1].
  split; [exact W|rewrite M; apply hm_shear_pos; assumption].
Qed.
Lemma cc_frictionless cement sand c g n : cementable cement sand c g -> 0 < n ->
  exists cc, contact_cement cement sand c g 0 n = Ok cc /\ shear cc = 3 / 5 * bulk cc /\
    poisson_ratio cc = Ok (1 / 4).
Proof.
  intros C Hn. destruct (cc_value cement sand c g 0 n C ltac:(lra) Hn) as [a [cc [_ [_ [E [S _]]]]]].
  exists cc. split; [exact E|].
  assert (E1 : shear cc = 3 / 5 * bulk cc).
  { unfold contact_cement in E.
    repeat match type of E with
    | bind ?e _ = _ => destruct e; [|discriminate]; cbn [bind] in E
    end.
    apply mat_of_moduli_wf in E. destruct E as [_ [-> [-> _]]]. ring. }
  split; [exact E1|]. apply nu_frictionless; assumption.
Qed.

(* ---- change of units ---- *)
Lemma hs_scale l f x1 x2 z : 0 < l -> 0 <= f <= 1 -> 0 <= x1 -> 0 <= x2 -> 0 < z ->
  hs f (l * x1) (l * x2) (l * z) = l * hs f x1 x2 z.
Proof.
  intros Hl Hf H1 H2 Hz. pose proof (hs_den_pos f x1 x2 z Hf H1 H2 Hz). unfold hs. field. split; [lra|].
  replace (f * (l * x2) + (1 - f) * (l * x1) + l * z) with (l * (f * x2 + (1 - f) * x1 + z)) by ring.
  apply Rmult_integral_contrapositive_currified; lra.
Qed.
Lemma pick_scale l u a b : 0 < l -> pick u (l * a) (l * b) = l * pick u a b.
Proof.
  intros Hl. unfold pick. destruct u.
  - apply RmaxRmult. lra.
  - unfold Rmin. destruct (Rle_dec (l * a) (l * b)), (Rle_dec a b); try reflexivity; exfalso; nra.
Qed.
Lemma zeta_scale l k m : 0 < l -> 0 <= k -> 0 < m -> zeta (l * k) (l * m) = l * zeta k m.
Proof. intros. unfold zeta. field. split; [lra|]. nra. Qed.

Lemma scaled_solid l m m' : 0 < l -> solid m -> scaled l m m' -> solid m'.
Proof.
  intros Hl [_ S] [W [_ [E _]]]. split; [exact W|]. rewrite E. apply Rmult_lt_0_compat; assumption.
Qed.
Lemma scaled_mixable l u m1 m2 m1' m2' : 0 < l -> mixable u m1 m2 ->
  scaled l m1 m1' -> scaled l m2 m2' -> mixable u m1' m2'.
Proof.
  intros Hl [W1 [W2 H]] [W1' [_ [S1 _]]] [W2' [_ [S2 _]]]. split; [exact W1'|]. split; [exact W2'|].
  rewrite S1, S2. destruct u.
  - destruct H; [left|right]; apply Rmult_lt_0_compat; assumption.
  - destruct H; split; apply Rmult_lt_0_compat; assumption.
Qed.

Lemma walpole_scaled l u m1 m2 m1' m2' f :
  0 < l -> mixable u m1 m2 -> scaled l m1 m1' -> scaled l m2 m2' -> 0 <= f <= 1 ->
  exists r r', hashin_shtrikman_walpole m1 m2 f (bound_name u) = Ok r /\
    hashin_shtrikman_walpole m1' m2' f (bound_name u) = Ok r' /\ scaled l r r'.
Proof.
  intros Hl Mx S1 S2 Hf. pose proof (scaled_mixable l u _ _ _ _ Hl Mx S1 S2) as Mx'.
  destruct (walpole_value u m1 m2 f Mx Hf) as [r [E [W [K [M D]]]]].
  destruct (walpole_value u m1' m2' f Mx' Hf) as [r' [E' [W' [K' [M' D']]]]].
  exists r, r'. split; [exact E|]. split; [exact E'|]. split; [exact W'|].
  pose proof (pick_pos u m1 m2 Mx) as Hp.
  destruct S1 as [_ [k1 [s1 d1]]]. destruct S2 as [_ [k2 [s2 d2]]].
  destruct Mx as [[_ [B1 [Sh1 _]]] [[_ [B2 [Sh2 _]]] _]].
  rewrite K, K', M, M', D, D'. unfold wbulk, wshear. rewrite k1, k2, s1, s2, d1, d2.
  rewrite !pick_scale by exact Hl.
  assert (0 <= pick u (bulk m1) (bulk m2)) by (apply pick_nonneg; assumption).
  rewrite zeta_scale by assumption.
  replace (4 / 3 * (l * pick u (shear m1) (shear m2))) with (l * (4 / 3 * pick u (shear m1) (shear m2))) by ring.
  rewrite !hs_scale; try assumption; try lra. apply zeta_pos; assumption.
Qed.

Lemma nu_scaled l m m' : 0 < l -> solid m -> scaled l m m' -> nu m' = nu m.
Proof.
  intros Hl [[_ [K _]] S] [_ [k [s _]]]. unfold nu. rewrite k, s. field. split; nra.
Qed.

Lemma hm_scaled l m m' phi p sr n :
  0 < l -> grain_pack m phi sr n -> scaled l m m' -> 0 <= p ->
  exists g g', hertz_mindlin m phi p sr n = Ok g /\ hertz_mindlin m' phi (l * p) sr n = Ok g' /\ scaled l g g'.
Proof.
  intros Hl G Sc Hp. pose proof G as [S [P [Hs N]]].
  assert (G' : grain_pack m' phi sr n) by (split; [apply (scaled_solid l m m'); assumption|auto]).
  destruct (hm_value m phi p sr n G Hp) as [g [E [W [K [M D]]]]].
  destruct (hm_value m' phi (l * p) sr n G' ltac:(nra)) as [g' [E' [W' [K' [M' D']]]]].
  exists g, g'. split; [exact E|]. split; [exact E'|]. split; [exact W'|].
  pose proof (nu_scaled l m m' Hl S Sc) as Hnu. destruct (nu_ok m S) as [_ V].
  pose proof (hm_den _ _ _ _ G) as Dn. pose proof PI_RGT_0.
  assert (Ha : hm_a m' phi n (l * p) = hm_a m phi n p).
  { unfold hm_a. rewrite Hnu. destruct Sc as [_ [_ [-> _]]]. f_equal. destruct S as [_ S]. field. repeat split; lra. }
  assert (Hk : hm_bulk m' phi n (l * p) = l * hm_bulk m phi n p).
  { unfold hm_bulk. rewrite Ha, Hnu. destruct Sc as [_ [_ [-> _]]]. field. split; lra. }
  rewrite K, K', M, M', D, D'. split; [exact Hk|].
  split; [|destruct Sc as [_ [_ [_ ->]]]; reflexivity].
  rewrite (hm_shear_bulk m phi sr n), (hm_shear_bulk m' phi sr n) by assumption. rewrite Hk, Hnu. ring.
Qed.

Lemma friable_scaled l m m' phi c p n sr :
  0 < l -> grain_pack m c sr n -> scaled l m m' -> 0 < c -> 0 <= phi <= c -> 0 < p ->
  exists s s', friable_sand m phi c p n sr = Ok s /\ friable_sand m' phi c (l * p) n sr = Ok s' /\ scaled l s s'.
Proof.
  intros Hl G Sc Hc Hphi Hp. pose proof G as [S _].
  destruct (hm_scaled l m m' c p sr n Hl G Sc ltac:(lra)) as [g [g' [E [E' Sg]]]].
  destruct (hm_value m c p sr n G ltac:(lra)) as [g0 [E0 [W [_ [M _]]]]].
  assert (g0 = g) by congruence. subst g0.
  assert (Hg : solid g) by (split; [exact W|rewrite M; apply hm_shear_pos; assumption]).
  destruct (walpole_scaled l false m g m' g' (1 - phi / c) Hl (solid_mixable _ _ _ S Hg) Sc Sg
              (div_ratio phi c Hc Hphi)) as [s [s' [Es [Es' Ss]]]].
  exists s, s'. unfold friable_sand. rewrite E, E'. cbn [bind]. rewrite !np_div_ok by lra. auto.
Qed.

Lemma cc_scaled l cement sand cement' sand' c g sr n :
  0 < l -> cementable cement sand c g -> scaled l cement cement' -> scaled l sand sand' -> 0 <= sr -> 0 < n ->
  exists r r', contact_cement cement sand c g sr n = Ok r /\
    contact_cement cement' sand' c g sr n = Ok r' /\ scaled l r r'.
Proof.
  intros Hl C Sc Ss Hs Hn. pose proof C as [Sc0 [Ss0 [Hmu [Hcg Hg]]]].
  assert (C' : cementable cement' sand' c g).
  { split; [apply (scaled_solid l cement); assumption|]. split; [apply (scaled_solid l sand); assumption|].
    split; [|auto]. destruct Sc as [_ [_ [-> _]]]. destruct Ss as [_ [_ [-> _]]]. nra. }
  destruct (cc_value cement sand c g sr n C Hs Hn) as [a [r [Ea [Ha [E [Sr _]]]]]].
  destruct (cc_value cement' sand' c g sr n C' Hs Hn) as [a' [r' [Ea' [_ [E' [Sr' _]]]]]].
  exists r, r'. split; [exact E|]. split; [exact E'|]. split; [apply Sr'|].
  destruct (nu_ok cement Sc0) as [Nc _]. destruct (nu_ok sand Ss0) as [Ns _].
  destruct (nu_ok cement' (scaled_solid _ _ _ Hl Sc0 Sc)) as [Nc' _].
  destruct (nu_ok sand' (scaled_solid _ _ _ Hl Ss0 Ss)) as [Ns' _].
  rewrite (nu_scaled l cement cement' Hl Sc0 Sc) in Nc'.
  rewrite (nu_scaled l sand sand' Hl Ss0 Ss) in Ns'.
  pose proof PI_RGT_0.
  assert (Eq1 : forall x, np_div (x * shear cement') (PI * shear sand') = np_div (x * shear cement) (PI * shear sand)).
  { intros x. destruct Sc as [_ [_ [-> _]]]. destruct Ss as [_ [_ [-> _]]]. destruct Ss0 as [_ P].
    assert (0 < PI * shear sand) by (apply Rmult_lt_0_compat; assumption).
    rewrite !np_div_ok; [|lra|].
    - f_equal. field. repeat split; lra.
    - replace (PI * (l * shear sand)) with (l * (PI * shear sand)) by ring.
      apply Rmult_integral_contrapositive_currified; lra. }
  assert (Est : forall v x, shear_stiffness (shear cement') (shear sand') v x = shear_stiffness (shear cement) (shear sand) v x).
  { intros. unfold shear_stiffness. specialize (Eq1 1). rewrite !Rmult_1_l in Eq1. rewrite Eq1. reflexivity. }
  assert (Esn : forall v w x, normal_stiffness v w (shear cement') (shear sand') x = normal_stiffness v w (shear cement) (shear sand) x).
  { intros. unfold normal_stiffness. rewrite Eq1. reflexivity. }
  unfold contact_cement in E, E'. rewrite Nc, Ns in E. rewrite Nc', Ns' in E'.
  destruct (check_porosities g c); [|discriminate]. cbn [bind] in E, E'.
  rewrite Ea in E, E'. cbn [bind] in E, E'. rewrite Est in E'.
  destruct (shear_stiffness _ _ _ _); [|discriminate]. cbn [bind] in E, E'. rewrite Esn in E'.
  destruct (normal_stiffness _ _ _ _ _); [|discriminate]. cbn [bind] in E, E'.
  apply mat_of_moduli_wf in E, E'.
  destruct E as [_ [-> [-> ->]]]. destruct E' as [_ [-> [-> ->]]].
  unfold primary_wave_modulus.
  destruct Sc as [_ [-> [-> ->]]]. destruct Ss as [_ [_ [_ ->]]].
  split; [ring|]. split; ring.
Qed.

Lemma constant_scaled l cement sand cement' sand' phi c g sr n :
  0 < l -> cementable cement sand c g -> scaled l cement cement' -> scaled l sand sand' ->
  0 < c -> 0 <= phi <= c -> 0 <= sr -> 0 < n ->
  exists r r', constant_cement sand cement phi c g n sr = Ok r /\
    constant_cement sand' cement' phi c g n sr = Ok r' /\ scaled l r r'.
Proof.
  intros Hl C Sc Ss Hc Hphi Hs Hn. pose proof C as [Sc0 [Ss0 [Hmu [Hcg Hg]]]].
  destruct (walpole_scaled l false cement sand cement' sand' (g - c) Hl (solid_mixable _ _ _ Sc0 Ss0) Sc Ss
    ltac:(lra)) as [d [d' [Ed [Ed' Sd]]]].
  destruct (cc_scaled l cement sand cement' sand' c g sr n Hl C Sc Ss Hs Hn) as [k [k' [Ek [Ek' Sk]]]].
  destruct (constant_value sand cement phi c g n sr C Hc Hphi Hs Hn)
    as [d0 [k0 [r0 [Ed0 [Hd [Ek0 [Hk _]]]]]]].
  change (bound_name false) with "lower"%string in *.
  assert (d0 = d) by congruence. assert (k0 = k) by congruence. subst d0 k0.
  destruct (walpole_scaled l false d k d' k' (1 - phi / c) Hl (solid_mixable _ _ _ Hd Hk) Sd Sk
    (div_ratio phi c Hc Hphi)) as [r [r' [Er [Er' Sr]]]].
  exists r, r'. unfold constant_cement. rewrite Ed, Ed'. cbn [bind]. rewrite Ek, Ek'. cbn [bind].
  rewrite !np_div_ok by lra. auto.
Qed.

Lemma weight_scale l k lo up : 0 < l -> patchy_weight (l * k) (l * lo) (l * up) = patchy_weight k lo up.
Proof.
  intros Hl. unfold patchy_weight. destruct (Req_EM_T (l * up) (l * lo)) as [e|ne], (Req_EM_T up lo) as [e'|ne'].
  - reflexivity.
  - exfalso. apply ne'. apply Rmult_eq_reg_l with l; lra.
  - subst. lra.
  - do 2 f_equal. field. repeat split; try lra.
Qed.

Lemma patchy_scaled l cement sand cement' sand' phi c u p lp g sr nf nc :
  0 < l -> patchy_input sand cement phi c u g -> scaled l cement cement' -> scaled l sand sand' ->
  0 < p -> 0 < lp -> 0 <= sr -> 0 < nf -> 0 < nc ->
  exists r r', patchy_cement sand cement phi c u p lp g sr nf nc = Ok r /\
    patchy_cement sand' cement' phi c u (l * p) (l * lp) g sr nf nc = Ok r' /\ scaled l r r'.
Proof.
  intros Hl PI0 Sc Ss Hp Hlp Hs Hnf Hnc.
  assert (PI1 : patchy_input sand' cement' phi c u g).
  { destruct PI0 as [[Sc0 [Ss0 [Hmu [Hcg Hg]]]] [[_ [_ [_ [Hug _]]]] Q]].
    assert (Cm : shear sand' / 5 <= shear cement').
    { destruct Sc as [_ [_ [-> _]]]. destruct Ss as [_ [_ [-> _]]]. nra. }
    pose proof (scaled_solid l cement cement' Hl Sc0 Sc). pose proof (scaled_solid l sand sand' Hl Ss0 Ss).
    split; [|split; [|exact Q]]; (split; [assumption|]; split; [assumption|]; split; [assumption|]; split; assumption). }
  destruct (patchy_value sand cement phi c u p lp g sr nf nc PI0 Hp Hlp Hs Hnf Hnc)
    as [d [fr [lo [up [ct [cst [r [Ed [Sd [Ef [Sf [El [Sl [Eup [Sup [Ect [Sct [Ecst [Scst [Er [Sr [K [M D]]]]]]]]]]]]]]]]]]]]]]].
  destruct (patchy_value sand' cement' phi c u (l * p) (l * lp) g sr nf nc PI1 ltac:(nra) ltac:(nra) Hs Hnf Hnc)
    as [d' [fr' [lo' [up' [ct' [cst' [r' [Ed' [Sd' [Ef' [Sf' [El' [Sl' [Eup' [Sup' [Ect' [Sct' [Ecst' [Scst' [Er' [Sr' [K' [M' D']]]]]]]]]]]]]]]]]]]]]]].
  exists r, r'. split; [exact Er|]. split; [exact Er'|]. split; [apply Sr'|].
  destruct PI0 as [Cc [Cu [Hphi [Hpu [Hc Hu]]]]].
  assert (Hg : 0 < g < 1 /\ c <= g /\ u <= g) by (destruct Cc as [_ [_ [_ [? ?]]]]; destruct Cu as [_ [_ [_ [? ?]]]]; lra).
  assert (G : grain_pack d g sr nf) by (split; [exact Sd|]; repeat split; lra).
  destruct (walpole_scaled l false cement sand cement' sand' (g - u) Hl
     (solid_mixable _ _ _ (proj1 Cc) (proj1 (proj2 Cc))) Sc Ss ltac:(lra)) as [d0 [d0' [E1 [E1' Hd]]]].
  change (bound_name false) with "lower"%string in *.
  assert (d0 = d) by congruence. assert (d0' = d') by congruence. subst d0 d0'.
  destruct (friable_scaled l d d' phi g p nf sr Hl G Hd ltac:(lra) ltac:(lra) Hp) as [x [x' [E2 [E2' Hf]]]].
  assert (x = fr) by congruence. assert (x' = fr') by congruence. subst x x'.
  destruct (friable_scaled l d d' phi g lp nf sr Hl G Hd ltac:(lra) ltac:(lra) Hlp) as [x [x' [E3 [E3' Hlo]]]].
  assert (x = lo) by congruence. assert (x' = lo') by congruence. subst x x'.
  destruct (constant_scaled l cement sand cement' sand' phi u g sr nc Hl Cu Sc Ss Hu ltac:(lra) Hs Hnc)
    as [x [x' [E4 [E4' Hup]]]].
  assert (x = up) by congruence. assert (x' = up') by congruence. subst x x'.
  destruct (cc_scaled l cement sand cement' sand' c g sr nc Hl Cc Sc Ss Hs Hnc) as [x [x' [E5 [E5' Hct]]]].
  assert (x = ct) by congruence. assert (x' = ct') by congruence. subst x x'.
  destruct (walpole_scaled l false d ct d' ct' (1 - phi / c) Hl (solid_mixable _ _ _ Sd Sct) Hd Hct
    (div_ratio phi c Hc Hphi)) as [x [x' [E6 [E6' Hcst]]]].
  change (bound_name false) with "lower"%string in *.
  assert (x = cst) by congruence. assert (x' = cst') by congruence. subst x x'.
  rewrite K, K', M, M', D, D'.
  destruct Hf as [_ [-> [-> _]]]. destruct Hlo as [_ [-> [-> _]]]. destruct Hup as [_ [-> [-> _]]].
  destruct Hcst as [_ [-> [-> _]]]. rewrite !weight_scale by exact Hl.
  destruct Sc as [_ [_ [_ ->]]]. destruct Ss as [_ [_ [_ ->]]].
  split; [ring|]. split; ring.
Qed.

(* ---- the published contact cement equations ---- *)
Lemma cc_published cement sand c g sr n a v vc cc :
  solid cement -> solid sand ->
  cement_radius_ratio c g = Ok a -> poisson_ratio sand = Ok v -> poisson_ratio cement = Ok vc ->
  contact_cement cement sand c g sr n = Ok cc ->
  let Ln := 2 * shear cement / (PI * shear sand) * ((1 - v) * (1 - vc) / (1 - 2 * vc)) in
  let Lt := shear cement / (PI * shear sand) in
  let Sn := - (24153 / 1000000) * Rpower Ln (- (13646 / 10000)) * a ^ 2
            + 20405 / 100000 * Rpower Ln (- (89008 / 100000)) * a
            + 24649 / 100000000 * Rpower Ln (- (19864 / 10000)) in
  let St := - (1 / 100) * (226 / 100 * v ^ 2 + 207 / 100 * v + 23 / 10)
              * Rpower Lt (79 / 1000 * v ^ 2 + 1754 / 10000 * v - 1342 / 1000) * a ^ 2
            + (573 / 10000 * v ^ 2 + 937 / 10000 * v + 202 / 1000)
              * Rpower Lt (274 / 10000 * v ^ 2 + 529 / 10000 * v - 8765 / 10000) * a
            + 1 / 10000 * (9654 / 1000 * v ^ 2 + 4945 / 1000 * v + 31 / 10)
              * Rpower Lt (1867 / 100000 * v ^ 2 + 4011 / 10000 * v - 18186 / 10000) in
  bulk cc = n * (1 - g) / 6 * (bulk cement + 4 / 3 * shear cement) * Sn /\
  shear cc = 3 / 5 * bulk cc + sr * (3 * n * (1 - g) / 20 * shear cement * St).
Proof.
  intros Sc Ss Ea Ev Evc H Ln Lt Sn St.
  destruct (nu_ok cement Sc) as [E1 V1]. rewrite Evc in E1. injection E1 as E1. rewrite <- E1 in V1.
  destruct (nu_ok sand Ss) as [E2 V2]. rewrite Ev in E2. injection E2 as E2. rewrite <- E2 in V2.
  pose proof PI_RGT_0.
  assert (HD : 0 < PI * shear sand) by (apply Rmult_lt_0_compat; [assumption|apply Ss]).
  assert (HT : 0 < Lt) by (apply Rdiv_lt_0_compat; [apply Sc|exact HD]).
  assert (HN : 0 < Ln).
  { destruct Sc as [_ Sc]. apply Rmult_lt_0_compat; apply Rdiv_lt_0_compat; try lra. nra. }
  unfold contact_cement in H. destruct (check_porosities g c); [|discriminate]. cbn [bind] in H.
  rewrite Ea in H. cbn [bind] in H. rewrite Ev in H. cbn [bind] in H.
  unfold shear_stiffness in H. rewrite np_div_ok in H by lra. cbn [bind] in H. fold Lt in H.
  rewrite !(np_pow_pos Lt) in H by exact HT. cbn [bind] in H. rewrite Evc in H. cbn [bind] in H.
  unfold normal_stiffness in H. rewrite !np_div_ok in H by lra. cbn [bind] in H. fold Ln in H.
  rewrite !(np_pow_pos Ln) in H by exact HN. cbn [bind] in H.
  apply mat_of_moduli_wf in H. destruct H as [_ [K [M _]]]. rewrite M, K.
  unfold primary_wave_modulus. subst Sn St. split; field.
Qed.
