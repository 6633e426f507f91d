(** Lemmas about fluid substitution. *)
From Verif Require Import Base BaseProofs MaterialModel Spec MaterialProofs FluidModel.

(** Gassmann's right-hand side. *)
Definition dfac (kdry kmin kf phi : R) : R :=
  kdry / (kmin - kdry) + kf / ((kmin - kf) * phi).

Lemma gassman_ok_inv kdry kmin kf phi ks :
  gassman_equation kdry kmin kf phi = Ok ks ->
  (phi = 0 /\ ks = kmin) \/ (kdry = kmin /\ ks = kmin) \/
  (phi <> 0 /\ kdry <> kmin /\ kf <> kmin /\ 0 <= dfac kdry kmin kf phi /\
   ks = dfac kdry kmin kf phi / (1 + dfac kdry kmin kf phi) * kmin).
Proof.
  unfold gassman_equation. intros H.
  destruct (Req_EM_T phi 0) as [Hp|Hp]; [injection H as <-; auto|].
  destruct (Req_EM_T kdry kmin) as [Hk|Hk]; [injection H as <-; auto|].
  right; right.
  unfold py_div at 1 in H. destruct (Req_EM_T (kmin - kdry) 0) as [E|E]; [lra|]. cbn [bind] in H.
  unfold py_div at 1 in H. destruct (Req_EM_T ((kmin - kf) * phi) 0) as [E2|E2]; [discriminate|]. cbn [bind] in H.
  assert (Hkf : kf <> kmin) by (intros ->; apply E2; ring).
  fold (dfac kdry kmin kf phi) in H.
  destruct (Rlt_dec (dfac kdry kmin kf phi) 0) as [Hd|Hd]; [discriminate|].
  unfold py_div in H. destruct (Req_EM_T (1 + dfac kdry kmin kf phi) 0); [lra|]. cbn [bind] in H.
  injection H as <-. repeat split; try assumption. lra.
Qed.

Lemma gassman_value kdry kmin kf phi :
  phi <> 0 -> kdry <> kmin -> kf <> kmin -> 0 <= dfac kdry kmin kf phi ->
  gassman_equation kdry kmin kf phi =
    Ok (dfac kdry kmin kf phi / (1 + dfac kdry kmin kf phi) * kmin).
Proof.
  intros Hp Hk Hf Hd. unfold gassman_equation.
  destruct (Req_EM_T phi 0); [contradiction|]. destruct (Req_EM_T kdry kmin); [contradiction|].
  rewrite py_div_ok by lra. cbn [bind].
  rewrite py_div_ok by (apply Rmult_integral_contrapositive_currified; lra). cbn [bind].
  fold (dfac kdry kmin kf phi). destruct (Rlt_dec (dfac kdry kmin kf phi) 0); [lra|].
  rewrite py_div_ok by lra. reflexivity.
Qed.

Lemma gassman_zde kdry kmin phi :
  phi <> 0 -> kdry <> kmin -> gassman_equation kdry kmin kmin phi = Err ZeroDivisionError.
Proof.
  intros Hp Hk. unfold gassman_equation.
  destruct (Req_EM_T phi 0); [contradiction|]. destruct (Req_EM_T kdry kmin); [contradiction|].
  rewrite py_div_ok by lra. cbn [bind]. replace ((kmin - kmin) * phi) with 0 by ring.
  rewrite py_div_0. reflexivity.
Qed.

Lemma gassman_ve kdry kmin kf phi :
  phi <> 0 -> kdry <> kmin -> kf <> kmin -> dfac kdry kmin kf phi < 0 ->
  gassman_equation kdry kmin kf phi = Err ValueError.
Proof.
  intros Hp Hk Hf Hd. unfold gassman_equation.
  destruct (Req_EM_T phi 0); [contradiction|]. destruct (Req_EM_T kdry kmin); [contradiction|].
  rewrite py_div_ok by lra. cbn [bind].
  rewrite py_div_ok by (apply Rmult_integral_contrapositive_currified; lra). cbn [bind].
  fold (dfac kdry kmin kf phi). destruct (Rlt_dec (dfac kdry kmin kf phi) 0); [reflexivity|lra].
Qed.

Lemma substitution_inv dry mineral fl phi m :
  fluid_substitution dry mineral fl phi = Ok m ->
  gassman_equation (bulk dry) (bulk mineral) (bulk fl) phi = Ok (bulk m) /\
  shear m = shear dry /\ dens m = dens dry + phi * dens fl /\ wf m.
Proof.
  unfold fluid_substitution. intros H.
  destruct (gassman_equation (bulk dry) (bulk mineral) (bulk fl) phi) as [k|e]; [cbn [bind] in H|discriminate].
  apply mat_of_moduli_wf in H. destruct H as [Hw [Ek [Es Ed]]]. subst k. auto.
Qed.

(** Positivity of the difference factor in the admissible region. *)
Lemma dfac_parts kdry kmin kf phi :
  0 <= kdry < kmin -> 0 <= kf < kmin -> 0 < phi ->
  0 <= kdry / (kmin - kdry) /\ 0 <= kf / ((kmin - kf) * phi).
Proof.
  intros H1 H2 H3. split; apply div_nonneg; try lra. nra.
Qed.

Lemma gassmann_eq dry mineral fl phi m :
  fluid_substitution dry mineral fl phi = Ok m ->
  0 < bulk mineral -> phi <> 0 -> bulk dry <> bulk mineral ->
  bulk m <> bulk mineral /\ bulk fl <> bulk mineral /\
  bulk m / (bulk mineral - bulk m) =
    bulk dry / (bulk mineral - bulk dry) + bulk fl / (phi * (bulk mineral - bulk fl)).
Proof.
  intros H Hm Hp Hd. apply substitution_inv in H. destruct H as [Hg _].
  apply gassman_ok_inv in Hg. destruct Hg as [[E _]|[[E _]|[_ [_ [Hf [Hn E]]]]]]; try contradiction.
  set (D := dfac (bulk dry) (bulk mineral) (bulk fl) phi) in *.
  assert (Ed : bulk mineral - bulk m = bulk mineral / (1 + D)).
  { rewrite E. field. lra. }
  assert (Hne : bulk mineral / (1 + D) <> 0).
  { unfold Rdiv. apply Rmult_integral_contrapositive_currified; [lra|apply Rinv_neq_0_compat; lra]. }
  split; [|split; [exact Hf|]].
  - intros C. rewrite C in Ed. lra.
  - rewrite Ed, E. transitivity D; [field; lra|]. unfold D, dfac.
    rewrite (Rmult_comm phi). reflexivity.
Qed.

(** x/(1+x) on non-negative numbers. *)
Lemma frac_lt x y : 0 <= x -> x < y -> x / (1 + x) < y / (1 + y).
Proof.
  intros Hx Hy. apply Rmult_lt_reg_r with ((1 + x) * (1 + y)); [nra|].
  replace (x / (1 + x) * ((1 + x) * (1 + y))) with (x * (1 + y)) by (field; lra).
  replace (y / (1 + y) * ((1 + x) * (1 + y))) with (y * (1 + x)) by (field; lra). nra.
Qed.
Lemma frac_le x y : 0 <= x -> x <= y -> x / (1 + x) <= y / (1 + y).
Proof. intros Hx [Hy| ->]; [left; apply frac_lt; assumption|lra]. Qed.

Definition gass (kdry kmin kf phi : R) : R :=
  dfac kdry kmin kf phi / (1 + dfac kdry kmin kf phi) * kmin.

Lemma gass_bounds kdry kmin kf phi :
  0 <= kdry < kmin -> 0 <= kf < kmin -> 0 < phi ->
  kdry <= gass kdry kmin kf phi < kmin /\ (gass kdry kmin kf phi = kdry <-> kf = 0).
Proof.
  intros H1 H2 H3. destruct (dfac_parts kdry kmin kf phi H1 H2 H3) as [Ha Hb].
  unfold gass, dfac. set (a := kdry / (kmin - kdry)) in *. set (b := kf / ((kmin - kf) * phi)) in *.
  assert (Ek : kdry = a / (1 + a) * kmin).
  { unfold a. field. split; lra. }
  split; [split|].
  - rewrite Ek at 1. apply Rmult_le_compat_r; [lra|]. apply frac_le; lra.
  - rewrite <- (Rmult_1_l kmin) at 2. apply Rmult_lt_compat_r; [lra|].
    apply Rmult_lt_reg_r with (1 + (a + b)); [lra|].
    unfold Rdiv. rewrite Rmult_assoc, Rinv_l by lra. lra.
  - split.
    + intros E. destruct Hb as [Hb|Hb].
      * exfalso. assert (a / (1 + a) * kmin < (a + b) / (1 + (a + b)) * kmin).
        { apply Rmult_lt_compat_r; [lra|]. apply frac_lt; lra. }
        lra.
      * unfold b in Hb. assert (Hz : kf = b * ((kmin - kf) * phi)).
        { unfold b. field. split; lra. }
        rewrite Hz. unfold b. rewrite <- Hb. ring.
    + intros ->. assert (Hb0 : b = 0) by (unfold b; unfold Rdiv; ring).
      rewrite Hb0, Rplus_0_r. symmetry. exact Ek.
Qed.

Lemma substitution_gass dry mineral fl phi :
  wf dry -> wf mineral -> wf fl ->
  bulk dry < bulk mineral -> bulk fl < bulk mineral -> 0 < phi ->
  exists m, fluid_substitution dry mineral fl phi = Ok m /\
            bulk m = gass (bulk dry) (bulk mineral) (bulk fl) phi.
Proof.
  intros [Hd1 [Hd2 [Hd3 _]]] [Hm1 [Hm2 _]] [Hf1 [Hf2 _]] H1 H2 Hp.
  destruct (dfac_parts (bulk dry) (bulk mineral) (bulk fl) phi) as [Ha Hb]; try lra.
  unfold fluid_substitution. rewrite gassman_value; [|lra|lra|lra|unfold dfac; lra]. cbn [bind].
  destruct (mat_of_moduli_spec (gass (bulk dry) (bulk mineral) (bulk fl) phi) (shear dry)
              (dens dry + phi * dens fl)) as [m [E [Hi _]]].
  - nra.
  - destruct (gass_bounds (bulk dry) (bulk mineral) (bulk fl) phi) as [[HH _] _]; lra.
  - exact Hd3.
  - exists m. split; [exact E|]. destruct Hi as [Hk _]. exact Hk.
Qed.

Lemma substitution_between dry mineral fl phi :
  wf dry -> wf mineral -> wf fl ->
  bulk dry < bulk mineral -> bulk fl < bulk mineral -> 0 < phi ->
  exists m, fluid_substitution dry mineral fl phi = Ok m /\
            bulk dry <= bulk m < bulk mineral /\ (bulk m = bulk dry <-> bulk fl = 0).
Proof.
  intros Wd Wm Wf H1 H2 Hp. destruct (substitution_gass dry mineral fl phi) as [m [E Ek]]; try assumption.
  exists m. split; [exact E|]. rewrite Ek.
  destruct Wd as [_ [Hd2 _]], Wf as [_ [Hf2 _]]. apply gass_bounds; lra.
Qed.

(** Monotonicity of the two parts. *)
Lemma part_fluid_lt kmin kf1 kf2 phi :
  0 <= kf1 -> kf1 < kf2 -> kf2 < kmin -> 0 < phi ->
  kf1 / ((kmin - kf1) * phi) < kf2 / ((kmin - kf2) * phi).
Proof.
  intros H1 H2 H3 H4.
  apply Rmult_lt_reg_r with ((kmin - kf1) * (kmin - kf2) * phi).
  { apply Rmult_lt_0_compat; [nra|lra]. }
  replace (kf1 / ((kmin - kf1) * phi) * ((kmin - kf1) * (kmin - kf2) * phi))
    with (kf1 * (kmin - kf2)) by (field; lra).
  replace (kf2 / ((kmin - kf2) * phi) * ((kmin - kf1) * (kmin - kf2) * phi))
    with (kf2 * (kmin - kf1)) by (field; lra). nra.
Qed.

Lemma part_dry_lt kmin k1 k2 :
  0 <= k1 -> k1 < k2 -> k2 < kmin -> k1 / (kmin - k1) < k2 / (kmin - k2).
Proof.
  intros H1 H2 H3. apply Rmult_lt_reg_r with ((kmin - k1) * (kmin - k2)); [nra|].
  replace (k1 / (kmin - k1) * ((kmin - k1) * (kmin - k2))) with (k1 * (kmin - k2)) by (field; lra).
  replace (k2 / (kmin - k2) * ((kmin - k1) * (kmin - k2))) with (k2 * (kmin - k1)) by (field; lra). nra.
Qed.

Lemma part_phi_le kmin kf p1 p2 :
  0 <= kf < kmin -> 0 < p1 -> p1 <= p2 ->
  kf / ((kmin - kf) * p2) <= kf / ((kmin - kf) * p1).
Proof.
  intros H1 H2 H3. unfold Rdiv. apply Rmult_le_compat_l; [lra|].
  apply Rinv_le_contravar; [nra|]. nra.
Qed.

Lemma substitution_mono_fluid dry mineral f1 f2 phi m1 m2 :
  wf dry -> wf mineral -> wf f1 -> wf f2 ->
  bulk dry < bulk mineral -> bulk f2 < bulk mineral -> 0 < phi ->
  fluid_substitution dry mineral f1 phi = Ok m1 ->
  fluid_substitution dry mineral f2 phi = Ok m2 ->
  bulk f1 < bulk f2 -> bulk m1 < bulk m2.
Proof.
  intros Wd Wm W1 W2 Hd Hf Hp E1 E2 Hlt.
  destruct (substitution_gass dry mineral f1 phi) as [m1' [E1' K1]]; try assumption; [lra|].
  destruct (substitution_gass dry mineral f2 phi) as [m2' [E2' K2]]; try assumption.
  rewrite E1 in E1'. injection E1' as <-. rewrite E2 in E2'. injection E2' as <-.
  rewrite K1, K2. unfold gass.
  destruct Wd as [_ [Hd2 _]], W1 as [_ [Hf1 _]].
  apply Rmult_lt_compat_r; [lra|].
  destruct (dfac_parts (bulk dry) (bulk mineral) (bulk f1) phi) as [Ha Hb]; try lra.
  apply frac_lt; [unfold dfac; lra|]. unfold dfac. apply Rplus_lt_compat_l.
  apply part_fluid_lt; lra.
Qed.

Lemma substitution_mono_dry d1 d2 mineral fl phi m1 m2 :
  wf d1 -> wf d2 -> wf mineral -> wf fl ->
  bulk d2 < bulk mineral -> bulk fl < bulk mineral -> 0 < phi ->
  fluid_substitution d1 mineral fl phi = Ok m1 ->
  fluid_substitution d2 mineral fl phi = Ok m2 ->
  bulk d1 < bulk d2 -> bulk m1 < bulk m2.
Proof.
  intros W1 W2 Wm Wf Hd Hf Hp E1 E2 Hlt.
  destruct (substitution_gass d1 mineral fl phi) as [m1' [E1' K1]]; try assumption; [lra|].
  destruct (substitution_gass d2 mineral fl phi) as [m2' [E2' K2]]; try assumption.
  rewrite E1 in E1'. injection E1' as <-. rewrite E2 in E2'. injection E2' as <-.
  rewrite K1, K2. unfold gass.
  destruct W1 as [_ [Hd2 _]], Wf as [_ [Hf1 _]].
  apply Rmult_lt_compat_r; [lra|].
  destruct (dfac_parts (bulk d1) (bulk mineral) (bulk fl) phi) as [Ha Hb]; try lra.
  apply frac_lt; [unfold dfac; lra|]. unfold dfac. apply Rplus_lt_compat_r.
  apply part_dry_lt; lra.
Qed.

Lemma substitution_mono_porosity dry mineral fl p1 p2 m1 m2 :
  wf dry -> wf mineral -> wf fl ->
  bulk dry < bulk mineral -> bulk fl < bulk mineral -> 0 < p1 -> p1 <= p2 ->
  fluid_substitution dry mineral fl p1 = Ok m1 ->
  fluid_substitution dry mineral fl p2 = Ok m2 ->
  bulk m2 <= bulk m1.
Proof.
  intros Wd Wm Wf Hd Hf Hp Hle E1 E2.
  destruct (substitution_gass dry mineral fl p1) as [m1' [E1' K1]]; try assumption.
  destruct (substitution_gass dry mineral fl p2) as [m2' [E2' K2]]; try assumption; [lra|].
  rewrite E1 in E1'. injection E1' as <-. rewrite E2 in E2'. injection E2' as <-.
  rewrite K1, K2. unfold gass.
  destruct Wd as [_ [Hd2 _]], Wf as [_ [Hf1 _]].
  apply Rmult_le_compat_r; [lra|].
  destruct (dfac_parts (bulk dry) (bulk mineral) (bulk fl) p2) as [Ha Hb]; try lra.
  apply frac_le; [unfold dfac; lra|]. unfold dfac. apply Rplus_le_compat_l.
  apply part_phi_le; lra.
Qed.

Lemma substitution_dense dry mineral fl phi m :
  phi = 0 \/ bulk dry = bulk mineral ->
  fluid_substitution dry mineral fl phi = Ok m -> bulk m = bulk mineral.
Proof.
  intros H E. apply substitution_inv in E. destruct E as [Hg _].
  unfold gassman_equation in Hg. destruct H as [H|H].
  - destruct (Req_EM_T phi 0); [injection Hg as <-; reflexivity|contradiction].
  - destruct (Req_EM_T phi 0); [injection Hg as <-; reflexivity|].
    destruct (Req_EM_T (bulk dry) (bulk mineral)); [injection Hg as <-; reflexivity|contradiction].
Qed.

Lemma substitution_dense_ok dry mineral fl phi :
  wf dry -> wf mineral -> wf fl -> 0 <= phi ->
  phi = 0 \/ bulk dry = bulk mineral ->
  exists m, fluid_substitution dry mineral fl phi = Ok m /\ bulk m = bulk mineral.
Proof.
  intros [Hd1 [_ [Hd3 _]]] [_ [Hm2 _]] [Hf1 _] Hp H.
  unfold fluid_substitution, gassman_equation.
  destruct (mat_of_moduli_spec (bulk mineral) (shear dry) (dens dry + phi * dens fl))
    as [m [E [Hi _]]]; [nra|exact Hm2|exact Hd3|].
  exists m. destruct Hi as [Hk _]. split; [|exact Hk].
  destruct (Req_EM_T phi 0); [exact E|].
  destruct (Req_EM_T (bulk dry) (bulk mineral)); [exact E|]. destruct H; contradiction.
Qed.

Lemma substitution_shear_density dry mineral fl phi m :
  fluid_substitution dry mineral fl phi = Ok m ->
  shear m = shear dry /\ dens m = dens dry + phi * dens fl /\ admissible m.
Proof.
  intros H. pose proof H as H'. apply substitution_inv in H'. destruct H' as [_ [Hs [Hd _]]].
  split; [exact Hs|split; [exact Hd|]].
  unfold fluid_substitution in H. ok_inv H. exact (admissible_of_ok _ _ _ _ _ _ H).
Qed.

(** Every outcome. *)
Lemma substitution_cases dry mineral fl phi :
  wf dry -> wf mineral -> wf fl -> 0 < dens dry + phi * dens fl ->
  phi <> 0 -> bulk dry <> bulk mineral ->
  let df := bulk dry / (bulk mineral - bulk dry) +
            bulk fl / ((bulk mineral - bulk fl) * phi) in
  (fluid_substitution dry mineral fl phi = Err ZeroDivisionError <-> bulk fl = bulk mineral) /\
  (fluid_substitution dry mineral fl phi = Err ValueError <->
     bulk fl <> bulk mineral /\ df < 0) /\
  (is_ok (fluid_substitution dry mineral fl phi) <->
     bulk fl <> bulk mineral /\ 0 <= df).
Proof.
  intros [_ [_ [Hds _]]] [_ [Hmk _]] _ Hrho Hp Hk df.
  destruct (Req_EM_T (bulk fl) (bulk mineral)) as [Ef|Ef].
  - assert (Ez : fluid_substitution dry mineral fl phi = Err ZeroDivisionError).
    { unfold fluid_substitution. rewrite Ef. rewrite gassman_zde by assumption. reflexivity. }
    rewrite Ez. split; [tauto|]. split; (split; [|tauto]).
    + discriminate.
    + intros [m C]; discriminate.
  - destruct (Rlt_dec df 0) as [Hd|Hd].
    + assert (Ez : fluid_substitution dry mineral fl phi = Err ValueError).
      { unfold fluid_substitution. rewrite gassman_ve by assumption. reflexivity. }
      rewrite Ez. split; [split; [discriminate|tauto]|]. split; [tauto|].
      split; [intros [m C]; discriminate|]. intros [_ C]. lra.
    + assert (Hg : 0 <= df) by lra.
      assert (exists m, fluid_substitution dry mineral fl phi = Ok m) as [m Ez].
      { unfold fluid_substitution. rewrite gassman_value by assumption. cbn [bind].
        fold df. eexists. apply mat_of_moduli_ok; [exact Hrho| |exact Hds].
        apply Rmult_le_pos; [|exact Hmk].
        change (dfac (bulk dry) (bulk mineral) (bulk fl) phi) with df.
        apply div_nonneg; lra. }
      rewrite Ez. split; [split; [discriminate|tauto]|]. split.
      * split; [discriminate|]. intros [_ C]. lra.
      * split; [auto|]. intros _. exists m. reflexivity.
Qed.

(** For a rock softer than its mineral and positive porosity: a fluid softer
    than the mineral is never rejected; a stiffer one is rejected exactly below
    a threshold. *)
Lemma stiff_fluid_rejected dry mineral fl phi :
  wf dry -> wf mineral -> wf fl -> 0 < phi ->
  bulk dry < bulk mineral -> bulk mineral < bulk fl ->
  (fluid_substitution dry mineral fl phi = Err ValueError <->
   phi * bulk dry * (bulk fl - bulk mineral) < bulk fl * (bulk mineral - bulk dry)).
Proof.
  intros Wd Wm Wf Hp H1 H2.
  destruct (substitution_cases dry mineral fl phi) as [_ [Hv _]]; try assumption; try lra.
  { destruct Wd as [Hd _], Wf as [Hf _]. nra. }
  rewrite Hv. clear Hv.
  set (a := bulk mineral - bulk dry). set (b := bulk fl - bulk mineral).
  assert (Ha : 0 < a) by (unfold a; lra). assert (Hb : 0 < b) by (unfold b; lra).
  assert (E : bulk dry / a + bulk fl / ((bulk mineral - bulk fl) * phi) =
              (phi * bulk dry * b - bulk fl * a) / (a * b * phi)).
  { replace (bulk mineral - bulk fl) with (- b) by (unfold b; ring). field. lra. }
  rewrite E. assert (Hpos : 0 < a * b * phi) by (apply Rmult_lt_0_compat; nra).
  split.
  - intros [_ H]. apply Rmult_lt_compat_r with (r := a * b * phi) in H; [|exact Hpos].
    unfold Rdiv in H. rewrite Rmult_assoc, Rinv_l in H by lra. lra.
  - intros H. split; [lra|]. apply Rmult_lt_reg_r with (a * b * phi); [exact Hpos|].
    unfold Rdiv. rewrite Rmult_assoc, Rinv_l by lra. lra.
Qed.

Lemma substitution_injective dry mineral f1 f2 phi m1 m2 :
  wf dry -> wf mineral -> wf f1 -> wf f2 ->
  bulk dry < bulk mineral -> bulk f1 < bulk mineral -> bulk f2 < bulk mineral -> 0 < phi ->
  fluid_substitution dry mineral f1 phi = Ok m1 ->
  fluid_substitution dry mineral f2 phi = Ok m2 ->
  bulk m1 = bulk m2 -> bulk f1 = bulk f2.
Proof.
  intros Wd Wm W1 W2 Hd H1 H2 Hp E1 E2 E.
  destruct (Rtotal_order (bulk f1) (bulk f2)) as [L|[L|L]]; [|exact L|].
  - pose proof (substitution_mono_fluid dry mineral f1 f2 phi m1 m2 Wd Wm W1 W2 Hd H2 Hp E1 E2 L). lra.
  - pose proof (substitution_mono_fluid dry mineral f2 f1 phi m2 m1 Wd Wm W2 W1 Hd H1 Hp E2 E1 L). lra.
Qed.

(** Recovering the dry rock from a saturated one is unambiguous, hence
    re-saturating with another fluid gives one answer. *)
Lemma resaturation d1 d2 mineral fA fB phi mA1 mA2 mB1 mB2 :
  wf d1 -> wf d2 -> wf mineral -> wf fA ->
  bulk d1 < bulk mineral -> bulk d2 < bulk mineral ->
  bulk fA < bulk mineral -> 0 < phi ->
  fluid_substitution d1 mineral fA phi = Ok mA1 ->
  fluid_substitution d2 mineral fA phi = Ok mA2 ->
  mA1 = mA2 ->
  fluid_substitution d1 mineral fB phi = Ok mB1 ->
  fluid_substitution d2 mineral fB phi = Ok mB2 ->
  mB1 = mB2.
Proof.
  intros W1 W2 Wm WA H1 H2 HA Hp EA1 EA2 E EB1 EB2.
  assert (Hk : bulk d1 = bulk d2).
  { destruct (Rtotal_order (bulk d1) (bulk d2)) as [L|[L|L]]; [|exact L|].
    - pose proof (substitution_mono_dry d1 d2 mineral fA phi mA1 mA2 W1 W2 Wm WA H2 HA Hp EA1 EA2 L).
      subst. lra.
    - pose proof (substitution_mono_dry d2 d1 mineral fA phi mA2 mA1 W2 W1 Wm WA H1 HA Hp EA2 EA1 L).
      subst. lra. }
  assert (Hs : shear d1 = shear d2 /\ dens d1 = dens d2).
  { apply substitution_inv in EA1, EA2. destruct EA1 as [_ [S1 [D1 _]]], EA2 as [_ [S2 [D2 _]]].
    subst mA2. split; [congruence|]. lra. }
  destruct Hs as [Hs Hdn].
  unfold fluid_substitution in EB1, EB2. rewrite Hk, Hs, Hdn in EB1. congruence.
Qed.

(** Saturated softer than dry: possible when the dry rock is stiffer than the
    mineral, which the code does not reject. *)
Lemma softer_than_dry_refuted :
  exists dry mineral fl phi m,
    wf dry /\ wf mineral /\ wf fl /\ 0 < phi < 1 /\
    fluid_substitution dry mineral fl phi = Ok m /\ bulk m < bulk dry.
Proof.
  destruct (mat_of_moduli_spec 20 1 1) as [dry [_ [Hd Wd]]]; try lra.
  destruct (mat_of_moduli_spec 10 1 1) as [mi [_ [Hm Wm]]]; try lra.
  destruct (mat_of_moduli_spec 9 0 1) as [fl [_ [Hf Wf]]]; try lra.
  destruct Hd as [Kd [Sd [Dd _]]], Hm as [Km [Sm [Dm _]]], Hf as [Kf [Sf [Df _]]].
  assert (Ok' : is_ok (fluid_substitution dry mi fl (1 / 10))).
  { destruct (substitution_cases dry mi fl (1 / 10)) as [_ [_ H]]; try assumption; try lra.
    apply H. rewrite Kd, Km, Kf. split; lra. }
  destruct Ok' as [m Em]. exists dry, mi, fl, (1 / 10), m.
  repeat (split; [first [assumption|lra]|]).
  apply substitution_inv in Em. destruct Em as [Hg _]. apply gassman_ok_inv in Hg.
  rewrite Kd, Km, Kf in Hg. destruct Hg as [[E _]|[[E _]|[_ [_ [_ [Hn E]]]]]]; [lra|lra|].
  rewrite E, Kd. set (x := dfac 20 10 9 (1 / 10)) in *.
  assert (x / (1 + x) < 1); [|lra].
  apply Rmult_lt_reg_r with (1 + x); [lra|]. unfold Rdiv. rewrite Rmult_assoc, Rinv_l by lra. lra.
Qed.

Lemma negative_porosity_rejected dry mineral fl phi :
  wf dry -> wf mineral -> wf fl -> phi < 0 -> 0 < dens dry + phi * dens fl ->
  bulk dry < bulk mineral -> bulk fl < bulk mineral ->
  (fluid_substitution dry mineral fl phi = Err ValueError <->
   - phi * bulk dry * (bulk mineral - bulk fl) < bulk fl * (bulk mineral - bulk dry)).
Proof.
  intros Wd Wm Wf Hp Hr H1 H2.
  destruct (substitution_cases dry mineral fl phi) as [_ [Hv _]]; try assumption; try lra.
  rewrite Hv. clear Hv.
  set (a := bulk mineral - bulk dry). set (b := bulk mineral - bulk fl).
  assert (Ha : 0 < a) by (unfold a; lra). assert (Hb : 0 < b) by (unfold b; lra).
  assert (E : bulk dry / a + bulk fl / (b * phi) =
              (- phi * bulk dry * b - bulk fl * a) / (a * b * - phi)).
  { field. lra. }
  rewrite E. assert (Hpos : 0 < a * b * - phi) by (apply Rmult_lt_0_compat; nra).
  split.
  - intros [_ H]. apply Rmult_lt_compat_r with (r := a * b * - phi) in H; [|exact Hpos].
    unfold Rdiv in H. rewrite Rmult_assoc, Rinv_l in H by lra. lra.
  - intros H. split; [lra|]. apply Rmult_lt_reg_r with (a * b * - phi); [exact Hpos|].
    unfold Rdiv. rewrite Rmult_assoc, Rinv_l by lra. lra.
Qed.
