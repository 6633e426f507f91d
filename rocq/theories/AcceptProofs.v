(** Configurations in the physical range are calculated. *)
From Coq Require Import String List ZArith Lia Lra Reals Ranalysis Rtrigo1.
From Verif Require Import Base BaseProofs MaterialModel Spec MaterialProofs FluidModel FluidProofs GassmannProofs HashinShtrikmanModel HashinShtrikmanProofs SandstoneModel SandstoneProofs MineralsModel MineralsProofs BatzleWangModel BatzleWangSpec BatzleWangProofs FluidsModel FluidsSpec FluidsProofs ConfigModel RowModel InputModel ReadModel ReadSpec FileSpec PublishedSpec PublishedProofs AppModel AcceptSpec.
Import ListNotations.
Open Scope R_scope.

(** ** Fractions *)
Lemma total_given : forall fs, total fs = sum_given fs.
Proof. induction fs as [|[x|] fs IH]; cbn [total sum_given]; [reflexivity|rewrite IH; reflexivity|exact IH]. Qed.
Lemma left_out_count : forall fs, List.length (filter left_out fs) = count_missing fs.
Proof. induction fs as [|[x|] fs IH]; cbn [filter left_out count_missing List.length]; [reflexivity|exact IH|rewrite IH; reflexivity]. Qed.
Lemma none_left_out : forall fs, forallb (fun f => negb (left_out f)) fs = true -> count_missing fs = 0%nat.
Proof.
  induction fs as [|[x|] fs IH]; cbn [forallb left_out negb andb count_missing]; [reflexivity|exact IH|discriminate].
Qed.
Lemma given_pos : forall fs, Forall (fun f => match f with None => True | Some x => 0 <= x end) fs -> 0 <= sum_given fs.
Proof. intros fs F. induction F as [|[x|] fs H F IH]; cbn [sum_given]; lra. Qed.
Lemma given_each : forall fs, Forall (fun f => match f with None => True | Some x => 0 <= x end) fs ->
  Forall (fun f => match f with None => True | Some x => 0 <= x <= sum_given fs end) fs.
Proof.
  intros fs F. induction F as [|[x|] fs H F IH]; constructor; cbn [sum_given].
  - pose proof (given_pos fs F). lra.
  - eapply Forall_impl; [|exact IH]. intros [y|]; [lra|trivial].
  - exact I.
  - exact IH.
Qed.

Lemma eps_pos : 0 < 1 / 10 ^ 5.
Proof. apply Rdiv_lt_0_compat; [lra|apply pow_lt; lra]. Qed.

Lemma parts_missing : forall fs, parts_of_one fs ->
  Forall (fun f => match f with None => True | Some x => 0 <= x end) fs /\ 0 <= sum_given fs <= 1 /\
  (count_missing fs <= 1)%nat /\ (count_missing fs = 0%nat -> sum_given fs = 1).
Proof.
  intros fs (F & C). pose proof (given_pos fs F) as P. split; [exact F|].
  destruct C as [(A & B)|(A & B)]; rewrite total_given in B.
  - apply none_left_out in A. split; [lra|]. split; [lia|intros _; exact B].
  - rewrite left_out_count in A. split; [lra|]. split; [lia|intros; lia].
Qed.

Lemma parts_fixed : forall fs, parts_of_one fs ->
  exists fs', fix_one_fraction fs = Ok fs' /\ List.length fs' = List.length fs /\ Forall (fun x => 0 <= x) fs' /\ rsum fs' = 1.
Proof.
  intros fs Pa. destruct (parts_missing fs Pa) as (F & S01 & Cm & C0). pose proof eps_pos as Ep.
  destruct (proj1 (fix_outcome fs)) as (_ & O). destruct O as (fs' & E).
  { split; [exact Cm|]. split; [lra|]. intros _. lra. }
  exists fs'. split; [exact E|]. pose proof (fix_complete _ _ E) as (L & _ & S1 & M0 & _).
  split; [exact L|]. split.
  - unfold fix_one_fraction in E. destruct (Rlt_dec _ _); [discriminate|].
    assert (Q : fs' = map (fun o => match o with Some x => x | None => 1 - sum_given fs end) fs).
    { destruct (count_missing fs) as [|[|k]]; [congruence| |discriminate]. apply bind_ok in E. destruct E as (u & _ & E). congruence. }
    rewrite Q. apply Forall_forall. intros x I. apply in_map_iff in I. destruct I as (o & <- & I).
    rewrite Forall_forall in F. specialize (F o I). destruct o as [x|]; lra.
  - destruct (count_missing fs) as [|[|k]] eqn:K; [|apply S1; reflexivity|lia].
    specialize (M0 eq_refl). rewrite <- (C0 eq_refl), <- M0. clear. induction fs' as [|x l IH]; cbn [map sum_given rsum]; [reflexivity|rewrite IH; reflexivity].
Qed.

Lemma parts_ratio : forall fs, parts_of_one fs ->
  Forall (fun f => match f with None => True | Some x => - (1 / 10 ^ 5) <= x <= 1 + 1 / 10 ^ 5 end) fs.
Proof.
  intros fs Pa. destruct (parts_missing fs Pa) as (F & S01 & _). pose proof eps_pos as Ep. apply given_each in F.
  eapply Forall_impl; [|exact F]. intros [x|]; [lra|trivial].
Qed.

Lemma ratios_pass : forall fs, Forall (fun f => match f with None => True | Some x => - (1 / 10 ^ 5) <= x <= 1 + 1 / 10 ^ 5 end) fs ->
  sequence (map fraction_is_ratio fs) = Ok fs.
Proof.
  intros fs F. induction F as [|[x|] fs H F IH]; cbn [map sequence fraction_is_ratio]; [reflexivity| |].
  - destruct (Rlt_dec _ _); [lra|]. destruct (Rlt_dec _ _); [lra|]. cbn [bind]. rewrite IH. reflexivity.
  - cbn [bind]. rewrite IH. reflexivity.
Qed.

Lemma minerals_pass : forall cs, cs <> [] -> parts_of_one (map snd cs) ->
  exists l, minerals cs = Ok l /\ map fst l = map fst cs /\ Forall (fun x => 0 <= x) (map snd l) /\ rsum (map snd l) = 1.
Proof.
  intros cs N Pa. destruct (parts_fixed _ Pa) as (fs & E & L & F & Sm).
  rewrite map_length in L.
  assert (Es : map snd (combine (map fst cs) fs) = fs) by (apply snd_combine; rewrite map_length; congruence).
  assert (Ef : map fst (combine (map fst cs) fs) = map fst cs).
  { clear - L. revert fs L. induction cs as [|c cs IH]; intros [|x fs] L; simpl in *; try congruence. f_equal. apply IH. congruence. }
  exists (combine (map fst cs) fs). split; [|rewrite Es; split; [exact Ef|split; [exact F|exact Sm]]].
  unfold minerals. destruct cs as [|c cs]; [contradiction|].
  rewrite <- (map_map snd fraction_is_ratio), ratios_pass by (apply parts_ratio; exact Pa). cbn [bind]. rewrite E. cbn [bind].
  replace (isclose_one (rsum fs)) with true; [reflexivity|]. symmetry. rewrite Sm. unfold isclose_one.
  destruct (Rle_dec _ _) as [|C]; [reflexivity|]. exfalso. apply C. pose proof eps_pos. rewrite Rabs_right by lra. rewrite Rabs_right by lra. lra.
Qed.

(** ** Materials *)
Lemma given_material : forall d b mu, 0 < d -> 0 <= b -> 0 <= mu ->
  exists m, means_material (mkArbitrary d (Some b) (Some mu) None None) m /\ wf m /\ bulk m = b /\ shear m = mu /\ dens m = d.
Proof.
  intros d b mu Hd Hb Hm. exists (sample b mu d). split; [|split; [apply sample_wf; assumption|repeat split]].
  unfold means_material, sample. cbn [a_density a_bulk a_shear a_vs a_vp dens bulk shear vp vs].
  split; [reflexivity|]. split; [reflexivity|]. split; [reflexivity|].
  assert (0 <= (b + 4 / 3 * mu) / d) by (apply Rmult_le_pos; [lra|apply Rlt_le, Rinv_0_lt_compat; lra]).
  assert (0 <= mu / d) by (apply Rmult_le_pos; [lra|apply Rlt_le, Rinv_0_lt_compat; lra]).
  split; (split; [lra|]; split; [assumption|reflexivity]).
Qed.

Lemma grains_mean : forall klo muhi ks, 0 < klo -> Forall (grain klo muhi) ks ->
  exists cs, Forall2 means_mineral ks cs /\ map snd cs = map k_fraction ks /\
    Forall (fun c : material * option R => solid (fst c) /\ klo <= bulk (fst c) /\ shear (fst c) <= muhi) cs.
Proof.
  intros klo muhi ks K F. induction F as [|k ks G F IH]; [exists []; split; [constructor|split; [reflexivity|constructor]]|].
  destruct IH as (cs & M & E & Fc). destruct G as (d & b & mu & Ek & Hd & Hb & Hm).
  destruct (given_material d b mu Hd ltac:(lra) ltac:(lra)) as (m & Mm & W & Bb & Bm & Bd).
  exists ((m, k_fraction k) :: cs). split; [|split].
  - constructor; [|exact M]. split; [reflexivity|]. exists (mkArbitrary d (Some b) (Some mu) None None). split; assumption.
  - cbn [map snd]. rewrite E. reflexivity.
  - constructor; [|exact Fc]. cbn [fst]. split; [split; [exact W|lra]|]. lra.
Qed.

(** ** Fluids *)
Lemma soft_means : forall co2 klo section t p ks, Forall (soft_fluid co2 klo section t p) ks ->
  exists cs ms, Forall2 means_constituent ks cs /\ Forall (fun c => is_carbon_dioxide (c_material c) = false) cs /\
    Forall2 (fun c m => worth co2 (model_of section c) (c_material c) t p m) cs ms /\
    Forall (fun m => fluid m /\ 0 < bulk m < klo) ms.
Proof.
  intros co2 klo section t p ks F. induction F as [|k ks G F IH]; [exists [], []; repeat constructor|].
  destruct IH as (cs & ms & M & N & W & B). destruct G as (Nc & f & m & Mf & Wf & Fl & Hb).
  exists (mk_constituent f (match k_fraction k with None => 0 | Some x => x end) (k_fluid_model k) :: cs), (m :: ms).
  split; [constructor; [|exact M]; split; [exact Mf|split; reflexivity]|].
  split; [constructor; [|exact N]|].
  - cbn [c_material]. destruct Mf; try reflexivity. exfalso. eapply Nc. reflexivity.
  - split; [constructor; [|exact W]|constructor; [|exact B]].
    + unfold model_of. cbn [c_fluid_model c_material]. exact Wf.
    + split; assumption.
Qed.

Lemma no_shift : forall section cs, Forall (fun c => is_carbon_dioxide (c_material c) = false) cs -> carbon_dioxides section cs = 0%nat.
Proof.
  intros section cs F. induction F as [|c cs H F IH]; [reflexivity|]. cbn [carbon_dioxides]. rewrite IH.
  destruct (c_material c); try discriminate; reflexivity.
Qed.

Lemma forall_firstn : forall {A} (P : A -> Prop) n l, Forall P l -> Forall P (firstn n l).
Proof. intros A P n l F. revert n. induction F; intros [|n]; cbn [firstn]; constructor; auto. Qed.

Lemma Forall2_nth_both : forall {A B} (P : A -> B -> Prop) l m i a b, Forall2 P l m -> nth_error l i = Some a -> nth_error m i = Some b -> P a b.
Proof.
  intros A B P l m i a b F. revert i. induction F as [|x y l m H F IH]; intros [|i] Ha Hb; cbn [nth_error] in *; try discriminate.
  - congruence.
  - eapply IH; eassumption.
Qed.

Lemma Forall2_same_length : forall {A B} (P : A -> B -> Prop) l m, Forall2 P l m -> List.length l = List.length m.
Proof. intros A B P l m F. induction F; cbn; congruence. Qed.

Definition refraction (cs : list constituent) (fs : list R) : list constituent :=
  map (fun cf => mk_constituent (c_material (fst cf)) (snd cf) (c_fluid_model (fst cf))) (combine cs fs).

Lemma refraction_worth : forall co2 section t p cs ms fs, List.length fs = List.length cs ->
  Forall (fun c => is_carbon_dioxide (c_material c) = false) cs ->
  Forall2 (fun c m => worth co2 (model_of section c) (c_material c) t p m) cs ms ->
  as_materials co2 section t p (refraction cs fs) = (Ok ms, p) /\ map c_fraction (refraction cs fs) = fs.
Proof.
  intros co2 section t p cs ms fs L N W.
  assert (N' : Forall (fun c => is_carbon_dioxide (c_material c) = false) (refraction cs fs)).
  { clear W. unfold refraction. revert fs L. induction N as [|c cs H N IH]; intros [|x fs] L; try discriminate; cbn [combine map]; constructor; [exact H|].
    apply IH. cbn in L. congruence. }
  assert (W' : Forall2 (fun c m => worth co2 (model_of section c) (c_material c) t p m) (refraction cs fs) ms).
  { clear N N'. unfold refraction. revert fs L. induction W as [|c m cs ms H W IH]; intros [|x fs] L; try discriminate; cbn [combine map]; constructor; [exact H|].
    apply IH. cbn in L. congruence. }
  split.
  - apply as_materials_ok. rewrite no_shift by exact N'. split; [rewrite shift0; reflexivity|]. split; [symmetry; eapply Forall2_same_length; exact W'|].
    intros i c m Hc Hm. rewrite no_shift by (apply forall_firstn; exact N'). rewrite shift0. exact (Forall2_nth_both _ _ _ _ _ _ W' Hc Hm).
  - clear W W' N N'. unfold refraction. revert fs L. induction cs as [|c cs IH]; intros [|x fs] L; try discriminate; [reflexivity|].
    cbn [combine map fst snd c_fraction]. f_equal. apply IH. cbn in L. congruence.
Qed.

(** ** The pack of grains *)
Lemma pack_soft : forall m c p sr n klo muhi g, grain_pack m c sr n -> 0 < p -> 0 < klo -> klo <= bulk m -> shear m <= muhi ->
  2 * n ^ 2 * (1 - c) ^ 2 * muhi ^ 2 * p <= 81 * klo ^ 3 ->
  hertz_mindlin m c p sr n = Ok g -> 0 < bulk g < klo.
Proof.
  intros m c p sr n klo muhi g G Hp Hk Kb Km C E.
  assert (Q : exists g, hertz_mindlin m c p sr n = Ok g /\ hertz_mindlin_pack m c p sr n g) by (apply hm_published; [exact G|lra]).
  destruct Q as (g' & E' & H & _). assert (g' = g) by congruence. subst g'.
  destruct G as (So & Hc & Hsr & Hn). pose proof So as ((_ & Kp & _) & Sp).
  destruct (nu_ok m So) as (_ & Nu). change (poisson m) with (nu m) in H. set (v := nu m) in *.
  assert (Hpi : 3 < PI) by (pose proof PI2_3_2; lra).
  assert (D : 0 < 18 * PI ^ 2 * (1 - v) ^ 2) by (apply Rmult_lt_0_compat; [|apply pow_lt; lra]; apply Rmult_lt_0_compat; [lra|apply pow_lt; lra]).
  assert (D2 : 81 / 2 < 18 * PI ^ 2 * (1 - v) ^ 2).
  { assert (A : 9 < PI ^ 2) by (cbn; nra). assert (B : 1 / 4 < (1 - v) ^ 2) by (cbn; nra). nra. }
  assert (N0 : 0 < n ^ 2 * (1 - c) ^ 2 * shear m ^ 2 * p).
  { apply Rmult_lt_0_compat; [|exact Hp]. apply Rmult_lt_0_compat; [apply Rmult_lt_0_compat|]; apply pow_lt; lra. }
  assert (N1 : n ^ 2 * (1 - c) ^ 2 * shear m ^ 2 * p <= n ^ 2 * (1 - c) ^ 2 * muhi ^ 2 * p).
  { apply Rmult_le_compat_r; [lra|]. apply Rmult_le_compat_l; [apply Rmult_le_pos; apply Rlt_le, pow_lt; lra|]. apply pow_incr. lra. }
  assert (B3 : bulk g ^ 3 < klo ^ 3).
  { rewrite H. apply Rmult_lt_reg_r with (18 * PI ^ 2 * (1 - v) ^ 2); [exact D|].
    unfold Rdiv. rewrite Rmult_assoc, Rinv_l by lra.
    assert (0 < klo ^ 3) by (apply pow_lt; lra). nra. }
  assert (B0 : 0 < bulk g ^ 3) by (rewrite H; apply Rdiv_lt_0_compat; assumption).
  assert (Bp : 0 < bulk g).
  { destruct (Rle_or_lt (bulk g) 0) as [L|L]; [|exact L]. exfalso. assert (bulk g ^ 3 <= 0) by (cbn; nra). lra. }
  split; [exact Bp|]. destruct (Rle_or_lt klo (bulk g)) as [L|L]; [|exact L]. exfalso.
  assert (klo ^ 3 <= bulk g ^ 3) by (apply pow_incr; lra). lra.
Qed.

Lemma hs_below : forall f x1 x2 z, 0 <= f < 1 -> 0 <= x2 < x1 -> 0 < z -> hs f x1 x2 z < x1.
Proof.
  intros f x1 x2 z Hf Hx Hz. unfold hs.
  assert (D : 0 < f * x2 + (1 - f) * x1 + z) by nra.
  apply Rmult_lt_reg_r with (f * x2 + (1 - f) * x1 + z); [exact D|].
  unfold Rdiv. rewrite Rmult_assoc, Rinv_l by lra.
  assert (0 < (1 - f) * (x1 + z) * (x1 - x2)) by (repeat apply Rmult_lt_0_compat; lra). nra.
Qed.

Lemma sand_soft : forall m phi c p n sr klo muhi, solid m -> 0 < klo -> klo <= bulk m -> shear m <= muhi ->
  0 < phi -> phi + 1 / 10 ^ 5 <= c < 1 -> 0 <= sr -> 0 < n -> 0 < p ->
  2 * n ^ 2 * (1 - c) ^ 2 * muhi ^ 2 * p <= 81 * klo ^ 3 ->
  exists s, friable_sand m phi c p n sr = Ok s /\ solid s /\ 0 < bulk s < bulk m.
Proof.
  intros m phi c p n sr klo muhi So Hk Kb Km Hphi Hc Hsr Hn Hp C. pose proof eps_pos as Ep.
  assert (G : grain_pack m c sr n) by (repeat split; try assumption; try (apply So); lra).
  destruct (friable_value m phi c p n sr G ltac:(lra) ltac:(lra) Hp) as (g & s & Eg & Sg & _ & _ & Es & Ss & Ks & _ & Bk & _ & _).
  destruct (pack_soft m c p sr n klo muhi g G Hp Hk Kb Km C Eg) as (G1 & G2).
  exists s. split; [exact Es|]. split; [exact Ss|]. split.
  - destruct Bk as (B & _). eapply Rlt_le_trans; [|exact B]. apply Rmin_glb_lt; lra.
  - rewrite Ks. unfold wbulk. apply hs_below.
    + assert (A : 0 < phi / c <= 1). { split; [apply Rdiv_lt_0_compat; lra|]. apply Rmult_le_reg_r with c; [lra|]. unfold Rdiv. rewrite Rmult_assoc, Rinv_l by lra. lra. }
      lra.
    + lra.
    + pose proof (pick_pos false m g (solid_mixable false m g So Sg)). lra.
Qed.

(** ** A row *)
Lemma all_ge_map : forall {A} (f : A -> R) lo l, Forall (fun a => lo <= f a) l -> all_ge lo (map f l).
Proof. intros A f lo l F. unfold all_ge. apply Forall_forall. intros x I. apply in_map_iff in I. destruct I as (a & <- & I). rewrite Forall_forall in F. apply F, I. Qed.
Lemma all_le_map : forall {A} (f : A -> R) hi l, Forall (fun a => f a <= hi) l -> all_le hi (map f l).
Proof. intros A f hi l F. unfold all_le. apply Forall_forall. intros x I. apply in_map_iff in I. destruct I as (a & <- & I). rewrite Forall_forall in F. apply F, I. Qed.

Lemma sand_row : forall co2 klo muhi c, reservoir_sand co2 klo muhi c -> exists o, gives_output co2 c o /\ sensible klo o.
Proof.
  intros co2 klo muhi c (Hk & Nm & Fm & Pm & (p & Ep & Mx & (be & Be) & Bg & Nf & Pf & Ff) & e & He & (r & Er & Ee) & f & Df & Da & Hphi & Hc & Hsr & Hn & Hs).
  destruct (grains_mean klo muhi _ Hk Fm) as (cs & Mcs & Scs & Fcs).
  destruct (soft_means _ _ _ _ _ _ Ff) as (fs & ms & Mfs & Ncs & Wfs & Fms).
  assert (Ncs0 : cs <> []) by (intros ->; inversion Mcs; subst; congruence).
  rewrite <- Scs in Pm. destruct (minerals_pass cs Ncs0 Pm) as (l & El & Ll & Pl & Sl).
  (* the input *)
  set (fl := mk_fluids (fc_temperature (cf_fluids c)) fs Wood be (gases_at (fc_constituents (cf_fluids c))) (fc_fluid_model (cf_fluids c))).
  set (d := mkDryRock (RockFriable (means_friable f)) (dc_porosity (cf_dry_rock c)) []).
  set (i := mkInput cs fl (map k_fraction (fc_constituents (cf_fluids c))) d (means_pressure (cf_pressure c))).
  assert (Mi : means c i).
  { unfold means, i. cbn [i_minerals i_fluids i_fluid_fractions i_dry_rock i_pressure].
    split; [exact Mcs|]. split; [|split; [reflexivity|split; [|reflexivity]]].
    - unfold means_fluids, fl. cbn [f_temperature f_constituents f_mix_method f_brie_constant f_brie_gases f_fluid_model].
      rewrite Bg. split; [reflexivity|]. split; [exact Mfs|]. split; [congruence|]. split; [exact Be|]. split; reflexivity.
    - unfold means_dry_rock, d. cbn [dr_model dr_porosity dr_adjustments]. rewrite Df, Da. split; [constructor|]. split; [reflexivity|constructor]. }
  (* minerals *)
  assert (Fl : Forall (fun c : material * R => solid (fst c) /\ klo <= bulk (fst c) /\ shear (fst c) <= muhi) l).
  { clear - Ll Fcs. revert cs Ll Fcs. induction l as [|x l IH]; intros [|y cs] Ll Fcs; try discriminate; constructor.
    - cbn [map] in Ll. injection Ll as E1 E2. rewrite E1. inversion Fcs; subst. assumption.
    - cbn [map] in Ll. injection Ll as E1 E2. inversion Fcs; subst. apply (IH cs E2). assumption. }
  assert (ML : mineral_list l).
  { split; [intros ->; apply Ncs0; destruct cs; [reflexivity|discriminate]|]. split; [|pose proof eps_pos; lra].
    apply Forall_forall. intros x I. rewrite Forall_forall in Fl, Pl. split; [apply Fl, I|apply Pl, in_map, I]. }
  destruct (mixture_range l ML) as (m & Em & Sm & Blo & _ & _ & Mhi).
  assert (Bm : klo <= bulk m).
  { apply Blo. apply (all_ge_map (fun c : material * R => bulk (fst c))). eapply Forall_impl; [|exact Fl]. cbn. tauto. }
  assert (Mm : shear m <= muhi).
  { apply Mhi. apply (all_le_map (fun c : material * R => shear (fst c))). eapply Forall_impl; [|exact Fl]. cbn. tauto. }
  (* fluids *)
  destruct (parts_fixed _ Pf) as (xs & Ex & Lx & Px & Sx). rewrite map_length in Lx.
  assert (Lf : List.length xs = List.length fs) by (rewrite Lx; eapply Forall2_same_length; exact Mfs).
  destruct (refraction_worth co2 (fc_fluid_model (cf_fluids c)) (fc_temperature (cf_fluids c)) p fs ms xs Lf Ncs Wfs) as (Ea & Ef).
  assert (Us : usable ms) by (eapply Forall_impl; [|exact Fms]; cbn; tauto).
  assert (Si : saturation_input ms xs).
  { split; [rewrite Lf; eapply Forall2_same_length; exact Wfs|]. split; [exact Px|]. rewrite Sx.
    apply Rmult_le_reg_r with (10 ^ 15); [apply pow_lt; lra|]. unfold Rdiv. rewrite Rmult_assoc, Rinv_l by (apply pow_nonzero; lra).
    assert (1 <= 10 ^ 15) by (apply pow_R1_Rle; lra). lra. }
  destruct (wood_between ms xs Us Si) as (w & Ew & Fw & Wlo & Whi & _ & _).
  assert (Bw : 0 < bulk w < klo).
  { assert (Q : forall l, l <> [] -> Forall (fun m : material => fluid m /\ 0 < bulk m < klo) l ->
              exists lo hi, 0 < lo /\ hi < klo /\ all_ge lo (map bulk l) /\ all_le hi (map bulk l)).
    { clear. intros l Ne F. induction F as [|x l H F IH]; [contradiction|]. destruct l as [|y l].
      - exists (bulk x), (bulk x). split; [lra|]. split; [lra|]. split; (constructor; [lra|constructor]).
      - destruct IH as (lo & hi & L & Hh & A & B); [discriminate|]. exists (Rmin lo (bulk x)), (Rmax hi (bulk x)).
        split; [apply Rmin_glb_lt; lra|]. split; [apply Rmax_lub_lt; lra|].
        split; (constructor; [apply Rmin_r || apply Rmax_r|]).
        + eapply Forall_impl; [|exact A]. cbn. intros z Hz. eapply Rle_trans; [apply Rmin_l|exact Hz].
        + eapply Forall_impl; [|exact B]. cbn. intros z Hz. eapply Rle_trans; [exact Hz|apply Rmax_l]. }
    destruct (Q ms) as (lo & hi & L & Hh & A & B); [|exact Fms|].
    { intros ->. inversion Wfs; subst. inversion Mfs; subst. congruence. }
    specialize (Wlo lo A). specialize (Whi hi B). lra. }
  (* dry rock *)
  set (n := or_murphy (fr_coordination f) (fr_critical f)) in *.
  destruct (sand_soft m (dc_porosity (cf_dry_rock c)) (fr_critical f) e n (fr_shear_reduction f) klo muhi Sm Hk Bm Mm Hphi Hc Hsr Hn He Hs)
    as (s & Es & Ss & Bs).
  destruct (substitution_between s m w (dc_porosity (cf_dry_rock c)) (proj1 Ss) (proj1 Sm) (proj1 Fw) ltac:(lra) ltac:(lra) Hphi)
    as (sat & Esat & Bsat & Bz).
  exists (mkRow (bulk sat) (bulk m) (bulk s) (shear sat) (dens sat) (bulk m)). split.
  - exists i. split; [exact Mi|]. unfold calculate_row, i. cbn [i_minerals i_fluids i_fluid_fractions i_dry_rock i_pressure].
    rewrite El. cbn [bind]. unfold complete_fluids. rewrite ratios_pass by (apply parts_ratio; exact Pf). cbn [bind].
    destruct (map k_fraction (fc_constituents (cf_fluids c))) as [|x0 xs0] eqn:Emap.
    { destruct (fc_constituents (cf_fluids c)); [contradiction|discriminate]. }
    rewrite <- Emap in *. destruct (parts_missing _ Pf) as (_ & S01 & _). pose proof eps_pos as Eps.
    destruct (Rlt_dec _ _) as [Q|_]; [lra|]. rewrite Ex. cbn [bind].
    unfold d, check_dry_rock. cbn [dr_model dr_porosity check_patchy_bound check_critical f_critical means_friable bind].
    destruct (Rlt_dec _ _) as [Q|_]; [lra|]. cbn [bind]. rewrite Em. cbn [bind]. unfold means_pressure at 1. cbn [p_fluid]. rewrite Ep. cbn [bind].
    unfold as_mixture, fl. cbn [f_temperature f_constituents f_mix_method f_brie_constant f_brie_gases f_fluid_model].
    fold (refraction fs xs). rewrite Ea. cbn [bind fst]. rewrite Ef, Ew. cbn [bind].
    unfold dry_rock_material, truncated_rock, means_pressure. cbn [p_rock p_overburden p_max_effective]. rewrite Er. cbn [bind].
    unfold material_from_model, friable_material. cbn [dr_model dr_porosity dr_adjustments f_critical f_coordination f_shear_reduction means_friable].
    fold n. replace (clip_above _ _) with e by (rewrite Ee; unfold clip_above; destruct (pr_max_effective (cf_pressure c)); reflexivity).
    rewrite Es. cbn [bind adjust_material nonporous dr_model]. rewrite Esat. cbn [bind]. reflexivity.
  - destruct (substitution_inv _ _ _ _ _ Esat) as (_ & Sh & De & _). unfold sensible. cbn [r_kdry r_ksat r_kmin r_kmin_fls r_mysat r_rsat].
    assert (bulk sat <> bulk s) by (intros Q; apply Bz in Q; lra).
    split; [lra|]. split; [lra|]. split; [lra|]. split; [reflexivity|]. split; [rewrite Sh; apply Ss|].
    rewrite De. destruct Ss as ((Ds & _) & _). destruct Fw as ((Dw & _) & _). nra.
Qed.

(* ---- brine has an upper bound ---- *)
Lemma water_velocity_high t p : 0 <= t <= 100 -> 0 <= p <= 100 -> bw_water_velocity t p <= 2210.
Proof.
  intros Ht Hp. unfold bw_water_velocity.
  pose proof (pow2_range _ _ Ht) as T2. pose proof (pow3_range _ _ Ht) as T3.
  pose proof (pow4_range _ _ Ht) as T4.
  pose proof (pow2_range _ _ Hp) as P2. pose proof (pow3_range _ _ Hp) as P3.
  assert (A0 : 4871 / 1000 * t - 4783 / 10 ^ 5 * t ^ 2 + 1487 / 10 ^ 7 * t ^ 3 - 2197 / 10 ^ 10 * t ^ 4 <= 181).
  { assert (t ^ 3 <= 100 * t ^ 2) by (replace (t ^ 3) with (t * t ^ 2) by ring; nra). nra. }
  assert (A1 : p * (1524 / 1000 - 111 / 10 ^ 4 * t + 2747 / 10 ^ 7 * t ^ 2 - 6503 / 10 ^ 10 * t ^ 3 + 7987 / 10 ^ 13 * t ^ 4) <= 320).
  { set (c := 1524 / 1000 - 111 / 10 ^ 4 * t + 2747 / 10 ^ 7 * t ^ 2 - 6503 / 10 ^ 10 * t ^ 3 + 7987 / 10 ^ 13 * t ^ 4).
    assert (c <= 32 / 10) by (unfold c; nra). clearbody c. nra. }
  assert (A2 : p ^ 2 * (3437 / 10 ^ 6 + 1739 / 10 ^ 7 * t - 2135 / 10 ^ 9 * t ^ 2 - 1455 / 10 ^ 11 * t ^ 3 + 523 / 10 ^ 13 * t ^ 4) <= 210).
  { set (c := 3437 / 10 ^ 6 + 1739 / 10 ^ 7 * t - 2135 / 10 ^ 9 * t ^ 2 - 1455 / 10 ^ 11 * t ^ 3 + 523 / 10 ^ 13 * t ^ 4).
    assert (t ^ 4 <= 100 * t ^ 3) by (replace (t ^ 4) with (t * t ^ 3) by ring; nra).
    assert (c <= 21 / 1000) by (unfold c; lra). clearbody c. nra. }
  assert (A3 : p ^ 3 * (- (1197 / 10 ^ 8) - 1628 / 10 ^ 9 * t + 1237 / 10 ^ 11 * t ^ 2 + 1327 / 10 ^ 13 * t ^ 3 - 4614 / 10 ^ 16 * t ^ 4) <= 95).
  { set (c := - (1197 / 10 ^ 8) - 1628 / 10 ^ 9 * t + 1237 / 10 ^ 11 * t ^ 2 + 1327 / 10 ^ 13 * t ^ 3 - 4614 / 10 ^ 16 * t ^ 4).
    assert (t ^ 3 <= 100 * t ^ 2) by (replace (t ^ 3) with (t * t ^ 2) by ring; nra).
    assert (t ^ 2 <= 100 * t) by nra.
    assert (c <= 95 / 10 ^ 6) by (unfold c; lra). clearbody c.
    assert (Q : 0 <= p ^ 3 * (95 / 10 ^ 6 - c)) by (apply Rmult_le_pos; lra). lra. }
  lra.
Qed.

Lemma brine_velocity_high t p s :
  0 <= t <= 100 -> 0 <= p <= 100 -> 0 <= s <= 3 / 10 -> bw_brine_velocity t p s <= 2870.
Proof.
  intros Ht Hp Hs. unfold bw_brine_velocity.
  pose proof (water_velocity_high _ _ Ht Hp) as W.
  pose proof (pow2_range _ _ Ht) as T2. pose proof (pow3_range _ _ Ht) as T3.
  pose proof (pow2_range _ _ Hp) as P2. pose proof (prod_range _ _ _ _ Ht Hp) as TP.
  assert (A : s * (1170 - 96 / 10 * t + 55 / 1000 * t ^ 2 - 85 / 10 ^ 6 * t ^ 3 + 26 / 10 * p
         - 29 / 10 ^ 4 * t * p - 476 / 10 ^ 4 * p ^ 2) <= 429).
  { set (c := 1170 - 96 / 10 * t + 55 / 1000 * t ^ 2 - 85 / 10 ^ 6 * t ^ 3 + 26 / 10 * p
         - 29 / 10 ^ 4 * t * p - 476 / 10 ^ 4 * p ^ 2).
    assert (t ^ 2 <= 100 * t) by nra.
    assert (c <= 1430) by (unfold c; lra). clearbody c. nra. }
  assert (B : s * sqrt s * (780 - 10 * p + 16 / 100 * p ^ 2) <= 228).
  { assert (0 <= 780 - 10 * p + 16 / 100 * p ^ 2 <= 1380) by (split; nra).
    set (c := 780 - 10 * p + 16 / 100 * p ^ 2) in *. clearbody c.
    assert (Q : 0 <= sqrt s <= 55 / 100).
    { split; [apply sqrt_pos|]. rewrite <- (sqrt_square (55 / 100)) by lra. apply sqrt_le_1_alt. lra. }
    pose proof (prod_range _ _ _ _ Hs Q) as SQ. pose proof (prod_range _ _ _ _ SQ H). lra. }
  assert (0 <= s ^ 2) by (apply pow_le; lra). lra.
Qed.

Lemma brine_density_high t p s :
  0 <= t <= 100 -> 0 <= p <= 100 -> 0 <= s <= 3 / 10 -> bw_brine_density t p s <= 136 / 100.
Proof.
  intros Ht Hp Hs. unfold bw_brine_density.
  pose proof (pow2_range _ _ Ht) as T2. pose proof (pow3_range _ _ Ht) as T3. pose proof (pow2_range _ _ Hp) as P2.
  pose proof (prod_range _ _ _ _ Ht Hp) as TP.
  assert (W : bw_water_density t p <= 105 / 100).
  { unfold bw_water_density. pose proof (prod_range _ _ _ _ Ht P2). pose proof (prod_range _ _ _ _ T3 Hp).
    assert (t ^ 3 <= 100 * t ^ 2) by (replace (t ^ 3) with (t * t ^ 2) by ring; nra).
    assert (t ^ 2 * p <= 100 * (t * p)) by (replace (t ^ 2 * p) with (t * (t * p)) by ring; nra). lra. }
  pose proof (prod_range _ _ _ _ Hp Hs) as PS. pose proof (prod_range _ _ _ _ Ht Hs) as TS.
  pose proof (prod_range _ _ _ _ Ht PS) as TPS.
  set (c := 668 / 1000 + 44 / 100 * s
         + 1 / 10 ^ 6 * (300 * p - 2400 * p * s
                         + t * (80 + 3 * t - 3300 * s - 13 * p + 47 * p * s))).
  assert (c <= 102 / 100) by (unfold c; lra). clearbody c. nra.
Qed.

Lemma brine_soft t p s m :
  0 <= t <= 100 -> 0 <= p <= 100 * 10 ^ 6 -> 0 <= s <= 300000 -> brine t p s = Ok m ->
  bulk m <= 12 * 10 ^ 9 /\ dens m <= 1360 /\ vp m <= 2870.
Proof.
  intros Ht Hp Hs E.
  assert (Hp' : 0 <= p / 10 ^ 6 <= 100) by (apply div_range; lra).
  assert (Hs' : 0 <= s / 10 ^ 6 <= 3 / 10) by (apply div_range; lra).
  pose proof (brine_velocity_high _ _ _ Ht Hp' Hs') as V. pose proof (brine_density_high _ _ _ Ht Hp' Hs') as D.
  destruct (brine_usable t p s Ht Hp Hs) as (m' & E' & F & _ & D' & V'). rewrite E in E'. injection E' as <-.
  destruct (brine_value _ _ _ _ E) as (_ & Dm & Vm & M). destruct M as (M1 & _).
  assert (dens m <= 1360) by (rewrite Dm; lra). assert (vp m <= 2870) by (rewrite Vm; lra).
  split; [|lra]. rewrite M1. assert (vp m ^ 2 <= 2870 ^ 2) by (apply pow_incr; lra).
  assert (0 <= vp m ^ 2) by (apply pow_le; lra).
  nra.
Qed.

Lemma plain_soft co2 klo section t p k : plain_fluid klo section t p k -> soft_fluid co2 klo section t p k.
Proof.
  intros [(d & b & Ek & Hd & Hb)|(s & Ek & Eq & Ht & Hp & Hs & Hk)].
  - split; [intros i Q; congruence|].
    destruct (given_material d b 0 Hd) as (m & G & W & Bm & Sm & Dm); [lra|lra|].
    exists (FArbitrary m), m. rewrite Ek. split; [constructor; exact G|]. split; [constructor|]. split; [split; assumption|lra].
  - split; [intros i Q; congruence|]. destruct (brine_usable t p s Ht Hp Hs) as (m & E & F & B & _).
    destruct (brine_soft t p s m Ht Hp Hs E) as (U & _).
    exists (FBrine s), m. rewrite Ek, Eq. split; [constructor|]. split; [constructor; exact E|]. split; [exact F|lra].
Qed.

(** ** Whole tables *)
Lemma sand_rows : forall co2 klo muhi header c (rows : list row),
  Forall (fun r => reservoir_sand co2 klo muhi (config_of_row header c r)) rows ->
  exists outs, Forall2 (fun r o => gives_output co2 (config_of_row header c r) o) rows outs /\ Forall (sensible klo) outs.
Proof.
  intros co2 klo muhi header c rows F. induction F as [|r rows H F IH]; [exists []; split; constructor|].
  destruct IH as (outs & A & B). destruct (sand_row _ _ _ _ H) as (o & G & Q). exists (o :: outs). split; constructor; assumption.
Qed.

Lemma sand_combines : forall co2 klo muhi header c (r : row),
  reservoir_sand co2 klo muhi (config_of_row header c r) -> combines c.
Proof.
  intros co2 klo muhi header c r (_ & _ & _ & _ & _ & e & _ & _ & f & Dm & Da & _).
  destruct c as [mi fl d p]. destruct d as [m phi adj]. unfold config_of_row in *.
  cbn [cf_dry_rock dc_model dc_adjustments dc_porosity] in *. split.
  - destruct m; cbn in Dm; try discriminate. exact I.
  - destruct adj; [constructor|discriminate].
Qed.
