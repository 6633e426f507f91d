(** Lemmas about constituents and minerals. *)
From Coq Require Import Permutation.
From Verif Require Import Base BaseProofs MaterialModel Spec MaterialProofs FluidModel FluidProofs HashinShtrikmanModel HashinShtrikmanProofs MineralsModel.

(* ---- fractions ---- *)

Lemma sum_given_all fs : rsum (map (fun o => match o with Some x => x | None => 0 end) fs) = sum_given fs.
Proof. induction fs as [|[x|] fs IH]; simpl; lra. Qed.

Lemma completed_sum c fs :
  rsum (map (fun o => match o with Some x => x | None => c end) fs) = sum_given fs + INR (count_missing fs) * c.
Proof.
  induction fs as [|[x|] fs IH]; cbn [map rsum sum_given count_missing]; [simpl; lra|rewrite IH; lra|].
  rewrite IH, S_INR. lra.
Qed.

Lemma fix_complete fs fs' :
  fix_one_fraction fs = Ok fs' ->
  length fs' = length fs /\
  (forall i x, nth_error fs i = Some (Some x) -> nth_error fs' i = Some x) /\
  (count_missing fs = 1%nat -> rsum fs' = 1) /\
  (count_missing fs = 0%nat -> map Some fs' = fs) /\
  (count_missing fs <= 1)%nat /\ sum_given fs <= 1 + 1 / 10 ^ 5 /\
  (count_missing fs = 1%nat -> - (1 / 10 ^ 5) <= sum_given fs).
Proof.
  unfold fix_one_fraction. destruct (Rlt_dec (1 + 1 / 10 ^ 5) (sum_given fs)) as [H|H]; [discriminate|].
  intros E.
  assert (E' : (count_missing fs <= 1)%nat /\
    fs' = map (fun o => match o with Some x => x | None => 1 - sum_given fs end) fs /\
    (count_missing fs = 1%nat -> - (1 / 10 ^ 5) <= sum_given fs)).
  { destruct (count_missing fs) as [|[|n]]; [| |discriminate].
    - injection E as <-. split; [auto|]. split; [reflexivity|discriminate].
    - unfold fraction_is_ratio in E. destruct (Rlt_dec (1 - _) _) as [A|A]; [discriminate|].
      destruct (Rlt_dec _ (1 - _)) as [B|B]; [discriminate|]. cbn [bind] in E. injection E as <-.
      split; [auto|]. split; [reflexivity|intros _; lra]. }
  destruct E' as [Hc [-> Hlow]]. split; [apply map_length|]. split.
  { intros i x Hi. rewrite nth_error_map, Hi. reflexivity. }
  split.
  { intros Hm. rewrite completed_sum, Hm. simpl. lra. }
  split; [|split; [exact Hc|split; [lra|exact Hlow]]].
  intros Hm. generalize (1 - sum_given fs). intros c. clear E H Hc Hlow.
  induction fs as [|[x|] fs IH]; simpl in *; [reflexivity| |discriminate].
  f_equal. apply IH. exact Hm.
Qed.

Lemma fix_outcome fs :
  (is_ok (fix_one_fraction fs) <->
   (count_missing fs <= 1)%nat /\ sum_given fs <= 1 + 1 / 10 ^ 5 /\
   (count_missing fs = 1%nat -> - (1 / 10 ^ 5) <= sum_given fs)) /\
  (fix_one_fraction fs = Err ValueError <->
   (2 <= count_missing fs)%nat \/ 1 + 1 / 10 ^ 5 < sum_given fs \/
   (count_missing fs = 1%nat /\ sum_given fs < - (1 / 10 ^ 5))).
Proof.
  unfold fix_one_fraction, is_ok. destruct (Rlt_dec (1 + 1 / 10 ^ 5) (sum_given fs)) as [H|H].
  - split; split; try (intros [? ?]; discriminate); auto. intros [_ [? _]]. lra.
  - destruct (count_missing fs) as [|[|n]].
    + split; split; try discriminate; eauto; try (intros [?|[?|[? _]]]; [lia|lra|discriminate]).
      intros _. split; [lia|]. split; [lra|discriminate].
    + unfold fraction_is_ratio. destruct (Rlt_dec (1 - _) _) as [A|A]; [lra|].
      destruct (Rlt_dec _ (1 - _)) as [B|B]; cbn [bind].
      * split; split; try (intros [? ?]; discriminate); try reflexivity.
        -- intros [_ [_ L]]. specialize (L eq_refl). lra.
        -- intros _. right. right. split; [reflexivity|lra].
      * split; split; try discriminate; eauto.
        -- intros _. split; [lia|]. split; [lra|intros _; lra].
        -- intros [?|[?|[_ ?]]]; [lia|lra|lra].
    + split; split; try discriminate; auto.
      * intros [? ?]; discriminate.
      * intros [? _]. lia.
      * intros _. left. lia.
Qed.

Lemma fraction_is_ratio_cases v :
  fraction_is_ratio v = Ok v \/ fraction_is_ratio v = Err ValueError.
Proof.
  unfold fraction_is_ratio. destruct v as [x|]; [|left; reflexivity].
  destruct (Rlt_dec _ _); [right; reflexivity|]. destruct (Rlt_dec _ _); [right|left]; reflexivity.
Qed.

(** A fraction is accepted when missing or in [-1e-5, 1 + 1e-5]. *)
Definition ratio_ok (v : option R) : Prop :=
  match v with None => True | Some x => - (1 / 10 ^ 5) <= x <= 1 + 1 / 10 ^ 5 end.

Lemma fraction_is_ratio_ok v : fraction_is_ratio v = Ok v <-> ratio_ok v.
Proof.
  unfold fraction_is_ratio, ratio_ok. destruct v as [x|]; [|tauto].
  destruct (Rlt_dec x _); [split; [discriminate|lra]|]. destruct (Rlt_dec _ x); split; try discriminate; try reflexivity; lra.
Qed.

Lemma sequence_ratios cs :
  (Forall (fun c : material * option R => ratio_ok (snd c)) cs /\
   sequence (map (fun c => fraction_is_ratio (snd c)) cs) = Ok (map snd cs)) \/
  (~ Forall (fun c : material * option R => ratio_ok (snd c)) cs /\
   sequence (map (fun c => fraction_is_ratio (snd c)) cs) = Err ValueError).
Proof.
  induction cs as [|c cs IH]; [left; split; [constructor|reflexivity]|].
  cbn [map sequence].
  destruct (fraction_is_ratio_cases (snd c)) as [E|E]; rewrite E; cbn [bind].
  - apply fraction_is_ratio_ok in E. destruct IH as [[F ->]|[F ->]]; cbn [bind].
    + left. split; [constructor; assumption|reflexivity].
    + right. split; [|reflexivity]. intros H. inversion H; subst. contradiction.
  - right. split; [|reflexivity]. intros H. inversion H; subst.
    assert (fraction_is_ratio (snd c) = Ok (snd c)) by (apply fraction_is_ratio_ok; assumption). congruence.
Qed.

Lemma isclose_iff s : isclose_one s = true <-> 1 - 2 / 10 ^ 5 <= s <= 1 + 2 / 10 ^ 5.
Proof.
  unfold isclose_one. rewrite Rabs_R1. destruct (Rle_dec _ _) as [H|H].
  - apply Rabs_def2b in H || (assert (HH := H)). split; [intros _|reflexivity].
    unfold Rabs in *. destruct (Rcase_abs (s - 1)); lra.
  - split; [discriminate|]. intros Hs. exfalso. apply H. unfold Rabs. destruct (Rcase_abs (s - 1)); lra.
Qed.

Lemma minerals_accept cs :
  (is_ok (minerals cs) <->
   cs <> [] /\ Forall (fun c => ratio_ok (snd c)) cs /\
   ((count_missing (map snd cs) = 0%nat /\ 1 - 2 / 10 ^ 5 <= sum_given (map snd cs) <= 1 + 1 / 10 ^ 5) \/
    (count_missing (map snd cs) = 1%nat /\ - (1 / 10 ^ 5) <= sum_given (map snd cs) <= 1 + 1 / 10 ^ 5))) /\
  (minerals cs = Err ValueError <-> ~ is_ok (minerals cs)).
Proof.
  destruct cs as [|c0 cs0].
  { split; split; try (intros [? ?]; discriminate); try reflexivity.
    - intros [H _]. congruence.
    - intros _ [? ?]; discriminate. }
  remember (c0 :: cs0) as cs eqn:Ecs.
  assert (Hm : minerals cs = (let* fs := sequence (map (fun c => fraction_is_ratio (snd c)) cs) in
      let* fs := fix_one_fraction fs in
      if isclose_one (rsum fs) then Ok (combine (map fst cs) fs) else Err ValueError))
    by (subst cs; reflexivity).
  assert (Hne : cs <> []) by (subst cs; discriminate). clear Ecs. rewrite Hm. clear Hm.
  destruct (sequence_ratios cs) as [[F E]|[F E]]; rewrite E; cbn [bind].
  2: { split; split; try (intros [? ?]; discriminate); try reflexivity.
       - intros [_ [? _]]. contradiction.
       - intros _ [? ?]; discriminate. }
  destruct (fix_outcome (map snd cs)) as [O1 O2].
  destruct (fix_one_fraction (map snd cs)) as [fs|e] eqn:Ef; cbn [bind].
  - pose proof (fix_complete _ _ Ef) as [HL [_ [H1 [H0 [Hc [Hs Hlow]]]]]].
    assert (Hsum : (count_missing (map snd cs) = 0%nat /\ rsum fs = sum_given (map snd cs)) \/
                   (count_missing (map snd cs) = 1%nat /\ rsum fs = 1)).
    { destruct (count_missing (map snd cs)) as [|[|n]]; [|right; auto|lia].
      left. split; [reflexivity|]. rewrite <- (H0 eq_refl). clear. induction fs as [|x fs IH]; simpl; lra. }
    destruct (isclose_one (rsum fs)) eqn:Ei.
    + apply isclose_iff in Ei. split; split; try discriminate.
      * intros _. split; [exact Hne|]. split; [exact F|].
        destruct Hsum as [[? ?]|[Hone ?]]; [left; split; [assumption|lra]|right; split; [exact Hone|]].
        specialize (Hlow Hone). lra.
      * intros _. eexists; reflexivity.
      * intros H. exfalso. apply H. eexists; reflexivity.
    + assert (Hni : ~ (1 - 2 / 10 ^ 5 <= rsum fs <= 1 + 2 / 10 ^ 5)) by (rewrite <- isclose_iff; congruence).
      split; split; try (intros [? ?]; discriminate); try reflexivity.
      * intros [_ [_ [[A B]|[A B]]]]; exfalso; apply Hni; destruct Hsum as [[? ?]|[? ?]]; try lia; lra.
      * intros _ [? ?]; discriminate.
  - assert (e = ValueError).
    { unfold fix_one_fraction in Ef. destruct (Rlt_dec _ _); [congruence|].
      destruct (count_missing _) as [|[|n0]]; [congruence| |congruence].
      destruct (fraction_is_ratio_cases (Some (1 - sum_given (map snd cs)))) as [R|R]; rewrite R in Ef;
        cbn [bind] in Ef; congruence. }
    subst e. destruct O2 as [O2 _]. specialize (O2 eq_refl).
    split; split; try (intros [? ?]; discriminate); try reflexivity.
    + intros [_ [_ [[A B]|[A B]]]]; destruct O2 as [?|[?|[? ?]]]; try lia; lra.
    + intros _ [? ?]; discriminate.
Qed.

(** After construction the fractions sum to one within tolerance. *)
Lemma minerals_result cs l :
  minerals cs = Ok l ->
  map fst l = map fst cs /\
  (forall i m x, nth_error cs i = Some (m, Some x) -> nth_error l i = Some (m, x)) /\
  1 - 2 / 10 ^ 5 <= rsum (map snd l) <= 1 + 1 / 10 ^ 5.
Proof.
  intros H. destruct cs as [|c0 cs0]; [discriminate|].
  remember (c0 :: cs0) as cs eqn:Ecs.
  assert (Hm : minerals cs = (let* fs := sequence (map (fun c => fraction_is_ratio (snd c)) cs) in
      let* fs := fix_one_fraction fs in
      if isclose_one (rsum fs) then Ok (combine (map fst cs) fs) else Err ValueError))
    by (subst cs; reflexivity).
  clear Ecs. rewrite Hm in H. clear Hm.
  destruct (sequence_ratios cs) as [[F E]|[F E]]; rewrite E in H; cbn [bind] in H; [|discriminate].
  destruct (fix_one_fraction (map snd cs)) as [fs|e] eqn:Ef; cbn [bind] in H; [|discriminate].
  destruct (isclose_one (rsum fs)) eqn:Ei; [|discriminate].
  injection H as <-. apply isclose_iff in Ei.
  pose proof (fix_complete _ _ Ef) as [HL [Hn [H1 [H0 [Hc [Hs Hlow]]]]]]. rewrite map_length in HL.
  assert (Es : map snd (combine (map fst cs) fs) = fs) by (apply snd_combine; rewrite map_length; congruence).
  assert (Efst : map fst (combine (map fst cs) fs) = map fst cs).
  { clear - HL. revert fs HL. induction cs as [|c cs IH]; intros [|x fs] HL; simpl in *; try congruence. f_equal. apply IH. congruence. }
  split; [exact Efst|]. rewrite Es. split.
  - intros i m x Hi.
    assert (A : nth_error (map snd cs) i = Some (Some x)) by (rewrite nth_error_map, Hi; reflexivity).
    apply Hn in A.
    assert (B : nth_error (map fst cs) i = Some m) by (rewrite nth_error_map, Hi; reflexivity).
    clear - A B HL. assert (HL' : length fs = length (map fst cs)) by (rewrite map_length; exact HL).
    revert A B HL'. generalize (map fst cs). clear. revert i.
    induction fs as [|y fs IH]; intros [|i] [|n l]; simpl; intros; try discriminate.
    + congruence.
    + apply IH; [assumption|assumption|congruence].
  - split; [lra|]. destruct (count_missing (map snd cs)) as [|[|n]]; [|rewrite H1 by reflexivity; lra|lia].
    assert (rsum fs = sum_given (map snd cs)); [|lra].
    rewrite <- (H0 eq_refl). clear. induction fs as [|x fs IH]; simpl; lra.
Qed.

(* ---- mixing ---- *)

Lemma part_of_total_value f t : 0 <= f -> f <= t ->
  exists r, part_of_total f t = Ok r /\ 0 <= r <= 1 /\ (t <> 0 -> r * t = f) /\ (t = 0 -> r = 1).
Proof.
  intros Hf Ht. unfold part_of_total. destruct (Req_EM_T t 0) as [E|E].
  - exists 1. repeat split; try lra.
  - rewrite py_div_ok by exact E. exists (f / t). split; [reflexivity|].
    assert (0 < t) by lra. split; [split|split].
    + apply div_nonneg; lra.
    + apply Rmult_le_reg_r with t; [assumption|]. unfold Rdiv. rewrite Rmult_assoc, Rinv_l by lra. lra.
    + intros _. field. exact E.
    + intros; congruence.
Qed.

Lemma rewrap m : wf m -> arbitrary_material (Some (bulk m)) (Some (shear m)) (dens m) None None = Ok m.
Proof.
  intros W. pose proof W as [D [K [S _]]]. rewrite arbitrary_moduli_ok by assumption. apply wf_eta. exact W.
Qed.

Lemma ratio_some_ok x : 0 <= x <= 1 + 1 / 10 ^ 5 -> fraction_is_ratio (Some x) = Ok (Some x).
Proof. intros H. apply fraction_is_ratio_ok. simpl. lra. Qed.

Lemma mix_step_value cur next :
  solid (fst cur) -> solid (fst next) -> 0 <= snd cur -> 0 <= snd next ->
  snd cur + snd next <= 1 + 1 / 10 ^ 5 ->
  exists m r, mix_minerals cur next = Ok (m, snd cur + snd next) /\ solid m /\
    hashin_shtrikman_walpole (fst cur) (fst next) r "lower" = Ok m /\
    0 <= r <= 1 /\ r * (snd cur + snd next) = snd cur /\
    (snd cur + snd next = 0 -> r = 1) /\
    between (bulk (fst cur)) (bulk m) (bulk (fst next)) /\
    between (shear (fst cur)) (shear m) (shear (fst next)) /\
    dens m * (snd cur + snd next) = snd cur * dens (fst cur) + snd next * dens (fst next).
Proof.
  intros S1 S2 H1 H2 Ht.
  destruct (part_of_total_value (snd cur) (snd cur + snd next)) as [r [Er [Hr [Hrt Hr0]]]]; [lra|lra|].
  destruct (walpole_between false (fst cur) (fst next) r (solid_mixable _ _ _ S1 S2) Hr)
    as [m [Em [Wm [Bk [Bs Ed]]]]].
  cbn [bound_name] in Em.
  exists m, r. unfold mix_minerals. rewrite Er. cbn [bind]. rewrite Em. cbn [bind].
  rewrite rewrap by exact Wm. cbn [bind]. rewrite ratio_some_ok by lra. cbn [bind].
  split; [reflexivity|].
  assert (Hr2 : r * (snd cur + snd next) = snd cur).
  { destruct (Req_EM_T (snd cur + snd next) 0) as [E|E]; [rewrite E; lra|apply Hrt; exact E]. }
  split; [|].
  { split; [exact Wm|]. unfold between in Bs. destruct S1 as [_ P1], S2 as [_ P2].
    assert (0 < Rmin (shear (fst cur)) (shear (fst next))) by (apply Rmin_glb_lt; assumption). lra. }
  split; [reflexivity|]. split; [exact Hr|]. split; [exact Hr2|]. split; [exact Hr0|].
  split; [exact Bk|]. split; [exact Bs|].
  rewrite Ed.
  replace ((r * dens (fst cur) + (1 - r) * dens (fst next)) * (snd cur + snd next))
    with (r * (snd cur + snd next) * dens (fst cur) + (snd cur + snd next - r * (snd cur + snd next)) * dens (fst next)) by ring.
  rewrite Hr2. ring.
Qed.

Lemma mix_loop_value rest : forall cur,
  solid (fst cur) -> 0 <= snd cur ->
  Forall (fun c => solid (fst c) /\ 0 <= snd c) rest ->
  snd cur + rsum (map snd rest) <= 1 + 1 / 10 ^ 5 ->
  exists m, mix_loop cur rest = Ok (m, snd cur + rsum (map snd rest)) /\ solid m /\
    dens m * (snd cur + rsum (map snd rest)) =
      snd cur * dens (fst cur) + wsum (map snd rest) (map (fun c => dens (fst c)) rest) /\
    (forall lo, lo <= bulk (fst cur) -> all_ge lo (map (fun c => bulk (fst c)) rest) -> lo <= bulk m) /\
    (forall hi, bulk (fst cur) <= hi -> all_le hi (map (fun c => bulk (fst c)) rest) -> bulk m <= hi) /\
    (forall lo, lo <= shear (fst cur) -> all_ge lo (map (fun c => shear (fst c)) rest) -> lo <= shear m) /\
    (forall hi, shear (fst cur) <= hi -> all_le hi (map (fun c => shear (fst c)) rest) -> shear m <= hi).
Proof.
  induction rest as [|next rest IH]; intros cur S1 H1 F Ht.
  - exists (fst cur). cbn [mix_loop map rsum wsum]. rewrite Rplus_0_r.
    split; [destruct cur; reflexivity|]. split; [exact S1|]. split; [ring|]. auto.
  - inversion F as [|? ? [S2 H2] F']; subst. cbn [map rsum] in Ht.
    assert (Hr : 0 <= rsum (map snd rest)).
    { apply rsum_nonneg, Forall_map. eapply Forall_impl; [|exact F']. intros a [_ ?]; assumption. }
    destruct (mix_step_value cur next S1 S2 H1 H2 ltac:(lra)) as [m [r [Em [Sm [_ [_ [_ [_ [Bk [Bs Ed]]]]]]]]]].
    destruct (IH (m, snd cur + snd next)) as [m' [E' [S' [D' [L1 [U1 [L2 U2]]]]]]]; cbn [fst snd] in *;
      [exact Sm|lra|exact F'|lra|].
    exists m'. cbn [mix_loop map rsum wsum]. rewrite Em. cbn [bind].
    replace (snd cur + (snd next + rsum (map snd rest))) with (snd cur + snd next + rsum (map snd rest)) by ring.
    split; [exact E'|]. split; [exact S'|]. split; [rewrite D'; lra|].
    unfold between in Bk, Bs.
    split; [|split; [|split]].
    + intros lo HA HB. inversion HB as [|? ? HB1 HB2]; subst. apply L1; [|exact HB2].
      pose proof (Rmin_glb (bulk (fst cur)) (bulk (fst next)) lo HA HB1). lra.
    + intros hi HA HB. inversion HB as [|? ? HB1 HB2]; subst. apply U1; [|exact HB2].
      pose proof (Rmax_lub (bulk (fst cur)) (bulk (fst next)) hi HA HB1). lra.
    + intros lo HA HB. inversion HB as [|? ? HB1 HB2]; subst. apply L2; [|exact HB2].
      pose proof (Rmin_glb (shear (fst cur)) (shear (fst next)) lo HA HB1). lra.
    + intros hi HA HB. inversion HB as [|? ? HB1 HB2]; subst. apply U2; [|exact HB2].
      pose proof (Rmax_lub (shear (fst cur)) (shear (fst next)) hi HA HB1). lra.
Qed.

Lemma mixture_value l :
  mineral_list l ->
  exists m, minerals_as_mixture l = Ok m /\ solid m /\
    dens m * rsum (map snd l) = wsum (map snd l) (map (fun c => dens (fst c)) l) /\
    (forall lo, all_ge lo (map (fun c => bulk (fst c)) l) -> lo <= bulk m) /\
    (forall hi, all_le hi (map (fun c => bulk (fst c)) l) -> bulk m <= hi) /\
    (forall lo, all_ge lo (map (fun c => shear (fst c)) l) -> lo <= shear m) /\
    (forall hi, all_le hi (map (fun c => shear (fst c)) l) -> shear m <= hi).
Proof.
  intros [Hne [F Ht]]. destruct l as [|first rest]; [congruence|].
  inversion F as [|? ? [S1 H1] F']; subst. cbn [map rsum] in Ht.
  destruct (mix_loop_value rest first S1 H1 F' Ht) as [m [E [Sm [D [L1 [U1 [L2 U2]]]]]]].
  exists m. cbn [minerals_as_mixture map rsum wsum]. rewrite E. cbn [bind fst].
  split; [reflexivity|]. split; [exact Sm|]. split; [exact D|].
  split; [|split; [|split]].
  - intros lo HB. inversion HB; subst. apply L1; assumption.
  - intros hi HB. inversion HB; subst. apply U1; assumption.
  - intros lo HB. inversion HB; subst. apply L2; assumption.
  - intros hi HB. inversion HB; subst. apply U2; assumption.
Qed.

Lemma mixture_density l m :
  mineral_list l -> 0 < rsum (map snd l) -> minerals_as_mixture l = Ok m ->
  dens m = wsum (map snd l) (map (fun c => dens (fst c)) l) / rsum (map snd l).
Proof.
  intros H Hp E. destruct (mixture_value l H) as [m' [E' [_ [D _]]]].
  rewrite E in E'. injection E' as <-. rewrite <- D. field. lra.
Qed.

Lemma mixture_range l :
  mineral_list l ->
  exists m, minerals_as_mixture l = Ok m /\ solid m /\
    (forall lo, all_ge lo (map (fun c => bulk (fst c)) l) -> lo <= bulk m) /\
    (forall hi, all_le hi (map (fun c => bulk (fst c)) l) -> bulk m <= hi) /\
    (forall lo, all_ge lo (map (fun c => shear (fst c)) l) -> lo <= shear m) /\
    (forall hi, all_le hi (map (fun c => shear (fst c)) l) -> shear m <= hi).
Proof.
  intros H. destruct (mixture_value l H) as [m [E [S [_ R]]]]. exists m. auto.
Qed.

(* ---- zero fractions ---- *)

Lemma mix_step_zero_next cur m :
  solid (fst cur) -> solid m -> 0 <= snd cur <= 1 + 1 / 10 ^ 5 ->
  mix_minerals cur (m, 0) = Ok cur.
Proof.
  intros S1 S2 H. destruct (mix_step_value cur (m, 0)) as [m' [r [E [_ [W [_ [Hr [Hr0 _]]]]]]]];
    cbn [fst snd] in *; try assumption; try lra.
  assert (r = 1).
  { destruct (Req_EM_T (snd cur) 0) as [Z|Z]; [apply Hr0; lra|].
    rewrite Rplus_0_r in Hr. apply Rmult_eq_reg_r with (snd cur); lra. }
  subst r. destruct (walpole_endpoints false (fst cur) m (solid_mixable _ _ _ S1 S2)) as [W1 _].
  cbn [bound_name] in W1. rewrite W1 in W. injection W as <-. rewrite E, Rplus_0_r.
  destruct cur; reflexivity.
Qed.

Lemma mix_step_zero_cur m next :
  solid m -> solid (fst next) -> 0 < snd next <= 1 + 1 / 10 ^ 5 ->
  mix_minerals (m, 0) next = Ok next.
Proof.
  intros S1 S2 H. destruct (mix_step_value (m, 0) next) as [m' [r [E [_ [W [_ [Hr [Hr0 _]]]]]]]];
    cbn [fst snd] in *; try assumption; try lra.
  assert (r = 0) by (rewrite Rplus_0_l in Hr; apply Rmult_eq_reg_r with (snd next); lra).
  subst r. destruct (walpole_endpoints false m (fst next) (solid_mixable _ _ _ S1 S2)) as [_ W1].
  cbn [bound_name] in W1. rewrite W1 in W. injection W as <-. rewrite E, Rplus_0_l.
  destruct next; reflexivity.
Qed.

Lemma zero_state_irrelevant rest : forall m m',
  solid m -> solid m' ->
  Forall (fun c => solid (fst c) /\ 0 <= snd c) rest ->
  0 < rsum (map snd rest) <= 1 + 1 / 10 ^ 5 ->
  mix_loop (m, 0) rest = mix_loop (m', 0) rest.
Proof.
  induction rest as [|next rest IH]; intros m m' S S' F Ht; [simpl in Ht; lra|].
  inversion F as [|? ? [S2 H2] F']; subst. cbn [map rsum] in Ht. cbn [mix_loop].
  assert (Hr : 0 <= rsum (map snd rest)).
  { apply rsum_nonneg, Forall_map. eapply Forall_impl; [|exact F']. intros a [_ ?]; assumption. }
  destruct (Req_EM_T (snd next) 0) as [Z|Z].
  - destruct next as [n x]. cbn [fst snd] in *. subst x.
    rewrite (mix_step_zero_next (m, 0)), (mix_step_zero_next (m', 0)) by (cbn [fst snd]; try assumption; lra).
    cbn [bind]. apply IH; try assumption. lra.
  - rewrite (mix_step_zero_cur m), (mix_step_zero_cur m') by (try assumption; lra). reflexivity.
Qed.

Lemma mix_loop_app l1 : forall cur l2,
  mix_loop cur (l1 ++ l2) = (let* c := mix_loop cur l1 in mix_loop c l2).
Proof.
  induction l1 as [|a l1 IH]; intros cur l2; [reflexivity|]. cbn [app mix_loop].
  destruct (mix_minerals cur a) as [c|e]; cbn [bind]; [apply IH|reflexivity].
Qed.

Lemma mixture_zero_fraction l1 l2 m :
  solid m -> Forall (fun c => solid (fst c) /\ 0 <= snd c) (l1 ++ l2) ->
  0 < rsum (map snd (l1 ++ l2)) <= 1 + 1 / 10 ^ 5 ->
  minerals_as_mixture (l1 ++ (m, 0) :: l2) = minerals_as_mixture (l1 ++ l2).
Proof.
  intros Sm F Ht. destruct l1 as [|first l1].
  - cbn [app] in *. destruct l2 as [|next l2]; [simpl in Ht; lra|].
    inversion F as [|? ? [S2 H2] F']; subst. cbn [map rsum] in Ht.
    cbn [minerals_as_mixture mix_loop].
    assert (Hr : 0 <= rsum (map snd l2)).
    { apply rsum_nonneg, Forall_map. eapply Forall_impl; [|exact F']. intros a [_ ?]; assumption. }
    destruct (Req_EM_T (snd next) 0) as [Z|Z].
    + destruct next as [n x]. cbn [fst snd] in *. subst x.
      rewrite (mix_step_zero_next (m, 0)) by (cbn [fst snd]; try assumption; lra). cbn [bind].
      rewrite (zero_state_irrelevant l2 m n); try assumption; [reflexivity|lra].
    + rewrite mix_step_zero_cur by (try assumption; lra). reflexivity.
  - cbn [app minerals_as_mixture]. rewrite !mix_loop_app.
    cbn [app] in F, Ht. inversion F as [|? ? [S1 H1] F']; subst.
    apply Forall_app in F'. destruct F' as [F1 F2].
    cbn [map rsum] in Ht. rewrite map_app, rsum_app in Ht.
    assert (Hr1 : 0 <= rsum (map snd l1)).
    { apply rsum_nonneg, Forall_map. eapply Forall_impl; [|exact F1]. intros a [_ ?]; assumption. }
    assert (Hr2 : 0 <= rsum (map snd l2)).
    { apply rsum_nonneg, Forall_map. eapply Forall_impl; [|exact F2]. intros a [_ ?]; assumption. }
    destruct (mix_loop_value l1 first S1 H1 F1 ltac:(lra)) as [mm [E [Smm _]]].
    rewrite E. cbn [bind mix_loop].
    rewrite mix_step_zero_next by (cbn [fst snd]; try assumption; lra). reflexivity.
Qed.

(* ---- order ---- *)

Lemma mixture_two_swap a b :
  mineral_list [a; b] -> 0 < snd a + snd b -> minerals_as_mixture [a; b] = minerals_as_mixture [b; a].
Proof.
  intros [_ [F Ht]] Hp. inversion F as [|? ? [S1 H1] F']; subst. inversion F' as [|? ? [S2 H2] _]; subst.
  cbn [map rsum] in Ht. cbn [minerals_as_mixture mix_loop].
  destruct (mix_step_value a b S1 S2 H1 H2 ltac:(lra)) as [m [r [E [_ [W [Hr [Er _]]]]]]].
  destruct (mix_step_value b a S2 S1 H2 H1 ltac:(lra)) as [m' [r' [E' [_ [W' [Hr' [Er' _]]]]]]].
  rewrite E, E'. cbn [bind fst]. f_equal.
  assert (r' = 1 - r).
  { apply Rmult_eq_reg_r with (snd a + snd b); [|lra].
    rewrite Rmult_minus_distr_r, Er, (Rplus_comm (snd a)), Er'. ring. }
  subst r'.
  pose proof (walpole_symmetric false (fst a) (fst b) r (solid_mixable _ _ _ S1 S2) Hr) as HS.
  cbn [bound_name] in HS. congruence.
Qed.

Lemma pick_min a b : pick false a b = Rmin a b. Proof. reflexivity. Qed.

(** Three minerals: order matters. *)
Lemma mixture_order_refuted :
  exists a b c m m',
    mineral_list [a; b; c] /\ rsum (map snd [a; b; c]) = 1 /\
    minerals_as_mixture [a; b; c] = Ok m /\ minerals_as_mixture [b; c; a] = Ok m' /\
    bulk m <> bulk m'.
Proof.
  set (A := sample 1 1 1). set (B := sample 1 2 1). set (C := sample 2 2 1).
  assert (SA : solid A) by (apply sample_solid; lra).
  assert (SB : solid B) by (apply sample_solid; lra).
  assert (SC : solid C) by (apply sample_solid; lra).
  assert (L1 : mineral_list [(A, 1 / 3); (B, 1 / 3); (C, 1 / 3)]).
  { split; [discriminate|]. split; [|simpl; lra].
    repeat (apply Forall_cons; [split; [assumption|simpl; lra]|]). apply Forall_nil. }
  assert (L2 : mineral_list [(B, 1 / 3); (C, 1 / 3); (A, 1 / 3)]).
  { split; [discriminate|]. split; [|simpl; lra].
    repeat (apply Forall_cons; [split; [assumption|simpl; lra]|]). apply Forall_nil. }
  destruct (mixture_value _ L1) as [m [Em _]]. destruct (mixture_value _ L2) as [m' [Em' _]].
  exists (A, 1 / 3), (B, 1 / 3), (C, 1 / 3), m, m'.
  split; [exact L1|]. split; [simpl; lra|]. split; [exact Em|]. split; [exact Em'|].
  cbn [minerals_as_mixture mix_loop] in Em, Em'.
  destruct (mix_step_value (A, 1 / 3) (B, 1 / 3)) as [ab [r [E1 [S1 [W1 [Hr1 [Er1 _]]]]]]]; cbn [fst snd] in *; try assumption; try lra.
  destruct (mix_step_value (ab, 1 / 3 + 1 / 3) (C, 1 / 3)) as [abc [r2 [E2 [S2 [W2 [Hr2 [Er2 _]]]]]]]; cbn [fst snd] in *; try assumption; try lra.
  destruct (mix_step_value (B, 1 / 3) (C, 1 / 3)) as [bc [r3 [E3 [S3 [W3 [Hr3 [Er3 _]]]]]]]; cbn [fst snd] in *; try assumption; try lra.
  destruct (mix_step_value (bc, 1 / 3 + 1 / 3) (A, 1 / 3)) as [bca [r4 [E4 [S4 [W4 [Hr4 [Er4 _]]]]]]]; cbn [fst snd] in *; try assumption; try lra.
  rewrite E1 in Em. cbn [bind] in Em. rewrite E2 in Em. cbn [bind fst] in Em. injection Em as <-.
  rewrite E3 in Em'. cbn [bind] in Em'. rewrite E4 in Em'. cbn [bind fst] in Em'. injection Em' as <-.
  assert (r = 1 / 2) by lra. assert (r2 = 2 / 3) by lra. assert (r3 = 1 / 2) by lra. assert (r4 = 2 / 3) by lra.
  subst r r2 r3 r4.
  destruct (walpole_value false A B (1 / 2) (solid_mixable _ _ _ SA SB) Hr1) as [x [X1 [_ [K1 [M1 _]]]]].
  cbn [bound_name] in X1. rewrite W1 in X1. injection X1 as <-.
  destruct (walpole_value false ab C (2 / 3) (solid_mixable _ _ _ S1 SC) Hr2) as [x [X2 [_ [K2 _]]]].
  cbn [bound_name] in X2. rewrite W2 in X2. injection X2 as <-.
  destruct (walpole_value false B C (1 / 2) (solid_mixable _ _ _ SB SC) Hr3) as [x [X3 [_ [K3 [M3 _]]]]].
  cbn [bound_name] in X3. rewrite W3 in X3. injection X3 as <-.
  destruct (walpole_value false bc A (2 / 3) (solid_mixable _ _ _ S3 SA) Hr4) as [x [X4 [_ [K4 _]]]].
  cbn [bound_name] in X4. rewrite W4 in X4. injection X4 as <-.
  unfold wbulk, wshear, pick in *. cbn [A B C sample bulk shear dens] in *.
  rewrite Rmin_left in K1, M1 by lra. rewrite Rmin_left in M1 by lra.
  rewrite Rmin_left in K3, M3 by lra. rewrite Rmin_left in M3 by lra.
  assert (Mab : shear ab = 123 / 88) by (rewrite M1; unfold hs, zeta; field).
  assert (Kab : bulk ab = 1) by (rewrite K1; unfold hs; field).
  assert (Kbc : bulk bc = 36 / 25) by (rewrite K3; unfold hs; field).
  assert (Mbc : shear bc = 2).
  { rewrite M3. apply hs_same. apply Rgt_not_eq. pose proof (zeta_pos 1 2). lra. }
  rewrite Mab, Kab in K2. rewrite Mbc, Kbc in K4.
  rewrite Rmin_left in K2 by lra. rewrite Rmin_right in K4 by lra.
  rewrite K2, K4. unfold hs. lra.
Qed.

(** With one common shear modulus the order is immaterial: any permutation. *)
Definition zc (mu : R) : R := 4 / 3 * mu.
Definition moment (z : R) (l : list (material * R)) : R :=
  wsum (map snd l) (map (fun c => / (bulk (fst c) + z)) l).

Lemma hs_harmonic f x1 x2 z : 0 <= f <= 1 -> 0 <= x1 -> 0 <= x2 -> 0 < z ->
  / (hs f x1 x2 z + z) = f * / (x1 + z) + (1 - f) * / (x2 + z).
Proof.
  intros Hf H1 H2 Hz. pose proof (hs_den_pos f x1 x2 z Hf H1 H2 Hz) as HD.
  assert (E : hs f x1 x2 z + z = (x1 + z) * (x2 + z) / (f * x2 + (1 - f) * x1 + z)).
  { unfold hs. field. lra. }
  rewrite E. field. repeat split; lra.
Qed.

Lemma hs_equal_shear f mu z : 0 < mu -> 0 < z -> hs f mu mu z = mu.
Proof. intros. apply hs_same. lra. Qed.

Lemma mix_loop_equal_shear mu rest : forall cur,
  0 < mu -> solid (fst cur) -> shear (fst cur) = mu -> 0 <= snd cur ->
  Forall (fun c => solid (fst c) /\ 0 <= snd c) rest ->
  Forall (fun c => shear (fst c) = mu) rest ->
  snd cur + rsum (map snd rest) <= 1 + 1 / 10 ^ 5 ->
  exists m, mix_loop cur rest = Ok (m, snd cur + rsum (map snd rest)) /\ solid m /\
    shear m = mu /\
    / (bulk m + zc mu) * (snd cur + rsum (map snd rest)) =
      snd cur * / (bulk (fst cur) + zc mu) + moment (zc mu) rest.
Proof.
  induction rest as [|next rest IH]; intros cur Hmu S1 Hs H1 F G Ht.
  - exists (fst cur). unfold moment. cbn [mix_loop map rsum wsum]. rewrite Rplus_0_r.
    split; [destruct cur; reflexivity|]. split; [exact S1|]. split; [exact Hs|]. ring.
  - inversion F as [|? ? [S2 H2] F']; inversion G as [|? ? G1 G']; subst. cbn [map rsum] in Ht.
    assert (Hr : 0 <= rsum (map snd rest)).
    { apply rsum_nonneg, Forall_map. eapply Forall_impl; [|exact F']. intros a [_ ?]; assumption. }
    set (mu := shear (fst cur)) in *.
    destruct (mix_step_value cur next S1 S2 H1 H2 ltac:(lra)) as [m [r [Em [Sm [W [Hr1 [Er _]]]]]]].
    destruct (walpole_value false (fst cur) (fst next) r (solid_mixable _ _ _ S1 S2) Hr1) as [x [X [_ [K [M _]]]]].
    cbn [bound_name] in X. rewrite W in X. injection X as <-.
    unfold wbulk, wshear, pick in K, M. rewrite G1 in K, M. fold mu in K, M.
    rewrite (Rmin_left mu mu) in K, M by lra.
    assert (K1 : 0 <= bulk (fst cur)) by apply S1. assert (K2 : 0 <= bulk (fst next)) by apply S2.
    rewrite hs_equal_shear in M; [|exact Hmu|apply zeta_pos; [apply (pick_nonneg false); assumption|exact Hmu]].
    destruct (IH (m, snd cur + snd next)) as [m' [E' [S' [Ms' D']]]]; cbn [fst snd] in *;
      try assumption; try lra.
    exists m'. unfold moment in *. cbn [mix_loop map rsum wsum]. rewrite Em. cbn [bind].
    replace (snd cur + (snd next + rsum (map snd rest))) with (snd cur + snd next + rsum (map snd rest)) by ring.
    split; [exact E'|]. split; [exact S'|]. split; [exact Ms'|].
    rewrite D', K. unfold zc at 1. rewrite hs_harmonic by (try assumption; lra). fold (zc mu).
    replace ((snd cur + snd next) * (r * / (bulk (fst cur) + zc mu) + (1 - r) * / (bulk (fst next) + zc mu)))
      with (r * (snd cur + snd next) * / (bulk (fst cur) + zc mu) +
            (snd cur + snd next - r * (snd cur + snd next)) * / (bulk (fst next) + zc mu)) by ring.
    rewrite Er. ring.
Qed.

Lemma moment_perm z l l' : Permutation l l' -> moment z l = moment z l'.
Proof.
  unfold moment. induction 1 as [|x l l' P IH|x y l|l1 l2 l3 P1 IH1 P2 IH2]; cbn [map wsum]; try lra.
Qed.
Lemma dens_perm l l' : Permutation l l' ->
  wsum (map snd l) (map (fun c : material * R => dens (fst c)) l) =
  wsum (map snd l') (map (fun c => dens (fst c)) l').
Proof.
  induction 1 as [|x l l' P IH|x y l|l1 l2 l3 P1 IH1 P2 IH2]; cbn [map wsum]; try lra.
Qed.

Lemma mixture_order_equal_shear mu l l' :
  0 < mu -> Permutation l l' -> mineral_list l -> 0 < rsum (map snd l) ->
  Forall (fun c => shear (fst c) = mu) l ->
  minerals_as_mixture l = minerals_as_mixture l'.
Proof.
  intros Hmu P L Hp G.
  assert (L' : mineral_list l').
  { destruct L as [Hne [F Ht]]. split; [|split].
    - intros ->. symmetry in P. apply Permutation_nil in P. congruence.
    - eapply Permutation_Forall; eassumption.
    - rewrite <- (rsum_perm (map snd l)); [exact Ht|apply Permutation_map; exact P]. }
  assert (G' : Forall (fun c => shear (fst c) = mu) l') by (eapply Permutation_Forall; eassumption).
  assert (Et : rsum (map snd l') = rsum (map snd l)) by (symmetry; apply rsum_perm, Permutation_map, P).
  assert (V : forall k, mineral_list k -> Forall (fun c => shear (fst c) = mu) k ->
    exists m, minerals_as_mixture k = Ok m /\ solid m /\ shear m = mu /\
      / (bulk m + zc mu) * rsum (map snd k) = moment (zc mu) k /\
      dens m * rsum (map snd k) = wsum (map snd k) (map (fun c => dens (fst c)) k)).
  { intros k Lk Gk. destruct (mixture_value k Lk) as [m [E [_ [D _]]]].
    destruct Lk as [Hne [F Ht]]. destruct k as [|first rest]; [congruence|].
    inversion F as [|? ? [S1 H1] F1]; inversion Gk as [|? ? G1 G2]; subst.
    destruct (mix_loop_equal_shear (shear (fst first)) rest first) as [m' [E' [S' [Ms' D']]]]; try assumption; try reflexivity.
    cbn [minerals_as_mixture] in E. rewrite E' in E. cbn [bind fst] in E. injection E as <-.
    exists m'. cbn [minerals_as_mixture]. rewrite E'. split; [reflexivity|].
    split; [exact S'|]. split; [exact Ms'|]. split; [exact D'|exact D]. }
  destruct (V l L G) as [m [E [[W _] [M [K D]]]]]. destruct (V l' L' G') as [m' [E' [[W' _] [M' [K' D']]]]].
  rewrite E, E'. f_equal. rewrite Et in K', D'.
  apply wf_ext; [exact W|exact W'| |congruence|].
  - rewrite (moment_perm _ _ _ P) in K.
    assert (EI : / (bulk m + zc mu) = / (bulk m' + zc mu)).
    { apply Rmult_eq_reg_r with (rsum (map snd l)); [|lra]. congruence. }
    assert (bulk m + zc mu = bulk m' + zc mu).
    { rewrite <- (Rinv_inv (bulk m + zc mu)), <- (Rinv_inv (bulk m' + zc mu)). congruence. }
    lra.
  - rewrite (dens_perm _ _ P) in D. apply Rmult_eq_reg_r with (rsum (map snd l)); [congruence|lra].
Qed.
