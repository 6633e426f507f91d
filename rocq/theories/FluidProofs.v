(** Lemmas about fluid mixing. *)
From Coq Require Import Permutation.
From Verif Require Import Base BaseProofs MaterialModel Spec MaterialProofs FluidModel.

Lemma tiny_pos : 0 < 1 / 10 ^ 15.
Proof. apply Rdiv_lt_0_compat; [lra|apply pow_lt; lra]. Qed.
Lemma tiny_lt_1 : 1 / 10 ^ 15 < 1.
Proof. lra. Qed.

(* ---- saturations ---- *)

Lemma sats_length s : length (sum_saturations_to_one s) = length s.
Proof. apply map_length. Qed.

Lemma sats_big s :
  1 / 10 ^ 15 <= rsum s ->
  sum_saturations_to_one s = map (fun x => x / rsum s) s.
Proof.
  intros H. pose proof tiny_pos. unfold sum_saturations_to_one.
  rewrite Rmax_left by exact H. apply map_ext. intros x.
  destruct (Rlt_dec 0 (rsum s)); [reflexivity|lra].
Qed.

Lemma sats_small s :
  0 < rsum s < 1 / 10 ^ 15 ->
  sum_saturations_to_one s = map (fun x => x / (1 / 10 ^ 15)) s.
Proof.
  intros H. unfold sum_saturations_to_one.
  rewrite Rmax_right by lra. apply map_ext. intros x.
  destruct (Rlt_dec 0 (rsum s)); [reflexivity|lra].
Qed.

Lemma sats_zero s :
  rsum s <= 0 -> sum_saturations_to_one s = map (fun _ => 1) s.
Proof.
  intros H. pose proof tiny_pos. unfold sum_saturations_to_one.
  rewrite Rmax_right by lra. apply map_ext. intros x.
  destruct (Rlt_dec 0 (rsum s)); [lra|]. field.
Qed.

Lemma rsum_ones {A} (s : list A) : rsum (map (fun _ => 1) s) = INR (length s).
Proof.
  induction s as [|x s IH]; [reflexivity|]. cbn [map rsum length]. rewrite IH, S_INR. lra.
Qed.

(** When the normalised saturations sum to one. *)
Lemma sats_sum_one_iff s :
  rsum (sum_saturations_to_one s) = 1 <->
  1 / 10 ^ 15 <= rsum s \/ (rsum s <= 0 /\ length s = 1%nat).
Proof.
  pose proof tiny_pos as Ht.
  destruct (Rle_dec (1 / 10 ^ 15) (rsum s)) as [H|H].
  - rewrite sats_big by exact H. rewrite rsum_map_div by lra.
    split; [auto|]. intros _. field. lra.
  - destruct (Rlt_dec 0 (rsum s)) as [H0|H0].
    + rewrite sats_small by lra. rewrite rsum_map_div by lra.
      split; [|intros [?|[? _]]; lra].
      intros E. exfalso. apply H. right.
      apply (f_equal (fun x => x * (1 / 10 ^ 15))) in E.
      unfold Rdiv in E at 1. rewrite Rmult_assoc, Rinv_l in E by lra. lra.
    + rewrite sats_zero by lra. rewrite rsum_ones. split.
      * intros E. right. split; [lra|]. apply INR_eq. rewrite E. reflexivity.
      * intros [?|[_ E]]; [lra|]. rewrite E. reflexivity.
Qed.

(* ---- weighted sums ---- *)

Lemma wsum_scale_w c ws xs : wsum (map (fun w => w / c) ws) xs = wsum ws xs / c.
Proof.
  revert xs. induction ws as [|w ws IH]; intros [|x xs]; simpl; try (unfold Rdiv; ring).
  rewrite IH. unfold Rdiv. ring.
Qed.

Lemma wsum_mul_w c ws xs : wsum (map (fun w => c * w) ws) xs = c * wsum ws xs.
Proof.
  revert xs. induction ws as [|w ws IH]; intros [|x xs]; simpl; try ring.
  rewrite IH. ring.
Qed.

Lemma wsum_const ws xs c :
  length ws = length xs -> Forall (fun x => x = c) xs -> wsum ws xs = c * rsum ws.
Proof.
  revert xs. induction ws as [|w ws IH]; intros [|x xs] L F; simpl in *; try discriminate; [ring|].
  inversion F as [|? ? Hx Hxs]; subst. rewrite IH by (try lia; assumption). ring.
Qed.

Lemma wsum_lower ws xs lo :
  length ws = length xs -> Forall (fun w => 0 <= w) ws -> all_ge lo xs ->
  lo * rsum ws <= wsum ws xs.
Proof.
  revert xs. induction ws as [|w ws IH]; intros [|x xs] L Hw F; simpl in *; try discriminate; [lra|].
  inversion F as [|? ? Hx Hxs]; inversion Hw as [|? ? Hw1 Hw2]; subst.
  assert (lo * rsum ws <= wsum ws xs) by (apply IH; try lia; assumption). nra.
Qed.

Lemma wsum_upper ws xs hi :
  length ws = length xs -> Forall (fun w => 0 <= w) ws -> all_le hi xs ->
  wsum ws xs <= hi * rsum ws.
Proof.
  revert xs. induction ws as [|w ws IH]; intros [|x xs] L Hw F; simpl in *; try discriminate; [lra|].
  inversion F as [|? ? Hx Hxs]; inversion Hw as [|? ? Hw1 Hw2]; subst.
  assert (wsum ws xs <= hi * rsum ws) by (apply IH; try lia; assumption). nra.
Qed.

Lemma wsum_pos ws xs :
  length ws = length xs -> Forall (fun w => 0 <= w) ws -> Forall (fun x => 0 < x) xs ->
  0 < rsum ws -> 0 < wsum ws xs.
Proof.
  revert xs. induction ws as [|w ws IH]; intros [|x xs] L Hw F Hs; simpl in *; try discriminate; [lra|].
  inversion F as [|? ? Hx Hxs]; inversion Hw as [|? ? Hw1 Hw2]; subst.
  destruct (Rlt_dec 0 (rsum ws)) as [Hr|Hr].
  - assert (0 < wsum ws xs) by (apply IH; try lia; assumption). nra.
  - assert (0 <= wsum ws xs).
    { clear IH Hs L F Hw Hx Hw1 Hr. revert xs Hxs. induction Hw2 as [|v vs Hv Hvs IHv]; intros [|y ys] Hy; simpl; try lra.
      inversion Hy; subst. assert (0 <= wsum vs ys) by (apply IHv; assumption). nra. }
    assert (0 < w) by lra. nra.
Qed.

Lemma mix_densities_wsum fluids sats :
  mix_densities fluids sats = wsum sats (map dens fluids).
Proof.
  unfold mix_densities. revert sats. induction fluids as [|f fs IH]; intros [|s ss]; simpl; try reflexivity.
  rewrite IH. ring.
Qed.

(** Compliance: sum of saturation over bulk modulus. *)
Definition compl (sats : list R) (fluids : list material) : R :=
  wsum sats (map (fun f => / bulk f) fluids).

Lemma rsum_res_compl sats fluids :
  Forall (fun f => bulk f <> 0) fluids ->
  rsum_res (map (fun sf => np_div (fst sf) (bulk (snd sf))) (combine sats fluids))
    = Ok (compl sats fluids).
Proof.
  intros F. revert sats. induction F as [|f fs Hf Hfs IH]; intros [|s ss]; try reflexivity.
  cbn [combine map rsum_res fst snd]. rewrite np_div_ok by exact Hf. cbn [bind].
  rewrite IH. cbn [bind]. unfold compl. cbn [wsum map]. reflexivity.
Qed.

Lemma mix_bulk_unfold fluids sats :
  combine sats fluids <> [] ->
  mix_bulk_moduli fluids sats =
    (let* t := rsum_res (map (fun sf => np_div (fst sf) (bulk (snd sf))) (combine sats fluids)) in
     np_div 1 t).
Proof. unfold mix_bulk_moduli. destruct (combine sats fluids); [congruence|reflexivity]. Qed.

Lemma mix_bulk_value sats fluids :
  Forall (fun f => bulk f <> 0) fluids -> combine sats fluids <> [] ->
  compl sats fluids <> 0 ->
  mix_bulk_moduli fluids sats = Ok (1 / compl sats fluids).
Proof.
  intros F Hn Hc. unfold mix_bulk_moduli.
  pose proof (rsum_res_compl sats fluids F) as E.
  destruct (combine sats fluids) as [|p l]; [congruence|].
  rewrite E. cbn [bind]. apply np_div_ok. exact Hc.
Qed.

Lemma usable_nil : usable [].
Proof. constructor. Qed.
Lemma usable_cons f fs : fluid f -> 0 < bulk f -> usable fs -> usable (f :: fs).
Proof. intros. constructor; [split|]; assumption. Qed.
Ltac usable_tac := repeat (apply usable_cons; [split; assumption|lra|]); apply usable_nil.

Lemma usable_nz fluids : usable fluids -> Forall (fun f => bulk f <> 0) fluids.
Proof. intros H. eapply Forall_impl; [|exact H]. intros f [_ Hf]. lra. Qed.
Lemma usable_inv_pos fluids : usable fluids -> Forall (fun x => 0 < x) (map (fun f => / bulk f) fluids).
Proof.
  intros H. apply Forall_map. eapply Forall_impl; [|exact H]. intros f [_ Hf].
  apply Rinv_0_lt_compat. exact Hf.
Qed.
Lemma usable_dens_pos fluids : usable fluids -> Forall (fun x => 0 < x) (map dens fluids).
Proof.
  intros H. apply Forall_map. eapply Forall_impl; [|exact H]. intros f [[[Hd _] _] _]. exact Hd.
Qed.

Lemma combine_nonempty {A B} (l : list A) (l' : list B) :
  length l = length l' -> l <> [] -> combine l l' <> [].
Proof. destruct l, l'; simpl; congruence. Qed.

Lemma wood_value fluids sats :
  usable fluids -> saturation_input fluids sats ->
  exists m, wood_fluid_mixing fluids sats = Ok m /\ fluid m /\
    bulk m = rsum sats / compl sats fluids /\
    dens m = wsum sats (map dens fluids) / rsum sats /\
    0 < compl sats fluids /\ 0 < bulk m.
Proof.
  intros U [L [Hn Ht]]. pose proof tiny_pos as Hp.
  assert (Hc : 0 < compl sats fluids).
  { unfold compl. apply wsum_pos; [rewrite map_length; exact L|exact Hn|apply usable_inv_pos; exact U|lra]. }
  assert (Hr : 0 < wsum sats (map dens fluids)).
  { apply wsum_pos; [rewrite map_length; exact L|exact Hn|apply usable_dens_pos; exact U|lra]. }
  unfold wood_fluid_mixing. rewrite sats_big by exact Ht.
  assert (Ec : compl (map (fun x => x / rsum sats) sats) fluids = compl sats fluids / rsum sats).
  { unfold compl. apply wsum_scale_w. }
  assert (Hcp : 0 < compl sats fluids / rsum sats) by (apply Rdiv_lt_0_compat; lra).
  rewrite mix_bulk_value.
  - cbn [bind]. rewrite mix_densities_wsum, wsum_scale_w, Ec.
    assert (Hb : 0 < rsum sats / compl sats fluids) by (apply Rdiv_lt_0_compat; lra).
    replace (1 / (compl sats fluids / rsum sats)) with (rsum sats / compl sats fluids) by (field; lra).
    unfold fluid_of_bulk.
    destruct (mat_of_moduli_spec (rsum sats / compl sats fluids) 0 (wsum sats (map dens fluids) / rsum sats))
      as [m [E [Hi Hw]]]; [apply Rdiv_lt_0_compat; lra|lra|lra|].
    exists m. destruct Hi as [Hk [Hs [Hd _]]]. unfold fluid. rewrite Hk. auto 10.
  - apply usable_nz. exact U.
  - apply combine_nonempty; [rewrite map_length; exact L|].
    destruct sats; [simpl in Ht; lra|discriminate].
  - rewrite Ec. lra.
Qed.

(* ---- Wood's mixture lies between its constituents ---- *)
Lemma wood_between fluids sats :
  usable fluids -> saturation_input fluids sats ->
  exists m, wood_fluid_mixing fluids sats = Ok m /\ fluid m /\
    (forall lo, all_ge lo (map bulk fluids) -> lo <= bulk m) /\
    (forall hi, all_le hi (map bulk fluids) -> bulk m <= hi) /\
    (forall lo, all_ge lo (map dens fluids) -> lo <= dens m) /\
    (forall hi, all_le hi (map dens fluids) -> dens m <= hi).
Proof.
  intros U S. destruct (wood_value fluids sats U S) as [m [E [Hf [Hk [Hd [Hc Hb]]]]]].
  exists m. split; [exact E|]. split; [exact Hf|].
  destruct S as [L [Hn Ht]]. pose proof tiny_pos as Hp.
  assert (Hne : fluids <> []).
  { intros ->. destruct sats; [simpl in Ht; lra|discriminate]. }
  split; [|split; [|split]].
  - intros lo H. destruct (Rle_dec lo 0) as [Hl|Hl]; [lra|].
    rewrite Hk. apply Rmult_le_reg_r with (compl sats fluids); [exact Hc|].
    unfold Rdiv. rewrite Rmult_assoc, Rinv_l by lra. rewrite Rmult_1_r.
    assert (HH : compl sats fluids <= / lo * rsum sats).
    { unfold compl. apply wsum_upper; [rewrite map_length; exact L|exact Hn|].
      unfold all_le, all_ge in *. rewrite Forall_map in *. eapply Forall_impl; [|exact H].
      intros f Hlo. apply Rinv_le_contravar; lra. }
    apply Rmult_le_compat_l with (r := lo) in HH; [|lra].
    rewrite <- Rmult_assoc, Rinv_r in HH by lra. lra.
  - intros hi H.
    assert (Hhi : 0 < hi).
    { destruct fluids as [|f fs]; [congruence|]. inversion H as [|? ? Hh _]; inversion U as [|? ? [_ Hf'] _]; subst. lra. }
    rewrite Hk. apply Rmult_le_reg_r with (compl sats fluids); [exact Hc|].
    unfold Rdiv. rewrite Rmult_assoc, Rinv_l by lra. rewrite Rmult_1_r.
    assert (HH : / hi * rsum sats <= compl sats fluids).
    { unfold compl. apply wsum_lower; [rewrite map_length; exact L|exact Hn|].
      unfold all_le, all_ge in *. rewrite Forall_map in *.
      assert (HU : Forall (fun f => bulk f <= hi /\ 0 < bulk f) fluids).
      { apply Forall_and; [exact H|]. eapply Forall_impl; [|exact U]. intros f [_ ?]; assumption. }
      eapply Forall_impl; [|exact HU]. intros f [H1 H2]. apply Rinv_le_contravar; lra. }
    apply Rmult_le_compat_l with (r := hi) in HH; [|lra].
    rewrite <- Rmult_assoc, Rinv_r in HH by lra. lra.
  - intros lo H. rewrite Hd. apply Rmult_le_reg_r with (rsum sats); [lra|].
    unfold Rdiv. rewrite Rmult_assoc, Rinv_l by lra. rewrite Rmult_1_r.
    apply wsum_lower; [rewrite map_length; exact L|exact Hn|exact H].
  - intros hi H. rewrite Hd. apply Rmult_le_reg_r with (rsum sats); [lra|].
    unfold Rdiv. rewrite Rmult_assoc, Rinv_l by lra. rewrite Rmult_1_r.
    apply wsum_upper; [rewrite map_length; exact L|exact Hn|exact H].
Qed.

(** With all saturations zero every fluid gets full weight. *)
Lemma wood_zero_refuted :
  exists fluids sats m,
    usable fluids /\ length sats = length fluids /\ Forall (fun s => s = 0) sats /\
    wood_fluid_mixing fluids sats = Ok m /\
    (forall f, In f fluids -> bulk m < bulk f) /\
    (forall f, In f fluids -> dens f < dens m).
Proof.
  destruct (mat_of_moduli_spec 2 0 1) as [f [_ [[K [S [D _]]] W]]]; try lra.
  assert (U : usable [f; f]).
  { usable_tac. }
  assert (Ec : compl [1; 1] [f; f] = 1).
  { unfold compl. cbn [wsum map]. rewrite K. lra. }
  exists [f; f], [0; 0].
  destruct (mat_of_moduli_spec 1 0 2) as [m [E [[Km [Sm [Dm _]]] Wm]]]; try lra.
  exists m. split; [exact U|]. split; [reflexivity|]. split; [repeat constructor|].
  split.
  - unfold wood_fluid_mixing. rewrite sats_zero by (simpl; lra). cbn [map].
    rewrite mix_bulk_value; [|apply usable_nz; exact U|discriminate|rewrite Ec; lra].
    cbn [bind]. rewrite mix_densities_wsum, Ec. cbn [wsum map]. rewrite D.
    unfold fluid_of_bulk. replace (1 / 1) with 1 by lra.
    replace (1 * 1 + (1 * 1 + 0)) with 2 by lra. exact E.
  - split; intros g Hg; simpl in Hg;
      (destruct Hg as [<-|[<-|[]]]); lra.
Qed.

(** Totals below 1e-15: mixture stiffer than any constituent. *)
Lemma wood_tiny_refuted :
  exists fluids sats m,
    usable fluids /\ saturation_input fluids (map (fun s => 10 ^ 16 * s) sats) /\
    wood_fluid_mixing fluids sats = Ok m /\
    (forall f, In f fluids -> bulk f < bulk m) /\
    (forall f, In f fluids -> dens m < dens f).
Proof.
  destruct (mat_of_moduli_spec 2 0 1) as [f [_ [[K [S [D _]]] W]]]; try lra.
  assert (U : usable [f]).
  { usable_tac. }
  assert (Ec : compl [1 / 10] [f] = 1 / 20).
  { unfold compl. cbn [wsum map]. rewrite K. lra. }
  exists [f], [1 / 10 ^ 16].
  destruct (mat_of_moduli_spec 20 0 (1 / 10)) as [m [E [[Km [Sm [Dm _]]] Wm]]]; try lra.
  exists m. split; [exact U|]. split.
  { repeat split; cbn [map rsum]; [repeat constructor; lra|]. lra. }
  split.
  - unfold wood_fluid_mixing. rewrite sats_small by (cbn [rsum]; lra). cbn [map].
    replace (1 / 10 ^ 16 / (1 / 10 ^ 15)) with (1 / 10) by lra.
    rewrite mix_bulk_value; [|apply usable_nz; exact U|discriminate|rewrite Ec; lra].
    cbn [bind]. rewrite mix_densities_wsum, Ec. cbn [wsum map]. rewrite D.
    unfold fluid_of_bulk. replace (1 / (1 / 20)) with 20 by lra.
    replace (1 / 10 * 1 + 0) with (1 / 10) by lra. exact E.
  - split; intros g [<-|[]]; lra.
Qed.

(* ---- order and scale ---- *)

Definition unpaired {A B} (l : list (A * B)) := (map fst l, map snd l).

Lemma combine_map_r {A B C} (g : B -> C) (l : list A) (l' : list B) :
  combine l (map g l') = map (fun p => (fst p, g (snd p))) (combine l l').
Proof. revert l'. induction l as [|a l IH]; intros [|b l']; simpl; try reflexivity. rewrite IH. reflexivity. Qed.
Lemma combine_map_l {A B C} (g : A -> C) (l : list A) (l' : list B) :
  combine (map g l) l' = map (fun p => (g (fst p), snd p)) (combine l l').
Proof. revert l'. induction l as [|a l IH]; intros [|b l']; simpl; try reflexivity. rewrite IH. reflexivity. Qed.
Lemma combine_swap {A B} (l : list A) (l' : list B) :
  combine l' l = map (fun p => (snd p, fst p)) (combine l l').
Proof. revert l'. induction l as [|a l IH]; intros [|b l']; simpl; try reflexivity. rewrite IH. reflexivity. Qed.
Lemma snd_combine {A B} (l : list A) (l' : list B) :
  length l = length l' -> map snd (combine l l') = l'.
Proof. revert l'. induction l as [|a l IH]; intros [|b l'] H; simpl in *; try congruence. f_equal. apply IH. congruence. Qed.

Lemma rsum_res_perm l1 l2 :
  Permutation l1 l2 -> (forall r, In r l1 -> r = Err NonFinite \/ is_ok r) -> rsum_res l1 = rsum_res l2.
Proof.
  intros P. induction P as [|x l l' P IH|x y l|l1 l2 l3 P1 IH1 P2 IH2]; intros Hin.
  - reflexivity.
  - cbn [rsum_res]. rewrite IH; [reflexivity|]. intros r Hr. apply Hin. right. exact Hr.
  - cbn [rsum_res].
    destruct (Hin x) as [->|[a ->]]; [right; left; reflexivity| |];
    (destruct (Hin y) as [->|[b ->]]; [left; reflexivity| |]); cbn [bind]; try reflexivity.
    destruct (rsum_res l); cbn [bind]; [|reflexivity]. f_equal. ring.
  - rewrite IH1 by exact Hin. apply IH2. intros r Hr. apply Hin.
    eapply Permutation_in; [symmetry; exact P1|exact Hr].
Qed.

Lemma wood_perm f1 s1 f2 s2 :
  length f1 = length s1 -> length f2 = length s2 ->
  Permutation (combine f1 s1) (combine f2 s2) ->
  wood_fluid_mixing f1 s1 = wood_fluid_mixing f2 s2.
Proof.
  intros L1 L2 P.
  assert (Ps : Permutation s1 s2).
  { apply (Permutation_map snd) in P. rewrite !snd_combine in P by assumption. exact P. }
  pose proof (rsum_perm _ _ Ps) as Et.
  unfold wood_fluid_mixing, sum_saturations_to_one. rewrite Et.
  set (g := fun s => (if Rlt_dec 0 (rsum s2) then s else 1 / 10 ^ 15) / Rmax (rsum s2) (1 / 10 ^ 15)).
  assert (Pd : Permutation (combine f1 (map g s1)) (combine f2 (map g s2))).
  { rewrite !combine_map_r. apply Permutation_map. exact P. }
  assert (Pb : Permutation (combine (map g s1) f1) (combine (map g s2) f2)).
  { rewrite (combine_swap f1), (combine_swap f2). apply Permutation_map. exact Pd. }
  assert (Ed : mix_densities f1 (map g s1) = mix_densities f2 (map g s2)).
  { unfold mix_densities. apply rsum_perm, Permutation_map. exact Pd. }
  assert (Eb : mix_bulk_moduli f1 (map g s1) = mix_bulk_moduli f2 (map g s2)).
  { unfold mix_bulk_moduli.
    assert (Er : rsum_res (map (fun sf => np_div (fst sf) (bulk (snd sf))) (combine (map g s1) f1)) =
                 rsum_res (map (fun sf => np_div (fst sf) (bulk (snd sf))) (combine (map g s2) f2))).
    { apply rsum_res_perm; [apply Permutation_map; exact Pb|].
      intros r Hr. apply in_map_iff in Hr. destruct Hr as [p [<- _]].
      unfold np_div. destruct (Req_EM_T (bulk (snd p)) 0); [left; reflexivity|right; eexists; reflexivity]. }
    destruct (combine (map g s1) f1) as [|p1 l1], (combine (map g s2) f2) as [|p2 l2].
    - reflexivity.
    - apply Permutation_nil in Pb. discriminate.
    - symmetry in Pb. apply Permutation_nil in Pb. discriminate.
    - rewrite Er. reflexivity. }
  rewrite Ed, Eb. reflexivity.
Qed.

Lemma sats_scale s c :
  0 < c -> 1 / 10 ^ 15 <= rsum s -> 1 / 10 ^ 15 <= c * rsum s ->
  sum_saturations_to_one (map (fun x => c * x) s) = sum_saturations_to_one s.
Proof.
  intros Hc H1 H2. pose proof tiny_pos. rewrite sats_big by (rewrite rsum_map_scale; exact H2).
  rewrite sats_big by exact H1. rewrite map_map, rsum_map_scale. apply map_ext. intros x.
  field. lra.
Qed.

Lemma wood_scale fluids s c :
  0 < c -> 1 / 10 ^ 15 <= rsum s -> 1 / 10 ^ 15 <= c * rsum s ->
  wood_fluid_mixing fluids (map (fun x => c * x) s) = wood_fluid_mixing fluids s.
Proof. intros. unfold wood_fluid_mixing. rewrite sats_scale by assumption. reflexivity. Qed.

(* ---- conservation, purity, dropping ---- *)

Lemma wood_conserves fluids sats :
  usable fluids -> saturation_input fluids sats ->
  exists m, wood_fluid_mixing fluids sats = Ok m /\
    dens m * rsum sats = wsum sats (map dens fluids) /\
    rsum sats / bulk m = wsum sats (map (fun f => 1 / bulk f) fluids) /\
    shear m = 0.
Proof.
  intros U S. destruct (wood_value fluids sats U S) as [m [E [[_ Hs] [Hk [Hd [Hc Hb]]]]]].
  destruct S as [L [Hn Ht]]. pose proof tiny_pos.
  exists m. split; [exact E|]. split; [rewrite Hd; field; lra|]. split; [|exact Hs].
  rewrite Hk.
  replace (map (fun f => 1 / bulk f) fluids) with (map (fun f => / bulk f) fluids).
  - fold (compl sats fluids). field. lra.
  - apply map_ext. intros f. unfold Rdiv. ring.
Qed.

Lemma wood_pure f s :
  fluid f -> 0 < bulk f -> 1 / 10 ^ 15 <= s -> wood_fluid_mixing [f] [s] = Ok f.
Proof.
  intros [W Hs] Hb Ht. pose proof tiny_pos.
  unfold wood_fluid_mixing. rewrite sats_big by (simpl; lra). cbn [map rsum].
  assert (Ec : compl [s / (s + 0)] [f] = / bulk f).
  { unfold compl. cbn [wsum map]. field. lra. }
  rewrite mix_bulk_value; [|repeat constructor; lra|discriminate|].
  - cbn [bind]. rewrite mix_densities_wsum, Ec. cbn [wsum map].
    unfold fluid_of_bulk. apply mat_of_moduli_eq_ok; [exact W| |exact Hs|].
    + field. lra.
    + field. lra.
  - rewrite Ec. apply Rinv_neq_0_compat. lra.
Qed.

Lemma wood_drop_zero f fs ss :
  bulk f <> 0 -> 1 / 10 ^ 15 <= rsum ss -> length fs = length ss ->
  wood_fluid_mixing (f :: fs) (0 :: ss) = wood_fluid_mixing fs ss.
Proof.
  intros Hf Ht L. pose proof tiny_pos. unfold wood_fluid_mixing.
  rewrite (sats_big (0 :: ss)) by (simpl; lra). rewrite (sats_big ss) by exact Ht.
  cbn [rsum map]. rewrite Rplus_0_l.
  assert (E0 : 0 / rsum ss = 0) by (field; lra).
  rewrite E0.
  replace (mix_densities (f :: fs) (0 :: map (fun x => x / rsum ss) ss))
    with (mix_densities fs (map (fun x => x / rsum ss) ss))
    by (unfold mix_densities; cbn [combine map rsum fst snd]; ring).
  replace (mix_bulk_moduli (f :: fs) (0 :: map (fun x => x / rsum ss) ss))
    with (mix_bulk_moduli fs (map (fun x => x / rsum ss) ss)); [reflexivity|].
  assert (Hn : combine (map (fun x => x / rsum ss) ss) fs <> []).
  { apply combine_nonempty; [rewrite map_length; congruence|]. destruct ss; [simpl in Ht; lra|discriminate]. }
  rewrite (mix_bulk_unfold fs) by exact Hn.
  rewrite (mix_bulk_unfold (f :: fs)) by discriminate.
  cbn [combine map rsum_res fst snd]. rewrite np_div_ok by exact Hf. cbn [bind].
  destruct (rsum_res (map (fun sf => np_div (fst sf) (bulk (snd sf)))
     (combine (map (fun x => x / rsum ss) ss) fs))) as [r|r]; cbn [bind]; [|reflexivity].
  f_equal. field. exact Hf.
Qed.

(** [zip] hides a missing saturation. *)
Lemma wood_mismatch_refuted :
  exists fluids sats m,
    usable fluids /\ length sats <> length fluids /\ rsum sats = 1 /\
    wood_fluid_mixing fluids sats = Ok m.
Proof.
  destruct (mat_of_moduli_spec 2 0 1) as [f [_ [[K [S [D _]]] W]]]; try lra.
  exists [f; f], [1], f.
  split; [usable_tac|].
  split; [discriminate|]. split; [simpl; lra|].
  transitivity (wood_fluid_mixing [f] [1]); [reflexivity|].
  apply wood_pure; [split; assumption|lra|lra].
Qed.

(* ---- Brie ---- *)

Lemma Rpower_le1 x e : 0 < x <= 1 -> 0 < e -> 0 < Rpower x e <= 1.
Proof.
  intros [H0 H1] He. unfold Rpower. split; [apply exp_pos|].
  rewrite <- exp_0. assert (ln x <= 0).
  { rewrite <- ln_1. destruct H1 as [H1|H1]; [left; apply ln_increasing; lra|subst; lra]. }
  destruct (Rle_lt_or_eq_dec (e * ln x) 0) as [H2|H2]; [nra| |rewrite H2; lra].
  left. apply exp_increasing. exact H2.
Qed.

Lemma Rpower_mono_base x y e : 0 < x <= y -> 0 < e -> Rpower x e <= Rpower y e.
Proof. intros H He. apply Rle_Rpower_l; lra. Qed.

Lemma brie_mixed f fs s g gs sg e liquid gas :
  length (f :: fs) = length s -> length (g :: gs) = length sg ->
  wood_fluid_mixing (f :: fs) s = Ok liquid -> wood_fluid_mixing (g :: gs) sg = Ok gas ->
  brie_fluid_mixing (f :: fs) s (g :: gs) sg e =
    (let* w := np_pow (rsum s) e in
     fluid_of_bulk ((bulk liquid - bulk gas) * w + bulk gas)
                   (dens liquid * rsum s + dens gas * (1 - rsum s))).
Proof.
  intros L1 L2 E1 E2. unfold brie_fluid_mixing.
  rewrite L1, L2, !Nat.eqb_refl. cbn [negb]. rewrite E1, E2. cbn [bind].
  destruct (np_pow (rsum s) e); cbn [bind]; [|reflexivity].
  unfold mix_densities. cbn [combine map rsum fst snd]. f_equal. ring.
Qed.

(** The weight of the liquid. *)
Lemma np_pow_unit x e : 0 <= x <= 1 -> 0 < e ->
  exists w, np_pow x e = Ok w /\ 0 <= w <= 1 /\ (x = 0 -> w = 0) /\ (x = 1 -> w = 1) /\
    (e = 1 -> w = x).
Proof.
  intros H He. destruct (Req_EM_T x 0) as [->|Hx].
  - exists 0. rewrite np_pow_zero by exact He. repeat split; lra.
  - exists (Rpower x e). rewrite np_pow_pos by lra.
    pose proof (Rpower_le1 x e). split; [reflexivity|]. split; [lra|]. split; [lra|].
    split.
    + intros ->. unfold Rpower. rewrite ln_1, Rmult_0_r. apply exp_0.
    + intros ->. apply Rpower_1. lra.
Qed.

Lemma np_pow_unit_mono x y e w v :
  0 <= x <= y -> 0 < e -> np_pow x e = Ok w -> np_pow y e = Ok v -> w <= v.
Proof.
  intros H He Hw Hv.
  destruct (Req_EM_T x 0) as [->|Hx].
  - rewrite np_pow_zero in Hw by exact He. injection Hw as <-.
    destruct (Req_EM_T y 0) as [->|Hy].
    + rewrite np_pow_zero in Hv by exact He. injection Hv as <-. lra.
    + rewrite np_pow_pos in Hv by lra. injection Hv as <-. left. unfold Rpower. apply exp_pos.
  - rewrite np_pow_pos in Hw by lra. rewrite np_pow_pos in Hv by lra.
    injection Hw as <-. injection Hv as <-. apply Rpower_mono_base; lra.
Qed.

Lemma brie_between fluids s gases sg e liquid gas :
  fluids <> [] -> gases <> [] ->
  length fluids = length s -> length gases = length sg ->
  wood_fluid_mixing fluids s = Ok liquid -> wood_fluid_mixing gases sg = Ok gas ->
  0 <= rsum s <= 1 -> 0 < e ->
  exists m, brie_fluid_mixing fluids s gases sg e = Ok m /\ fluid m /\
    between (bulk gas) (bulk m) (bulk liquid) /\
    between (dens gas) (dens m) (dens liquid) /\
    (rsum s = 0 -> m = gas) /\ (rsum s = 1 -> m = liquid).
Proof.
  intros N1 N2 L1 L2 E1 E2 Hs He.
  destruct fluids as [|f fs]; [congruence|]. destruct gases as [|g gs]; [congruence|].
  rewrite (brie_mixed f fs s g gs sg e liquid gas L1 L2 E1 E2).
  destruct (np_pow_unit (rsum s) e Hs He) as [w [Ew [Hw [Hw0 [Hw1 _]]]]].
  rewrite Ew. cbn [bind].
  assert (HL : wf liquid /\ shear liquid = 0).
  { unfold wood_fluid_mixing in E1. ok_inv E1. apply mat_of_moduli_wf in E1. tauto. }
  assert (HG : wf gas /\ shear gas = 0).
  { unfold wood_fluid_mixing in E2. ok_inv E2. apply mat_of_moduli_wf in E2. tauto. }
  destruct HL as [WL SL], HG as [WG SG].
  pose proof WL as [DL [KL _]]. pose proof WG as [DG [KG _]].
  set (k := (bulk liquid - bulk gas) * w + bulk gas).
  set (d := dens liquid * rsum s + dens gas * (1 - rsum s)).
  assert (Hk : 0 <= k) by (unfold k; nra).
  assert (Hd : 0 < d).
  { unfold d. destruct (Rle_lt_or_eq_dec 0 (rsum s)) as [H|H]; [lra|nra|]. rewrite <- H. lra. }
  unfold fluid_of_bulk. destruct (mat_of_moduli_spec k 0 d) as [m [E [[Ek [Es [Ed _]]] Wm]]]; try lra.
  exists m. split; [exact E|]. split; [split; assumption|].
  split; [|split; [|split]].
  - unfold between, Rmin, Rmax. rewrite Ek. unfold k. destruct (Rle_dec (bulk gas) (bulk liquid)); nra.
  - unfold between, Rmin, Rmax. rewrite Ed. unfold d. destruct (Rle_dec (dens gas) (dens liquid)); nra.
  - intros H0. assert (EE : mat_of_moduli k 0 d = Ok gas).
    { apply mat_of_moduli_eq_ok; [exact WG| |exact SG|].
      - unfold k. rewrite Hw0 by exact H0. ring.
      - unfold d. rewrite H0. ring. }
    congruence.
  - intros H1. assert (EE : mat_of_moduli k 0 d = Ok liquid).
    { apply mat_of_moduli_eq_ok; [exact WL| |exact SL|].
      - unfold k. rewrite Hw1 by exact H1. ring.
      - unfold d. rewrite H1. ring. }
    congruence.
Qed.

Lemma brie_mono fluids s s' gases sg sg' e liquid gas m m' :
  fluids <> [] -> gases <> [] ->
  wood_fluid_mixing fluids s = Ok liquid -> wood_fluid_mixing fluids s' = Ok liquid ->
  wood_fluid_mixing gases sg = Ok gas -> wood_fluid_mixing gases sg' = Ok gas ->
  0 <= rsum s -> rsum s <= rsum s' -> rsum s' <= 1 -> 0 < e ->
  brie_fluid_mixing fluids s gases sg e = Ok m ->
  brie_fluid_mixing fluids s' gases sg' e = Ok m' ->
  (bulk gas <= bulk liquid -> bulk m <= bulk m') /\
  (bulk liquid <= bulk gas -> bulk m' <= bulk m) /\
  (dens gas <= dens liquid -> dens m <= dens m') /\
  (dens liquid <= dens gas -> dens m' <= dens m).
Proof.
  intros N1 N2 E1 E1' E2 E2' H0 H1 H2 He B B'.
  destruct fluids as [|f fs]; [congruence|]. destruct gases as [|g gs]; [congruence|].
  assert (LL : forall t tg r, brie_fluid_mixing (f :: fs) t (g :: gs) tg e = Ok r ->
             length (f :: fs) = length t /\ length (g :: gs) = length tg).
  { intros t tg r Hr. unfold brie_fluid_mixing in Hr.
    destruct (Nat.eqb (length (f :: fs)) (length t)) eqn:Q1; [|discriminate].
    destruct (Nat.eqb (length (g :: gs)) (length tg)) eqn:Q2; [|discriminate].
    apply Nat.eqb_eq in Q1, Q2. auto. }
  destruct (LL _ _ _ B) as [L1 L2]. destruct (LL _ _ _ B') as [L1' L2'].
  rewrite (brie_mixed f fs s g gs sg e liquid gas L1 L2 E1 E2) in B.
  rewrite (brie_mixed f fs s' g gs sg' e liquid gas L1' L2' E1' E2') in B'.
  destruct (np_pow_unit (rsum s) e) as [w [Ew _]]; try lra.
  destruct (np_pow_unit (rsum s') e) as [w' [Ew' _]]; try lra.
  pose proof (np_pow_unit_mono (rsum s) (rsum s') e w w' (conj H0 H1) He Ew Ew') as Hw.
  rewrite Ew in B. rewrite Ew' in B'. cbn [bind] in B, B'.
  apply mat_of_moduli_wf in B. apply mat_of_moduli_wf in B'.
  destruct B as [_ [K [_ D]]], B' as [_ [K' [_ D']]]. rewrite K, K', D, D'.
  repeat split; intros; nra.
Qed.

Lemma brie_rejects fluids s gases sg e :
  (length fluids <> length s -> brie_fluid_mixing fluids s gases sg e = Err ValueError) /\
  (length gases <> length sg -> brie_fluid_mixing fluids s gases sg e = Err ValueError) /\
  (fluids = [] -> gases = [] -> brie_fluid_mixing fluids s gases sg e = Err ValueError) /\
  (length fluids = length s -> brie_fluid_mixing fluids s [] [] e = 
     match fluids with [] => Err ValueError | _ => wood_fluid_mixing fluids s end) /\
  (length gases = length sg -> brie_fluid_mixing [] [] gases sg e = 
     match gases with [] => Err ValueError | _ => wood_fluid_mixing gases sg end).
Proof.
  unfold brie_fluid_mixing.
  split; [|split; [|split; [|split]]].
  - intros H. apply Nat.eqb_neq in H. rewrite H. reflexivity.
  - intros H. apply Nat.eqb_neq in H. rewrite H.
    destruct (negb (Nat.eqb (length fluids) (length s))); reflexivity.
  - intros -> ->. destruct (negb (Nat.eqb (length (@nil material)) (length s))); [reflexivity|].
    destruct (negb (Nat.eqb (length (@nil material)) (length sg))); reflexivity.
  - intros H. apply Nat.eqb_eq in H. rewrite H. destruct fluids; reflexivity.
  - intros H. apply Nat.eqb_eq in H. rewrite H. destruct gases; reflexivity.
Qed.

Lemma brie_mass fluids s gases sg e m :
  usable fluids -> usable gases ->
  saturation_input fluids s -> saturation_input gases sg ->
  rsum s + rsum sg = 1 -> 0 < e ->
  brie_fluid_mixing fluids s gases sg e = Ok m ->
  dens m = wsum s (map dens fluids) + wsum sg (map dens gases).
Proof.
  intros U1 U2 S1 S2 Ht He B.
  destruct (wood_value fluids s U1 S1) as [l [E1 [_ [_ [D1 _]]]]].
  destruct (wood_value gases sg U2 S2) as [g [E2 [_ [_ [D2 _]]]]].
  destruct S1 as [L1 [N1 T1]], S2 as [L2 [N2 T2]]. pose proof tiny_pos.
  destruct fluids as [|f fs]; [destruct s; [simpl in T1; lra|discriminate]|].
  destruct gases as [|g0 gs]; [destruct sg; [simpl in T2; lra|discriminate]|].
  rewrite (brie_mixed f fs s g0 gs sg e l g) in B by (try assumption; congruence).
  ok_inv B. apply mat_of_moduli_wf in B. destruct B as [_ [_ [_ D]]].
  rewrite D, D1, D2. replace (1 - rsum s) with (rsum sg) by lra. field. lra.
Qed.

(** Without normalisation Brie depends on the scale of the saturations. *)
Lemma brie_scale_refuted :
  exists l g m1 m2,
    usable [l] /\ usable [g] /\
    brie_fluid_mixing [l] [1 / 4] [g] [1 / 4] 1 = Ok m1 /\
    brie_fluid_mixing [l] [1 / 2] [g] [1 / 2] 1 = Ok m2 /\
    bulk m1 < bulk m2 /\ dens m1 < dens m2.
Proof.
  destruct (mat_of_moduli_spec 3 0 3) as [l [_ [[Kl [Sl [Dl _]]] Wl]]]; try lra.
  destruct (mat_of_moduli_spec 1 0 1) as [g [_ [[Kg [Sg [Dg _]]] Wg]]]; try lra.
  assert (Fl : fluid l) by (split; assumption). assert (Fg : fluid g) by (split; assumption).
  assert (P : forall x, 0 < x <= 1 -> 1 / 10 ^ 15 <= x -> exists m, brie_fluid_mixing [l] [x] [g] [x] 1 = Ok m /\ bulk m = 2 * x + 1 /\ dens m = 2 * x + 1).
  { intros x Hx Ht.
    rewrite (brie_mixed l [] [x] g [] [x] 1 l g) by (try reflexivity; apply wood_pure; try assumption; lra).
    cbn [rsum]. rewrite Rplus_0_r. rewrite np_pow_pos by lra. cbn [bind]. rewrite Rpower_1 by lra.
    rewrite Kl, Kg, Dl, Dg. unfold fluid_of_bulk.
    destruct (mat_of_moduli_spec ((3 - 1) * x + 1) 0 (3 * x + 1 * (1 - x))) as [m [E [[Km [Sm [Dm _]]] Wm]]]; try lra.
    exists m. split; [exact E|]. lra. }
  destruct (P (1 / 4)) as [m1 [E1 [K1 D1]]]; try lra.
  destruct (P (1 / 2)) as [m2 [E2 [K2 D2]]]; try lra.
  exists l, g, m1, m2. split; [usable_tac|]. split; [usable_tac|]. repeat split; try assumption; lra.
Qed.

Lemma saturations_refuted :
  exists s, Forall (fun x => 0 <= x) s /\ s <> [] /\ rsum (sum_saturations_to_one s) <> 1.
Proof.
  exists [0; 0]. split; [repeat constructor; lra|]. split; [discriminate|].
  rewrite sats_sum_one_iff. simpl. intros [H|[_ H]]; [lra|discriminate].
Qed.

Lemma brie_law fluids s gases sg e liquid gas m :
  fluids <> [] -> gases <> [] ->
  wood_fluid_mixing fluids s = Ok liquid -> wood_fluid_mixing gases sg = Ok gas ->
  0 < rsum s ->
  brie_fluid_mixing fluids s gases sg e = Ok m ->
  bulk m = (bulk liquid - bulk gas) * Rpower (rsum s) e + bulk gas /\
  dens m = rsum s * dens liquid + (1 - rsum s) * dens gas /\ shear m = 0.
Proof.
  intros N1 N2 E1 E2 Hs B.
  destruct fluids as [|f fs]; [congruence|]. destruct gases as [|g gs]; [congruence|].
  destruct (Nat.eq_dec (length (f :: fs)) (length s)) as [L1|L1].
  2: { destruct (brie_rejects (f :: fs) s (g :: gs) sg e) as [R _]. rewrite R in B by exact L1. discriminate. }
  destruct (Nat.eq_dec (length (g :: gs)) (length sg)) as [L2|L2].
  2: { destruct (brie_rejects (f :: fs) s (g :: gs) sg e) as [_ [R _]]. rewrite R in B by exact L2. discriminate. }
  rewrite (brie_mixed f fs s g gs sg e liquid gas L1 L2 E1 E2) in B.
  rewrite np_pow_pos in B by exact Hs. cbn [bind] in B.
  apply mat_of_moduli_wf in B. destruct B as [_ [K [S D]]]. repeat split; [exact K| |exact S]. rewrite D. ring.
Qed.

Lemma brie_accepts fluids s gases sg e :
  usable fluids -> usable gases ->
  saturation_input fluids s -> saturation_input gases sg ->
  rsum s <= 1 -> 0 < e ->
  is_ok (brie_fluid_mixing fluids s gases sg e).
Proof.
  intros U1 U2 S1 S2 Ht He.
  destruct (wood_value fluids s U1 S1) as [l [E1 _]].
  destruct (wood_value gases sg U2 S2) as [g [E2 _]].
  destruct S1 as [L1 [N1 T1]], S2 as [L2 [N2 T2]]. pose proof tiny_pos.
  destruct (brie_between fluids s gases sg e l g) as [m [E _]]; try assumption; try congruence; try lra.
  - intros ->. destruct s; [simpl in T1; lra|discriminate].
  - intros ->. destruct sg; [simpl in T2; lra|discriminate].
  - exists m. exact E.
Qed.
