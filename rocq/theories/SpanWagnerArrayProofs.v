(** Arrays, and carbon dioxide as a material. *)
From Coq Require Import String List ZArith Reals Lra Lia.
From Verif Require Import Base BaseProofs Spec MaterialModel MaterialProofs FluidModel RowModel FluidsModel
  SpanWagnerModel SpanWagnerSpec SpanWagnerProofs SpanWagnerIdealProofs SpanWagnerCurveProofs
  SpanWagnerLookupProofs SpanWagnerArrayModel.
Import ListNotations.
Open Scope R_scope.

(** ** Carbon dioxide as a material *)
Lemma bulk_ok_inv : forall T d k, carbon_dioxide_bulk_modulus T d = Ok k ->
  exists s, carbon_dioxide_pressure T d 1 0 true = Ok (Some s) /\ k = d * s * 10 ^ 6.
Proof.
  intros T d k H. unfold carbon_dioxide_bulk_modulus in H.
  destruct (carbon_dioxide_pressure T d 1 0 true) as [[s|]|]; cbn [bind] in H; try discriminate.
  injection H as <-. exists s. split; reflexivity.
Qed.
Lemma co2_material : forall solve table T p density i fv re m,
  carbon_dioxide solve table T p density i fv re = Ok m ->
  (forall d, density = Some d -> dens m = d) /\
  (density = None -> carbon_dioxide_density solve table T p i fv re = Ok (Some (dens m))) /\
  shear m = 0 /\
  exists s, carbon_dioxide_pressure T (dens m) 1 0 true = Ok (Some s) /\ bulk m = dens m * s * 10 ^ 6.
Proof.
  intros solve table T p density i fv re m H. unfold carbon_dioxide in H.
  destruct (match density with Some d => Ok (Some d) | None => carbon_dioxide_density solve table T p i fv re end)
    as [[d|]|] eqn:D; cbn [bind] in H; try discriminate.
  destruct (carbon_dioxide_bulk_modulus T d) as [k|] eqn:K; cbn [bind] in H; [|discriminate].
  unfold fluid_of_bulk in H. apply mat_of_moduli_inv in H. destruct H as (_ & _ & _ & ->).
  apply bulk_ok_inv in K. destruct K as (s & S & ->). cbn [dens bulk shear].
  split; [|split; [|split]].
  - intros d' E. subst density. congruence.
  - intros E. subst density. exact D.
  - reflexivity.
  - exists s. split; [exact S|reflexivity].
Qed.
Lemma co2_solves : forall solve table T p fv re m, sound_root_finder solve ->
  carbon_dioxide solve table T p None false fv re = Ok m ->
  carbon_dioxide_pressure T (dens m) 0 0 false = Ok (Some p) /\ shear m = 0 /\
  exists s, carbon_dioxide_pressure T (dens m) 1 0 true = Ok (Some s) /\ bulk m = dens m * s * 10 ^ 6.
Proof.
  intros solve table T p fv re m S H. destruct (co2_material _ _ _ _ _ _ _ _ _ H) as (_ & D & E & K).
  specialize (D eq_refl). cbn [carbon_dioxide_density] in D.
  destruct (density_solves solve T p fv re (dens m) S D) as (a & b & _ & _ & P).
  split; [exact P|]. split; [exact E|exact K].
Qed.
(** In Celsius and Pa, as the configuration has it. *)
Lemma provider_solves : forall solve table t p m p', sound_root_finder solve ->
  fluid_as_material (co2_eos solve table) SpanWagner (FCarbonDioxide false) t p = (Ok m, p') ->
  carbon_dioxide_pressure (t + 27315 / 100) (dens m) 0 0 false = Ok (Some (p / 10 ^ 6)) /\ shear m = 0.
Proof.
  intros solve table t p m p' S H. cbn [fluid_as_material] in H. unfold span_wagner_carbon_dioxide in H.
  injection H as H _. unfold co2_eos in H. destruct (co2_solves _ _ _ _ _ _ _ S H) as (P & E & _). split; [exact P|exact E].
Qed.
(** A density that cannot be found: an error, or nan inside the material. *)
Lemma co2_no_density : forall solve table T p i fv re,
  carbon_dioxide_density solve table T p i fv re = Ok None ->
  carbon_dioxide solve table T p None i fv re = Err NonFinite.
Proof. intros solve table T p i fv re H. unfold carbon_dioxide. rewrite H. reflexivity. Qed.

(** ** The packaged grid *)
Lemma arange_in : forall k s n i, (i < n)%nat -> In (k + INR i * s) (arange k s n).
Proof. intros k s n i H. unfold arange. apply in_map_iff. exists i. split; [reflexivity|]. apply in_seq. lia. Qed.
Lemma arange_near : forall k s n v, 0 < s -> (0 < n)%nat -> k <= v <= k + INR n * s ->
  exists x, In x (arange k s n) /\ x <= v <= x + s.
Proof.
  intros k s n v Hs. induction n as [|n IH]; intros Hn V; [lia|].
  rewrite S_INR in V. destruct (Rle_dec (k + INR n * s) v) as [L|L].
  - exists (k + INR n * s). split; [apply arange_in; lia|lra].
  - destruct n as [|n]; [cbn in L; lra|].
    destruct (IH ltac:(lia) ltac:(lra)) as (x & X & Y). exists x. split; [|exact Y].
    unfold arange in *. apply in_map_iff in X. destruct X as (i & <- & I). apply in_map_iff. exists i. split; [reflexivity|].
    apply in_seq in I. apply in_seq. lia.
Qed.
(** Every value of a range has grid values on both sides, at most s apart. *)
Lemma arange_both : forall k s n v, 0 < s -> k <= v <= k + INR n * s ->
  exists x y, In x (arange k s (S n)) /\ In y (arange k s (S n)) /\ x <= v <= y /\ y <= x + s.
Proof.
  intros k s n v Hs V. destruct n as [|n].
  - cbn in V. exists k, k. assert (In k (arange k s 1)) by (left; cbn; ring). repeat split; try assumption; lra.
  - destruct (arange_near k s (S n) v Hs ltac:(lia) V) as (x & X & Y).
    unfold arange in X. apply in_map_iff in X. destruct X as (i & <- & I). apply in_seq in I.
    exists (k + INR i * s), (k + INR (S i) * s). split; [apply arange_in; lia|]. split; [apply arange_in; lia|].
    rewrite S_INR. lra.
Qed.
Lemma closest_between : forall l v x y i, In x l -> In y l -> x <= v <= y -> closest l v i ->
  exists a, nth_error l i = Some a /\ Rabs (v - a) <= (y - x) / 2.
Proof.
  intros l v x y i X Y V (a & A & C). exists a. split; [exact A|].
  apply In_nth_error in X. destruct X as (j & J). apply In_nth_error in Y. destruct Y as (k & K).
  pose proof (C j x J) as C1. pose proof (C k y K) as C2.
  rewrite (Rabs_pos_eq (v - x)) in C1 by lra. rewrite (Rabs_left1 (v - y)) in C2 by lra. lra.
Qed.
Lemma t_density_covers : forall v, 27315 / 100 <= v <= 47315 / 100 ->
  exists x y, In x t_density /\ In y t_density /\ x <= v <= y /\ y <= x + 5 / 10.
Proof.
  intros v V.
  assert (A : exists x y, In x (arange 0 (5 / 100) 1000 ++ arange 50 (5 / 10) 301) /\
                          In y (arange 0 (5 / 100) 1000 ++ arange 50 (5 / 10) 301) /\ x <= v - 27315 / 100 <= y /\ y <= x + 5 / 10).
  { destruct (Rle_dec (v - 27315 / 100) 50) as [L|L].
    - destruct (arange_near 0 (5 / 100) 1000 (v - 27315 / 100) ltac:(lra) ltac:(lia)) as (x & X & Y).
      { rewrite INR_IZR_INZ. change (Z.of_nat 1000) with 1000%Z. lra. }
      unfold arange in X. apply in_map_iff in X. destruct X as (i & <- & I). apply in_seq in I.
      destruct (Nat.eq_dec i 999) as [->|N].
      + exists (0 + INR 999 * (5 / 100)), 50. split; [apply in_or_app; left; apply arange_in; lia|].
        split; [apply in_or_app; right; replace 50 with (50 + INR 0 * (5 / 10)) at 1 by (cbn; lra); apply arange_in; lia|].
        rewrite INR_IZR_INZ in *. change (Z.of_nat 999) with 999%Z in *. lra.
      + exists (0 + INR i * (5 / 100)), (0 + INR (S i) * (5 / 100)). split; [apply in_or_app; left; apply arange_in; lia|].
        split; [apply in_or_app; left; apply arange_in; lia|]. rewrite S_INR. lra.
    - destruct (arange_both 50 (5 / 10) 300 (v - 27315 / 100) ltac:(lra)) as (x & y & X & Y & Z & W).
      { rewrite INR_IZR_INZ. change (Z.of_nat 300) with 300%Z. lra. }
      exists x, y. split; [apply in_or_app; right; exact X|]. split; [apply in_or_app; right; exact Y|]. split; assumption. }
  destruct A as (x & y & X & Y & Z & W). exists (27315 / 100 + x), (27315 / 100 + y).
  split; [unfold t_density; apply in_map_iff; exists x; split; [reflexivity|exact X]|].
  split; [unfold t_density; apply in_map_iff; exists y; split; [reflexivity|exact Y]|]. lra.
Qed.
Lemma p_density_covers : forall v, 5 / 10 <= v <= 100 ->
  exists x y, In x p_density /\ In y p_density /\ x <= v <= y /\ y <= x + 1 / 10.
Proof.
  intros v V. unfold p_density. destruct (Rle_dec v 10) as [L|L].
  - destruct (arange_near (5 / 10) (1 / 100) 950 v ltac:(lra) ltac:(lia)) as (x & X & Y).
    { rewrite INR_IZR_INZ. change (Z.of_nat 950) with 950%Z. lra. }
    unfold arange in X. apply in_map_iff in X. destruct X as (i & <- & I). apply in_seq in I.
    destruct (Nat.eq_dec i 949) as [->|N].
    + exists (5 / 10 + INR 949 * (1 / 100)), 10. split; [apply in_or_app; left; apply arange_in; lia|].
      split; [apply in_or_app; right; replace 10 with (10 + INR 0 * (1 / 10)) at 1 by (cbn; lra); apply arange_in; lia|].
      rewrite INR_IZR_INZ in *. change (Z.of_nat 949) with 949%Z in *. lra.
    + exists (5 / 10 + INR i * (1 / 100)), (5 / 10 + INR (S i) * (1 / 100)). split; [apply in_or_app; left; apply arange_in; lia|].
      split; [apply in_or_app; left; apply arange_in; lia|]. rewrite S_INR. lra.
  - destruct (arange_both 10 (1 / 10) 900 v ltac:(lra)) as (x & y & X & Y & Z & W).
    { rewrite INR_IZR_INZ. change (Z.of_nat 900) with 900%Z. lra. }
    exists x, y. split; [apply in_or_app; right; exact X|]. split; [apply in_or_app; right; exact Y|]. split; assumption.
Qed.
Lemma t_density_range : forall x, In x t_density -> 27315 / 100 <= x <= 47315 / 100.
Proof.
  intros x H. unfold t_density in H. apply in_map_iff in H. destruct H as (t & <- & H). apply in_app_or in H.
  destruct H as [H|H]; apply arange_range in H; try lra; rewrite INR_IZR_INZ in H;
    [change (Z.of_nat 1000) with 1000%Z in H|change (Z.of_nat 301) with 301%Z in H]; lra.
Qed.
Lemma p_density_range : forall x, In x p_density -> 5 / 10 <= x <= 100.
Proof.
  intros x H. unfold p_density in H. apply in_app_or in H.
  destruct H as [H|H]; apply arange_range in H; try lra; rewrite INR_IZR_INZ in H;
    [change (Z.of_nat 950) with 950%Z in H|change (Z.of_nat 901) with 901%Z in H]; lra.
Qed.
Lemma packaged_lookup : forall func t T p, generate_lookup_table func t_density p_density = Ok t ->
  27315 / 100 <= T <= 47315 / 100 -> 5 / 10 <= p <= 100 ->
  exists u v w, Rabs (T - u) <= 25 / 100 /\ Rabs (p - v) <= 5 / 100 /\ func u v = Ok w /\ interpolate t T p = Some w.
Proof.
  intros func t T p G HT Hp.
  destruct (t_density_covers T HT) as (x1 & y1 & X1 & Y1 & Z1 & W1).
  destruct (p_density_covers p Hp) as (x2 & y2 & X2 & Y2 & Z2 & W2).
  destruct (lookup_nearest func t_density p_density t T p G t_density_increasing p_density_increasing) as (i & j & u & v & w & C1 & C2 & U & V & F & E).
  - exists x1, y1. split; [exact X1|]. split; [exact Y1|exact Z1].
  - exists x2, y2. split; [exact X2|]. split; [exact Y2|exact Z2].
  - destruct (closest_between _ _ _ _ _ X1 Y1 Z1 C1) as (a & A & Ba). destruct (closest_between _ _ _ _ _ X2 Y2 Z2 C2) as (b & B & Bb).
    assert (a = u) by congruence. assert (b = v) by congruence. subst a b.
    exists u, v, w. split; [lra|]. split; [lra|]. split; [exact F|exact E].
Qed.
Lemma packaged_outside : forall func t T p, generate_lookup_table func t_density p_density = Ok t ->
  T < 27315 / 100 \/ 47315 / 100 < T \/ p < 5 / 10 \/ 100 < p -> interpolate t T p = None.
Proof.
  intros func t T p G H. apply (lookup_outside func t_density p_density t T p G t_density_increasing p_density_increasing).
  destruct (Rle_dec (27315 / 100) T) as [A|A], (Rle_dec T (47315 / 100)) as [B|B].
  2:{ left. intros (x & y & X & Y & L). apply t_density_range in X. apply t_density_range in Y. lra. }
  2:{ left. intros (x & y & X & Y & L). apply t_density_range in X. apply t_density_range in Y. lra. }
  2:{ left. intros (x & y & X & Y & L). apply t_density_range in X. apply t_density_range in Y. lra. }
  right. intros (x & y & X & Y & L). apply p_density_range in X. apply p_density_range in Y. lra.
Qed.

(** ** Arrays *)
Lemma rmax_ge : forall l x, In x l -> x <= rmax l.
Proof.
  intros l x. unfold rmax. generalize (hd 0 l) as d. intros d. induction l as [|a l IH]; intros H; [contradiction|]. cbn [fold_right].
  destruct H as [->|H]; [apply Rmax_l|]. eapply Rle_trans; [apply IH, H|apply Rmax_r].
Qed.
Lemma newton_row : forall solve fv t p b r x, sound_root_finder solve -> accepted_or_robust solve fv t p b r = Ok x ->
  exists q, carbon_dioxide_pressure t x 0 0 false = Ok (Some q) /\ Rabs (q - p) <= 1 / 10 ^ 5.
Proof.
  intros solve fv t p b r x S H. unfold accepted_or_robust in H.
  assert (R : (let* d := calculate_carbon_dioxide_density solve t p fv true in
               match d with Some x => Ok x | None => Err NonFinite end) = Ok x ->
              exists q, carbon_dioxide_pressure t x 0 0 false = Ok (Some q) /\ Rabs (q - p) <= 1 / 10 ^ 5).
  { intros K. destruct (calculate_carbon_dioxide_density solve t p fv true) as [[y|]|] eqn:D; cbn [bind] in K; try discriminate.
    injection K as ->. destruct (density_solves solve t p fv true x S D) as (a & c & _ & _ & P). exists p. split; [exact P|].
    rewrite Rminus_diag_eq, Rabs_R0 by reflexivity. lra. }
  destruct r as [y|]; [|apply R, H].
  destruct (accepted t p b (Some y)) eqn:A; [|apply R, H]. injection H as ->. unfold accepted in A.
  destruct (carbon_dioxide_pressure t x 0 0 false) as [[q|]|]; try discriminate. exists q. split; [reflexivity|].
  apply andb_prop in A. destruct A as [A _]. unfold leb in A. destruct (Rle_dec (Rabs (q - p)) (1 / 10 ^ 5)) as [L|]; [exact L|discriminate].
Qed.
Lemma newton_rows : forall interp newton solve ts ps fv r, sound_root_finder solve ->
  array_carbon_dioxide_density interp newton solve ts ps fv = Ok r ->
  forall i t p x, nth_error ts i = Some t -> nth_error ps i = Some p -> nth_error r i = Some x ->
  exists q, carbon_dioxide_pressure t x 0 0 false = Ok (Some q) /\ Rabs (q - p) <= 1 / 10 ^ 5.
Proof.
  intros interp newton solve ts ps fv r S H i t p x T P X. unfold array_carbon_dioxide_density in H.
  destruct (sequence (map _ (combine ts ps))) as [bounds|]; cbn [bind] in H; [|discriminate].
  destruct (find_initial_density_values interp bounds ts ps) as [iv|]; cbn [bind] in H; [|discriminate].
  destruct (newton iv) as [roots|]; cbn [bind] in H; [|discriminate].
  set (l := combine (combine (combine ts ps) bounds) roots) in *.
  assert (L : length r = length l).
  { clear -H. revert r H. induction l as [|a l IH]; intros r H; cbn [map sequence] in H.
    - injection H as <-. reflexivity.
    - destruct (let '(t, p, b, r) := a in accepted_or_robust solve fv t p b r); cbn [bind] in H; [|discriminate].
      destruct (sequence _) as [r'|]; cbn [bind] in H; [|discriminate]. injection H as <-. cbn. rewrite (IH r' eq_refl). reflexivity. }
  assert (I : (i < length l)%nat) by (rewrite <- L; apply nth_error_Some; congruence).
  destruct (nth_error l i) as [[[[t' p'] b] rt]|] eqn:E; [|apply nth_error_None in E; lia].
  assert (C : forall A B (u : list A) (v : list B) k a c, nth_error (combine u v) k = Some (a, c) -> nth_error u k = Some a /\ nth_error v k = Some c).
  { clear. induction u as [|a0 u IH]; intros v k a c K; [destruct k; discriminate|]. destruct v as [|c0 v]; [destruct k; discriminate|].
    destruct k as [|k]; [injection K as -> ->; split; reflexivity|]. apply (IH v k a c K). }
  assert (E' := E). unfold l in E'. apply C in E'. destruct E' as [E' _]. apply C in E'. destruct E' as [E' _]. apply C in E'. destruct E' as [E1 E2].
  assert (t' = t) by congruence. assert (p' = p) by congruence. subst t' p'.
  destruct (sequence_nth _ _ r i _ H (map_nth_error _ i l E)) as (y & Y1 & Y2). assert (y = x) by congruence. subst y.
  apply (newton_row solve fv t p b rt x S Y1).
Qed.
(** The density lies between the bounds of the phase, or those of the robust search, five percent wider. *)
Lemma newton_bounds : forall interp newton solve ts ps fv r, sound_root_finder solve ->
  array_carbon_dioxide_density interp newton solve ts ps fv = Ok r ->
  forall i t p x, nth_error ts i = Some t -> nth_error ps i = Some p -> nth_error r i = Some x ->
  exists lo hi, density_bounds t p fv = Ok (lo, hi) /\ (lo <= x <= hi \/ lo * (95 / 100) <= x <= hi * (105 / 100)).
Proof.
  intros interp newton solve ts ps fv r S H i t p x T P X. unfold array_carbon_dioxide_density in H.
  destruct (sequence (map _ (combine ts ps))) as [bounds|] eqn:BS; cbn [bind] in H; [|discriminate].
  destruct (find_initial_density_values interp bounds ts ps) as [iv|]; cbn [bind] in H; [|discriminate].
  destruct (newton iv) as [roots|]; cbn [bind] in H; [|discriminate].
  set (l := combine (combine (combine ts ps) bounds) roots) in *.
  assert (L : length r = length l).
  { clear -H. revert r H. induction l as [|a l IH]; intros r H; cbn [map sequence] in H.
    - injection H as <-. reflexivity.
    - destruct (let '(t, p, b, r) := a in accepted_or_robust solve fv t p b r); cbn [bind] in H; [|discriminate].
      destruct (sequence _) as [r'|]; cbn [bind] in H; [|discriminate]. injection H as <-. cbn. rewrite (IH r' eq_refl). reflexivity. }
  assert (I : (i < length l)%nat) by (rewrite <- L; apply nth_error_Some; congruence).
  destruct (nth_error l i) as [[[[t' p'] b] rt]|] eqn:E; [|apply nth_error_None in E; lia].
  assert (C : forall A B (u : list A) (v : list B) k a c, nth_error (combine u v) k = Some (a, c) -> nth_error u k = Some a /\ nth_error v k = Some c).
  { clear. induction u as [|a0 u IH]; intros v k a c K; [destruct k; discriminate|]. destruct v as [|c0 v]; [destruct k; discriminate|].
    destruct k as [|k]; [injection K as -> ->; split; reflexivity|]. apply (IH v k a c K). }
  assert (E' := E). unfold l in E'. apply C in E'. destruct E' as [E' _]. apply C in E'. destruct E' as [E0 E3]. pose proof (C _ _ _ _ _ _ _ E0) as [E1 E2].
  assert (t' = t) by congruence. assert (p' = p) by congruence. subst t' p'.
  destruct (sequence_nth _ _ r i _ H (map_nth_error _ i l E)) as (y & Y1 & Y2). assert (y = x) by congruence. subst y.
  destruct (sequence_nth _ _ bounds i _ BS (map_nth_error _ i _ E0)) as (y & Z1 & Z2). assert (y = b) by congruence. subst y. cbn [fst snd] in Z1.
  destruct b as [lo hi]. exists lo, hi. split; [exact Z1|]. unfold accepted_or_robust in Y1.
  assert (R : (let* d := calculate_carbon_dioxide_density solve t p fv true in
               match d with Some x => Ok x | None => Err NonFinite end) = Ok x -> lo * (95 / 100) <= x <= hi * (105 / 100)).
  { intros K. destruct (calculate_carbon_dioxide_density solve t p fv true) as [[y|]|] eqn:D; cbn [bind] in K; try discriminate.
    injection K as ->. destruct (density_solves solve t p fv true x S D) as (u & v & B & W & _).
    unfold density_bracket in B. rewrite Z1 in B. cbn [bind fst snd] in B. injection B as <- <-. exact W. }
  destruct rt as [y|]; [|right; apply R, Y1].
  destruct (accepted t p (lo, hi) (Some y)) eqn:A; [|right; apply R, Y1]. injection Y1 as ->. left. unfold accepted in A.
  destruct (carbon_dioxide_pressure t x 0 0 false) as [[q|]|]; try discriminate.
  apply andb_prop in A. destruct A as [_ A]. apply andb_prop in A. cbn [fst snd] in A. destruct A as [A B]. unfold leb in A, B.
  destruct (Rle_dec lo x); [|discriminate]. destruct (Rle_dec x hi); [|discriminate]. split; assumption.
Qed.
Lemma newton_high_pressure : forall interp newton solve ts ps fv i t p, length ts = length ps ->
  nth_error ts i = Some t -> nth_error ps i = Some p -> rmax ts * (101 / 100) < p ->
  fails (array_carbon_dioxide_density interp newton solve ts ps fv).
Proof.
  intros interp newton solve ts ps fv i t p L T P H. unfold array_carbon_dioxide_density.
  destruct (sequence (map _ (combine ts ps))) as [bounds|e]; cbn [bind]; [|exists e; reflexivity].
  unfold find_initial_density_values.
  assert (E : existsb (fun x => ltb (fst x) (rmin ts * (99 / 100)) || ltb (rmax ts * (101 / 100)) (fst x) ||
     ltb (snd x) (rmin ps * (99 / 100)) || ltb (rmax ts * (101 / 100)) (snd x))%bool (combine ts ps) = true).
  { apply existsb_exists. exists (t, p). split.
    - assert (N : nth_error (combine ts ps) i = Some (t, p)).
      { clear -T P. revert ps i T P. induction ts as [|a ts IH]; intros ps i T P; [destruct i; discriminate|].
        destruct ps as [|c ps]; [destruct i; discriminate|]. destruct i as [|i]; [injection T as ->; injection P as ->; reflexivity|].
        apply IH; assumption. }
      apply nth_error_In in N. exact N.
    - cbn [fst snd]. unfold ltb at 4. destruct (Rlt_dec (rmax ts * (101 / 100)) p) as [_|F]; [|contradiction].
      rewrite !Bool.orb_true_r. reflexivity. }
  rewrite E. cbn [bind]. exists ValueError. reflexivity.
Qed.
Lemma ideal_array_rows : forall ds ts r, length ds = length ts -> forall dd dt, (dd + dt <= 2)%nat -> (dd = 0 /\ dt = 0)%nat ->
  ideal_gas_helmholtz_energy_array (Vec ds) (Vec ts) dd dt = Ok r ->
  exists l, r = Vec l /\ forall i d t, nth_error ds i = Some d -> nth_error ts i = Some t ->
    exists x, nth_error l i = Some x /\ ideal_gas_helmholtz_energy d t dd dt = Ok x.
Proof.
  intros ds ts r L dd dt _ [-> ->] H. cbn [ideal_gas_helmholtz_energy_array zip amap] in H.
  destruct (sequence _) as [l|] eqn:S; cbn [bind] in H; [|discriminate]. injection H as <-. exists l. split; [reflexivity|].
  intros i d t D T.
  assert (N : nth_error (combine ds ts) i = Some (d, t)).
  { clear -D T. revert ts i D T. induction ds as [|a ds IH]; intros ts i D T; [destruct i; discriminate|].
    destruct ts as [|c ts]; [destruct i; discriminate|]. destruct i as [|i]; [injection D as ->; injection T as ->; reflexivity|].
    apply IH; assumption. }
  destruct (sequence_nth _ _ l i _ S (map_nth_error _ i _ N)) as (x & X1 & X2). exists x. split; [exact X2|exact X1].
Qed.

Lemma sequence_length : forall (A : Type) (l : list (res A)) l', sequence l = Ok l' -> length l' = length l.
Proof.
  induction l as [|a l IH]; intros l' H; cbn [sequence] in H; [injection H as <-; reflexivity|].
  apply bind_ok in H. destruct H as (x & _ & H). apply bind_ok in H. destruct H as (y & Y & H). injection H as <-.
  cbn [length]. rewrite (IH _ Y). reflexivity.
Qed.

Lemma ideal_array_derivatives : forall dd dt ds ts r, (dd = 0 \/ dt = 0)%nat -> length ds = length ts ->
  ideal_gas_helmholtz_energy_array (Vec ds) (Vec ts) dd dt = Ok r ->
  exists l, r = Vec l /\ length l = length ds /\ forall i d t, nth_error ds i = Some d -> nth_error ts i = Some t ->
    exists x, nth_error l i = Some x /\ ideal_gas_helmholtz_energy d t dd dt = Ok x.
Proof.
  assert (Q : forall (f : R -> res R) xs r, amap f (Vec xs) = Ok r ->
    exists l, r = Vec l /\ length l = length xs /\ forall i x, nth_error xs i = Some x -> exists y, nth_error l i = Some y /\ f x = Ok y).
  { intros f xs r H. cbn [amap] in H. destruct (sequence (map f xs)) as [l|] eqn:S; cbn [bind] in H; [|discriminate].
    injection H as <-. exists l. split; [reflexivity|]. split; [rewrite (sequence_length _ _ _ S), map_length; reflexivity|].
    intros i x X. destruct (sequence_nth _ _ l i _ S (map_nth_error f i _ X)) as (y & Y1 & Y2). eauto. }
  intros dd dt ds ts r Z L H. destruct dd as [|dd].
  - destruct dt as [|dt].
    + pose proof H as H'. apply (ideal_array_rows ds ts r L 0 0) in H; try lia. destruct H as (l & -> & R). exists l.
      split; [reflexivity|]. split; [|exact R].
      cbn [ideal_gas_helmholtz_energy_array zip amap] in H'. destruct (sequence _) as [l'|] eqn:S; cbn [bind] in H'; [|discriminate].
      injection H' as ->. rewrite (sequence_length _ _ _ S), map_length, combine_length. lia.
    + change (ideal_gas_helmholtz_energy_array (Vec ds) (Vec ts) 0 (S dt)) with
        (amap (fun t => ideal_gas_helmholtz_energy 1 t 0 (S dt)) (Vec ts)) in H.
      apply Q in H. destruct H as (l & -> & N & R). exists l. split; [reflexivity|]. split; [congruence|].
      intros i d t _ T. destruct (R i t T) as (x & X & E). exists x. split; [exact X|]. exact E.
  - assert (dt = 0)%nat as -> by lia.
    change (ideal_gas_helmholtz_energy_array (Vec ds) (Vec ts) (S dd) 0) with
      (amap (fun d => ideal_gas_helmholtz_energy d 1 (S dd) 0) (Vec ds)) in H.
    apply Q in H. destruct H as (l & -> & N & R). exists l. split; [reflexivity|]. split; [exact N|].
    intros i d t D _. destruct (R i d D) as (x & X & E). exists x. split; [exact X|]. exact E.
Qed.
