(** Lemmas about warnings. *)
From Coq Require Import String List ZArith Bool Lra Lia.
From Verif Require Import Base BaseProofs MaterialModel FluidModel BatzleWangModel ConfigModel FluidsModel RowModel RowSpec Spec RowProofs RowScalarProofs
  BatzleWangProofs WarnModel WarnSpec.
From Verif Require AppProofs.
Import ListNotations.
Open Scope R_scope.

(** ** Erasing warnings *)
Lemma snd_lbind : forall {A B} (x : logged A) (k : A -> logged B), snd (lbind x k) = bind (snd x) (fun a => snd (k a)).
Proof. intros A B [w [a|e]] k; cbn; [destruct (k a); reflexivity|reflexivity]. Qed.
Lemma fst_lbind : forall {A B} (x : logged A) (k : A -> logged B) a, snd x = Ok a -> fst (lbind x k) = fst x ++ fst (k a).
Proof. intros A B [w r] k a E. cbn in E. subst r. cbn. destruct (k a); reflexivity. Qed.
Lemma fst_lbind_err : forall {A B} (x : logged A) (k : A -> logged B) e, snd x = Err e -> fst (lbind x k) = fst x.
Proof. intros A B [w r] k a E. cbn in E. subst r. reflexivity. Qed.
Lemma bind_ok : forall {A B} (x : res A) (k : A -> res B) b, bind x k = Ok b -> exists a, x = Ok a /\ k a = Ok b.
Proof. intros A B [a|e] k b H; [exists a; split; [reflexivity|exact H]|discriminate]. Qed.

Lemma below_defined : forall t p r rg g,
  (forall b, below_bubble_point t p r rg g = Ok b -> exists x y, py_div rg g = Ok x /\ py_div 4072 r = Ok y) /\
  (forall x y, py_div rg g = Ok x -> py_div 4072 r = Ok y -> exists b, below_bubble_point t p r rg g = Ok b) /\
  (forall e, below_bubble_point t p r rg g = Err e -> py_div rg g = Err e \/ (exists x, py_div rg g = Ok x) /\ py_div 4072 r = Err e).
Proof.
  intros t p r rg g. unfold below_bubble_point, oil_bubble_point.
  destruct (py_div rg g) as [x|]; cbn [bind]; [|repeat split; intros; [discriminate|discriminate|left; congruence]].
  destruct (py_div 4072 r) as [y|]; cbn [bind]; [|repeat split; intros; [discriminate|discriminate|right; split; [eauto|congruence]]].
  destruct (Rlt_dec x 0) as [L|L]; [repeat split; intros; eauto; discriminate|].
  assert (P : exists q, np_pow x (83 / 100) = Ok q).
  { unfold np_pow. destruct (Rlt_dec 0 x); [eauto|]. destruct (Req_EM_T x 0); [|lra]. destruct (Rlt_dec 0 (83 / 100)); [eauto|lra]. }
  destruct P as (q & ->). cbn [bind]. repeat split; intros; eauto; discriminate.
Qed.

Lemma erase_live_oil : forall t p r rg g, snd (l_live_oil t p r rg g) = live_oil t p r rg g.
Proof.
  intros t p r rg g. unfold l_live_oil, live_oil. rewrite snd_lbind. cbn [quiet snd].
  destruct (below_defined t p r rg g) as (A & B & C). destruct (below_bubble_point t p r rg g) as [b|e].
  - destruct (A b eq_refl) as (x & y & -> & ->). cbn [bind]. rewrite snd_lbind. reflexivity.
  - destruct (C e eq_refl) as [-> |((x & ->) & ->)]; reflexivity.
Qed.
Lemma erase_oil : forall t p r rg g, snd (l_oil t p r rg g) = oil t p r rg g.
Proof. intros. unfold l_oil, oil. rewrite snd_lbind, erase_live_oil. reflexivity. Qed.
Lemma erase_water_velocity : forall t p, snd (l_water_primary_velocity t p) = water_primary_velocity t p.
Proof. intros. unfold l_water_primary_velocity. rewrite snd_lbind. reflexivity. Qed.
Lemma erase_brine_velocity : forall t p s, snd (l_brine_primary_velocity t p s) = brine_primary_velocity t p s.
Proof.
  intros. unfold l_brine_primary_velocity. rewrite snd_lbind, erase_water_velocity. cbn [quiet snd]. unfold brine_primary_velocity.
  destruct (water_primary_velocity t p); reflexivity.
Qed.
Lemma erase_brine : forall t p s, snd (l_brine t p s) = brine t p s.
Proof.
  intros. unfold l_brine, brine. rewrite snd_lbind. cbn [quiet snd]. destruct (brine_density _ _ _); cbn [bind]; [|reflexivity].
  rewrite snd_lbind, erase_brine_velocity. reflexivity.
Qed.
Lemma erase_water : forall t p, snd (l_water t p) = water t p.
Proof.
  intros. unfold l_water, water. rewrite snd_lbind. cbn [quiet snd]. destruct (water_density _ _); cbn [bind]; [|reflexivity].
  rewrite snd_lbind, erase_water_velocity. reflexivity.
Qed.
Lemma erase_sequence : forall {A B} (f : A -> logged B) l, snd (l_sequence f l) = sequence (map (fun x => snd (f x)) l).
Proof.
  intros A B f l. induction l as [|x l IH]; cbn [l_sequence map sequence]; [reflexivity|]. rewrite snd_lbind.
  destruct (snd (f x)); cbn [bind]; [|reflexivity]. rewrite snd_lbind, IH. reflexivity.
Qed.
Lemma erase_amap : forall {A B} (f : A -> logged B) a, snd (l_amap f a) = amap (fun x => snd (f x)) a.
Proof. intros A B f [x|l]; cbn [l_amap amap]; rewrite snd_lbind, ?erase_sequence; reflexivity. Qed.
Lemma amap_ext : forall {A B} (f g : A -> res B) a, (forall x, f x = g x) -> amap f a = amap g a.
Proof. intros A B f g [x|l] E; cbn [amap]; [rewrite E; reflexivity|]. rewrite (map_ext _ _ E). reflexivity. Qed.
Lemma erase_vectorize : forall {X} (f : X -> logged material) (g : X -> res material) a, (forall x, snd (f x) = g x) ->
  snd (l_vectorize_material f a) = vectorize_material g a.
Proof.
  intros X f g a E. unfold l_vectorize_material, vectorize_material. rewrite snd_lbind, erase_amap, (amap_ext _ g a E). reflexivity.
Qed.
Lemma erase_fluid : forall co2 p f t pr, snd (l_fluid_as_material co2 p f t pr) = b_fluid_as_material co2 p f t pr.
Proof.
  intros co2 p f t pr. unfold l_fluid_as_material. destruct f, p; try reflexivity; cbn [b_fluid_as_material]; rewrite snd_lbind.
  - erewrite erase_vectorize; [reflexivity|]. intros x. apply erase_oil.
  - erewrite erase_vectorize; [reflexivity|]. intros x. apply erase_brine.
Qed.
Lemma erase_materials : forall co2 p t cs pr, snd (l_as_materials co2 p t pr cs) = b_as_materials co2 p t pr cs.
Proof.
  intros co2 p t cs. induction cs as [|c cs IH]; intros pr; cbn [l_as_materials b_as_materials]; [reflexivity|].
  rewrite snd_lbind, erase_fluid. destruct (b_fluid_as_material _ _ _ _ _) as [mp|]; cbn [bind]; [|reflexivity].
  rewrite snd_lbind, IH. reflexivity.
Qed.
Lemma erase_mixture : forall co2 f pr, snd (l_as_mixture co2 f pr) = b_as_mixture co2 f pr.
Proof. intros. unfold l_as_mixture, b_as_mixture. rewrite snd_lbind, erase_materials. reflexivity. Qed.
Lemma erase_results : forall co2 inp, snd (l_calculate_results co2 inp) = b_calculate_results co2 inp.
Proof.
  intros. unfold l_calculate_results, b_calculate_results. rewrite snd_lbind. cbn [snd].
  destruct (b_minerals _); cbn [bind]; [|reflexivity]. destruct (b_complete_fluids _ _); cbn [bind]; [|reflexivity].
  destruct (b_check_dry_rock _); cbn [bind]; [|reflexivity]. rewrite snd_lbind. cbn [quiet snd fst].
  destruct (b_minerals_as_mixture _); cbn [bind]; [|reflexivity]. destruct (bp_fluid _); cbn [bind]; [|reflexivity].
  rewrite snd_lbind, erase_mixture. cbn [fst snd]. destruct (b_as_mixture _ _ _); reflexivity.
Qed.

(** ** Printing *)
Lemma shown_in : forall l seen w, In w (shown seen l) <-> In w l /\ ~ In w seen.
Proof.
  induction l as [|a l IH]; intros seen w; cbn [shown]; [cbn; tauto|]. destruct (in_dec warning_dec a seen) as [D|D].
  - rewrite IH. cbn. split; [tauto|]. intros [[->|H] N]; [contradiction|tauto].
  - cbn. rewrite IH. cbn. split.
    + intros [->|[H N]]; tauto.
    + intros [[->|H] N]; [tauto|]. destruct (warning_dec a w) as [->|Q]; tauto.
Qed.
Lemma shown_nodup : forall l seen, NoDup (shown seen l).
Proof.
  induction l as [|a l IH]; intros seen; cbn [shown]; [constructor|]. destruct (in_dec warning_dec a seen); [apply IH|].
  constructor; [|apply IH]. rewrite shown_in. cbn. tauto.
Qed.
Lemma printed_once : forall l, NoDup (printed l) /\ forall w, In w (printed l) <-> In w l.
Proof. intros l. split; [apply shown_nodup|]. intros w. unfold printed. rewrite shown_in. cbn. tauto. Qed.

(** ** The warnings of one fluid *)
Lemma oil_log : forall t p r rg g, fst (l_oil t p r rg g) = match below_bubble_point t p r rg g with Ok true => [BelowBubblePoint] | _ => [] end.
Proof.
  intros t p r rg g. unfold l_oil.
  assert (L : fst (l_live_oil t p r rg g) = match below_bubble_point t p r rg g with Ok true => [BelowBubblePoint] | _ => [] end).
  { unfold l_live_oil. destruct (below_bubble_point t p r rg g) as [b|]; [|reflexivity].
    rewrite (fst_lbind _ _ b) by reflexivity. cbn [quiet fst app]. rewrite (fst_lbind _ _ tt) by reflexivity. cbn [warn quiet fst].
    rewrite app_nil_r. destruct b; reflexivity. }
  destruct (snd (l_live_oil t p r rg g)) as [m|e] eqn:E.
  - rewrite (fst_lbind _ _ m E). cbn [quiet fst]. rewrite app_nil_r. exact L.
  - rewrite (fst_lbind_err _ _ e E). exact L.
Qed.
Lemma water_velocity_log : forall t p, fst (l_water_primary_velocity t p) = if ltb 100 p then [WaterPressure p] else [].
Proof. intros. unfold l_water_primary_velocity. rewrite (fst_lbind _ _ tt) by reflexivity. cbn [warn quiet fst]. apply app_nil_r. Qed.
Lemma poly_ok_density : forall t p s, exists d, brine_density t p s = Ok d.
Proof. intros. unfold brine_density, water_density, polyval3d, polyval2d. cbn [poly_matrices poly_rows map map2 combine fst snd bind]. eauto. Qed.
Lemma brine_log : forall t p s, fst (l_brine t p s) = if ltb 100 (p * (1 / 10 ^ 6)) then [WaterPressure (p * (1 / 10 ^ 6))] else [].
Proof.
  intros. unfold l_brine. destruct (poly_ok_density t (p * (1 / 10 ^ 6)) (s * (1 / 10 ^ 6))) as (d & ->).
  rewrite (fst_lbind _ _ d) by reflexivity. cbn [quiet fst app].
  set (q := (p * (1 / 10 ^ 6))%R). set (u := (s * (1 / 10 ^ 6))%R).
  assert (V : fst (l_brine_primary_velocity t q u) = if ltb 100 q then [WaterPressure q] else []).
  { unfold l_brine_primary_velocity. destruct (snd (l_water_primary_velocity t q)) as [v|e] eqn:E.
    - rewrite (fst_lbind _ _ v E). cbn [quiet fst]. rewrite app_nil_r. apply water_velocity_log.
    - rewrite (fst_lbind_err _ _ e E). apply water_velocity_log. }
  destruct (snd (l_brine_primary_velocity t q u)) as [v|e] eqn:E.
  - rewrite (fst_lbind _ _ v E). cbn [quiet fst]. rewrite app_nil_r. exact V.
  - rewrite (fst_lbind_err _ _ e E). exact V.
Qed.

Lemma cos_negative : cos (83 / 100 * PI) < 0.
Proof. apply cos_lt_0; pose proof PI_RGT_0; lra. Qed.
Lemma ok_inj : forall {A} (a b : A), Ok a = Ok b -> a = b.
Proof. intros A a b H. congruence. Qed.
Lemma below_spec : forall t p r rg g b, 0 <= p -> below_bubble_point t p r rg g = Ok b ->
  (b = true <-> p < bubble_point_pressure t r rg g).
Proof.
  intros t p r rg g b P. unfold below_bubble_point, oil_bubble_point, bubble_point_pressure.
  unfold py_div. destruct (Req_EM_T g 0) as [G|G]; [discriminate|]. cbn [bind].
  destruct (Req_EM_T r 0) as [Z|Z]; [discriminate|]. cbn [bind].
  destruct (Rlt_dec (rg / g) 0) as [L|L].
  - intros E. apply ok_inj in E. subst b. destruct (Rlt_dec 0 (rg / g)); [lra|].
    match goal with |- context [Rle_dec p ?x] => assert (X : x < 0) end.
    { unfold Rdiv at 1. pose proof (exp_pos (4072 / r - 377 / 100000 * t)) as E. apply Rinv_0_lt_compat in E.
      pose proof cos_negative. pose proof (rpow_pos (- (rg / g)) (83 / 100)).
      assert (Rpower (- (rg / g)) (83 / 100) * cos (83 / 100 * PI) < 0) by (apply Rmult_pos_neg || nra; assumption). nra. }
    destruct (Rle_dec _ _); [lra|]. split; [discriminate|lra].
  - unfold np_pow. destruct (Rlt_dec 0 (rg / g)) as [Q|Q].
    + cbn [bind]. intros E. apply ok_inj in E. subst b. unfold ltb.
      assert (X : 244697939134 / 10 ^ 4 * Rpower (rg / g) (83 / 100) / exp (4072 / r - 377 / 100000 * t) =
                  244697939134 / 10 ^ 4 * Rpower (rg / g) (83 / 100) * exp (377 / 100000 * t - 4072 / r)).
      { unfold Rdiv at 1. rewrite <- exp_Ropp. f_equal. f_equal. ring. }
      rewrite X. destruct (Rlt_dec p _); split; try tauto; try discriminate.
    + destruct (Req_EM_T (rg / g) 0); [|lra]. destruct (Rlt_dec 0 (83 / 100)); [|lra]. cbn [bind]. intros E. apply ok_inj in E. subst b.
      unfold ltb. destruct (Rlt_dec p _) as [F|F]; [|split; [discriminate|lra]].
      exfalso. unfold Rdiv in F. rewrite Rmult_0_r, Rmult_0_l in F. lra.
Qed.

(** ** Tables *)
Definition row_of {A} (i : nat) (a : arr A) : option A := match a with Sc x => Some x | Vec l => nth_error l i end.
Lemma row_of_zip : forall {A B} i (a : arr A) (b : arr B),
  row_of i (zip a b) = match row_of i a, row_of i b with Some x, Some y => Some (x, y) | _, _ => None end.
Proof.
  intros A B i [x|l] [y|l']; cbn [zip row_of]; [reflexivity|rewrite nth_error_map; destruct (nth_error l' i); reflexivity|
    rewrite nth_error_map; destruct (nth_error l i); reflexivity|]. apply nth_combine_error.
Qed.
Lemma row_of_pick : forall n i (a : arr R), wfa n a -> (i < n)%nat -> row_of i a = Some (pick i a).
Proof.
  intros n i [x|l] W H; cbn [row_of pick]; [reflexivity|]. cbn in W. apply nth_error_nth'. lia.
Qed.
Lemma sequence_log : forall {A B} (f : A -> logged B) l ys, snd (l_sequence f l) = Ok ys ->
  forall w, In w (fst (l_sequence f l)) <-> exists i x, nth_error l i = Some x /\ In w (fst (f x)).
Proof.
  intros A B f l. induction l as [|a l IH]; intros ys E w; cbn [l_sequence].
  - cbn. split; [tauto|]. intros ([|i] & x & H & _); discriminate.
  - cbn [l_sequence] in E. rewrite snd_lbind in E. apply bind_ok in E. destruct E as (y & E1 & E2). rewrite snd_lbind in E2.
    apply bind_ok in E2. destruct E2 as (zs & E3 & _). rewrite (fst_lbind _ _ y E1), (fst_lbind _ _ zs E3). cbn [quiet fst]. rewrite app_nil_r, in_app_iff.
    rewrite (IH zs E3 w). split.
    + intros [H|(i & x & H & K)]; [exists 0%nat, a; auto|exists (S i), x; auto].
    + intros ([|i] & x & H & K); cbn in H; [injection H as <-; auto|right; eauto].
Qed.
Lemma amap_log : forall {A B} n (f : A -> logged B) a y, (0 < n)%nat -> wfa n a -> snd (l_amap f a) = Ok y ->
  forall w, In w (fst (l_amap f a)) <-> exists i x, (i < n)%nat /\ row_of i a = Some x /\ In w (fst (f x)).
Proof.
  intros A B n f [a|l] y Hn W E w; cbn [l_amap row_of] in *; rewrite snd_lbind in E; apply bind_ok in E; destruct E as (z & E & _);
    rewrite (fst_lbind _ _ z E); cbn [quiet fst]; rewrite app_nil_r.
  - split; [intros H; exists 0%nat, a; auto|]. intros (i & x & _ & H & K). injection H as <-. exact K.
  - rewrite (sequence_log f l z E w). cbn in W. split.
    + intros (i & x & H & K). exists i, x. split; [|auto]. rewrite <- W. apply nth_error_Some. congruence.
    + intros (i & x & _ & H). eauto.
Qed.
Lemma vectorize_log : forall {X} n (f : X -> logged material) a m, (0 < n)%nat -> wfa n a -> snd (l_vectorize_material f a) = Ok m ->
  forall w, In w (fst (l_vectorize_material f a)) <-> exists i x, (i < n)%nat /\ row_of i a = Some x /\ In w (fst (f x)).
Proof.
  intros X n f a m Hn W E w. unfold l_vectorize_material in *. rewrite snd_lbind in E. apply bind_ok in E. destruct E as (y & E & _).
  rewrite (fst_lbind _ _ y E). cbn [quiet fst]. rewrite app_nil_r. eapply amap_log; eassumption.
Qed.
Lemma vectorize_each : forall {X} (f : X -> logged material) a m, snd (l_vectorize_material f a) = Ok m ->
  forall i x, row_of i a = Some x -> exists y, snd (f x) = Ok y.
Proof.
  intros X f a m E i x H. unfold l_vectorize_material in E. rewrite snd_lbind in E. apply bind_ok in E. destruct E as (y & E & _).
  rewrite erase_amap in E. destruct a as [z|l]; cbn [amap row_of] in *.
  - injection H as <-. apply bind_ok in E. destruct E as (u & E & _). eauto.
  - pose proof (sequence_spec (fun x => snd (f x)) l) as Q. destruct (sequence _); [|discriminate]. destruct Q as (_ & Q).
    destruct (Q i x H) as (u & _ & U). eauto.
Qed.

Section Fluids.
Context (co2 : equation_of_state) (n : nat) (Hn : (0 < n)%nat) (default : provider) (t : arr R) (Ht : wfa n t).

Lemma fluid_log : forall p f pr mp, wf_fluid n f -> wfa n pr -> (forall i, (i < n)%nat -> 0 <= pick i pr) ->
  b_fluid_as_material co2 p f t pr = Ok mp ->
  (forall w, In w (fst (l_fluid_as_material co2 p f t pr)) <->
     exists i, (i < n)%nat /\ deserves p (pick_fluid i f) (pick i t) (pick i pr) w) /\
  wfa n (snd mp) /\
  forall i, (i < n)%nat -> pick i (snd mp) = (pick i pr / (10 ^ 6) ^ match f with BCarbonDioxide _ => 1 | _ => 0 end)%R.
Proof.
  intros p f pr mp W Wp P E. rewrite <- erase_fluid in E.
  assert (N : forall i, pick i pr = (pick i pr / (10 ^ 6) ^ 0)%R) by (intros; cbn [pow]; field).
  destruct f as [m|r rg g|g|s|r rg g|b], p; cbn [l_fluid_as_material] in *; try discriminate E;
    try (cbn [quiet snd fst b_fluid_as_material] in *; split; [intros w; cbn [deserves pick_fluid]; unfold deserves; cbn; split; [tauto|]; intros (i & _ & Q & F);
      (discriminate Q || destruct w; exact F)|]).
  - injection E as <-. split; [exact Wp|]. intros. apply N.
  - injection E as <-. split; [exact Wp|]. intros. apply N.
  - destruct W as (W1 & W2 & W3). rewrite snd_lbind in E. apply bind_ok in E. destruct E as (m & E & F). cbn [quiet snd] in F. injection F as <-.
    split; [|split; [exact Wp|intros; apply N]]. intros w. rewrite (fst_lbind _ _ m E). cbn [quiet fst]. rewrite app_nil_r.
    assert (R : forall i, (i < n)%nat -> row_of i (zip5 t pr r rg g) = Some (pick i t, pick i pr, pick i r, pick i rg, pick i g)).
    { intros i Hi. unfold zip5, zip4, zip3. rewrite !row_of_zip, !(row_of_pick n) by assumption. reflexivity. }
    rewrite (vectorize_log n _ _ m Hn) by (first [exact E|unfold zip5, zip4, zip3; repeat apply wf_zip; assumption]).
    split.
    + intros (i & x & Hi & Rx & H). exists i. split; [exact Hi|]. rewrite (R i Hi) in Rx. injection Rx as <-. cbn [fst snd] in H. rewrite oil_log in H.
      destruct (below_bubble_point _ _ _ _ _) as [[|]|] eqn:B; try contradiction. destruct H as [<-|[]]. split; [reflexivity|]. cbn [pick_fluid].
      apply (below_spec _ _ _ _ _ _ (P i Hi) B). reflexivity.
    + intros (i & Hi & _ & D). exists i. eexists. split; [exact Hi|]. split; [apply R, Hi|]. cbn [fst snd]. rewrite oil_log. cbn [pick_fluid] in D.
      destruct w; try contradiction.
      destruct (vectorize_each _ _ _ E i _ (R i Hi)) as (y & Y). cbn [fst snd] in Y. rewrite erase_oil in Y. unfold oil, live_oil in Y.
      destruct (py_div (pick i rg) (pick i g)) as [x1|] eqn:D1; [|discriminate]. cbn [bind] in Y.
      destruct (py_div 4072 (pick i r)) as [x2|] eqn:D2; [|discriminate].
      destruct (proj1 (proj2 (below_defined (pick i t) (pick i pr) (pick i r) (pick i rg) (pick i g))) x1 x2 D1 D2) as (b & B).
      rewrite B. pose proof (below_spec _ _ _ _ _ _ (P i Hi) B) as Q. destruct b; [left; reflexivity|]. exfalso. apply Q in D. discriminate.
  - rewrite (fst_lbind _ _ (fst mp)) || idtac. unfold b_fluid_as_material in E. apply bind_ok in E. destruct E as (m & _ & F). injection F as <-.
    split; [exact Wp|]. intros. apply N.
  - rewrite snd_lbind in E. apply bind_ok in E. destruct E as (m & E & F). cbn [quiet snd] in F. injection F as <-.
    split; [|split; [exact Wp|intros; apply N]]. intros w. rewrite (fst_lbind _ _ m E). cbn [quiet fst]. rewrite app_nil_r.
    assert (R : forall i, (i < n)%nat -> row_of i (zip3 t pr s) = Some (pick i t, pick i pr, pick i s)).
    { intros i Hi. unfold zip3. rewrite !row_of_zip, !(row_of_pick n) by assumption. reflexivity. }
    rewrite (vectorize_log n _ _ m Hn) by (first [exact E|unfold zip3; repeat apply wf_zip; assumption]).
    assert (V : forall x, (x * (1 / 10 ^ 6) = x / 10 ^ 6)%R) by (intros; field).
    split.
    + intros (i & x & Hi & Rx & H). exists i. split; [exact Hi|]. rewrite (R i Hi) in Rx. injection Rx as <-. cbn [fst snd] in H. rewrite brine_log, V in H.
      unfold ltb in H. destruct (Rlt_dec 100 _) as [L|]; [|contradiction]. destruct H as [<-|[]]. split; [reflexivity|]. split; [reflexivity|exact L].
    + intros (i & Hi & _ & D). exists i. eexists. split; [exact Hi|]. split; [apply R, Hi|]. cbn [fst snd]. rewrite brine_log, V. cbn [pick_fluid] in D.
      destruct w; try contradiction. destruct D as (-> & D). unfold ltb. destruct (Rlt_dec 100 _); [left; reflexivity|contradiction].
  - apply bind_ok in E. destruct E as (m & _ & F). injection F as <-. cbn [snd]. split; [apply wf_pmap, Wp|]. intros i Hi.
    destruct pr as [x|l]; cbn [pmap pick]; [rewrite pow_1; reflexivity|]. cbn in Wp.
    rewrite (nth_indep _ 0 (0 / 10 ^ 6)%R) by (rewrite map_length; lia). rewrite (map_nth (fun p => p / 10 ^ 6)%R). rewrite pow_1. reflexivity.
Qed.

Lemma materials_log : forall cs pr ms, Forall (fun c => wf_fluid n (bc_material c)) cs -> wfa n pr -> (forall i, (i < n)%nat -> 0 <= pick i pr) ->
  b_as_materials co2 default t pr cs = Ok ms ->
  forall w, In w (fst (l_as_materials co2 default t pr cs)) <->
    exists i j c, (i < n)%nat /\ nth_error cs j = Some c /\
      deserves (model_of default c) (pick_fluid i (bc_material c)) (pick i t) (pick i pr / (10 ^ 6) ^ carbon_dioxide_before j cs) w.
Proof.
  induction cs as [|c cs IH]; intros pr ms W Wp P E w; cbn [l_as_materials b_as_materials] in *.
  - cbn. split; [tauto|]. intros (i & [|j] & c & _ & H & _); discriminate.
  - inversion W as [|? ? Wc Ws]; subst. apply bind_ok in E. destruct E as (mp & E1 & E2). apply bind_ok in E2. destruct E2 as (ms' & E2 & _).
    fold (model_of default c) in *. destruct (fluid_log _ _ _ _ Wc Wp P E1) as (L & W' & Q).
    rewrite <- erase_fluid in E1. rewrite (fst_lbind _ _ mp E1).
    pose proof E2 as E3. rewrite <- erase_materials in E3. rewrite (fst_lbind _ _ ms' E3). cbn [quiet fst]. rewrite app_nil_r, in_app_iff, L.
    rewrite (IH (snd mp) ms' Ws W'); [|intros i Hi; rewrite Q by exact Hi; unfold Rdiv; apply Rmult_le_pos; [apply P, Hi|left; apply Rinv_0_lt_compat; destruct (bc_material c); apply pow_lt; lra]|exact E2].
    assert (X : forall i k, (i < n)%nat -> (pick i (snd mp) / (10 ^ 6) ^ k = pick i pr / (10 ^ 6) ^ (match bc_material c with BCarbonDioxide _ => 1 | _ => 0 end + k))%R).
    { intros i k Hi. rewrite (Q i Hi), pow_add. field. split; apply pow_nonzero; lra. }
    split.
    + intros [(i & Hi & H)|(i & j & d & Hi & J & H)].
      * exists i, 0%nat, c. split; [exact Hi|]. split; [reflexivity|]. cbn [carbon_dioxide_before]. replace (pick i pr / (10 ^ 6) ^ 0)%R with (pick i pr) by (cbn [pow]; field). exact H.
      * exists i, (S j), d. split; [exact Hi|]. split; [exact J|]. cbn [carbon_dioxide_before]. rewrite <- X by exact Hi. exact H.
    + intros (i & [|j] & d & Hi & J & H); cbn in J.
      * injection J as <-. left. exists i. split; [exact Hi|]. cbn [carbon_dioxide_before] in H. replace (pick i pr / (10 ^ 6) ^ 0)%R with (pick i pr) in H by (cbn [pow]; field). exact H.
      * right. exists i, j, d. split; [exact Hi|]. split; [exact J|]. cbn [carbon_dioxide_before] in H. rewrite X by exact Hi. exact H.
Qed.
End Fluids.

Lemma completed_constituents : forall f fs f', length fs = length (bf_constituents f) -> b_complete_fluids f fs = Ok f' ->
  bf_temperature f' = bf_temperature f /\ bf_fluid_model f' = bf_fluid_model f /\
  map (fun c => (bc_material c, bc_fluid_model c)) (bf_constituents f') = map (fun c => (bc_material c, bc_fluid_model c)) (bf_constituents f).
Proof.
  intros f fs f' L E. unfold b_complete_fluids in E. apply bind_ok in E. destruct E as (_ & _ & E). apply bind_ok in E. destruct E as (_ & _ & E).
  apply bind_ok in E. destruct E as (_ & _ & E). apply bind_ok in E. destruct E as (fs' & F & E). injection E as <-.
  cbn [bf_temperature bf_fluid_model bf_constituents]. split; [reflexivity|]. split; [reflexivity|].
  assert (L' : length fs' = length (bf_constituents f)).
  { rewrite <- L. unfold b_fix_one_fraction in F. apply bind_ok in F. destruct F as (_ & _ & F). apply bind_ok in F. destruct F as (_ & _ & F). injection F as <-. apply map_length. }
  rewrite map_map. cbn [bc_material bc_fluid_model]. clear - L'. revert fs' L'.
  induction (bf_constituents f) as [|c cs IH]; intros [|x l] L'; cbn in *; try discriminate; [reflexivity|]. f_equal. apply IH. lia.
Qed.

Definition kept (c : bconstituent) := (bc_material c, bc_fluid_model c).
Lemma kept_nth : forall cs cs', map kept cs = map kept cs' -> forall j c, nth_error cs j = Some c ->
  exists c', nth_error cs' j = Some c' /\ kept c = kept c'.
Proof.
  intros cs cs' E j c H. assert (N : nth_error (map kept cs') j = Some (kept c)) by (rewrite <- E, nth_error_map, H; reflexivity).
  rewrite nth_error_map in N. destruct (nth_error cs' j) as [c'|]; [|discriminate]. cbn in N. exists c'. split; [reflexivity|congruence].
Qed.
Lemma kept_before : forall cs cs', map kept cs = map kept cs' -> forall j, carbon_dioxide_before j cs = carbon_dioxide_before j cs'.
Proof.
  induction cs as [|c cs IH]; intros [|c' cs'] E j; try discriminate; [destruct j; reflexivity|].
  unfold kept in E at 1 2. cbn [map] in E. injection E as E1 E2 E3. destruct j; [reflexivity|]. cbn [carbon_dioxide_before]. rewrite E1. f_equal. apply IH, E3.
Qed.

Lemma results_log : forall co2 n inp out, (0 < n)%nat -> wf_input n inp ->
  length (bi_fluid_fractions inp) = length (bf_constituents (bi_fluids inp)) ->
  (forall i p, (i < n)%nat -> bp_fluid (bi_pressure inp) = Some p -> 0 <= pick i p) ->
  b_calculate_results co2 inp = Ok out ->
  forall w, In w (fst (l_calculate_results co2 inp)) <->
    In w (duplicate_adjustments (bdr_adjustments (bi_dry_rock inp))) \/
    exists i j c p, (i < n)%nat /\ nth_error (bf_constituents (bi_fluids inp)) j = Some c /\ bp_fluid (bi_pressure inp) = Some p /\
      deserves (model_of (bf_fluid_model (bi_fluids inp)) c) (pick_fluid i (bc_material c)) (pick i (bf_temperature (bi_fluids inp)))
        (pick i p / (10 ^ 6) ^ carbon_dioxide_before j (bf_constituents (bi_fluids inp))) w.
Proof.
  intros co2 n inp out Hn (_ & (Wt & Wc) & _ & _ & Wp) L P E w. unfold b_calculate_results in E.
  apply bind_ok in E. destruct E as (ms & E1 & E). apply bind_ok in E. destruct E as (f & E2 & E). apply bind_ok in E. destruct E as (u & E3 & E).
  apply bind_ok in E. destruct E as (mm & E4 & E). apply bind_ok in E. destruct E as (p & E5 & E). apply bind_ok in E. destruct E as (mf & E6 & E).
  destruct (bp_fluid (bi_pressure inp)) as [p'|] eqn:Ep; [|discriminate]. injection E5 as ->.
  unfold l_calculate_results. rewrite E1, E2, E3. cbn [bind]. rewrite (fst_lbind _ _ (ms, f)) by reflexivity. cbn [fst snd].
  rewrite E4, Ep. cbn [bind]. rewrite (fst_lbind _ _ (mm, p)) by reflexivity. cbn [quiet fst snd app].
  rewrite (fst_lbind _ _ mf) by (rewrite erase_mixture; exact E6). cbn [quiet fst]. rewrite app_nil_r, in_app_iff.
  unfold b_as_mixture in E6. apply bind_ok in E6. destruct E6 as (mats & E6 & _).
  unfold l_as_mixture. rewrite (fst_lbind _ _ mats) by (rewrite erase_materials; exact E6). cbn [quiet fst]. rewrite app_nil_r.
  destruct (completed_constituents _ _ _ L E2) as (T & M & K). fold kept in K.
  change (map kept (bf_constituents f) = map kept (bf_constituents (bi_fluids inp))) in K. rewrite T, M in *.
  assert (Wf : Forall (fun c => wf_fluid n (bc_material c)) (bf_constituents f)).
  { apply Forall_forall. intros c Hc. apply In_nth_error in Hc. destruct Hc as (j & Hj). destruct (kept_nth _ _ K j c Hj) as (c' & Hj' & Q).
    injection Q as Q _. rewrite Q. rewrite Forall_forall in Wc. apply (Wc c'). eapply nth_error_In, Hj'. }
  assert (Wp' : wfa n p) by (destruct Wp as (_ & _ & Wp & _); rewrite Ep in Wp; exact Wp).
  rewrite (materials_log co2 n Hn _ _ Wt _ p mats Wf Wp' (fun i Hi => P i p Hi eq_refl) E6 w).
  apply or_iff_compat_l. split.
  - intros (i & j & c & Hi & J & D). destruct (kept_nth _ _ K j c J) as (c' & J' & Q). injection Q as Q1 Q2.
    exists i, j, c', p. split; [exact Hi|]. split; [exact J'|]. split; [reflexivity|]. rewrite <- (kept_before _ _ K), <- Q1.
    unfold model_of in *. rewrite <- Q2. exact D.
  - intros (i & j & c & q & Hi & J & Eq & D). injection Eq as <-. destruct (kept_nth _ _ (eq_sym K) j c J) as (c' & J' & Q). injection Q as Q1 Q2.
    exists i, j, c'. split; [exact Hi|]. split; [exact J'|]. rewrite (kept_before _ _ K), <- Q1.
    unfold model_of in *. rewrite <- Q2. exact D.
Qed.

(** Two of a kind. *)
Lemma filter_two : forall {A} (f : A -> bool) l, (1 < length (filter f l))%nat <->
  exists i j a b, (i < j)%nat /\ nth_error l i = Some a /\ nth_error l j = Some b /\ f a = true /\ f b = true.
Proof.
  intros A f l.
  assert (O : forall l : list A, (0 < length (filter f l))%nat <-> exists i a, nth_error l i = Some a /\ f a = true).
  { clear l. induction l as [|x l IH]; cbn [filter].
    - cbn. split; [lia|]. intros ([|i] & a & H & _); discriminate.
    - destruct (f x) eqn:F; cbn [length].
      + split; [|lia]. intros _. exists 0%nat, x. auto.
      + rewrite IH. split; [intros (i & a & H); exists (S i), a; exact H|]. intros ([|i] & a & H & G); cbn in H; [congruence|eauto]. }
  induction l as [|x l IH]; cbn [filter].
  - cbn. split; [lia|]. intros ([|i] & j & a & b & _ & H & _); discriminate.
  - destruct (f x) eqn:F; cbn [length].
    + split.
      * intros H. assert (H' : (0 < length (filter f l))%nat) by lia. apply O in H'. destruct H' as (j & b & H1 & H2).
        exists 0%nat, (S j), x, b. repeat split; auto; lia.
      * intros (i & j & a & b & I & _ & H & _ & G). destruct j as [|j]; [lia|]. cbn in H.
        assert (H' : (0 < length (filter f l))%nat) by (apply O; eauto). lia.
    + rewrite IH. split.
      * intros (i & j & a & b & I & H). exists (S i), (S j), a, b. split; [lia|exact H].
      * intros ([|i] & [|j] & a & b & I & H1 & H2 & G1 & G2); try lia; cbn in H1, H2; [congruence|]. exists i, j, a, b. repeat split; auto; lia.
Qed.
Lemma duplicates_spec : forall l w, In w (duplicate_adjustments l) <->
  (w = PressureDependencies /\ exists i j a b, (i < j)%nat /\ nth_error l i = Some (BPressureDependency a) /\ nth_error l j = Some (BPressureDependency b)) \/
  (w = DepthTrends /\ exists i j a b, (i < j)%nat /\ nth_error l i = Some (BDepthTrend a) /\ nth_error l j = Some (BDepthTrend b)).
Proof.
  intros l w. unfold duplicate_adjustments. rewrite in_app_iff.
  assert (A : forall f v, In w (if (1 <? length (filter f l))%nat then [v] else []) <-> w = v /\ (1 < length (filter f l))%nat).
  { intros f v. destruct (Nat.ltb_spec 1 (length (filter f l))); cbn; [|split; [tauto|intros []; lia]]. split; [intros [->|[]]; auto|intros [-> _]; auto]. }
  rewrite !A, !filter_two. apply Morphisms_Prop.or_iff_morphism.
  - apply and_iff_compat_l. split.
    + intros (i & j & [a|a] & [b|b] & I & H1 & H2 & G1 & G2); try discriminate. exists i, j, a, b. auto.
    + intros (i & j & a & b & I & H1 & H2). exists i, j, (BPressureDependency a), (BPressureDependency b). auto.
  - apply and_iff_compat_l. split.
    + intros (i & j & [a|a] & [b|b] & I & H1 & H2 & G1 & G2); try discriminate. exists i, j, a, b. auto.
    + intros (i & j & a & b & I & H1 & H2). exists i, j, (BDepthTrend a), (BDepthTrend b). auto.
Qed.

(** A table and its rows. *)
Lemma obs_duplicates : forall i l, duplicate_adjustments (map (obs_adjustment true i) l) = duplicate_adjustments l.
Proof.
  intros i l.
  assert (A : forall f, (forall a, f (obs_adjustment true i a) = f a) -> length (filter f (map (obs_adjustment true i) l)) = length (filter f l)).
  { intros f H. induction l as [|a l' IH]; [reflexivity|]. cbn [map filter]. rewrite H. destruct (f a); cbn [length]; rewrite IH; reflexivity. }
  unfold duplicate_adjustments. rewrite !A by (intros []; reflexivity). reflexivity.
Qed.
Lemma obs_before : forall i cs j, carbon_dioxide_before j (map (obs_constituent true i) cs) = carbon_dioxide_before j cs.
Proof. intros i. induction cs as [|c cs IH]; intros [|j]; try reflexivity. cbn [map carbon_dioxide_before]. rewrite IH. destruct c as [[] ? ?]; reflexivity. Qed.
Lemma obs_pick_fluid0 : forall n i f, wf_fluid n f -> (i < n)%nat -> pick_fluid 0 (obs_fluid true i f) = pick_fluid i f.
Proof.
  intros n i f W Hi. destruct f; cbn [obs_fluid pick_fluid] in *; cbn in W; try reflexivity.
  - unfold pick_mat, obs_mat. destruct W as (W1 & W2 & W3 & W4 & W5). cbn [b_bulk b_shear b_dens b_vp b_vs]. rewrite !(obs_true_pick n) by assumption. reflexivity.
  - destruct W as (W1 & W2 & W3). rewrite !(obs_true_pick n) by assumption. reflexivity.
  - rewrite !(obs_true_pick n) by assumption. reflexivity.
  - rewrite !(obs_true_pick n) by assumption. reflexivity.
  - destruct W as (W1 & W2 & W3). rewrite !(obs_true_pick n) by assumption. reflexivity.
Qed.

Lemma rows_log : forall co2 n inp out, (0 < n)%nat -> wf_input n inp ->
  length (bi_fluid_fractions inp) = length (bf_constituents (bi_fluids inp)) ->
  (forall i p, (i < n)%nat -> bp_fluid (bi_pressure inp) = Some p -> 0 <= pick i p) ->
  b_calculate_results co2 inp = Ok out ->
  forall w, In w (fst (l_calculate_results co2 inp)) <->
    exists i, (i < n)%nat /\ In w (fst (l_calculate_results co2 (obs_input true i inp))).
Proof.
  intros co2 n inp out Hn W L P E w.
  assert (R : forall i, (i < n)%nat -> exists out', b_calculate_results co2 (obs_input true i inp) = Ok out').
  { intros i Hi. pose proof (batch_forward co2 n inp Hn W) as F. unfold b_results in F at 1. rewrite E in F. cbn [bind] in F.
    destruct F as [_ F]. destruct (F i Hi) as (r & _ & B). unfold b_results in B. apply bind_ok in B. destruct B as (o & B & _). eauto. }
  assert (Q : forall i, (i < n)%nat -> In w (fst (l_calculate_results co2 (obs_input true i inp))) <->
    In w (duplicate_adjustments (bdr_adjustments (bi_dry_rock inp))) \/
    exists j c p, nth_error (bf_constituents (bi_fluids inp)) j = Some c /\ bp_fluid (bi_pressure inp) = Some p /\
      deserves (model_of (bf_fluid_model (bi_fluids inp)) c) (pick_fluid i (bc_material c)) (pick i (bf_temperature (bi_fluids inp)))
        (pick i p / (10 ^ 6) ^ carbon_dioxide_before j (bf_constituents (bi_fluids inp))) w).
  { intros i Hi. destruct (R i Hi) as (o & Eo). destruct W as (W0 & (Wt & Wc) & W2 & W3 & W4).
    assert (Wp : forall p, bp_fluid (bi_pressure inp) = Some p -> wfa n p) by (destruct W4 as (_ & _ & H & _); intros p Ep; rewrite Ep in H; exact H).
    rewrite (results_log co2 1 _ o ltac:(lia) (AppProofs.obs_wf_input n i Hi inp (conj W0 (conj (conj Wt Wc) (conj W2 (conj W3 W4))))) ).
    - unfold obs_input. cbn [bi_dry_rock bi_fluids bi_pressure obs_dry_rock bdr_adjustments obs_fluids bf_constituents bf_temperature bf_fluid_model obs_pressure bp_fluid].
      rewrite obs_duplicates. apply or_iff_compat_l. split.
      + intros (k & j & c & p & Hk & J & Ep & D). assert (k = 0%nat) by lia. subst k. rewrite nth_error_map in J.
        destruct (nth_error (bf_constituents (bi_fluids inp)) j) as [c'|] eqn:J'; [|discriminate]. injection J as <-.
        unfold obs_option in Ep. destruct (bp_fluid (bi_pressure inp)) as [p'|] eqn:Ep'; [|discriminate]. injection Ep as <-.
        exists j, c', p'. split; [exact J'|]. split; [reflexivity|].
        rewrite Forall_forall in Wc. destruct (Wc c' (nth_error_In _ _ J')) as [Wm _].
        rewrite obs_before in D. rewrite !(obs_true_pick n) in D by auto.
        cbn [obs_constituent bc_material] in D. rewrite (obs_pick_fluid0 n) in D by assumption. exact D.
      + intros (j & c & p & J & Ep & D). exists 0%nat, j, (obs_constituent true i c), (obs true i p). split; [lia|].
        rewrite nth_error_map, J. split; [reflexivity|]. unfold obs_option. rewrite Ep. split; [reflexivity|].
        rewrite Forall_forall in Wc. destruct (Wc c (nth_error_In _ _ J)) as [Wm _].
        rewrite obs_before. rewrite !(obs_true_pick n) by auto.
        cbn [obs_constituent bc_material]. rewrite (obs_pick_fluid0 n) by assumption. exact D.
    - unfold obs_input. cbn [bi_fluid_fractions bi_fluids obs_fluids bf_constituents]. rewrite !map_length. exact L.
    - intros k p Hk Ep. assert (k = 0%nat) by lia. subst k. unfold obs_input in Ep. cbn [bi_pressure obs_pressure bp_fluid] in Ep.
      unfold obs_option in Ep. destruct (bp_fluid (bi_pressure inp)) as [p'|] eqn:Ep'; [|discriminate]. injection Ep as <-.
      rewrite (obs_true_pick n) by auto. apply (P i p' Hi eq_refl).
    - exact Eo. }
  rewrite (results_log co2 n inp out Hn W L P E). split.
  - intros [D|(i & j & c & p & Hi & D)].
    + exists 0%nat. split; [exact Hn|]. apply Q; auto.
    + exists i. split; [exact Hi|]. apply Q; [exact Hi|]. right. eauto.
  - intros (i & Hi & D). apply Q in D; [|exact Hi]. destruct D as [D|(j & c & p & D)]; [left; exact D|]. right. exists i, j, c, p. tauto.
Qed.
