(** Lemmas about whole-table calculations: fluids, dry rock, the whole run. *)
From Coq Require Import String List ZArith.
From Verif Require Import Base BaseProofs MaterialModel Spec MaterialProofs HashinShtrikmanModel MineralsModel
  FluidModel SandstoneModel ConfigModel BatzleWangModel BatzleWangProofs FluidsModel RowModel RowSpec RowProofs.
Import ListNotations.
Open Scope R_scope.

(** ** Rebuilding materials *)
Lemma rebuilds_moduli : forall b mu d m, mat_of_moduli b mu d = Ok m -> rebuilds m.
Proof. intros b mu d m H. exact (moduli_to_velocities_back b mu d m H). Qed.

Lemma rebuilds_velocities : forall d p s m, mat_of_velocities d p s = Ok m -> rebuilds m.
Proof.
  intros d p s m H. unfold rebuilds.
  destruct (mk_material_keeps _ _ _ _ _ _ H) as [_ [_ [Kd [Ks Kp]]]].
  rewrite (Kd d eq_refl), (Ks s eq_refl), (Kp p eq_refl). exact H.
Qed.

Lemma rebuilds_fluid : forall d p m, fluid_of_velocity d p = Ok m -> rebuilds m.
Proof.
  intros d p m H. apply fluid_of_velocity_inv in H. destruct H as (A & B & M & V).
  apply (rebuilds_moduli (p ^ 2 * d) 0 d). pose proof (pow2_ge_0 p) as S.
  pose proof M as (M1 & M2 & M3 & M4 & M5 & M6 & M7).
  apply mat_of_moduli_eq_ok; try assumption. unfold wf. rewrite M1, M2, M3.
  repeat split; try assumption; try lra. apply Rmult_le_pos; lra.
Qed.

Lemma rebuilds_oil : forall t p r rg g m, oil t p r rg g = Ok m -> rebuilds m.
Proof. intros t p r rg g m H. unfold oil in H. ok_inv H. eapply rebuilds_fluid, H. Qed.
Lemma rebuilds_gas : forall t p g m, gas t p g = Ok m -> rebuilds m.
Proof. intros t p g m H. unfold gas in H. ok_inv H. eapply rebuilds_moduli, H. Qed.
Lemma rebuilds_brine : forall t p s m, brine t p s = Ok m -> rebuilds m.
Proof. intros t p s m H. unfold brine in H. ok_inv H. eapply rebuilds_fluid, H. Qed.

Lemma rebuilds_fit : forall c x m, fit_material c x = Ok m -> rebuilds m.
Proof.
  intros c [[[d p] s] v] m H. unfold fit_material in H. ok_inv H.
  destruct (uses_moduli c); [eapply rebuilds_moduli, H|eapply rebuilds_velocities, H].
Qed.

#[global] Instance batch_fluids : Batch bfluids := {| sized := wf_fluids; at_row := obs_fluids |}.
#[global] Instance batch_output : Batch boutput := {| sized := wf_output; at_row := obs_output |}.

Section Rows.
Context (k sh : bool) (n : nat) (Hn : (0 < n)%nat).
Notation agree_ r rs := (agree k sh n r rs).
Notation o i := (obs k i).
Notation om i := (obs_mat k i).

Lemma row_eos : forall co2 t p b, wfa n t -> wfa n p ->
  agree_ (b_eos co2 t p b) (fun i => b_eos co2 (o i t) (o i p) b).
Proof.
  intros co2 t p b Ht Hp. unfold b_eos. bnd; [use (@agree_amap k sh n)|].
  eapply agree_ok; [apply wf_unpack; assumption|]. intros i Hi. cbn [at_row batch_mat batch_arr]. symmetry. apply row_unpack.
Qed.

Lemma row_fluid_as_material : forall co2 pr f t p, wf_fluid n f -> wfa n t -> wfa n p ->
  agree_ (b_fluid_as_material co2 pr f t p) (fun i => b_fluid_as_material co2 pr (obs_fluid k i f) (o i t) (o i p)).
Proof.
  intros co2 pr f t p Hf Ht Hp.
  assert (R : forall X (g : X -> res material) a, (forall x m, g x = Ok m -> rebuilds m) -> wfa n a ->
    agree_ (let* m := vectorize_material g a in Ok (m, p)) (fun i => let* m := vectorize_material g (o i a) in Ok (m, o i p))).
  { intros X g a Hg Ha. bnd; [apply row_vectorize; assumption|]. eapply agree_ok.
    - split; cbn [fst snd]; [cbn [sized batch_mat]; wf_tac|exact Hp].
    - intros i Hi. reflexivity. }
  destruct f as [m|r rg g|g|s|r rg g|b], pr; cbn [wf_fluid] in Hf; cbn [b_fluid_as_material obs_fluid];
    try (apply agree_err, Hn).
  - apply agree_ok; [split; assumption|reflexivity].
  - apply agree_ok; [split; assumption|reflexivity].
  - destruct Hf as [? [? ?]]. eapply agree_ext; [eapply R; [|wf_tac]|].
    + intros x m. apply rebuilds_oil.
    + intros i Hi. obs_push.
  - eapply agree_ext; [eapply R; [|wf_tac]|].
    + intros x m. apply rebuilds_gas.
    + intros i Hi. obs_push.
  - eapply agree_ext; [eapply R; [|wf_tac]|].
    + intros x m. apply rebuilds_brine.
    + intros i Hi. obs_push.
  - bnd; [use row_eos|]. eapply agree_ok.
    + split; cbn [fst snd]; cbn [sized batch_mat batch_arr]; wf_tac.
    + intros i Hi. obs_push.
Qed.

Lemma row_as_materials : forall co2 pr cs t p, Forall (wf_constituent n) cs -> wfa n t -> wfa n p ->
  agree_ (b_as_materials co2 pr t p cs) (fun i => b_as_materials co2 pr (o i t) (o i p) (map (obs_constituent k i) cs)).
Proof.
  intros co2 pr cs t p H Ht. revert p. induction H as [|c cs [Hm Hc] H IH]; intros p Hp; cbn [b_as_materials map].
  - apply agree_ok; [constructor|reflexivity].
  - cbn [obs_constituent bc_material bc_fluid_model].
    eapply agree_bind; [apply row_fluid_as_material; assumption|]. intros [m p'] [W1 W2]. cbv beta.
    cbn [fst snd at_row batch_prod batch_arr batch_mat] in *.
    eapply agree_bind; [apply IH; exact W2|]. intros ms Wms. cbv beta.
    apply agree_ok; [constructor; assumption|reflexivity].
Qed.

Lemma pop_nat_map : forall {A B} (f : A -> B) i l,
  pop_nat i (map f l) = (let* r := pop_nat i l in Ok (f (fst r), map f (snd r))).
Proof.
  intros A B f i l. revert i. induction l as [|x l IH]; intros [|i]; cbn; try reflexivity.
  rewrite IH. destruct (pop_nat i l); reflexivity.
Qed.
Lemma py_pop_map : forall {A B} (f : A -> B) i l,
  py_pop i (map f l) = (let* r := py_pop i l in Ok (f (fst r), map f (snd r))).
Proof.
  intros A B f i l. unfold py_pop. rewrite map_length. destruct (i <? 0)%Z; [|apply pop_nat_map].
  destruct (i + Z.of_nat (length l) <? 0)%Z; [reflexivity|apply pop_nat_map].
Qed.
Lemma pop_all_map : forall {A B} (f : A -> B) idx l,
  pop_all idx (map f l) = (let* r := pop_all idx l in Ok (map f (fst r), map f (snd r))).
Proof.
  intros A B f idx. induction idx as [|i idx IH]; intros l; cbn [pop_all]; [reflexivity|].
  rewrite py_pop_map. destruct (py_pop i l) as [r|]; cbn [bind]; [|reflexivity]. cbn [fst snd].
  rewrite IH. destruct (pop_all idx (snd r)); reflexivity.
Qed.

Lemma pop_nat_forall : forall {A} (P : A -> Prop) i l r, Forall P l -> pop_nat i l = Ok r -> P (fst r) /\ Forall P (snd r).
Proof.
  intros A P i l. revert i. induction l as [|x l IH]; intros [|i] r H E; cbn in E; try discriminate.
  - injection E as <-. inversion H; subst. split; assumption.
  - destruct (pop_nat i l) as [r'|] eqn:F; cbn [bind] in E; [|discriminate]. injection E as <-.
    inversion H; subst. destruct (IH i r' ltac:(assumption) F). split; [assumption|constructor; assumption].
Qed.
Lemma pop_all_forall : forall {A} (P : A -> Prop) idx l r, Forall P l -> pop_all idx l = Ok r -> Forall P (fst r) /\ Forall P (snd r).
Proof.
  intros A P idx. induction idx as [|i idx IH]; intros l r H E; cbn [pop_all] in E.
  - injection E as <-. split; [constructor|exact H].
  - destruct (py_pop i l) as [r1|] eqn:F; cbn [bind] in E; [|discriminate].
    destruct (pop_all idx (snd r1)) as [r2|] eqn:G; cbn [bind] in E; [|discriminate]. injection E as <-.
    assert (P (fst r1) /\ Forall P (snd r1)) as [P1 P2].
    { unfold py_pop in F. destruct (i <? 0)%Z; [destruct (_ <? 0)%Z; [discriminate|]|];
        eapply pop_nat_forall; eassumption. }
    destruct (IH _ _ P2 G). split; [constructor; assumption|assumption].
Qed.

Lemma row_pop_all : forall {A} `{Batch A} idx (l : list A), Forall (sized n) l ->
  agree_ (pop_all idx l) (fun i => pop_all idx (map (at_row k i) l)).
Proof.
  intros A HA idx l H. eapply agree_ext; [|intros i Hi; symmetry; apply pop_all_map].
  destruct (pop_all idx l) as [r|e] eqn:E; cbn [bind].
  - destruct (pop_all_forall _ _ _ _ H E). split; [split; assumption|reflexivity].
  - apply agree_err, Hn.
Qed.

Lemma row_as_mixture : forall co2 f p, wf_fluids n f -> wfa n p ->
  agree_ (b_as_mixture co2 f p) (fun i => b_as_mixture co2 (obs_fluids k i f) (o i p)).
Proof.
  intros co2 f p [Ht Hc] Hp. unfold b_as_mixture.
  cbn [obs_fluids bf_fluid_model bf_temperature bf_constituents bf_mix_method bf_brie_constant bf_brie_gases].
  eapply agree_bind; [apply row_as_materials; assumption|]. intros ms Wms. cbv beta.
  cbn [at_row batch_list batch_mat].
  assert (F : forall i, map bc_fraction (map (obs_constituent k i) (bf_constituents f)) = map (o i) (map bc_fraction (bf_constituents f))).
  { intros i. rewrite !map_map. reflexivity. }
  assert (Wf : Forall (wfa n) (map bc_fraction (bf_constituents f))).
  { rewrite Forall_forall in *. intros x Hx. apply in_map_iff in Hx. destruct Hx as [c [<- Hx]]. apply (Hc c Hx). }
  eapply agree_ext; [|intros i Hi; rewrite F; reflexivity].
  revert Wf. generalize (map bc_fraction (bf_constituents f)). intros fr Wf.
  destruct (bf_mix_method f).
  - apply row_wood; assumption.
  - eapply agree_bind; [exact (row_pop_all (A := bmat) _ ms Wms)|]. intros [g1 g2] [W1 W2]. cbv beta.
    eapply agree_bind; [exact (row_pop_all (A := arr R) _ fr Wf)|]. intros [s1 s2] [W3 W4]. cbv beta.
    cbn [fst snd at_row batch_prod batch_list] in *. apply row_brie; assumption.
Qed.

(** ** Pressure and dry rock *)
Lemma row_clip : forall x m i, o i (b_clip_above x m) = b_clip_above (o i x) (obs_option k i m).
Proof. intros x [m|] i; cbn [b_clip_above obs_option option_map]; [|reflexivity]. rewrite obs_pmap, obs_zip. reflexivity. Qed.
Lemma wf_clip : forall x m, wfa n x -> wfo n m -> wfa n (b_clip_above x m).
Proof. intros x [m|] Hx Hm; cbn [b_clip_above wfo] in *; [wf_tac|exact Hx]. Qed.

Lemma row_truncated_reference : forall p i, o i (b_truncated_reference p) = b_truncated_reference (obs_pressure k i p).
Proof. intros p i. unfold b_truncated_reference. rewrite row_clip, obs_pmap, obs_zip. reflexivity. Qed.
Lemma wf_truncated_reference : forall p, wf_pressure n p -> wfa n (b_truncated_reference p).
Proof. intros p [H1 [H2 [_ [H3 _]]]]. apply wf_clip; [wf_tac|exact H3]. Qed.

Lemma row_truncated_rock : forall p, wf_pressure n p ->
  agree_ (b_truncated_rock p) (fun i => b_truncated_rock (obs_pressure k i p)).
Proof.
  intros p [H1 [H2 [H3 [H4 H5]]]]. unfold b_truncated_rock. cbn [obs_pressure bp_rock].
  destruct (bp_rock p) as [f|]; cbn [obs_option option_map wfo] in *.
  - eapply agree_ok; [cbn [sized batch_arr]; apply wf_clip; [wf_tac|exact H4]|].
    intros i Hi. cbn [at_row batch_arr obs_pressure bp_overburden bp_max_effective]. rewrite row_clip, obs_pmap, obs_zip. reflexivity.
  - apply agree_err, Hn.
Qed.

Lemma row_polyval : forall v m c, wfa n v -> wfm n m ->
  agree_ (b_polyval_material v m c) (fun i => b_polyval_material (o i v) (om i m) c).
Proof.
  intros v m c Hv Hm. wf_split. unfold b_polyval_material.
  destruct (uses_moduli c).
  - eapply agree_ext; [eapply row_vectorize; [exact Hn|apply rebuilds_fit|wf_tac]|]. intros i Hi. obs_push.
  - eapply agree_ext; [eapply row_vectorize; [exact Hn|apply rebuilds_fit|wf_tac]|]. intros i Hi. obs_push.
Qed.

Lemma row_friable_material : forall f p phi m, wf_friable n f -> wfa n p -> wfa n phi -> wfm n m ->
  agree_ (b_friable_material f p phi m) (fun i => b_friable_material (obs_friable k i f) (o i p) (o i phi) (om i m)).
Proof. intros f p phi m [? [? ?]] Hp Hphi Hm. unfold b_friable_material. use row_friable_sand. Qed.

Lemma row_patchy_material : forall q p phi m, wf_patchy n q -> wfa n p -> wfa n phi -> wfm n m ->
  sh = true \/ is_vec phi = true ->
  agree_ (b_patchy_material q p phi m) (fun i => b_patchy_material (obs_patchy k i q) (o i p) (o i phi) (om i m)).
Proof.
  intros q p phi m [? [? [? [? [? [? ?]]]]]] Hp Hphi Hm Hs. unfold b_patchy_material.
  cbn [obs_patchy bpa_cement bpa_critical bpa_cement_fraction bpa_lower_pressure bpa_upper_fraction bpa_coordination bpa_shear_reduction].
  eapply agree_ext; [eapply row_patchy_cement; wf_tac; exact Hs|intros ? ?; obs_push].
Qed.

Lemma row_stack : forall m, wfm n m -> sh = true \/ columns m -> agree_ (stack_moduli m) (fun i => stack_moduli (om i m)).
Proof.
  intros m Hm Hs. wf_split. unfold stack_moduli. cbn [obs_mat b_dens b_bulk b_shear]. bnd.
  - apply (agree_shape k sh n
      (negb (Bool.eqb (is_vec (b_dens m)) (is_vec (b_bulk m)) && Bool.eqb (is_vec (b_bulk m)) (is_vec (b_shear m)))%bool)
      (fun i => negb (Bool.eqb (is_vec (o i (b_dens m))) (is_vec (o i (b_bulk m))) &&
                 Bool.eqb (is_vec (o i (b_bulk m))) (is_vec (o i (b_shear m))))%bool) Hn).
    + intros K i Hi. rewrite !(fun A (x : arr A) => shape_same k x i K). reflexivity.
    + intros K i Hi. rewrite !(fun A (x : arr A) => shape_const k n x i K Hi) by assumption. reflexivity.
    + intros _. destruct Hs as [Hs|[-> [-> ->]]]; [left; exact Hs|right; reflexivity].
  - eapply agree_ok; [cbn [sized batch_arr]; wf_tac|]. intros i Hi. obs_push.
Qed.

Lemma row_no_rows : forall {A} (a : arr A), wfa n a -> agree_ (guard (no_rows a) ShapeError) (fun i => guard (no_rows (o i a)) ShapeError).
Proof.
  intros A [x|l] W; cbn [no_rows obs guard]; [apply agree_ok; [exact I|reflexivity]|].
  destruct l as [|x l]; [cbn in W; lia|]. cbn [guard]. split; [exact I|]. intros i Hi.
  destruct (nth_error (x :: l) i) eqn:E; [destruct k; reflexivity|]. apply nth_error_None in E. cbn in W. cbn in E. lia.
Qed.

Lemma row_eval_model : forall md p phi m, wf_dependency n md -> wfa n p -> wfa n phi -> wfm n m ->
  sh = true \/ combinable_dependency phi md ->
  agree_ (b_eval_model md p phi m) (fun i => b_eval_model (obs_dependency k i md) (o i p) (o i phi) (om i m)).
Proof.
  assert (C : forall (r : res (list R * list R * list R)) (g : list R * list R * list R -> res (arr (R * R * R))) gs,
    (forall rows, r = Ok rows -> agree_ (g rows) (fun i => gs i rows)) ->
    agree_ (bind r g) (fun i => bind r (gs i))).
  { intros [rows|e] g gs H; cbn [bind]; [apply H; reflexivity|apply agree_err, Hn]. }
  intros md p phi m Hd Hp Hphi Hm Hs.
  destruct md as [c|c|c|d b v|f|q]; cbn [b_eval_model obs_dependency wf_dependency combinable_dependency] in *.
  - apply (C _ (fun rows => amap (fun p0 => three (polyfit_row p0) rows) p) (fun i rows => amap (fun p0 => three (polyfit_row p0) rows) (o i p))).
    intros rows _. use (@agree_amap k sh n).
  - apply (C _ (fun rows => let* _ := guard (no_rows p) ShapeError in amap (fun p0 => three (expfit_row p0) rows) p)
             (fun i rows => let* _ := guard (no_rows (o i p)) ShapeError in amap (fun p0 => three (expfit_row p0) rows) (o i p))).
    intros rows _. bnd; [use @row_no_rows|use (@agree_amap k sh n)].
  - apply (C _ (fun rows => let* _ := guard (no_rows p) ShapeError in amap (fun p0 => three (logfit_row p0) rows) p)
             (fun i rows => let* _ := guard (no_rows (o i p)) ShapeError in amap (fun p0 => three (logfit_row p0) rows) (o i p))).
    intros rows _. bnd; [use @row_no_rows|use (@agree_amap k sh n)].
  - apply (C _ (fun rows => let* _ := guard (no_rows p) ShapeError in amap (fun p0 => three (powerfit_row p0) rows) p)
             (fun i rows => let* _ := guard (no_rows (o i p)) ShapeError in amap (fun p0 => three (powerfit_row p0) rows) (o i p))).
    intros rows _. bnd; [use @row_no_rows|use (@agree_amap k sh n)].
  - eapply agree_bind_eq; [apply row_friable_material; assumption|]. intros r E W. cbv beta. apply row_stack; [exact W|].
    destruct Hs as [Hs|Hs]; [left; exact Hs|right]. eapply friable_columns; [exact E|exact Hs].
  - eapply agree_bind_eq; [apply row_patchy_material; assumption|]. intros r E W. cbv beta. apply row_stack; [exact W|].
    destruct Hs as [Hs|Hs]; [left; exact Hs|right]. eapply patchy_columns; [exact E|exact Hs].
Qed.

Lemma uses_obs : forall md i, b_model_uses_moduli (obs_dependency k i md) = b_model_uses_moduli md.
Proof. intros [c|c|c|d b v|f|q] i; reflexivity. Qed.

Lemma row_generic : forall md m p rp phi mn, wf_dependency n md -> wfm n m -> wfa n p -> wfa n rp -> wfa n phi -> wfm n mn ->
  sh = true \/ combinable_dependency phi md ->
  agree_ (b_generic_dependency md m p rp phi mn)
    (fun i => b_generic_dependency (obs_dependency k i md) (om i m) (o i p) (o i rp) (o i phi) (om i mn)).
Proof.
  intros md m p rp phi mn Hd Hm Hp Hrp Hphi Hmn Hs. unfold b_generic_dependency.
  eapply agree_bind; [apply row_eval_model; assumption|]. intros ref Wref. cbv beta.
  eapply agree_bind; [apply row_eval_model; assumption|]. intros eff Weff. cbv beta.
  cbn [sized batch_arr at_row] in *. bnd; [use (@agree_any k sh n)|].
  eapply agree_ext; [|intros i Hi; rewrite uses_obs; reflexivity].
  unfold times, factors. cbn [fst snd].
  destruct (b_model_uses_moduli md); [use row_bmat_of_moduli|use row_bmat_of_velocities].
Qed.

Lemma row_powerfit : forall md m p rp phi mn, wf_dependency n md -> wfm n m -> wfa n p -> wfa n rp -> wfa n phi -> wfm n mn ->
  sh = true \/ combinable_dependency phi md ->
  agree_ (b_powerfit_dependency md m p rp phi mn)
    (fun i => b_powerfit_dependency (obs_dependency k i md) (om i m) (o i p) (o i rp) (o i phi) (om i mn)).
Proof.
  intros md m p rp phi mn Hd Hm Hp Hrp Hphi Hmn Hs. unfold b_powerfit_dependency.
  eapply agree_bind; [apply row_eval_model; assumption|]. intros ref Wref. cbv beta.
  eapply agree_bind; [apply row_eval_model; assumption|]. intros eff Weff. cbv beta.
  cbn [sized batch_arr at_row] in *. unfold plus, differences. cbn [fst snd].
  bnd; [wf_split; use (@agree_amap k sh n)|]. bnd; [wf_split; use (@agree_any k sh n)|]. use row_bmat_of_moduli.
Qed.

Lemma row_pressure_dependency : forall md m p rp phi mn, wf_dependency n md -> wfm n m -> wfa n p -> wfa n rp -> wfa n phi -> wfm n mn ->
  sh = true \/ combinable_dependency phi md ->
  agree_ (b_pressure_dependency md m p rp phi mn)
    (fun i => b_pressure_dependency (obs_dependency k i md) (om i m) (o i p) (o i rp) (o i phi) (om i mn)).
Proof.
  intros md m p rp phi mn Hd Hm Hp Hrp Hphi Hmn Hs.
  destruct md as [c|c|c|d b v|f|q]; cbn [b_pressure_dependency obs_dependency].
  - exact (row_generic (BPolyfit c) m p rp phi mn Hd Hm Hp Hrp Hphi Hmn Hs).
  - exact (row_generic (BExpfit c) m p rp phi mn Hd Hm Hp Hrp Hphi Hmn Hs).
  - exact (row_generic (BLogfit c) m p rp phi mn Hd Hm Hp Hrp Hphi Hmn Hs).
  - exact (row_powerfit (BPowerfit d b v) m p rp phi mn Hd Hm Hp Hrp Hphi Hmn Hs).
  - exact (row_generic (BFriable f) m p rp phi mn Hd Hm Hp Hrp Hphi Hmn Hs).
  - exact (row_generic (BPatchy q) m p rp phi mn Hd Hm Hp Hrp Hphi Hmn Hs).
Qed.

Lemma row_effective_depth : forall t, wf_depth n t -> sh = true \/ combinable_depth t ->
  agree_ (b_effective_depth t) (fun i => b_effective_depth (obs_depth k i t)).
Proof.
  intros t [H1 [H2 H3]] Hs. unfold b_effective_depth. cbn [obs_depth bdt_reference bdt_depth]. unfold combinable_depth in Hs.
  destruct (bdt_reference t) as [r|]; cbn [obs_option option_map wfo] in *.
  - bnd.
    + apply (agree_shape k sh n (is_vec r && negb (is_vec (bdt_depth t)))%bool
               (fun i => is_vec (o i r) && negb (is_vec (o i (bdt_depth t))))%bool Hn).
      * intros K i Hi. rewrite !(fun A (x : arr A) => shape_same k x i K). reflexivity.
      * intros K i Hi. rewrite (shape_const k n r i K Hi H2). reflexivity.
      * intros _. destruct Hs as [Hs|Hs]; [left; exact Hs|right]. destruct r; cbn [is_vec andb]; [reflexivity|]. rewrite Hs. reflexivity.
    + eapply agree_ok; [cbn [sized batch_arr]; wf_tac|]. intros i Hi. obs_push.
  - apply agree_ok; [exact H1|reflexivity].
Qed.

Lemma row_adjust_pressure : forall md m p phi mn, wf_dependency n md -> wfm n m -> wf_pressure n p -> wfa n phi -> wfm n mn ->
  sh = true \/ combinable_dependency phi md ->
  agree_ (b_adjust_pressure md m p phi mn)
    (fun i => b_adjust_pressure (obs_dependency k i md) (om i m) (obs_pressure k i p) (o i phi) (om i mn)).
Proof.
  intros md m p phi mn Hd Hm Hp Hphi Hmn Hs. unfold b_adjust_pressure.
  eapply agree_bind; [apply row_truncated_rock; exact Hp|]. intros eff Weff. cbv beta.
  eapply agree_bind.
  - destruct Hp as [_ [_ [_ [_ H5]]]].
    destruct md as [c|c|c|d b v|f|q]; cbn [obs_dependency];
      try (apply agree_ok; [exact Weff|reflexivity]).
    cbn [obs_pressure bp_rock]. destruct (bp_rock p) as [x|]; cbn [obs_option option_map wfo] in *.
    + apply agree_ok; [exact H5|reflexivity].
    + apply agree_err, Hn.
  - intros eff' W'. cbv beta.
    eapply agree_ext; [eapply row_pressure_dependency; try eassumption|].
    + apply wf_truncated_reference. exact Hp.
    + intros i Hi. cbv beta. rewrite row_truncated_reference. reflexivity.
Qed.

Lemma row_adjust_one : forall a m p phi mn, wf_adjustment n a -> wfm n m -> wf_pressure n p -> wfa n phi -> wfm n mn ->
  sh = true \/ combinable_adjustment phi a ->
  agree_ (b_adjust_one a m p phi mn)
    (fun i => b_adjust_one (obs_adjustment k i a) (om i m) (obs_pressure k i p) (o i phi) (om i mn)).
Proof.
  intros [t|md] m p phi mn Ha Hm Hp Hphi Hmn Hs; cbn [b_adjust_one obs_adjustment wf_adjustment combinable_adjustment] in *.
  - eapply agree_bind; [apply row_effective_depth; assumption|]. intros d Wd. cbv beta.
    apply row_polyval; assumption.
  - apply row_adjust_pressure; assumption.
Qed.

Lemma row_adjust_material : forall l m p phi mn, Forall (wf_adjustment n) l -> wfm n m -> wf_pressure n p -> wfa n phi -> wfm n mn ->
  sh = true \/ Forall (combinable_adjustment phi) l ->
  agree_ (b_adjust_material l m p phi mn)
    (fun i => b_adjust_material (map (obs_adjustment k i) l) (om i m) (obs_pressure k i p) (o i phi) (om i mn)).
Proof.
  intros l m p phi mn Hl. revert m. induction Hl as [|a l Ha Hl IH]; intros m Hm Hp Hphi Hmn Hs; cbn [b_adjust_material map].
  - apply agree_ok; [exact Hm|reflexivity].
  - assert (sh = true \/ combinable_adjustment phi a /\ Forall (combinable_adjustment phi) l) as Hs'.
    { destruct Hs as [Hs|Hs]; [left; exact Hs|right]. inversion Hs; subst. split; assumption. }
    eapply agree_bind; [apply row_adjust_one; try assumption; tauto|]. intros m' Wm'. cbv beta.
    apply IH; try assumption. tauto.
Qed.

Lemma row_dry_rock_material : forall d mn p, wf_dry_rock n d -> wfm n mn -> wf_pressure n p ->
  sh = true \/ (combinable_rock (bdr_porosity d) (bdr_model d) /\
                Forall (combinable_adjustment (bdr_porosity d)) (bdr_adjustments d)) ->
  agree_ (b_dry_rock_material d mn p) (fun i => b_dry_rock_material (obs_dry_rock k i d) (om i mn) (obs_pressure k i p)).
Proof.
  intros d mn p [H1 [H2 H3]] Hmn Hp Hs. unfold b_dry_rock_material.
  eapply agree_bind; [apply row_truncated_rock; exact Hp|]. intros eff Weff. cbv beta.
  eapply agree_bind.
  - unfold b_material_from_model. cbn [obs_dry_rock bdr_model bdr_porosity].
    destruct (bdr_model d) as [c|f|q]; cbn [obs_rock_model wf_rock_model] in *.
    + apply row_polyval; assumption.
    + apply row_friable_material; assumption.
    + apply row_patchy_material; try assumption. cbn [combinable_rock] in Hs. tauto.
  - intros m Wm. cbv beta. cbn [obs_dry_rock bdr_adjustments bdr_porosity]. apply row_adjust_material; try assumption. tauto.
Qed.

Lemma row_nonporous : forall d mn, wf_dry_rock n d -> wfm n mn ->
  agree_ (b_nonporous d mn) (fun i => b_nonporous (obs_dry_rock k i d) (om i mn)).
Proof.
  intros d mn [H1 [H2 H3]] Hmn. unfold b_nonporous. cbn [obs_dry_rock bdr_model].
  destruct (bdr_model d) as [c|f|q]; cbn [obs_rock_model wf_rock_model] in *.
  - apply agree_ok; [exact Hmn|reflexivity].
  - apply agree_ok; [exact Hmn|reflexivity].
  - destruct H1 as [? [? [? [? [? [? ?]]]]]]. use row_walpole.
Qed.

Lemma row_check_dry_rock : forall d, wf_dry_rock n d ->
  agree_ (b_check_dry_rock d) (fun i => b_check_dry_rock (obs_dry_rock k i d)).
Proof.
  intros d [H1 [H2 H3]]. unfold b_check_dry_rock. cbn [obs_dry_rock bdr_model bdr_porosity].
  destruct (bdr_model d) as [c|f|q]; cbn [obs_rock_model wf_rock_model] in *.
  - apply agree_ok; [exact I|reflexivity].
  - destruct H1 as [? [? ?]]. use (@agree_any k sh n).
  - destruct H1 as [? [? [? [? [? [? ?]]]]]]. bnd; [use (@agree_any k sh n)|use (@agree_any k sh n)].
Qed.

Lemma row_complete_fluids : forall f fs, wf_fluids n f -> Forall (wfo n) fs ->
  agree_ (b_complete_fluids f fs) (fun i => b_complete_fluids (obs_fluids k i f) (map (obs_option k i) fs)).
Proof.
  intros f fs [Ht Hc] Hf. unfold b_complete_fluids.
  assert (O : forall i, map (obs_option k i) fs = map (at_row k i) fs).
  { intros i. apply map_ext. intros [a|]; reflexivity. }
  assert (W : Forall (sized n) fs) by exact Hf.
  eapply agree_ext; [|intros i Hi; rewrite O; reflexivity].
  bnd; [apply (row_each k sh n b_fraction_is_ratio fs); [intros a Ha; apply row_fraction_is_ratio; assumption|exact W]|].
  bnd; [apply (@agree_static k sh n Hn (arr R) _); intros i Hi; destruct fs; reflexivity|].
  bnd.
  - eapply agree_ext; [eapply (@agree_any k sh n); [exact Hn|apply wf_sum_given; exact W]|].
    intros i Hi. cbv beta. rewrite row_sum_given. reflexivity.
  - eapply agree_bind; [apply row_fix_one_fraction; [exact Hn|exact W]|]. intros fs' Wfs'. cbv beta.
    eapply agree_ok.
    + split; cbn [bf_temperature bf_constituents]; [exact Ht|].
      pose proof (forall_combine _ _ _ _ Hc Wfs') as F. rewrite Forall_forall in *.
      intros x Hx. apply in_map_iff in Hx. destruct Hx as [y [<- Hy]]. destruct (F y Hy) as [[F1 F2] F3]. split; assumption.
    + intros i Hi. cbn [at_row batch_fluids batch_list]. unfold obs_fluids.
      cbn [bf_fluid_model bf_temperature bf_constituents bf_mix_method bf_brie_constant bf_brie_gases].
      f_equal. rewrite combine_map2, !map_map. reflexivity.
Qed.

Lemma row_calculate : forall co2 inp, wf_input n inp -> sh = true \/ combinable inp ->
  agree_ (b_calculate_results co2 inp) (fun i => b_calculate_results co2 (obs_input k i inp)).
Proof.
  intros co2 inp (Hm & Hf & Hff & Hd & Hp) Hs. unfold b_calculate_results.
  cbn [obs_input bi_minerals bi_fluids bi_fluid_fractions bi_dry_rock bi_pressure].
  eapply agree_bind.
  { eapply agree_ext; [eapply row_minerals; [exact Hn|exact Hm]|].
    intros i Hi. cbv beta. reflexivity. }
  intros ms Wms. cbv beta.
  eapply agree_bind; [apply row_complete_fluids; assumption|]. intros fl Wfl. cbv beta.
  eapply agree_bind; [apply row_check_dry_rock; assumption|]. intros u _. cbv beta.
  eapply agree_bind; [apply row_minerals_as_mixture; [exact Hn|exact Wms]|]. intros mm Wmm. cbv beta.
  eapply agree_bind.
  { destruct Hp as [_ [_ [H3 _]]]. cbn [obs_pressure bp_fluid].
    destruct (bp_fluid (bi_pressure inp)) as [p|]; cbn [obs_option option_map wfo] in *.
    - apply agree_ok; [exact H3|reflexivity].
    - apply agree_err, Hn. }
  intros p Wp. cbv beta.
  eapply agree_bind; [apply row_as_mixture; assumption|]. intros mf Wmf. cbv beta.
  eapply agree_bind; [apply row_dry_rock_material; assumption|]. intros dr Wdr. cbv beta.
  eapply agree_bind; [apply row_nonporous; assumption|]. intros np Wnp. cbv beta.
  eapply agree_bind; [apply row_fluid_substitution; try assumption; apply Hd|]. intros sat Wsat. cbv beta.
  cbn [sized batch_mat] in *. destruct Wmm as [? _], Wdr as [? _], Wnp as [? _], Wsat as [? [? [? _]]].
  eapply agree_ok; [repeat split; assumption|]. intros i Hi. reflexivity.
Qed.
End Rows.
