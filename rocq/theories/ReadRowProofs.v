(** Lemmas: the Input object of one row is the row of the Input object of the table. *)
From Coq Require Import String List ZArith Lia.
From Verif Require Import Base BaseProofs MaterialModel ConfigModel FluidsModel InputModel InputSpec InputProofs
  RowModel RowSpec RowProofs RowConfigProofs RowScalarProofs ReadModel ReadSpec ReadProofs.
Import ListNotations.
Open Scope R_scope.

#[global] Instance batch_fluid_type : Batch bfluid_type := {| sized := wf_fluid; at_row := obs_fluid |}.
#[global] Instance batch_constituent : Batch bconstituent := {| sized := wf_constituent; at_row := obs_constituent |}.
#[global] Instance batch_patchy : Batch bpatchy_model := {| sized := wf_patchy; at_row := obs_patchy |}.
#[global] Instance batch_dependency : Batch bdependency_model := {| sized := wf_dependency; at_row := obs_dependency |}.
#[global] Instance batch_adjustment : Batch badjustment := {| sized := wf_adjustment; at_row := obs_adjustment |}.
#[global] Instance batch_rock_model : Batch brock_model := {| sized := wf_rock_model; at_row := obs_rock_model |}.
#[global] Instance batch_dry_rock : Batch bdry_rock := {| sized := wf_dry_rock; at_row := obs_dry_rock |}.
#[global] Instance batch_input : Batch binput := {| sized := wf_input; at_row := obs_input |}.
(** Values that are not per row. *)
Definition batch_constant A : Batch A := {| sized := fun _ _ => True; at_row := fun _ _ a => a |}.

Section Rows.
Context (kp sh : bool) (n : nat) (Hn : (0 < n)%nat).
Notation agree_ r rs := (agree kp sh n r rs).
Notation o i := (obs kp i).
Notation W := (Forall (@wfa n R)).

Lemma row_sequence : forall {A B} `{Batch B} (f : A -> res B) (g : nat -> A -> A) l,
  (forall a, In a l -> agree_ (f a) (fun i => f (g i a))) ->
  agree_ (sequence (map f l)) (fun i => sequence (map f (map (g i) l))).
Proof.
  intros A B HB f g l. induction l as [|a l IH]; intros H; cbn [map sequence].
  - apply agree_ok; [constructor|reflexivity].
  - eapply agree_bind; [apply H; left; reflexivity|]. intros b Wb. cbv beta.
    eapply agree_bind; [apply IH; intros x Hx; apply H; right; exact Hx|]. intros bs Wbs. cbv beta.
    apply agree_ok; [constructor; assumption|reflexivity].
Qed.

Lemma row_constant : forall {A} (r : res A), @agree A (batch_constant A) kp sh n r (fun _ => r).
Proof. intros A [a|e]; [apply (@agree_ok A (batch_constant A)); [exact I|reflexivity]|apply (@agree_err A (batch_constant A)), Hn]. Qed.

Lemma W_app : forall l l', W (l ++ l') <-> W l /\ W l'.
Proof. intros l l'. apply Forall_app. Qed.
Lemma W_opt : forall x : option (arr R), W (opt x) <-> wfo n x.
Proof. intros [x|]; cbn [opt wfo]; split; intros H; try exact I; try constructor; try constructor; try assumption. inversion H; assumption. Qed.
Lemma W_flat : forall {A} (f : A -> list (arr R)) l, W (flat_map f l) -> forall a, In a l -> W (f a).
Proof.
  intros A f l H a Ha. rewrite Forall_forall in *. intros x Hx. apply H. apply in_flat_map. exists a. split; assumption.
Qed.
Ltac vals := repeat match goal with
  | H : W (_ :: _) |- _ => let A := fresh in let B := fresh in apply Forall_cons_iff in H; destruct H as [A B]
  | H : W (_ ++ _) |- _ => let A := fresh in let B := fresh in apply W_app in H; destruct H as [A B]
  | H : W (opt _) |- _ => apply W_opt in H
  | H : W [] |- _ => clear H
  end.

Lemma row_arbitrary : forall a, W (vals_arbitrary a) ->
  agree_ (build_arbitrary a) (fun i => build_arbitrary (map_arbitrary (o i) a)).
Proof.
  intros [d b s vs vp] H. unfold vals_arbitrary in H. cbn [a_density a_bulk a_shear a_vs a_vp] in H. vals.
  unfold build_arbitrary. cbn [map_arbitrary a_density a_bulk a_shear a_vs a_vp].
  eapply agree_bind with (rs := fun i => match option_map (o i) s, option_map (o i) vs with
             | Some mu, _ => Ok mu
             | None, Some s => Ok (pmap (fun x => calculate_shear_modulus (fst x) (snd x)) (zip s (o i d)))
             | None, None => Err ValueError
             end).
  - destruct s as [s|]; [apply agree_ok; [assumption|reflexivity]|].
    destruct vs as [vs|]; [|apply agree_err, Hn]. cbn [option_map wfo] in *.
    apply agree_ok; [cbn [sized batch_arr]; wf_tac|intros i Hi; obs_push].
  - intros mu Wmu. cbv beta. cbn [sized batch_arr] in Wmu.
    eapply agree_bind with (rs := fun i => match option_map (o i) b, option_map (o i) vp with
             | Some k, _ => Ok k
             | None, Some p => Ok (pmap (fun x => calculate_bulk_modulus (fst (fst x)) (snd (fst x)) (snd x))
                                     (zip3 p (o i mu) (o i d)))
             | None, None => Err ValueError
             end).
    + destruct b as [b|]; [apply agree_ok; [assumption|reflexivity]|].
      destruct vp as [vp|]; [|apply agree_err, Hn]. cbn [option_map wfo] in *.
      apply agree_ok; [cbn [sized batch_arr]; wf_tac|intros i Hi; obs_push].
    + intros k Wk. cbv beta. cbn [sized batch_arr] in Wk. cbn [at_row batch_arr].
      eapply agree_bind with (rs := fun i => amap_opt (option_map (o i) vp)
        (fun x => calculate_primary_velocity (fst (fst x)) (snd (fst x)) (snd x)) (zip3 (o i k) (o i mu) (o i d))).
      * destruct vp as [vp|]; cbn [amap_opt option_map wfo] in *; [apply agree_ok; [assumption|reflexivity]|].
        eapply agree_ext; [apply agree_amap; [exact Hn|wf_tac]|]. intros i Hi. cbv beta. unfold zip3. rewrite !obs_zip. reflexivity.
      * intros p Wp. cbv beta. cbn [sized batch_arr] in Wp. cbn [at_row batch_arr].
        eapply agree_bind with (rs := fun i => amap_opt (option_map (o i) vs)
          (fun x => calculate_secondary_velocity (fst x) (snd x)) (zip (o i mu) (o i d))).
        -- destruct vs as [vs|]; cbn [amap_opt option_map wfo] in *; [apply agree_ok; [assumption|reflexivity]|].
           eapply agree_ext; [apply agree_amap; [exact Hn|wf_tac]|]. intros i Hi. cbv beta. rewrite !obs_zip. reflexivity.
        -- intros q Wq. cbv beta. cbn [sized batch_arr] in Wq. cbn [at_row batch_arr].
           apply agree_ok; [cbn [sized batch_mat]; unfold wfm; cbn [b_bulk b_shear b_dens b_vp b_vs]; auto|reflexivity].
Qed.

Lemma row_mineral : forall c, W (vals_constituent c) ->
  agree_ (build_mineral c) (fun i => build_mineral (map_constituent (o i) c)).
Proof.
  intros [m x p] H. unfold vals_constituent in H. cbn [k_material k_fraction] in H. vals.
  unfold build_mineral. cbn [map_constituent k_material].
  destruct m; cbn [map_material]; try (apply (@agree_ok (option bmat) _); [exact I|reflexivity]).
  eapply agree_bind; [apply row_arbitrary; assumption|]. intros b Wb. cbv beta.
  apply (@agree_ok (option bmat) _); [exact Wb|reflexivity].
Qed.

Lemma row_fluid_type : forall m, W (vals_material m) -> agree_ (build_fluid m) (fun i => build_fluid (map_material (o i) m)).
Proof.
  intros m H. destruct m; cbn [map_material vals_material build_fluid] in *; vals;
    try (apply agree_ok; [cbn [sized batch_fluid_type wf_fluid]; auto|reflexivity]).
  eapply agree_bind; [apply row_arbitrary; assumption|]. intros b Wb. cbv beta.
  apply agree_ok; [exact Wb|reflexivity].
Qed.

Lemma row_constituent : forall c, W (vals_constituent c) ->
  agree_ (build_constituent c) (fun i => build_constituent (map_constituent (o i) c)).
Proof.
  intros [m x p] H. unfold vals_constituent in H. cbn [k_material k_fraction] in H. vals.
  unfold build_constituent. cbn [map_constituent k_material k_fraction k_fluid_model].
  eapply agree_bind; [apply row_fluid_type; assumption|]. intros b Wb. cbv beta.
  apply agree_ok.
  - split; [exact Wb|]. destruct x; cbn [bc_fraction completed wfo] in *; [assumption|exact I].
  - intros i Hi. destruct x; reflexivity.
Qed.

Lemma gas_positions_map : forall {X Y} (f : X -> Y) cs from,
  gas_positions from (map (map_constituent f) cs) = gas_positions from cs.
Proof.
  intros X Y f cs. induction cs as [|c cs IH]; intros from; cbn [map gas_positions]; [reflexivity|].
  rewrite IH. destruct c as [m x p]. destruct m; reflexivity.
Qed.

Definition vals_fluids {X} (c : fluids_cfg X) : list X := fc_temperature c :: flat_map vals_constituent (fc_constituents c).
Lemma option_map_id : forall {A} (x : option A), option_map (fun a => a) x = x.
Proof. intros A [a|]; reflexivity. Qed.
Lemma row_fluids : forall c, W (vals_fluids c) ->
  agree_ (build_fluids c) (fun i => build_fluids (map_fluids (o i) (fun x => x) c)).
Proof.
  intros [t cs m b g p] H. unfold vals_fluids in H. cbn [fc_temperature fc_constituents] in H. vals.
  unfold build_fluids. cbn [map_fluids fc_temperature fc_constituents fc_mix_method fc_brie_constant fc_brie_gases fc_fluid_model].
  eapply agree_bind; [apply row_sequence; intros a Ha; apply row_constituent; eapply W_flat; [|exact Ha]; assumption|].
  intros bs Wbs. cbv beta. eapply agree_bind; [apply (row_constant (float_value b))|]. intros bc _. cbv beta.
  pose (gs := match g with None => Ok (gas_positions 0 cs) | Some l => sequence (map int_value l) end).
  eapply agree_ext with (rs := fun i => let* z := gs in Ok (mk_bfluids (o i t) (map (obs_constituent kp i) bs) m bc z p)).
  - eapply agree_bind; [apply (row_constant gs)|]. intros z _. cbv beta. apply agree_ok; [split; assumption|reflexivity].
  - intros i Hi. cbv beta. unfold gs. destruct g as [l|]; cbn [option_map].
    + rewrite map_id. reflexivity.
    + rewrite gas_positions_map. reflexivity.
Qed.

Lemma coefficients_id : forall c, map_coefficients (fun x => x) c = c.
Proof. intros [f a b d]. unfold map_coefficients. cbn [c_flavour c_density c_primary c_secondary]. rewrite !option_map_id. reflexivity. Qed.

Lemma friable_rows : forall c, W (vals_friable c) -> wf_friable n (build_friable c) /\
  forall i, build_friable (map_friable (o i) c) = obs_friable kp i (build_friable c).
Proof.
  intros [c s q] H. unfold vals_friable in H. cbn [fr_critical fr_shear_reduction fr_coordination] in H. vals.
  unfold build_friable, b_make_friable, wf_friable, obs_friable, map_friable.
  cbn [fr_critical fr_shear_reduction fr_coordination]. split.
  - cbn [bfr_critical bfr_shear_reduction bfr_coordination]. destruct q; cbn [wfo] in *; repeat split; auto; wf_tac.
  - intros i. destruct q; cbn [option_map bfr_critical bfr_shear_reduction bfr_coordination]; rewrite ?obs_pmap; reflexivity.
Qed.
Lemma row_patchy : forall c, W (vals_patchy c) -> agree_ (build_patchy c) (fun i => build_patchy (map_patchy (o i) c)).
Proof.
  intros [ce cr cf lp uf q s] H. unfold vals_patchy in H.
  cbn [pc_cement pc_critical pc_cement_fraction pc_lower_pressure pc_upper_fraction pc_coordination pc_shear_reduction] in H. vals.
  unfold build_patchy.
  cbn [map_patchy pc_cement pc_critical pc_cement_fraction pc_lower_pressure pc_upper_fraction pc_coordination pc_shear_reduction].
  eapply agree_bind; [apply row_arbitrary; assumption|]. intros m Wm. cbv beta.
  unfold b_make_patchy. apply agree_ok.
  - cbn [sized batch_patchy]. unfold wf_patchy.
    cbn [bpa_cement bpa_critical bpa_cement_fraction bpa_lower_pressure bpa_upper_fraction bpa_coordination bpa_shear_reduction].
    destruct q; cbn [wfo] in *; repeat split; auto; try apply Wm; wf_tac.
  - intros i Hi. cbn [at_row batch_patchy]. unfold obs_patchy. destruct q; cbn [option_map bpa_cement bpa_critical bpa_cement_fraction bpa_lower_pressure bpa_upper_fraction bpa_coordination bpa_shear_reduction]; rewrite ?obs_pmap; reflexivity.
Qed.
Lemma row_dependency : forall c, W (vals_dependency c) ->
  agree_ (build_dependency c) (fun i => build_dependency (map_dependency (o i) (fun x => x) c)).
Proof.
  intros c H. destruct c; cbn [vals_dependency map_dependency build_dependency] in *; rewrite ?option_map_id, ?coefficients_id.
  - eapply agree_bind; [apply row_patchy; assumption|]. intros q Wq. cbv beta. apply agree_ok; [exact Wq|reflexivity].
  - destruct (friable_rows f H) as [A B]. apply agree_ok; [exact A|]. intros i Hi. rewrite B. reflexivity.
  - eapply agree_ext with (rs := fun _ => let* d := list_opt density in let* b := list_opt bulk_modulus in
      let* r := list_opt vp_over_vs in Ok (BPowerfit d b r)); [|intros i Hi; rewrite ?option_map_id; reflexivity].
    eapply agree_bind; [apply (row_constant (list_opt density))|]. intros d _. cbv beta.
    eapply agree_bind; [apply (row_constant (list_opt bulk_modulus))|]. intros b _. cbv beta.
    eapply agree_bind; [apply (row_constant (list_opt vp_over_vs))|]. intros r _. cbv beta.
    apply agree_ok; [exact I|reflexivity].
  - eapply agree_ext with (rs := fun _ => let* c := list_coefficients c in Ok (BLogfit c)); [|intros i Hi; rewrite ?coefficients_id; reflexivity].
    eapply agree_bind; [apply (row_constant (list_coefficients c))|]. intros d _. cbv beta. apply agree_ok; [exact I|reflexivity].
  - eapply agree_ext with (rs := fun _ => let* c := list_coefficients c in Ok (BPolyfit c)); [|intros i Hi; rewrite ?coefficients_id; reflexivity].
    eapply agree_bind; [apply (row_constant (list_coefficients c))|]. intros d _. cbv beta. apply agree_ok; [exact I|reflexivity].
  - eapply agree_ext with (rs := fun _ => let* c := list_coefficients c in Ok (BExpfit c)); [|intros i Hi; rewrite ?coefficients_id; reflexivity].
    eapply agree_bind; [apply (row_constant (list_coefficients c))|]. intros d _. cbv beta. apply agree_ok; [exact I|reflexivity].
Qed.
Lemma row_sandstone : forall c, W (vals_sandstone c) ->
  agree_ (build_sandstone c) (fun i => build_sandstone (map_sandstone (o i) (fun x => x) c)).
Proof.
  intros c H. destruct c as [p|f|[c|]]; cbn [vals_sandstone map_sandstone build_sandstone option_map] in *.
  - eapply agree_bind; [apply row_patchy; assumption|]. intros q Wq. cbv beta. apply agree_ok; [exact Wq|reflexivity].
  - destruct (friable_rows f H) as [A B]. apply agree_ok; [exact A|]. intros i Hi. rewrite B. reflexivity.
  - apply agree_ok; [exact I|]. intros i Hi. rewrite coefficients_id. reflexivity.
  - apply agree_ok; [exact I|reflexivity].
Qed.
Lemma row_adjustment : forall c, W (vals_adjustment c) ->
  agree_ (build_adjustment c) (fun i => build_adjustment (map_adjustment (o i) (fun x => x) c)).
Proof.
  intros c H. destruct c as [d c r m|m]; cbn [vals_adjustment map_adjustment build_adjustment] in *; vals.
  - apply agree_ok; [split; [|split]; assumption|]. intros i Hi. rewrite coefficients_id. reflexivity.
  - eapply agree_bind; [apply row_dependency; assumption|]. intros q Wq. cbv beta. apply agree_ok; [exact Wq|reflexivity].
Qed.
Definition vals_dry_rock {X} (c : dry_rock_cfg X) : list X :=
  dc_porosity c :: vals_sandstone (dc_model c) ++ flat_map vals_adjustment (dc_adjustments c).
Lemma row_dry_rock : forall c, W (vals_dry_rock c) ->
  agree_ (build_dry_rock c) (fun i => build_dry_rock (map_dry_rock (o i) (fun x => x) c)).
Proof.
  intros [m p l] H. unfold vals_dry_rock in H. cbn [dc_model dc_porosity dc_adjustments] in H. vals.
  unfold build_dry_rock. cbn [map_dry_rock dc_model dc_porosity dc_adjustments].
  eapply agree_bind; [apply row_sandstone; assumption|]. intros md Wm. cbv beta.
  eapply agree_bind; [apply row_sequence; intros a Ha; apply row_adjustment; eapply W_flat; [|exact Ha]; assumption|].
  intros ad Wa. cbv beta. apply agree_ok; [split; [|split]; assumption|reflexivity].
Qed.

Lemma row_mineral_fractions : forall fs, Forall (wfo n) fs ->
  agree_ (check_mineral_fractions fs) (fun i => check_mineral_fractions (map (obs_option kp i) fs)).
Proof.
  intros fs H. assert (Forall (sized n) fs) as H' by (eapply Forall_impl; [|exact H]; intros [a|] Ha; exact Ha).
  assert (forall i, map (obs_option kp i) fs = map (at_row kp i) fs) as E
    by (intros i; apply map_ext; intros [a|]; reflexivity).
  eapply agree_ext with (rs := fun i => check_mineral_fractions (map (at_row kp i) fs)); [|intros i Hi; f_equal; symmetry; apply E].
  unfold check_mineral_fractions.
  eapply agree_bind; [apply (@agree_static kp sh n Hn (arr R) _); intros i Hi; destruct fs; reflexivity|]. intros [] _. cbv beta.
  eapply agree_bind; [apply row_each; [|exact H']; intros v Wv; apply row_fraction_is_ratio; assumption|]. intros [] _. cbv beta.
  eapply agree_bind; [apply row_fix_one_fraction; assumption|]. intros gs Wg. cbv beta.
  eapply agree_ext; [apply agree_any; [exact Hn|apply wf_asum; exact Wg]|].
  intros i Hi. cbv beta. rewrite row_asum. reflexivity.
Qed.

Lemma all_some_map : forall {A B} (f : A -> B) l,
  all_some (map (option_map f) l) = option_map (map f) (all_some l).
Proof.
  intros A B f l. induction l as [|[a|] l IH]; cbn [map option_map all_some]; try reflexivity.
  rewrite IH. destruct (all_some l); reflexivity.
Qed.
Lemma all_some_forall : forall {A} (P : A -> Prop) l r, Forall (fun x => match x with None => True | Some a => P a end) l ->
  all_some l = Some r -> Forall P r.
Proof.
  intros A P l. induction l as [|[a|] l IH]; intros r H E; cbn [all_some] in E; [injection E as <-; constructor| |discriminate].
  inversion H; subst. destruct (all_some l); [|discriminate]. injection E as <-. constructor; [assumption|]. apply IH; [assumption|reflexivity].
Qed.

Lemma row_build : forall c, W (vals_config c) ->
  agree_ (build c) (fun i => build (map_config (o i) (fun x => x) c)).
Proof.
  intros [ms fl dr pr] H. unfold vals_config in H. cbn [cf_minerals cf_fluids cf_dry_rock cf_pressure] in H.
  rewrite !Forall_app in H. destruct H as [Hm [Hf [Hd Hp]]].
  assert (Ffm : Forall (wfo n) (map k_fraction ms)).
  { rewrite Forall_forall. intros x Hx. apply in_map_iff in Hx. destruct Hx as [c [<- Hc]].
    apply W_opt. pose proof (W_flat _ _ Hm c Hc) as A. unfold vals_constituent in A. apply W_app in A. apply A. }
  assert (Fff : Forall (wfo n) (map k_fraction (fc_constituents fl))).
  { rewrite Forall_forall. intros x Hx. apply in_map_iff in Hx. destruct Hx as [c [<- Hc]].
    apply W_opt. assert (A : W (flat_map vals_constituent (fc_constituents fl))) by (apply Forall_cons_iff in Hf; apply Hf).
    pose proof (W_flat _ _ A c Hc) as B. unfold vals_constituent in B. apply W_app in B. apply B. }
  assert (Em : forall (f : arr R -> arr R) (cs : list (constituent_cfg (arr R))),
      map k_fraction (map (map_constituent f) cs) = map (option_map f) (map k_fraction cs))
    by (intros f cs; rewrite !map_map; reflexivity).
  unfold build. cbn [map_config cf_minerals cf_fluids cf_dry_rock cf_pressure].
  eapply agree_bind; [apply row_sequence; intros a Ha; apply row_mineral; eapply W_flat; [exact Hm|exact Ha]|].
  intros bs Wbs. cbv beta.
  eapply agree_bind; [apply row_fluids; exact Hf|]. intros bf Wf. cbv beta.
  eapply agree_bind; [apply row_dry_rock; exact Hd|]. intros bd Wd. cbv beta.
  eapply agree_bind.
  { eapply agree_ext; [apply row_mineral_fractions; exact Ffm|]. intros i Hi. cbv beta. rewrite Em. reflexivity. }
  intros [] _. cbv beta.
  eapply agree_bind.
  { eapply agree_ext; [eapply (row_complete_fluids kp sh n Hn); [exact Wf|exact Fff]|].
    intros i Hi. cbv beta. destruct fl as [t cs m b g p].
    cbn [map_fluids fc_constituents]. rewrite Em. reflexivity. }
  intros fl' _. cbv beta.
  eapply agree_bind.
  { eapply agree_ext; [eapply (row_check_dry_rock kp sh n Hn); exact Wd|]. intros i Hi. reflexivity. }
  intros [] _. cbv beta. apply (@agree_ok (option binput) _).
  - destruct (all_some bs) as [l|] eqn:E; [|exact I].
    pose proof (all_some_forall (wfm n) bs l Wbs E) as Wl. vals. destruct Wf as [Wf1 Wf2].
    cbn [sized batch_option batch_input]. unfold wf_input. cbn [bi_minerals bi_fluids bi_fluid_fractions bi_dry_rock bi_pressure].
    repeat split; try assumption; try apply Wd.
    rewrite Forall_forall in *. intros [m x] Hx. split; cbn [fst snd].
    + apply Wl. apply (in_combine_l _ _ _ _ Hx).
    + apply Ffm. apply (in_combine_r _ _ _ _ Hx).
  - intros i Hi. replace (map (at_row kp i) bs) with (map (option_map (obs_mat kp i)) bs)
      by (apply map_ext; intros [m|]; reflexivity).
    cbn [at_row batch_list]. change (map (at_row kp i) bs) with (map (at_row (B := option bmat) kp i) bs).
    replace (map (at_row (B := option bmat) kp i) bs) with (map (option_map (obs_mat kp i)) bs)
      by (apply map_ext; intros [m|]; reflexivity).
    rewrite all_some_map. destruct (all_some bs) as [l|]; cbn [option_map at_row batch_option batch_input]; [|reflexivity].
    f_equal. unfold obs_input. cbn [bi_minerals bi_fluids bi_fluid_fractions bi_dry_rock bi_pressure].
    f_equal.
    + rewrite Em. rewrite combine_map2. apply map_ext. intros [m x]. reflexivity.
    + destruct fl as [t cs m b g p]. cbn [map_fluids fc_constituents]. rewrite Em. reflexivity.
Qed.
End Rows.
