(** Lemmas: what a configuration means for a row of the data. *)
From Coq Require Import String List ZArith Lra Lia.
From Verif Require Import Base BaseProofs MaterialModel MineralsModel ConfigModel FluidsModel InputModel RowModel RowSpec
  RowProofs RowConfigProofs RowScalarProofs ReadModel AppModel FileSpec FileProofs.
Import ListNotations.
Open Scope R_scope.

Lemma sequence_forall2 : forall {A B} (f : A -> res B) l bs, sequence (map f l) = Ok bs <-> Forall2 (fun a b => f a = Ok b) l bs.
Proof.
  intros A B f l. induction l as [|a l IH]; intros bs; cbn [map sequence].
  - split; intros H; [injection H as <-; constructor|inversion H; reflexivity].
  - split; intros H.
    + destruct (f a) as [b|] eqn:E; [|discriminate]. cbn [bind] in H. destruct (sequence (map f l)) as [r|] eqn:F; [|discriminate].
      cbn [bind] in H. injection H as <-. constructor; [exact E|]. apply IH. reflexivity.
    + inversion H as [|? b ? r E F]; subst. rewrite E. cbn [bind]. apply IH in F. rewrite F. reflexivity.
Qed.
Lemma sequence_means : forall {A A' B C} (f : A' -> res B) (h : A -> A') (u : C -> B) (P : A -> C -> Prop) l bs,
  (forall a b, f (h a) = Ok b <-> exists c, P a c /\ b = u c) ->
  (sequence (map f (map h l)) = Ok bs <-> exists cs, Forall2 P l cs /\ bs = map u cs).
Proof.
  intros A A' B C f h u P l bs H. rewrite sequence_forall2. revert bs. induction l as [|a l IH]; intros bs; cbn [map].
  - split; intros K; [inversion K; exists []; split; [constructor|reflexivity]|]. destruct K as [cs [K ->]]. inversion K. constructor.
  - split; intros K.
    + inversion K as [|? b ? r E F]; subst. apply H in E. destruct E as [c [E ->]]. apply IH in F. destruct F as [cs [F ->]].
      exists (c :: cs). split; [constructor; assumption|reflexivity].
    + destruct K as [cs [K ->]]. inversion K as [|? c ? r E F]; subst. cbn [map]. constructor.
      * apply H. exists c. split; [exact E|reflexivity].
      * apply IH. exists r. split; [exact F|reflexivity].
Qed.

(** ** Materials *)
Lemma arbitrary_scalar : forall a,
  build_arbitrary (map_arbitrary Sc a) = lift up (arbitrary_material (a_bulk a) (a_shear a) (a_density a) (a_vs a) (a_vp a)).
Proof.
  intros [d b s vs vp]. unfold build_arbitrary, arbitrary_material, fill_moduli, fill_velocities, map_arbitrary.
  cbn [a_density a_bulk a_shear a_vs a_vp].
  destruct s as [s|], vs as [vs|], b as [b|], vp as [vp|]; cbn [option_map bind lift]; try reflexivity;
    unfold zip3; cbn [zip pmap amap_opt bind fst snd]; rewrite ?sc_amap; cbn [fst snd]; try reflexivity;
    repeat match goal with
      | |- context [calculate_primary_velocity ?a ?b ?c] => destruct (calculate_primary_velocity a b c); cbn [bind lift]; try reflexivity
      | |- context [calculate_secondary_velocity ?a ?b] => destruct (calculate_secondary_velocity a b); cbn [bind lift]; try reflexivity
      end.
Qed.
Lemma primary_ok : forall k mu d p, calculate_primary_velocity k mu d = Ok p <->
  d <> 0 /\ 0 <= (k + 4 / 3 * mu) / d /\ p = sqrt ((k + 4 / 3 * mu) / d).
Proof.
  intros k mu d p. unfold calculate_primary_velocity, np_div, np_sqrt.
  destruct (Req_EM_T d 0) as [E|N]; cbn [bind]; [split; [discriminate|intros [F _]; contradiction]|].
  destruct (Rlt_dec _ 0) as [L|L].
  - split; [discriminate|]. intros [_ [F _]]. lra.
  - split; [intros H; injection H as <-; split; [exact N|split; [lra|reflexivity]]|]. intros [_ [_ ->]]. reflexivity.
Qed.
Lemma secondary_ok : forall mu d s, calculate_secondary_velocity mu d = Ok s <->
  d <> 0 /\ 0 <= mu / d /\ s = sqrt (mu / d).
Proof.
  intros mu d p. unfold calculate_secondary_velocity, np_div, np_sqrt.
  destruct (Req_EM_T d 0) as [E|N]; cbn [bind]; [split; [discriminate|intros [F _]; contradiction]|].
  destruct (Rlt_dec _ 0) as [L|L].
  - split; [discriminate|]. intros [_ [F _]]. lra.
  - split; [intros H; injection H as <-; split; [exact N|split; [lra|reflexivity]]|]. intros [_ [_ ->]]. reflexivity.
Qed.
Lemma arbitrary_means : forall a m,
  arbitrary_material (a_bulk a) (a_shear a) (a_density a) (a_vs a) (a_vp a) = Ok m <-> means_material a m.
Proof.
  intros [d b s vs vp] [k mu d' p q]. unfold means_material, arbitrary_material, fill_moduli, fill_velocities, calculate_shear_modulus, calculate_bulk_modulus.
  cbn [a_density a_bulk a_shear a_vs a_vp bulk shear dens MaterialModel.vp MaterialModel.vs]. split; intros H.
  - destruct s as [s|]; [|destruct vs as [vs|]; [|discriminate H]]; (destruct b as [b|]; [|destruct vp as [vp|]; [|discriminate H]]);
      cbn [bind] in H;
      try destruct vp as [vp|]; cbn [bind] in H;
      try (match type of H with context [calculate_primary_velocity ?a ?b ?c] =>
             destruct (calculate_primary_velocity a b c) as [x|] eqn:E1; [apply primary_ok in E1|discriminate H]; cbn [bind] in H end);
      try destruct vs as [vs|]; cbn [bind] in H;
      try (match type of H with context [calculate_secondary_velocity ?a ?b] =>
             destruct (calculate_secondary_velocity a b) as [y|] eqn:E2; [apply secondary_ok in E2|discriminate H]; cbn [bind] in H end);
      injection H; intros; subst; repeat split; try tauto; try (eexists; split; reflexivity).
  - destruct H as [-> [H1 [H2 [H3 H4]]]].
    destruct s as [s|]; [subst mu|destruct H1 as [s [-> ->]]]; (destruct b as [b|]; [subst k|destruct H2 as [b [-> ->]]]);
      cbn [bind];
      (destruct vp as [vp|] || idtac); (destruct vs as [vs|] || idtac); cbn [bind]; subst;
      try (apply primary_ok in H3; rewrite H3); cbn [bind];
      try (apply secondary_ok in H4; rewrite H4); reflexivity.
Qed.
Lemma material_means : forall a b, build_arbitrary (map_arbitrary Sc a) = Ok b <-> exists m, means_material a m /\ b = up m.
Proof.
  intros a b. rewrite arbitrary_scalar. split; intros H.
  - destruct (arbitrary_material _ _ _ _ _) as [m|] eqn:E; [|discriminate]. cbn [lift] in H. injection H as <-.
    exists m. split; [apply arbitrary_means, E|reflexivity].
  - destruct H as [m [H ->]]. apply arbitrary_means in H. rewrite H. reflexivity.
Qed.
Lemma fluid_means : forall a b, build_fluid (map_material Sc a) = Ok b <-> exists m, means_fluid a m /\ b = up_fluid m.
Proof.
  intros a b. destruct a as [a|x|x y z|x|x y z|x]; cbn [map_material build_fluid].
  - split; intros H.
    + destruct (build_arbitrary (map_arbitrary Sc a)) as [c|] eqn:E; [|discriminate]. injection H as <-.
      apply material_means in E. destruct E as [m [E ->]]. exists (FArbitrary m). split; [constructor; exact E|reflexivity].
    + destruct H as [m [H ->]]. inversion H as [? m' E| | | | |]; subst.
      assert (F : build_arbitrary (map_arbitrary Sc a) = Ok (up m')) by (apply material_means; exists m'; split; [exact E|reflexivity]).
      rewrite F. reflexivity.
  - split; intros H; [injection H as <-; exists (FGas x); split; constructor|]. destruct H as [m [H ->]]. inversion H. reflexivity.
  - split; intros H; [injection H as <-; exists (FOil x y z); split; constructor|]. destruct H as [m [H ->]]. inversion H. reflexivity.
  - split; intros H; [injection H as <-; exists (FBrine x); split; constructor|]. destruct H as [m [H ->]]. inversion H. reflexivity.
  - split; intros H; [injection H as <-; exists (FCondensate x y z); split; constructor|]. destruct H as [m [H ->]]. inversion H. reflexivity.
  - split; intros H; [injection H as <-; exists (FCarbonDioxide x); split; constructor|]. destruct H as [m [H ->]]. inversion H. reflexivity.
Qed.
Lemma constituent_means : forall k b, build_constituent (map_constituent Sc k) = Ok b <->
  exists c, means_constituent k c /\ b = up_constituent c.
Proof.
  intros [m x p] b. unfold build_constituent, means_constituent. cbn [map_constituent k_material k_fraction k_fluid_model]. split; intros H.
  - destruct (build_fluid (map_material Sc m)) as [f|] eqn:E; [|discriminate]. injection H as <-. apply fluid_means in E.
    destruct E as [f' [E ->]]. exists (mk_constituent f' match x with None => 0 | Some x => x end p).
    cbn [c_material c_fraction c_fluid_model]. split; [auto|]. unfold up_constituent. destruct x; reflexivity.
  - destruct H as [[f' y q] [[H1 [H2 H3]] ->]]. cbn [c_material c_fraction c_fluid_model] in *. subst q y.
    assert (F : build_fluid (map_material Sc m) = Ok (up_fluid f')) by (apply fluid_means; exists f'; split; [exact H1|reflexivity]).
    rewrite F. cbn [bind]. unfold up_constituent. destruct x; reflexivity.
Qed.

(** ** Fluids *)
Lemma truncate_spec : forall y z, truncate y = z <-> towards_zero y z.
Proof.
  intros y z. unfold truncate, towards_zero.
  assert (U : forall x a, IZR a <= x < IZR a + 1 -> Int_part x = a).
  { intros x a [H1 H2]. destruct (base_Int_part x) as [H3 H4].
    assert (IZR (Int_part x) < IZR a + 1) by lra. assert (IZR a < IZR (Int_part x) + 1) by lra.
    rewrite <- plus_IZR in *. apply lt_IZR in H. apply lt_IZR in H0. lia. }
  assert (V : forall x, IZR (Int_part x) <= x < IZR (Int_part x) + 1) by (intros x; destruct (base_Int_part x); lra).
  destruct (Rle_dec 0 y) as [L|L]; split.
  - intros <-. split; [intros _; apply V|]. intros M. assert (y = 0) by lra. subst y. rewrite (U 0 0%Z); cbn; lra.
  - intros [H _]. apply U, H, L.
  - intros <-. split; [lra|]. intros _. rewrite opp_IZR. pose proof (V (- y)). lra.
  - intros [_ H]. assert (K : y <= 0) by lra. specialize (H K).
    rewrite (U (- y) (- z)%Z); [lia|]. rewrite opp_IZR. lra.
Qed.
Lemma gas_positions_spec : forall (cs pre : list (constituent_cfg R)),
  gas_positions (Z.of_nat (List.length pre)) cs =
  map Z.of_nat (filter (fun i => match option_map k_material (nth_error (pre ++ cs) i) with
                                 | Some (MGas _) | Some (MCarbonDioxide _) => true
                                 | _ => false
                                 end) (seq (List.length pre) (List.length cs))).
Proof.
  induction cs as [|c cs IH]; intros pre; [reflexivity|]. cbn [gas_positions List.length seq filter].
  replace (nth_error (pre ++ c :: cs) (List.length pre)) with (Some c)
    by (rewrite nth_error_app2 by lia; rewrite Nat.sub_diag; reflexivity).
  specialize (IH (pre ++ [c])). rewrite <- app_assoc in IH. cbn [List.app] in IH. rewrite app_length in IH. cbn [List.length] in IH.
  rewrite Nat.add_1_r in IH. rewrite Nat2Z.inj_succ in IH. unfold Z.succ in IH. rewrite IH.
  destruct c as [m x p]. cbn [option_map k_material]. destruct m; reflexivity.
Qed.
Lemma gas_positions_at : forall cs, gas_positions 0 cs = gases_at cs.
Proof. intros cs. apply (gas_positions_spec cs []). Qed.
Lemma gases_mapped : forall {X Y} (f : X -> Y) cs from, gas_positions from (map (map_constituent f) cs) = gas_positions from cs.
Proof.
  intros X Y f cs. induction cs as [|c cs IH]; intros from; [reflexivity|]. cbn [map gas_positions]. rewrite IH.
  destruct c as [m x p]. destruct m; reflexivity.
Qed.
Lemma fluids_mean : forall f b, of_fluids f -> (build_fluids (map_fluids Sc (fun x => x) f) = Ok b <->
  exists g, means_fluids f g /\ b = up_fluids g).
Proof.
  intros [t cs m bc gs p] b [_ [[y T] G]]. cbn [fc_brie_constant fc_brie_gases] in T, G. subst bc.
  unfold build_fluids, means_fluids.
  cbn [map_fluids fc_temperature fc_constituents fc_mix_method fc_brie_constant fc_brie_gases fc_fluid_model float_value].
  assert (S : forall bs, sequence (map build_constituent (map (map_constituent Sc) cs)) = Ok bs <->
    exists l, Forall2 means_constituent cs l /\ bs = map up_constituent l)
    by (intros bs; apply sequence_means; apply constituent_means).
  rewrite gases_mapped, gas_positions_at.
  assert (Z : forall zs, match option_map (map (fun x => x)) gs with
    | None => Ok (gases_at cs) | Some l => sequence (map int_value l) end = Ok zs <->
    match gs with None => zs = gases_at cs
    | Some l => Forall2 (fun x z => exists y, x = N0 y /\ towards_zero y z) l zs end).
  { intros zs. destruct gs as [l|]; cbn [option_map]; [|split; intros H; [injection H as <-; reflexivity|subst; reflexivity]].
    rewrite map_id, sequence_forall2. clear S. revert zs. induction G as [|x l [z ->] G IH]; intros zs.
    - split; intros H; inversion H; constructor.
    - split; intros H; inversion H as [|? c ? r E F]; subst; constructor; try (apply IH; exact F).
      + exists z. split; [reflexivity|]. injection E as E. apply truncate_spec, E.
      + destruct E as [z' [E1 E2]]. injection E1 as <-. apply truncate_spec in E2. cbn. rewrite E2. reflexivity. }
  split; intros H.
  - destruct (sequence _) as [bs|] eqn:E1; [|discriminate]. cbn [bind] in H.
    match type of H with bind ?r _ = _ => destruct r as [zs|] eqn:E2; [|discriminate] end. cbn [bind] in H. injection H as <-.
    assert (E1' := proj1 (S bs) eq_refl). destruct E1' as [l [F ->]]. assert (E3 := proj1 (Z zs) eq_refl).
    exists (mk_fluids t l m y zs p). cbn [f_temperature f_constituents f_mix_method f_brie_constant f_brie_gases f_fluid_model].
    split; [|reflexivity]. repeat split; try assumption.
  - destruct H as [[t' l m' y' zs p'] [[H1 [H2 [H3 [H4 [H5 H6]]]]] ->]].
    cbn [f_temperature f_constituents f_mix_method f_brie_constant f_brie_gases f_fluid_model] in *. subst t' m' p'. injection H4 as <-.
    rewrite (proj2 (S (map up_constituent l)) (ex_intro _ l (conj H2 eq_refl))). cbn [bind].
    rewrite (proj2 (Z zs) H5). reflexivity.
Qed.

(** ** Dry rock and pressure *)
Lemma friable_means : forall f, build_friable (map_friable Sc f) = up_friable (means_friable f).
Proof. intros [c s [n|]]; reflexivity. Qed.
Lemma patchy_means : forall p b, build_patchy (map_patchy Sc p) = Ok b <-> exists q, means_patchy p q /\ b = up_patchy q.
Proof.
  intros [ce cr cf lp uf n s] b. unfold build_patchy, means_patchy.
  cbn [map_patchy pc_cement pc_critical pc_cement_fraction pc_lower_pressure pc_upper_fraction pc_coordination pc_shear_reduction].
  split; intros H.
  - destruct (build_arbitrary (map_arbitrary Sc ce)) as [m|] eqn:E; [|discriminate]. injection H as <-.
    apply material_means in E. destruct E as [m' [E ->]]. exists (mkPatchy m' cr cf lp uf (or_murphy n cr) s).
    cbn [pa_cement pa_critical pa_cement_fraction pa_lower_pressure pa_upper_fraction pa_coordination pa_shear_reduction].
    split; [split; [exact E|repeat split]|]. destruct n; reflexivity.
  - destruct H as [[m cr' cf' lp' uf' n' s'] [H ->]].
    cbn [pa_cement pa_critical pa_cement_fraction pa_lower_pressure pa_upper_fraction pa_coordination pa_shear_reduction] in H.
    destruct H as [H [-> [-> [-> [-> [-> ->]]]]]].
    rewrite (proj2 (material_means ce (up m)) (ex_intro _ m (conj H eq_refl))). destruct n; reflexivity.
Qed.
Lemma list_opt_means : forall x l, given_opt rectangular x -> (list_opt x = Ok l <-> in_one_variable x l).
Proof.
  intros [[y|a|a|rows]|] [l|] T; cbn [list_opt list_of_nd bind in_one_variable given_opt rectangular] in *; try tauto;
    split; intros H; try discriminate; try contradiction; try congruence; exact I.
Qed.
Lemma list_coefficients_means : forall c d, of_coefficients c -> (list_coefficients c = Ok d <-> one_variable c d).
Proof.
  intros [f d p s] [f' d' p' s'] [T1 [T2 T3]]. unfold list_coefficients, one_variable. cbn [c_flavour c_density c_primary c_secondary] in *.
  rewrite <- !(list_opt_means) by assumption. split; intros H.
  - destruct (list_opt d), (list_opt p), (list_opt s); cbn [bind] in H; try discriminate. injection H as <- <- <- <-. auto.
  - destruct H as [-> [-> [-> ->]]]. reflexivity.
Qed.
Lemma coefficients_same : forall c, map_coefficients (fun x => x) c = c.
Proof. intros [f [d|] [p|] [s|]]; reflexivity. Qed.
Lemma option_same : forall {A} (x : option A), option_map (fun a => a) x = x.
Proof. intros A [a|]; reflexivity. Qed.
Lemma dependency_means : forall m b, of_dependency m ->
  (build_dependency (map_dependency Sc (fun x => x) m) = Ok b <-> exists q, means_dependency m q /\ b = up_dependency q).
Proof.
  intros m b T. destruct m as [p|f|d e r|c|c|c]; cbn [map_dependency build_dependency of_dependency] in *;
    rewrite ?option_same, ?coefficients_same.
  - split; intros H.
    + destruct (build_patchy (map_patchy Sc p)) as [q|] eqn:E; [|discriminate]. injection H as <-. apply patchy_means in E.
      destruct E as [q' [E ->]]. exists (Patchy q'). split; [constructor; exact E|reflexivity].
    + destruct H as [q [H ->]]. inversion H as [? q' E| | | | |]; subst.
      rewrite (proj2 (patchy_means p (up_patchy q')) (ex_intro _ q' (conj E eq_refl))). reflexivity.
  - rewrite friable_means. split; intros H.
    + injection H as <-. exists (Friable (means_friable f)). split; [constructor|reflexivity].
    + destruct H as [q [H ->]]. inversion H. reflexivity.
  - destruct T as [T1 [T2 T3]]. split; intros H.
    + destruct (list_opt d) eqn:E1; [|discriminate]. cbn [bind] in H. destruct (list_opt e) eqn:E2; [|discriminate]. cbn [bind] in H.
      destruct (list_opt r) eqn:E3; [|discriminate]. injection H as <-.
      apply list_opt_means in E1, E2, E3; try assumption. eexists (Powerfit _ _ _). split; [constructor; eassumption|reflexivity].
    + destruct H as [q [H ->]]. inversion H as [| |? ? ? d' e' r' E1 E2 E3| | |]; subst. apply list_opt_means in E1, E2, E3; try assumption.
      rewrite E1, E2, E3. reflexivity.
  - split; intros H.
    + destruct (list_coefficients c) eqn:E; [|discriminate]. injection H as <-. apply list_coefficients_means in E; [|exact T].
      eexists (Logfit _). split; [constructor; exact E|reflexivity].
    + destruct H as [q [H ->]]. inversion H as [| | |? c' E| |]; subst. apply list_coefficients_means in E; [|exact T]. rewrite E. reflexivity.
  - split; intros H.
    + destruct (list_coefficients c) eqn:E; [|discriminate]. injection H as <-. apply list_coefficients_means in E; [|exact T].
      eexists (Polyfit _). split; [constructor; exact E|reflexivity].
    + destruct H as [q [H ->]]. inversion H as [| | | |? c' E|]; subst. apply list_coefficients_means in E; [|exact T]. rewrite E. reflexivity.
  - split; intros H.
    + destruct (list_coefficients c) eqn:E; [|discriminate]. injection H as <-. apply list_coefficients_means in E; [|exact T].
      eexists (Expfit _). split; [constructor; exact E|reflexivity].
    + destruct H as [q [H ->]]. inversion H as [| | | | |? c' E]; subst. apply list_coefficients_means in E; [|exact T]. rewrite E. reflexivity.
Qed.
Lemma rock_coefficients_mean : forall c,
  build_sandstone (SPolyfit c) = Ok (BRockPolyfit (rock_coefficients c)).
Proof. intros [[[] [d|] [p|] [s|]]|]; reflexivity. Qed.
Lemma sandstone_means : forall m b, build_sandstone (map_sandstone Sc (fun x => x) m) = Ok b <->
  exists q, means_rock m q /\ b = up_rock_model q.
Proof.
  intros m b. destruct m as [p|f|c]; cbn [map_sandstone].
  - cbn [build_sandstone]. split; intros H.
    + destruct (build_patchy (map_patchy Sc p)) as [q|] eqn:E; [|discriminate]. injection H as <-. apply patchy_means in E.
      destruct E as [q' [E ->]]. exists (RockPatchy q'). split; [constructor; exact E|reflexivity].
    + destruct H as [q [H ->]]. inversion H as [? q' E| |]; subst.
      rewrite (proj2 (patchy_means p (up_patchy q')) (ex_intro _ q' (conj E eq_refl))). reflexivity.
  - cbn [build_sandstone]. rewrite friable_means. split; intros H.
    + injection H as <-. exists (RockFriable (means_friable f)). split; [constructor|reflexivity].
    + destruct H as [q [H ->]]. inversion H. reflexivity.
  - replace (option_map (map_coefficients (fun x => x)) c) with c by (destruct c; cbn [option_map]; rewrite ?coefficients_same; reflexivity).
    rewrite rock_coefficients_mean. split; intros H.
    + injection H as <-. exists (RockPolyfit (rock_coefficients c)). split; [constructor|reflexivity].
    + destruct H as [q [H ->]]. inversion H. reflexivity.
Qed.
Lemma two_variables_same : forall c, matrix_coefficients c = two_variables c.
Proof. intros [f [d|] [p|] [s|]]; reflexivity. Qed.
Lemma adjustment_means : forall a b, of_adjustment a ->
  (build_adjustment (map_adjustment Sc (fun x => x) a) = Ok b <-> exists q, means_adjustment a q /\ b = up_adjustment q).
Proof.
  intros [d c r m|m] b T; cbn [map_adjustment build_adjustment of_adjustment] in *.
  - rewrite coefficients_same, two_variables_same. split; intros H.
    + injection H as <-. eexists (DepthTrend _). split; [constructor|reflexivity].
    + destruct H as [q [H ->]]. inversion H. reflexivity.
  - split; intros H.
    + destruct (build_dependency _) as [q|] eqn:E; [|discriminate]. injection H as <-. apply dependency_means in E; [|exact T].
      destruct E as [q' [E ->]]. eexists (PressureDependency _). split; [constructor; exact E|reflexivity].
    + destruct H as [q [H ->]]. inversion H as [|? q' E]; subst.
      rewrite (proj2 (dependency_means m (up_dependency q') T) (ex_intro _ q' (conj E eq_refl))). reflexivity.
Qed.
Lemma adjustments_mean : forall l bs, Forall of_adjustment l ->
  (sequence (map build_adjustment (map (map_adjustment Sc (fun x => x)) l)) = Ok bs <->
   exists qs, Forall2 means_adjustment l qs /\ bs = map up_adjustment qs).
Proof.
  intros l bs T. rewrite sequence_forall2. revert bs. induction T as [|a l Ta T IH]; intros bs; cbn [map].
  - split; intros H; [inversion H; exists []; split; [constructor|reflexivity]|]. destruct H as [qs [H ->]]. inversion H. constructor.
  - split; intros H.
    + inversion H as [|? b ? r E F]; subst. apply adjustment_means in E; [|exact Ta]. destruct E as [c [E ->]]. apply IH in F.
      destruct F as [cs [F ->]]. exists (c :: cs). split; [constructor; assumption|reflexivity].
    + destruct H as [cs [H ->]]. inversion H as [|? c ? r E F]; subst. cbn [map]. constructor.
      * apply adjustment_means; [exact Ta|]. exists c. split; [exact E|reflexivity].
      * apply IH. exists r. split; [exact F|reflexivity].
Qed.
Lemma dry_rock_means : forall d b, of_sandstone (dc_model d) -> Forall of_adjustment (dc_adjustments d) ->
  (build_dry_rock (map_dry_rock Sc (fun x => x) d) = Ok b <-> exists q, means_dry_rock d q /\ b = up_dry_rock q).
Proof.
  intros [m p l] b T1 T2. unfold build_dry_rock, means_dry_rock. cbn [map_dry_rock dc_model dc_porosity dc_adjustments] in *.
  split; intros H.
  - destruct (build_sandstone _) as [bm|] eqn:E1; [|discriminate]. cbn [bind] in H. destruct (sequence _) as [bs|] eqn:E2; [|discriminate].
    injection H as <-. apply sandstone_means in E1. destruct E1 as [q [E1 ->]]. apply adjustments_mean in E2; [|exact T2].
    destruct E2 as [qs [E2 ->]]. exists (mkDryRock q p qs). cbn [dr_model dr_porosity dr_adjustments]. split; [auto|reflexivity].
  - destruct H as [[q p' qs] [[H1 [H2 H3]] ->]]. cbn [dr_model dr_porosity dr_adjustments] in *. subst p'.
    rewrite (proj2 (sandstone_means m (up_rock_model q)) (ex_intro _ q (conj H1 eq_refl))). cbn [bind].
    rewrite (proj2 (adjustments_mean l (map up_adjustment qs) T2) (ex_intro _ qs (conj H3 eq_refl))). reflexivity.
Qed.
Lemma pressure_means : forall p, build_pressure (map_pressure Sc (fill_pressure p)) = up_pressure (means_pressure p).
Proof. intros [o r [f|] [m|] [k|]]; reflexivity. Qed.

(** ** The Input object of a row *)
Lemma minerals_mean : forall cs bs ms, sequence (map build_mineral (map (map_constituent Sc) cs)) = Ok bs ->
  all_some bs = Some ms ->
  exists l, Forall2 means_mineral cs l /\
    combine ms (map k_fraction (map (map_constituent Sc) cs)) = map (fun c => (up (fst c), RowScalarProofs.opt (snd c))) l.
Proof.
  intros cs bs ms H. apply sequence_forall2 in H. revert bs ms H. induction cs as [|[m x p] cs IH]; intros bs ms H A; cbn [map] in H; inversion H as [|? b ? r E F]; subst.
  - injection A as <-. exists []. split; [constructor|reflexivity].
  - cbn [all_some] in A. destruct b as [b|]; [|discriminate]. destruct (all_some r) as [ms'|] eqn:A'; [|discriminate]. injection A as <-.
    destruct (IH r ms' F A') as [l [L1 L2]].
    unfold build_mineral in E. cbn [map_constituent k_material] in E. destruct m as [a| | | | |]; try discriminate E. cbn [map_material] in E.
    destruct (build_arbitrary (map_arbitrary Sc a)) as [b'|] eqn:B; [|discriminate]. injection E as ->. apply material_means in B.
    destruct B as [m [B ->]]. exists ((m, x) :: l). split.
    + constructor; [|exact L1]. split; [reflexivity|]. exists a. split; [reflexivity|exact B].
    + cbn [map combine fst snd map_constituent k_fraction]. f_equal. exact L2.
Qed.
Lemma minerals_built : forall cs l, Forall2 means_mineral cs l ->
  sequence (map build_mineral (map (map_constituent Sc) cs)) = Ok (map (fun c => Some (up (fst c))) l).
Proof.
  intros cs l H. apply sequence_forall2. induction H as [|[m x p] [q y] cs l [H1 [a [H2 H3]]] H IH]; cbn [map]; constructor; [|exact IH].
  cbn [fst snd k_material k_fraction] in *. subst. unfold build_mineral. cbn [map_constituent map_material k_material].
  rewrite (proj2 (material_means a (up q)) (ex_intro _ q (conj H3 eq_refl))). reflexivity.
Qed.
Lemma all_some_up : forall l : list (material * option R), all_some (map (fun c => Some (up (fst c))) l) = Some (map (fun c => up (fst c)) l).
Proof. intros l. induction l as [|c l IH]; [reflexivity|]. cbn [map all_some]. rewrite IH. reflexivity. Qed.
Lemma fractions_of : forall cs l, Forall2 means_mineral cs l -> map k_fraction (map (map_constituent Sc) cs) = map RowScalarProofs.opt (map snd l).
Proof.
  intros cs l H. induction H as [|c x cs l [H _] F IH]; [reflexivity|]. cbn [map]. f_equal; [|exact IH]. rewrite H. reflexivity.
Qed.
Lemma minerals_checked : forall l ms, minerals l = Ok ms -> check_mineral_fractions (map RowScalarProofs.opt (map snd l)) = Ok tt.
Proof.
  intros l ms H. pose proof (sc_minerals l) as S. rewrite H in S. cbn [lift] in S. unfold b_minerals in S. unfold check_mineral_fractions.
  rewrite !map_map in *. cbn [snd] in S.
  replace (match map (fun x : material * option R => RowScalarProofs.opt (snd x)) l with [] => true | _ => false end)
    with (match map (fun c : material * option R => (up (fst c), RowScalarProofs.opt (snd c))) l with [] => true | _ => false end) by (destruct l; reflexivity).
  destruct (guard (match map _ l with [] => true | _ => false end) ValueError); [|discriminate]. cbn [bind] in *.
  assert (E : each (fun c : bmat * option (arr R) => b_fraction_is_ratio (snd c)) (map (fun c : material * option R => (up (fst c), RowScalarProofs.opt (snd c))) l) =
    each b_fraction_is_ratio (map (fun x : material * option R => RowScalarProofs.opt (snd x)) l)).
  { clear. induction l as [|c l IH]; [reflexivity|]. cbn [map each snd]. rewrite IH. reflexivity. }
  rewrite E in S. destruct (each b_fraction_is_ratio _); [|discriminate]. cbn [bind] in *.
  destruct (b_fix_one_fraction _); [|discriminate]. cbn [bind] in *.
  destruct (guard _ _) as [[]|]; [reflexivity|discriminate].
Qed.

Lemma input_meant : forall c b, writable c -> build (map_config Sc (fun x => x) (fill_config c)) = Ok (Some b) ->
  exists i, means c i /\ b = up_input i.
Proof.
  intros [ms fl dr pr] b [T1 [T2 [T3 T4]]] H. cbn [cf_minerals cf_fluids cf_dry_rock cf_pressure] in *.
  unfold build in H. cbn [map_config fill_config cf_minerals cf_fluids cf_dry_rock cf_pressure] in H.
  destruct (sequence _) as [bs|] eqn:E1; [|discriminate]. cbn [bind] in H.
  destruct (build_fluids _) as [bf|] eqn:E2; [|discriminate]. cbn [bind] in H.
  destruct (build_dry_rock _) as [bd|] eqn:E3; [|discriminate]. cbn [bind] in H.
  destruct (check_mineral_fractions _); [|discriminate]. cbn [bind] in H.
  destruct (b_complete_fluids _ _); [|discriminate]. cbn [bind] in H.
  destruct (b_check_dry_rock _); [|discriminate]. cbn [bind] in H.
  destruct (all_some bs) as [l|] eqn:A; [|discriminate]. injection H as <-.
  destruct (minerals_mean ms bs l E1 A) as [lm [M1 M2]].
  apply fluids_mean in E2; [|exact T2]. destruct E2 as [g [F1 ->]].
  apply dry_rock_means in E3; [|assumption|assumption]. destruct E3 as [q [D1 ->]].
  exists (mkInput lm g (map k_fraction (fc_constituents fl)) q (means_pressure pr)).
  unfold means. cbn [i_minerals i_fluids i_fluid_fractions i_dry_rock i_pressure cf_minerals cf_fluids cf_dry_rock cf_pressure].
  split; [auto|]. unfold up_input. cbn [i_minerals i_fluids i_fluid_fractions i_dry_rock i_pressure]. rewrite M2, pressure_means. f_equal.
  destruct fl as [t cs m bc gs p]. cbn [map_fluids fc_constituents]. rewrite !map_map. reflexivity.
Qed.
Lemma input_built : forall co2 c i o, writable c -> means c i -> calculate_row co2 i = Ok o ->
  build (map_config Sc (fun x => x) (fill_config c)) = Ok (Some (up_input i)).
Proof.
  intros co2 [ms fl dr pr] [lm g fs q p] o [T1 [T2 [T3 T4]]] [M1 [M2 [M3 [M4 M5]]]] H.
  cbn [cf_minerals cf_fluids cf_dry_rock cf_pressure i_minerals i_fluids i_fluid_fractions i_dry_rock i_pressure] in *. subst fs p.
  unfold calculate_row in H. cbn [i_minerals i_fluids i_fluid_fractions i_dry_rock i_pressure] in H.
  destruct (minerals lm) as [mx|] eqn:E1; [|discriminate]. cbn [bind] in H.
  destruct (complete_fluids _ _) as [fx|] eqn:E2; [|discriminate]. cbn [bind] in H.
  destruct (check_dry_rock q) as [[]|] eqn:E3; [|discriminate]. clear H.
  unfold build. cbn [map_config fill_config cf_minerals cf_fluids cf_dry_rock cf_pressure].
  rewrite (minerals_built ms lm M1). cbn [bind].
  rewrite (proj2 (fluids_mean fl (up_fluids g) T2) (ex_intro _ g (conj M2 eq_refl))). cbn [bind].
  rewrite (proj2 (dry_rock_means dr (up_dry_rock q) T3 T4) (ex_intro _ q (conj M4 eq_refl))). cbn [bind].
  rewrite (fractions_of ms lm M1), (minerals_checked lm mx E1). cbn [bind].
  assert (K : map k_fraction (fc_constituents (map_fluids Sc (fun x => x) fl)) = map RowScalarProofs.opt (map k_fraction (fc_constituents fl)))
    by (clear; destruct fl as [t cs m b gs p]; cbn [map_fluids fc_constituents]; rewrite !map_map; reflexivity).
  rewrite K.
  rewrite sc_complete_fluids, E2. cbn [lift bind]. rewrite sc_check_dry_rock, E3. cbn [bind].
  rewrite all_some_up, pressure_means. unfold up_input. cbn [i_minerals i_fluids i_fluid_fractions i_dry_rock i_pressure].
  do 3 f_equal. clear. induction lm as [|c l IH]; [reflexivity|]. cbn [map combine]. rewrite IH. reflexivity.
Qed.
