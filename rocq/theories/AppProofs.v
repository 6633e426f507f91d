(** Lemmas: the program on a table and on its rows. *)
From Coq Require Import String List ZArith Lia Lra.
From Verif Require Import Base BaseProofs ConfigModel FluidsModel InputModel InputSpec InputProofs MainModel MainSpec MainProofs
  RowModel RowSpec RowProofs RowConfigProofs RowScalarProofs ReadModel AppModel ReadSpec ReadProofs ReadRowProofs.
Import ListNotations.
Open Scope R_scope.

(** ** Insertion *)
Section Insert.
Context (phi : list R -> list R).
Notation mc := (map_columns phi).
Definition map_table (t : table) : table := map (fun nc => (fst nc, phi (snd nc))) t.

Lemma find_column_map : forall t s, find_column (map_table t) s = option_map phi (find_column t s).
Proof.
  intros t s. induction t as [|[n c] t IH]; [reflexivity|]. cbn [map_table map find_column fst snd].
  destruct (String.eqb n s); [reflexivity|exact IH].
Qed.
Lemma insert_column_map : forall t v, insert_column (map_table t) (mc v) = rmap mc (insert_column t v).
Proof.
  intros t v. destruct v; try reflexivity. cbn [insert_column map_columns]. rewrite find_column_map.
  destruct (find_column t s); reflexivity.
Qed.
Lemma reference_map : forall items, (forall n, ~ is_reference (VDict items) n) ->
  forall n, ~ is_reference (VDict (map (fun kv => (fst kv, mc (snd kv))) items)) n.
Proof.
  intros items H n E. unfold is_reference in *. injection E as E. destruct items as [|[k v] [|b l]]; try discriminate E.
  cbn [map fst snd] in E. injection E as -> _. apply (H v). reflexivity.
Qed.
Lemma insert_map : forall t v, insert_from_dataframe (map_table t) (mc v) = rmap mc (insert_from_dataframe t v).
Proof.
  intros t v. induction v as [v H1 H2|l F|items F] using value_tree_ind.
  - rewrite !insert_scalar; try assumption; [reflexivity| |]; intros l E; destruct v; try discriminate E;
      [eapply H1; reflexivity|eapply H2; reflexivity].
  - cbn [map_columns]. rewrite !insert_list_eq.
    assert (E : insert_list (map_table t) (map mc l) = rmap (map mc) (insert_list t l)).
    { induction F as [|v l Hv F IH]; [reflexivity|]. cbn [map insert_list]. rewrite Hv.
      destruct (insert_from_dataframe t v); cbn [rmap bind]; [|reflexivity]. rewrite IH. destruct (insert_list t l); reflexivity. }
    rewrite E. destruct (insert_list t l); reflexivity.
  - destruct (reference_dec items) as [[n ->]|N].
    + cbn [map_columns map fst snd]. rewrite !insert_reference. apply insert_column_map.
    + cbn [map_columns]. rewrite insert_dict_eq by (apply reference_map, N). rewrite insert_dict_eq by exact N.
      assert (E : insert_items (map_table t) (map (fun kv => (fst kv, mc (snd kv))) items)
                  = rmap (map (fun kv => (fst kv, mc (snd kv)))) (insert_items t items)).
      { clear N. induction F as [|[k v] l Hv F IH]; [reflexivity|]. cbn [map insert_items fst snd] in *. rewrite Hv.
        destruct (insert_from_dataframe t v); cbn [rmap bind]; [|reflexivity]. rewrite IH. destruct (insert_items t l); reflexivity. }
      rewrite E. destruct (insert_items t items); reflexivity.
Qed.
Lemma plain_map : forall v, plain v -> mc v = v.
Proof.
  intros v. induction v as [v H1 H2|l F|items F] using value_tree_ind; intros P.
  - destruct v; try reflexivity; try (exfalso; eapply H1; reflexivity); try (exfalso; eapply H2; reflexivity).
    + inversion P as [v A B C D| |]; subst. exfalso. eapply C. reflexivity.
    + inversion P as [v A B C D| |]; subst. exfalso. eapply D. reflexivity.
  - cbn [map_columns]. f_equal. inversion P as [v A| l' A B|]; subst; [exfalso; eapply A; reflexivity|].
    rewrite <- (map_id l) at 2. apply map_ext_in. intros v Hv. rewrite Forall_forall in *. apply F; [exact Hv|apply A, Hv].
  - cbn [map_columns]. f_equal. inversion P as [v A B| |l' A]; subst; [exfalso; eapply B; reflexivity|].
    rewrite <- (map_id items) at 2. apply map_ext_in. intros [k v] Hv. rewrite Forall_forall in *. cbn [fst snd]. f_equal.
    apply (F (k, v)); [exact Hv|apply (A (k, v)), Hv].
Qed.
Lemma set_key_map : forall k v items, map (fun kv => (fst kv, mc (snd kv))) (set_key k v items)
  = set_key k (mc v) (map (fun kv => (fst kv, mc (snd kv))) items).
Proof.
  intros k v items. induction items as [|[k' v'] items IH]; [reflexivity|]. cbn [set_key map fst snd].
  destruct (String.eqb k' k); cbn [map fst snd]; [reflexivity|]. rewrite IH. reflexivity.
Qed.
Lemma insert_dataframe_map : forall items t, plain (VDict items) ->
  insert_dataframe items (Some (map_table t)) = rmap mc (insert_dataframe items (Some t)).
Proof.
  intros items t P. unfold insert_dataframe. rewrite <- insert_map. f_equal. cbn [map_columns]. f_equal.
  rewrite set_key_map. pose proof (plain_map _ P) as E. cbn [map_columns] in E. injection E as E. rewrite E. reflexivity.
Qed.
End Insert.

(** [plain], but for the data frame itself. *)
Inductive sane : value -> Prop :=
  | sane_leaf : forall v, (forall l, v <> VList l) -> (forall l, v <> VDict l) -> (forall l, v <> VArray l) -> sane v
  | sane_list : forall l, Forall sane l -> Forall (fun v => forall n, ~ is_reference v n) l -> sane (VList l)
  | sane_dict : forall items, Forall (fun kv => sane (snd kv)) items -> sane (VDict items).
Lemma plain_sane : forall v, plain v -> sane v.
Proof.
  intros v. induction v as [v H1 H2|l F|items F] using value_tree_ind; intros P.
  - inversion P; subst; [apply sane_leaf; assumption|exfalso; eapply H1; reflexivity|exfalso; eapply H2; reflexivity].
  - inversion P as [v A|l' A B|]; subst; [exfalso; eapply A; reflexivity|]. apply sane_list; [|assumption].
    rewrite Forall_forall in *. intros v Hv. apply F; [exact Hv|apply A, Hv].
  - inversion P as [v A B| |l' A]; subst; [exfalso; eapply B; reflexivity|]. apply sane_dict.
    rewrite Forall_forall in *. intros v Hv. apply F; [exact Hv|apply A, Hv].
Qed.
Lemma insert_tame : forall t v, sane v -> forall v', insert_from_dataframe t v = Ok v' -> tame v'.
Proof.
  intros t v. induction v as [v H1 H2|l F|items F] using value_tree_ind; intros P v' E.
  - rewrite insert_scalar in E by assumption. injection E as <-. apply tame_leaf; assumption.
  - rewrite insert_list_eq in E. destruct (insert_list t l) as [r|] eqn:L; [|discriminate]. injection E as <-.
    inversion P as [v A|l' A B|]; subst; [exfalso; eapply A; reflexivity|].
    cut (Forall tame r /\ Forall (fun v => forall c, v <> VArray c) r); [intros [X Y]; apply tame_list; assumption|].
    clear P. revert r L. induction l as [|v l IH]; intros r L; cbn [insert_list] in L.
    + injection L as <-. split; constructor.
    + destruct (insert_from_dataframe t v) as [w|] eqn:Ev; [|discriminate]. cbn [bind] in L.
      destruct (insert_list t l) as [r'|]; [|discriminate]. injection L as <-.
      inversion F; inversion A; inversion B; subst.
      destruct (IH ltac:(assumption) ltac:(assumption) ltac:(assumption) r' eq_refl) as [X Y].
      split; constructor; try assumption; [auto|]. intros c ->.
      pose proof (insert_replaces t v _ Ev) as R. inversion R; subst.
      * match goal with H : forall n, ~ is_reference _ n |- _ => eapply H; reflexivity end.
      * match goal with H : sane (VArray c) |- _ => inversion H as [? ? ? C| |]; subst; eapply C; reflexivity end.
  - destruct (reference_dec items) as [[n ->]|N].
    + rewrite insert_reference in E. destruct n; try discriminate E. cbn [insert_column] in E.
      destruct (find_column t s); [|discriminate]. injection E as <-. apply tame_leaf; intros ?; discriminate.
    + rewrite insert_dict_eq in E by exact N. destruct (insert_items t items) as [r|] eqn:L; [|discriminate]. injection E as <-.
      inversion P as [v A B| |l' A]; subst; [exfalso; eapply B; reflexivity|]. apply tame_dict.
      clear P N. revert r L. induction items as [|[k v] l IH]; intros r L; cbn [insert_items] in L.
      * injection L as <-. constructor.
      * destruct (insert_from_dataframe t v) as [w|] eqn:Ev; [|discriminate]. cbn [bind] in L.
        destruct (insert_items t l) as [r'|]; [|discriminate]. injection L as <-.
        inversion F; inversion A; subst. constructor; [cbn [snd] in *; auto|]. apply IH; [assumption|assumption|reflexivity].
Qed.

Lemma insert_dataframe_tame : forall items t v, plain (VDict items) -> insert_dataframe items (Some t) = Ok v -> tame v.
Proof.
  intros items t v P E. unfold insert_dataframe in E. eapply insert_tame; [|exact E]. apply sane_dict.
  apply plain_sane in P. inversion P as [w A B| |l A]; subst; [exfalso; eapply B; reflexivity|].
  rewrite Forall_forall in *. intros [k w] H. apply set_key_in in H. destruct H as [[-> ->]|H]; [|apply (A _ H)].
  apply sane_leaf; intros ?; discriminate.
Qed.

(** ** The values of a configuration *)
Section Values.
Context {X Y : Type} (f : X -> Y) (g : nd -> nd).
Lemma opt_map : forall {A B} (h : A -> B) x, opt (option_map h x) = map h (opt x).
Proof. intros A B h [x|]; reflexivity. Qed.
Lemma flat_map_map : forall {A A' B B'} (h : A -> A') (v : A -> list B) (v' : A' -> list B') (e : B -> B') l,
  (forall a, v' (h a) = map e (v a)) -> flat_map v' (map h l) = map e (flat_map v l).
Proof.
  intros A A' B B' h v v' e l H. induction l as [|a l IH]; [reflexivity|]. cbn [map flat_map].
  rewrite map_app, H, IH. reflexivity.
Qed.
Lemma vals_arbitrary_map : forall a, vals_arbitrary (map_arbitrary f a) = map f (vals_arbitrary a).
Proof. intros [a b c d e]. unfold vals_arbitrary. cbn. rewrite !map_app, !opt_map. reflexivity. Qed.
Lemma vals_constituent_map : forall c, vals_constituent (map_constituent f c) = map f (vals_constituent c).
Proof.
  intros [m x p]. unfold vals_constituent. cbn [map_constituent k_material k_fraction]. rewrite map_app, opt_map.
  destruct m; cbn [map_material vals_material]; rewrite ?vals_arbitrary_map; reflexivity.
Qed.
Lemma vals_friable_map : forall c, vals_friable (map_friable f c) = map f (vals_friable c).
Proof. intros [a b c]. unfold vals_friable. cbn. rewrite opt_map. reflexivity. Qed.
Lemma vals_patchy_map : forall c, vals_patchy (map_patchy f c) = map f (vals_patchy c).
Proof.
  intros [a b c d e q s]. unfold vals_patchy. cbn [map_patchy pc_cement pc_critical pc_cement_fraction pc_lower_pressure
    pc_upper_fraction pc_coordination pc_shear_reduction]. rewrite !map_app, opt_map, vals_arbitrary_map. reflexivity.
Qed.
Lemma vals_dependency_map : forall c, vals_dependency (map_dependency f g c) = map f (vals_dependency c).
Proof. intros [p|q|a b c|c|c|c]; cbn [map_dependency vals_dependency]; try reflexivity; [apply vals_patchy_map|apply vals_friable_map]. Qed.
Lemma vals_sandstone_map : forall c, vals_sandstone (map_sandstone f g c) = map f (vals_sandstone c).
Proof. intros [p|q|c]; cbn [map_sandstone vals_sandstone]; try reflexivity; [apply vals_patchy_map|apply vals_friable_map]. Qed.
Lemma vals_adjustment_map : forall c, vals_adjustment (map_adjustment f g c) = map f (vals_adjustment c).
Proof.
  intros [d c r m|m]; cbn [map_adjustment vals_adjustment]; [|apply vals_dependency_map].
  cbn [map]. rewrite map_app, !opt_map. reflexivity.
Qed.
Lemma vals_config_map : forall c, vals_config (map_config f g c) = map f (vals_config c).
Proof.
  intros [ms [t cs mm b gs p] [md po l] [o r fl m rk]]. unfold vals_config.
  cbn [map_config map_fluids map_dry_rock map_pressure cf_minerals cf_fluids cf_dry_rock cf_pressure fc_temperature
    fc_constituents dc_model dc_porosity dc_adjustments pr_overburden pr_reference pr_fluid pr_max_effective pr_rock].
  rewrite !map_app. cbn [map]. rewrite !map_app, !opt_map.
  rewrite (flat_map_map (map_constituent f) vals_constituent vals_constituent f ms vals_constituent_map).
  rewrite (flat_map_map (map_constituent f) vals_constituent vals_constituent f cs vals_constituent_map).
  rewrite (flat_map_map (map_adjustment f g) vals_adjustment vals_adjustment f l vals_adjustment_map).
  rewrite vals_sandstone_map. reflexivity.
Qed.
End Values.

(** Maps that agree on the values of a configuration. *)
Section Extension.
Context {X Y : Type} (f f' : X -> Y) (g g' : nd -> nd).
Notation F := (Forall (fun x => f x = f' x)).
Notation G := (Forall (fun x => g x = g' x)).
Ltac split_all := repeat match goal with
  | H : Forall _ (_ :: _) |- _ => let A := fresh in let B := fresh in apply Forall_cons_iff in H; destruct H as [A B]
  | H : Forall _ (_ ++ _) |- _ => let A := fresh in let B := fresh in apply Forall_app in H; destruct H as [A B]
  end.
Lemma opt_ext : forall {A B} (h h' : A -> B) x, Forall (fun x => h x = h' x) (opt x) -> option_map h x = option_map h' x.
Proof. intros A B h h' [x|] H; [|reflexivity]. inversion H; subst. cbn. f_equal. assumption. Qed.
Lemma map_flat_ext : forall {A A' B} (P : B -> Prop) (v : A -> list B) (h h' : A -> A') l,
  (forall a, Forall P (v a) -> h a = h' a) -> Forall P (flat_map v l) -> map h l = map h' l.
Proof.
  intros A A' B P v h h' l H. induction l as [|a l IH]; intros K; [reflexivity|]. cbn [map flat_map] in *.
  apply Forall_app in K. destruct K as [K1 K2]. rewrite (H a K1), (IH K2). reflexivity.
Qed.
Lemma arbitrary_ext : forall a, F (vals_arbitrary a) -> map_arbitrary f a = map_arbitrary f' a.
Proof.
  intros [a b c d e] H. unfold vals_arbitrary in H. cbn [a_density a_bulk a_shear a_vs a_vp] in H. split_all.
  unfold map_arbitrary. cbn [a_density a_bulk a_shear a_vs a_vp]. f_equal; (assumption || apply opt_ext; assumption).
Qed.
Lemma constituent_ext : forall c, F (vals_constituent c) -> map_constituent f c = map_constituent f' c.
Proof.
  intros [m x p] H. unfold vals_constituent in H. cbn [k_material k_fraction] in H. split_all.
  unfold map_constituent. cbn [k_material k_fraction k_fluid_model]. f_equal; [|apply opt_ext; assumption].
  destruct m; cbn [map_material vals_material] in *; split_all; f_equal; try assumption. apply arbitrary_ext. assumption.
Qed.
Lemma friable_ext : forall c, F (vals_friable c) -> map_friable f c = map_friable f' c.
Proof.
  intros [a b c] H. unfold vals_friable in H. cbn [fr_critical fr_shear_reduction fr_coordination] in H. split_all.
  unfold map_friable. cbn [fr_critical fr_shear_reduction fr_coordination]. f_equal; (assumption || apply opt_ext; assumption).
Qed.
Lemma patchy_ext : forall c, F (vals_patchy c) -> map_patchy f c = map_patchy f' c.
Proof.
  intros [a b c d e q s] H. unfold vals_patchy in H. cbn [pc_cement pc_critical pc_cement_fraction pc_lower_pressure
    pc_upper_fraction pc_coordination pc_shear_reduction] in H. split_all.
  unfold map_patchy. cbn [pc_cement pc_critical pc_cement_fraction pc_lower_pressure
    pc_upper_fraction pc_coordination pc_shear_reduction]. f_equal; try assumption; [apply arbitrary_ext; assumption|apply opt_ext; assumption].
Qed.
Lemma coefficients_ext : forall c, G (fixed_coefficients c) -> map_coefficients g c = map_coefficients g' c.
Proof.
  intros [k a b c] H. unfold fixed_coefficients in H. cbn [c_density c_primary c_secondary] in H. split_all.
  unfold map_coefficients. cbn [c_flavour c_density c_primary c_secondary]. f_equal; apply opt_ext; assumption.
Qed.
Lemma dependency_ext : forall c, F (vals_dependency c) -> G (fixed_dependency c) -> map_dependency f g c = map_dependency f' g' c.
Proof.
  intros [p|q|a b c|c|c|c] H K; cbn [vals_dependency fixed_dependency map_dependency] in *; f_equal;
    try (apply patchy_ext; assumption); try (apply friable_ext; assumption); try (apply coefficients_ext; assumption);
    split_all; apply opt_ext; assumption.
Qed.
Lemma sandstone_ext : forall c, F (vals_sandstone c) -> G (fixed_sandstone c) -> map_sandstone f g c = map_sandstone f' g' c.
Proof.
  intros [p|q|[c|]] H K; cbn [vals_sandstone fixed_sandstone map_sandstone option_map] in *; try reflexivity; f_equal.
  - apply patchy_ext; assumption.
  - apply friable_ext; assumption.
  - f_equal. apply coefficients_ext; assumption.
Qed.
Lemma adjustment_ext : forall c, F (vals_adjustment c) -> G (fixed_adjustment c) -> map_adjustment f g c = map_adjustment f' g' c.
Proof.
  intros [d c r m|m] H K; cbn [vals_adjustment fixed_adjustment map_adjustment] in *; f_equal.
  - split_all. assumption.
  - apply coefficients_ext; assumption.
  - split_all. apply opt_ext; assumption.
  - split_all. apply opt_ext; assumption.
  - apply dependency_ext; assumption.
Qed.
Lemma config_ext : forall c, F (vals_config c) -> G (fixed_config c) -> map_config f g c = map_config f' g' c.
Proof.
  intros [ms [t cs mm b gs p] [md po l] [o r fl m rk]] H K. unfold vals_config in H. unfold fixed_config, fixed_fluids in K.
  cbn [cf_minerals cf_fluids cf_dry_rock cf_pressure fc_temperature fc_constituents fc_brie_constant fc_brie_gases
    dc_model dc_porosity dc_adjustments pr_overburden pr_reference pr_fluid pr_max_effective pr_rock] in *.
  apply Forall_app in H. destruct H as [Hm H]. apply Forall_app in H. destruct H as [Hf H]. apply Forall_app in H. destruct H as [Hd Hp].
  apply Forall_app in K. destruct K as [Kf K]. apply Forall_app in K. destruct K as [Kd Ka]. split_all.
  unfold map_config, map_fluids, map_dry_rock, map_pressure.
  cbn [cf_minerals cf_fluids cf_dry_rock cf_pressure fc_temperature fc_constituents fc_brie_constant fc_brie_gases fc_mix_method fc_fluid_model
    dc_model dc_porosity dc_adjustments pr_overburden pr_reference pr_fluid pr_max_effective pr_rock].
  f_equal.
  - eapply map_flat_ext; [apply constituent_ext|assumption].
  - f_equal; try assumption.
    + eapply map_flat_ext; [apply constituent_ext|assumption].
    + destruct gs as [gs|]; [|reflexivity]. cbn [option_map]. f_equal. apply map_ext_in.
      apply Forall_forall. assumption.
  - f_equal; try assumption.
    + apply sandstone_ext; assumption.
    + match goal with A : Forall _ (flat_map vals_adjustment l) |- _ => clear -A Ka end.
      induction l as [|a l IH]; [reflexivity|]. cbn [flat_map map] in *. split_all. f_equal; [apply adjustment_ext; assumption|].
      apply IH; assumption.
  - f_equal; try assumption; apply opt_ext; assumption.
Qed.
End Extension.

Section Compose.
Context {X Y Z : Type} (f : X -> Y) (g : nd -> nd) (f' : Y -> Z) (g' : nd -> nd).
Lemma opt_compose : forall {A B C} (h : A -> B) (h' : B -> C) x,
  option_map h' (option_map h x) = option_map (fun a => h' (h a)) x.
Proof. intros A B C h h' [x|]; reflexivity. Qed.
Lemma map_compose : forall c, map_config f' g' (map_config f g c) = map_config (fun x => f' (f x)) (fun x => g' (g x)) c.
Proof.
  assert (Ea : forall a, map_arbitrary f' (map_arbitrary f a) = map_arbitrary (fun x => f' (f x)) a).
  { intros [a b c d e]. unfold map_arbitrary. cbn [a_density a_bulk a_shear a_vs a_vp]. rewrite !opt_compose. reflexivity. }
  assert (Ec : forall a, map_constituent f' (map_constituent f a) = map_constituent (fun x => f' (f x)) a).
  { intros [m x p]. unfold map_constituent. cbn [k_material k_fraction k_fluid_model]. rewrite !opt_compose. f_equal.
    destruct m; cbn [map_material]; rewrite ?Ea; reflexivity. }
  assert (Ef : forall a, map_friable f' (map_friable f a) = map_friable (fun x => f' (f x)) a).
  { intros [a b c]. unfold map_friable. cbn [fr_critical fr_shear_reduction fr_coordination]. rewrite !opt_compose. reflexivity. }
  assert (Ep : forall a, map_patchy f' (map_patchy f a) = map_patchy (fun x => f' (f x)) a).
  { intros [a b c d e q s]. unfold map_patchy. cbn [pc_cement pc_critical pc_cement_fraction pc_lower_pressure
    pc_upper_fraction pc_coordination pc_shear_reduction]. rewrite Ea, !opt_compose. reflexivity. }
  assert (Ek : forall a, map_coefficients g' (map_coefficients g a) = map_coefficients (fun x => g' (g x)) a).
  { intros [k a b c]. unfold map_coefficients. cbn [c_flavour c_density c_primary c_secondary]. rewrite !opt_compose. reflexivity. }
  assert (Ed : forall a, map_dependency f' g' (map_dependency f g a) = map_dependency (fun x => f' (f x)) (fun x => g' (g x)) a).
  { intros [p|q|a b c|c|c|c]; cbn [map_dependency]; rewrite ?Ep, ?Ef, ?Ek, ?opt_compose; reflexivity. }
  assert (Es : forall a, map_sandstone f' g' (map_sandstone f g a) = map_sandstone (fun x => f' (f x)) (fun x => g' (g x)) a).
  { intros [p|q|[c|]]; cbn [map_sandstone option_map]; rewrite ?Ep, ?Ef, ?Ek; reflexivity. }
  assert (Ej : forall a, map_adjustment f' g' (map_adjustment f g a) = map_adjustment (fun x => f' (f x)) (fun x => g' (g x)) a).
  { intros [d c r m|m]; cbn [map_adjustment]; rewrite ?Ek, ?Ed, ?opt_compose; reflexivity. }
  intros [ms [t cs mm b gs p] [md po l] [o r fl m rk]]. unfold map_config, map_fluids, map_dry_rock, map_pressure.
  cbn [cf_minerals cf_fluids cf_dry_rock cf_pressure fc_temperature fc_constituents fc_brie_constant fc_brie_gases fc_mix_method fc_fluid_model
    dc_model dc_porosity dc_adjustments pr_overburden pr_reference pr_fluid pr_max_effective pr_rock].
  rewrite !map_map, Es, !opt_compose.
  rewrite !(map_ext _ _ Ec), (map_ext _ _ Ej). f_equal. f_equal.
  destruct gs; cbn [option_map]; rewrite ?map_map; reflexivity.
Qed.
End Compose.

(** ** One row and the table *)
Lemma frame_map : forall header rows (phi : list R -> list R) rows',
  (forall h : row -> R, phi (map h rows) = map h rows') -> frame header rows' = map_table phi (frame header rows).
Proof.
  intros header rows phi rows' H. unfold frame, map_table. rewrite map_map. apply map_ext. intros [j s]. cbn [fst snd].
  rewrite H. reflexivity.
Qed.
Lemma frame_row : forall header rows i r, nth_error rows i = Some r ->
  frame header [r] = map_table (row_of i) (frame header rows).
Proof. intros header rows i r H. apply frame_map. intros h. unfold row_of. rewrite nth_error_map, H. reflexivity. Qed.

Definition marker (n : nat) (l : list R) : list R := if Nat.eqb (List.length l) n then l else 0 :: l.
Lemma marker_length : forall n l, marker n l = l -> List.length l = n.
Proof.
  intros n l H. unfold marker in H. destruct (Nat.eqb (List.length l) n) eqn:E; [apply Nat.eqb_eq, E|].
  apply (f_equal (@List.length R)) in H. cbn [List.length] in H. lia.
Qed.
Lemma marker_id : forall n l, List.length l = n -> marker n l = l.
Proof. intros n l <-. unfold marker. rewrite Nat.eqb_refl. reflexivity. Qed.

Section OneRow.
Context (st : strings) (header : list string) (items : list (string * value)) (rows : list row).
Context (P : plain (VDict items)).
Notation n := (List.length rows).
Notation t := (frame header rows).

Lemma read_row : forall i r, nth_error rows i = Some r ->
  (let* v := insert_dataframe items (Some (frame header [r])) in read_config st v) =
  rmap (map_config (on_column (row_of i)) (on_column (row_of i)))
    (let* v := insert_dataframe items (Some t) in read_config st v).
Proof.
  intros i r H. rewrite (frame_row header rows i r H), insert_dataframe_map by exact P.
  destruct (insert_dataframe items (Some t)) as [v|e] eqn:E; cbn [rmap bind]; [|reflexivity].
  apply config_commutes. eapply insert_dataframe_tame; eassumption.
Qed.

Lemma read_lengths : forall v c, insert_dataframe items (Some t) = Ok v -> read_config st v = Ok c ->
  Forall (fun x => match x with NCol l => List.length l = n | _ => True end) (vals_config c).
Proof.
  intros v c E F. pose proof (insert_dataframe_tame items t v P E) as T.
  pose proof (insert_dataframe_map (marker n) items t P) as M.
  replace (map_table (marker n) t) with t in M.
  - rewrite E in M. cbn [rmap] in M. injection M as M. pose proof (config_commutes st (marker n) v T) as K.
    rewrite <- M, F in K. cbn [rmap] in K. injection K as K.
    apply (f_equal vals_config) in K. rewrite vals_config_map in K.
    remember (vals_config c) as l. clear Heql. induction l as [|x l IH]; [constructor|]. cbn [map] in K. injection K as K1 K2.
    constructor; [|apply IH, K2]. destruct x; try exact I. cbn [on_column] in K1. injection K1 as K1. symmetry in K1. apply marker_length, K1.
  - apply frame_map. intros h. apply marker_id. apply map_length.
Qed.

Lemma all_equal_const : forall (l : list nat) k, Forall (fun x => x = k) l -> all_equal l = true.
Proof.
  intros l k H. destruct H as [|x l -> H]; [reflexivity|]. cbn [all_equal]. apply forallb_forall. rewrite Forall_forall in H.
  intros y Hy. rewrite (H y Hy). apply Nat.eqb_refl.
Qed.
Lemma per_row_ok : forall (c : config nd) k, Forall row_value (vals_config c) ->
  Forall (fun x => match x with NCol l => List.length l = k | _ => True end) (vals_config c) ->
  per_row c = Ok (map_config arr_of (fun x => x) c).
Proof.
  intros c k A B. unfold per_row. replace (existsb matrix (vals_config c)) with false.
  - rewrite (all_equal_const _ k); [reflexivity|]. unfold lengths. rewrite Forall_forall in *. intros y Hy.
    apply in_flat_map in Hy. destruct Hy as [x [Hx Hy]]. specialize (A x Hx). specialize (B x Hx).
    destruct x; cbn in A, Hy; try contradiction. destruct Hy as [<-|[]]. exact B.
  - symmetry. apply Bool.not_true_iff_false. intros E. apply existsb_exists in E. destruct E as [x [Hx E]].
    rewrite Forall_forall in A. specialize (A x Hx). destruct x; try discriminate E. exact A.
Qed.

Lemma per_row_iff : forall c : config nd, is_ok (per_row c) <->
  exists k, Forall (fun x => match x with N0 _ => True | N1 l | NCol l => List.length l = k | N2 _ => False end) (vals_config c).
Proof.
  intros c. unfold per_row. split.
  - intros [c' H]. destruct (existsb matrix (vals_config c)) eqn:M; [discriminate|].
    destruct (all_equal (lengths (vals_config c))) eqn:E; [|discriminate]. clear H.
    exists (hd 0%nat (lengths (vals_config c))). apply Forall_forall. intros x Hx.
    assert (Q : forall n, In n (lengths (vals_config c)) -> n = hd 0%nat (lengths (vals_config c))).
    { destruct (lengths (vals_config c)) as [|k l]; intros n []; cbn [hd]; [congruence|].
      cbn [all_equal] in E. rewrite forallb_forall in E. specialize (E n H). apply Nat.eqb_eq in E. congruence. }
    destruct x as [|l|l|m]; [exact I| | |].
    + apply Q. unfold lengths. apply in_flat_map. eexists. split; [exact Hx|]. left. reflexivity.
    + apply Q. unfold lengths. apply in_flat_map. eexists. split; [exact Hx|]. left. reflexivity.
    + assert (X : existsb matrix (vals_config c) = true) by (apply existsb_exists; eexists; split; [exact Hx|reflexivity]). congruence.
  - intros [k F]. rewrite Forall_forall in F.
    replace (existsb matrix (vals_config c)) with false.
    + rewrite (all_equal_const _ k); [eexists; reflexivity|]. unfold lengths. apply Forall_forall. intros y Hy.
      apply in_flat_map in Hy. destruct Hy as [x [Hx Hy]]. specialize (F x Hx).
      destruct x; cbn in Hy; try contradiction; destruct Hy as [<-|[]]; exact F.
    + symmetry. apply Bool.not_true_iff_false. intros E. apply existsb_exists in E. destruct E as [x [Hx E]].
      specialize (F x Hx). destruct x; try discriminate E. exact F.
Qed.

Lemma parse_rows_agree : (0 < n)%nat -> constants_and_columns st header items ->
  agree true true n (parse_input st items (Some t))
    (fun i => match nth_error rows i with Some r => parse_input st items (Some (frame header [r])) | None => Err OtherError end).
Proof.
  intros Hn CC.
  assert (E : forall d, parse_input st items d =
      let* c := (let* v := insert_dataframe items d in read_config st v) in let* c := per_row c in build c).
  { intros d. unfold parse_input. destruct (insert_dataframe items d); reflexivity. }
  rewrite E. destruct (let* v := insert_dataframe items (Some t) in read_config st v) as [c|e] eqn:R.
  - cbn [bind].
    assert (C : rowwise c /\ Forall (fun x => match x with NCol l => List.length l = n | _ => True end) (vals_config c)).
    { destruct (insert_dataframe items (Some t)) as [v|] eqn:I; [|discriminate R]. cbn [bind] in R.
      split; [exact (CC rows v c I R)|exact (read_lengths v c I R)]. }
    destruct C as [[C1 C2] C3]. rewrite (per_row_ok c n C1 C3). cbn [bind].
    eapply agree_ext; [apply (row_build true true n Hn (map_config arr_of (fun x => x) c)) |].
    + rewrite vals_config_map. rewrite Forall_forall in *. intros a Ha. apply in_map_iff in Ha. destruct Ha as [x [<- Hx]].
      specialize (C1 x Hx). specialize (C3 x Hx). destruct x; try contradiction; cbn; [exact I|exact C3].
    + intros i Hi. cbv beta. destruct (nth_error rows i) as [r|] eqn:N; [|apply nth_error_None in N; lia].
      rewrite E, (read_row i r N), R. cbn [rmap bind].
      rewrite (per_row_ok (map_config (on_column (row_of i)) (on_column (row_of i)) c) 1).
      * cbn [bind]. f_equal. rewrite !map_compose. apply config_ext.
        -- rewrite Forall_forall in *. intros x Hx. specialize (C1 x Hx). specialize (C3 x Hx).
           destruct x; try contradiction; cbn; [reflexivity|]. unfold row_of.
           destruct (nth_error l i) eqn:L; [reflexivity|]. apply nth_error_None in L. lia.
        -- rewrite Forall_forall in *. intros x Hx. specialize (C2 x Hx). destruct x; try contradiction; reflexivity.
      * rewrite vals_config_map. rewrite Forall_forall in *. intros a Ha. apply in_map_iff in Ha. destruct Ha as [x [<- Hx]].
        specialize (C1 x Hx). destruct x; try contradiction; exact I.
      * rewrite vals_config_map. rewrite Forall_forall in *. intros a Ha. apply in_map_iff in Ha. destruct Ha as [x [<- Hx]].
        specialize (C1 x Hx). specialize (C3 x Hx). destruct x; try contradiction; cbn; [exact I|]. unfold row_of.
        destruct (nth_error l i) eqn:L; [reflexivity|]. apply nth_error_None in L. lia.
  - right. exists 0%nat. split; [exact Hn|]. destruct (nth_error rows 0) as [r|] eqn:N; [|apply nth_error_None in N; lia].
    rewrite E, (read_row 0 r N), R. reflexivity.
Qed.

Lemma frame_columns_ok : forall k o, wf_output k o -> frame_columns k o = Ok (result_rows k o).
Proof.
  intros k [a b c d e f] [H1 [H2 [H3 [H4 [H5 H6]]]]]. unfold frame_columns.
  cbn [bo_ksat bo_kmin bo_kdry bo_mysat bo_rsat bo_kmin_fls] in *.
  assert (F : forall x : arr R, wfa k x -> fits k x = true).
  { intros [x|l] H; [reflexivity|]. cbn in *. apply Nat.eqb_eq, H. }
  cbn [forallb]. rewrite !F by assumption. reflexivity.
Qed.
Lemma calculate_input_results : forall co2 k inp, (0 < k)%nat -> wf_input k inp ->
  calculate_input co2 k (Some inp) = b_results co2 k inp.
Proof.
  intros co2 k inp Hk Wi. unfold calculate_input, b_results.
  pose proof (row_calculate true true k Hk co2 inp Wi (or_introl eq_refl)) as A.
  destruct (b_calculate_results co2 inp) as [o|e]; [|reflexivity]. cbn [bind]. apply frame_columns_ok, A.
Qed.
End OneRow.

Lemma obs_wf : forall n i {A} (a : arr A), (i < n)%nat -> wfa n a -> wfa 1 (obs true i a).
Proof.
  intros n i A [x|l] Hi H; [exact I|]. cbn in *. destruct (nth_error l i) eqn:E; [reflexivity|]. apply nth_error_None in E. lia.
Qed.

Section ObsWf.
Context (n i : nat) (Hi : (i < n)%nat).
Lemma obs_wfo : forall a, wfo n a -> wfo 1 (obs_option true i a).
Proof. intros [a|] H; [|exact I]. cbn in *. apply (obs_wf n); assumption. Qed.
Lemma obs_wfm : forall m, wfm n m -> wfm 1 (obs_mat true i m).
Proof. intros m [A [B [C [D E]]]]. repeat split; apply (obs_wf n); assumption. Qed.
Lemma obs_wf_friable : forall m, wf_friable n m -> wf_friable 1 (obs_friable true i m).
Proof. intros m [A [B C]]. repeat split; apply (obs_wf n); assumption. Qed.
Lemma obs_wf_patchy : forall m, wf_patchy n m -> wf_patchy 1 (obs_patchy true i m).
Proof. intros m [A B]. decompose [and] B. repeat split; try (apply (obs_wf n); assumption); apply (obs_wfm (bpa_cement m) A). Qed.
Lemma obs_wf_dependency : forall m, wf_dependency n m -> wf_dependency 1 (obs_dependency true i m).
Proof. intros [c|c|c|d b v|f|q] H; cbn in *; try exact I; [apply obs_wf_friable, H|apply obs_wf_patchy, H]. Qed.
Lemma obs_wf_adjustment : forall a, wf_adjustment n a -> wf_adjustment 1 (obs_adjustment true i a).
Proof.
  intros [t|md] H; cbn in *; [|apply obs_wf_dependency, H]. destruct H as [A [B C]].
  split; [apply (obs_wf n); assumption|]. split; apply obs_wfo; assumption.
Qed.
Lemma forall_map : forall {A B} (P : A -> Prop) (Q : B -> Prop) (h : A -> B) l,
  (forall a, P a -> Q (h a)) -> Forall P l -> Forall Q (map h l).
Proof. intros A B P Q h l H F. induction F; cbn [map]; constructor; auto. Qed.
Lemma obs_wf_input : forall inp, wf_input n inp -> wf_input 1 (obs_input true i inp).
Proof.
  intros inp [A [[B1 B2] [C [[D1 [D2 D3]] [E1 [E2 [E3 [E4 E5]]]]]]]]. unfold wf_input, obs_input.
  cbn [bi_minerals bi_fluids bi_fluid_fractions bi_dry_rock bi_pressure].
  split; [|split; [|split; [|split]]].
  - eapply forall_map; [|exact A]. intros [m x] [H1 H2]. split; [apply obs_wfm, H1|apply obs_wfo, H2].
  - split; [apply (obs_wf n); assumption|]. cbn [obs_fluids bf_constituents]. eapply forall_map; [|exact B2].
    intros c [H1 H2]. split; [|apply (obs_wf n); assumption]. cbn [obs_constituent bc_material].
    destruct (bc_material c); cbn [wf_fluid obs_fluid] in *; try exact I; try (apply obs_wfm, H1);
      try (apply (obs_wf n); assumption); decompose [and] H1; repeat split; apply (obs_wf n); assumption.
  - eapply forall_map; [|exact C]. apply obs_wfo.
  - split; [|split].
    + cbn [obs_dry_rock bdr_model]. destruct (bdr_model (bi_dry_rock inp)); cbn in *; [exact I|apply obs_wf_friable, D1|apply obs_wf_patchy, D1].
    + apply (obs_wf n); assumption.
    + cbn [obs_dry_rock bdr_adjustments]. eapply forall_map; [|exact D3]. apply obs_wf_adjustment.
  - unfold wf_pressure, obs_pressure. cbn [bp_overburden bp_reference bp_fluid bp_max_effective bp_rock].
    split; [apply (obs_wf n); assumption|]. split; [apply (obs_wf n); assumption|].
    split; [apply obs_wfo; assumption|]. split; apply obs_wfo; assumption.
Qed.
End ObsWf.

(** ** The rows of a run *)
Lemma rows_alone : forall co2 st header items rows outs, plain (VDict items) -> rows <> [] ->
  constants_and_columns st header items ->
  (gives_rows co2 st header items rows outs <->
   List.length outs = List.length rows /\
   forall i r, nth_error rows i = Some r ->
     exists o, nth_error outs i = Some o /\ gives_rows co2 st header items [r] [o]).
Proof.
  intros co2 st header items rows outs P Hr CC.
  assert (Hn : (0 < List.length rows)%nat) by (destruct rows; [congruence|cbn; lia]).
  pose proof (parse_rows_agree st header items rows P Hn CC) as A.
  assert (One : forall r out, gives_rows co2 st header items [r] out <->
     exists inp, parse_input st items (Some (frame header [r])) = Ok inp /\ calculate_input co2 1 inp = Ok out)
    by (intros; reflexivity).
  destruct (parse_input st items (Some (frame header rows))) as [[inp|]|e] eqn:E.
  - destruct A as [Wi A]. cbn [sized batch_option batch_input] in Wi.
    assert (Row : forall i r o, nth_error rows i = Some r ->
        (gives_rows co2 st header items [r] [o] <-> b_results co2 1 (obs_input true i inp) = Ok [o])).
    { intros i r o N. assert (Hi : (i < List.length rows)%nat) by (apply nth_error_Some; rewrite N; discriminate).
      specialize (A i Hi). cbv beta in A. rewrite N in A. cbn [at_row batch_option batch_input] in A.
      assert (Q : calculate_input co2 1 (Some (obs_input true i inp)) = b_results co2 1 (obs_input true i inp))
        by (apply calculate_input_results; [lia|apply (obs_wf_input _ i Hi), Wi]).
      rewrite One. split.
      - intros [x [X Y]]. rewrite A in X. injection X as <-. rewrite <- Q. exact Y.
      - intros Y. exists (Some (obs_input true i inp)). split; [exact A|]. rewrite Q. exact Y. }
    pose proof (batch_rows co2 (List.length rows) inp outs Hn Wi) as B.
    split.
    + intros [x [X Y]]. rewrite E in X. injection X as <-. rewrite calculate_input_results in Y by assumption.
      apply B in Y. destruct Y as [L Y]. split; [exact L|]. intros i r N.
      assert (Hi : (i < List.length rows)%nat) by (apply nth_error_Some; rewrite N; discriminate).
      destruct (Y i Hi) as [o [O1 O2]]. exists o. split; [exact O1|]. apply (Row i r o N). exact O2.
    + intros [L Y]. exists (Some inp). split; [exact E|]. rewrite calculate_input_results by assumption. apply B.
      split; [exact L|]. intros i Hi. destruct (nth_error rows i) as [r|] eqn:N; [|apply nth_error_None in N; lia].
      destruct (Y i r N) as [o [O1 O2]]. exists o. split; [exact O1|]. apply (Row i r o N). exact O2.
  - destruct A as [_ A]. split.
    + intros [x [X Y]]. rewrite E in X. injection X as <-. discriminate Y.
    + intros [L Y]. destruct (nth_error rows 0) as [r|] eqn:N; [|apply nth_error_None in N; lia].
      destruct (Y 0%nat r N) as [o [_ [x [X Z]]]]. specialize (A 0%nat Hn). cbv beta in A. rewrite N in A. rewrite A in X.
      injection X as <-. discriminate Z.
  - destruct A as [[? _]|[i [Hi A]]]; [discriminate|]. split.
    + intros [x [X Y]]. rewrite E in X. discriminate X.
    + intros [L Y]. destruct (nth_error rows i) as [r|] eqn:N; [|apply nth_error_None in N; lia].
      destruct (Y i r N) as [o [_ [x [X Z]]]]. cbv beta in A. rewrite A in X. discriminate X.
Qed.

Lemma frame_columns_length : forall n o rows, frame_columns n o = Ok rows -> List.length rows = n.
Proof.
  intros n [a b c d e f] rows H. unfold frame_columns in H. cbn [bo_ksat bo_kmin bo_kdry bo_mysat bo_rsat bo_kmin_fls forallb] in H.
  assert (F : forall x : arr R, fits n x = true -> List.length (expand n x) = n).
  { intros [x|l] X; cbn in *; [apply repeat_length|apply Nat.eqb_eq, X]. }
  rewrite !Bool.andb_true_r in H.
  destruct (fits n a) eqn:A; [|discriminate]. destruct (fits n b) eqn:B; [|discriminate]. destruct (fits n c) eqn:C; [|discriminate].
  destruct (fits n d) eqn:D; [|discriminate]. destruct (fits n e) eqn:E; [|discriminate]. destruct (fits n f) eqn:G; [|discriminate].
  injection H as <-. unfold result_rows. rewrite map_length, !combine_length.
  cbn [bo_ksat bo_kmin bo_kdry bo_mysat bo_rsat bo_kmin_fls]. rewrite !F by assumption. lia.
Qed.
Lemma calculate_input_length : forall co2 n inp rows, calculate_input co2 n inp = Ok rows -> List.length rows = n.
Proof.
  intros co2 n [inp|] rows H; [|discriminate H]. cbn [calculate_input] in H.
  destruct (b_calculate_results co2 inp); [|discriminate H]. eapply frame_columns_length, H.
Qed.

Section Modes.
Context (co2 : equation_of_state) (st : strings) (header : list string) (items : list (string * value)).
Context (write : list (Z * output_row) -> out unit) (compare : option (list (Z * output_row) -> out unit)).
Notation p rows := (app co2 st header (VDict items) (Some rows) write compare).

Lemma raise_parse_ret : forall {A} (r : res A) a, raise_parse r = Ret a <-> r = Ok a.
Proof. intros A [b|e] a; cbn; split; intros H; try congruence; destruct e; discriminate. Qed.
Lemma raise_calculate_ret : forall {A} (r : res A) a, raise_calculate r = Ret a <-> r = Ok a.
Proof. intros A [b|e] a; cbn; split; intros H; try congruence; destruct e; discriminate. Qed.
Lemma rmap_ok : forall {A B} (f : A -> B) r b, rmap f r = Ok b <-> exists a, r = Ok a /\ b = f a.
Proof.
  intros A B f [a|e] b; cbn [rmap]; split.
  - intros H. injection H as <-. exists a. split; reflexivity.
  - intros [x [X ->]]. injection X as ->. reflexivity.
  - discriminate.
  - intros [x [X _]]. discriminate.
Qed.

Lemma app_rows : forall all rows out,
  (exists i, parse (p all) items (Some rows) = Ret i /\ calculate (p all) i = Ret out) <->
  exists outs, gives_rows co2 st header items rows outs /\ out = combine (map fst rows) outs.
Proof.
  intros all rows out. cbn [app parse calculate]. unfold parse_rows, AppModel.calculate_rows. cbn [option_map]. split.
  - intros [[l i] [X Y]]. apply raise_parse_ret, rmap_ok in X. destruct X as [i' [X E]]. injection E as -> ->.
    apply raise_calculate_ret, rmap_ok in Y. destruct Y as [outs [Y ->]]. cbn [fst snd] in *. rewrite map_length in Y.
    exists outs. split; [|reflexivity]. exists i'. split; assumption.
  - intros [outs [[i [X Y]] ->]]. exists (map fst rows, i). split.
    + apply raise_parse_ret, rmap_ok. exists i. split; [exact X|reflexivity].
    + apply raise_calculate_ret, rmap_ok. exists outs. cbn [fst snd]. rewrite map_length. split; [exact Y|reflexivity].
Qed.
Lemma gives_length : forall rows outs, gives_rows co2 st header items rows outs -> List.length outs = List.length rows.
Proof. intros rows outs [i [_ H]]. eapply calculate_input_length, H. Qed.
Lemma app_row : forall all r out, row_gives (p all) items r out <->
  exists o, gives_rows co2 st header items [r] [o] /\ out = [(fst r, o)].
Proof.
  intros all r out. unfold row_gives. rewrite app_rows. split.
  - intros [outs [G ->]]. pose proof (gives_length _ _ G) as L. destruct outs as [|o [|x l]]; try discriminate L.
    exists o. split; [exact G|reflexivity].
  - intros [o [G ->]]. exists [o]. split; [exact G|reflexivity].
Qed.

Lemma default_run : forall rows outs, gives_rows co2 st header items rows outs ->
  run (p rows) None =
    match write (combine (map fst rows) outs) with
    | Raise _ => Ret ((-1)%Z, None)
    | Ret _ => Ret (calibrate_and_exit (p rows) (combine (map fst rows) outs))
    end.
Proof.
  intros rows outs G. assert (X : exists i, parse (p rows) items (Some rows) = Ret i /\ calculate (p rows) i = Ret (combine (map fst rows) outs))
    by (apply app_rows; exists outs; split; [exact G|reflexivity]).
  destruct X as [i [X Y]]. unfold run, make_input, load_config_from_yaml, load_data_from_csv.
  cbn [app yaml_load csv_read option_map then_ try_] in *. rewrite X. cbn [try_]. rewrite Y. reflexivity.
Qed.
Lemma default_writes : forall rows c w, run (p rows) None = Ret (c, Some w) -> exists outs, gives_rows co2 st header items rows outs.
Proof.
  intros rows c w H. unfold run, make_input, load_config_from_yaml, load_data_from_csv in H.
  cbn [app yaml_load csv_read option_map then_ try_] in H.
  match type of H with context [try_ ?x _] => destruct x as [i|e] eqn:X end; cbn [try_] in H.
  - match type of H with context [match ?x with Ret _ => _ | Raise _ => _ end] => destruct x as [out|e] eqn:Y end.
    + destruct (proj1 (app_rows rows rows out)) as [outs [G _]]; [exists i; split; [exact X|exact Y]|]. exists outs. exact G.
    + destruct (is_value_error e); discriminate H.
  - destruct e; cbn in H; discriminate H.
Qed.

(** The rows that succeed alone. *)
Lemma succeeding_gives : forall all rows good, succeeding (p all) items rows good ->
  exists outs, Forall2 (fun r o => gives_rows co2 st header items [r] [o]) good outs /\
    rows_give (p all) items rows (map (fun x => [x]) (combine (map fst good) outs)) (List.length rows - List.length good) /\
    (List.length good <= List.length rows)%nat.
Proof.
  intros all rows good H. induction H as [|r rows good out R H [outs [F [G L]]]|r rows good N H [outs [F [G L]]]].
  - exists []. split; [constructor|]. split; [constructor|cbn; lia].
  - apply app_row in R. destruct R as [o [R ->]]. exists (o :: outs). split; [constructor; assumption|]. split; [|cbn; lia].
    cbn [map combine List.length Nat.sub]. constructor; [|exact G]. apply app_row. exists o. split; [exact R|reflexivity].
  - exists outs. split; [exact F|]. split; [|cbn; lia]. cbn [List.length].
    replace (S (List.length rows) - List.length good)%nat with (S (List.length rows - List.length good)) by lia.
    constructor; assumption.
Qed.

Context (P : plain (VDict items)) (CC : constants_and_columns st header items).
Lemma alone_together : forall rows outs, rows <> [] ->
  Forall2 (fun r o => gives_rows co2 st header items [r] [o]) rows outs <-> gives_rows co2 st header items rows outs.
Proof.
  intros rows outs Hr. rewrite (rows_alone co2 st header items rows outs P Hr CC). clear Hr. split.
  - intros F. split; [clear -F; induction F; cbn; congruence|]. induction F as [|r o rows outs H F IH]; intros i r' N.
    + destruct i; discriminate.
    + destruct i; cbn [nth_error] in *; [injection N as <-; exists o; split; [reflexivity|exact H]|apply IH, N].
  - intros [L H]. revert outs L H. induction rows as [|r rows IH]; intros [|o outs] L H; try discriminate L; [constructor|].
    constructor.
    + destruct (H 0%nat r eq_refl) as [o' [E G]]. cbn in E. injection E as ->. exact G.
    + apply IH; [cbn in L; lia|]. intros i r' N. apply (H (S i) r' N).
Qed.
Lemma concat_singletons : forall {A} (l : list A), concat (map (fun x => [x]) l) = l.
Proof. intros A l. induction l as [|a l IH]; [reflexivity|]. cbn. rewrite IH. reflexivity. Qed.
Lemma succeeding_all : forall all rows outs,
  Forall2 (fun r o => gives_rows co2 st header items [r] [o]) rows outs ->
  forall good, succeeding (p all) items rows good -> good = rows.
Proof.
  intros all rows outs F. induction F as [|r o rows outs H F IH]; intros good S; inversion S; subst; [reflexivity| |].
  - f_equal. apply IH. assumption.
  - exfalso. match goal with N : forall out, ~ _ |- _ => apply (N [(fst r, o)]) end. apply app_row. exists o. split; [exact H|reflexivity].
Qed.

Lemma modes : forall rows good, rows <> [] -> succeeding (p rows) items rows good ->
  ((exists c w, run (p rows) None = Ret (c, Some w)) -> good = rows) /\
  (good = rows -> forall t, t <= 100 -> run (p rows) (Some t) = run (p rows) None) /\
  (good <> [] -> exists pct,
     Rabs (pct - exact_percentage (List.length rows - List.length good) (List.length rows)) <= 1 / 10 ^ 13 /\
     forall t, run (p rows) (Some t) = if Rlt_dec pct t then Ret ((-5)%Z, None) else run (p good) None).
Proof.
  intros rows good Hr S. split; [|].
  - intros [c [w E]]. destruct (default_writes rows c w E) as [outs G]. apply alone_together in G; [|exact Hr].
    eapply succeeding_all; eassumption.
  - destruct (succeeding_gives rows rows good S) as [outs [F [G L]]].
    assert (T : good <> [] -> forall t, run (p rows) (Some t) =
        if Rlt_dec (success_percentage (List.length rows - List.length good) (List.length rows)) t
        then Ret ((-5)%Z, None) else run (p good) None).
    { intros Hg t. rewrite (threshold_run (p rows) items rows _ _ t eq_refl eq_refl G).
      destruct (Rlt_dec _ t); [reflexivity|]. rewrite concat_singletons.
      rewrite (default_run good outs) by (apply alone_together; assumption).
      destruct F as [|r o good' outs' H F]; [congruence|]. reflexivity. }
    split.
    + intros -> t Ht. rewrite T by exact Hr. rewrite Nat.sub_diag, percentage_no_failures.
      destruct (Rlt_dec 100 t); [lra|reflexivity].
    + intros Hg. exists (success_percentage (List.length rows - List.length good) (List.length rows)).
      split; [apply percentage_error; lia|exact (T Hg)].
Qed.
Lemma succeeding_total : forall all rows, exists good, succeeding (p all) items rows good.
Proof.
  intros all rows. induction rows as [|r rows [good IH]]; [exists []; constructor|].
  destruct (parse (p all) items (Some [r])) as [i|e] eqn:X.
  - destruct (calculate (p all) i) as [out|e] eqn:Y.
    + exists (r :: good). apply succeeding_row with out; [exists i; split; assumption|exact IH].
    + exists good. apply failing_row; [|exact IH]. intros out [i' [A B]]. congruence.
  - exists good. apply failing_row; [|exact IH]. intros out [i' [A B]]. congruence.
Qed.
End Modes.
