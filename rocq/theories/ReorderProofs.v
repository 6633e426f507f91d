(** Lemmas: the order of keys in a configuration does not matter. *)
From Coq Require Import String List ZArith Lia Lra Permutation.
From Verif Require Import Base BaseProofs ConfigModel FluidsModel InputModel InputSpec InputProofs RowModel ReadModel
  SchemaSpec SchemaProofs.
Import ListNotations.
Open Scope R_scope.

(** ** Trees *)
Definition orel (a b : option value) : Prop :=
  match a, b with
  | None, None => True
  | Some v, Some w => distinct v /\ reordered v w
  | _, _ => False
  end.
(** The same fields, in any order. *)
Definition same_fields (f g : list (string * value)) : Prop := forall name, orel (get f name) (get g name).

Lemma reordered_list_inv : forall l w, reordered (VList l) w -> exists l', w = VList l' /\ Forall2 reordered l l'.
Proof. intros l w H. inversion H as [v A B| |]; subst; [exfalso; eapply A; reflexivity|]. eexists. split; [reflexivity|assumption]. Qed.
Lemma reordered_dict_inv : forall items w, reordered (VDict items) w -> exists mid items', w = VDict items' /\
  Forall2 (fun kv kv' => fst kv = fst kv' /\ reordered (snd kv) (snd kv')) items mid /\ Permutation mid items'.
Proof.
  intros items w H. inversion H as [v A B| |]; subst; [exfalso; eapply B; reflexivity|]. do 2 eexists. split; [reflexivity|].
  split; eassumption.
Qed.
Lemma reordered_scalar : forall v w, reordered v w -> (forall l, v <> VList l) -> (forall l, v <> VDict l) -> w = v.
Proof. intros v w H A B. inversion H; subst; [reflexivity|exfalso; eapply A; reflexivity|exfalso; eapply B; reflexivity]. Qed.

Lemma keys_mid : forall items mid, Forall2 (fun kv kv' : string * value => fst kv = fst kv' /\ reordered (snd kv) (snd kv')) items mid ->
  map fst mid = map fst items.
Proof. intros items mid F. induction F as [|a b l l' [X _] F IH]; [reflexivity|]. cbn. rewrite IH, X. reflexivity. Qed.
Lemma dict_fields : forall items items', distinct (VDict items) -> reordered (VDict items) (VDict items') -> same_fields items items'.
Proof.
  intros items w D H name. apply reordered_dict_inv in H. destruct H as (mid & items' & E & F & P). injection E as <-.
  apply distinct_dict_inv in D. destruct D as [ND D].
  assert (NM : NoDup (map fst w)).
  { eapply Permutation_NoDup; [apply Permutation_map, P|]. rewrite (keys_mid _ _ F). exact ND. }
  assert (M : orel (get items name) (get mid name)).
  { clear P NM ND. induction F as [|[k v] [k' v'] l l' [X Y] F IH]; [exact I|]. cbn [fst snd] in *. subst k'. inversion D; subst.
    cbn [get]. destruct (String.eqb k name); [split; assumption|apply IH; assumption]. }
  assert (G : get w name = get mid name).
  { destruct (get mid name) as [v|] eqn:E.
    - apply get_in in E. apply get_distinct; [exact NM|]. eapply Permutation_in; eassumption.
    - destruct (get w name) as [v|] eqn:E'; [|reflexivity]. exfalso. apply get_in in E'.
      assert (In (name, v) mid) as X by (eapply Permutation_in; [apply Permutation_sym, P|exact E']).
      assert (NoDup (map fst mid)) as NM' by (rewrite (keys_mid _ _ F); exact ND).
      rewrite (get_distinct _ _ _ NM' X) in E. discriminate. }
  rewrite G. exact M.
Qed.

Definition alike {A} (read : value -> res A) : Prop := forall v w, distinct v -> reordered v w -> read v = read w.

Lemma arguments_alike : forall names v w, distinct v -> reordered v w ->
  match arguments names v, arguments names w with
  | Ok f, Ok g => same_fields f g
  | Err e, Err e' => e = e'
  | _, _ => False
  end.
Proof.
  intros names v w D H. destruct v as [|b|x|s|l|t|l|items];
    try (rewrite (reordered_scalar _ _ H) by discriminate; reflexivity).
  - destruct (reordered_list_inv _ _ H) as [l' [-> F]]. cbn [arguments].
    assert (L : List.length l' = List.length l) by (clear -F; induction F; cbn; congruence). rewrite L.
    destruct (Nat.leb _ _); [|reflexivity]. apply distinct_list_inv in D. clear L H. intros name. revert names.
    induction F as [|v w l l' X F IH]; intros [|n names]; try exact I. cbn [combine get]. inversion D; subst.
    destruct (String.eqb n name); [split; assumption|apply IH; assumption].
  - pose proof H as H'. destruct (reordered_dict_inv _ _ H) as (mid & items' & -> & F & P). cbn [arguments].
    assert (E : forallb (fun kv : string * value => existsb (String.eqb (fst kv)) names) items'
              = forallb (fun kv : string * value => existsb (String.eqb (fst kv)) names) items).
    { transitivity (forallb (fun k => existsb (String.eqb k) names) (map fst items')).
      - clear. induction items' as [|a l IH]; [reflexivity|]. cbn. rewrite IH. reflexivity.
      - transitivity (forallb (fun k => existsb (String.eqb k) names) (map fst items)).
        + assert (Q : Permutation (map fst items') (map fst items)).
          { rewrite <- (keys_mid _ _ F). apply Permutation_map, Permutation_sym, P. }
          clear -Q. induction Q; cbn; try congruence; rewrite !Bool.andb_assoc; f_equal; apply Bool.andb_comm.
        + clear. induction items as [|a l IH]; [reflexivity|]. cbn. rewrite IH. reflexivity. }
    rewrite E. destruct (forallb _ items); [|reflexivity]. apply dict_fields; assumption.
Qed.

Section Fields.
Context (f g : list (string * value)) (Hf : same_fields f g).
Lemma required_alike : forall {A} (read : value -> res A) name, alike read -> required read f name = required read g name.
Proof.
  intros A read name H. unfold required. specialize (Hf name). destruct (get f name), (get g name); cbn in Hf; try contradiction; [|reflexivity].
  apply H; apply Hf.
Qed.
Lemma default_alike : forall {A} (d : A) (read : value -> res A) name, alike read -> default d read f name = default d read g name.
Proof.
  intros A d read name H. unfold default. specialize (Hf name). destruct (get f name), (get g name); cbn in Hf; try contradiction; [|reflexivity].
  apply H; apply Hf.
Qed.
End Fields.

Lemma nullable_alike : forall {A} (read : value -> res A), alike read -> alike (nullable read).
Proof.
  intros A read H v w D E. assert (X : read v = read w) by (apply H; assumption).
  inversion E as [u A1 B|? l|? ? ?]; subst; [reflexivity| |]; cbn [nullable]; rewrite X; reflexivity.
Qed.
Lemma first_alike : forall {A} (l : list (value -> res A)), Forall alike l -> alike (first_of l).
Proof.
  intros A l F v w D E. induction F as [|f l H F IH]; [reflexivity|]. cbn [first_of]. rewrite (H v w D E).
  destruct (f w) as [a|e]; [reflexivity|]. destruct e; try reflexivity. exact IH.
Qed.
Lemma reads_alike : forall {A B} (h : A -> B) (read : value -> res A), alike read -> alike (reads h read).
Proof. intros A B h read H v w D E. unfold reads. rewrite (H v w D E). reflexivity. Qed.
Lemma list_alike : forall {A} (read : value -> res A), alike read -> alike (list_of read).
Proof.
  intros A read H v w D E. destruct v as [|b|x|s|l|t|l|items]; try (rewrite (reordered_scalar _ _ E) by discriminate; reflexivity).
  - destruct (reordered_list_inv _ _ E) as [l' [-> F]]. cbn [list_of]. f_equal. apply distinct_list_inv in D. clear E.
    induction F as [|v w l l' X F IH]; [reflexivity|]. inversion D; subst. cbn [map]. rewrite (H v w) by assumption. f_equal. apply IH; assumption.
  - destruct (reordered_dict_inv _ _ E) as (mid & items' & -> & F & P). reflexivity.
Qed.
Lemma nonempty_alike : forall {A} (read : value -> res A), alike read -> alike (nonempty_list_of read).
Proof. intros A read H v w D E. unfold nonempty_list_of. rewrite (list_alike read H v w D E). reflexivity. Qed.

(** ** Leaves *)
Lemma simple_alike : forall {A} (read : value -> res A),
  (forall l l', read (VList l) = read (VList l')) -> (forall l l', read (VDict l) = read (VDict l')) -> alike read.
Proof. intros A read HL HD v w D E. inversion E; subst; auto. Qed.
Lemma literal_alike : forall s, alike (literal s).
Proof. intros s. apply simple_alike; reflexivity. Qed.
Lemma bool_alike : alike read_bool.
Proof. apply simple_alike; reflexivity. Qed.
Lemma provider_alike : alike read_provider.
Proof. apply simple_alike; reflexivity. Qed.
Lemma mix_alike : alike read_mix_method.
Proof. apply simple_alike; reflexivity. Qed.
Lemma float_alike : forall st, alike (read_float st).
Proof. intros st. apply simple_alike; reflexivity. Qed.
Lemma int_alike : forall st, alike (read_int st).
Proof. intros st. apply simple_alike; reflexivity. Qed.
Lemma cell_alike : forall st, alike (cell st).
Proof. intros st. apply simple_alike; reflexivity. Qed.
Lemma cells_alike : forall st l l', Forall distinct l -> Forall2 reordered l l' -> map (cell st) l = map (cell st) l'.
Proof.
  intros st l l' D F. induction F as [|v w l l' X F IH]; [reflexivity|]. inversion D; subst. cbn [map].
  rewrite (cell_alike st v w) by assumption. f_equal. apply IH; assumption.
Qed.
Lemma forallb_alike : forall (p : value -> bool) l l', (forall v w, reordered v w -> p v = p w) -> Forall2 reordered l l' ->
  forallb p l = forallb p l'.
Proof. intros p l l' H F. induction F as [|v w l l' X F IH]; [reflexivity|]. cbn. rewrite (H v w X), IH. reflexivity. Qed.
Lemma is_scalar_alike : forall v w, reordered v w -> is_scalar v = is_scalar w.
Proof. intros v w H. inversion H; reflexivity. Qed.
Lemma is_row_alike : forall v w, reordered v w -> is_row v = is_row w.
Proof. intros v w H. inversion H; reflexivity. Qed.
Lemma matrix_row_alike : forall st, alike (matrix_row st).
Proof.
  intros st v w D E. destruct v as [|b|x|s|l|t|l|items]; try (rewrite (reordered_scalar _ _ E) by discriminate; reflexivity).
  - destruct (reordered_list_inv _ _ E) as [l' [-> F]]. cbn [matrix_row]. apply distinct_list_inv in D.
    rewrite (forallb_alike is_scalar l l' is_scalar_alike F), (cells_alike st l l' D F). reflexivity.
  - destruct (reordered_dict_inv _ _ E) as (mid & items' & -> & F & P). reflexivity.
Qed.
Lemma array_alike : forall st, alike (np_array st).
Proof.
  intros st v w D E. destruct v as [|b|x|s|l|t|l|items]; try (rewrite (reordered_scalar _ _ E) by discriminate; reflexivity).
  - destruct (reordered_list_inv _ _ E) as [l' [-> F]]. cbn [np_array]. apply distinct_list_inv in D.
    rewrite (forallb_alike is_scalar l l' is_scalar_alike F), (forallb_alike is_row l l' is_row_alike F), (cells_alike st l l' D F).
    replace (map (matrix_row st) l') with (map (matrix_row st) l); [reflexivity|]. clear E.
    induction F as [|v w l l' X F IH]; [reflexivity|]. inversion D; subst. cbn [map].
    rewrite (matrix_row_alike st v w) by assumption. f_equal. apply IH; assumption.
  - destruct (reordered_dict_inv _ _ E) as (mid & items' & -> & F & P). reflexivity.
Qed.

(** ** Sections *)
Ltac start := let v := fresh "v" in let w := fresh "w" in let D := fresh "D" in let E := fresh "E" in
  intros v w D E;
  cbv beta delta [read_arbitrary read_gas read_oil read_brine read_condensate read_carbon_dioxide read_constituent read_minerals
    read_fluids_section read_moduli read_velocities read_ratios read_friable read_patchy read_fit read_powerfit read_polyfit2d
    read_depth_trend read_pressure_dependency read_dry_rock read_pressure read_config optional type_is];
  match goal with |- bind (arguments ?names _) _ = _ =>
    let X := fresh "X" in pose proof (arguments_alike names v w D E) as X;
    let f := fresh "f" in let g := fresh "g" in
    destruct (arguments names v) as [f|], (arguments names w) as [g|]; try contradiction; [|rewrite X; reflexivity]; cbn [bind] end.
Ltac fld L :=
  first [ match goal with |- bind ?x _ = bind ?y _ => let H := fresh "H" in
            assert (H : x = y) by (first [ apply required_alike; [assumption|exact L] | apply default_alike; [assumption|exact L] ]);
            rewrite H; clear H; destruct y; cbn [bind]; [|reflexivity] end
        | apply default_alike; [assumption|exact L] ].

Section Readers.
Context (st : strings).
Local Open Scope string_scope.
Lemma arr_ : alike (np_array st). Proof. exact (array_alike st). Qed.
Lemma opt_ : alike (nullable (np_array st)). Proof. exact (nullable_alike _ arr_). Qed.
Lemma arbitrary_alike : alike (read_arbitrary st).
Proof. start. fld arr_. fld opt_. fld opt_. fld opt_. fld opt_. fld (literal_alike "material"). reflexivity. Qed.
Lemma gas_alike : alike (read_gas st).
Proof. start. fld arr_. fld (literal_alike "gas"). reflexivity. Qed.
Lemma oil_alike : alike (read_oil st).
Proof. start. fld arr_. fld arr_. fld arr_. fld (literal_alike "oil"). reflexivity. Qed.
Lemma brine_alike : alike (read_brine st).
Proof. start. fld arr_. fld (literal_alike "brine"). reflexivity. Qed.
Lemma condensate_alike : alike (read_condensate st).
Proof. start. fld arr_. fld arr_. fld arr_. fld (literal_alike "condensate"). reflexivity. Qed.
Lemma carbon_dioxide_alike : alike read_carbon_dioxide.
Proof. start. fld (literal_alike "carbon_dioxide"). fld bool_alike. reflexivity. Qed.
Lemma material_alike : alike (read_material st).
Proof.
  apply first_alike. repeat (apply Forall_cons || apply Forall_nil);
    [apply reads_alike, arbitrary_alike|apply gas_alike|apply oil_alike|apply brine_alike|apply condensate_alike|apply carbon_dioxide_alike].
Qed.
Lemma constituent_alike : alike (read_constituent st).
Proof. start. fld material_alike. fld opt_. fld (nullable_alike _ provider_alike). reflexivity. Qed.
Lemma minerals_alike : alike (read_minerals st).
Proof. start. fld (nonempty_alike _ constituent_alike). Qed.
Lemma fluids_alike : alike (read_fluids_section st).
Proof.
  start. fld arr_. fld (nonempty_alike _ constituent_alike). fld mix_alike. fld (float_alike st).
  fld (nullable_alike _ (list_alike _ (int_alike st))). fld provider_alike. reflexivity.
Qed.
Lemma moduli_alike : alike (read_moduli st).
Proof. start. fld opt_. fld opt_. fld opt_. reflexivity. Qed.
Lemma velocities_alike : alike (read_velocities st).
Proof. start. fld opt_. fld opt_. fld opt_. reflexivity. Qed.
Lemma ratios_alike : alike (read_ratios st).
Proof. start. fld opt_. fld opt_. fld opt_. reflexivity. Qed.
Lemma coefficients_alike : alike (read_coefficients st).
Proof. apply first_alike. repeat (apply Forall_cons || apply Forall_nil); [apply moduli_alike|apply velocities_alike]. Qed.
Lemma friable_alike : alike (read_friable st).
Proof. start. fld arr_. fld arr_. fld opt_. fld (literal_alike "friable_sand"). reflexivity. Qed.
Lemma patchy_alike : alike (read_patchy st).
Proof.
  start. fld (literal_alike "patchy_cement"). fld arbitrary_alike. fld arr_. fld arr_. fld arr_. fld arr_. fld opt_. fld arr_. reflexivity.
Qed.
Lemma fit_alike : forall name, alike (read_fit st name).
Proof. intros name. start. fld coefficients_alike. fld (literal_alike name). reflexivity. Qed.
Lemma powerfit_alike : alike (read_powerfit st).
Proof. start. fld ratios_alike. fld (literal_alike "powerfit"). reflexivity. Qed.
Lemma polyfit2d_alike : alike (read_polyfit2d st).
Proof. start. fld (nullable_alike _ coefficients_alike). fld (literal_alike "polyfit"). reflexivity. Qed.
Lemma dependency_alike : alike (read_dependency st).
Proof.
  apply first_alike. repeat (apply Forall_cons || apply Forall_nil);
    [apply reads_alike, patchy_alike|apply reads_alike, friable_alike|apply powerfit_alike|apply reads_alike, fit_alike..].
Qed.
Lemma sandstone_alike : alike (read_sandstone st).
Proof.
  apply first_alike. repeat (apply Forall_cons || apply Forall_nil);
    [apply reads_alike, patchy_alike|apply reads_alike, friable_alike|apply polyfit2d_alike].
Qed.
Lemma depth_trend_alike : alike (read_depth_trend st).
Proof. start. fld arr_. fld coefficients_alike. fld (literal_alike "depth_trend"). fld opt_. fld opt_. reflexivity. Qed.
Lemma pressure_dependency_alike : alike (read_pressure_dependency st).
Proof. start. fld dependency_alike. fld (literal_alike "pressure_dependency"). reflexivity. Qed.
Lemma adjustments_alike : alike (list_of (first_of [read_depth_trend st; read_pressure_dependency st])).
Proof.
  apply list_alike, first_alike. repeat (apply Forall_cons || apply Forall_nil); [apply depth_trend_alike|apply pressure_dependency_alike].
Qed.
Lemma dry_rock_alike : alike (read_dry_rock st).
Proof. start. fld sandstone_alike. fld arr_. fld adjustments_alike. reflexivity. Qed.
Lemma pressure_alike : alike (read_pressure st).
Proof. start. fld arr_. fld arr_. fld opt_. fld opt_. fld opt_. reflexivity. Qed.
Lemma config_alike : alike (read_config st).
Proof. start. fld minerals_alike. fld fluids_alike. fld dry_rock_alike. fld pressure_alike. reflexivity. Qed.
End Readers.

(** ** Symmetry *)
Lemma reordered_distinct : forall v w, distinct v -> reordered v w -> distinct w.
Proof.
  intros v. induction v as [v H1 H2|l F|items F] using value_tree_ind; intros w D E.
  - rewrite (reordered_scalar _ _ E H1 H2). exact D.
  - destruct (reordered_list_inv _ _ E) as [l' [-> G]]. apply distinct_list. apply distinct_list_inv in D. clear E.
    induction G as [|v w l l' X G IH]; [constructor|]. inversion F; inversion D; subst. constructor; [auto|apply IH; assumption].
  - destruct (reordered_dict_inv _ _ E) as (mid & items' & -> & G & P). apply distinct_dict_inv in D. destruct D as [ND D].
    apply distinct_dict.
    + eapply Permutation_NoDup; [apply Permutation_map, P|]. rewrite (keys_mid _ _ G). exact ND.
    + eapply Permutation_Forall; [exact P|]. clear P ND E. induction G as [|v w l l' [X Y] G IH]; [constructor|].
      inversion F; inversion D; subst. constructor; [auto|apply IH; assumption].
Qed.
Lemma reordered_sym : forall v w, reordered v w -> reordered w v.
Proof.
  intros v. induction v as [v H1 H2|l F|items F] using value_tree_ind; intros w E.
  - rewrite (reordered_scalar _ _ E H1 H2). apply reordered_leaf; assumption.
  - destruct (reordered_list_inv _ _ E) as [l' [-> G]]. apply reordered_list. clear E.
    induction G as [|v w l l' X G IH]; [constructor|]. inversion F; subst. constructor; [auto|apply IH; assumption].
  - destruct (reordered_dict_inv _ _ E) as (mid & items' & -> & G & P).
    assert (G' : Forall2 (fun kv kv' : string * value => fst kv = fst kv' /\ reordered (snd kv) (snd kv')) mid items).
    { clear P E. induction G as [|v w l l' [X Y] G IH]; [constructor|]. inversion F; subst.
      constructor; [split; [congruence|auto]|apply IH; assumption]. }
    destruct (Permutation_Forall2 P G') as [l2 [P2 G2]]. eapply reordered_dict; [exact G2|apply Permutation_sym, P2].
Qed.

(** ** Insertion of the data *)
Lemma set_key_perm : forall k v l l', NoDup (map fst l) -> Permutation l l' -> Permutation (set_key k v l) (set_key k v l').
Proof.
  intros k v l l' N P. induction P as [|[a b] l l' P IH|[a b] [c d] l|l l' l'' P IH P' IH'].
  - apply Permutation_refl.
  - cbn [set_key]. inversion N; subst. destruct (String.eqb a k); constructor; auto.
  - cbn [set_key]. inversion N as [|? ? Q]; subst. cbn [map fst] in Q. destruct (String.eqb_spec a k) as [->|A], (String.eqb_spec c k) as [->|C].
    + exfalso. apply Q. left. reflexivity.
    + apply perm_swap.
    + apply perm_swap.
    + apply perm_swap.
  - eapply Permutation_trans; [apply IH, N|]. apply IH'. eapply Permutation_NoDup; [apply Permutation_map, P|exact N].
Qed.
Lemma set_key_reordered : forall k v items items', (forall l, v <> VList l) -> (forall l, v <> VDict l) -> distinct (VDict items) ->
  reordered (VDict items) (VDict items') -> reordered (VDict (set_key k v items)) (VDict (set_key k v items')).
Proof.
  intros k v items w H1 H2 D E. destruct (reordered_dict_inv _ _ E) as (mid & items' & X & G & P). injection X as <-.
  apply distinct_dict_inv in D. destruct D as [ND _]. apply reordered_dict with (set_key k v mid).
  - clear P E ND. induction G as [|[a b] [a' b'] l l' [X Y] G IH]; cbn [set_key].
    + constructor; [split; [reflexivity|apply reordered_leaf; assumption]|constructor].
    + cbn [fst snd] in *. subst a'. destruct (String.eqb a k); constructor; try assumption; split; try reflexivity; try assumption.
      apply reordered_leaf; assumption.
  - apply set_key_perm; [|exact P]. rewrite (keys_mid _ _ G). exact ND.
Qed.

Lemma reference_reordered : forall n w, reordered (VDict [("column"%string, n)]) w -> exists n', w = VDict [("column"%string, n')] /\ reordered n n'.
Proof.
  intros n w E. destruct (reordered_dict_inv _ _ E) as (mid & items' & -> & G & P).
  inversion G as [|? [k n'] ? ? [X Y] G']; subst. inversion G'; subst. apply Permutation_length_1_inv in P. subst items'.
  cbn [fst snd] in *. subst k. exists n'. split; [reflexivity|exact Y].
Qed.
Lemma not_reference_reordered : forall items items', (forall n, ~ is_reference (VDict items) n) -> reordered (VDict items) (VDict items') ->
  forall n, ~ is_reference (VDict items') n.
Proof.
  intros items items' N E n H. unfold is_reference in H. injection H as ->. apply reordered_sym in E.
  destruct (reference_reordered _ _ E) as [n' [X _]]. apply (N n'). exact X.
Qed.
Lemma insert_items_perm : forall t l l' r, Permutation l l' -> insert_items t l = Ok r -> exists r', insert_items t l' = Ok r' /\ Permutation r r'.
Proof.
  intros t l l' r P. revert r. induction P as [|[a b] l l' P IH|[a b] [c d] l|l l' l'' P IH P' IH']; intros r H.
  - injection H as <-. exists []. split; [reflexivity|constructor].
  - simpl in H |- *. destruct (insert_from_dataframe t b) as [v|]; [|discriminate]. cbn [bind] in H |- *.
    destruct (insert_items t l) as [q|]; [|discriminate]. cbn [bind] in H. injection H as <-.
    destruct (IH q eq_refl) as [r' [-> Q]]. eexists. split; [reflexivity|]. constructor. exact Q.
  - simpl in H |- *. destruct (insert_from_dataframe t d) as [v|]; [|discriminate]. cbn [bind] in H |- *.
    destruct (insert_from_dataframe t b) as [u|]; [|discriminate]. cbn [bind] in H |- *.
    destruct (insert_items t l) as [q|]; [|discriminate]. cbn [bind] in H |- *. injection H as <-. eexists. split; [reflexivity|]. apply perm_swap.
  - destruct (IH r H) as [q [A B]]. destruct (IH' q A) as [s [C D]]. exists s. split; [exact C|]. eapply Permutation_trans; eassumption.
Qed.
Lemma insert_reordered : forall t v v' w, reordered v w -> insert_from_dataframe t v = Ok v' ->
  exists w', insert_from_dataframe t w = Ok w' /\ reordered v' w'.
Proof.
  intros t v. induction v as [v H1 H2|l F|items F] using value_tree_ind; intros v' w E H.
  - rewrite (reordered_scalar _ _ E H1 H2). rewrite insert_scalar in H by assumption. injection H as <-. exists v.
    split; [apply insert_scalar; assumption|apply reordered_leaf; assumption].
  - destruct (reordered_list_inv _ _ E) as [l' [-> G]]. rewrite insert_list_eq in H |- *.
    destruct (insert_list t l) as [r|] eqn:R; [|discriminate]. injection H as <-. clear E.
    assert (X : exists r', insert_list t l' = Ok r' /\ Forall2 reordered r r').
    { revert r R. induction G as [|v w l l' X G IH]; intros r R; simpl in R |- *; [injection R as <-; exists []; split; constructor|].
      inversion F as [|? ? Fv F']; subst. destruct (insert_from_dataframe t v) as [u|] eqn:U; [|discriminate]. cbn [bind] in R.
      destruct (insert_list t l) as [q|]; [|discriminate]. cbn [bind] in R. injection R as <-.
      destruct (Fv _ _ X eq_refl) as [u' [-> U']]. destruct (IH F' q eq_refl) as [q' [-> Q]]. eexists. split; [reflexivity|]. constructor; assumption. }
    destruct X as [r' [-> X]]. eexists. split; [reflexivity|]. apply reordered_list, X.
  - destruct (reference_dec items) as [[n ->]|N].
    + destruct (reference_reordered _ _ E) as [n' [-> X]]. rewrite insert_reference in H |- *.
      destruct n as [|b|x|s|l|t'|l|l]; cbn [insert_column] in H; try discriminate. rewrite (reordered_scalar _ _ X) by discriminate.
      cbn [insert_column]. exists v'. split; [exact H|]. destruct (find_column t s); [|discriminate]. injection H as <-.
      apply reordered_leaf; discriminate.
    + destruct (reordered_dict_inv _ _ E) as (mid & items' & -> & G & P). pose proof (not_reference_reordered _ _ N E) as N'.
      rewrite insert_dict_eq in H |- * by assumption. destruct (insert_items t items) as [r|] eqn:R; [|discriminate]. injection H as <-.
      assert (X : exists r', insert_items t mid = Ok r' /\ Forall2 (fun kv kv' : string * value => fst kv = fst kv' /\ reordered (snd kv) (snd kv')) r r').
      { clear N N' E P. revert r R.
        induction G as [|[k v] [k' w] l l' [X Y] G IH]; intros r R; simpl in R |- *; [injection R as <-; exists []; split; constructor|].
        inversion F as [|? ? Fv F']; subst. cbn [fst snd] in *. subst k'.
        destruct (insert_from_dataframe t v) as [u|] eqn:U; [|discriminate]. cbn [bind] in R.
        destruct (insert_items t l) as [q|]; [|discriminate]. cbn [bind] in R. injection R as <-.
        destruct (Fv _ _ Y eq_refl) as [u' [-> U']]. destruct (IH F' q eq_refl) as [q' [-> Q]]. eexists. split; [reflexivity|]. constructor; [split|]; auto. }
      destruct X as [r' [X1 X2]]. destruct (insert_items_perm _ _ _ _ P X1) as [r2 [-> Q]]. eexists. split; [reflexivity|].
      eapply reordered_dict; eassumption.
Qed.
Lemma refers_reordered : forall v w n, refers v n -> reordered v w -> exists n', refers w n'.
Proof.
  intros v. induction v as [v H1 H2|l F|items F] using value_tree_ind; intros w n R E.
  - exfalso. inversion R; subst; [eapply H2|eapply H1|eapply H2]; reflexivity.
  - destruct (reordered_list_inv _ _ E) as [l' [-> G]]. inversion R as [|? v ? I X|]; subst. rewrite Forall_forall in F. clear E R.
    revert F I. induction G as [|a b l l' Y G IH]; intros F I; [destruct I|]. destruct I as [->|I].
    + destruct (F v (or_introl eq_refl) b n X Y) as [n' Z]. exists n'. eapply refers_list; [left; reflexivity|exact Z].
    + destruct IH as [n' Z]; [intros y K; apply F; right; exact K|exact I|]. exists n'. inversion Z; subst. eapply refers_list; [right; eassumption|eassumption].
  - destruct (reference_dec items) as [[m ->]|N].
    + destruct (reference_reordered _ _ E) as [n' [-> _]]. exists n'. constructor.
    + inversion R as [| |? k v ? NR I X]; subst; [exfalso; eapply N; reflexivity|].
      destruct (reordered_dict_inv _ _ E) as (mid & items' & -> & G & P). rewrite Forall_forall in F.
      assert (Z : exists k' v' n', In (k', v') mid /\ refers v' n').
      { clear P E R N NR. revert F I. induction G as [|a b l l' [Y1 Y2] G IH]; intros F I; [destruct I|]. destruct I as [->|I].
        - destruct (F (k, v) (or_introl eq_refl) (snd b) n X Y2) as [n' Z]. exists (fst b), (snd b), n'. split; [left; destruct b; reflexivity|exact Z].
        - destruct IH as (k' & v' & n' & A & B); [intros y K; apply F; right; exact K|exact I|]. exists k', v', n'. split; [right; exact A|exact B]. }
      destruct Z as (k' & v' & n' & A & B). exists n'. eapply refers_dict; [eapply not_reference_reordered; eassumption|eapply Permutation_in; [exact P|exact A]|exact B].
Qed.

Lemma insertion_reordered : forall items items' data v, distinct (VDict items) -> reordered (VDict items) (VDict items') ->
  insert_dataframe items data = Ok v -> exists w, insert_dataframe items' data = Ok w /\ reordered v w.
Proof.
  intros items items' [t|] v D E H; unfold insert_dataframe in *.
  - eapply insert_reordered; [|exact H]. apply set_key_reordered; try assumption; discriminate.
  - assert (X : reordered (VDict (set_key "data" VNull items)) (VDict (set_key "data" VNull items'))) by (apply set_key_reordered; try assumption; discriminate).
    destruct (check_outcome (VDict (set_key "data" VNull items))) as [[A Q]|[A Q]]; rewrite Q in H; [|discriminate]. injection H as <-.
    destruct (check_outcome (VDict (set_key "data" VNull items'))) as [[B Q']|[[n B] Q']]; rewrite Q'.
    + eexists. split; [reflexivity|exact X].
    + exfalso. apply reordered_sym in X. destruct (refers_reordered _ _ _ B X) as [n' Y]. apply (A n'), Y.
Qed.
Lemma parse_reordered : forall st items items' data r, distinct (VDict items) -> reordered (VDict items) (VDict items') ->
  parse_input st items data = Ok r -> parse_input st items' data = Ok r.
Proof.
  intros st items items' data r D E H. unfold parse_input in *. destruct (insert_dataframe items data) as [v|] eqn:I; [|discriminate].
  destruct (insertion_reordered _ _ _ _ D E I) as [w [-> X]]. cbn [bind] in H |- *.
  assert (Dv : distinct v) by (eapply (insert_conforms st); eassumption).
  rewrite <- (config_alike st v w Dv X). exact H.
Qed.
Lemma key_order : forall st items items' data, distinct (VDict items) -> reordered (VDict items) (VDict items') ->
  forall r, parse_input st items data = Ok r <-> parse_input st items' data = Ok r.
Proof.
  intros st items items' data D E r. split; [apply parse_reordered; assumption|].
  apply parse_reordered; [eapply reordered_distinct; eassumption|apply reordered_sym, E].
Qed.
