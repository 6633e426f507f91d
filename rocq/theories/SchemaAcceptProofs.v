(** Lemmas: what conforms to the schema is read. *)
From Coq Require Import String Ascii List ZArith Lia Lra.
From Verif Require Import Base BaseProofs ConfigModel FluidsModel InputModel InputSpec InputProofs RowModel ReadModel
  SchemaSpec SchemaProofs DocSpec RewriteSpec RewriteProofs.
Import ListNotations.
Open Scope R_scope.

(** The reader does not refuse; it may still leave the model. *)
Definition passes {A} (r : res A) : Prop := r <> Err ValueError.
Lemma passes_ok : forall {A} (a : A), passes (Ok a).
Proof. discriminate. Qed.
Lemma passes_bind : forall {A B} (r : res A) (k : A -> res B), passes r -> (forall a, r = Ok a -> passes (k a)) -> passes (let* a := r in k a).
Proof.
  intros A B [a|e] k P K; cbn [bind]; [apply K; reflexivity|]. intros E. apply P. injection E as ->. reflexivity.
Qed.
Lemma passes_map : forall {A B} (f : A -> B) r, passes r -> passes (rmap f r).
Proof. intros A B f [a|e] P; cbn [rmap]; [apply passes_ok|]. intros E. apply P. injection E as ->. reflexivity. Qed.
Lemma passes_sequence : forall {A} (l : list (res A)), Forall passes l -> passes (sequence l).
Proof.
  intros A l F. induction F as [|r l P F IH]; cbn [sequence]; [apply passes_ok|]. apply passes_bind; [exact P|]. intros a _.
  apply passes_bind; [exact IH|]. intros b _. apply passes_ok.
Qed.
Lemma passes_first : forall {A} (l : list (value -> res A)) f v, In f l -> passes (f v) -> passes (first_of l v).
Proof.
  intros A l f v I P. induction l as [|g l IH]; [destruct I|]. cbn [first_of]. destruct I as [->|I].
  - destruct (f v) as [a|e] eqn:E; [apply passes_ok|]. destruct e; try discriminate. exfalso. apply P. reflexivity.
  - destruct (g v) as [a|e] eqn:E; [apply passes_ok|]. destruct e; try discriminate. apply IH, I.
Qed.

(** Nothing is left to be put in. *)
Definition filled (v : value) : Prop := forall n, ~ refers v n.
Lemma filled_not_reference : forall items, filled (VDict items) -> forall n, ~ is_reference (VDict items) n.
Proof. intros items F n E. unfold is_reference in E. injection E as ->. apply (F n). constructor. Qed.
Lemma filled_item : forall items k v, filled (VDict items) -> In (k, v) items -> filled v.
Proof. intros items k v F I n R. apply (F n). eapply refers_dict; [apply filled_not_reference, F|exact I|exact R]. Qed.
Lemma filled_element : forall l v, filled (VList l) -> In v l -> filled v.
Proof. intros l v F I n R. apply (F n). eapply refers_list; eassumption. Qed.
Lemma filled_column : forall n v, filled v -> column_of n v -> exists l, v = VArray l /\ List.length l = n.
Proof. intros n v F C. destruct C as [name|l L]; [exfalso; apply (F name); constructor|exists l; split; [reflexivity|exact L]]. Qed.

Section Accept.
Context (st : strings).
Definition accepts {A} (read : value -> res A) (s : schema) : Prop :=
  forall v, distinct v -> filled v -> conforms st s v -> passes (read v).

(** ** Numbers and words *)
Lemma numeric_passes : forall v, numeric st v -> passes (cell st v).
Proof. intros v N. destruct N as [| |s x E]; cbn [cell]; try apply passes_ok. rewrite E. apply passes_ok. Qed.
Lemma cell_passes : forall v, shaped st [] v -> is_scalar v = true /\ passes (cell st v).
Proof.
  intros v H. inversion H as [? N| | |]; subst; [|split; [reflexivity|discriminate]].
  split; [destruct N; reflexivity|apply numeric_passes, N].
Qed.
Lemma cells_pass : forall l, Forall (shaped st []) l -> forallb is_scalar l = true /\ passes (sequence (map (cell st) l)).
Proof.
  intros l F. split.
  - apply forallb_forall. rewrite Forall_forall in F. intros v V. apply cell_passes, F, V.
  - apply passes_sequence. rewrite Forall_forall in F. apply Forall_forall. intros r R. apply in_map_iff in R.
    destruct R as (v & <- & V). apply cell_passes, F, V.
Qed.
Lemma row_passes : forall n v, filled v -> shaped st [n] v -> is_row v = true /\ passes (matrix_row st v) /\
  forall r, matrix_row st v = Ok r -> List.length r = n.
Proof.
  intros n v F H. inversion H as [| |? ? C|? l L]; subst.
  - destruct (filled_column _ _ F C) as (l & -> & <-). split; [reflexivity|]. split; [apply passes_ok|]. intros r E. injection E as <-. reflexivity.
  - destruct (cells_pass l L) as [A B]. split; [reflexivity|]. cbn [matrix_row]. rewrite A. split; [exact B|].
    intros r R. apply (cells_shaped st l r R).
Qed.
Lemma deep_row : forall n m dims v, filled v -> shaped st (n :: m :: dims) v -> is_row v = true /\ passes (matrix_row st v) /\
  forall r, matrix_row st v = Ok r -> List.length r = n.
Proof.
  intros n m dims v F H. inversion H as [| | |? l L]; subst. split; [reflexivity|]. cbn [matrix_row].
  destruct (forallb is_scalar l) eqn:E; [|split; [discriminate|intros r R; discriminate R]].
  assert (l = []) as ->.
  { destruct l as [|v l]; [reflexivity|]. exfalso. inversion L as [|? ? X]; subst. cbn [forallb] in E.
    inversion X as [| |? ? C|]; subst; [|discriminate E]. destruct C; discriminate E. }
  split; [apply passes_ok|]. intros r R. injection R as <-. reflexivity.
Qed.
Lemma any_row : forall n dims v, filled v -> shaped st (n :: dims) v -> is_row v = true /\ passes (matrix_row st v) /\
  forall r, matrix_row st v = Ok r -> List.length r = n.
Proof. intros n [|m dims] v F H; [apply row_passes|eapply deep_row]; eassumption. Qed.
Lemma rows_same : forall n l rows, (forall v, In v l -> forall r, matrix_row st v = Ok r -> List.length r = n) ->
  sequence (map (matrix_row st) l) = Ok rows -> Forall (fun r => List.length r = n) rows.
Proof.
  intros n l. induction l as [|v l IH]; intros rows H E; cbn [map sequence] in E; [injection E as <-; constructor|].
  destruct (matrix_row st v) as [r|] eqn:R; [|discriminate]. cbn [bind] in E.
  destruct (sequence (map (matrix_row st) l)) as [rs|]; [|discriminate]. injection E as <-.
  constructor; [apply (H v); [left; reflexivity|exact R]|]. apply IH; [|reflexivity]. intros w W. apply H. right. exact W.
Qed.
Lemma same_lengths_of : forall {A} n (rows : list (list A)), Forall (fun r => List.length r = n) rows -> same_lengths rows = true.
Proof.
  intros A n rows F. destruct F as [|r rows L F]; [reflexivity|]. cbn [same_lengths]. apply forallb_forall. rewrite Forall_forall in F.
  intros q Q. apply Nat.eqb_eq. rewrite L. apply F, Q.
Qed.
Lemma array_accepts : accepts (np_array st) Numbers.
Proof.
  intros v D F C. inversion C as [|dims ? H N| | | | | | | | | | | | | |]; subst. clear C.
  inversion H as [? M| |n ? C|dims' l L]; subst.
  - destruct M as [| |s x E]; try apply passes_ok. cbn [np_array cell]. rewrite E. apply passes_ok.
  - exfalso. apply N. reflexivity.
  - destruct (filled_column _ _ F C) as (l & -> & _). apply passes_ok.
  - cbn [np_array]. destruct dims' as [|n dims'].
    + destruct (cells_pass l L) as [A B]. rewrite A. apply passes_bind; [exact B|]. intros. apply passes_ok.
    + assert (X : forall v, In v l -> is_row v = true /\ passes (matrix_row st v) /\ forall r, matrix_row st v = Ok r -> List.length r = n).
      { intros v V. rewrite Forall_forall in L. eapply any_row; [eapply filled_element; eassumption|apply L, V]. }
      destruct (forallb is_scalar l) eqn:E.
      { destruct l as [|v l]; [apply passes_ok|]. exfalso. destruct (X v (or_introl eq_refl)) as [Y _]. cbn [forallb] in E.
        destruct v; discriminate. }
      replace (forallb is_row l) with true by (symmetry; apply forallb_forall; intros v V; apply X, V).
      apply passes_bind.
      * apply passes_sequence, Forall_forall. intros r R. apply in_map_iff in R. destruct R as (v & <- & V). apply X, V.
      * intros rows E'. rewrite (same_lengths_of n); [apply passes_ok|]. eapply rows_same; [|exact E']. intros v V. apply X, V.
Qed.
Lemma float_accepts : accepts (read_float st) Number.
Proof.
  intros v D F C. inversion C as [| |? M|n ? M| | | | | | | | | | | |]; subst.
  - destruct M as [| |s x E]; try apply passes_ok. cbn [read_float cell]. rewrite E. apply passes_ok.
  - destruct (filled_column _ _ F M) as (l & -> & _). apply passes_ok.
Qed.
Lemma int_accepts : accepts (read_int st) Index.
Proof.
  intros v D F C. inversion C as [| | | |? M|n ? M| | | | | | | | | |]; subst.
  - destruct M as [| |s x E]; try apply passes_ok. cbn [read_int]. rewrite E. apply passes_ok.
  - destruct (filled_column _ _ F M) as (l & -> & _). apply passes_ok.
Qed.
Lemma word_lower : forall w, In w (yes ++ no) -> lower w = w.
Proof. intros w W. cbn in W. intuition (subst; reflexivity). Qed.
Lemma switch_accepts : accepts read_bool Switch.
Proof.
  intros v D F C. inversion C as [| | | | | |b|x X|s w W E| | | | | | |]; subst; cbn [read_bool].
  - apply passes_ok.
  - destruct (Req_EM_T x 1); [apply passes_ok|]. destruct (Req_EM_T x 0); [apply passes_ok|]. destruct X; contradiction.
  - rewrite (lower_same s w (word_lower w W) E). cbn in W. intuition (subst; discriminate).
Qed.
Lemma literal_accepts : forall s, accepts (literal s) (Word [s]).
Proof.
  intros s v D F C. inversion C as [| | | | | | | | |? t T| | | | | |]; subst. destruct T as [->|[]]. cbn [literal].
  rewrite String.eqb_refl. apply passes_ok.
Qed.
Lemma provider_accepts : accepts read_provider fluid_model_schema.
Proof. intros v D F C. inversion C as [| | | | | | | | |? t T| | | | | |]; subst. cbn in T. intuition (subst; discriminate). Qed.
Lemma mix_accepts : accepts read_mix_method (Word ["wood"; "brie"]%string).
Proof. intros v D F C. inversion C as [| | | | | | | | |? t T| | | | | |]; subst. cbn in T. intuition (subst; discriminate). Qed.
Lemma nullable_accepts : forall {A} (read : value -> res A) s, accepts read s -> accepts (nullable read) (Nullable s).
Proof.
  intros A read s R v D F C. destruct v as [|b|x|t|l|t|l|items]; cbn [nullable]; [apply passes_ok|..];
    (apply passes_bind; [apply R; [exact D|exact F|inversion C; subst; assumption]|intros; apply passes_ok]).
Qed.
Lemma list_accepts : forall {A} (read : value -> res A) e s, accepts read s -> accepts (list_of read) (ListOf e s).
Proof.
  intros A read e s R v D F C. inversion C as [| | | | | | | | | | | | | | |? ? l L E]; subst. cbn [list_of].
  apply passes_sequence, Forall_forall. intros r I. apply in_map_iff in I. destruct I as (v & <- & I).
  apply distinct_list_inv in D. rewrite Forall_forall in D, L. apply R; [apply D, I|eapply filled_element; eassumption|apply L, I].
Qed.
Lemma nonempty_accepts : forall {A} (read : value -> res A) s, accepts read s -> accepts (nonempty_list_of read) (ListOf false s).
Proof.
  intros A read s R v D F C. unfold nonempty_list_of. apply passes_bind; [eapply list_accepts; eassumption|].
  intros a E. inversion C as [| | | | | | | | | | | | | | |? ? l L N]; subst. destruct l as [|w l]; [exfalso; apply N; reflexivity|].
  cbn [list_of map sequence] in E. destruct (read w); [|discriminate]. cbn [bind] in E.
  destruct (sequence (map read l)); [|discriminate]. injection E as <-. apply passes_ok.
Qed.
Lemma first_accepts : forall {A} (l : list (value -> res A)) ss, Forall2 accepts l ss -> accepts (first_of l) (OneOf ss).
Proof.
  intros A l ss F2 v D F C. inversion C as [| | | | | | | | | | | |? s ? I Q| | |]; subst. clear C.
  assert (X : exists f, In f l /\ accepts f s).
  { induction F2 as [|f s' l ss H F2 IH]; [destruct I|]. destruct I as [->|I]; [exists f; split; [left; reflexivity|exact H]|].
    destruct (IH I) as (g & G1 & G2). exists g. split; [right; exact G1|exact G2]. }
  destruct X as (f & I' & R). eapply passes_first; [exact I'|]. apply R; assumption.
Qed.
Lemma reads_accepts : forall {A B} (g : A -> B) (read : value -> res A) s, accepts read s -> accepts (reads g read) s.
Proof. intros A B g read s R v D F C. apply passes_map, R; assumption. Qed.

(** ** Records *)
Definition field_conforms (f : list (string * value)) (d : string * (bool * schema)) : Prop :=
  (fst (snd d) = true -> get f (fst d) <> None) /\
  forall v, get f (fst d) = Some v -> distinct v /\ filled v /\ conforms st (snd (snd d)) v.
Lemma get_none : forall f name, get f name = None -> ~ In name (map fst f).
Proof.
  intros f name H I. induction f as [|[k w] f IH]; [destruct I|]. cbn [get] in H. destruct (String.eqb_spec k name) as [->|N]; [discriminate|].
  destruct I as [I|I]; [apply N, I|apply IH; assumption].
Qed.
Lemma in_fields : forall (fields : list (string * (bool * schema))) a b, NoDup (map fst fields) -> In a fields -> In b fields -> fst a = fst b -> a = b.
Proof.
  intros fields a b N A B E. induction fields as [|d fields IH]; [destruct A|]. cbn [map] in N. inversion N as [|? ? Nd N']; subst.
  destruct A as [->|A], B as [->|B]; try reflexivity.
  - exfalso. apply Nd. rewrite E. apply in_map, B.
  - exfalso. apply Nd. rewrite <- E. apply in_map, A.
  - apply IH; assumption.
Qed.
Lemma record_accepts : forall fields pairs names v, names = map fst fields -> NoDup names -> distinct v -> filled v ->
  conforms st (Record fields pairs) v -> exists f, arguments names v = Ok f /\ NoDup (map fst f) /\
  Forall (field_conforms f) fields /\ Forall (either f) pairs.
Proof.
  intros fields pairs names v -> N D F C. inversion C as [| | | | | | | | | |? ? items K Q T|? ? given l G Q T| | | |]; subst.
  - exists items. apply distinct_dict_inv in D. destruct D as [ND D]. cbn [arguments].
    replace (forallb _ items) with true.
    + split; [reflexivity|]. split; [exact ND|]. split; [|exact T]. apply Forall_forall. intros d I. split.
      * intros R H. apply (get_none _ _ H). destruct d as [name [b s]]. cbn [fst snd] in *. subst b. apply (Q _ _ I).
      * intros w W. apply get_in in W. rewrite Forall_forall in D, K. split; [apply (D _ W)|]. split; [eapply filled_item; eassumption|].
        destruct (K _ W) as (d' & I' & E & X). cbn [fst snd] in *. rewrite <- (in_fields fields d' d N I' I E). exact X.
    + symmetry. apply forallb_forall. intros [k w] I. rewrite Forall_forall in K. destruct (K _ I) as (d & I' & E & _). cbn [fst] in *.
      apply existsb_exists. exists k. split; [rewrite <- E; apply in_map, I'|apply String.eqb_refl].
  - destruct Q as (rest & -> & Q). rewrite map_app in N |- *.
    assert (L : List.length given = List.length l) by (clear -G; induction G; cbn; congruence).
    assert (Lm : List.length (map fst given) = List.length l) by (rewrite map_length; exact L).
    exists (combine (map fst given) l). cbn [arguments]. rewrite combine_prefix by exact Lm.
    replace (Nat.leb _ _) with true by (symmetry; apply Nat.leb_le; rewrite app_length; lia).
    assert (N1 : NoDup (map fst given)) by (clear -N; induction (map fst given) as [|x a IH]; [constructor|]; cbn in N; inversion N; subst;
      constructor; [intros X; match goal with H : ~ In _ _ |- _ => apply H end; apply in_or_app; left; exact X|apply IH; assumption]).
    split; [reflexivity|]. rewrite combine_keys by exact Lm. split; [exact N1|]. split; [|exact T].
    apply distinct_list_inv in D.
    assert (E : Forall (fun d => exists w, get (combine (map fst given) l) (fst d) = Some w /\ distinct w /\ filled w /\ conforms st (snd (snd d)) w) given).
    { assert (F' : Forall filled l) by (apply Forall_forall; intros w W; eapply filled_element; eassumption).
      clear -G N1 D F'. apply Forall_forall. intros d I.
      induction G as [|d' v given l X G IH]; [destruct I|]. cbn [map] in N1. inversion N1 as [|? ? Nd N']; inversion D; inversion F'; subst.
      cbn [combine map get]. destruct I as [->|I].
      - rewrite String.eqb_refl. exists v. auto.
      - destruct (String.eqb_spec (fst d') (fst d)) as [E|_]; [exfalso; apply Nd; rewrite E; apply in_map, I|]. apply IH; assumption. }
    apply Forall_app. split.
    + eapply Forall_impl; [|exact E]. intros d (w & W & Dw & Fw & Cw). split; [intros _; rewrite W; discriminate|].
      intros u U. rewrite W in U. injection U as <-. auto.
    + apply Forall_forall. intros d I. rewrite Forall_forall in Q. split; [rewrite (Q _ I); discriminate|].
      intros u U. exfalso. apply get_in in U. apply (in_map fst) in U. rewrite combine_keys in U by exact Lm.
      apply (NoDup_app_disjoint _ _ N (fst d)); [exact U|apply in_map, I].
Qed.
Lemma required_accepts : forall {A} (read : value -> res A) s f name, accepts read s -> field_conforms f (need name s) -> passes (required read f name).
Proof.
  intros A read s f name R [H1 H2]. unfold required. cbn [need fst snd] in *. destruct (get f name) as [v|].
  - destruct (H2 v eq_refl) as (D & F & C). apply R; assumption.
  - exfalso. apply H1; reflexivity.
Qed.
Lemma default_accepts : forall {A} (d : A) (read : value -> res A) s b f name, accepts read s -> field_conforms f (name, (b, s)) -> passes (default d read f name).
Proof.
  intros A d read s b f name R [H1 H2]. unfold default. cbn [fst snd] in *. destruct (get f name) as [v|]; [|apply passes_ok].
  destruct (H2 v eq_refl) as (D & F & C). apply R; assumption.
Qed.

Ltac nodup := repeat constructor; cbn; intuition discriminate.
Ltac start := let v := fresh "v" in let D := fresh "D" in let F := fresh "F" in let C := fresh "C" in
  intros v D F C;
  cbv beta delta [read_arbitrary read_gas read_oil read_brine read_condensate read_carbon_dioxide read_constituent read_minerals
    read_fluids_section read_moduli read_velocities read_ratios read_friable read_patchy read_fit read_powerfit read_polyfit2d
    read_depth_trend read_pressure_dependency read_dry_rock read_pressure read_config optional type_is];
  match type of C with conforms _ (Record ?fs ?ps) _ => match goal with |- passes (bind (arguments ?names _) _) =>
    let f := fresh "f" in let E := fresh "E" in let Nf := fresh "Nf" in let Ff := fresh "Ff" in let T := fresh "T" in
    destruct (record_accepts fs ps names v eq_refl ltac:(nodup) D F C) as (f & E & Nf & Ff & T); rewrite E; cbn [bind]; clear C E end end.
Ltac field_ L :=
  match goal with Ff : Forall (field_conforms _) (_ :: _) |- _ =>
    let X := fresh "X" in let G := fresh "G" in inversion Ff as [|? ? X G]; subst; clear Ff;
    first [ apply passes_bind; [first [eapply required_accepts; [exact L|exact X]|eapply default_accepts; [exact L|exact X]]|
              let a := fresh "a" in let E := fresh "E" in intros a E]
          | eapply default_accepts; [exact L|exact X] ] end.
Ltac skip_ := match goal with Ff : Forall (field_conforms _) (_ :: _) |- _ => inversion Ff; subst; clear Ff end.
Ltac done_ := try apply passes_ok.

Local Open Scope string_scope.
Lemma opt_accepts : accepts (nullable (np_array st)) (Nullable Numbers).
Proof. exact (nullable_accepts _ _ array_accepts). Qed.
Lemma either_given : forall (f : list (string * value)) k1 k2 a b, NoDup (map fst f) -> either f (k1, k2) ->
  default None (nullable (np_array st)) f k1 = Ok a -> default None (nullable (np_array st)) f k2 = Ok b -> a = None -> b = None -> False.
Proof.
  intros f k1 k2 a b N (v & V & I) A B -> ->. unfold default in A, B.
  destruct I as [I|I]; cbn [fst snd] in I; rewrite (get_distinct _ _ _ N I) in *.
  - destruct v; try (apply V; reflexivity); cbn [nullable] in A; destruct (np_array st _) in A; discriminate A.
  - destruct v; try (apply V; reflexivity); cbn [nullable] in B; destruct (np_array st _) in B; discriminate B.
Qed.
Lemma arbitrary_accepts : accepts (read_arbitrary st) arbitrary_schema.
Proof.
  unfold arbitrary_schema. start. inversion T as [|? ? T1 T']; subst. inversion T' as [|? ? T2 _]; subst.
  field_ array_accepts. field_ opt_accepts. field_ opt_accepts. field_ opt_accepts. field_ opt_accepts. field_ (literal_accepts "material").
  assert (P1 := fun A B => either_given _ _ _ _ _ Nf T1 E0 E3 A B).
  assert (P2 := fun A B => either_given _ _ _ _ _ Nf T2 E1 E2 A B).
  destruct a0, a1, a2, a3; try apply passes_ok; exfalso; (apply P1; reflexivity) || (apply P2; reflexivity).
Qed.
Lemma material_accepts : accepts (read_material st) material_schema.
Proof.
  apply first_accepts. constructor; [|constructor; [|constructor; [|constructor; [|constructor; [|constructor; [|constructor]]]]]].
  - apply reads_accepts, arbitrary_accepts.
  - start. field_ array_accepts. field_ (literal_accepts "gas"). done_.
  - start. field_ array_accepts. field_ array_accepts. field_ array_accepts. field_ (literal_accepts "oil"). done_.
  - start. field_ array_accepts. field_ (literal_accepts "brine"). done_.
  - start. field_ array_accepts. field_ array_accepts. field_ array_accepts. field_ (literal_accepts "condensate"). done_.
  - start. field_ (literal_accepts "carbon_dioxide"). field_ switch_accepts. done_.
Qed.
Lemma constituents_accepts : accepts (nonempty_list_of (read_constituent st)) constituents_schema.
Proof.
  apply nonempty_accepts. start. field_ material_accepts. field_ opt_accepts. field_ (nullable_accepts _ _ provider_accepts). done_.
Qed.
Lemma minerals_accepts : accepts (read_minerals st) minerals_schema.
Proof. unfold minerals_schema. start. field_ constituents_accepts. Qed.
Lemma fluids_accepts : accepts (read_fluids_section st) fluids_schema.
Proof.
  unfold fluids_schema. start. field_ array_accepts. field_ constituents_accepts. field_ mix_accepts. field_ float_accepts.
  field_ (nullable_accepts _ _ (list_accepts _ true _ int_accepts)). field_ provider_accepts. done_.
Qed.
Lemma coefficients_accepts : accepts (read_coefficients st) coefficients_schema.
Proof.
  apply first_accepts. constructor; [|constructor; [|constructor]].
  - start. field_ opt_accepts. field_ opt_accepts. field_ opt_accepts. done_.
  - start. field_ opt_accepts. field_ opt_accepts. field_ opt_accepts. done_.
Qed.
Lemma ratios_accepts : accepts (read_ratios st) ratio_schema.
Proof. unfold ratio_schema. start. field_ opt_accepts. field_ opt_accepts. field_ opt_accepts. done_. Qed.
Lemma friable_accepts : accepts (read_friable st) friable_schema.
Proof.
  unfold friable_schema. start. field_ array_accepts. field_ array_accepts. field_ opt_accepts. field_ (literal_accepts "friable_sand"). done_.
Qed.
Lemma patchy_accepts : accepts (read_patchy st) patchy_schema.
Proof.
  unfold patchy_schema. start. field_ (literal_accepts "patchy_cement"). field_ arbitrary_accepts. field_ array_accepts. field_ array_accepts.
  field_ array_accepts. field_ array_accepts. field_ opt_accepts. field_ array_accepts. done_.
Qed.
Lemma fit_accepts : forall name, accepts (read_fit st name) (fit_schema name).
Proof. intros name. unfold fit_schema. start. field_ coefficients_accepts. field_ (literal_accepts name). done_. Qed.
Lemma dependency_accepts : accepts (read_dependency st) dependency_schema.
Proof.
  apply first_accepts. constructor; [|constructor; [|constructor; [|constructor; [|constructor; [|constructor; [|constructor]]]]]].
  - apply reads_accepts, patchy_accepts.
  - apply reads_accepts, friable_accepts.
  - start. field_ ratios_accepts. field_ (literal_accepts "powerfit"). destruct a as [[? ?] ?]. done_.
  - apply reads_accepts, fit_accepts.
  - apply reads_accepts, fit_accepts.
  - apply reads_accepts, fit_accepts.
Qed.
Lemma sandstone_accepts : accepts (read_sandstone st) sandstone_schema.
Proof.
  apply first_accepts. constructor; [|constructor; [|constructor; [|constructor]]].
  - apply reads_accepts, patchy_accepts.
  - apply reads_accepts, friable_accepts.
  - start. field_ (nullable_accepts _ _ coefficients_accepts). field_ (literal_accepts "polyfit"). done_.
Qed.
Lemma adjustment_accepts : accepts (first_of [read_depth_trend st; read_pressure_dependency st]) adjustment_schema.
Proof.
  apply first_accepts. constructor; [|constructor; [|constructor]].
  - start. field_ array_accepts. field_ coefficients_accepts. field_ (literal_accepts "depth_trend"). field_ opt_accepts. field_ opt_accepts. done_.
  - start. field_ dependency_accepts. field_ (literal_accepts "pressure_dependency"). done_.
Qed.
Lemma dry_rock_accepts : accepts (read_dry_rock st) dry_rock_schema.
Proof.
  unfold dry_rock_schema. start. field_ sandstone_accepts. field_ array_accepts. field_ (list_accepts _ true _ adjustment_accepts). done_.
Qed.
Lemma pressure_accepts : accepts (read_pressure st) pressure_schema.
Proof.
  unfold pressure_schema. start. field_ array_accepts. field_ array_accepts. field_ opt_accepts. field_ opt_accepts. field_ opt_accepts. done_.
Qed.
Lemma config_accepts : accepts (read_config st) config_schema.
Proof.
  unfold config_schema. start. skip_. field_ minerals_accepts. field_ fluids_accepts. field_ dry_rock_accepts. field_ pressure_accepts. done_.
Qed.

(** With the columns put in. *)
Lemma inserted_filled : forall items data v, insert_dataframe items data = Ok v -> filled v.
Proof.
  intros items [t|] v H n; unfold insert_dataframe in H.
  - apply insert_replaces in H. eapply replaced_no_reference, H.
  - destruct (check_no_column_reference _) as [u|] eqn:E; [|discriminate]. injection H as <-.
    destruct (check_outcome (VDict (set_key "data" VNull items))) as [[N _]|[_ N]]; [apply N|]. rewrite N in E. discriminate E.
Qed.
Lemma conforming_read : forall items data v, distinct (VDict items) -> insert_dataframe items data = Ok v ->
  conforms st config_schema v -> passes (read_config st v).
Proof.
  intros items data v D H C. apply config_accepts; [|eapply inserted_filled, H|exact C].
  eapply (insert_conforms st); eassumption.
Qed.
End Accept.
