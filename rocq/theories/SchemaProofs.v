(** Lemmas: accepted configurations conform to the schema. *)
From Coq Require Import String Ascii List ZArith Lia Lra Permutation.
From Verif Require Import Base BaseProofs ConfigModel FluidsModel InputModel InputSpec InputProofs RowModel ReadModel
  SchemaSpec.
Import ListNotations.
Open Scope R_scope.

(** ** Reading *)
Definition reads_as {A} (st : strings) (read : value -> res A) (s : schema) : Prop :=
  forall v a, distinct v -> read v = Ok a -> conforms st s v.

Lemma distinct_dict_inv : forall items, distinct (VDict items) ->
  NoDup (map fst items) /\ Forall (fun kv => distinct (snd kv)) items.
Proof. intros items H. inversion H as [v A B| |]; subst; [exfalso; eapply B; reflexivity|]. split; assumption. Qed.
Lemma distinct_list_inv : forall l, distinct (VList l) -> Forall distinct l.
Proof. intros l H. inversion H as [v A B| |]; subst; [exfalso; eapply A; reflexivity|]. assumption. Qed.

Lemma get_in : forall f name v, get f name = Some v -> In (name, v) f.
Proof.
  intros f name v H. induction f as [|[k w] f IH]; cbn [get] in H; [discriminate|].
  destruct (String.eqb_spec k name) as [->|]; [injection H as ->; left; reflexivity|right; apply IH, H].
Qed.
Lemma get_distinct : forall f name v, NoDup (map fst f) -> In (name, v) f -> get f name = Some v.
Proof.
  intros f name v N H. induction f as [|[k w] f IH]; [destruct H|]. cbn [map fst] in N. inversion N; subst. cbn [get].
  destruct H as [H|H].
  - injection H as -> ->. rewrite String.eqb_refl. reflexivity.
  - destruct (String.eqb_spec k name) as [->|]; [|apply IH; assumption]. exfalso. match goal with H : ~ In _ _ |- _ => apply H end.
    apply (in_map fst _ _ H).
Qed.

Section Readers.
Context (st : strings).
Notation conforms := (conforms st).
Notation reads_as := (reads_as st).

(** The fields of a record: what a mapping or a list gives for each of them. *)
Definition field_reads (f : list (string * value)) (d : string * (bool * schema)) : Prop :=
  (fst (snd d) = true -> In (fst d) (map fst f)) /\
  forall v, In (fst d, v) f -> distinct v -> conforms (snd (snd d)) v.

Lemma required_field : forall {A} (read : value -> res A) s f name a, reads_as read s -> NoDup (map fst f) ->
  required read f name = Ok a -> field_reads f (need name s).
Proof.
  intros A read s f name a R N H. unfold required in H. destruct (get f name) as [v|] eqn:E; [|discriminate].
  split; cbn [need fst snd].
  - intros _. apply (in_map fst _ _ (get_in _ _ _ E)).
  - intros w W D. rewrite (get_distinct _ _ _ N W) in E. injection E as ->. eapply R; eassumption.
Qed.
Lemma default_field : forall {A} (d : A) (read : value -> res A) s f name a, reads_as read s -> NoDup (map fst f) ->
  default d read f name = Ok a -> field_reads f (may name s).
Proof.
  intros A d read s f name a R N H. unfold default in H. split; cbn [may fst snd]; [discriminate|].
  intros w W D. rewrite (get_distinct _ _ _ N W) in H. eapply R; eassumption.
Qed.
Lemma unread_field : forall f name, field_reads f (may name Anything).
Proof. intros f name. split; cbn [may fst snd]; [discriminate|]. intros. constructor. Qed.

Lemma nodup_combine : forall (names : list string) (l : list value), NoDup names -> NoDup (map fst (combine names l)).
Proof.
  intros names l N. revert l. induction N as [|n names H N IH]; intros [|v l]; cbn [combine map fst]; try constructor; [|apply IH].
  intros X. apply H. apply in_map_iff in X. destruct X as [[k w] [E X]]. cbn in E. subst. apply (in_combine_l _ _ _ _ X).
Qed.
Lemma forall2_impl : forall {A B} (P Q : A -> B -> Prop), (forall a b, P a b -> Q a b) ->
  forall l l', Forall2 P l l' -> Forall2 Q l l'.
Proof. intros A B P Q H l l' F. induction F; constructor; auto. Qed.
Lemma NoDup_app_disjoint : forall {A} (a b : list A), NoDup (a ++ b) -> forall x, In x a -> In x b -> False.
Proof.
  intros A a b N x X Y. induction a as [|y a IH]; [destruct X|]. cbn in N. inversion N as [|? ? Hy N']; subst. destruct X as [->|X].
  - apply Hy, in_or_app. right. exact Y.
  - apply IH; assumption.
Qed.
Lemma zip_in : forall (given : list (string * (bool * schema))) (l : list value), List.length given = List.length l ->
  Forall2 (fun f v => In f given /\ In (fst f, v) (combine (map fst given) l)) given l.
Proof.
  intros given. induction given as [|d given IH]; intros [|v l] L; try discriminate L; constructor.
  - split; left; reflexivity.
  - eapply forall2_impl; [|apply IH; cbn in L; lia]. cbv beta. intros ? ? [X Y]. split; right; assumption.
Qed.
Lemma combine_prefix : forall {A B} (a b : list A) (l : list B), List.length a = List.length l -> combine (a ++ b) l = combine a l.
Proof. intros A B a. induction a as [|x a IH]; intros b [|y l] L; try discriminate L; [destruct b; reflexivity|]. cbn. rewrite IH; [reflexivity|]. cbn in L; lia. Qed.
Lemma combine_keys : forall {B} (a : list string) (l : list B), List.length a = List.length l -> map fst (combine a l) = a.
Proof. intros B a. induction a as [|x a IH]; intros [|y l] L; try discriminate L; [reflexivity|]. cbn. rewrite IH; [reflexivity|]. cbn in L; lia. Qed.
Lemma record_reads : forall fields names v f, names = map fst fields -> NoDup names ->
  distinct v -> arguments names v = Ok f ->
  NoDup (map fst f) /\ Forall (fun kv => distinct (snd kv)) f /\
  (forall pairs, Forall (field_reads f) fields -> Forall (either f) pairs -> conforms (Record fields pairs) v).
Proof.
  intros fields names v f -> N D H. destruct v as [|b|x|s|l|t|l|items]; try discriminate H; cbn [arguments] in H.
  - destruct (Nat.leb _ _) eqn:L; [|discriminate H]. injection H as <-. apply Nat.leb_le in L. rewrite map_length in L.
    apply distinct_list_inv in D.
    assert (DF : Forall (fun kv : string * value => distinct (snd kv)) (combine (map fst fields) l)).
    { rewrite Forall_forall in *. intros [k v] Hx. apply D. apply (in_combine_r _ _ _ _ Hx). }
    split; [apply nodup_combine, N|]. split; [exact DF|]. intros pairs F T.
    set (given := firstn (List.length l) fields) in *. set (rest := skipn (List.length l) fields).
    assert (Ef : fields = given ++ rest) by (symmetry; apply firstn_skipn).
    assert (Lg : List.length given = List.length l) by (apply firstn_length_le, L).
    assert (Lm : List.length (map fst given) = List.length l) by (rewrite map_length; exact Lg).
    rewrite Ef, map_app in DF, F, N, T. rewrite combine_prefix in DF, F, T by exact Lm.
    apply Forall_app in F. destruct F as [F1 F2].
    apply conforms_positions with given; [|exists rest; split; [exact Ef|]|exact T].
    + pose proof (zip_in given l Lg) as Z. rewrite Forall_forall in F1, DF.
      eapply forall2_impl; [|exact Z]. intros d v [X Y]. destruct (F1 d X) as [_ C]. apply C; [exact Y|apply (DF _ Y)].
    + rewrite Forall_forall in *. intros d X. destruct (fst (snd d)) eqn:Q; [|reflexivity]. exfalso.
      destruct (F2 d X) as [C _]. specialize (C Q). rewrite combine_keys in C by exact Lm.
      apply (NoDup_app_disjoint _ _ N (fst d)); [exact C|apply in_map, X].
  - destruct (forallb _ items) eqn:K; [|discriminate H]. injection H as <-. apply distinct_dict_inv in D. destruct D as [ND D].
    split; [exact ND|]. split; [exact D|]. intros pairs F T. rewrite forallb_forall in K. apply conforms_record; [| |exact T].
    + rewrite Forall_forall in *. intros [k v] Hx. specialize (K _ Hx). apply existsb_exists in K. destruct K as [k' [K E]].
      apply String.eqb_eq in E. cbn [fst] in E. subst k'. apply in_map_iff in K. destruct K as [d [<- K]]. exists d.
      split; [exact K|]. split; [reflexivity|]. apply (F d K); [exact Hx|apply (D _ Hx)].
    + intros name s X. rewrite Forall_forall in F. apply (F _ X). reflexivity.
Qed.

(** ** Numbers and words *)
Lemma cell_shaped : forall v x, cell st v = Ok x -> shaped st [] v.
Proof.
  intros v x H. destruct v; try discriminate H; try (apply shaped_number; constructor).
  cbn [cell] in H. destruct (float_of st s) as [y|] eqn:E; [|discriminate H]. apply shaped_number. econstructor. exact E.
Qed.
Lemma cell_numeric : forall v x, cell st v = Ok x -> numeric st v.
Proof. intros v x H. assert (Q := cell_shaped _ _ H). inversion Q; subst; [assumption|discriminate]. Qed.
Lemma sequence_each : forall {A B} (f : A -> res B) l r, sequence (map f l) = Ok r -> Forall (fun a => exists b, f a = Ok b) l.
Proof.
  intros A B f l. induction l as [|a l IH]; intros r H; [constructor|]. cbn [map sequence] in H.
  destruct (f a) as [b|] eqn:E; [|discriminate]. cbn [bind] in H. destruct (sequence (map f l)) as [r'|]; [|discriminate].
  constructor; [exists b; exact E|eapply IH; reflexivity].
Qed.
Lemma cells_shaped : forall l r, sequence (map (cell st) l) = Ok r -> shaped st [List.length r] (VList l) /\ List.length r = List.length l.
Proof.
  intros l r H. assert (L : List.length r = List.length l).
  { revert r H. induction l as [|v l IH]; intros r H; cbn [map sequence] in H; [injection H as <-; reflexivity|].
    destruct (cell st v); [|discriminate]. cbn [bind] in H. destruct (sequence (map (cell st) l)) as [r'|]; [|discriminate].
    injection H as <-. cbn. rewrite (IH r'); reflexivity. }
  split; [|exact L]. rewrite L. apply shaped_list. apply sequence_each in H. eapply Forall_impl; [|exact H].
  intros v [x X]. eapply cell_shaped, X.
Qed.
Lemma row_shaped : forall v r, matrix_row st v = Ok r -> shaped st [List.length r] v.
Proof.
  intros v r H. destruct v; try discriminate H; cbn [matrix_row] in H.
  - injection H as ->. apply shaped_column, column_put. reflexivity.
  - destruct (forallb is_scalar l); [|discriminate]. apply cells_shaped, H.
Qed.
Lemma rows_shaped : forall l rows, sequence (map (matrix_row st) l) = Ok rows -> same_lengths rows = true ->
  exists dims, shaped st dims (VList l).
Proof.
  intros l rows H L. assert (F : exists n, Forall (shaped st [n]) l).
  { destruct l as [|v l]; [exists 0%nat; constructor|]. cbn [map sequence] in H.
    destruct (matrix_row st v) as [r|] eqn:E; [|discriminate]. cbn [bind] in H.
    destruct (sequence (map (matrix_row st) l)) as [rest|] eqn:Q; [|discriminate]. injection H as <-.
    exists (List.length r). constructor; [apply row_shaped, E|]. cbn [same_lengths] in L. rewrite forallb_forall in L.
    clear E. revert rest Q L. induction l as [|w l IH]; intros rest Q L; [constructor|]. cbn [map sequence] in Q.
    destruct (matrix_row st w) as [q|] eqn:E; [|discriminate]. cbn [bind] in Q.
    destruct (sequence (map (matrix_row st) l)) as [rest'|]; [|discriminate]. injection Q as <-.
    constructor.
    - rewrite <- (proj1 (Nat.eqb_eq _ _) (L q (or_introl eq_refl))). apply row_shaped, E.
    - eapply IH; [reflexivity|]. intros x X. apply L. right. exact X. }
  destruct F as [n F]. eexists. apply shaped_list. exact F.
Qed.
Lemma arr_ : reads_as (np_array st) Numbers.
Proof.
  intros v a D H.
  assert (X : exists dims, shaped st dims v).
  { destruct v as [|b|x|s|l|t|l|items]; try discriminate H; cbn [np_array] in H.
    - exists []. apply shaped_number. constructor.
    - exists []. apply shaped_number. constructor.
    - exists []. destruct (cell st (VStr s)) as [x|] eqn:E; [|discriminate H]. eapply cell_shaped, E.
    - exists [List.length l]. apply shaped_column, column_put. reflexivity.
    - destruct (forallb is_scalar l).
      + destruct (sequence (map (cell st) l)) as [r|] eqn:E; [|discriminate]. eexists. apply (cells_shaped _ _ E).
      + destruct (forallb is_row l); [|discriminate]. destruct (sequence (map (matrix_row st) l)) as [rows|] eqn:E; [|discriminate].
        cbn [bind] in H. destruct (same_lengths rows) eqn:L; [|discriminate]. eapply rows_shaped; eassumption. }
  destruct X as [dims X]. eapply conforms_numbers; [exact X|]. intros ->. discriminate H.
Qed.
Lemma literal_word : forall s, reads_as (literal s) (Word [s]).
Proof.
  intros s v a D H. destruct v; try discriminate H. cbn [literal] in H. destruct (String.eqb_spec s s0) as [->|]; [|discriminate].
  constructor. left. reflexivity.
Qed.
Lemma same_lower : forall s, same_word s (lower s).
Proof.
  intros s. induction s as [|c s IH]; cbn [lower same_word]; [exact I|]. split; [|exact IH]. unfold lower_ascii. cbv zeta.
  destruct (Nat.leb_spec 65 (nat_of_ascii c)) as [A|A], (Nat.leb_spec (nat_of_ascii c) 90) as [B|B]; cbn [andb]; auto.
  right. exists (nat_of_ascii c). rewrite ascii_nat_embedding. auto.
Qed.
Lemma bool_switch : reads_as read_bool Switch.
Proof.
  intros v a D H. destruct v; try discriminate H; cbn [read_bool] in H; [constructor| |].
  - apply conforms_switch_number. destruct (Req_EM_T x 1); [right; assumption|]. destruct (Req_EM_T x 0); [left; assumption|discriminate].
  - apply conforms_switch_word with (lower s); [|apply same_lower]. apply in_or_app.
    destruct (existsb (String.eqb (lower s)) ["1"; "on"; "t"; "true"; "y"; "yes"]%string) eqn:E.
    + left. apply existsb_exists in E. destruct E as (w & W & E). apply String.eqb_eq in E. rewrite E. exact W.
    + destruct (existsb (String.eqb (lower s)) ["0"; "off"; "f"; "false"; "n"; "no"]%string) eqn:F; [|discriminate].
      right. apply existsb_exists in F. destruct F as (w & W & F). apply String.eqb_eq in F. rewrite F. exact W.
Qed.
Lemma provider_word : reads_as read_provider fluid_model_schema.
Proof.
  intros v a D H. destruct v; try discriminate H. constructor. cbn [read_provider] in H. unfold provider_named in H.
  destruct (String.eqb_spec s "default") as [->|]; [left; reflexivity|].
  destruct (String.eqb_spec s "batzle_wang") as [->|]; [right; left; reflexivity|].
  destruct (String.eqb_spec s "span_wagner") as [->|]; [do 2 right; left; reflexivity|discriminate].
Qed.
Lemma mix_word : reads_as read_mix_method (Word ["wood"; "brie"]%string).
Proof.
  intros v a D H. destruct v; try discriminate H. constructor. cbn [read_mix_method] in H.
  destruct (String.eqb_spec s "wood") as [->|]; [left; reflexivity|].
  destruct (String.eqb_spec s "brie") as [->|]; [right; left; reflexivity|discriminate].
Qed.
Lemma float_number : reads_as (read_float st) Number.
Proof.
  intros v a D H. destruct v; try discriminate H; try (apply conforms_number; constructor).
  - apply conforms_number. cbn [read_float] in H. destruct (cell st (VStr s)) as [x|] eqn:E; [|discriminate H]. eapply cell_numeric, E.
  - eapply conforms_number_column, column_put. reflexivity.
Qed.
Lemma int_index : reads_as (read_int st) Index.
Proof.
  intros v a D H. destruct v; try discriminate H; try (apply conforms_index; constructor).
  - apply conforms_index. cbn [read_int] in H. destruct (int_of st s) as [z|] eqn:E; [|discriminate H]. econstructor. exact E.
  - eapply conforms_index_column, column_put. reflexivity.
Qed.
Lemma list_reads : forall {A} (read : value -> res A) s, reads_as read s -> reads_as (list_of read) (ListOf true s).
Proof.
  intros A read s R v a D H. destruct v; try discriminate H. cbn [list_of] in H. constructor; [|discriminate]. apply sequence_each in H.
  apply distinct_list_inv in D. rewrite Forall_forall in *. intros w W. destruct (H w W) as [b B]. eapply R; [apply D, W|exact B].
Qed.
Lemma nonempty_reads : forall {A} (read : value -> res A) s, reads_as read s -> reads_as (nonempty_list_of read) (ListOf false s).
Proof.
  intros A read s R v a D H. unfold nonempty_list_of in H. destruct (list_of read v) as [l|] eqn:E; [|discriminate].
  assert (C := list_reads _ _ R _ _ D E). inversion C; subst. constructor; [assumption|]. intros _ ->.
  cbn in E. injection E as <-. discriminate H.
Qed.
Lemma nullable_reads : forall {A} (read : value -> res A) s, reads_as read s -> reads_as (nullable read) (Nullable s).
Proof.
  intros A read s H v a D E. destruct v; cbn [nullable] in E; [apply conforms_null|..];
    (destruct (read _) as [y|] eqn:X; [|discriminate E]); apply conforms_nonnull; eapply H; eassumption.
Qed.
Lemma first_reads : forall {A} (l : list (value -> res A)) ss,
  Forall (fun f => exists s, In s ss /\ reads_as f s) l -> reads_as (first_of l) (OneOf ss).
Proof.
  intros A l ss F v a D H. induction F as [|f l [s [S R]] F IH]; [discriminate|]. cbn [first_of] in H.
  destruct (f v) as [b|e] eqn:E; [apply conforms_one with s; [exact S|eapply R; eassumption]|]. destruct e; try discriminate. apply IH, H.
Qed.
Lemma reads_reads : forall {A B} (g : A -> B) (read : value -> res A) s, reads_as read s -> reads_as (reads g read) s.
Proof. intros A B g read s R v a D H. unfold reads in H. destruct (read v) as [x|] eqn:E; [|discriminate]. eapply R; eassumption. Qed.

Lemma optional_some : forall {A} (read : value -> res A) f name a, default None (nullable read) f name = Ok (Some a) ->
  exists v, v <> VNull /\ In (name, v) f.
Proof.
  intros A read f name a H. unfold default in H. destruct (get f name) as [v|] eqn:E; [|discriminate].
  exists v. split; [intros ->; discriminate H|apply get_in, E].
Qed.

(** ** Sections *)
Ltac nodup := repeat constructor; cbn; intuition discriminate.
Ltac start fs := let v := fresh "v" in let a := fresh "a" in let D := fresh "D" in let H := fresh "H" in
  intros v a D H;
  cbv beta delta [read_arbitrary read_gas read_oil read_brine read_condensate read_carbon_dioxide read_constituent read_minerals
    read_fluids_section read_moduli read_velocities read_ratios read_friable read_patchy read_fit read_powerfit read_polyfit2d
    read_depth_trend read_pressure_dependency read_dry_rock read_pressure read_config optional type_is] in H;
  match type of H with bind ?x _ = _ => let f := fresh "f" in let E := fresh "E" in destruct x as [f|] eqn:E; [|discriminate H];
  cbn [bind] in H;
  let Nf := fresh "Nf" in let Df := fresh "Df" in let C := fresh "C" in
  destruct (record_reads fs _ v f eq_refl ltac:(nodup) D E) as (Nf & Df & C); apply C; clear C E D end.
Ltac field_ L :=
  match goal with
  | H : bind ?x _ = Ok _ |- _ => let E := fresh "E" in destruct x eqn:E; [|discriminate H]; cbn [bind] in H;
      constructor; [first [eapply required_field; [exact L|assumption|exact E] | eapply default_field; [exact L|assumption|exact E]]|]
  | H : _ = Ok _ |- _ => constructor; [eapply default_field; [exact L|assumption|exact H]|]
  end.
Ltac rec L := match goal with |- reads_as _ (Record ?fs _) => start fs; [L; try constructor|try constructor] end.

Local Open Scope string_scope.
Lemma opt_ : reads_as (nullable (np_array st)) (Nullable Numbers).
Proof. exact (nullable_reads _ _ arr_). Qed.
Lemma arbitrary_reads : reads_as (read_arbitrary st) arbitrary_schema.
Proof.
  unfold arbitrary_schema. start [need "density" Numbers; optionally "bulk_modulus" Numbers; optionally "shear_modulus" Numbers;
          optionally "secondary_velocity" Numbers; optionally "primary_velocity" Numbers; is_a "material"].
  - field_ arr_. field_ opt_. field_ opt_. field_ opt_. field_ opt_. field_ (literal_word "material"). constructor.
  - repeat match goal with H : bind ?x _ = Ok _ |- _ => let E := fresh "E" in destruct x eqn:E; [|discriminate H]; cbn [bind] in H end.
    match goal with H : match ?s with _ => _ end = Ok _ |- _ => idtac end.
    constructor; [|constructor; [|constructor]]; unfold either; cbn [fst snd];
    repeat match goal with
    | H : match ?o with Some _ => _ | None => _ end = Ok _ |- _ => destruct o
    end; try discriminate;
    repeat match goal with E : default None (nullable _) _ _ = Ok (Some _) |- _ => apply optional_some in E end;
    repeat match goal with E : exists v, _ /\ _ |- _ => let v := fresh "v" in let N := fresh "N" in let I := fresh "I" in destruct E as (v & N & I) end; eauto.
Qed.
Lemma material_reads : reads_as (read_material st) material_schema.
Proof.
  apply first_reads. repeat (apply Forall_cons || apply Forall_nil).
  - eexists. split; [left; reflexivity|]. apply reads_reads, arbitrary_reads.
  - eexists. split; [right; left; reflexivity|]. rec ltac:(idtac; field_ arr_; field_ (literal_word "gas")).
  - eexists. split; [do 2 right; left; reflexivity|]. rec ltac:(idtac; field_ arr_; field_ arr_; field_ arr_; field_ (literal_word "oil")).
  - eexists. split; [do 3 right; left; reflexivity|]. rec ltac:(idtac; field_ arr_; field_ (literal_word "brine")).
  - eexists. split; [do 4 right; left; reflexivity|]. rec ltac:(idtac; field_ arr_; field_ arr_; field_ arr_; field_ (literal_word "condensate")).
  - eexists. split; [do 5 right; left; reflexivity|]. rec ltac:(idtac; field_ (literal_word "carbon_dioxide"); field_ bool_switch).
Qed.
Lemma constituents_reads : reads_as (nonempty_list_of (read_constituent st)) constituents_schema.
Proof.
  apply nonempty_reads. rec ltac:(idtac; field_ material_reads; field_ opt_; field_ (nullable_reads _ _ provider_word)).
Qed.
Lemma minerals_reads : reads_as (read_minerals st) minerals_schema.
Proof. unfold minerals_schema. rec ltac:(idtac; field_ constituents_reads). Qed.
Lemma fluids_reads : reads_as (read_fluids_section st) fluids_schema.
Proof.
  unfold fluids_schema. rec ltac:(idtac; field_ arr_; field_ constituents_reads; field_ mix_word; field_ float_number;
    field_ (nullable_reads _ _ (list_reads _ _ int_index)); field_ provider_word).
Qed.
Lemma coefficients_reads : reads_as (read_coefficients st) coefficients_schema.
Proof.
  apply first_reads. repeat (apply Forall_cons || apply Forall_nil).
  - eexists. split; [left; reflexivity|]. rec ltac:(idtac; field_ opt_; field_ opt_; field_ opt_).
  - eexists. split; [right; left; reflexivity|]. rec ltac:(idtac; field_ opt_; field_ opt_; field_ opt_).
Qed.
Lemma ratios_reads : reads_as (read_ratios st) ratio_schema.
Proof. unfold ratio_schema. rec ltac:(idtac; field_ opt_; field_ opt_; field_ opt_). Qed.
Lemma friable_reads : reads_as (read_friable st) friable_schema.
Proof. unfold friable_schema. rec ltac:(idtac; field_ arr_; field_ arr_; field_ opt_; field_ (literal_word "friable_sand")). Qed.
Lemma patchy_reads : reads_as (read_patchy st) patchy_schema.
Proof.
  unfold patchy_schema. rec ltac:(idtac; field_ (literal_word "patchy_cement"); field_ arbitrary_reads; field_ arr_; field_ arr_; field_ arr_;
    field_ arr_; field_ opt_; field_ arr_).
Qed.
Lemma fit_reads : forall name, reads_as (read_fit st name) (fit_schema name).
Proof. intros name. unfold fit_schema. rec ltac:(idtac; field_ coefficients_reads; field_ (literal_word name)). Qed.
Lemma dependency_reads : reads_as (read_dependency st) dependency_schema.
Proof.
  apply first_reads. repeat (apply Forall_cons || apply Forall_nil).
  - eexists. split; [left; reflexivity|]. apply reads_reads, patchy_reads.
  - eexists. split; [right; left; reflexivity|]. apply reads_reads, friable_reads.
  - eexists. split; [do 2 right; left; reflexivity|]. rec ltac:(idtac; field_ ratios_reads; field_ (literal_word "powerfit")).
  - eexists. split; [do 3 right; left; reflexivity|]. apply reads_reads, fit_reads.
  - eexists. split; [do 4 right; left; reflexivity|]. apply reads_reads, fit_reads.
  - eexists. split; [do 5 right; left; reflexivity|]. apply reads_reads, fit_reads.
Qed.
Lemma sandstone_reads : reads_as (read_sandstone st) sandstone_schema.
Proof.
  apply first_reads. repeat (apply Forall_cons || apply Forall_nil).
  - eexists. split; [left; reflexivity|]. apply reads_reads, patchy_reads.
  - eexists. split; [right; left; reflexivity|]. apply reads_reads, friable_reads.
  - eexists. split; [do 2 right; left; reflexivity|].
    rec ltac:(idtac; field_ (nullable_reads _ _ coefficients_reads); field_ (literal_word "polyfit")).
Qed.
Lemma adjustment_reads : reads_as (first_of [read_depth_trend st; read_pressure_dependency st]) adjustment_schema.
Proof.
  apply first_reads. repeat (apply Forall_cons || apply Forall_nil).
  - eexists. split; [left; reflexivity|].
    rec ltac:(idtac; field_ arr_; field_ coefficients_reads; field_ (literal_word "depth_trend"); field_ opt_; field_ opt_).
  - eexists. split; [right; left; reflexivity|]. rec ltac:(idtac; field_ dependency_reads; field_ (literal_word "pressure_dependency")).
Qed.
Lemma dry_rock_reads : reads_as (read_dry_rock st) dry_rock_schema.
Proof. unfold dry_rock_schema. rec ltac:(idtac; field_ sandstone_reads; field_ arr_; field_ (list_reads _ _ adjustment_reads)). Qed.
Lemma pressure_reads : reads_as (read_pressure st) pressure_schema.
Proof. unfold pressure_schema. rec ltac:(idtac; field_ arr_; field_ arr_; field_ opt_; field_ opt_; field_ opt_). Qed.
Lemma config_reads : reads_as (read_config st) config_schema.
Proof.
  unfold config_schema. rec ltac:(idtac; constructor; [apply unread_field|]; field_ minerals_reads; field_ fluids_reads;
    field_ dry_rock_reads; field_ pressure_reads).
Qed.

(** ** Columns *)
Lemma schema_tree_ind : forall P : schema -> Prop, P Anything -> P Numbers -> P Number -> P Index -> P Switch -> (forall w, P (Word w)) ->
  (forall fields pairs, Forall (fun f => P (snd (snd f))) fields -> P (Record fields pairs)) ->
  (forall l, Forall P l -> P (OneOf l)) -> (forall s, P s -> P (Nullable s)) -> (forall e s, P s -> P (ListOf e s)) ->
  forall s, P s.
Proof.
  intros P HA H1 H2 H3 H4 H5 HR HO HN HI. fix IH 1. intros [| | | | |w|fields pairs|l|s|e s]; try assumption.
  - apply H5.
  - apply HR. induction fields as [|[n [b s]] fields F]; constructor; [apply IH|exact F].
  - apply HO. induction l as [|s l F]; constructor; [apply IH|exact F].
  - apply HN, IH.
  - apply HI, IH.
Qed.
Lemma replaced_reference_inv : forall t v n, ~ replaced t v (VDict [("column"%string, n)]).
Proof.
  intros t v n R. inversion R as [|? A B| |items items' N RR]; subst; [eapply B; reflexivity|].
  inversion RR as [|[k w] kv l l' X RR']; subst. inversion RR'; subst. destruct X as [X _]. cbn [fst] in X. subst k. eapply N. reflexivity.
Qed.
Lemma column_replaced : forall t n v v', replaced t v v' -> column_of n v' -> column_of n v.
Proof.
  intros t n v v' R C. destruct C as [name|l L].
  - exfalso. eapply replaced_reference_inv, R.
  - inversion R; subst; [apply column_named|apply column_put; reflexivity].
Qed.
Lemma scalar_replaced : forall t v v', replaced t v v' -> (forall l, v' <> VList l) -> (forall l, v' <> VDict l) -> (forall l, v' <> VArray l) -> v = v'.
Proof.
  intros t v v' R A B C. inversion R; subst; try reflexivity; exfalso; [eapply C|eapply A|eapply B]; reflexivity.
Qed.
Lemma numeric_replaced : forall t v v', replaced t v v' -> numeric st v' -> numeric st v.
Proof. intros t v v' R N. rewrite (scalar_replaced _ _ _ R); [exact N| | |]; destruct N; discriminate. Qed.
Lemma whole_replaced : forall t v v', replaced t v v' -> whole st v' -> whole st v.
Proof. intros t v v' R N. rewrite (scalar_replaced _ _ _ R); [exact N| | |]; destruct N; discriminate. Qed.
Lemma shaped_replaced : forall t dims v v', replaced t v v' -> shaped st dims v' -> shaped st dims v.
Proof.
  intros t dims. induction dims as [|n dims IH]; intros v v' R H.
  - inversion H; subst; [apply shaped_number; eapply numeric_replaced; eassumption|].
    rewrite (scalar_replaced _ _ _ R) by discriminate. apply shaped_missing.
  - inversion H as [| |? ? C|? l F]; subst; [apply shaped_column; eapply column_replaced; eassumption|].
    inversion R as [|? A B|l0 ? RR|]; subst; [exfalso; eapply A; reflexivity|].
    replace (List.length l) with (List.length l0) by (clear -RR; induction RR; cbn; congruence).
    apply shaped_list. clear H R. induction RR as [|w w' l l' X RR IH']; [constructor|]. inversion F; subst.
    constructor; [eapply IH; eassumption|apply IH'; assumption].
Qed.
Lemma replaced_null : forall t v', replaced t VNull v' -> v' = VNull.
Proof. intros t v' R. inversion R. reflexivity. Qed.
Lemma either_replaced : forall t items items' p,
  Forall2 (fun kv kv' => fst kv = fst kv' /\ replaced t (snd kv) (snd kv')) items items' -> either items' p -> either items p.
Proof.
  intros t items items' [a b] RR (v' & N & I). unfold either. cbn [fst snd] in *.
  assert (Q : forall k, In (k, v') items' -> exists v, v <> VNull /\ In (k, v) items).
  { intros k K. clear I. induction RR as [|[k1 v1] [k2 v2] items items' [X Y] RR IH]; [destruct K|]. cbn [fst snd] in *. destruct K as [K|K].
    - injection K as -> ->. exists v1. split; [intros ->; apply N, (replaced_null _ _ Y)|left; rewrite X; reflexivity].
    - destruct (IH K) as (v & P1 & P2). exists v. split; [exact P1|right; exact P2]. }
  destruct I as [I|I]; destruct (Q _ I) as (v & P1 & P2); exists v; auto.
Qed.
Lemma combine_replaced : forall t (names : list string) l l', Forall2 (replaced t) l l' ->
  Forall2 (fun kv kv' => fst kv = fst kv' /\ replaced t (snd kv) (snd kv')) (combine names l) (combine names l').
Proof.
  intros t names l l' RR. revert names. induction RR; intros [|k names]; cbn [combine]; constructor; [split; [reflexivity|assumption]|]. apply IHRR.
Qed.
Lemma conforms_replaced : forall t s v v', replaced t v v' -> conforms s v' -> conforms s v.
Proof.
  intros t s. induction s as [| | | | |w|fields pairs F|l F|s IH|e s IH] using schema_tree_ind; intros v v' R C.
  - constructor.
  - inversion C as [|dims ? H N| | | | | | | | | | | | | |]; subst. eapply conforms_numbers; [eapply shaped_replaced; eassumption|].
    intros ->. apply N, (replaced_null _ _ R).
  - inversion C; subst; [apply conforms_number; eapply numeric_replaced|eapply conforms_number_column, column_replaced]; eassumption.
  - inversion C; subst; [apply conforms_index; eapply whole_replaced|eapply conforms_index_column, column_replaced]; eassumption.
  - inversion C; subst; rewrite (scalar_replaced _ _ _ R) by discriminate; exact C.
  - inversion C; subst; rewrite (scalar_replaced _ _ _ R) by discriminate; exact C.
  - inversion C as [| | | | | | | | | |? ? items' K Q T|? ? given l' G Q T| | | |]; subst.
    + inversion R as [|? A B| |items ? N RR]; subst; [exfalso; eapply B; reflexivity|]. apply conforms_record.
      * clear C R N Q T. induction RR as [|[k v] [k' v'] items items' [X Y] RR IH]; [constructor|]. inversion K as [|? ? [f [I [E D]]] K']; subst.
        cbn [fst snd] in *. constructor; [|apply IH; assumption]. exists f. split; [exact I|]. cbn [fst snd]. split; [congruence|].
        rewrite Forall_forall in F. eapply (F f I); eassumption.
      * intros name s X. replace (map fst items) with (map fst items'); [eapply Q, X|]. clear -RR. induction RR as [|a b l l' [X _] RR IH]; [reflexivity|].
        cbn. rewrite IH, X. reflexivity.
      * eapply Forall_impl; [|exact T]. intros p. apply (either_replaced t _ _ p RR).
    + inversion R as [|? A B|l ? RR|]; subst; [exfalso; eapply A; reflexivity|].
      assert (T' : Forall (either (combine (map fst given) l)) pairs).
      { eapply Forall_impl; [|exact T]. intros p. apply (either_replaced t), combine_replaced, RR. }
      apply conforms_positions with given; [|exact Q|exact T'].
      destruct Q as [rest [-> _]]. apply Forall_app in F. destruct F as [F _]. clear C R T T'. revert given G F.
      induction RR as [|v v' l l' X RR IH]; intros given G F; inversion G; subst; [constructor|]. inversion F; subst. constructor; [eauto|].
      apply IH; assumption.
  - inversion C; subst. rewrite Forall_forall in F. eapply conforms_one; [eassumption|]. eapply F; eassumption.
  - inversion C; subst.
    + inversion R; subst. apply conforms_null.
    + apply conforms_nonnull. eapply IH; eassumption.
  - inversion C as [| | | | | | | | | | | | | | |? ? l' D E]; subst. inversion R as [|? A B|l ? RR|]; subst; [exfalso; eapply A; reflexivity|]. constructor.
    + clear C R E. induction RR as [|v v' l l' X RR IH']; [constructor|]. inversion D; subst. constructor; [eapply IH; eassumption|apply IH'; assumption].
    + intros Q Z. apply (E Q). rewrite Z in RR. inversion RR. reflexivity.
Qed.
End Readers.

Lemma distinct_replaced : forall t v v', replaced t v v' -> distinct v -> distinct v'.
Proof.
  intros t v. induction v as [v H1 H2|l F|items F] using value_tree_ind; intros v' R D.
  - inversion R as [|? A B|? l' RR|]; subst; try assumption; try (exfalso; eapply H1; reflexivity); try (exfalso; eapply H2; reflexivity).
  - inversion R as [|? A B|? l' RR|]; subst; [exfalso; eapply A; reflexivity|]. apply distinct_list_inv in D. apply distinct_list.
    clear R. induction RR as [|v v' l l' X RR IH]; [constructor|]. inversion F; inversion D; subst. constructor; [eauto|apply IH; assumption].
  - inversion R as [|? A B| |? items' N RR]; subst; [apply distinct_leaf; discriminate|exfalso; eapply B; reflexivity|].
    apply distinct_dict_inv in D. destruct D as [ND D]. apply distinct_dict.
    + replace (map fst items') with (map fst items); [exact ND|]. clear -RR. induction RR as [|a b l l' [X _] RR IH]; [reflexivity|].
      cbn. rewrite IH, X. reflexivity.
    + clear R N ND. induction RR as [|v v' l l' [X Y] RR IH]; [constructor|]. inversion F; inversion D; subst. constructor; [eauto|apply IH; assumption].
Qed.

Lemma set_key_distinct : forall v items, distinct v -> distinct (VDict items) -> distinct (VDict (set_key "data" v items)).
Proof.
  intros v items V D. apply distinct_dict_inv in D. destruct D as [ND D]. apply distinct_dict.
  - assert (E : forall k, In k (map fst (set_key "data" v items)) -> k = "data"%string \/ In k (map fst items)).
    { intros k K. apply in_map_iff in K. destruct K as [[k' w] [<- K]]. apply set_key_in in K. destruct K as [[-> _]|K]; [left; reflexivity|].
      right. apply (in_map fst _ _ K). }
    clear D. induction items as [|[k w] items IH]; cbn [set_key].
    + repeat constructor. intros [].
    + cbn [map fst] in ND. inversion ND; subst. destruct (String.eqb_spec k "data") as [->|N]; cbn [map fst]; [exact ND|].
      constructor; [|apply IH; [assumption|]].
      * intros X. apply in_map_iff in X. destruct X as [[k' u] [E' X]]. cbn in E'. subst k'. apply set_key_in in X.
        destruct X as [[X _]|X]; [contradiction|]. match goal with H : ~ In _ _ |- _ => apply H end. apply (in_map fst _ _ X).
      * intros k' K. apply in_map_iff in K. destruct K as [[k'' u] [<- K]]. apply set_key_in in K.
        destruct K as [[-> _]|K]; [left; reflexivity|]. right. apply (in_map fst _ _ K).
  - rewrite Forall_forall in *. intros [k w] K. apply set_key_in in K. destruct K as [[_ ->]|K]; [exact V|apply (D _ K)].
Qed.
Lemma set_key_conforms : forall st v items, conforms st config_schema (VDict (set_key "data" v items)) -> conforms st config_schema (VDict items).
Proof.
  intros st v items C. inversion C as [| | | | | | | | | |? ? ? K Q T| | | | |]; subst. apply conforms_record; [| |constructor].
  - rewrite Forall_forall in *. intros [k w] I. destruct (String.eqb_spec k "data") as [->|N].
    + exists (may "data" Anything). split; [left; reflexivity|]. split; [reflexivity|constructor].
    + apply (K (k, w)). apply set_key_keeps; assumption.
  - intros name s X. exfalso. cbn in X. intuition discriminate.
Qed.
Lemma insert_conforms : forall st items data v, distinct (VDict items) -> insert_dataframe items data = Ok v ->
  distinct v /\ (conforms st config_schema v -> conforms st config_schema (VDict items)).
Proof.
  intros st items [t|] v D H; unfold insert_dataframe in H.
  - apply insert_replaces in H. split.
    + eapply distinct_replaced; [exact H|]. apply set_key_distinct; [apply distinct_leaf; discriminate|exact D].
    + intros C. eapply set_key_conforms, conforms_replaced; eassumption.
  - destruct (check_no_column_reference _); [|discriminate]. injection H as <-. split.
    + apply set_key_distinct; [apply distinct_leaf; discriminate|exact D].
    + apply set_key_conforms.
Qed.
Lemma accepted_conforms : forall st items data inp, distinct (VDict items) -> parse_input st items data = Ok inp ->
  conforms st config_schema (VDict items).
Proof.
  intros st items data inp D H. unfold parse_input in H. destruct (insert_dataframe items data) as [v|] eqn:E; [|discriminate].
  cbn [bind] in H. destruct (read_config st v) as [c|] eqn:R; [|discriminate]. destruct (insert_conforms st _ _ _ D E) as [Dv C].
  apply C. eapply config_reads; eassumption.
Qed.
