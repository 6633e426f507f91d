(** Lemmas about column insertion. *)
From Coq Require Import String List.
From Verif Require Import Base InputModel InputSpec.
Open Scope R_scope.

(** Induction over configuration trees. *)
Section Induction.
  Variable P : value -> Prop.
  Hypothesis Hscalar : forall v, (forall l, v <> VList l) -> (forall l, v <> VDict l) -> P v.
  Hypothesis Hlist : forall l, Forall P l -> P (VList l).
  Hypothesis Hdict : forall items, Forall (fun kv => P (snd kv)) items -> P (VDict items).
  Fixpoint value_tree_ind (v : value) : P v :=
    match v with
    | VList l =>
        Hlist l ((fix go (l : list value) : Forall P l :=
          match l with
          | [] => Forall_nil P
          | a :: l' => Forall_cons a (value_tree_ind a) (go l')
          end) l)
    | VDict items =>
        Hdict items ((fix go (l : list (string * value)) : Forall (fun kv => P (snd kv)) l :=
          match l with
          | [] => Forall_nil _
          | a :: l' => Forall_cons a (value_tree_ind (snd a)) (go l')
          end) items)
    | VNull => Hscalar VNull (fun _ H => eq_ind VNull (fun x => match x with VNull => True | _ => False end) I _ H) (fun _ H => eq_ind VNull (fun x => match x with VNull => True | _ => False end) I _ H)
    | VBool b => Hscalar (VBool b) (fun _ H => eq_ind (VBool b) (fun x => match x with VBool _ => True | _ => False end) I _ H) (fun _ H => eq_ind (VBool b) (fun x => match x with VBool _ => True | _ => False end) I _ H)
    | VNum b => Hscalar (VNum b) (fun _ H => eq_ind (VNum b) (fun x => match x with VNum _ => True | _ => False end) I _ H) (fun _ H => eq_ind (VNum b) (fun x => match x with VNum _ => True | _ => False end) I _ H)
    | VStr b => Hscalar (VStr b) (fun _ H => eq_ind (VStr b) (fun x => match x with VStr _ => True | _ => False end) I _ H) (fun _ H => eq_ind (VStr b) (fun x => match x with VStr _ => True | _ => False end) I _ H)
    | VArray b => Hscalar (VArray b) (fun _ H => eq_ind (VArray b) (fun x => match x with VArray _ => True | _ => False end) I _ H) (fun _ H => eq_ind (VArray b) (fun x => match x with VArray _ => True | _ => False end) I _ H)
    | VFrame b => Hscalar (VFrame b) (fun _ H => eq_ind (VFrame b) (fun x => match x with VFrame _ => True | _ => False end) I _ H) (fun _ H => eq_ind (VFrame b) (fun x => match x with VFrame _ => True | _ => False end) I _ H)
    end.
End Induction.

(** The two inner loops, named. *)
Definition insert_list (t : table) : list value -> res (list value) :=
  fix go (l : list value) :=
  match l with
  | [] => Ok []
  | e :: l' => let* e' := insert_from_dataframe t e in let* r := go l' in Ok (e' :: r)
  end.
Definition insert_items (t : table) : list (string * value) -> res (list (string * value)) :=
  fix go (l : list (string * value)) :=
  match l with
  | [] => Ok []
  | (k, v) :: l' => let* v' := insert_from_dataframe t v in let* r := go l' in Ok ((k, v') :: r)
  end.
Fixpoint check_list (l : list value) : res unit :=
  match l with [] => Ok tt | v :: l' => let* _ := check_no_column_reference v in check_list l' end.
Fixpoint check_items (l : list (string * value)) : res unit :=
  match l with [] => Ok tt | (_, v) :: l' => let* _ := check_no_column_reference v in check_items l' end.

Lemma reference_dec items : (exists n, items = [("column"%string, n)]) \/ (forall n, ~ is_reference (VDict items) n).
Proof.
  destruct items as [|[k v] [|b l]].
  - right. intros n H. discriminate H.
  - destruct (String.eqb_spec k "column") as [->|N].
    + left. exists v. reflexivity.
    + right. intros n H. unfold is_reference in H. injection H as E _. contradiction.
  - right. intros n H. discriminate H.
Qed.

Lemma insert_list_eq t l : insert_from_dataframe t (VList l) = let* r := insert_list t l in Ok (VList r).
Proof. reflexivity. Qed.
Lemma insert_reference t n : insert_from_dataframe t (VDict [("column"%string, n)]) = insert_column t n.
Proof. reflexivity. Qed.
Lemma insert_dict_eq t items : (forall n, ~ is_reference (VDict items) n) ->
  insert_from_dataframe t (VDict items) = let* r := insert_items t items in Ok (VDict r).
Proof.
  intros N. destruct items as [|[k v] [|b l]]; try reflexivity.
  simpl. destruct (String.eqb_spec k "column") as [->|_]; [|reflexivity].
  exfalso. apply (N v). reflexivity.
Qed.
Lemma insert_scalar t v : (forall l, v <> VList l) -> (forall l, v <> VDict l) -> insert_from_dataframe t v = Ok v.
Proof. intros H1 H2. destruct v; try reflexivity; [exfalso; eapply H1|exfalso; eapply H2]; reflexivity. Qed.

Lemma check_list_eq l : check_no_column_reference (VList l) = check_list l.
Proof. reflexivity. Qed.
Lemma check_dict_eq items : (forall n, ~ is_reference (VDict items) n) ->
  check_no_column_reference (VDict items) = check_items items.
Proof.
  intros N. destruct items as [|[k v] [|b l]]; try reflexivity.
  simpl. destruct (String.eqb_spec k "column") as [->|_]; [|reflexivity].
  exfalso. apply (N v). reflexivity.
Qed.

Lemma find_column_some t s c : find_column t s = Some c ->
  exists before after, t = before ++ (s, c) :: after /\ ~ In s (map fst before).
Proof.
  induction t as [|[n d] t IH]; simpl; [discriminate|].
  destruct (String.eqb_spec n s) as [->|N].
  - intros E. injection E as ->. exists [], t. split; [reflexivity|]. intros [].
  - intros E. destruct (IH E) as [b [a [-> H]]]. exists ((n, d) :: b), a. split; [reflexivity|].
    simpl. intros [X|X]; [congruence|contradiction].
Qed.
Lemma find_column_none t s : find_column t s = None <-> ~ In s (map fst t).
Proof.
  induction t as [|[n d] t IH]; simpl; [tauto|].
  destruct (String.eqb_spec n s) as [->|N]; split; intros H.
  - discriminate.
  - exfalso. apply H. left. reflexivity.
  - intros [X|X]; [contradiction|]. apply IH in H. contradiction.
  - apply IH. tauto.
Qed.

Lemma insert_list_ok t l l' :
  Forall (fun v => forall v', insert_from_dataframe t v = Ok v' -> replaced t v v') l ->
  insert_list t l = Ok l' -> Forall2 (replaced t) l l'.
Proof.
  intros F. revert l'. induction F as [|v l Hv F IH]; intros l' H; simpl in H.
  - injection H as <-. constructor.
  - destruct (insert_from_dataframe t v) as [v'|]; [|discriminate]. cbn [bind] in H.
    destruct (insert_list t l) as [r|]; [|discriminate]. cbn [bind] in H. injection H as <-.
    constructor; [apply Hv; reflexivity|apply IH; reflexivity].
Qed.
Lemma insert_items_ok t l l' :
  Forall (fun kv => forall v', insert_from_dataframe t (snd kv) = Ok v' -> replaced t (snd kv) v') l ->
  insert_items t l = Ok l' ->
  Forall2 (fun kv kv' => fst kv = fst kv' /\ replaced t (snd kv) (snd kv')) l l'.
Proof.
  intros F. revert l'. induction F as [|[k v] l Hv F IH]; intros l' H; simpl in H.
  - injection H as <-. constructor.
  - destruct (insert_from_dataframe t v) as [v'|] eqn:E; [|discriminate]. cbn [bind] in H.
    destruct (insert_items t l) as [r|]; [|discriminate]. cbn [bind] in H. injection H as <-.
    constructor; [split; [reflexivity|apply Hv; exact E]|apply IH; reflexivity].
Qed.

Lemma insert_replaces t v : forall v', insert_from_dataframe t v = Ok v' -> replaced t v v'.
Proof.
  induction v as [v H1 H2|l F|items F] using value_tree_ind; intros v' H.
  - rewrite insert_scalar in H by assumption. injection H as <-. apply replaced_scalar; assumption.
  - rewrite insert_list_eq in H. destruct (insert_list t l) as [r|] eqn:E; [|discriminate]. injection H as <-.
    apply replaced_list. apply insert_list_ok; assumption.
  - destruct (reference_dec items) as [[n ->]|N].
    + rewrite insert_reference in H. destruct n; simpl in H; try discriminate.
      destruct (find_column t s) as [c|] eqn:E; [|discriminate]. injection H as <-.
      apply replaced_reference. apply find_column_some. exact E.
    + rewrite insert_dict_eq in H by exact N. destruct (insert_items t items) as [r|] eqn:E; [|discriminate].
      injection H as <-. apply replaced_dict; [exact N|]. apply insert_items_ok; assumption.
Qed.

(** Keys survive, so a non-reference stays one. *)
Lemma same_keys_not_reference (Q : value -> value -> Prop) items items' :
  (forall n, ~ is_reference (VDict items) n) ->
  Forall2 (fun kv kv' => fst kv = fst kv' /\ Q (snd kv) (snd kv')) items items' ->
  forall n, ~ is_reference (VDict items') n.
Proof.
  intros N F n H. unfold is_reference in H. injection H as ->.
  inversion F as [|[k v] b l l' [E _] F2]; subst. inversion F2; subst.
  simpl in E. subst k. apply (N v). reflexivity.
Qed.

Lemma Forall2_in_right (A B : Type) (Q : A -> B -> Prop) l l' b :
  Forall2 Q l l' -> In b l' -> exists a, In a l /\ Q a b.
Proof.
  intros F. induction F as [|x y l l' Hxy F IH]; intros I; [destruct I|].
  destruct I as [<-|I]; [exists x; split; [left; reflexivity|exact Hxy]|].
  destruct (IH I) as [a [Ia Qa]]. exists a. split; [right; exact Ia|exact Qa].
Qed.

Lemma replaced_no_reference t v : forall v', replaced t v v' -> forall n, ~ refers v' n.
Proof.
  induction v as [v H1 H2|l F|items F] using value_tree_ind; intros v' R n X.
  - inversion R as [nm c Hc|w W1 W2|l l' G|items items' N G]; subst.
    + exfalso. eapply H2. reflexivity.
    + inversion X; subst; [eapply H2|eapply H1|eapply H2]; reflexivity.
    + exfalso. eapply H1. reflexivity.
    + exfalso. eapply H2. reflexivity.
  - inversion R as [nm c Hc|w W1 W2|l0 l' G|items items' N G]; subst.
    + eapply W1. reflexivity.
    + inversion X as [|l0 v0 nm I0 X0|]; subst.
      destruct (Forall2_in_right _ _ _ _ _ _ G I0) as [a [Ia Ra]].
      rewrite Forall_forall in F. exact (F a Ia v0 Ra n X0).
  - inversion R as [nm c Hc|w W1 W2|l0 l' G|items0 items' N G]; subst.
    + inversion X.
    + eapply W2. reflexivity.
    + pose proof (same_keys_not_reference (replaced t) items items' N G) as N'.
      inversion X as [nm E|l0 v0 nm I0 X0|it k v0 nm N0 I0 X0]; subst.
      { apply (N' n). reflexivity. }
      destruct (Forall2_in_right _ _ _ _ _ _ G I0) as [[ka a] [Ia [_ Ra]]].
      rewrite Forall_forall in F. exact (F (ka, a) Ia v0 Ra n X0).
Qed.

Lemma no_reference_unchanged t v : (forall n, ~ refers v n) -> insert_from_dataframe t v = Ok v.
Proof.
  induction v as [v H1 H2|l F|items F] using value_tree_ind; intros N.
  - apply insert_scalar; assumption.
  - rewrite insert_list_eq.
    assert (E : insert_list t l = Ok l).
    { clear - F N. assert (G : Forall (fun v => forall n, ~ refers v n) l).
      { apply Forall_forall. intros v I n X. apply (N n). eapply refers_list; eassumption. }
      clear N. induction F as [|v l Hv F IH]; [reflexivity|]. inversion G; subst. simpl.
      rewrite Hv by assumption. cbn [bind]. rewrite IH by assumption. reflexivity. }
    rewrite E. reflexivity.
  - destruct (reference_dec items) as [[n ->]|R].
    + exfalso. apply (N n). constructor.
    + rewrite insert_dict_eq by exact R.
      assert (E : insert_items t items = Ok items).
      { assert (G : Forall (fun kv => forall n, ~ refers (snd kv) n) items).
        { apply Forall_forall. intros [k v] I n X. apply (N n). eapply refers_dict; [exact R|exact I|exact X]. }
        clear N R. induction F as [|[k v] l Hv F IH]; [reflexivity|]. inversion G; subst. simpl.
        simpl in Hv, H1. rewrite Hv by assumption. cbn [bind]. rewrite IH by assumption. reflexivity. }
      rewrite E. reflexivity.
Qed.

Lemma insertion t v v' : insert_from_dataframe t v = Ok v' ->
  replaced t v v' /\ (forall n, ~ refers v' n) /\ (forall t', insert_from_dataframe t' v' = Ok v').
Proof.
  intros H. pose proof (insert_replaces t v v' H) as R.
  split; [exact R|]. pose proof (replaced_no_reference t v v' R) as N.
  split; [exact N|]. intros t'. apply no_reference_unchanged. exact N.
Qed.

(* ---- errors ---- *)
Lemma insert_column_scalar t n : scalar n ->
  (has_column t n /\ is_ok (insert_column t n)) \/
  (~ has_column t n /\ insert_column t n = Err ColumnInsertionError).
Proof.
  intros S. destruct n; simpl in S; try contradiction;
    try (right; split; [intros [s [E _]]; discriminate|reflexivity]).
  simpl. destruct (find_column t s) as [c|] eqn:E.
  - left. split; [|eexists; reflexivity]. exists s. split; [reflexivity|].
    destruct (find_column_some t s c E) as [b [a [-> _]]]. rewrite map_app. apply in_or_app. right. left. reflexivity.
  - right. split; [|reflexivity]. intros [s' [E' I]]. injection E' as <-. apply find_column_none in E. contradiction.
Qed.

Lemma insert_outcome t v : (forall n, refers v n -> scalar n) ->
  ((forall n, refers v n -> has_column t n) /\ is_ok (insert_from_dataframe t v)) \/
  ((exists n, refers v n /\ ~ has_column t n) /\ insert_from_dataframe t v = Err ColumnInsertionError).
Proof.
  induction v as [v H1 H2|l F|items F] using value_tree_ind; intros S.
  - left. rewrite insert_scalar by assumption. split; [|eexists; reflexivity].
    intros n X. exfalso. inversion X; subst; [eapply H2|eapply H1|eapply H2]; reflexivity.
  - rewrite insert_list_eq.
    assert (G : ((forall v n, In v l -> refers v n -> has_column t n) /\ is_ok (insert_list t l)) \/
                ((exists v n, In v l /\ refers v n /\ ~ has_column t n) /\ insert_list t l = Err ColumnInsertionError)).
    { assert (S' : forall v n, In v l -> refers v n -> scalar n) by (intros v n I X; apply S; eapply refers_list; eassumption).
      clear S. induction F as [|v l Hv F IH]; [left; split; [intros ? ? []|eexists; reflexivity]|].
      assert (Sv : forall n, refers v n -> scalar n) by (intros n X; eapply S'; [left; reflexivity|exact X]).
      assert (Sl : forall w n, In w l -> refers w n -> scalar n) by (intros w n I X; eapply S'; [right; exact I|exact X]).
      simpl. destruct (Hv Sv) as [[A [v' ->]]|[[n [X Y]] ->]].
      - cbn [bind]. destruct (IH Sl) as [[B [l' ->]]|[[w [n [I [X Y]]]] ->]].
        + left. split; [intros w n [<-|I] X; [apply A; exact X|eapply B; eassumption]|eexists; reflexivity].
        + right. split; [exists w, n; split; [right; exact I|auto]|reflexivity].
      - right. split; [exists v, n; split; [left; reflexivity|auto]|reflexivity]. }
    destruct G as [[A [l' ->]]|[[w [n [I [X Y]]]] ->]].
    + left. split; [|eexists; reflexivity]. intros n X. inversion X; subst. eapply A; eassumption.
    + right. split; [|reflexivity]. exists n. split; [eapply refers_list; eassumption|exact Y].
  - destruct (reference_dec items) as [[n ->]|R].
    + rewrite insert_reference. assert (Sn : scalar n) by (apply S; constructor).
      destruct (insert_column_scalar t n Sn) as [[A B]|[A B]].
      * left. split; [|exact B]. intros m X. inversion X as [nm E|l0 v0 nm I0 X0|it k v0 nm N0 I0 X0]; subst; [exact A|]. exfalso. apply (N0 n). reflexivity.
      * right. split; [exists n; split; [constructor|exact A]|exact B].
    + rewrite insert_dict_eq by exact R.
      assert (G : ((forall k v n, In (k, v) items -> refers v n -> has_column t n) /\ is_ok (insert_items t items)) \/
                  ((exists k v n, In (k, v) items /\ refers v n /\ ~ has_column t n) /\ insert_items t items = Err ColumnInsertionError)).
      { assert (S' : forall k v n, In (k, v) items -> refers v n -> scalar n)
          by (intros k v n I X; apply S; eapply refers_dict; eassumption).
        clear S R. induction F as [|[k v] l Hv F IH]; [left; split; [intros ? ? ? []|eexists; reflexivity]|].
        assert (Sv : forall n, refers v n -> scalar n) by (intros n X; eapply S'; [left; reflexivity|exact X]).
        assert (Sl : forall k w n, In (k, w) l -> refers w n -> scalar n) by (intros k' w n I X; eapply S'; [right; exact I|exact X]).
        simpl in Hv |- *. destruct (Hv Sv) as [[A [v' ->]]|[[n [X Y]] ->]].
        - cbn [bind]. destruct (IH Sl) as [[B [l' ->]]|[[k' [w [n [I [X Y]]]]] ->]].
          + left. split; [intros k' w n [E|I] X; [injection E as <- <-; apply A; exact X|eapply B; eassumption]|eexists; reflexivity].
          + right. split; [exists k', w, n; split; [right; exact I|auto]|reflexivity].
        - right. split; [exists k, v, n; split; [left; reflexivity|auto]|reflexivity]. }
      destruct G as [[A [l' ->]]|[[k [w [n [I [X Y]]]]] ->]].
      * left. split; [|eexists; reflexivity]. intros n X. inversion X; subst; [exfalso; apply (R n); reflexivity|].
        eapply A; eassumption.
      * right. split; [|reflexivity]. exists n. split; [eapply refers_dict; eassumption|exact Y].
Qed.

Lemma insert_error_iff t v : (forall n, refers v n -> scalar n) ->
  (insert_from_dataframe t v = Err ColumnInsertionError <-> exists n, refers v n /\ ~ has_column t n) /\
  (is_ok (insert_from_dataframe t v) <-> forall n, refers v n -> has_column t n).
Proof.
  intros S. destruct (insert_outcome t v S) as [[A [v' E]]|[[n [X Y]] E]]; rewrite E; split; split; intros H.
  - discriminate.
  - destruct H as [n [X Y]]. exfalso. apply Y. apply A. exact X.
  - exact A.
  - eexists; reflexivity.
  - exists n. auto.
  - reflexivity.
  - destruct H; discriminate.
  - exfalso. apply Y. apply H. exact X.
Qed.

Lemma check_outcome v :
  ((forall n, ~ refers v n) /\ check_no_column_reference v = Ok tt) \/
  ((exists n, refers v n) /\ check_no_column_reference v = Err ColumnInsertionError).
Proof.
  induction v as [v H1 H2|l F|items F] using value_tree_ind.
  - left. split; [intros n X; inversion X; subst; [eapply H2|eapply H1|eapply H2]; reflexivity|].
    destruct v; try reflexivity; [exfalso; eapply H1|exfalso; eapply H2]; reflexivity.
  - rewrite check_list_eq.
    assert (G : ((forall v n, In v l -> ~ refers v n) /\ check_list l = Ok tt) \/
                ((exists v n, In v l /\ refers v n) /\ check_list l = Err ColumnInsertionError)).
    { induction F as [|v l Hv F IH]; [left; split; [intros ? ? []|reflexivity]|]. simpl.
      destruct Hv as [[A ->]|[[n X] ->]].
      - cbn [bind]. destruct IH as [[B ->]|[[w [n [I X]]] ->]].
        + left. split; [intros w n [<-|I]; [apply A|apply B; exact I]|reflexivity].
        + right. split; [exists w, n; split; [right; exact I|exact X]|reflexivity].
      - right. split; [exists v, n; split; [left; reflexivity|exact X]|reflexivity]. }
    destruct G as [[A ->]|[[w [n [I X]]] ->]].
    + left. split; [|reflexivity]. intros n X. inversion X; subst. eapply A; eassumption.
    + right. split; [|reflexivity]. exists n. eapply refers_list; eassumption.
  - destruct (reference_dec items) as [[n ->]|R].
    + right. split; [exists n; constructor|reflexivity].
    + rewrite check_dict_eq by exact R.
      assert (G : ((forall k v n, In (k, v) items -> ~ refers v n) /\ check_items items = Ok tt) \/
                  ((exists k v n, In (k, v) items /\ refers v n) /\ check_items items = Err ColumnInsertionError)).
      { clear R. induction F as [|[k v] l Hv F IH]; [left; split; [intros ? ? ? []|reflexivity]|]. simpl in Hv |- *.
        destruct Hv as [[A ->]|[[n X] ->]].
        - cbn [bind]. destruct IH as [[B ->]|[[k' [w [n [I X]]]] ->]].
          + left. split; [intros k' w n [E|I]; [injection E as <- <-; apply A|eapply B; exact I]|reflexivity].
          + right. split; [exists k', w, n; split; [right; exact I|exact X]|reflexivity].
        - right. split; [exists k, v, n; split; [left; reflexivity|exact X]|reflexivity]. }
      destruct G as [[A ->]|[[k [w [n [I X]]]] ->]].
      * left. split; [|reflexivity]. intros n X. inversion X; subst; [apply (R n); reflexivity|]. eapply A; eassumption.
      * right. split; [|reflexivity]. exists n. eapply refers_dict; eassumption.
Qed.

(** A section of the configuration other than "data". *)
Lemma set_key_in k v items k' v' :
  In (k', v') (set_key k v items) -> (k' = k /\ v' = v) \/ In (k', v') items.
Proof.
  induction items as [|[a b] items IH]; simpl.
  - intros [E|[]]. injection E as <- <-. auto.
  - destruct (String.eqb_spec a k) as [->|N].
    + intros [E|I]; [injection E as <- <-; auto|auto].
    + intros [E|I]; [auto|]. destruct (IH I); auto.
Qed.
Lemma set_key_keeps k v items k' v' :
  In (k', v') items -> k' <> k -> In (k', v') (set_key k v items).
Proof.
  induction items as [|[a b] items IH]; simpl; [tauto|]. intros I N.
  destruct (String.eqb_spec a k) as [->|M].
  - destruct I as [E|I]; [injection E as -> ->; contradiction|right; exact I].
  - destruct I as [E|I]; [left; exact E|right; apply IH; assumption].
Qed.
Lemma set_key_not_reference v items : forall n, ~ is_reference (VDict (set_key "data" v items)) n.
Proof.
  intros n H. unfold is_reference in H. injection H as H.
  assert (X : In ("data"%string, v) (set_key "data" v items)).
  { clear. induction items as [|[a b] items IH]; simpl; [left; reflexivity|].
    destruct (String.eqb_spec a "data"); [left; reflexivity|right; exact IH]. }
  rewrite H in X. destruct X as [X|[]]. discriminate X.
Qed.

Lemma distinct_data items v : NoDup (map fst items) ->
  In ("data"%string, v) (set_key "data" VNull items) -> v = VNull.
Proof.
  induction items as [|[a b] items IH]; simpl; intros D I.
  - destruct I as [E|[]]. congruence.
  - inversion D; subst. destruct (String.eqb_spec a "data") as [->|N].
    + destruct I as [E|I]; [congruence|]. exfalso. apply H1. apply (in_map fst) in I. exact I.
    + destruct I as [E|I]; [injection E as -> _; contradiction|]. apply IH; assumption.
Qed.

Lemma no_data_iff items : NoDup (map fst items) ->
  (insert_dataframe items None = Err ColumnInsertionError <->
     exists k v n, In (k, v) items /\ k <> "data"%string /\ refers v n) /\
  (is_ok (insert_dataframe items None) <->
     forall k v n, In (k, v) items -> k <> "data"%string -> ~ refers v n).
Proof.
  intros D. unfold insert_dataframe.
  assert (Q : (exists n, refers (VDict (set_key "data" VNull items)) n) <->
              exists k v n, In (k, v) items /\ k <> "data"%string /\ refers v n).
  { split.
    - intros [n X]. inversion X; subst; [exfalso; eapply set_key_not_reference; unfold is_reference; symmetry; f_equal; eassumption|].
      destruct (set_key_in _ _ _ _ _ H1) as [[-> ->]|I]; [inversion H2|].
      exists k, v, n. split; [exact I|]. split; [|exact H2].
      intros ->. apply distinct_data in H1; [|exact D]. subst v. inversion H2.
    - intros [k [v [n [I [N X]]]]]. exists n. eapply refers_dict; [apply set_key_not_reference| |exact X].
      apply set_key_keeps; [exact I|exact N]. }
  destruct (check_outcome (VDict (set_key "data" VNull items))) as [[A E]|[A E]]; rewrite E; cbn [bind]; split; split; intros H.
  - discriminate.
  - exfalso. apply Q in H. destruct H as [n X]. exact (A n X).
  - intros k v n I N X. assert (Y : exists n, refers (VDict (set_key "data" VNull items)) n) by (apply Q; eauto 7).
    destruct Y as [m Y]. exact (A m Y).
  - eexists; reflexivity.
  - apply Q. exact A.
  - reflexivity.
  - destruct H; discriminate.
  - exfalso. apply Q in A. destruct A as [k [v [n [I [N X]]]]]. exact (H k v n I N X).
Qed.
