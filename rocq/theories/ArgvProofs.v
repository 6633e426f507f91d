(** Proofs about the words of command lines. *)
From Coq Require Import String Ascii List ZArith Bool Lia.
From Verif Require Import Base InputModel MainModel CommandModel ArgvModel ArgvSpec.
Import ListNotations.
Open Scope string_scope.

Lemma append_assoc : forall a b c : string, (a ++ b) ++ c = a ++ b ++ c.
Proof. induction a as [|x a IH]; intros b c; [reflexivity|]. simpl. now rewrite IH. Qed.

Lemma append_nil : forall a : string, a ++ "" = a.
Proof. induction a as [|x a IH]; [reflexivity|]. simpl. now rewrite IH. Qed.

(** ** Options in full and abbreviated *)
Definition name_of (k : kind) : string :=
  match k with
  | KHelp => "--help" | KData => "--data-file" | KCalibration => "--calibration" | KOutput => "--output_file"
  | KVersion => "--version" | KTutorial => "--generate-tutorial" | KThreshold => "--success_threshold"
  end.

Lemma name_in : forall k, In (name_of k) long_names.
Proof. intros []; simpl; tauto. Qed.

Lemma in_name : forall n, In n long_names -> exists k, n = name_of k.
Proof.
  intros n H. simpl in H.
  destruct H as [<-|[<-|[<-|[<-|[<-|[<-|[<-|[]]]]]]]];
    [exists KHelp|exists KData|exists KCalibration|exists KOutput|exists KVersion|exists KTutorial|exists KThreshold];
    reflexivity.
Qed.

Fixpoint prefixes (s : string) : list string :=
  "" :: match s with "" => [] | String c s' => map (String c) (prefixes s') end.

Lemma in_prefixes : forall w n, begins_with w n -> In w (prefixes n).
Proof.
  induction w as [|c w IH]; intros n (rest & E).
  - destruct n; left; reflexivity.
  - subst n. simpl. right. apply in_map. apply IH. exists rest. reflexivity.
Qed.

Lemma begins_two : forall w, begins_with "--" w -> w <> "--" -> exists c r, w = String "-" (String "-" (String c r)).
Proof.
  intros w (r & E) N. subst w. destruct r as [|c r]; [now contradict N|]. exists c, r. reflexivity.
Qed.

Ltac cases_in H :=
  match type of H with
  | _ \/ _ => destruct H as [H|H]; [|cases_in H]
  | _ => idtac
  end.

Lemma role_written : forall k w, written_as (name_of k) w -> role_of w = Opt k false None.
Proof.
  intros k w (B & T & N). destruct (begins_two w T N) as (c & r & E). apply in_prefixes in B.
  destruct k; simpl in B; cases_in B; subst w; try discriminate; try contradiction; try reflexivity;
    injection E; intros; subst; reflexivity.
Qed.

Lemma role_equals : forall k a v, written_as (name_of k) a -> role_of (a ++ "=" ++ v) = Opt k false (Some v).
Proof.
  intros k w v (B & T & N). destruct (begins_two w T N) as (c & r & E). apply in_prefixes in B.
  destruct k; simpl in B; cases_in B; try contradiction; rewrite <- B in *; try discriminate; reflexivity.
Qed.

Lemma split_eq_some : forall s a b, split_eq s = Some (a, b) -> s = a ++ "=" ++ b.
Proof.
  induction s as [|c s IH]; intros a b H; [discriminate|]. simpl in H.
  destruct (Ascii.eqb_spec c "=") as [->|N].
  - injection H as <- <-. reflexivity.
  - destruct (split_eq s) as [[x y]|] eqn:E; [|discriminate]. injection H as <- <-.
    rewrite (IH _ _ eq_refl). reflexivity.
Qed.

Lemma lookup_some : forall w k, lookup w = Some k -> w = name_of k \/ (w = "-h" /\ k = KHelp).
Proof.
  intros w k. unfold lookup, option_strings. cbn [filter fst].
  repeat match goal with
  | |- context [String.eqb ?n w] => destruct (String.eqb_spec n w) as [<-|?]; [cbn; intros [= <-]; auto|]
  end.
  discriminate.
Qed.

Lemma written_self : forall k, written_as (name_of k) (name_of k).
Proof.
  intros k. split; [exists ""; now rewrite append_nil|]. split; destruct k; try discriminate; eexists; reflexivity.
Qed.

Lemma prefix_begins : forall p s, prefix p s = true <-> begins_with p s.
Proof.
  induction p as [|c p IH]; intros s.
  - split; [|now destruct s]. intros _. exists s. reflexivity.
  - destruct s as [|c' s].
    + split; [discriminate|]. intros (r & E). discriminate.
    + simpl. destruct (ascii_dec c c') as [->|N].
      * rewrite IH. split; intros (r & E); exists r; [now rewrite E | now injection E].
      * split; [discriminate|]. intros (r & E). injection E; intros; now subst.
Qed.

Lemma filter_prefix : forall c r, let p := String "-" (String "-" (String c r)) in
  filter (fun o => prefix p (fst o)) option_strings = [] \/
  exists k, filter (fun o => prefix p (fst o)) option_strings = [(name_of k, k)] /\ written_as (name_of k) p.
Proof.
  intros c r p.
  assert (W : forall k, prefix p (name_of k) = true -> written_as (name_of k) p).
  { intros k H. split; [now apply prefix_begins|]. split; [eexists; reflexivity|discriminate]. }
  assert (D : forall k k', prefix p (name_of k) = true -> prefix p (name_of k') = true -> k = k').
  { intros k k' H H'. apply W, role_written in H. apply W, role_written in H'. congruence. }
  assert (X : option_strings = ("-h", KHelp) :: map (fun k => (name_of k, k))
     [KHelp; KData; KCalibration; KOutput; KVersion; KTutorial; KThreshold]) by reflexivity.
  rewrite X. cbn [filter fst]. replace (prefix p "-h") with false by reflexivity.
  assert (ND : NoDup [KHelp; KData; KCalibration; KOutput; KVersion; KTutorial; KThreshold]).
  { repeat constructor; simpl; intuition discriminate. }
  revert ND. clear X. generalize [KHelp; KData; KCalibration; KOutput; KVersion; KTutorial; KThreshold].
  induction l as [|k l IH]; intros ND; [now left|]. inversion ND as [|? ? NI ND']; subst.
  cbn [map filter fst]. destruct (prefix p (name_of k)) eqn:E; [|now apply IH].
  right. exists k. split; [|now apply W].
  destruct (IH ND') as [->|(k' & E' & W')]; [reflexivity|]. exfalso.
  assert (I : In (name_of k', k') (filter (fun o => prefix p (fst o)) (map (fun k0 => (name_of k0, k0)) l)))
    by (rewrite E'; now left).
  apply filter_In in I. destruct I as (I & Pk). apply in_map_iff in I. destruct I as (k2 & E2 & I2).
  injection E2 as _ ->. rewrite (D _ _ E Pk) in NI. contradiction.
Qed.

(** What stands before [=], and after it. *)
Definition parts (w : string) : string * option string :=
  match split_eq w with Some (a, b) => (a, Some b) | None => (w, None) end.

Lemma abbreviated_parts : forall w, abbreviated w =
  map (fun o => (snd o, snd (parts w))) (filter (fun o => prefix (fst (parts w)) (fst o)) option_strings).
Proof. intros w. unfold abbreviated, parts. destruct (split_eq w) as [[a b]|]; reflexivity. Qed.

Lemma abbreviated_cases : forall w, begins_with "--" w -> w <> "--" -> ~ begins_with "--=" w ->
  abbreviated w = [] \/
  exists k e, abbreviated w = [(k, e)] /\
    ((e = None /\ written_as (name_of k) w) \/
     exists a v, e = Some v /\ written_as (name_of k) a /\ w = a ++ "=" ++ v).
Proof.
  intros w T N Q. rewrite abbreviated_parts. unfold parts.
  destruct (begins_two w T N) as (c & r & E).
  destruct (split_eq w) as [[a b]|] eqn:S; cbn [fst snd].
  - pose proof (split_eq_some _ _ _ S) as Ew.
    assert (A : exists c' r', a = String "-" (String "-" (String c' r'))).
    { rewrite E in Ew. destruct a as [|x [|y [|z a]]]; simpl in Ew; try discriminate.
      - injection Ew as <- <- Ec Er. contradict Q. rewrite E, Ec. eexists; reflexivity.
      - injection Ew as <- <- <- Er. eauto. }
    destruct A as (c' & r' & ->). destruct (filter_prefix c' r') as [->|(k & -> & W)]; [now left|].
    right. exists k, (Some b). split; [reflexivity|]. right. exists (String "-" (String "-" (String c' r'))), b. auto.
  - subst w. destruct (filter_prefix c r) as [->|(k & -> & W)]; [now left|].
    right. exists k, None. split; [reflexivity|]. left. auto.
Qed.

Lemma abbreviated_dashes : forall w, w = "--" \/ begins_with "--=" w -> exists x y l, abbreviated w = x :: y :: l.
Proof. intros w [->|(r & ->)]; rewrite abbreviated_parts; do 3 eexists; reflexivity. Qed.

(** ** What words are taken for *)
Lemma role_option : forall w k s e, role_of w = Opt k s e ->
  (s = false /\ e = None /\ (written_as (name_of k) w \/ (w = "-h" /\ k = KHelp))) \/
  (s = false /\ exists a v, e = Some v /\ written_as (name_of k) a /\ w = a ++ "=" ++ v) \/
  (s = true /\ k = KHelp /\ exists v, e = Some v /\ (w = "-h=" ++ v \/ w = "-h" ++ v)).
Proof.
  intros w k s e. destruct w as [|c rest]; [discriminate|]. cbn [role_of].
  destruct (Ascii.eqb_spec c "-") as [->|N]; [|discriminate]. cbn [negb].
  destruct (lookup (String "-" rest)) as [k0|] eqn:L.
  - intros [= <- <- <-]. left. split; [reflexivity|]. split; [reflexivity|].
    destruct (lookup_some _ _ L) as [E|E]; [left; rewrite E; apply written_self|now right].
  - destruct rest as [|c' rest']; [discriminate|].
    set (w := String "-" (String c' rest')) in *.
    assert (O : otherwise w = Opt k s e -> False).
    { unfold otherwise. destruct (negative_number w); [discriminate|]. destruct (has_space w); discriminate. }
    assert (M :
      (if Ascii.eqb c' "-"
       then match abbreviated w with [] => otherwise w | [(k, e)] => Opt k false e | _ => Ambiguous end
       else if Ascii.eqb c' "h" then Opt KHelp true (Some rest') else otherwise w) = Opt k s e ->
      (s = false /\ e = None /\ (written_as (name_of k) w \/ (w = "-h" /\ k = KHelp))) \/
      (s = false /\ exists a v, e = Some v /\ written_as (name_of k) a /\ w = a ++ "=" ++ v) \/
      (s = true /\ k = KHelp /\ exists v, e = Some v /\ (w = "-h=" ++ v \/ w = "-h" ++ v))).
    { destruct (Ascii.eqb_spec c' "-") as [->|N].
      - destruct (string_dec w "--") as [E|N1].
        { destruct (abbreviated_dashes w (or_introl E)) as (x & y & l & ->). destruct x; discriminate. }
        destruct (prefix "--=" w) eqn:P.
        { apply prefix_begins in P. destruct (abbreviated_dashes w (or_intror P)) as (x & y & l & ->).
          destruct x; discriminate. }
        assert (NQ : ~ begins_with "--=" w) by (intros Q; apply prefix_begins in Q; congruence).
        destruct (abbreviated_cases w (ex_intro _ rest' eq_refl) N1 NQ) as [->|(k1 & e1 & -> & C)].
        { intros H. contradiction (O H). }
        intros [= <- <- <-]. destruct C as [(-> & W)|(a & v & -> & W & E)].
        + left. auto.
        + right; left. split; [reflexivity|]. exists a, v. auto.
      - destruct (Ascii.eqb_spec c' "h") as [->|N']; [|intros H; contradiction (O H)].
        intros [= <- <- <-]. right; right. split; [reflexivity|]. split; [reflexivity|].
        exists rest'. split; [reflexivity|]. right. reflexivity. }
    destruct (split_eq w) as [[a b]|] eqn:S; [|exact M].
    destruct (lookup a) as [k0|] eqn:La; [|exact M].
    pose proof (split_eq_some _ _ _ S) as Ew. intros H. clear M O.
    destruct (lookup_some _ _ La) as [E|(E & Ek)].
    + assert (X : String.eqb a "-h" = false) by (rewrite E; destruct k0; reflexivity).
      cbn in H. rewrite X in H. injection H as <- <- <-. right; left. split; [reflexivity|].
      exists a, b. split; [reflexivity|]. split; [rewrite E; apply written_self|exact Ew].
    + subst a k0. cbn in H. injection H as <- <- <-. right; right.
      split; [reflexivity|]. split; [reflexivity|]. exists b. split; [reflexivity|]. left. exact Ew.
Qed.

Lemma digit_true : forall c, is_digit c = true <-> digit c.
Proof.
  intros c. unfold is_digit, digit. rewrite andb_true_iff, !Nat.leb_le. tauto.
Qed.

Lemma all_digits_true : forall s, forall_chars is_digit s = true <-> all_digits s.
Proof.
  induction s as [|c s IH]; [split; [constructor|reflexivity]|]. simpl.
  rewrite andb_true_iff, digit_true, IH. split; [intros (? & ?); now constructor|intros H; now inversion H].
Qed.

Lemma digits_true : forall s, digits s = true <-> s <> "" /\ all_digits s.
Proof.
  intros s. destruct s as [|c s].
  - split; [discriminate|]. intros (N & _). now contradict N.
  - unfold digits. rewrite all_digits_true. split; [intros H; split; [discriminate|exact H]|now intros (_ & H)].
Qed.

Lemma point_true : forall s, point_number s = true <->
  exists a b, s = a ++ "." ++ b /\ all_digits a /\ all_digits b /\ b <> "".
Proof.
  induction s as [|c s IH].
  - split; [discriminate|]. intros (a & b & E & _). destruct a; discriminate.
  - cbn [point_number]. destruct (Ascii.eqb_spec c ".") as [->|N].
    + rewrite digits_true. split.
      * intros (Nn & A). exists "", s. repeat split; [constructor|exact A|exact Nn].
      * intros (a & b & E & A & B & Nn). destruct a as [|x a].
        { injection E as ->. auto. }
        exfalso. simpl in E. injection E as <- _. inversion A as [|? ? D _]; subst.
        unfold digit in D. cbn in D. lia.
    + rewrite andb_true_iff, digit_true, IH. split.
      * intros (D & a & b & -> & A & B & Nn). exists (String c a), b. repeat split; auto. now constructor.
      * intros (a & b & E & A & B & Nn). destruct a as [|x a]; [simpl in E; injection E; intros; contradiction|].
        simpl in E. injection E as <- ->. inversion A; subst. split; [assumption|]. exists a, b. auto.
Qed.

Lemma negative_true : forall w, negative_number w = true <-> negative_decimal w.
Proof.
  intros w. unfold negative_decimal. destruct w as [|c s].
  - split; [discriminate|]. intros [(s & E & _)|(a & b & E & _)]; discriminate.
  - cbn [negative_number]. rewrite andb_true_iff, orb_true_iff, digits_true, point_true. split.
    + intros (E & H). apply Ascii.eqb_eq in E. subst c. destruct H as [(N & A)|(a & b & -> & H)].
      * left. exists s. auto.
      * right. exists a, b. auto.
    + intros [(s' & E & N & A)|(a & b & E & H)]; simpl in E; injection E as -> ->.
      * split; [reflexivity|]. left. auto.
      * split; [reflexivity|]. right. exists a, b. auto.
Qed.

Lemma space_true : forall w, has_space w = true <-> exists a b, w = a ++ " " ++ b.
Proof.
  unfold has_space. induction w as [|c w IH].
  - split; [discriminate|]. intros (a & b & E). destruct a; discriminate.
  - cbn [forall_chars]. destruct (Ascii.eqb_spec c " ") as [->|N].
    + split; [|reflexivity]. intros _. exists "", w. reflexivity.
    + cbn [negb andb]. rewrite IH. split.
      * intros (a & b & ->). exists (String c a), b. reflexivity.
      * intros (a & b & E). destruct a as [|x a]; [simpl in E; injection E; intros; contradiction|].
        simpl in E. injection E as <- ->. exists a, b. reflexivity.
Qed.

Lemma lookup_none : forall d s, d <> "-"%char -> d <> "h"%char -> lookup (String "-" (String d s)) = None.
Proof.
  intros d s N1 N2. destruct (lookup (String "-" (String d s))) as [k|] eqn:L; [|reflexivity].
  destruct (lookup_some _ _ L) as [E|(E & _)].
  - destruct k; injection E; intros; contradiction.
  - injection E; intros; contradiction.
Qed.

(** Words with one dash. *)
Lemma role_single : forall d s, d <> "-"%char -> d <> "h"%char ->
  role_of (String "-" (String d s)) = otherwise (String "-" (String d s)).
Proof.
  intros d s N1 N2. cbn [role_of]. rewrite lookup_none by assumption.
  replace (Ascii.eqb d "-") with false by (symmetry; now apply Ascii.eqb_neq).
  replace (Ascii.eqb d "h") with false by (symmetry; now apply Ascii.eqb_neq).
  cbn [negb Ascii.eqb Bool.eqb].
  assert (X : match split_eq (String "-" (String d s)) with
              | Some (a, b) => match lookup a with Some k => Some (k, String.eqb a "-h", b) | None => None end
              | None => None end = None).
  { destruct (split_eq (String "-" (String d s))) as [[a b]|] eqn:S; [|reflexivity].
    apply split_eq_some in S. destruct a as [|x [|y a]]; simpl in S.
    - discriminate.
    - injection S as <- _. reflexivity.
    - injection S as <- <- _. now rewrite lookup_none. }
  rewrite X. reflexivity.
Qed.

Definition no_option (w : string) : Prop := forall name, In name long_names -> ~ names_option name w.

(** Words with two dashes that are no option. *)
Lemma role_double : forall w, begins_with "--" w -> w <> "--" -> ~ begins_with "--=" w -> no_option w ->
  role_of w = otherwise w.
Proof.
  intros w T N Q NO. destruct (begins_two w T N) as (c & r & E).
  assert (L : lookup w = None).
  { destruct (lookup w) as [k|] eqn:L; [|reflexivity]. exfalso. destruct (lookup_some _ _ L) as [X|(X & _)].
    - apply (NO (name_of k) (name_in k)). left. rewrite X. apply written_self.
    - rewrite E in X. discriminate. }
  assert (X : match split_eq w with
              | Some (a, b) => match lookup a with Some k => Some (k, String.eqb a "-h", b) | None => None end
              | None => None end = None).
  { destruct (split_eq w) as [[a b]|] eqn:S; [|reflexivity]. apply split_eq_some in S.
    destruct (lookup a) as [k|] eqn:La; [|reflexivity]. exfalso. destruct (lookup_some _ _ La) as [X|(X & _)].
    - apply (NO (name_of k) (name_in k)). right. exists a, b. split; [rewrite X; apply written_self|exact S].
    - subst a. rewrite E in S. discriminate. }
  assert (A : abbreviated w = []).
  { destruct (abbreviated_cases w T N Q) as [A|(k & e & A & C)]; [exact A|]. exfalso.
    apply (NO (name_of k) (name_in k)). destruct C as [(_ & W)|(a & v & _ & W & Ew)]; [now left|].
    right. exists a, v. auto. }
  revert L X A. rewrite E. intros L X A. cbn [role_of]. rewrite L, X, A. reflexivity.
Qed.

Lemma role_no_option : forall w, begins_with "-" w -> w <> "-" -> ~ begins_with "-h" w -> w <> "--" ->
  ~ begins_with "--=" w -> no_option w -> role_of w = otherwise w.
Proof.
  intros w (r & E) N1 NH N2 Q NO. destruct r as [|c r]; [contradiction|].
  destruct (Ascii.eqb_spec c "-") as [->|Nc].
  - apply role_double; try assumption. exists r. exact E.
  - rewrite E. apply role_single; [exact Nc|]. intros ->. apply NH. exists r. exact E.
Qed.

Lemma role_h : forall r, exists s e, role_of ("-h" ++ r) = Opt KHelp s e.
Proof.
  intros r. destruct r as [|c r]; [exists false, None; reflexivity|].
  assert (L : lookup (String "-" (String "h" (String c r))) = None).
  { destruct (lookup (String "-" (String "h" (String c r)))) as [k|] eqn:L; [|reflexivity].
    destruct (lookup_some _ _ L) as [E|(E & _)]; [destruct k; discriminate|discriminate]. }
  cbn [append role_of]. rewrite L. cbn [negb Ascii.eqb Bool.eqb].
  destruct (split_eq (String "-" (String "h" (String c r)))) as [[a b]|] eqn:S; [|exists true, (Some (String c r)); reflexivity].
  destruct (lookup a) as [k|] eqn:La; [|exists true, (Some (String c r)); reflexivity].
  apply split_eq_some in S. destruct (lookup_some _ _ La) as [E|(E & Ek)].
  - subst a. destruct k; discriminate.
  - subst a k. exists true, (Some b). reflexivity.
Qed.

Lemma role_dashes : forall w, w = "--" \/ begins_with "--=" w -> role_of w = Ambiguous.
Proof.
  intros w H. destruct (abbreviated_dashes w H) as (x & y & l & A). destruct H as [->|(r & ->)]; [reflexivity|].
  change ("--=" ++ r) with (String "-" (String "-" (String "=" r))) in *.
  assert (L : lookup (String "-" (String "-" (String "=" r))) = None) by reflexivity.
  cbn [role_of]. rewrite L, A. destruct x. reflexivity.
Qed.

Lemma role_value : forall w, role_of w = Value <-> value_word w.
Proof.
  intros w. split.
  - intros H. destruct (string_dec w "-") as [->|N1]; [right; now left|].
    destruct (prefix "-" w) eqn:P; [apply prefix_begins in P|left; intros B; apply prefix_begins in B; congruence].
    right; right.
    assert (NH : ~ begins_with "-h" w).
    { intros (r & ->). destruct (role_h r) as (s & e & E). congruence. }
    assert (ND : w <> "--") by (intros ->; discriminate).
    assert (Q : ~ begins_with "--=" w) by (intros Q; rewrite (role_dashes w (or_intror Q)) in H; discriminate).
    assert (NO : no_option w).
    { intros n I. destruct (in_name n I) as (k & ->). intros [W|(a & v & W & ->)].
      - rewrite (role_written _ _ W) in H. discriminate.
      - rewrite (role_equals _ _ _ W) in H. discriminate. }
    rewrite role_no_option in H by assumption. unfold otherwise in H.
    destruct (negative_number w) eqn:G; [left; now apply negative_true|].
    destruct (has_space w) eqn:Sp; [|discriminate]. right. split; [now apply space_true|]. auto.
  - intros [N|[->|[G|(Sp & NH & Q & NO)]]].
    + destruct w as [|c r]; [reflexivity|]. cbn [role_of]. destruct (Ascii.eqb_spec c "-") as [->|N']; [|reflexivity].
      contradict N. exists r. reflexivity.
    + reflexivity.
    + assert (X : exists d s, w = String "-" (String d s) /\ (digit d \/ d = "."%char)).
      { destruct G as [(s & -> & N & A)|(a & b & -> & A & _)].
        - destruct s as [|d s]; [now contradict N|]. inversion A; subst. exists d, s. auto.
        - destruct a as [|d a]; [exists "."%char, b; auto|]. inversion A; subst. eexists d, _. split; [reflexivity|auto]. }
      destruct X as (d & s & -> & D).
      rewrite role_single.
      * unfold otherwise. apply negative_true in G. now rewrite G.
      * intros ->. destruct D as [D|D]; [|discriminate]. unfold digit in D. cbn in D. lia.
      * intros ->. destruct D as [D|D]; [|discriminate]. unfold digit in D. cbn in D. lia.
    + destruct (prefix "-" w) eqn:P.
      * apply prefix_begins in P. destruct (string_dec w "-") as [->|N1]; [reflexivity|].
        rewrite role_no_option; try assumption.
        -- unfold otherwise. apply space_true in Sp. rewrite Sp. now destruct (negative_number w).
        -- intros ->. destruct Sp as (a & b & E). destruct a as [|? [|? [|? ?]]]; discriminate.
      * destruct w as [|c r]; [reflexivity|]. cbn [role_of].
        destruct (Ascii.eqb_spec c "-") as [->|N']; [|reflexivity]. destruct r; discriminate.
Qed.

Lemma role_foreign : forall w, foreign w <-> role_of w = Unknown.
Proof.
  intros w. split.
  - intros (B & NH & Q & ND & NV & NO).
    assert (N1 : w <> "-") by (intros ->; apply NV; right; now left).
    assert (E : role_of w = otherwise w) by now apply role_no_option.
    rewrite E. unfold otherwise. rewrite <- role_value, E in NV. unfold otherwise in NV.
    destruct (negative_number w); [now contradict NV|]. destruct (has_space w); [now contradict NV|reflexivity].
  - intros H. split.
    { destruct w as [|c r]; [discriminate|]. cbn [role_of] in H. destruct (Ascii.eqb_spec c "-") as [->|N]; [|discriminate].
      exists r. reflexivity. }
    split. { intros (r & ->). destruct (role_h r) as (s & e & E). congruence. }
    split. { intros Q. rewrite (role_dashes w (or_intror Q)) in H. discriminate. }
    split. { intros ->. discriminate. }
    split. { rewrite <- role_value. congruence. }
    intros n I. destruct (in_name n I) as (k & ->). intros [W|(a & v & W & ->)].
    + rewrite (role_written _ _ W) in H. discriminate.
    + rewrite (role_equals _ _ _ W) in H. discriminate.
Qed.

Lemma role_ambiguous : forall w, role_of w = Ambiguous -> w = "--" \/ begins_with "--=" w.
Proof.
  intros w H. destruct (string_dec w "--") as [E|N]; [now left|].
  destruct (prefix "--=" w) eqn:P; [right; now apply prefix_begins|]. exfalso.
  assert (Q : ~ begins_with "--=" w) by (intros Q; apply prefix_begins in Q; congruence).
  assert (N1 : w <> "-") by (intros ->; discriminate).
  assert (NH : ~ begins_with "-h" w) by (intros (r & ->); destruct (role_h r) as (s & e & E); congruence).
  assert (B : begins_with "-" w).
  { destruct w as [|c r]; [discriminate|]. cbn [role_of] in H.
    destruct (Ascii.eqb_spec c "-") as [->|N']; [|discriminate]. exists r. reflexivity. }
  assert (NO : no_option w).
  { intros n I. destruct (in_name n I) as (k & ->). intros [W|(a & v & W & ->)].
    - rewrite (role_written _ _ W) in H. discriminate.
    - rewrite (role_equals _ _ _ W) in H. discriminate. }
  rewrite role_no_option in H by assumption. unfold otherwise in H.
  destruct (negative_number w); [discriminate|]. destruct (has_space w); discriminate.
Qed.

Lemma only_h_chars : forall s, only_h s -> s <> "" /\ forall_chars (Ascii.eqb "h") s = true.
Proof. induction 1 as [|s H (N & IH)]; (split; [discriminate|]); [reflexivity|exact IH]. Qed.

Lemma chars_only_h : forall s, s <> "" -> forall_chars (Ascii.eqb "h") s = true -> only_h s.
Proof.
  induction s as [|c s IH]; intros N H; [now contradict N|]. cbn [forall_chars] in H.
  apply andb_true_iff in H. destruct H as (E & H). apply Ascii.eqb_eq in E. subst c.
  destruct s as [|c s]; [constructor|]. constructor. apply IH; [discriminate|exact H].
Qed.

Lemma role_only_h : forall s, only_h s ->
  role_of ("-" ++ s) = Opt KHelp false None \/
  exists r, only_h r /\ role_of ("-" ++ s) = Opt KHelp true (Some r).
Proof.
  intros s H. destruct H as [|s H]; [left; reflexivity|]. right. exists s. split; [exact H|].
  destruct (role_h s) as (b & e & E). change ("-" ++ String "h" s) with ("-h" ++ s). rewrite E.
  assert (NE : s <> "") by now apply only_h_chars.
  destruct (role_option _ _ _ _ E) as [(-> & -> & C)|[(-> & a & v & -> & W & Ew)|(-> & _ & v & -> & C)]].
  - exfalso. destruct C as [(_ & (r & X) & _)|(X & _)]; [discriminate|]. injection X as X. contradiction.
  - exfalso. destruct W as (_ & T & N). destruct (begins_two a T N) as (c & r & ->). discriminate.
  - destruct C as [X|X]; [|injection X as ->; reflexivity]. injection X as ->. inversion H.
Qed.

Lemma with_value_role : forall f name v ws rest k, name = name_of k -> takes_value k = true -> value_words name v ws ->
  steps f (ws ++ rest)%list = with_value f k v :: steps f rest /\ existsb ambiguous ws = false.
Proof.
  intros f name v ws rest k -> T (w & W & [(-> & V)| ->]).
  - apply role_value in V. cbn [app steps existsb]. unfold ambiguous. rewrite (role_written _ _ W), T, V. auto.
  - cbn [app steps existsb]. unfold ambiguous. rewrite (role_equals _ _ _ W). unfold with_explicit. rewrite T. auto.
Qed.

Lemma steps_words : forall f a ws rest, argument_words f a ws ->
  steps f (ws ++ rest)%list = Act a :: steps f rest /\ existsb ambiguous ws = false.
Proof.
  intros f a ws rest H. destruct H as [p V|p ws V|p ws V|p ws V|p ws V|v ws V|w W|w W|s O|s O].
  - apply role_value in V. cbn [app steps existsb]. unfold ambiguous. rewrite V. auto.
  - exact (with_value_role f "--data-file" p ws rest KData eq_refl eq_refl V).
  - exact (with_value_role f "--calibration" p ws rest KCalibration eq_refl eq_refl V).
  - exact (with_value_role f "--output_file" p ws rest KOutput eq_refl eq_refl V).
  - exact (with_value_role f "--generate-tutorial" p ws rest KTutorial eq_refl eq_refl V).
  - exact (with_value_role f "--success_threshold" v ws rest KThreshold eq_refl eq_refl V).
  - cbn [app steps existsb]. unfold ambiguous. rewrite (role_written KVersion _ W). auto.
  - cbn [app steps existsb]. unfold ambiguous. rewrite (role_written KHelp _ W). auto.
  - cbn [app steps existsb]. unfold ambiguous.
    destruct (role_only_h s O) as [E|(r & R & E)]; rewrite E; [auto|].
    destruct (only_h_chars r R) as (N & C). unfold with_explicit. rewrite C.
    destruct (String.eqb_spec r "") as [X|_]; [contradiction|]. auto.
  - cbn [app steps existsb]. unfold ambiguous.
    replace (role_of ("-h=" ++ s)) with (Opt KHelp true (Some s)) by reflexivity.
    destruct (only_h_chars s O) as (N & C). unfold with_explicit. rewrite C.
    destruct (String.eqb_spec s "") as [X|_]; [contradiction|]. auto.
Qed.

Lemma steps_spelled : forall f argv ws rest, spelled f argv ws ->
  steps f (ws ++ rest)%list = (map Act argv ++ steps f rest)%list /\ existsb ambiguous ws = false.
Proof.
  intros f argv ws rest H. induction H as [|a argv ws ws' W S (IH & IA)]; [auto|].
  rewrite <- app_assoc. destruct (steps_words f a ws (ws' ++ rest)%list W) as (E & A). rewrite E, IH.
  split; [reflexivity|]. rewrite existsb_app, A, IA. reflexivity.
Qed.

Lemma parse_act : forall (Text Row Inp Out : Type) (t : tools Text Row Inp Out) a argv d ns, a <> OutputFile "-" ->
  parse_arguments t (a :: argv) d ns =
  match act t a d ns with inl f => inl f | inr (ns', d') => parse_arguments t argv d' ns' end.
Proof.
  intros Text Row Inp Out t a argv d ns N. destruct ns as [c da ca o th u].
  destruct a as [p|p|p|p| |dir|v|]; cbn [parse_arguments act].
  - destruct c; [reflexivity|]. now destruct (open_r d p).
  - now destruct (open_r d p).
  - now destruct (open_r d p).
  - destruct (String.eqb_spec p "-") as [->|_]; [now contradict N|]. now destruct (open_w t d p).
  - reflexivity.
  - now destruct (generate_tutorial t d dir).
  - now destruct (percentage v).
  - reflexivity.
Qed.

Lemma take_acts : forall (Text Row Inp Out : Type) (t : tools Text Row Inp Out) argv d ns,
  ~ In (OutputFile "-") argv -> take t (map Act argv) d ns = parse_arguments t argv d ns.
Proof.
  induction argv as [|a argv IH]; intros d ns N; [reflexivity|].
  rewrite parse_act by (intros ->; apply N; now left). cbn [map take].
  destruct (act t a d ns) as [f|[ns' d']]; [reflexivity|]. apply IH. intros I. apply N. now right.
Qed.

Lemma main_spelled : forall (Text Row Inp Out : Type) (t : tools Text Row Inp Out) float_of argv ws d,
  spelled float_of argv ws -> ~ In (OutputFile "-") argv -> main_words float_of t ws d = main t argv d.
Proof.
  intros Text Row Inp Out t f argv ws d H N. destruct (steps_spelled f argv ws [] H) as (E & A).
  cbn [steps] in E. rewrite !app_nil_r in E. unfold main_words, main. rewrite A, E, take_acts by exact N. reflexivity.
Qed.

Lemma act_informs : forall (Text Row Inp Out : Type) (t : tools Text Row Inp Out) a d ns,
  informs a -> exists f, act t a d ns = inl f.
Proof.
  intros Text Row Inp Out t a d [c da ca o th u] [->|[->|(dir & ->)]]; cbn [act]; eauto.
  destruct (generate_tutorial t d dir); eauto.
Qed.

Lemma not_ambiguous : forall ws, ~ In "--" ws -> (forall w, In w ws -> ~ begins_with "--=" w) ->
  existsb ambiguous ws = false.
Proof.
  intros ws N Q. destruct (existsb ambiguous ws) eqn:E; [|reflexivity]. exfalso.
  apply existsb_exists in E. destruct E as (w & I & A). unfold ambiguous in A.
  destruct (role_of w) eqn:R; try discriminate. destruct (role_ambiguous w R) as [->|B]; [contradiction|].
  exact (Q w I B).
Qed.

(** ** Everything else is refused *)
Lemma steps_cases : forall f w rest, ambiguous w = false ->
  (exists a wa r, (w :: rest = wa ++ r)%list /\ argument_words f a wa /\ wa <> [] /\
     steps f (w :: rest) = Act a :: steps f r) \/
  steps f (w :: rest) = Aside :: steps f rest \/
  exists l, steps f (w :: rest) = Stop :: l.
Proof.
  intros f w rest NA. cbn [steps]. unfold ambiguous in NA. destruct (role_of w) as [|k s e| |] eqn:R.
  - left. exists (Config w), [w], rest. split; [reflexivity|]. split; [constructor; now apply role_value|].
    split; [discriminate|reflexivity].
  - destruct (role_option _ _ _ _ R) as [(-> & -> & C)|[(-> & a & v & -> & W & Ew)|(-> & -> & v & -> & C)]].
    + destruct (takes_value k) eqn:T.
      * destruct C as [W|(_ & ->)]; [|discriminate].
        destruct rest as [|v rest']; [right; right; eauto|]. destruct (role_of v) eqn:V; try (right; right; eauto; fail).
        apply role_value in V. left.
        assert (VW : value_words (name_of k) v [w; v]) by (exists w; auto).
        destruct k; try discriminate; cbn [with_value];
          (eexists _, [w; v], rest'; split; [reflexivity|]; split; [|split; [discriminate|reflexivity]]);
          constructor; exact VW.
      * destruct k; try discriminate; cbn [without_value]; left.
        -- exists Help, [w], rest. split; [reflexivity|]. split; [|split; [discriminate|reflexivity]].
           destruct C as [W|(-> & _)]; [now apply words_help|]. exact (words_h f "h" one_h).
        -- exists Version, [w], rest. split; [reflexivity|]. split; [|split; [discriminate|reflexivity]].
           destruct C as [W|(_ & ?)]; [now apply words_version|discriminate].
    + unfold with_explicit. destruct (takes_value k) eqn:T; [|right; right; cbn; eauto].
      assert (VW : value_words (name_of k) v [w]) by (exists a; rewrite Ew; auto).
      left. destruct k; try discriminate; cbn [with_value];
          (eexists _, [w], rest; split; [reflexivity|]; split; [|split; [discriminate|reflexivity]]);
          constructor; exact VW.
    + unfold with_explicit. cbn [takes_value andb].
      destruct (String.eqb_spec v "") as [->|N]; [right; right; cbn; eauto|].
      destruct (forall_chars (Ascii.eqb "h") v) eqn:O; [|right; right; cbn; eauto]. cbn [negb andb without_value].
      apply chars_only_h in O; [|exact N]. left. exists Help, [w], rest. split; [reflexivity|].
      split; [|split; [discriminate|reflexivity]].
      destruct C as [->| ->]; [now apply words_h_equals|]. exact (words_h f (String "h" v) (another_h v O)).
  - right; left. reflexivity.
  - discriminate.
Qed.

Lemma act_ends : forall (Text Row Inp Out : Type) (t : tools Text Row Inp Out) a d ns,
  (forall f, act t a d ns = inl f -> refused f \/ informs a) /\
  (forall ns' d', act t a d ns = inr (ns', d') -> unrecognized ns' = false -> unrecognized ns = false).
Proof.
  intros Text Row Inp Out t a d [c da ca o th u].
  assert (R : refused (exit (Out := Out) 2 d [])) by (split; reflexivity).
  unfold informs.
  destruct a as [p|p|p|p| |dir|v|]; cbn [act].
  - destruct c; [split; [discriminate|intros ? ? [= <- <-]; discriminate]|].
    destruct (open_r d p); split; try discriminate; [intros ? ? [= <- <-]; auto|intros ? [= <-]; auto].
  - destruct (open_r d p); split; try discriminate; [intros ? ? [= <- <-]; auto|intros ? [= <-]; auto].
  - destruct (open_r d p); split; try discriminate; [intros ? ? [= <- <-]; auto|intros ? [= <-]; auto].
  - destruct (String.eqb p "-"); [split; [discriminate|intros ? ? [= <- <-]; auto]|].
    destruct (open_w t d p); split; try discriminate; [intros ? ? [= <- <-]; auto|intros ? [= <-]; auto].
  - split; [auto|discriminate].
  - destruct (generate_tutorial t d dir); split; try discriminate; eauto.
  - destruct (percentage v); split; try discriminate; [intros ? ? [= <- <-]; auto|intros ? [= <-]; auto].
  - split; [auto|discriminate].
Qed.

Lemma take_inv : forall (Text Row Inp Out : Type) (t : tools Text Row Inp Out) fl n ws d ns, (length ws <= n)%nat ->
  existsb ambiguous ws = false ->
  (forall f, take t (steps fl ws) d ns = inl f -> refused f \/ asks_for_information fl ws) /\
  (forall r, take t (steps fl ws) d ns = inr r ->
     (exists argv, spelled fl argv ws) /\ unrecognized ns = false).
Proof.
  intros Text Row Inp Out t fl. induction n as [|n IH]; intros ws d ns L NA.
  all: destruct ws as [|w rest].
  1,3: cbn [steps take parse_arguments]; destruct ns as [[c|] da ca o th [|]]; split; try discriminate;
    first [intros ? [= <-]; left; split; reflexivity | intros r _; split; [exists []; constructor|reflexivity]].
  { simpl in L. lia. }
  cbn [existsb] in NA; apply orb_false_iff in NA; destruct NA as (NA & NR).
  destruct (steps_cases fl w rest NA) as [(a & wa & r & E & W & NE & ->)|[->|(l & ->)]].
  - rewrite E. assert (Lr : (length r <= n)%nat).
    { apply (f_equal (@length string)) in E. rewrite app_length in E. simpl in E, L.
      destruct wa; [now contradict NE|]. simpl in E. lia. }
    assert (Nr : existsb ambiguous r = false).
    { assert (X : existsb ambiguous (wa ++ r)%list = false) by (rewrite <- E; cbn [existsb]; now rewrite NA, NR).
      rewrite existsb_app in X. now apply orb_false_iff in X. }
    cbn [take]. destruct (act_ends _ _ _ _ t a d ns) as (A1 & A2).
    destruct (act t a d ns) as [f|[ns' d']].
    + split; [|discriminate]. intros ? [= <-]. destruct (A1 f eq_refl) as [R|I]; [now left|]. right.
      exists [], wa, r, a. auto.
    + destruct (IH r d' ns' Lr Nr) as (I1 & I2). split.
      * intros f F. destruct (I1 f F) as [R|(b & x & y & a' & -> & W' & I)]; [now left|]. right.
        exists (wa ++ b)%list, x, y, a'. split; [now rewrite <- app_assoc|auto].
      * intros f F. destruct (I2 f F) as ((argv & S) & U). split; [|now apply (A2 ns' d')].
        exists (a :: argv). now constructor.
  - cbn [take]. destruct ns as [c da ca o th u].
    destruct (IH rest d (mkNamespace c da ca o th true) ltac:(simpl in L; lia) NR) as (I1 & I2). split.
    + intros f F. destruct (I1 f F) as [R|(b & x & y & a' & -> & W' & I)]; [now left|]. right.
      exists (w :: b), x, y, a'. auto.
    + intros f F. destruct (I2 f F) as (_ & U). discriminate.
  - cbn [take]. split; [|discriminate]. intros ? [= <-]. left. split; reflexivity.
Qed.

Lemma main_words_inv : forall (Text Row Inp Out : Type) (t : tools Text Row Inp Out) float_of ws d,
  refused (main_words float_of t ws d) \/ asks_for_information float_of ws \/ exists argv, spelled float_of argv ws.
Proof.
  intros Text Row Inp Out t fl ws d. unfold main_words. destruct (existsb ambiguous ws) eqn:A.
  - left. split; reflexivity.
  - destruct (take_inv _ _ _ _ t fl (length ws) ws d (mkNamespace None None None None None false) (le_n _) A) as (I1 & I2).
    destruct (take t (steps fl ws) d _) as [f|[ns d']].
    + destruct (I1 f eq_refl) as [R|I]; auto.
    + destruct (I2 _ eq_refl) as (S & _). auto.
Qed.

Lemma words_not_foreign : forall f a ws w, argument_words f a ws -> In w ws -> role_of w <> Unknown.
Proof.
  assert (V : forall k v ws w, value_words (name_of k) v ws -> In w ws -> role_of w <> Unknown).
  { intros k v ws w (x & W & [(-> & V)| ->]) I.
    - destruct I as [<-|[<-|[]]]; [rewrite (role_written _ _ W); discriminate|]. apply role_value in V. congruence.
    - destruct I as [<-|[]]. rewrite (role_equals _ _ _ W). discriminate. }
  intros f a ws w H I. destruct H as [p H|p ws H|p ws H|p ws H|p ws H|v ws H|x H|x H|s O|s O].
  - destruct I as [<-|[]]. apply role_value in H. congruence.
  - exact (V KData p ws w H I).
  - exact (V KCalibration p ws w H I).
  - exact (V KOutput p ws w H I).
  - exact (V KTutorial p ws w H I).
  - exact (V KThreshold v ws w H I).
  - destruct I as [<-|[]]. rewrite (role_written KVersion _ H). discriminate.
  - destruct I as [<-|[]]. rewrite (role_written KHelp _ H). discriminate.
  - destruct I as [<-|[]]. destruct (role_only_h s O) as [->|(r & _ & ->)]; discriminate.
  - destruct I as [<-|[]]. discriminate.
Qed.

Lemma spelled_not_foreign : forall f argv ws w, spelled f argv ws -> In w ws -> ~ foreign w.
Proof.
  intros f argv ws w H I F. apply role_foreign in F. induction H as [|a argv ws ws' W S IH]; [contradiction|].
  apply in_app_or in I. destruct I as [I|I]; [|now apply IH]. exact (words_not_foreign f a ws w W I F).
Qed.

Lemma foreign_refused : forall (Text Row Inp Out : Type) (t : tools Text Row Inp Out) float_of ws w d,
  In w ws -> foreign w -> ~ asks_for_information float_of ws -> refused (main_words float_of t ws d).
Proof.
  intros Text Row Inp Out t fl ws w d I F N.
  destruct (main_words_inv _ _ _ _ t fl ws d) as [R|[A|(argv & S)]]; [exact R|contradiction|].
  contradiction (spelled_not_foreign fl argv ws w S I F).
Qed.

Lemma foreign_empties : forall (Text Row Inp Out : Type) (t : tools Text Row Inp Out) float_of c o w d x,
  value_word c -> value_word o -> o <> "-" -> foreign w ->
  d c = Some (File x) -> d o <> Some Folder -> may_write t o = true ->
  main_words float_of t [c; "--output_file"; o; w] d = exit 2 (set d o (File (blank t))) [].
Proof.
  intros Text Row Inp Out t fl c o w d x C O N F Dc Do M. apply role_value in C. apply role_value in O. apply role_foreign in F.
  unfold main_words, ambiguous. cbn [existsb]. rewrite C, O, F. cbn [orb].
  replace (role_of "--output_file") with (Opt KOutput false None) by reflexivity. cbn [orb].
  cbn [steps]. rewrite C, O, F. replace (role_of "--output_file") with (Opt KOutput false None) by reflexivity.
  cbn [takes_value with_value take act]. unfold open_r. rewrite Dc. cbn [act].
  destruct (String.eqb_spec o "-") as [->|_]; [contradiction|]. unfold open_w.
  destruct (d o) as [[y|]|]; [rewrite M; reflexivity|contradiction|rewrite M; reflexivity].
Qed.

Definition underscored : list string := ["--data_file"; "--output-file"; "--success-threshold"; "--generate_tutorial"].

Lemma underscored_foreign : forall w, In w underscored -> foreign w.
Proof. intros w H. apply role_foreign. simpl in H. destruct H as [<-|[<-|[<-|[<-|[]]]]]; reflexivity. Qed.

(** ** Standard output by name *)
Lemma act_output : forall (Text Row Inp Out : Type) (t : tools Text Row Inp Out) a d ns ns' d',
  (forall p, a <> OutputFile p) -> act t a d ns = inr (ns', d') -> output ns' = output ns.
Proof.
  intros Text Row Inp Out t a d [c da ca o th u] ns' d' N H. destruct a as [p|p|p|p| |dir|v|]; cbn [act] in H.
  - destruct c; [now injection H as <- _|]. destruct (open_r d p); [now injection H as <- _|discriminate].
  - destruct (open_r d p); [now injection H as <- _|discriminate].
  - destruct (open_r d p); [now injection H as <- _|discriminate].
  - now contradiction (N p).
  - discriminate.
  - destruct (generate_tutorial t d dir); discriminate.
  - destruct (percentage v); [now injection H as <- _|discriminate].
  - discriminate.
Qed.

Lemma take_stdout : forall (Text Row Inp Out : Type) (t : tools Text Row Inp Out) before after d ns,
  (forall p, ~ In (OutputFile p) before) -> ~ In (OutputFile "-") after -> output ns = None ->
  take t (map Act (before ++ OutputFile "-" :: after)%list) d ns = parse_arguments t (before ++ after)%list d ns.
Proof.
  induction before as [|a before IH]; intros after d ns N NA O.
  - cbn [app map take]. destruct ns as [c da ca o th u]. cbn [output] in O. subst o. cbn [act String.eqb Ascii.eqb Bool.eqb].
    now apply take_acts.
  - cbn [app map take]. rewrite parse_act by (intros ->; apply (N "-"); now left).
    destruct (act t a d ns) as [f|[ns' d']] eqn:A; [reflexivity|]. apply IH; [|exact NA|].
    + intros p I. apply (N p). now right.
    + rewrite <- O. apply (act_output _ _ _ _ t a d ns ns' d'); [|exact A]. intros p ->. apply (N p). now left.
Qed.

Lemma main_stdout : forall (Text Row Inp Out : Type) (t : tools Text Row Inp Out) float_of before after ws d,
  spelled float_of (before ++ OutputFile "-" :: after)%list ws ->
  (forall p, ~ In (OutputFile p) before) -> ~ In (OutputFile "-") after ->
  main_words float_of t ws d = main t (before ++ after)%list d.
Proof.
  intros Text Row Inp Out t f before after ws d H N NA. destruct (steps_spelled f _ ws [] H) as (E & A).
  cbn [steps] in E. rewrite !app_nil_r in E. unfold main_words, main. rewrite A, E, take_stdout; auto.
Qed.

(** ** Help among foreign words *)
Definition same_but_aside (m n : namespace) : Prop :=
  config_file m = config_file n /\ data_file m = data_file n /\ calibration_data m = calibration_data n /\
  output m = output n /\ success_threshold m = success_threshold n.

Lemma act_aside : forall (Text Row Inp Out : Type) (t : tools Text Row Inp Out) a d m n, same_but_aside m n ->
  (exists f, act t a d m = inl f /\ act t a d n = inl f) \/
  (exists m' n' d', act t a d m = inr (m', d') /\ act t a d n = inr (n', d') /\ same_but_aside m' n').
Proof.
  intros Text Row Inp Out t a d [c da ca o th u] [c' da' ca' o' th' u'] (C & D & A & O & T).
  cbn in C, D, A, O, T. subst c' da' ca' o' th'. unfold same_but_aside.
  destruct a as [p|p|p|p| |dir|v|]; cbn [act].
  - destruct c; [right; do 3 eexists; repeat split|]. destruct (open_r d p); [right; do 3 eexists; repeat split|left; eauto].
  - destruct (open_r d p); [right; do 3 eexists; repeat split|left; eauto].
  - destruct (open_r d p); [right; do 3 eexists; repeat split|left; eauto].
  - destruct (String.eqb p "-"); [right; do 3 eexists; repeat split|].
    destruct (open_w t d p); [right; do 3 eexists; repeat split|left; eauto].
  - left; eauto.
  - left. destruct (generate_tutorial t d dir); eauto.
  - destruct (percentage v); [right; do 3 eexists; repeat split|left; eauto].
  - left; eauto.
Qed.

Lemma take_among : forall (Text Row Inp Out : Type) (t : tools Text Row Inp Out) fl argv ws a wa more, spelled_among fl argv ws ->
  argument_words fl a wa -> informs a -> ~ In (OutputFile "-") argv -> forall d m n, same_but_aside m n ->
  exists f, take t (steps fl (ws ++ wa ++ more)%list) d m = inl f /\ parse_arguments t (argv ++ [a])%list d n = inl f.
Proof.
  intros Text Row Inp Out t fl argv ws a wa more S W I. induction S as [|b argv ws ws' Wb S IH|w argv ws F S IH];
    intros N d m n E.
  - cbn [app]. destruct (steps_words fl a wa more W) as (-> & _). cbn [take]. rewrite parse_act.
    + destruct (act_aside _ _ _ _ t a d m n E) as [(f & -> & ->)|(m' & n' & d' & X & _)]; [eauto|].
      destruct (act_informs _ _ _ _ t a d m I) as (f & Y). congruence.
    + intros ->. destruct I as [X|[X|(? & X)]]; discriminate.
  - rewrite <- app_assoc. destruct (steps_words fl b ws (ws' ++ wa ++ more)%list Wb) as (-> & _). cbn [app take].
    rewrite parse_act by (intros ->; apply N; now left).
    destruct (act_aside _ _ _ _ t b d m n E) as [(f & -> & ->)|(m' & n' & d' & -> & -> & E')]; [eauto|].
    apply IH; [intros J; apply N; now right|exact E'].
  - cbn [app steps]. apply role_foreign in F. rewrite F. cbn [take]. destruct m as [c da ca o th u]. apply IH; [exact N|].
    exact E.
Qed.

Lemma among_not_ambiguous : forall fl argv ws, spelled_among fl argv ws -> existsb ambiguous ws = false.
Proof.
  intros fl argv ws S. induction S as [|b argv ws ws' Wb S IH|w argv ws F S IH]; [reflexivity| |].
  - rewrite existsb_app, IH. destruct (steps_words fl b ws [] Wb) as (_ & ->). reflexivity.
  - cbn [existsb]. rewrite IH. unfold ambiguous. apply role_foreign in F. now rewrite F.
Qed.

Lemma main_among : forall (Text Row Inp Out : Type) (t : tools Text Row Inp Out) float_of argv a ws wa more d,
  spelled_among float_of argv ws -> argument_words float_of a wa -> informs a -> ~ In (OutputFile "-") argv ->
  ~ In "--" more -> (forall w, In w more -> ~ begins_with "--=" w) ->
  main_words float_of t (ws ++ wa ++ more)%list d = main t (argv ++ [a])%list d.
Proof.
  intros Text Row Inp Out t fl argv a ws wa more d S W I N N2 Q. unfold main_words, main.
  rewrite !existsb_app, (among_not_ambiguous fl argv ws S), (not_ambiguous more N2 Q).
  destruct (steps_words fl a wa more W) as (_ & ->). cbn [orb].
  destruct (take_among _ _ _ _ t fl argv ws a wa more S W I N d (mkNamespace None None None None None false)
    (mkNamespace None None None None None false)) as (f & -> & ->); [repeat split|reflexivity].
Qed.

Lemma main_ambiguous : forall (Text Row Inp Out : Type) (t : tools Text Row Inp Out) float_of ws w d,
  In w ws -> begins_with "--=" w -> main_words float_of t ws d = exit 2 d [].
Proof.
  intros Text Row Inp Out t fl ws w d I B. unfold main_words.
  assert (E : existsb ambiguous ws = true).
  { apply existsb_exists. exists w. split; [exact I|]. unfold ambiguous. now rewrite (role_dashes w (or_intror B)). }
  now rewrite E.
Qed.
