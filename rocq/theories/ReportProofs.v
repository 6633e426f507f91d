(** Lemmas about texts. *)
From Coq Require Import String Ascii List ZArith Lra Lia.
From Verif Require Import Base BaseProofs MaterialModel Spec MaterialProofs InputModel MainModel MainSpec ReportModel ReportSpec.
Import ListNotations.
Open Scope string_scope.

Lemma str_assoc (a b c : string) : (a ++ b) ++ c = a ++ b ++ c.
Proof. induction a as [|x a IH]; [reflexivity|]. cbn. rewrite IH. reflexivity. Qed.
Lemma str_head (a b c : string) : a ++ b = a ++ c -> b = c.
Proof. induction a as [|x a IH]; [auto|]. cbn. intros H. injection H as H. auto. Qed.
Lemma str_nil (a : string) : a ++ "" = a.
Proof. induction a as [|x a IH]; [reflexivity|]. cbn. rewrite IH. reflexivity. Qed.
Lemma str_length (a b : string) : String.length (a ++ b) = (String.length a + String.length b)%nat.
Proof. induction a as [|x a IH]; [reflexivity|]. cbn. rewrite IH. reflexivity. Qed.

(** The first comma ends the number. *)
Lemma comma_free_tail c a : ~ contains "," (String c a) -> c <> ","%char /\ ~ contains "," a.
Proof.
  intros H. split.
  - intros ->. apply H. exists "", a. reflexivity.
  - intros (x & y & ->). apply H. exists (String c x), y. reflexivity.
Qed.
Lemma comma_split a a' b b' : ~ contains "," a -> ~ contains "," a' ->
  a ++ String ","%char b = a' ++ String ","%char b' -> a = a' /\ b = b'.
Proof.
  revert a'. induction a as [|c a IH]; intros [|c' a'] Na Na' H; cbn in H.
  - injection H as H. auto.
  - injection H as H _. apply comma_free_tail in Na'. destruct Na' as [X _]. congruence.
  - injection H as H _. apply comma_free_tail in Na. destruct Na as [X _]. congruence.
  - injection H as -> H. apply comma_free_tail in Na, Na'. destruct (IH a' (proj2 Na) (proj2 Na') H) as [-> ->]. auto.
Qed.
Lemma str_last a a' c : a ++ String c "" = a' ++ String c "" -> a = a'.
Proof.
  revert a'. induction a as [|x a IH]; intros [|x' a'] H; cbn in H.
  - reflexivity.
  - injection H as _ H. destruct a'; discriminate.
  - injection H as _ H. destruct a; discriminate.
  - injection H as -> H. rewrite (IH a' H). reflexivity.
Qed.

Lemma material_str_faithful show m m' : plain_numbers show -> material_str show m = material_str show m' -> m = m'.
Proof.
  intros [Inj N] H. unfold material_str in H. rewrite !str_assoc in H.
  apply str_head in H. apply str_head in H.
  cbn [append] in H. apply comma_split in H; [|apply N|apply N]. destruct H as [E1 H].
  cbn [append] in H. injection H as H. apply comma_split in H; [|apply N|apply N]. destruct H as [E2 H].
  cbn [append] in H. injection H as H. apply comma_split in H; [|apply N|apply N]. destruct H as [E3 H].
  cbn [append] in H. injection H as H. apply comma_split in H; [|apply N|apply N]. destruct H as [E4 H].
  cbn [append] in H. injection H as H. apply str_last in H.
  apply Inj in E1, E2, E3, E4, H. destruct m as [k mu d p s], m' as [k' mu' d' p' s']; cbn in *. subst. reflexivity.
Qed.

Open Scope R_scope.
Lemma rebuild_material ok os od ovs ovp m : mk_material ok os od ovs ovp = Ok m ->
  mk_material (Some (bulk m)) (Some (shear m)) (Some (dens m)) (Some (vs m)) (Some (vp m)) = Ok m.
Proof.
  unfold mk_material at 1. intros H. destruct (fill_moduli ok os od ovs ovp) as [[k mu]|e]; [|discriminate]. cbn [bind] in H.
  destruct od as [d|]; [|destruct ovp; [destruct ovs|]; discriminate].
  match type of H with (if ?b then _ else _) = _ => destruct b; [discriminate|] end.
  destruct (Rlt_dec d 0) as [A|A]; [discriminate|]. destruct (Rlt_dec k 0) as [B|B]; [discriminate|].
  destruct (Rlt_dec mu 0) as [C|C]; [discriminate|].
  destruct (fill_velocities k mu d ovs ovp) as [[p s]|e]; [|discriminate]. cbn [bind] in H.
  destruct (Rlt_dec p 0) as [D|D]; [discriminate|]. destruct (Rlt_dec s 0) as [E|E]; [discriminate|].
  destruct (Rlt_dec p (sqrt (4 / 3) * s)) as [F|F]; [discriminate|]. injection H as <-.
  unfold mk_material. cbn [fill_moduli bind bulk shear dens vs vp fill_velocities].
  destruct (Rlt_dec d 0); [contradiction|]. destruct (Rlt_dec k 0); [contradiction|]. destruct (Rlt_dec mu 0); [contradiction|].
  destruct (Rlt_dec p 0); [contradiction|]. destruct (Rlt_dec s 0); [contradiction|].
  destruct (Rlt_dec p (sqrt (4 / 3) * s)); [contradiction|]. reflexivity.
Qed.

(* ---- messages ---- *)
Lemma contains_mid a b c : contains b (a ++ b ++ c).
Proof. exists a, c. reflexivity. Qed.
Lemma contains_end a b : contains b (a ++ b).
Proof. exists a, ""%string. rewrite str_nil. reflexivity. Qed.
Lemma contains_app a b c : contains a b -> contains a (c ++ b).
Proof. intros (x & y & ->). exists (c ++ x)%string, y. rewrite str_assoc. reflexivity. Qed.
Lemma contains_length a b : contains a b -> (String.length a <= String.length b)%nat.
Proof. intros (x & y & ->). rewrite !str_length. lia. Qed.

Lemma yaml_text mark problem context :
  let t := printed (BadYaml (Some (mark, problem, context))) in
  contains mark t /\ contains problem t /\ forall c, context = Some c -> contains c t.
Proof.
  intros t. unfold t, printed, failure_text. destruct context as [c|].
  - split; [|split].
    + do 3 apply contains_app. apply (contains_mid "" mark).
    + do 5 apply contains_app. apply (contains_mid "" problem).
    + intros c' E. injection E as <-. do 6 apply contains_app. apply (contains_end newline c).
  - split; [|split].
    + do 4 apply contains_app. apply (contains_mid "" mark).
    + do 5 apply contains_app. apply (contains_end newline problem).
    + discriminate.
Qed.
Lemma parse_text text : contains text (printed (BadColumn text)) /\ contains text (printed (BadValue text)).
Proof. split; apply contains_app, contains_end. Qed.
Lemma csv_text text : printed (BadCsv text) = "Could not read input: Error while reading data file: {e}"%string.
Proof. reflexivity. Qed.
Lemma csv_text_lost : exists text, ~ contains text (printed (BadCsv text)).
Proof.
  exists "Error tokenizing data. C error: Expected 3 fields in line 4, saw 5"%string. intros H.
  apply contains_length in H. cbn in H. lia.
Qed.

(* ---- takes_stream ---- *)
Section Call.
Context {Stream Row Inp : Type} (opening : string -> out Stream) (load_stream : Stream -> out value)
  (load_text : string -> out value) (read_stream : Stream -> out (list Row)) (read_name : string -> out (list Row))
  (parse : list (string * value) -> option (list Row) -> out Inp).
Let call := make_input_call opening load_stream load_text read_stream read_name parse.

Lemma by_position s b :
  call [Name s; b] [] = then_ (opening s) (fun f => call [Opened f; b] []) /\
  call [Name s] [("data_file"%string, b)] = then_ (opening s) (fun f => call [Opened f] [("data_file"%string, b)]) /\
  (forall f, call [Opened f] [("data_file"%string, b)] = call [Opened f; b] []).
Proof. repeat split. Qed.
Lemma by_keyword f b :
  call [] [("config_file"%string, Opened f); ("data_file"%string, b)] = call [Opened f; b] [].
Proof. reflexivity. Qed.
Lemma name_by_keyword s b : (forall items, load_text s <> Ret (VDict items)) -> (forall e, load_text s <> Raise e) ->
  call [] [("config_file"%string, Name s); ("data_file"%string, b)] = Raise InputError.
Proof.
  intros H H'. unfold call, make_input_call, takes_stream, bind_two, make_input_on, make_input, load_config_from_yaml.
  cbn -[load_data_from_csv then_ try_]. cbn [yaml_load].
  destruct (load_text s) as [v|e]; [|exfalso; apply (H' e); reflexivity]. cbn [try_ then_].
  destruct v; try reflexivity. exfalso. eapply H. reflexivity.
Qed.
End Call.
