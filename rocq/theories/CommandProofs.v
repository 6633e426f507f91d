From Coq Require Import String List ZArith Lia Lra Bool.
From Verif Require Import Base InputModel MainModel MainSpec MainProofs CommandModel CommandSpec.
Import ListNotations.
Open Scope R_scope.

Section Command.
Context {Text Row Inp Out : Type} (t : tools Text Row Inp Out).
Implicit Types (argv : list argument) (d : disk Text).

Lemma set_same d p e : set d p e p = Some e.
Proof. unfold set. rewrite String.eqb_refl. reflexivity. Qed.
Lemma set_other d p e q : q <> p -> set d p e q = d q.
Proof. intros N. unfold set. apply String.eqb_neq in N. rewrite N. reflexivity. Qed.

(** ** What a command line that reaches the run has been read as *)

Definition from {A} (k : A -> argument) argv (init v : option A) : Prop :=
  (exists a before after, v = Some a /\ argv = (before ++ k a :: after)%list /\ forall b, ~ In (k b) after)
  \/ (v = init /\ forall a, ~ In (k a) argv).

Lemma from_chosen {A} (k : A -> argument) argv v : from k argv None v -> chosen k argv v.
Proof.
  intros [(a & b & af & -> & E & N)|[-> N]]; [exists b, af; split; assumption|exact N].
Qed.

Lemma from_skip {A} (k : A -> argument) x argv init v :
  (forall a, x <> k a) -> from k argv init v -> from k (x :: argv) init v.
Proof.
  intros X [(a & b & af & E & -> & N)|[-> N]].
  - left. exists a, (x :: b)%list, af. repeat split; assumption.
  - right. split; [reflexivity|]. intros a [E|I]; [exact (X a E)|exact (N a I)].
Qed.

Lemma from_take {A} (k : A -> argument) a argv init v :
  from k argv (Some a) v -> from k (k a :: argv) init v.
Proof.
  intros [(a' & b & af & E & -> & N)|[-> N]].
  - left. exists a', (k a :: b)%list, af. repeat split; assumption.
  - left. exists a, nil, argv. repeat split. exact N.
Qed.

Definition config_from argv (init : option string) (c : string) : Prop :=
  (init = Some c /\ forall x, ~ In (Config x) argv) \/ (init = None /\ configured argv c).

Lemma config_skip x argv init c :
  (forall p, x <> Config p) -> config_from argv init c -> config_from (x :: argv) init c.
Proof.
  intros X [[-> N]|[-> (b & a & -> & N)]].
  - left. split; [reflexivity|]. intros p [E|I]; [exact (X p E)|exact (N p I)].
  - right. split; [reflexivity|]. exists (x :: b)%list, a. split; [reflexivity|].
    intros p [E|I]; [exact (X p E)|exact (N p I)].
Qed.

Lemma percentage_finite v x : percentage v = Some x -> v = Finite x.
Proof.
  destruct v as [y| | | |]; cbn [percentage]; try discriminate.
  destruct (Rle_dec 0 y); [|discriminate]. destruct (Rle_dec y 100); [|discriminate].
  intros [= ->]. reflexivity.
Qed.

Lemma parse_unrecognized argv : forall d c da ca o th ns d',
  parse_arguments t argv d (mkNamespace c da ca o th true) <> inr (ns, d').
Proof.
  induction argv as [|x argv IH]; intros d c da ca o th ns d' E; cbn [parse_arguments] in E.
  - destruct c; discriminate E.
  - destruct x; try discriminate E.
    + destruct c; [exact (IH _ _ _ _ _ _ _ _ E)|].
      destruct (open_r d path); [exact (IH _ _ _ _ _ _ _ _ E)|discriminate E].
    + destruct (open_r d path); [exact (IH _ _ _ _ _ _ _ _ E)|discriminate E].
    + destruct (open_r d path); [exact (IH _ _ _ _ _ _ _ _ E)|discriminate E].
    + destruct (open_w t d path); [exact (IH _ _ _ _ _ _ _ _ E)|discriminate E].
    + destruct (generate_tutorial t d directory); discriminate E.
    + destruct (percentage v); [exact (IH _ _ _ _ _ _ _ _ E)|discriminate E].
Qed.

Lemma open_w_is d p d' : open_w t d p = Some d' ->
  d' = set d p (File (blank t)) /\ d p <> Some Folder /\ may_write t p = true.
Proof.
  unfold open_w. intros E.
  destruct (d p) as [[x|]|]; [|discriminate E|]; destruct (may_write t p); try discriminate E;
    injection E as <-; (split; [reflexivity|split; [discriminate|reflexivity]]).
Qed.

Lemma parse_config_once argv : forall d c da ca o th u ns d',
  parse_arguments t argv d (mkNamespace (Some c) da ca o th u) = inr (ns, d') ->
  forall x, ~ In (Config x) argv.
Proof.
  induction argv as [|x argv IH]; intros d c da ca o th u ns d' E q; cbn [parse_arguments] in E; [intros []|].
  destruct x; try discriminate E.
  - exfalso. exact (parse_unrecognized _ _ _ _ _ _ _ _ _ E).
  - destruct (open_r d path); [|discriminate E]. intros [X|X]; [discriminate X|exact (IH _ _ _ _ _ _ _ _ _ E q X)].
  - destruct (open_r d path); [|discriminate E]. intros [X|X]; [discriminate X|exact (IH _ _ _ _ _ _ _ _ _ E q X)].
  - destruct (open_w t d path); [|discriminate E]. intros [X|X]; [discriminate X|exact (IH _ _ _ _ _ _ _ _ _ E q X)].
  - destruct (generate_tutorial t d directory); discriminate E.
  - destruct (percentage v); [|discriminate E]. intros [X|X]; [discriminate X|exact (IH _ _ _ _ _ _ _ _ _ E q X)].
Qed.

Definition emptied argv d d' : Prop := forall p,
  (In (OutputFile p) argv -> d' p = Some (File (blank t))) /\ (~ In (OutputFile p) argv -> d' p = d p).

Lemma emptied_skip x argv d d' : (forall p, x <> OutputFile p) -> emptied argv d d' -> emptied (x :: argv) d d'.
Proof.
  intros X H p. destruct (H p) as [Y N]. split.
  - intros [E|I]; [exfalso; exact (X p E)|exact (Y I)].
  - intros I. apply N. intros J. apply I. right. exact J.
Qed.

Lemma argument_output_dec p argv : {In (OutputFile p) argv} + {~ In (OutputFile p) argv}.
Proof.
  induction argv as [|x argv [I|N]]; [right; intros []|left; right; exact I|].
  destruct x as [ | | |q| | | |];
    try (right; intros [E|I]; [discriminate E|exact (N I)]).
  destruct (string_dec q p) as [->|D]; [left; left; reflexivity|].
  right. intros [E|I]; [injection E as E; exact (D E)|exact (N I)].
Qed.

Lemma emptied_take q argv d d' :
  emptied argv (set d q (File (blank t))) d' -> emptied (OutputFile q :: argv) d d'.
Proof.
  intros H p. destruct (H p) as [Y N]. split.
  - intros [E|I]; [|exact (Y I)]. injection E as ->.
    destruct (argument_output_dec p argv) as [I|J]; [exact (Y I)|]. rewrite (N J). apply set_same.
  - intros I. rewrite N; [|intros J; apply I; right; exact J].
    apply set_other. intros ->. apply I. left. reflexivity.
Qed.

Lemma parse_inv argv : forall d c da ca o th u ns d',
  parse_arguments t argv d (mkNamespace c da ca o th u) = inr (ns, d') ->
  asks_for_run argv /\
  (exists f, config_file ns = Some f /\ config_from argv c f) /\
  from DataFile argv da (data_file ns) /\
  from Calibration argv ca (calibration_data ns) /\
  from OutputFile argv o (output ns) /\
  from threshold_argument argv th (success_threshold ns) /\
  emptied argv d d'.
Proof.
  induction argv as [|x argv IH]; intros d c da ca o th u ns d' E.
  { cbn [parse_arguments] in E. destruct c as [f|]; [|destruct u; discriminate E]. destruct u; [discriminate E|].
    injection E as <- <-. cbn.
    split; [split; [intros []|split; [intros []|intros dir []]]|].
    split; [exists f; split; [reflexivity|left; split; [reflexivity|intros q []]]|].
    split; [right; split; [reflexivity|intros q []]|].
    split; [right; split; [reflexivity|intros q []]|].
    split; [right; split; [reflexivity|intros q []]|].
    split; [right; split; [reflexivity|intros q []]|].
    intros p. split; [intros []|reflexivity]. }
  assert (A : forall x, asks_for_run argv -> x <> Version -> x <> Help -> (forall dir, x <> GenerateTutorial dir) ->
              asks_for_run (x :: argv)).
  { intros y (V & H & G) y1 y2 y3. split; [|split].
    - intros [X|X]; [exact (y1 X)|exact (V X)].
    - intros [X|X]; [exact (y2 X)|exact (H X)].
    - intros dir [X|X]; [exact (y3 dir X)|exact (G dir X)]. }
  cbn [parse_arguments] in E.
  destruct x as [path|path|path|path| |dir|v|].
  - destruct c as [c|]; [exfalso; exact (parse_unrecognized _ _ _ _ _ _ _ _ _ E)|].
    destruct (open_r d path); [|discriminate E].
    pose proof (parse_config_once _ _ _ _ _ _ _ _ _ _ E) as Once.
    destruct (IH _ _ _ _ _ _ _ _ _ E) as (H1 & (f & F & H2) & H3 & H4 & H5 & H6 & H7).
    split; [apply A; [exact H1|discriminate|discriminate|discriminate]|].
    split; [exists f; split; [exact F|]|].
    { destruct H2 as [[X N]|[X _]]; [|discriminate X]. injection X as ->. right. split; [reflexivity|].
      exists nil, argv. split; [reflexivity|exact N]. }
    split; [apply from_skip; [discriminate|exact H3]|].
    split; [apply from_skip; [discriminate|exact H4]|].
    split; [apply from_skip; [discriminate|exact H5]|].
    split; [apply from_skip; [discriminate|exact H6]|].
    apply emptied_skip; [discriminate|exact H7].
  - destruct (open_r d path); [|discriminate E].
    destruct (IH _ _ _ _ _ _ _ _ _ E) as (H1 & (f & F & H2) & H3 & H4 & H5 & H6 & H7).
    split; [apply A; [exact H1|discriminate|discriminate|discriminate]|].
    split; [exists f; split; [exact F|apply config_skip; [discriminate|exact H2]]|].
    split; [apply from_take; exact H3|].
    split; [apply from_skip; [discriminate|exact H4]|].
    split; [apply from_skip; [discriminate|exact H5]|].
    split; [apply from_skip; [discriminate|exact H6]|].
    apply emptied_skip; [discriminate|exact H7].
  - destruct (open_r d path); [|discriminate E].
    destruct (IH _ _ _ _ _ _ _ _ _ E) as (H1 & (f & F & H2) & H3 & H4 & H5 & H6 & H7).
    split; [apply A; [exact H1|discriminate|discriminate|discriminate]|].
    split; [exists f; split; [exact F|apply config_skip; [discriminate|exact H2]]|].
    split; [apply from_skip; [discriminate|exact H3]|].
    split; [apply from_take; exact H4|].
    split; [apply from_skip; [discriminate|exact H5]|].
    split; [apply from_skip; [discriminate|exact H6]|].
    apply emptied_skip; [discriminate|exact H7].
  - destruct (open_w t d path) as [d1|] eqn:W; [|discriminate E].
    apply open_w_is in W. destruct W as (-> & _).
    destruct (IH _ _ _ _ _ _ _ _ _ E) as (H1 & (f & F & H2) & H3 & H4 & H5 & H6 & H7).
    split; [apply A; [exact H1|discriminate|discriminate|discriminate]|].
    split; [exists f; split; [exact F|apply config_skip; [discriminate|exact H2]]|].
    split; [apply from_skip; [discriminate|exact H3]|].
    split; [apply from_skip; [discriminate|exact H4]|].
    split; [apply from_take; exact H5|].
    split; [apply from_skip; [discriminate|exact H6]|].
    apply emptied_take; exact H7.
  - discriminate E.
  - destruct (generate_tutorial t d dir); discriminate E.
  - destruct (percentage v) as [y|] eqn:P; [|discriminate E].
    apply percentage_finite in P. subst v.
    destruct (IH _ _ _ _ _ _ _ _ _ E) as (H1 & (f & F & H2) & H3 & H4 & H5 & H6 & H7).
    split; [apply A; [exact H1|discriminate|discriminate|discriminate]|].
    split; [exists f; split; [exact F|apply config_skip; [discriminate|exact H2]]|].
    split; [apply from_skip; [discriminate|exact H3]|].
    split; [apply from_skip; [discriminate|exact H4]|].
    split; [apply from_skip; [discriminate|exact H5]|].
    split; [exact (from_take threshold_argument y argv th _ H6)|].
    apply emptied_skip; [discriminate|exact H7].
  - discriminate E.
Qed.


(** ** A command line without mistakes reaches the run *)

Lemma open_r_file d p x : d p = Some (File x) -> open_r d p = true.
Proof. unfold open_r. intros ->. reflexivity. Qed.

Lemma parse_ok argv : forall d c da ca o th,
  asks_for_run argv ->
  (match c with Some _ => forall x, ~ In (Config x) argv | None => exists f, configured argv f end) ->
  (forall p, In (Config p) argv \/ In (DataFile p) argv \/ In (Calibration p) argv -> exists x, d p = Some (File x)) ->
  (forall p, In (OutputFile p) argv -> d p <> Some Folder /\ may_write t p = true) ->
  (forall v, In (SuccessThreshold v) argv -> exists x, v = Finite x /\ 0 <= x <= 100) ->
  exists ns d', parse_arguments t argv d (mkNamespace c da ca o th false) = inr (ns, d').
Proof.
  induction argv as [|x argv IH]; intros d c da ca o th (V & H & G) C F W T.
  { destruct c as [c|]; [cbn; eexists; eexists; reflexivity|].
    destruct C as (f & b & a & E & _). destruct b; discriminate E. }
  assert (A' : asks_for_run argv).
  { split; [|split]; [intros X; apply V|intros X; apply H|intros dir X; apply (G dir)]; right; exact X. }
  assert (F' : forall p, In (Config p) argv \/ In (DataFile p) argv \/ In (Calibration p) argv -> exists x, d p = Some (File x)).
  { intros p I. apply F. destruct I as [I|[I|I]]; [left|right; left|right; right]; right; exact I. }
  assert (W' : forall p, In (OutputFile p) argv -> d p <> Some Folder /\ may_write t p = true).
  { intros p I. apply W. right. exact I. }
  assert (T' : forall v, In (SuccessThreshold v) argv -> exists x, v = Finite x /\ 0 <= x <= 100).
  { intros p I. apply T. right. exact I. }
  assert (C' : (forall p, x <> Config p) ->
     match c with Some _ => forall x, ~ In (Config x) argv | None => exists f, configured argv f end).
  { intros X. destruct c as [c|]; [intros q I; apply (C q); right; exact I|].
    destruct C as (f & b & a & E & N). destruct b as [|y b].
    - injection E as -> ->. exfalso. exact (X f eq_refl).
    - injection E as -> ->. exists f, b, a. split; [reflexivity|]. intros q I. apply (N q). right. exact I. }
  cbn [parse_arguments]. destruct x as [path|path|path|path| |dir|v|].
  - destruct c as [c|]; [exfalso; apply (C path); left; reflexivity|].
    destruct (F path) as [y Y]; [left; left; reflexivity|].
    rewrite (open_r_file _ _ _ Y). apply IH; try assumption.
    intros q I. destruct C as (f & b & a & E & N). destruct b as [|z b].
    + injection E as -> ->. exact (N q I).
    + injection E as <- ->. exfalso. apply (N path). left. reflexivity.
  - destruct (F path) as [y Y]; [right; left; left; reflexivity|].
    rewrite (open_r_file _ _ _ Y). apply IH; try assumption. apply C'. discriminate.
  - destruct (F path) as [y Y]; [right; right; left; reflexivity|].
    rewrite (open_r_file _ _ _ Y). apply IH; try assumption. apply C'. discriminate.
  - destruct (W path) as [N M]; [left; reflexivity|].
    assert (O : open_w t d path = Some (set d path (File (blank t)))).
    { unfold open_w. rewrite M. destruct (d path) as [[y|]|]; try reflexivity. exfalso; apply N; reflexivity. }
    rewrite O. apply IH; try assumption.
    + apply C'. discriminate.
    + intros p I. destruct (string_dec p path) as [->|D].
      * exists (blank t). apply set_same.
      * rewrite (set_other _ _ _ _ D). exact (F' p I).
    + intros p I. destruct (string_dec p path) as [->|D].
      * rewrite set_same. split; [discriminate|exact M].
      * rewrite (set_other _ _ _ _ D). exact (W' p I).
  - exfalso. apply V. left. reflexivity.
  - exfalso. apply (G dir). left. reflexivity.
  - destruct (T v) as (y & -> & Y); [left; reflexivity|].
    assert (P : percentage (Finite y) = Some y).
    { cbn [percentage]. destruct (Rle_dec 0 y); [|lra]. destruct (Rle_dec y 100); [reflexivity|lra]. }
    rewrite P. apply IH; try assumption. apply C'. discriminate.
  - exfalso. apply H. left. reflexivity.
Qed.

Definition start : namespace := mkNamespace None None None None None false.

Lemma main_reaches argv d : correct t argv d ->
  exists ns d', parse_arguments t argv d start = inr (ns, d') /\ main t argv d = execute t ns d'.
Proof.
  intros (A & C & F & W & T).
  destruct (parse_ok argv d None None None None None A C F W T) as (ns & d' & E).
  exists ns, d'. split; [exact E|]. unfold main. rewrite E. reflexivity.
Qed.

Definition options_of (ns : namespace) : options :=
  mkOptions (match config_file ns with Some p => p | None => ""%string end)
    (data_file ns) (calibration_data ns) (output ns) (success_threshold ns).

Lemma parsed argv d ns d' : parse_arguments t argv d start = inr (ns, d') ->
  asks_for_run argv /\ has_options argv (options_of ns) /\ emptied argv d d'.
Proof.
  intros E. destruct (parse_inv _ _ _ _ _ _ _ _ _ _ E) as (H1 & (f & F & H2) & H3 & H4 & H5 & H6 & H7).
  split; [exact H1|]. split; [|exact H7].
  split; [cbn; rewrite F; destruct H2 as [[X _]|[_ H2]]; [discriminate X|exact H2]|].
  split; [apply from_chosen; exact H3|].
  split; [apply from_chosen; exact H4|].
  split; [apply from_chosen; exact H5|apply from_chosen; exact H6].
Qed.

(** Options are determined by the command line. *)
Lemma chosen_unique {A} (k : A -> argument) (inj : forall a b, k a = k b -> a = b) argv v w :
  chosen k argv v -> chosen k argv w -> v = w.
Proof.
  destruct v as [a|], w as [b|]; cbn [chosen]; [| | |reflexivity].
  - intros (b1 & a1 & -> & N1) (b2 & a2 & E & N2). f_equal.
    revert b2 E N2. induction b1 as [|x b1 IH]; intros [|y b2] E N2.
    + injection E as E _. exact (inj _ _ E).
    + injection E as <- E. exfalso. apply (N1 b). rewrite E. apply in_or_app. right. left. reflexivity.
    + injection E as -> E. exfalso. apply (N2 a). rewrite <- E. apply in_or_app. right. left. reflexivity.
    + injection E as -> E. exact (IH b2 E N2).
  - intros (b1 & a1 & -> & _) N. exfalso. apply (N a). apply in_or_app. right. left. reflexivity.
  - intros N (b1 & a1 & -> & _). exfalso. apply (N b). apply in_or_app. right. left. reflexivity.
Qed.

Lemma configured_unique argv c c' : configured argv c -> configured argv c' -> c = c'.
Proof.
  intros (b1 & a1 & -> & N1) (b2 & a2 & E & _).
  assert (I : In (Config c') (b1 ++ Config c :: a1)) by (rewrite E; apply in_or_app; right; left; reflexivity).
  apply in_app_or in I. destruct I as [I|[I|I]].
  - exfalso. apply (N1 c'). apply in_or_app. left. exact I.
  - injection I as I. exact I.
  - exfalso. apply (N1 c'). apply in_or_app. right. exact I.
Qed.

Lemma options_unique argv o o' : has_options argv o -> has_options argv o' -> o = o'.
Proof.
  destruct o as [c da ca ou th], o' as [c' da' ca' ou' th'].
  intros (H1 & H2 & H3 & H4 & H5) (K1 & K2 & K3 & K4 & K5). cbn in *.
  rewrite (configured_unique _ _ _ H1 K1).
  rewrite (chosen_unique DataFile ltac:(intros ? ? [= E]; exact E) _ _ _ H2 K2).
  rewrite (chosen_unique Calibration ltac:(intros ? ? [= E]; exact E) _ _ _ H3 K3).
  rewrite (chosen_unique OutputFile ltac:(intros ? ? [= E]; exact E) _ _ _ H4 K4).
  rewrite (chosen_unique threshold_argument ltac:(intros ? ? [= E]; exact E) _ _ _ H5 K5).
  reflexivity.
Qed.

Lemma configured_in argv c : configured argv c -> In (Config c) argv.
Proof. intros (b & a & -> & _). apply in_or_app. right. left. reflexivity. Qed.
Lemma chosen_in {A} (k : A -> argument) argv a : chosen k argv (Some a) -> In (k a) argv.
Proof. intros (b & af & -> & _). apply in_or_app. right. left. reflexivity. Qed.

Lemma text_read argv d d' p : emptied argv d d' -> (exists x, d p = Some (File x)) -> reads_text t argv d p (text t d' p).
Proof.
  intros E [x X]. destruct (E p) as [Y N]. split.
  - intros I. unfold text. rewrite (Y I). reflexivity.
  - intros I. unfold text. rewrite (N I), X. reflexivity.
Qed.

(** The program the model runs is the one [runs] describes. *)
Lemma program_runs argv d ns d' : correct t argv d -> parse_arguments t argv d start = inr (ns, d') ->
  runs t argv d (options_of ns) (program_of t ns d').
Proof.
  intros (_ & _ & F & _) P. destruct (parsed _ _ _ _ P) as (_ & (H1 & H2 & H3 & H4 & _) & E).
  unfold runs, program_of. cbn [the_config the_data the_calibration the_output options_of
    yaml_load csv_read parse calculate write compare] in *.
  split; [|split; [|split; [reflexivity|split; [reflexivity|split; [reflexivity|]]]]].
  - eexists. split; [|reflexivity]. apply text_read; [exact E|]. apply F. left. exact (configured_in _ _ H1).
  - destruct (data_file ns) as [f|]; [|reflexivity]. cbn [option_map].
    eexists. split; [|reflexivity]. apply text_read; [exact E|]. apply F. right. left. exact (chosen_in _ _ _ H2).
  - destruct (calibration_data ns) as [f|]; [|reflexivity]. cbn [option_map].
    eexists. split; [reflexivity|]. split.
    + intros O r. rewrite O. cbn [written fst]. unfold text at 1. rewrite set_same. reflexivity.
    + intros O. exists (text t d' f). split.
      * apply text_read; [exact E|]. apply F. right. right. exact (chosen_in _ _ _ H3).
      * intros r. destruct (output ns) as [q|]; [|reflexivity]. cbn [written fst].
        unfold text at 1. rewrite set_other; [reflexivity|]. intros ->. apply O. reflexivity.
Qed.

(** Two programs the description fits run alike. *)
Lemma run_alike (p q : program Row Inp Out) th :
  yaml_load p = yaml_load q -> csv_read p = csv_read q -> parse p = parse q -> calculate p = calculate q ->
  (forall r, write p r = write q r) ->
  match compare p, compare q with Some f, Some g => forall r, f r = g r | None, None => True | _, _ => False end ->
  run p th = run q th.
Proof.
  destruct p as [y c pa ca w co], q as [y' c' pa' ca' w' co']. cbn. intros -> -> -> -> Hw Hc.
  set (p := mkProgram _ _ _ y' c' pa' ca' w co). set (q := mkProgram _ _ _ y' c' pa' ca' w' co').
  assert (K : forall r, calibrate_and_exit p r = calibrate_and_exit q r).
  { intros r. unfold calibrate_and_exit, p, q. cbn [compare].
    destruct co as [f|], co' as [g|]; try contradiction; [|reflexivity]. rewrite Hc. reflexivity. }
  assert (M : make_input p = make_input q) by reflexivity.
  assert (L : make_per_row_input p = make_per_row_input q) by reflexivity.
  assert (CR : forall l, calculate_rows p l = calculate_rows q l).
  { induction l as [|i l IH]; [reflexivity|]. cbn [calculate_rows]. rewrite IH. reflexivity. }
  unfold run. destruct th as [th|].
  - unfold run_with_threshold. rewrite <- L. cbn [csv_read p q]. destruct c' as [c'|]; [|reflexivity].
    destruct (make_per_row_input p) as [inputs|e]; [|reflexivity]. cbn [then_]. rewrite CR.
    destruct (calculate_rows q inputs) as [results failures].
    destruct (Rlt_dec _ _); [reflexivity|]. destruct (pd_concat results) as [r|e]; [|reflexivity]. cbn [then_].
    unfold p, q. cbn [write]. rewrite Hw. destruct (w' r); [|reflexivity]. cbn [then_]. fold p q. rewrite K. reflexivity.
  - rewrite <- M. destruct (make_input p) as [inp|e]; [|reflexivity].
    unfold p, q. cbn [calculate write]. destruct (ca' inp) as [r|e]; [|reflexivity].
    rewrite Hw. destruct (w' r); [|reflexivity]. fold p q. rewrite K. reflexivity.
Qed.

Lemma reads_text_unique argv d p x y : reads_text t argv d p x -> reads_text t argv d p y -> x = y.
Proof.
  intros [A B] [C D]. destruct (argument_output_dec p argv) as [I|N].
  - rewrite (A I), (C I). reflexivity.
  - specialize (B N). rewrite (D N) in B. injection B as ->. reflexivity.
Qed.

Lemma runs_alike argv d o p q th : runs t argv d o p -> runs t argv d o q -> run p th = run q th.
Proof.
  intros ((x & X & Y) & D & P & C & W & K) ((x' & X' & Y') & D' & P' & C' & W' & K').
  rewrite <- (reads_text_unique _ _ _ _ _ X X') in Y'. apply run_alike.
  - rewrite Y, Y'. reflexivity.
  - destruct (the_data o) as [f|].
    + destruct D as (z & Z & ->), D' as (z' & Z' & ->). rewrite (reads_text_unique _ _ _ _ _ Z Z'). reflexivity.
    + rewrite D, D'. reflexivity.
  - rewrite P, P'. reflexivity.
  - rewrite C, C'. reflexivity.
  - intros r. rewrite W, W'. reflexivity.
  - destruct (the_calibration o) as [f|].
    + destruct K as (b & -> & K1 & K2), K' as (b' & -> & K1' & K2'). intros r.
      assert (Dec : {the_output o = Some f} + {the_output o <> Some f}).
      { destruct (the_output o) as [g|]; [|right; discriminate].
        destruct (string_dec g f) as [->|N]; [left; reflexivity|right; intros [= E]; exact (N E)]. }
      destruct Dec as [O|N]; [rewrite (K1 O), (K1' O); reflexivity|].
      destruct (K2 N) as (z & Z & Zr), (K2' N) as (z' & Z' & Zr').
      rewrite Zr, Zr', (reads_text_unique _ _ _ _ _ Z Z'). reflexivity.
    + rewrite K, K'. exact I.
Qed.

(** ** Theorems *)

(** What the process leaves: status and files. *)
Lemma main_is_run argv d o p : correct t argv d -> has_options argv o -> runs t argv d o p ->
  match run p (the_threshold o) with
  | Raise _ =>
      status (main t argv d) = 1%Z /\ emptied argv d (files (main t argv d))
  | Ret (code, w) =>
      status (main t argv d) = (code mod 256)%Z /\
      (forall q, the_output o <> Some q ->
         (In (OutputFile q) argv -> files (main t argv d) q = Some (File (blank t))) /\
         (~ In (OutputFile q) argv -> files (main t argv d) q = d q)) /\
      (forall q, the_output o = Some q ->
         files (main t argv d) q = Some (File (match w with Some r => to_csv t r | None => blank t end)))
  end.
Proof.
  intros C O R. destruct (main_reaches _ _ C) as (ns & d' & P & ->).
  pose proof (program_runs _ _ _ _ C P) as R'. destruct (parsed _ _ _ _ P) as (_ & O' & E).
  pose proof (options_unique _ _ _ O O') as ->. cbn [the_threshold the_output options_of] in *.
  rewrite (runs_alike _ _ _ _ _ (success_threshold ns) R R').
  unfold execute. destruct (run (program_of t ns d') (success_threshold ns)) as [[code w]|e].
  - destruct w as [r|].
    + destruct (output ns) as [q0|] eqn:Q; cbn [written exit status files];
        (split; [reflexivity|]); split.
      * intros q N. destruct (E q) as [Y Z].
        assert (D : q <> q0) by (intros ->; apply N; reflexivity).
        split; intros I; rewrite (set_other _ _ _ _ D); [exact (Y I)|exact (Z I)].
      * intros q [= ->]. apply set_same.
      * intros q _. exact (E q).
      * discriminate.
    + cbn [exit status files]. split; [reflexivity|]. split; [intros q _; exact (E q)|].
      intros q Q. destruct (E q) as [Y _]. apply Y.
      destruct O' as (_ & _ & _ & O' & _). cbn [the_output options_of] in O'. rewrite Q in O'. exact (chosen_in _ _ _ O').
  - cbn [exit status files]. split; [reflexivity|exact E].
Qed.

Lemma runs_exists argv d o : correct t argv d -> has_options argv o -> exists p, runs t argv d o p.
Proof.
  intros C O. destruct (main_reaches _ _ C) as (ns & d' & P & _).
  destruct (parsed _ _ _ _ P) as (_ & O' & _). rewrite (options_unique _ _ _ O O').
  exists (program_of t ns d'). exact (program_runs _ _ _ _ C P).
Qed.

Lemma options_exist argv d : correct t argv d -> exists o, has_options argv o.
Proof.
  intros C. destruct (main_reaches _ _ C) as (ns & d' & P & _).
  destruct (parsed _ _ _ _ P) as (_ & O & _). exists (options_of ns). exact O.
Qed.

(** Only files named as output, and a new tutorial directory, change. *)
Lemma tutorial_files dir fs d p : ~ inside dir p ->
  fold_left (fun d f => set d (dir ++ "/" ++ fst f)%string (File (snd f))) fs d p = d p.
Proof.
  intros N. revert d. induction fs as [|f fs IH]; intros d; [reflexivity|].
  cbn [fold_left]. rewrite IH. apply set_other. intros ->. apply N. right. exists (fst f). reflexivity.
Qed.

Lemma generate_elsewhere d dir d' p : generate_tutorial t d dir = Some d' -> ~ inside dir p -> d' p = d p.
Proof.
  unfold generate_tutorial. intros E N. destruct (d dir); [discriminate E|].
  destruct (may_make t dir); [|discriminate E]. injection E as <-.
  rewrite tutorial_files; [|exact N]. apply set_other. intros ->. apply N. left. reflexivity.
Qed.

Lemma execute_elsewhere ns d p : output ns <> Some p -> files (execute t ns d) p = d p.
Proof.
  intros N. unfold execute. destruct (run _ _) as [[code [r|]]|e]; [|reflexivity|reflexivity].
  destruct (output ns) as [q|]; [|reflexivity]. cbn [written exit files].
  apply set_other. intros ->. apply N. reflexivity.
Qed.

Lemma parse_elsewhere argv : forall d ns p,
  ~ In (OutputFile p) argv -> (forall dir, In (GenerateTutorial dir) argv -> ~ inside dir p) ->
  output ns <> Some p ->
  match parse_arguments t argv d ns with
  | inl f => files f p = d p
  | inr (ns', d') => d' p = d p /\ output ns' <> Some p
  end.
Proof.
  induction argv as [|x argv IH]; intros d [c da ca o th u] p N G O; cbn [output] in O; cbn [parse_arguments].
  { destruct c as [f|]; [destruct u|]; cbn [exit files]; try reflexivity. split; [reflexivity|exact O]. }
  assert (N' : ~ In (OutputFile p) argv) by (intros I; apply N; right; exact I).
  assert (G' : forall dir, In (GenerateTutorial dir) argv -> ~ inside dir p) by (intros dir I; apply G; right; exact I).
  destruct x as [path|path|path|path| |dir|v|].
  - destruct c; [apply IH; assumption|]. destruct (open_r d path); [apply IH; assumption|reflexivity].
  - destruct (open_r d path); [apply IH; assumption|reflexivity].
  - destruct (open_r d path); [apply IH; assumption|reflexivity].
  - destruct (open_w t d path) as [d1|] eqn:W; [|reflexivity].
    apply open_w_is in W. destruct W as (-> & _).
    assert (D : p <> path) by (intros ->; apply N; left; reflexivity).
    specialize (IH (set d path (File (blank t))) (mkNamespace c da ca (Some path) th u) p N' G').
    cbn [output] in IH. rewrite (set_other _ _ _ _ D) in IH. apply IH. intros [= E]. exact (D (eq_sym E)).
  - reflexivity.
  - destruct (generate_tutorial t d dir) as [d1|] eqn:E; [|reflexivity].
    cbn [exit files]. apply (generate_elsewhere _ _ _ _ E). apply G. left. reflexivity.
  - destruct (percentage v); [apply IH; assumption|reflexivity].
  - reflexivity.
Qed.

Lemma only_named_files argv d p :
  ~ In (OutputFile p) argv -> (forall dir, In (GenerateTutorial dir) argv -> ~ inside dir p) ->
  files (main t argv d) p = d p.
Proof.
  intros N G. unfold main. fold start. pose proof (parse_elsewhere argv d start p N G ltac:(discriminate)) as H.
  destruct (parse_arguments t argv d start) as [f|[ns d']]; [exact H|].
  destruct H as [H O]. rewrite <- H. apply execute_elsewhere. exact O.
Qed.


(** ** Exit statuses *)

Lemma run_codes (p : program Row Inp Out) th c w : run p th = Ret (c, w) ->
  (c = 0%Z /\ exists r, w = Some r) \/ (-5 <= c <= -1)%Z.
Proof.
  unfold run. intros E. destruct th as [th|].
  - unfold run_with_threshold in E. destruct (csv_read p); [|injection E as <- _; right; lia].
    destruct (make_per_row_input p) as [inputs|e]; [|discriminate E]. cbn [then_] in E.
    destruct (calculate_rows p inputs) as [results failures].
    destruct (Rlt_dec _ _); [injection E as <- _; right; lia|].
    destruct (then_ (pd_concat results) _) as [r|e]; [|injection E as <- _; right; lia].
    destruct (calibrate_shape p r) as (k & K & C). rewrite K in E. injection E as <- <-.
    destruct C as [->|[->| ->]]; [left; split; [reflexivity|exists r; reflexivity]|right; lia|right; lia].
  - destruct (make_input p) as [inp|e]; [|destruct e; injection E as <- _; right; lia].
    destruct (calculate p inp) as [r|e]; [|destruct (is_value_error e); injection E as <- _; right; lia].
    destruct (write p r); [|injection E as <- _; right; lia].
    destruct (calibrate_shape p r) as (k & K & C). rewrite K in E. injection E as <- <-.
    destruct C as [->|[->| ->]]; [left; split; [reflexivity|exists r; reflexivity]|right; lia|right; lia].
Qed.

Definition known_status (s : Z) : Prop := (s = 0 \/ s = 1 \/ s = 2 \/ 251 <= s <= 255)%Z.

Lemma negative_status c : (-5 <= c <= -1)%Z -> (c mod 256 = 256 + c)%Z.
Proof. intros H. symmetry. apply (Z.mod_unique c 256 (-1)); lia. Qed.

Lemma execute_status ns d : known_status (status (execute t ns d)).
Proof.
  unfold execute. destruct (run _ _) as [[code w]|e] eqn:E; [|right; left; reflexivity].
  assert (K : known_status (code mod 256)).
  { destruct (run_codes _ _ _ _ E) as [[-> _]|B]; [left; reflexivity|].
    rewrite (negative_status _ B). right. right. right. lia. }
  destruct w as [r|]; [destruct (output ns)|]; cbn [written exit status]; exact K.
Qed.

Lemma parse_status argv : forall d ns f, parse_arguments t argv d ns = inl f ->
  (status f = 2%Z /\ stdout f = []) \/
  (~ asks_for_run argv /\ (status f = 0%Z \/ status f = 252%Z)).
Proof.
  induction argv as [|x argv IH]; intros d [c da ca o th u] f E; cbn [parse_arguments] in E.
  { destruct c; [destruct u; [|discriminate E]|]; injection E as <-; left; split; reflexivity. }
  assert (R : (status f = 2%Z /\ stdout f = []) \/ (~ asks_for_run argv /\ (status f = 0%Z \/ status f = 252%Z)) ->
              (status f = 2%Z /\ stdout f = []) \/ (~ asks_for_run (x :: argv) /\ (status f = 0%Z \/ status f = 252%Z))).
  { intros [H|[N H]]; [left; exact H|]. right. split; [|exact H]. intros (A1 & A2 & A3). apply N.
    split; [|split]; [intros X; apply A1|intros X; apply A2|intros dir X; apply (A3 dir)]; right; exact X. }
  destruct x as [path|path|path|path| |dir|v|].
  - destruct c; [apply R, (IH _ _ _ E)|].
    destruct (open_r d path); [apply R, (IH _ _ _ E)|injection E as <-; left; split; reflexivity].
  - destruct (open_r d path); [apply R, (IH _ _ _ E)|injection E as <-; left; split; reflexivity].
  - destruct (open_r d path); [apply R, (IH _ _ _ E)|injection E as <-; left; split; reflexivity].
  - destruct (open_w t d path); [apply R, (IH _ _ _ E)|injection E as <-; left; split; reflexivity].
  - injection E as <-. right. split; [|left; reflexivity]. intros (A & _). apply A. left. reflexivity.
  - right. split; [intros (_ & _ & A); apply (A dir); left; reflexivity|].
    destruct (generate_tutorial t d dir); injection E as <-; [left|right]; reflexivity.
  - destruct (percentage v); [apply R, (IH _ _ _ E)|injection E as <-; left; split; reflexivity].
  - injection E as <-. right. split; [|left; reflexivity]. intros (_ & A & _). apply A. left. reflexivity.
Qed.

Lemma main_status argv d : known_status (status (main t argv d)).
Proof.
  unfold main. fold start. destruct (parse_arguments t argv d start) as [f|[ns d']] eqn:E; [|apply execute_status].
  destruct (parse_status _ _ _ _ E) as [[H _]|[_ [H|H]]]; rewrite H;
    [right; right; left|left|right; right; right]; lia.
Qed.

Lemma success_writes argv d : asks_for_run argv -> status (main t argv d) = 0%Z ->
  exists o r, has_options argv o /\
    match the_output o with
    | Some q => files (main t argv d) q = Some (File (to_csv t r))
    | None => In (Rows r) (stdout (main t argv d))
    end.
Proof.
  intros A. unfold main. fold start. destruct (parse_arguments t argv d start) as [f|[ns d']] eqn:E.
  { intros Z. destruct (parse_status _ _ _ _ E) as [[H _]|[N _]]; [rewrite H in Z; discriminate Z|contradiction]. }
  intros Z. destruct (parsed _ _ _ _ E) as (_ & O & _). exists (options_of ns). unfold execute in *.
  destruct (run _ _) as [[code w]|e] eqn:R; [|discriminate Z].
  assert (K : exists r, w = Some r).
  { destruct (run_codes _ _ _ _ R) as [[_ K]|B]; [exact K|].
    destruct w as [r|]; [exists r; reflexivity|]. cbn [exit status] in Z. rewrite (negative_status _ B) in Z. lia. }
  destruct K as [r ->]. exists r. split; [exact O|]. cbn [the_output options_of].
  destruct (output ns) as [q|]; cbn [written exit files stdout].
  - apply set_same.
  - apply in_or_app. right. left. reflexivity.
Qed.

(** A mistake in the command line is reported with status 2, and only with it. *)
Lemma correct_status argv d : correct t argv d -> status (main t argv d) <> 2%Z.
Proof.
  intros C. destruct (main_reaches _ _ C) as (ns & d' & _ & ->). unfold execute.
  destruct (run _ _) as [[code w]|e] eqn:R; [|discriminate].
  assert (K : (code mod 256 <> 2)%Z).
  { destruct (run_codes _ _ _ _ R) as [[-> _]|B]; [discriminate|]. rewrite (negative_status _ B). lia. }
  destruct w as [r|]; [destruct (output ns)|]; cbn [written exit status]; exact K.
Qed.

(** ** Output over input *)

Lemma lost_input argv d o f : correct t argv d -> has_options argv o -> blank_is_empty t ->
  In (OutputFile f) argv -> the_config o = f \/ the_data o = Some f ->
  status (main t argv d) <> 0%Z /\ files (main t argv d) f = Some (File (blank t)).
Proof.
  intros C O [B1 B2] I W. destruct (runs_exists _ _ _ C O) as [p P].
  pose proof (main_is_run _ _ _ _ C O P) as M.
  assert (K : match run p (the_threshold o) with Ret (c, w) => (-5 <= c <= -1)%Z /\ w = None | Raise _ => True end).
  { destruct P as ((x & X & Y) & D & _).
    assert (L : the_config o = f -> load_config_from_yaml p = Raise InputError).
    { intros Wf. rewrite Wf in X. destruct X as [X _]. rewrite (X I), B1 in Y.
      unfold load_config_from_yaml. rewrite Y. reflexivity. }
    assert (L' : the_data o = Some f -> csv_read p = Some (Raise EmptyDataError)).
    { intros E. rewrite E in D. destruct D as (z & [Z _] & D). rewrite (Z I), B2 in D. exact D. }
    assert (M1 : exists e, make_input p = Raise e).
    { unfold make_input. destruct W as [W|W].
      - rewrite (L W). eexists. reflexivity.
      - destruct (load_config_from_yaml p); [|eexists; reflexivity]. cbn [then_].
        unfold load_data_from_csv. rewrite (L' W). eexists. reflexivity. }
    assert (M2 : exists e, make_per_row_input p = Raise e).
    { unfold make_per_row_input. destruct W as [W|W].
      - rewrite (L W). eexists. reflexivity.
      - destruct (load_config_from_yaml p); [|eexists; reflexivity]. cbn [then_].
        unfold load_data_from_csv. rewrite (L' W). eexists. reflexivity. }
    unfold run. destruct (the_threshold o).
    - unfold run_with_threshold. destruct (csv_read p); [|split; [lia|reflexivity]].
      destruct M2 as [e ->]. exact Logic.I.
    - destruct M1 as [e ->]. destruct e; split; try lia; reflexivity. }
  destruct (run p (the_threshold o)) as [[c w]|e].
  - destruct K as [K ->]. destruct M as (M1 & M2 & M3). rewrite M1, (negative_status _ K). split; [lia|].
    assert (Dec : the_output o = Some f \/ the_output o <> Some f).
    { destruct (the_output o) as [g|]; [|right; discriminate].
      destruct (string_dec g f) as [->|N]; [left; reflexivity|right; intros [= E]; exact (N E)]. }
    destruct Dec as [E|N]; [exact (M3 f E)|]. destruct (M2 f N) as [Y _]. exact (Y I).
  - destruct M as [M1 M2]. rewrite M1. split; [lia|]. destruct (M2 f) as [Y _]. exact (Y I).
Qed.

(** ** Standard output *)

Lemma calibration_lines_ok argv d ns d' o p r keys :
  correct t argv d -> parse_arguments t argv d start = inr (ns, d') -> o = options_of ns ->
  p = program_of t ns d' -> run p (the_threshold o) = Ret (0%Z, Some r) -> compares t argv d o r keys ->
  calibration_lines t ns d' r = map Statistics keys.
Proof.
  intros (_ & _ & F & _) P -> -> R K. destruct (parsed _ _ _ _ P) as (_ & (_ & _ & H3 & H4 & _) & E).
  cbn [the_threshold the_calibration the_output options_of] in *.
  unfold compares in K. cbn [the_calibration the_output options_of] in K. unfold calibration_lines.
  assert (B : compare (program_of t ns d') = option_map (fun p r => snd (statistics t (text t (fst (fst (written t (output ns) d' r))) p) r))
       (calibration_data ns)) by reflexivity.
  assert (A : calibrate_and_exit (program_of t ns d') r = (0%Z, Some r)).
  { revert R. unfold run. destruct (success_threshold ns) as [th|].
    - unfold run_with_threshold. destruct (csv_read _); [|discriminate].
      destruct (make_per_row_input _) as [inputs|e]; [|discriminate]. cbn [then_].
      destruct (calculate_rows _ inputs) as [results failures].
      destruct (Rlt_dec _ _); [discriminate|]. destruct (pd_concat results) as [r'|e]; [|discriminate].
      cbn [then_ program_of write]. fold (program_of t ns d'). intros [= X].
      destruct (calibrate_shape (program_of t ns d') r') as (k & Kk & _). rewrite Kk in X. injection X as <- <-. exact Kk.
    - destruct (make_input _) as [inp|e]; [|destruct e; discriminate].
      destruct (calculate _ inp) as [r'|e]; [|destruct (is_value_error e); discriminate].
      change (write (program_of t ns d') r') with (@Ret unit tt). intros [= X].
      destruct (calibrate_shape (program_of t ns d') r') as (k & Kk & _). rewrite Kk in X. injection X as <- <-. exact Kk. }
  destruct (calibration_data ns) as [f|]; [|rewrite K; reflexivity].
  unfold calibrate_and_exit in A. rewrite B in A. cbn [option_map] in A.
  set (x := text t (fst (fst (written t (output ns) d' r))) f) in *.
  assert (Kk : keys = fst (statistics t x r)).
  { destruct K as [K1 K2]. destruct (output ns) as [q|] eqn:Q.
    - destruct (string_dec q f) as [->|N].
      + rewrite (K1 eq_refl). unfold x. cbn [written fst]. unfold text. rewrite set_same. reflexivity.
      + destruct K2 as (y & Y & ->); [intros [= X]; exact (N X)|].
        assert (x = y) as ->; [|reflexivity].
        apply (reads_text_unique argv d f); [|exact Y]. unfold x. cbn [written fst]. unfold text.
        rewrite set_other; [|intros X; apply N; symmetry; exact X].
        apply text_read; [exact E|]. apply F. right. right. exact (chosen_in _ _ _ H3).
    - destruct K2 as (y & Y & ->); [discriminate|].
      assert (x = y) as ->; [|reflexivity].
      apply (reads_text_unique argv d f); [|exact Y]. unfold x. cbn [written fst].
      apply text_read; [exact E|]. apply F. right. right. exact (chosen_in _ _ _ H3). }
  rewrite Kk. destruct (statistics t x r) as [ks ended]. cbn [fst snd] in *.
  unfold run_calibration, try_ in A. destruct ended as [u|e]; [rewrite app_nil_r; reflexivity|].
  exfalso. destruct e; cbn in A; discriminate A.
Qed.

Lemma stdout_of_success argv d o p r keys : correct t argv d -> has_options argv o -> runs t argv d o p ->
  run p (the_threshold o) = Ret (0%Z, Some r) -> compares t argv d o r keys ->
  (the_threshold o = None -> stdout (main t argv d) = rows_printed o r ++ map Statistics keys)%list /\
  (forall items rows rs f th, the_threshold o = Some th -> config_is p items -> data_is p (Some rows) -> rows_give p items rows rs f ->
     stdout (main t argv d) = repeat Message f ++ rows_printed o r ++ map Statistics keys)%list.
Proof.
  intros C O R E K. destruct (main_reaches _ _ C) as (ns & d' & P & ->).
  pose proof (program_runs _ _ _ _ C P) as R'. destruct (parsed _ _ _ _ P) as (_ & O' & _).
  pose proof (options_unique _ _ _ O O') as ->.
  rewrite (runs_alike _ _ _ _ _ _ R R') in E.
  pose proof (calibration_lines_ok _ _ _ _ _ _ _ _ C P eq_refl eq_refl E K) as L.
  cbn [the_threshold options_of] in E. unfold execute. rewrite E.
  assert (W : forall before, stdout (let '(_, d'', rows) := written t (output ns) d' r in
                        exit 0 d'' (before ++ rows ++ calibration_lines t ns d' r)%list)
              = (before ++ rows_printed (options_of ns) r ++ map Statistics keys)%list).
  { intros before. rewrite L. unfold rows_printed. cbn [the_output options_of].
    destruct (output ns); reflexivity. }
  cbn [the_threshold options_of]. split.
  - intros ->. rewrite W. reflexivity.
  - intros items rows rs f th -> Ci D Gv. rewrite W. f_equal.
    unfold row_lines.
    assert (G : rows_give (program_of t ns d') items rows rs f).
    { destruct R as (_ & _ & Pp & Pc & _). destruct R' as (_ & _ & Pp' & Pc' & _).
      clear - Gv Pp Pc Pp' Pc'. unfold row_gives in *.
      assert (Iff : forall row r, row_gives p items row r <-> row_gives (program_of t ns d') items row r).
      { intros row r. unfold row_gives. rewrite Pp, Pp', Pc, Pc'. reflexivity. }
      induction Gv as [|row rows r rs f H Hs IH|row rows rs f H Hs IH].
      - constructor.
      - constructor; [apply Iff; exact H|exact IH].
      - constructor; [intros r X; apply (H r), Iff; exact X|exact IH]. }
    assert (Cd : config_is (program_of t ns d') items /\ data_is (program_of t ns d') (Some rows)).
    { destruct R as ((x & X & Y) & Dd & _), R' as ((x' & X' & Y') & Dd' & _).
      unfold config_is, data_is in *. split.
      - rewrite Y', <- (reads_text_unique _ _ _ _ _ X X'), <- Y. exact Ci.
      - cbn [the_data options_of] in Dd, Dd'. destruct (data_file ns) as [g|].
        + destruct Dd as (z & Z & Dd), Dd' as (z' & Z' & Dd').
          rewrite Dd', <- (reads_text_unique _ _ _ _ _ Z Z'), <- Dd. exact D.
        + rewrite D in Dd. discriminate Dd. }
    destruct Cd as [Ci' D']. unfold make_per_row_input, load_config_from_yaml, load_data_from_csv.
    unfold config_is in Ci'. unfold data_is in D'. rewrite Ci', D'. cbn [try_ then_].
    pose proof (rows_give_calculated _ _ _ _ _ G) as Gc. unfold row_input in Gc.
    match goal with |- context [calculate_rows ?a ?b] => change (calculate_rows a b) with
      (calculate_rows (program_of t ns d') (map (fun row => match parse (program_of t ns d') items (Some [row]) with
         Ret inp => Some inp | Raise _ => None end) rows)) end.
    rewrite Gc. reflexivity.
Qed.

(** ** The tutorial *)

Lemma tutorial_exists dir rest d e : d dir = Some e ->
  main t (GenerateTutorial dir :: rest) d = mkFinish 252 d [Message].
Proof. intros E. unfold main. cbn [parse_arguments]. unfold generate_tutorial. rewrite E. reflexivity. Qed.

Lemma fold_files dir fs : forall d, NoDup (map fst fs) -> forall name x, In (name, x) fs ->
  fold_left (fun d f => set d (dir ++ "/" ++ fst f)%string (File (snd f))) fs d (dir ++ "/" ++ name)%string = Some (File x).
Proof.
  assert (Keep : forall fs d q, ~ In q (map fst fs) ->
    fold_left (fun d (f : string * Text) => set d (dir ++ "/" ++ fst f)%string (File (snd f))) fs d (dir ++ "/" ++ q)%string
      = d (dir ++ "/" ++ q)%string).
  { clear fs. intros fs. induction fs as [|f fs IH]; intros d q N; [reflexivity|]. cbn [fold_left].
    rewrite IH; [|intros X; apply N; right; exact X]. apply set_other. intros E. apply N. left.
    clear - E. induction dir as [|a dir IH]; cbn in E; [injection E as E; symmetry; exact E|].
    injection E as E. exact (IH E). }
  induction fs as [|f fs IH]; intros d N name x I; [destruct I|].
  cbn [map] in N. apply NoDup_cons_iff in N. destruct N as [N1 N2]. cbn [fold_left].
  destruct I as [->|I]; [|exact (IH _ N2 _ _ I)]. cbn [fst snd] in *. rewrite Keep; [|exact N1]. apply set_same.
Qed.

Lemma tutorial_made dir rest d : d dir = None -> may_make t dir = true -> NoDup (map fst (tutorial t)) ->
  status (main t (GenerateTutorial dir :: rest) d) = 0%Z /\
  (forall name x, In (name, x) (tutorial t) ->
     files (main t (GenerateTutorial dir :: rest) d) (dir ++ "/" ++ name)%string = Some (File x)) /\
  (forall p, ~ inside dir p -> files (main t (GenerateTutorial dir :: rest) d) p = d p).
Proof.
  intros E M N. unfold main. cbn [parse_arguments]. unfold generate_tutorial. rewrite E, M.
  cbn [exit status files]. split; [reflexivity|]. split.
  - intros name x I. apply fold_files; assumption.
  - intros p I. rewrite tutorial_files; [|exact I]. apply set_other. intros ->. apply I. left. reflexivity.
Qed.

End Command.
