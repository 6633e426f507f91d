(** C208-C210: the words of command lines. *)
From Coq Require Import String Ascii List ZArith.
From Verif Require Import Base InputModel MainModel CommandModel CommandProps ArgvModel ArgvSpec ArgvProofs.
Import ListNotations.
Open Scope string_scope.

(** C208: an option may be written in full or by its first letters, its value
    after a space or an equals sign: the run is the same. *)
Theorem C208_spelling : forall (Text Row Inp Out : Type) (t : tools Text Row Inp Out) float_of argv ws d,
  spelled float_of argv ws -> ~ In (OutputFile "-") argv -> main_words float_of t ws d = main t argv d.
Proof. exact main_spelled. Qed.
Print Assumptions C208_spelling.
(** Words that are not written so are refused, unless help, the version or the
    tutorial is asked for. *)
Theorem C208_only : forall (Text Row Inp Out : Type) (t : tools Text Row Inp Out) float_of ws d,
  refused (main_words float_of t ws d) \/ asks_for_information float_of ws \/ exists argv, spelled float_of argv ws.
Proof. exact main_words_inv. Qed.
Print Assumptions C208_only.
(** Words after these are of no consequence, nor are foreign words before them. *)
Theorem C208_information : forall (Text Row Inp Out : Type) (t : tools Text Row Inp Out) float_of argv a ws wa more d,
  spelled_among float_of argv ws -> argument_words float_of a wa -> informs a -> ~ In (OutputFile "-") argv ->
  ~ In "--" more -> (forall w, In w more -> ~ begins_with "--=" w) ->
  main_words float_of t (ws ++ wa ++ more)%list d = main t (argv ++ [a])%list d.
Proof. exact main_among. Qed.
Print Assumptions C208_information.

Definition fifty (s : string) : pyfloat := if String.eqb s "50" then Finite 50 else NotANumber.
Example C208_nonvacuous :
  spelled fifty [Config "c.yaml"; DataFile "half.csv"; SuccessThreshold (Finite 50); OutputFile "new.csv"]
    ["c.yaml"; "--da"; "half.csv"; "--s=50"; "--output_file=new.csv"] /\
  status (main_words fifty desk ["c.yaml"; "--da"; "half.csv"; "--s=50"; "--output_file=new.csv"] shelf) =
  status (main desk [Config "c.yaml"; DataFile "half.csv"; SuccessThreshold (Finite 50); OutputFile "new.csv"] shelf) /\
  (forall argv, ~ spelled fifty argv ["c.yaml"; "--"]) /\
  spelled_among fifty [DataFile "half.csv"] ["--data-file=half.csv"; "--foo"] /\ argument_words fifty Help ["-h"].
Proof.
  assert (S : spelled fifty [Config "c.yaml"; DataFile "half.csv"; SuccessThreshold (Finite 50); OutputFile "new.csv"]
    ["c.yaml"; "--da"; "half.csv"; "--s=50"; "--output_file=new.csv"]).
  { apply (spelled_more fifty _ _ ["c.yaml"]). { constructor. now apply role_value. }
    apply (spelled_more fifty _ _ ["--da"; "half.csv"]).
    { constructor. exists "--da". split; [|left; split; [reflexivity|now apply role_value]].
      split; [eexists; reflexivity|]. split; [eexists; reflexivity|discriminate]. }
    apply (spelled_more fifty _ _ ["--s=50"]).
    { apply (words_threshold fifty "50"). exists "--s". split; [|right; reflexivity].
      split; [eexists; reflexivity|]. split; [eexists; reflexivity|discriminate]. }
    apply (spelled_more fifty _ _ ["--output_file=new.csv"]); [|constructor].
    constructor. exists "--output_file". split; [|right; reflexivity].
    split; [eexists; reflexivity|]. split; [eexists; reflexivity|discriminate]. }
  split; [exact S|]. split.
  { rewrite (main_spelled _ _ _ _ desk fifty _ _ shelf S); [reflexivity|]. cbn. intuition discriminate. }
  split.
  { intros argv H. pose proof (steps_spelled fifty argv _ [] H) as (_ & A). discriminate. }
  split; [|exact (words_h fifty "h" one_h)].
  apply (among_more fifty _ _ ["--data-file=half.csv"]).
  - constructor. exists "--data-file". split; [|right; reflexivity].
    split; [eexists; reflexivity|]. split; [eexists; reflexivity|discriminate].
  - apply among_foreign; [now apply role_foreign|constructor].
Qed.

(** C209: a word that begins with a dash and is no option is refused. *)
Theorem C209_foreign : forall (Text Row Inp Out : Type) (t : tools Text Row Inp Out) float_of ws w d,
  In w ws -> foreign w -> ~ asks_for_information float_of ws -> refused (main_words float_of t ws d).
Proof. exact foreign_refused. Qed.
Print Assumptions C209_foreign.
(** Some options are named with a dash, some with an underscore; with the other
    one they are refused. *)
Theorem C209_dash_or_underscore : forall w,
  In w ["--data_file"; "--output-file"; "--success-threshold"; "--generate_tutorial"] -> foreign w.
Proof. exact underscored_foreign. Qed.
Print Assumptions C209_dash_or_underscore.
(** But not before an output file named earlier is emptied. *)
Theorem C209_emptied : forall (Text Row Inp Out : Type) (t : tools Text Row Inp Out) float_of c o w d x,
  value_word c -> value_word o -> o <> "-" -> foreign w ->
  d c = Some (File x) -> d o <> Some Folder -> may_write t o = true ->
  main_words float_of t [c; "--output_file"; o; w] d = exit 2 (set d o (File (blank t))) [].
Proof. exact foreign_empties. Qed.
Print Assumptions C209_emptied.
(** An abbreviation that could be any option is refused before any file is
    touched. *)
Theorem C209_ambiguous : forall (Text Row Inp Out : Type) (t : tools Text Row Inp Out) float_of ws w d,
  In w ws -> begins_with "--=" w -> main_words float_of t ws d = exit 2 d [].
Proof. exact main_ambiguous. Qed.
Print Assumptions C209_ambiguous.
Example C209_nonvacuous :
  foreign "--success-threshold" /\ ~ asks_for_information fifty ["--success-threshold"] /\
  value_word "c.yaml" /\ value_word "old.csv" /\ shelf "c.yaml" = Some (File Settings) /\
  shelf "old.csv" <> Some Folder /\ shelf "old.csv" <> Some (File (blank desk)) /\ may_write desk "old.csv" = true /\
  ~ foreign "--success_threshold" /\ ~ foreign "-5" /\ ~ foreign "--succ=5".
Proof.
  split; [apply underscored_foreign; cbn; tauto|]. split.
  { intros (b & ws & r & a & E & W & _). destruct b as [|x b].
    - destruct ws as [|w ws].
      + pose proof (steps_words fifty a [] [] W) as (X & _). discriminate.
      + injection E as <- E. symmetry in E. apply app_eq_nil in E. destruct E as (-> & ->).
        apply (words_not_foreign fifty a _ "--success-threshold" W); [now left|reflexivity].
    - injection E as <- E. symmetry in E. apply app_eq_nil in E. destruct E as (-> & E).
      apply app_eq_nil in E. destruct E as (-> & ->).
      pose proof (steps_words fifty a [] [] W) as (X & _). discriminate. }
  split; [now apply role_value|]. split; [now apply role_value|]. split; [reflexivity|]. split; [discriminate|].
  split; [discriminate|]. split; [reflexivity|]. rewrite !role_foreign. repeat split; discriminate.
Qed.

(** C210: [--output_file -] is the same as no output file. *)
Theorem C210_standard_output : forall (Text Row Inp Out : Type) (t : tools Text Row Inp Out) float_of before after ws d,
  spelled float_of (before ++ OutputFile "-" :: after)%list ws ->
  (forall p, ~ In (OutputFile p) before) -> ~ In (OutputFile "-") after ->
  main_words float_of t ws d = main t (before ++ after)%list d.
Proof. exact main_stdout. Qed.
Print Assumptions C210_standard_output.
Example C210_nonvacuous : spelled fifty ([Config "c.yaml"] ++ OutputFile "-" :: [DataFile "good.csv"])%list
    ["c.yaml"; "--out"; "-"; "--data-file=good.csv"] /\
  main desk ([Config "c.yaml"] ++ [DataFile "good.csv"])%list shelf = mkFinish 0 shelf [Rows [true]].
Proof.
  split; [|reflexivity].
  apply (spelled_more fifty _ _ ["c.yaml"]). { constructor. now apply role_value. }
  apply (spelled_more fifty _ _ ["--out"; "-"]).
  { constructor. exists "--out". split; [|left; split; [reflexivity|now apply role_value]].
    split; [eexists; reflexivity|]. split; [eexists; reflexivity|discriminate]. }
  apply (spelled_more fifty _ _ ["--data-file=good.csv"]); [|constructor].
  constructor. exists "--data-file". split; [|right; reflexivity].
  split; [eexists; reflexivity|]. split; [eexists; reflexivity|discriminate].
Qed.
