(** How command lines are written. *)
From Coq Require Import String Ascii List ZArith.
From Verif Require Import Base InputModel MainModel CommandModel.
Import ListNotations.
Open Scope string_scope.

Definition begins_with (s w : string) : Prop := exists rest, w = s ++ rest.

(** The names of the options in full. *)
Definition long_names : list string :=
  ["--help"; "--data-file"; "--calibration"; "--output_file"; "--version"; "--generate-tutorial";
   "--success_threshold"].

(** [w] is the option [name] or the first letters of it, at least one after the
    dashes. *)
Definition written_as (name w : string) : Prop :=
  begins_with w name /\ begins_with "--" w /\ w <> "--".

(** [w] has an option before a possible [=]. *)
Definition names_option (name w : string) : Prop :=
  written_as name w \/ exists a v, written_as name a /\ w = a ++ "=" ++ v.

Definition digit (c : ascii) : Prop := (48 <= nat_of_ascii c <= 57)%nat.
Inductive all_digits : string -> Prop :=
  | no_digits : all_digits ""
  | more_digits : forall c s, digit c -> all_digits s -> all_digits (String c s).
(** -12, -1.5 and -.5, but neither -1. nor -1e3. *)
Definition negative_decimal (w : string) : Prop :=
  (exists s, w = "-" ++ s /\ s <> "" /\ all_digits s) \/
  (exists a b, w = "-" ++ a ++ "." ++ b /\ all_digits a /\ all_digits b /\ b <> "").

(** Words that stand for a file or a value after a space: they do not begin with
    a dash, or are a dash, a negative number, or have a space in them and no
    option before it. *)
Definition value_word (w : string) : Prop :=
  ~ begins_with "-" w \/ w = "-" \/ negative_decimal w \/
  ((exists a b, w = a ++ " " ++ b) /\ ~ begins_with "-h" w /\ ~ begins_with "--=" w /\
   forall name, In name long_names -> ~ names_option name w).

(** [--name v] or [--name=v] *)
Definition value_words (name v : string) (ws : list string) : Prop :=
  exists w, written_as name w /\ ((ws = [w; v] /\ value_word v) \/ ws = [w ++ "=" ++ v]).

(** [h], [hh] and so on *)
Inductive only_h : string -> Prop :=
  | one_h : only_h "h"
  | another_h : forall s, only_h s -> only_h (String "h" s).

(** The words that stand for an argument. *)
Inductive argument_words (float_of : string -> pyfloat) : argument -> list string -> Prop :=
  | words_config : forall p, value_word p -> argument_words float_of (Config p) [p]
  | words_data : forall p ws, value_words "--data-file" p ws -> argument_words float_of (DataFile p) ws
  | words_calibration : forall p ws, value_words "--calibration" p ws ->
      argument_words float_of (Calibration p) ws
  | words_output : forall p ws, value_words "--output_file" p ws -> argument_words float_of (OutputFile p) ws
  | words_tutorial : forall p ws, value_words "--generate-tutorial" p ws ->
      argument_words float_of (GenerateTutorial p) ws
  | words_threshold : forall v ws, value_words "--success_threshold" v ws ->
      argument_words float_of (SuccessThreshold (float_of v)) ws
  | words_version : forall w, written_as "--version" w -> argument_words float_of Version [w]
  | words_help : forall w, written_as "--help" w -> argument_words float_of Help [w]
  | words_h : forall s, only_h s -> argument_words float_of Help ["-" ++ s]
  | words_h_equals : forall s, only_h s -> argument_words float_of Help ["-h=" ++ s].
Inductive spelled (float_of : string -> pyfloat) : list argument -> list string -> Prop :=
  | spelled_nothing : spelled float_of [] []
  | spelled_more : forall a argv ws ws', argument_words float_of a ws -> spelled float_of argv ws' ->
      spelled float_of (a :: argv) (ws ++ ws')%list.

(** An argument that ends the process when it is met. *)
Definition informs (a : argument) : Prop :=
  a = Help \/ a = Version \/ exists dir, a = GenerateTutorial dir.

(** A word that is none of the options, nor a value. *)
Definition foreign (w : string) : Prop :=
  begins_with "-" w /\ ~ begins_with "-h" w /\ ~ begins_with "--=" w /\ w <> "--" /\ ~ value_word w /\
  forall name, In name long_names -> ~ names_option name w.

(** Status 2 and nothing on standard output. *)
Definition refused {Text Out} (f : finish Text Out) : Prop := status f = 2%Z /\ stdout f = [].

(** Among the words is one that asks for help, version or tutorial. *)
Definition asks_for_information (float_of : string -> pyfloat) (ws : list string) : Prop :=
  exists before words after a, ws = (before ++ words ++ after)%list /\ argument_words float_of a words /\ informs a.

(** Arguments with foreign words among them. *)
Inductive spelled_among (float_of : string -> pyfloat) : list argument -> list string -> Prop :=
  | among_nothing : spelled_among float_of [] []
  | among_more : forall a argv ws ws', argument_words float_of a ws -> spelled_among float_of argv ws' ->
      spelled_among float_of (a :: argv) (ws ++ ws')%list
  | among_foreign : forall w argv ws, foreign w -> spelled_among float_of argv ws ->
      spelled_among float_of argv (w :: ws).
