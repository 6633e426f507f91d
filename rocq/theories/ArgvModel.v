(** Model of the words of a command line: what argparse (CPython 3.8 to 3.11)
    makes of them for the parser of __main__.py:298-338.

    Left out: the word [--].  As a file to read, [-] stands for standard input,
    which is then what the disk holds under that name; naming it twice is left
    out. *)
From Coq Require Import String Ascii List ZArith Bool.
From Verif Require Import Base InputModel MainModel CommandModel.
Import ListNotations.
Open Scope string_scope.

(** __main__.py:300-337 and argparse's own [-h], [--help]. *)
Inductive kind : Type := KHelp | KData | KCalibration | KOutput | KVersion | KTutorial | KThreshold.
Definition option_strings : list (string * kind) :=
  [("-h", KHelp); ("--help", KHelp); ("--data-file", KData); ("--calibration", KCalibration);
   ("--output_file", KOutput); ("--version", KVersion); ("--generate-tutorial", KTutorial);
   ("--success_threshold", KThreshold)].

(** nargs: version and help take no value, the others one. *)
Definition takes_value (k : kind) : bool := match k with KHelp | KVersion => false | _ => true end.

(** [name in self._option_string_actions] *)
Definition lookup (name : string) : option kind :=
  match filter (fun o => String.eqb (fst o) name) option_strings with
  | o :: _ => Some (snd o)
  | [] => None
  end.

(** [s.split("=", 1)] where [s] has the sign in it. *)
Fixpoint split_eq (s : string) : option (string * string) :=
  match s with
  | "" => None
  | String c s' =>
      if Ascii.eqb c "=" then Some ("", s')
      else match split_eq s' with Some (a, b) => Some (String c a, b) | None => None end
  end.

Fixpoint forall_chars (p : ascii -> bool) (s : string) : bool :=
  match s with "" => true | String c s' => p c && forall_chars p s' end.
Definition is_digit (c : ascii) : bool :=
  (Nat.leb 48 (nat_of_ascii c) && Nat.leb (nat_of_ascii c) 57)%nat.
Definition digits (s : string) : bool := match s with "" => false | _ => forall_chars is_digit s end.
(** Digits, possibly none, a point and digits. *)
Fixpoint point_number (s : string) : bool :=
  match s with
  | "" => false
  | String c s' => if Ascii.eqb c "." then digits s' else is_digit c && point_number s'
  end.
(** [_negative_number_matcher]: ^-\d+$|^-\d*\.\d+$ *)
Definition negative_number (s : string) : bool :=
  match s with String c s' => Ascii.eqb c "-" && (digits s' || point_number s') | "" => false end.
Definition has_space (s : string) : bool := negb (forall_chars (fun c => negb (Ascii.eqb c " ")) s).

(** What a word is taken for: a value ([A] in argparse's pattern), an option
    with or without an explicit value, an option that is none, an abbreviation
    of several. *)
Inductive role : Type :=
  | Value
  | Opt (k : kind) (short : bool) (explicit : option string)
  | Unknown
  | Ambiguous.

(** [_get_option_tuples] for a word with two dashes: options that begin with
    it, or with what stands before [=]. *)
Definition abbreviated (w : string) : list (kind * option string) :=
  let '(p, e) := match split_eq w with Some (a, b) => (a, Some b) | None => (w, None) end in
  map (fun o => (snd o, e)) (filter (fun o => prefix p (fst o)) option_strings).

(** The end of [_parse_optional]: negative numbers and words with a space in
    them are values. *)
Definition otherwise (w : string) : role :=
  if negative_number w then Value else if has_space w then Value else Unknown.

(** [_parse_optional] *)
Definition role_of (w : string) : role :=
  match w with
  | "" => Value
  | String c rest =>
      if negb (Ascii.eqb c "-") then Value
      else match lookup w with
      | Some k => Opt k false None
      | None =>
          match rest with
          | "" => Value
          | String c' rest' =>
              let explicit :=
                match split_eq w with
                | Some (a, b) => match lookup a with Some k => Some (k, String.eqb a "-h", b) | None => None end
                | None => None
                end in
              match explicit with
              | Some (k, short, b) => Opt k short (Some b)
              | None =>
                  if Ascii.eqb c' "-"
                  then match abbreviated w with
                       | [] => otherwise w
                       | [(k, e)] => Opt k false e
                       | _ => Ambiguous
                       end
                  else if Ascii.eqb c' "h" then Opt KHelp true (Some rest')
                  else otherwise w
              end
          end
      end
  end.

(** What is done, in order: an argument acted on, a word set aside, an error. *)
Inductive step : Type := Act (a : argument) | Aside | Stop.

Section Words.
(** [float(word)] *)
Variable float_of : string -> pyfloat.

Definition with_value (k : kind) (v : string) : step :=
  match k with
  | KData => Act (DataFile v)
  | KCalibration => Act (Calibration v)
  | KOutput => Act (OutputFile v)
  | KTutorial => Act (GenerateTutorial v)
  | KThreshold => Act (SuccessThreshold (float_of v))
  | KHelp | KVersion => Stop
  end.
Definition without_value (k : kind) : step :=
  match k with KHelp => Act Help | KVersion => Act Version | _ => Stop end.

(** [consume_optional] with an explicit value.  After [-h] the letters of the
    value are options of their own; there is only [-h]. *)
Definition with_explicit (k : kind) (short : bool) (e : string) : step :=
  if takes_value k then with_value k e
  else if short && negb (String.eqb e "") && forall_chars (Ascii.eqb "h") e then without_value k
  else Stop.

(** The loop of [_parse_known_args]. *)
Fixpoint steps (ws : list string) : list step :=
  match ws with
  | [] => []
  | w :: rest =>
      match role_of w with
      | Value => Act (Config w) :: steps rest
      | Unknown => Aside :: steps rest
      | Ambiguous => [Stop]
      | Opt k short (Some e) =>
          with_explicit k short e :: steps rest
      | Opt k _ None =>
          if takes_value k
          then match rest with
               | v :: rest' => match role_of v with Value => with_value k v :: steps rest' | _ => [Stop] end
               | [] => [Stop]
               end
          else without_value k :: steps rest
      end
  end.

(** [take_action] for one argument, with FileType's [-] for standard output
    (argparse.FileType, mode "w"). *)
Definition act {Text Row Inp Out} (t : tools Text Row Inp Out) (a : argument) (d : disk Text) (ns : namespace)
  : finish Text Out + (namespace * disk Text) :=
  let '(mkNamespace c da ca o th u) := ns in
  match a with
  | Config p =>
      match c with
      | Some _ => inr (mkNamespace c da ca o th true, d)
      | None => if open_r d p then inr (mkNamespace (Some p) da ca o th u, d) else inl (exit 2 d [])
      end
  | DataFile p => if open_r d p then inr (mkNamespace c (Some p) ca o th u, d) else inl (exit 2 d [])
  | Calibration p => if open_r d p then inr (mkNamespace c da (Some p) o th u, d) else inl (exit 2 d [])
  | OutputFile p =>
      if String.eqb p "-" then inr (mkNamespace c da ca None th u, d)
      else match open_w t d p with
      | Some d' => inr (mkNamespace c da ca (Some p) th u, d')
      | None => inl (exit 2 d [])
      end
  | Version | Help => inl (exit 0 d [Info])
  | GenerateTutorial dir =>
      match generate_tutorial t d dir with
      | Some d' => inl (exit 0 d' [])
      | None => inl (exit (-4) d [Message])
      end
  | SuccessThreshold v =>
      match percentage v with
      | Some x => inr (mkNamespace c da ca o (Some x) u, d)
      | None => inl (exit 2 d [])
      end
  end.

(** Words set aside are an error once everything else is done ([parse_args]). *)
Fixpoint take {Text Row Inp Out} (t : tools Text Row Inp Out) (l : list step) (d : disk Text) (ns : namespace)
  : finish Text Out + (namespace * disk Text) :=
  match l with
  | [] => parse_arguments t [] d ns
  | Act a :: rest =>
      match act t a d ns with inl f => inl f | inr (ns', d') => take t rest d' ns' end
  | Aside :: rest =>
      let '(mkNamespace c da ca o th _) := ns in take t rest d (mkNamespace c da ca o th true)
  | Stop :: _ => inl (exit 2 d [])
  end.

Definition ambiguous (w : string) : bool := match role_of w with Ambiguous => true | _ => false end.

(** __main__.py:346-348 on words.  Abbreviations are looked at first, before any
    file is opened. *)
Definition main_words {Text Row Inp Out} (t : tools Text Row Inp Out) (ws : list string) (d : disk Text)
  : finish Text Out :=
  if existsb ambiguous ws then exit 2 d []
  else match take t (steps ws) d (mkNamespace None None None None None false) with
       | inl f => f
       | inr (ns, d') => execute t ns d'
       end.
End Words.
