(** Texts made of materials and failures; files given by name. *)
From Coq Require Import String Ascii List ZArith Lra Lia.
From Verif Require Import Base BaseProofs MaterialModel Spec MaterialProofs InputModel MainModel MainSpec ReportModel ReportSpec ReportProofs.
Import ListNotations.
Open Scope R_scope.

(** C195: the text of a material determines it, and its keyword arguments
    build the same material again. *)
Theorem C195_text_determines : forall show m m', plain_numbers show -> material_str show m = material_str show m' -> m = m'.
Proof. exact material_str_faithful. Qed.
Print Assumptions C195_text_determines.

Theorem C195_rebuilds : forall ok os od ovs ovp m, mk_material ok os od ovs ovp = Ok m ->
  mk_material (Some (bulk m)) (Some (shear m)) (Some (dens m)) (Some (vs m)) (Some (vp m)) = Ok m.
Proof. exact rebuild_material. Qed.
Print Assumptions C195_rebuilds.

Example C195_text_nonvacuous : forall show, show 1 = "1.0"%string -> show 2 = "2.0"%string ->
  material_str show (mkMat 1 2 1 2 1) =
  "Material(shear_modulus=2.0, bulk_modulus=1.0, primary_velocity=2.0, secondary_velocity=1.0, density=1.0)"%string.
Proof. intros show E1 E2. unfold material_str. cbn [bulk shear dens vp vs]. rewrite E1, E2. reflexivity. Qed.
Example C195_rebuilds_nonvacuous : is_ok (mk_material (Some 4) (Some 0) (Some 1) None None).
Proof. destruct (mat_of_moduli_spec 4 0 1) as (m & E & _); try lra. exists m. exact E. Qed.

(** C196: a configuration given by name and position is read as the file of
    that name. *)
Theorem C196_by_position : forall (Stream Row Inp : Type) (opening : string -> out Stream) (load_stream : Stream -> out value)
  (load_text : string -> out value) (read_stream : Stream -> out (list Row)) (read_name : string -> out (list Row))
  (parse : list (string * value) -> option (list Row) -> out Inp) s b,
  let call := make_input_call opening load_stream load_text read_stream read_name parse in
  call [Name s; b] [] = then_ (opening s) (fun f => call [Opened f; b] []) /\
  call [Name s] [("data_file"%string, b)] = then_ (opening s) (fun f => call [Opened f] [("data_file"%string, b)]) /\
  (forall f, call [Opened f] [("data_file"%string, b)] = call [Opened f; b] []).
Proof. intros Stream Row Inp. exact by_position. Qed.
Print Assumptions C196_by_position.

(** Given by keyword it is not opened: the name itself is taken for the text of
    the configuration. *)
Theorem C196_by_keyword : forall (Stream Row Inp : Type) (opening : string -> out Stream) (load_stream : Stream -> out value)
  (load_text : string -> out value) (read_stream : Stream -> out (list Row)) (read_name : string -> out (list Row))
  (parse : list (string * value) -> option (list Row) -> out Inp) s b,
  (forall items, load_text s <> Ret (VDict items)) -> (forall e, load_text s <> Raise e) ->
  make_input_call opening load_stream load_text read_stream read_name parse
    [] [("config_file"%string, Name s); ("data_file"%string, b)] = Raise InputError.
Proof. intros Stream Row Inp. exact name_by_keyword. Qed.
Print Assumptions C196_by_keyword.

Theorem C196_keyword_refuted : exists (opening : string -> out bool) (load_stream : bool -> out value)
  (load_text : string -> out value) (read_stream : bool -> out (list bool)) read_name (parse : _ -> _ -> out bool) s,
  load_text s = Ret (VStr s) /\
  make_input_call opening load_stream load_text read_stream read_name parse [Name s; NoneArg] [] = Ret true /\
  make_input_call opening load_stream load_text read_stream read_name parse
    [] [("config_file"%string, Name s); ("data_file"%string, NoneArg)] = Raise InputError.
Proof.
  exists (fun _ => Ret true), (fun _ => Ret (VDict [])), (fun s => Ret (VStr s)), (fun _ => Ret []), (fun _ => Ret []),
    (fun _ _ => Ret true), "config.yml"%string. repeat split.
Qed.
Print Assumptions C196_keyword_refuted.

Example C196_nonvacuous : (forall items, Ret (VStr "config.yml") <> Ret (VDict items)) /\
  (forall e, Ret (VStr "config.yml") <> Raise e).
Proof. split; intros; discriminate. Qed.

(** C197: the printed message quotes what yaml found wrong, and the text of
    column and value errors. *)
Theorem C197_quoted : forall mark problem context text,
  let t := printed (BadYaml (Some (mark, problem, context))) in
  (contains mark t /\ contains problem t /\ forall c, context = Some c -> contains c t) /\
  contains text (printed (BadColumn text)) /\ contains text (printed (BadValue text)).
Proof. intros mark problem context text. split; [apply yaml_text|apply parse_text]. Qed.
Print Assumptions C197_quoted.
Example C197_nonvacuous : printed (BadValue "porosity") = "Could not read input: Inconsistent values in input file: porosity"%string.
Proof. reflexivity. Qed.

(** What pandas found wrong with the data is lost: the f is missing in front of
    the message, which is the same for every cause. *)
Theorem C197_csv_constant : forall text,
  printed (BadCsv text) = "Could not read input: Error while reading data file: {e}"%string.
Proof. exact csv_text. Qed.
Print Assumptions C197_csv_constant.
Theorem C197_csv_refuted : exists text, ~ contains text (printed (BadCsv text)).
Proof. exact csv_text_lost. Qed.
Print Assumptions C197_csv_refuted.
