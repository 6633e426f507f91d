(** Properties of whole configuration files (C172). *)
From Coq Require Import String List ZArith Lra Lia.
From Verif Require Import Base BaseProofs MaterialModel MaterialProofs ConfigModel FluidsModel InputModel RowModel RowResultProofs ReadModel
  AppModel ReadSpec AppExampleProofs FileSpec FileProofs FileRowProofs FileTableProofs.
Import ListNotations.
Open Scope R_scope.

(** C172: what is written in a configuration file is what is calculated.  With
    data, every output row is the result of the scalar model on the
    configuration of numbers of that row; [means] says which input of the
    model that is. *)
Theorem C172_output_is_meant : forall co2 st header c rows outs,
  writable c -> Forall (known header) (vals_config c) -> rows <> [] ->
  gives_rows co2 st header (file c) rows outs ->
  Forall2 (fun r o => gives_output co2 (config_of_row header c r) o) rows outs.
Proof. exact file_meant. Qed.
Print Assumptions C172_output_is_meant.
(** Conversely, unless NumPy refuses to combine a constant with a column, a
    table whose rows all have an output is calculated. *)
Theorem C172_meant_is_output : forall co2 st header c rows outs,
  writable c -> Forall (known header) (vals_config c) -> combines c -> rows <> [] ->
  Forall2 (fun r o => gives_output co2 (config_of_row header c r) o) rows outs ->
  gives_rows co2 st header (file c) rows outs.
Proof. exact file_calculated. Qed.
Print Assumptions C172_meant_is_output.
(** Without data there is one row. *)
Theorem C172_no_data : forall co2 st c o, writable c ->
  ((exists inp, parse_input st (write_config VNum c) None = Ok inp /\ calculate_input co2 1 inp = Ok [o]) <-> gives_output co2 c o).
Proof. exact numbers_meant. Qed.
Print Assumptions C172_no_data.
(** A configuration of numbers has one meaning at most. *)
Theorem C172_one_output : forall co2 c o o', writable c -> gives_output co2 c o -> gives_output co2 c o' -> o = o'.
Proof. exact one_output. Qed.
Print Assumptions C172_one_output.

Definition sample_file : config given := sample_config Number (Column "phi").
Lemma sample_writable : forall {X} (f : R -> X) p, writable (sample_config f p).
Proof.
  intros X f p. split; [|split; [split|split]].
  - split; [discriminate|]. constructor; [|constructor]. split; left; discriminate.
  - split; [discriminate|]. constructor; [|constructor]. split; left; discriminate.
  - split; [|exact I]. exists 3. reflexivity.
  - repeat split.
  - constructor.
Qed.
Lemma sample_meant : forall co2 phi o, calculate_row co2 (simple_input quartz water 2 1 2 phi []) = Ok o ->
  gives_output co2 (sample_config (fun x => x) phi) o.
Proof.
  intros co2 phi o H.
  pose proof (sample_writable (fun x => x) phi) as T.
  destruct (input_meant (sample_config (fun x => x) phi) (sample_binput (Sc phi)) T (sample_build (Sc phi))) as [i [M E]].
  apply (f_equal (RowSpec.pick_input 0)) in E. rewrite pick_up in E. exists i. split; [exact M|]. rewrite <- E, <- H, <- sample_row. reflexivity.
Qed.
Example C172_nonvacuous : forall co2 st,
  writable sample_file /\ Forall (known ["phi"%string]) (vals_config sample_file) /\ combines sample_file /\
  gives_rows co2 st ["phi"%string] (file sample_file) [(0%Z, [1 / 3]); (1%Z, [1 / 6])]
    [mkRow (8 / 3) 4 2 1 (7 / 3) 4; mkRow 3 4 2 1 (13 / 6) 4].
Proof.
  intros co2 st.
  pose proof (sample_writable Number (Column "phi") : writable sample_file) as T.
  assert (K : Forall (known ["phi"%string]) (vals_config sample_file)) by (repeat constructor).
  assert (C : combines sample_file) by (repeat constructor).
  split; [exact T|]. split; [exact K|]. split; [exact C|]. apply C172_meant_is_output; try assumption; [discriminate|].
  constructor; [apply (sample_meant co2 (1 / 3)), ordinary_row|]. constructor; [|constructor]. apply (sample_meant co2 (1 / 6)).
  rewrite (simple_gassmann co2 (1 / 6) 3) by (lra || field). do 2 f_equal; (lra || field).
Qed.
