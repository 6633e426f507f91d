(** Theorems about configuration files and their documentation (properties
    C148-C155). *)
From Coq Require Import String List ZArith Lra Lia.
From Verif Require Import Base BaseProofs MaterialModel ConfigModel FluidsModel InputModel InputSpec MainModel MainSpec RowModel RowScalarProofs ReadModel AppModel
  ReadSpec AppProofs AppExampleProofs SchemaSpec SchemaProofs ReorderProofs RunProofs DocSpec DocProofs DefaultProofs FamilyProofs SchemaAcceptProofs.
Import ListNotations.
Open Scope R_scope.

(** C148: a configuration with which anything is written has the documented
    sections and keys only, with all the required keys, with numbers where numbers
    belong, words from the lists of words, and matrices with rows of equal length. *)
Theorem C148_schema : forall co2 st header items data write compare c w, distinct (VDict items) ->
  run (app co2 st header (VDict items) data write compare) None = Ret (c, Some w) -> conforms st config_schema (VDict items).
Proof.
  intros co2 st header items data write compare c w D H. apply default_writes_iff in H. destruct H as (i & P & _).
  apply parse_rows_ret in P. destruct P as [P _]. eapply accepted_conforms; eassumption.
Qed.
Print Assumptions C148_schema.
(** The same for a row calculated alone, as with a threshold. *)
Theorem C148_row_schema : forall co2 st header items all write compare r out, distinct (VDict items) ->
  row_gives (app co2 st header (VDict items) all write compare) items r out -> conforms st config_schema (VDict items).
Proof.
  intros co2 st header items all write compare r out D (i & P & _). cbn [app parse] in P.
  apply parse_rows_ret in P. destruct P as [P _]. eapply accepted_conforms; eassumption.
Qed.
Print Assumptions C148_row_schema.
Example C148_nonvacuous : forall co2 st, exists w,
  distinct (VDict (sample_items from_column)) /\
  run (app co2 st ["phi"%string] (VDict (sample_items from_column)) (Some [(0%Z, [1 / 3])]) accept None) None = Ret (0%Z, Some w).
Proof.
  intros co2 st. eexists. split; [unfold sample_items, pure, material_item, from_column; distinct_tac|].
  pose proof (default_run co2 st ["phi"%string] (sample_items from_column) accept None _ _ (sample_first co2 st)) as E.
  cbn [accept] in E. exact E.
Qed.
(** In particular a misspelt section or key is never ignored. *)
Theorem C148_unknown_section : forall items k v, distinct (VDict items) -> In (k, v) items ->
  ~ In k ["data"; "minerals"; "fluids"; "dry_rock"; "pressure"]%string -> refused items.
Proof.
  intros items k v D I N. apply refuse; [exact D|]. intros st C. destruct (record_field _ _ _ _ _ _ C I) as (b & s & X & _).
  apply N. apply (in_map fst _ _ X).
Qed.
Print Assumptions C148_unknown_section.
Example C148_unknown_nonvacuous : refused [("mineral"%string, pure 4 1 3)].
Proof.
  eapply C148_unknown_section; [unfold pure, material_item; distinct_tac|left; reflexivity|cbn; intuition discriminate].
Qed.

(** With the columns put in, what is read conforms, and what is refused does not. *)
Theorem C148_exact : forall st items data v, distinct (VDict items) -> insert_dataframe items data = Ok v ->
  (forall c, read_config st v = Ok c -> conforms st config_schema v) /\
  (read_config st v = Err ValueError -> ~ conforms st config_schema v).
Proof.
  intros st items data v D H. split.
  - intros c R. eapply config_reads; [|exact R]. eapply (insert_conforms st); eassumption.
  - intros R C. apply (conforming_read st items data v D H C R).
Qed.
Print Assumptions C148_exact.
Example C148_exact_nonvacuous : forall st, (exists v c, insert_dataframe (sample_items from_column) (Some [("phi"%string, [1 / 3])]) = Ok v /\
    read_config st v = Ok c) /\
  (exists v, insert_dataframe [("fluids", VDict [("mix_method", VStr "voigt")])]%string None = Ok v /\ read_config st v = Err ValueError).
Proof. intros st. split; [do 2 eexists|eexists]; split; reflexivity. Qed.

(** C149: a [type] that is given is the one that is used. *)
Theorem C149_types : forall st items s, NoDup (map fst items) -> In ("type"%string, VStr s) items ->
  (forall m, read_material st (VDict items) = Ok m -> material_kind m = s) /\
  (forall m, read_dependency st (VDict items) = Ok m -> dependency_kind m = s) /\
  (forall m, read_sandstone st (VDict items) = Ok m -> sandstone_kind m = s) /\
  (forall m, first_of [read_depth_trend st; read_pressure_dependency st] (VDict items) = Ok m -> adjustment_kind m = s).
Proof.
  intros st items s N I. assert (G := get_distinct _ _ _ N I). destruct (types st) as (A & B & C & D).
  repeat split; intros m H; symmetry; eauto.
Qed.
Print Assumptions C149_types.
Example C149_nonvacuous : forall st, exists m,
  read_dependency st (VDict [("type", VStr "expfit"); ("coefficients", VDict [("density", VList [VNum 1; VNum 1; VNum 1])])]%string) = Ok m /\
  dependency_kind m = "expfit"%string.
Proof. intros st. eexists. split; reflexivity. Qed.

(** C150: leaving a key out is writing its default. *)
Theorem C150_defaults : forall co2 st header a b s k d l data write compare t, In (s, (k, d)) defaults ->
  ~ In k (map fst l) -> (forall n, l <> [("column"%string, n)]) ->
  run (app co2 st header (VDict (a ++ (s, VDict (l ++ [(k, d)])) :: b)) data write compare) t =
  run (app co2 st header (VDict (a ++ (s, VDict l) :: b)) data write compare) t.
Proof. intros. apply same_run. intros data'. apply default_key; assumption. Qed.
Print Assumptions C150_defaults.
(** Leaving a section out is writing an empty one. *)
Theorem C150_sections : forall co2 st header a b s data write compare t, In s ["minerals"; "fluids"; "dry_rock"; "pressure"]%string ->
  ~ In s (map fst (a ++ b)) ->
  run (app co2 st header (VDict (a ++ (s, VDict []) :: b)) data write compare) t =
  run (app co2 st header (VDict (a ++ b)) data write compare) t.
Proof. intros. apply same_run. intros data'. apply empty_section; assumption. Qed.
Print Assumptions C150_sections.
Example C150_nonvacuous : In ("pressure"%string, ("fluid"%string, VNum (70 * 10 ^ 6))) defaults /\
  ~ In "fluid"%string (map fst [("overburden"%string, VNum 100)]).
Proof. split; [cbn; tauto|]. cbn. intuition discriminate. Qed.

(** C151: the configurations in the documentation are accepted.  Five are not:
    [pressure] is no key of [fluids] any more, the pressures are no keys of a
    pressure dependency, and expfit and logfit take no [vp_over_vs]. *)
Theorem C151_refuted : exists items, In items documented /\ refused items.
Proof. exists tutorial. split; [left; reflexivity|apply tutorial_refused]. Qed.
Print Assumptions C151_refuted.
Theorem C151_refused : refused tutorial /\ refused started_fluids /\ refused started_dry_rock /\
  (forall name k1 k2 k3 v1 v2 v3 d1 d2 d3, name = "expfit"%string \/ name = "logfit"%string ->
   refused (printed_fit name [k1; k2; k3] [v1; v2; v3] [d1; d2; d3])).
Proof. split; [exact tutorial_refused|]. split; [exact started_fluids_refused|]. split; [exact started_dry_rock_refused|exact printed_fit_refused]. Qed.
Print Assumptions C151_refused.
(** Two of the three sections of the tutorial are refused on their own. *)
Theorem C151_tutorial_sections : forall k v, In (k, v) tutorial -> k <> "minerals"%string -> refused [(k, v)].
Proof. exact tutorial_sections_refused. Qed.
Print Assumptions C151_tutorial_sections.
Example C151_nonvacuous : exists k v, In (k, v) tutorial /\ k <> "minerals"%string.
Proof. exists "dry_rock"%string. eexists. split; [right; right; left; reflexivity|discriminate]. Qed.

(** C152: the configurations of the examples are accepted. *)
Theorem C152_examples : forall items, In items [example1; example2; example3; example4; carbon_dioxide_example; printed_adjustments] ->
  accepted_with items columns_used.
Proof.
  intros items H. cbn in H. destruct H as [<-|[<-|[<-|[<-|[<-|[<-|[]]]]]]];
  [apply example1_accepted|apply example2_accepted|apply example3_accepted|apply example4_accepted|apply carbon_dioxide_accepted|apply adjustments_accepted].
Qed.
Print Assumptions C152_examples.
Theorem C152_without_data : forall st items, In items [friable_sand_example; patchy_cement_example] ->
  exists inp, parse_input st items None = Ok (Some inp).
Proof. intros st items H. cbn in H. destruct H as [<-|[<-|[]]]; [apply friable_example_accepted|apply patchy_example_accepted]. Qed.
Print Assumptions C152_without_data.
Example C152_nonvacuous : forall n, In n columns_used -> In n (map fst (map (fun n => (n, [0])) columns_used)).
Proof. intros n H. rewrite map_map. cbn [fst]. rewrite map_id. exact H. Qed.

(** C153: without [type], a pressure fit is never polyfit or expfit, and a dry
    rock model without coefficients is not polyfit although that is the
    default. *)
Theorem C153_untyped : forall st items, ~ In "type"%string (map fst items) ->
  (forall m, read_dependency st (VDict items) = Ok m -> dependency_kind m <> "polyfit"%string /\ dependency_kind m <> "expfit"%string) /\
  (forall m, ~ In "coefficients"%string (map fst items) -> read_sandstone st (VDict items) = Ok m -> sandstone_kind m <> "polyfit"%string).
Proof. intros st items N. split; intros m; [apply untyped_fits, N|]. intros C. apply untyped_rock; assumption. Qed.
Print Assumptions C153_untyped.
Example C153_nonvacuous : forall st, exists m,
  read_dependency st (VDict [("coefficients", VDict [("density", VList [VNum 1; VNum 1]); ("shear_modulus", VList [VNum 1])])]%string) = Ok m /\
  dependency_kind m = "logfit"%string.
Proof. intros st. eexists. split; reflexivity. Qed.
Theorem C153_refuted : exists items, forall st, exists m m',
  read_sandstone st (VDict items) = Ok m /\ read_sandstone st (VDict (("type"%string, VStr "polyfit") :: items)) = Ok m' /\
  sandstone_kind m = "patchy_cement"%string /\ sandstone_kind m' = "polyfit"%string.
Proof. exists []. intros st. do 2 eexists. repeat split; reflexivity. Qed.
Print Assumptions C153_refuted.

(** C154: a configuration that is accepted can be calculated.  It cannot when a
    mineral is a fluid. *)
Theorem C154_refuted : exists items, forall co2 st,
  (exists i, parse_rows st [] items None = Ret i) /\
  forall write compare c w, run (app co2 st [] (VDict items) None write compare) None <> Ret (c, Some w).
Proof.
  exists brine_items. intros co2 st. assert (P : parse_rows st [] brine_items None = Ret ([0%Z], None)).
  { unfold parse_rows. cbn [option_map]. rewrite brine_parse. reflexivity. }
  split; [eexists; exact P|]. intros write compare c w H. apply default_writes_iff in H. destruct H as (i & P' & C & _).
  rewrite P in P'. injection P' as <-. discriminate C.
Qed.
Print Assumptions C154_refuted.

(** C155: the materials of an accepted configuration are possible ones.  Their
    density, moduli and velocities are not checked, and the run completes. *)
Theorem C155_refuted : exists items l, In ("minerals"%string, VDict [("constituents"%string, VList [VDict [("material"%string, VDict l)]])]) items /\
  (exists d mu v, In ("density"%string, VNum d) l /\ In ("shear_modulus"%string, VNum mu) l /\ In ("primary_velocity"%string, VNum v) l /\
     d < 0 /\ mu < 0 /\ v < 0) /\
  forall co2 st, exists w, run (app co2 st [] (VDict items) None accept None) None = Ret (0%Z, Some w).
Proof.
  exists strange_items. eexists. split; [left; reflexivity|]. split.
  - exists (-3), (-1), (-2). repeat split; try lra; cbn; tauto.
  - intros co2 st. eexists. apply default_writes_iff. exists ([0%Z], Some (family_binput (up (mkMat 4 (-1) (-3) (-2) (-1))) 3 (N0 2) (Sc (1 / 3)))).
    split; [unfold parse_rows; cbn [option_map]; rewrite strange_parse; reflexivity|].
    split; [unfold AppModel.calculate_rows; cbn [fst snd List.length]; rewrite strange_outputs; reflexivity|].
    split; reflexivity.
Qed.
Print Assumptions C155_refuted.
