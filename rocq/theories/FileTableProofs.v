(** Lemmas: a file with a table of data gives for each row what it means there. *)
From Coq Require Import String List ZArith Lra Lia.
From Verif Require Import Base BaseProofs MaterialModel MineralsModel ConfigModel FluidsModel InputModel InputSpec InputProofs
  MainModel MainSpec RowModel RowSpec
  RowProofs RowConfigProofs RowScalarProofs ReadModel AppModel ReadSpec ReadRowProofs AppProofs FileSpec FileProofs FileRowProofs.
Import ListNotations.
Open Scope R_scope.

(** ** Columns *)
Definition column_of (header : list string) (rows : list row) (s : string) : list R :=
  map (fun r : row => value_in header (snd r) s) rows.
Lemma skip_one : forall (l : list R) k, tl (skipn k l) = skipn (S k) l.
Proof. induction l as [|x l IH]; intros [|k]; try reflexivity. cbn [skipn]. rewrite IH. reflexivity. Qed.
Lemma nth_skip : forall (l : list R) k, nth k l 0 = hd 0 (skipn k l).
Proof. induction l as [|x l IH]; intros [|k]; try reflexivity. cbn [nth skipn]. apply IH. Qed.
Lemma frame_column : forall header rows s k, In s header ->
  find_column (map (fun jn => (snd jn, map (fun r : row => nth (fst jn) (snd r) 0) rows)) (combine (seq k (List.length header)) header)) s
  = Some (map (fun r : row => value_in header (skipn k (snd r)) s) rows).
Proof.
  induction header as [|h header IH]; intros rows s k H; [destruct H|].
  cbn [List.length seq combine map find_column fst snd value_in]. destruct (String.eqb h s) eqn:E.
  - f_equal. apply map_ext. intros r. apply nth_skip.
  - destruct H as [->|H]; [rewrite String.eqb_refl in E; discriminate|]. rewrite (IH rows s (S k) H). f_equal.
    apply map_ext. intros r. rewrite skip_one. reflexivity.
Qed.
Lemma find_frame : forall header rows s, In s header -> find_column (frame header rows) s = Some (column_of header rows s).
Proof. intros header rows s H. apply (frame_column header rows s 0 H). Qed.

(** The numbers of a row put in place of the names of columns. *)
Lemma coefficients_same : forall c, map_coefficients (fun x => x) c = c.
Proof. intros [fl [d|] [p|] [s|]]; reflexivity. Qed.
Lemma option_same : forall A (o : option A), option_map (fun x => x) o = o.
Proof. intros A [x|]; reflexivity. Qed.
Lemma row_is_map : forall header c r, config_of_row header c r = map_config (of_row header r) (fun x => x) c.
Proof.
  intros header [ms fl [m phi adj] p] r. unfold config_of_row, map_config, at_fluids, map_fluids, map_dry_rock, map_pressure.
  cbn [cf_minerals cf_fluids cf_dry_rock cf_pressure dc_model dc_porosity dc_adjustments]. f_equal.
  - f_equal. destruct (fc_brie_gases fl) as [l|]; cbn [option_map]; [rewrite map_id|]; reflexivity.
  - f_equal.
    + destruct m as [q|q|[q|]]; cbn [at_sandstone map_sandstone option_map]; [reflexivity|reflexivity|rewrite coefficients_same; reflexivity|reflexivity].
    + apply map_ext. intros [d q a b|[q|q|d b a|q|q|q]]; cbn [at_adjustment map_adjustment at_dependency map_dependency];
        rewrite ?coefficients_same, ?option_same; reflexivity.
Qed.

Section Table.
Context (st : strings) (header : list string) (rows : list row).
Definition inserted (e : given) : value := match e with Number x => VNum x | Column s => VArray (column_of header rows s) end.
Definition read_given (e : given) : nd := match e with Number x => N0 x | Column s => NCol (column_of header rows s) end.
Definition array_given (e : given) : arr R := match e with Number x => Sc x | Column s => Vec (column_of header rows s) end.
Lemma inserted_ok : forall e, known header e -> insert_from_dataframe (frame header rows) (write_given e) = Ok (inserted e).
Proof. intros [x|s] H; [reflexivity|]. cbn. rewrite find_frame by exact H. reflexivity. Qed.
Lemma read_inserted : forall e, np_array st (inserted e) = Ok (read_given e).
Proof. intros [x|s]; reflexivity. Qed.

Lemma fill_map : forall {X Y} (f : X -> Y) c, fill_config (map_config f (fun x => x) c) = map_config f (fun x => x) (fill_config c).
Proof. intros X Y f [ms fl dr [ov re [pf|] mx [ro|]]]; reflexivity. Qed.
Lemma vals_fill : forall {X} (P : X -> Prop) (c : config X), Forall P (vals_config c) -> Forall P (vals_config (fill_config c)).
Proof.
  intros X P [ms fl dr [ov re pf mx ro]] H. unfold vals_config, fill_config, fill_pressure in *.
  cbn [cf_minerals cf_fluids cf_dry_rock cf_pressure pr_overburden pr_reference pr_fluid pr_max_effective pr_rock] in *.
  repeat (apply Forall_app in H; destruct H as [? H]). inversion H as [|? ? E1 H']; subst. inversion H' as [|? ? E2 H'']; subst.
  apply Forall_app in H''. destruct H'' as [A B]. apply Forall_app in B. destruct B as [B C].
  repeat (apply Forall_app; split; try assumption). constructor; [assumption|]. constructor; [assumption|].
  apply Forall_app. split; [destruct pf; assumption|]. apply Forall_app. split; [assumption|]. destruct ro; assumption.
Qed.
Lemma fixed_same : forall {X} (c : config X), Forall (fun x : nd => x = x) (fixed_config c).
Proof. intros X c. rewrite Forall_forall. reflexivity. Qed.

Lemma file_parsed : forall c, writable c -> Forall (known header) (vals_config c) ->
  parse_input st (file c) (Some (frame header rows)) = build (map_config array_given (fun x => x) (fill_config c)).
Proof.
  intros c T K. unfold parse_input, file.
  rewrite (insert_config (frame header rows) write_given inserted).
  2: { eapply Forall_impl; [|exact K]. apply inserted_ok. }
  cbn [bind]. rewrite (config_read st inserted read_given) by (try assumption; rewrite Forall_forall; intros; apply read_inserted).
  cbn [bind]. rewrite (per_row_ok _ (List.length rows)).
  - cbn [bind]. rewrite map_compose. f_equal. apply config_ext.
    + rewrite Forall_forall. intros [x|s] _; reflexivity.
    + apply fixed_same.
  - rewrite vals_config_map. rewrite Forall_forall. intros x Hx. apply in_map_iff in Hx. destruct Hx as [[y|s] [<- _]]; exact I.
  - rewrite vals_config_map. rewrite Forall_forall. intros x Hx. apply in_map_iff in Hx. destruct Hx as [[y|s] [<- _]]; [exact I|].
    apply map_length.
Qed.

Lemma sized_given : forall c : config given, Forall (wfa (List.length rows)) (vals_config (map_config array_given (fun x => x) c)).
Proof.
  intros c. rewrite vals_config_map. rewrite Forall_forall. intros x Hx. apply in_map_iff in Hx. destruct Hx as [[y|s] [<- _]]; [exact I|].
  apply map_length.
Qed.
Lemma row_given : forall c i r, nth_error rows i = Some r ->
  map_config (obs false i) (fun x => x) (map_config array_given (fun x => x) (fill_config c)) =
  map_config Sc (fun x => x) (fill_config (config_of_row header c r)).
Proof.
  intros c i r H. rewrite row_is_map, fill_map, !map_compose. apply config_ext; [|apply fixed_same].
  rewrite Forall_forall. intros [x|s] _; [reflexivity|]. cbn [array_given of_row obs]. unfold column_of. rewrite nth_error_map, H. reflexivity.
Qed.
End Table.

Lemma writable_map : forall {X Y} (f : X -> Y) c, writable c -> writable (map_config f (fun x => x) c).
Proof.
  intros X Y f [ms fl [m p l] pr] [[N1 T1] [[[N2 T2] [B G]] [T3 T4]]].
  cbn [cf_minerals cf_fluids cf_dry_rock cf_pressure dc_model dc_adjustments] in *.
  assert (A : forall a : arbitrary X, two_properties a -> two_properties (map_arbitrary f a)).
  { intros [d b s vs vp] [H1 H2]. unfold two_properties, map_arbitrary in *. cbn [a_shear a_vs a_bulk a_vp] in *.
    split; [destruct s, vs|destruct b, vp]; cbn [option_map]; (left; discriminate) || (right; discriminate) || (destruct H1; congruence) || (destruct H2; congruence). }
  assert (M : forall cs : list (constituent_cfg X), Forall (fun c => of_material (k_material c)) cs ->
     Forall (fun c => of_material (k_material c)) (map (map_constituent f) cs)).
  { intros cs H. induction H as [|[q x pp] cs H1 H IH]; cbn [map]; constructor; [|exact IH].
    destruct q; cbn in *; try exact I. apply A, H1. }
  assert (D : forall q : dependency_cfg X, of_dependency q -> of_dependency (map_dependency f (fun x => x) q)).
  { intros q H. destruct q as [q|q|a b r|c|c|c]; cbn [of_dependency map_dependency] in *; rewrite ?coefficients_same, ?option_same; try exact H.
    apply A, H. }
  unfold writable. cbn [map_config cf_minerals cf_fluids cf_dry_rock cf_pressure map_dry_rock dc_model dc_adjustments].
  split; [split; [destruct ms; [congruence|discriminate]|apply M, T1]|].
  destruct fl as [t cs mm bc gs pp]. cbn [fc_constituents fc_brie_constant fc_brie_gases] in *. split.
  - unfold of_fluids. cbn [map_fluids fc_constituents fc_brie_constant fc_brie_gases].
    split; [split; [destruct cs; [congruence|discriminate]|apply M, T2]|]. split; [exact B|]. destruct gs as [l'|]; cbn [option_map]; [rewrite map_id|]; exact G.
  - split.
    + destruct m as [q|q|[c|]]; cbn [of_sandstone map_sandstone option_map] in *; rewrite ?coefficients_same; try exact T3. apply A, T3.
    + induction T4 as [|a l H1 H IH]; cbn [map]; constructor; [|exact IH].
      destruct a as [d c r mx|q]; cbn [of_adjustment map_adjustment] in *; rewrite ?coefficients_same; [exact H1|apply D, H1].
Qed.

Lemma pick_opt : forall n x, pick_option n (RowScalarProofs.opt x) = x.
Proof. intros n [x|]; reflexivity. Qed.
Lemma pick_up : forall n i, pick_input n (up_input i) = i.
Proof.
  assert (L : forall {A B} (f : A -> B) (g : B -> A) l, (forall a, g (f a) = a) -> map g (map f l) = l).
  { intros A B f g l H. rewrite map_map. induction l as [|a l IH]; [reflexivity|]. cbn [map]. rewrite H, IH. reflexivity. }
  assert (P : forall n m, pick_mat n (up m) = m) by (intros n []; reflexivity).
  assert (Q : forall n q, pick_patchy n (up_patchy q) = q) by (intros n [[] a b c d e f]; reflexivity).
  assert (F : forall n q, pick_friable n (up_friable q) = q) by (intros n []; reflexivity).
  intros n [ms [t cs mm bc gs pp] fs [m p l] [o r f x k]]. unfold pick_input, up_input, up_fluids, pick_fluids, up_dry_rock, pick_dry_rock, up_pressure, pick_pressure.
  cbn [i_minerals i_fluids i_fluid_fractions i_dry_rock i_pressure bi_minerals bi_fluids bi_fluid_fractions bi_dry_rock bi_pressure
       f_temperature f_constituents f_mix_method f_brie_constant f_brie_gases f_fluid_model
       bf_temperature bf_constituents bf_mix_method bf_brie_constant bf_brie_gases bf_fluid_model
       dr_model dr_porosity dr_adjustments bdr_model bdr_porosity bdr_adjustments
       p_overburden p_reference p_fluid p_max_effective p_rock bp_overburden bp_reference bp_fluid bp_max_effective bp_rock pick].
  rewrite !L, !pick_opt.
  - destruct m as [c|q|q]; cbn [up_rock_model pick_rock_model]; rewrite ?F, ?Q; reflexivity.
  - intros [[d c rr mx]|md]; cbn [up_adjustment pick_adjustment dt_depth dt_coefficients dt_reference dt_max bdt_depth bdt_coefficients bdt_reference bdt_max pick];
      rewrite ?pick_opt; [reflexivity|]. f_equal. destruct md; cbn [up_dependency pick_dependency]; rewrite ?F, ?Q; reflexivity.
  - intros a. apply pick_opt.
  - intros [cm cx cp]. unfold up_constituent, pick_constituent. cbn [c_material c_fraction c_fluid_model bc_material bc_fraction bc_fluid_model pick].
    f_equal. destruct cm; cbn [up_fluid pick_fluid pick]; rewrite ?P; reflexivity.
  - intros [a y]. cbn [fst snd]. rewrite P, pick_opt. reflexivity.
Qed.

(** ** The table *)
Lemma built_dry_rock : forall c b, build c = Ok (Some b) -> build_dry_rock (cf_dry_rock c) = Ok (bi_dry_rock b).
Proof.
  intros c b H. unfold build in H. destruct (sequence _); [|discriminate]. cbn [bind] in H. destruct (build_fluids _); [|discriminate]. cbn [bind] in H.
  destruct (build_dry_rock _) as [d|]; [|discriminate]. cbn [bind] in H. destruct (check_mineral_fractions _); [|discriminate]. cbn [bind] in H.
  destruct (b_complete_fluids _ _); [|discriminate]. cbn [bind] in H. destruct (b_check_dry_rock _); [|discriminate]. cbn [bind] in H.
  destruct (all_some _); [|discriminate]. injection H as <-. reflexivity.
Qed.
Lemma given_combinable : forall header rows c b, combines c ->
  build (map_config (array_given header rows) (fun x => x) (fill_config c)) = Ok (Some b) -> combinable b.
Proof.
  intros header rows [ms fl [m p l] pr] b [C1 C2] H. apply built_dry_rock in H. unfold combinable.
  cbn [map_config fill_config cf_dry_rock map_dry_rock dc_model dc_porosity dc_adjustments] in *.
  unfold build_dry_rock, map_dry_rock in H. cbn [dc_model dc_porosity dc_adjustments] in H.
  destruct (build_sandstone _) as [bm|] eqn:E1; [|discriminate]. cbn [bind] in H. destruct (sequence _) as [bs|] eqn:E2; [|discriminate].
  injection H as <-. cbn [bdr_model bdr_porosity bdr_adjustments].
  assert (V : a_column p -> is_vec (array_given header rows p) = true) by (destruct p; [intros []|reflexivity]).
  split.
  - destruct m as [q|q|[q|]]; cbn [map_sandstone build_sandstone option_map] in E1.
    + destruct (build_patchy _); [|discriminate]. injection E1 as <-. apply V, C1.
    + injection E1 as <-. exact I.
    + injection E1 as <-. exact I.
    + injection E1 as <-. exact I.
  - apply sequence_forall2 in E2. revert bs E2. induction C2 as [|a l A C2 IH]; intros bs E2; cbn [map] in E2; inversion E2 as [|? b' ? bs' E F]; subst; [constructor|].
    constructor; [|apply IH, F]. destruct a as [d c r mx|md]; cbn [map_adjustment build_adjustment] in E.
    + injection E as <-. cbn [combinable_adjustment combinable_depth]. unfold combinable_depth. cbn [bdt_reference bdt_depth].
      destruct r as [[x|s]|]; cbn [option_map array_given]; try exact I. cbn [combines_adjustment] in A. destruct d; [destruct A|reflexivity].
    + destruct md as [q|q|x y z|q|q|q]; cbn [map_dependency build_dependency] in E;
        repeat match type of E with
               | context [build_patchy ?r] => destruct (build_patchy r); [|discriminate E]; cbn [bind] in E
               | context [list_opt ?r] => destruct (list_opt r); [|discriminate E]; cbn [bind] in E
               | context [list_coefficients ?r] => destruct (list_coefficients r); [|discriminate E]; cbn [bind] in E
               end; cbn [bind] in E;
        injection E as <-; cbn [combinable_adjustment combinable_dependency combines_adjustment] in *; try exact I; apply V, A.
Qed.

Lemma outputs_forall2 : forall {A B} (P : A -> B -> Prop) l m, List.length m = List.length l ->
  (forall i a, nth_error l i = Some a -> exists b, nth_error m i = Some b /\ P a b) -> Forall2 P l m.
Proof.
  intros A B P l. induction l as [|a l IH]; intros [|b m] L H; try discriminate L; [constructor|].
  constructor.
  - destruct (H 0%nat a eq_refl) as [b' [E X]]. injection E as <-. exact X.
  - apply IH; [injection L as L; exact L|]. intros i x E. exact (H (S i) x E).
Qed.
Lemma forall2_nth : forall {A B} (P : A -> B -> Prop) l m, Forall2 P l m ->
  List.length m = List.length l /\ forall i a, nth_error l i = Some a -> exists b, nth_error m i = Some b /\ P a b.
Proof.
  intros A B P l m H. induction H as [|a b l m X H [L IH]]; [split; [reflexivity|intros [|i] a E; discriminate]|].
  split; [cbn [List.length]; rewrite L; reflexivity|]. intros [|i] x E; [injection E as <-; exists b; split; [reflexivity|exact X]|apply IH, E].
Qed.
Lemma row_before : forall (rows : list row) i, (i < List.length rows)%nat -> exists r, nth_error rows i = Some r.
Proof. intros rows i H. destruct (nth_error rows i) as [r|] eqn:E; [exists r; reflexivity|]. apply nth_error_None in E. lia. Qed.
Lemma row_within : forall (rows : list row) i r, nth_error rows i = Some r -> (i < List.length rows)%nat.
Proof. intros rows i r H. apply nth_error_Some. rewrite H. discriminate. Qed.

Lemma file_meant : forall co2 st header c rows outs, writable c -> Forall (known header) (vals_config c) -> rows <> [] ->
  gives_rows co2 st header (file c) rows outs ->
  Forall2 (fun r o => gives_output co2 (config_of_row header c r) o) rows outs.
Proof.
  intros co2 st header c rows outs T K N [inp [H1 H2]].
  assert (Hn : (0 < List.length rows)%nat) by (destruct rows; [congruence|cbn [List.length]; lia]).
  rewrite file_parsed in H1 by assumption.
  pose proof (row_build false true (List.length rows) Hn _ (sized_given header rows (fill_config c))) as A. rewrite H1 in A.
  destruct inp as [b|]; [|discriminate H2]. destruct A as [W A]. cbn [sized batch_option batch_input] in W.
  rewrite calculate_input_results in H2 by assumption.
  pose proof (batch_scalar co2 (List.length rows) b true Hn W (or_introl eq_refl)) as B. rewrite H2 in B. destruct B as [B1 B2].
  apply outputs_forall2; [exact B1|]. intros i r Hr. pose proof (row_within rows i r Hr) as Hi.
  destruct (B2 i Hi) as [o [O1 O2]]. exists o. split; [exact O1|]. specialize (A i Hi). cbv beta in A.
  rewrite (row_given header rows c i r Hr) in A. cbn [at_row batch_option batch_input] in A.
  apply input_meant in A; [|rewrite row_is_map; apply writable_map, T]. destruct A as [inp [M E]].
  rewrite (obs_pick_input (List.length rows) i Hi b W) in E. apply (f_equal (pick_input 0)) in E. rewrite !pick_up in E. subst inp.
  exists (pick_input i b). split; assumption.
Qed.
Lemma file_calculated : forall co2 st header c rows outs, writable c -> Forall (known header) (vals_config c) -> combines c -> rows <> [] ->
  Forall2 (fun r o => gives_output co2 (config_of_row header c r) o) rows outs ->
  gives_rows co2 st header (file c) rows outs.
Proof.
  intros co2 st header c rows outs T K C N H. apply forall2_nth in H. destruct H as [L H].
  assert (Hn : (0 < List.length rows)%nat) by (destruct rows; [congruence|cbn [List.length]; lia]).
  pose proof (row_build false false (List.length rows) Hn _ (sized_given header rows (fill_config c))) as A.
  assert (R : forall i r, nth_error rows i = Some r -> exists j o, nth_error outs i = Some o /\ calculate_row co2 j = Ok o /\
    build (map_config (obs false i) (fun x => x) (map_config (array_given header rows) (fun x => x) (fill_config c))) = Ok (Some (up_input j))).
  { intros i r Hr. destruct (H i r Hr) as [o [O1 [j [M O2]]]]. exists j, o. split; [exact O1|]. split; [exact O2|].
    rewrite (row_given header rows c i r Hr). eapply input_built; [rewrite row_is_map; apply writable_map, T|exact M|exact O2]. }
  destruct (build (map_config (array_given header rows) (fun x => x) (fill_config c))) as [b|e] eqn:E.
  - destruct A as [W A].
    assert (B : exists b', b = Some b').
    { destruct b as [b'|]; [exists b'; reflexivity|]. destruct (row_before rows 0 Hn) as [r Hr].
      destruct (R 0%nat r Hr) as [j [o [_ [_ B]]]]. specialize (A 0%nat Hn). cbv beta in A. rewrite B in A. discriminate A. }
    destruct B as [b' ->]. cbn [sized batch_option batch_input] in W.
    exists (Some b'). split; [rewrite file_parsed by assumption; exact E|]. rewrite calculate_input_results by assumption.
    pose proof (given_combinable header rows c b' C E) as Cb.
    pose proof (batch_scalar co2 (List.length rows) b' false Hn W (or_intror Cb)) as B.
    assert (Pk : forall i r, nth_error rows i = Some r -> exists o, nth_error outs i = Some o /\ calculate_row co2 (pick_input i b') = Ok o).
    { intros i r Hr. destruct (R i r Hr) as [j [o [O1 [O2 O3]]]]. exists o. split; [exact O1|]. pose proof (row_within rows i r Hr) as Hi.
      specialize (A i Hi). cbv beta in A. rewrite O3 in A. cbn [at_row batch_option batch_input] in A.
      assert (I : up_input j = obs_input false i b') by congruence. clear A. rename I into A.
      rewrite (obs_pick_input (List.length rows) i Hi b' W) in A. apply (f_equal (pick_input 0)) in A. rewrite !pick_up in A. subst j. exact O2. }
    destruct (b_results co2 (List.length rows) b') as [rs|e].
    + f_equal. destruct B as [B1 B2]. apply nth_error_ext; [congruence|]. intros i Hi. rewrite B1 in Hi.
      destruct (B2 i Hi) as [o' [O1 O2]]. destruct (row_before rows i Hi) as [r Hr]. destruct (Pk i r Hr) as [o'' [P1 P2]]. congruence.
    + destruct B as [[F _]|[i [Hi B]]]; [discriminate|]. destruct (row_before rows i Hi) as [r Hr]. destruct (Pk i r Hr) as [o [_ P]]. congruence.
  - destruct A as [[_ [F _]]|[i [Hi A]]]; [discriminate|]. destruct (row_before rows i Hi) as [r Hr]. destruct (R i r Hr) as [j [o [_ [_ B]]]]. congruence.
Qed.

(** ** Without data *)
Lemma numbers_parsed : forall st c, writable c ->
  parse_input st (write_config VNum c) None = build (map_config Sc (fun x => x) (fill_config c)).
Proof.
  intros st c T.
  assert (G : forall c : config R, Forall (fun x => insert_from_dataframe [] (VNum x) = Ok (VNum x)) (vals_config c))
    by (intros c'; rewrite Forall_forall; reflexivity).
  pose proof (insert_config [] VNum VNum c (G c)) as I.
  assert (E : insert_dataframe (write_config VNum c) None = Ok (VDict (write_config VNum c ++ [("data"%string, VNull)]))).
  { unfold insert_dataframe in *. apply insertion in I. destruct I as [_ [I _]].
    destruct (check_outcome (VDict (write_config VNum c ++ [("data"%string, VFrame [])]))) as [[_ H]|[[m H] _]]; [|exfalso; exact (I m H)].
    change (set_key "data" VNull (write_config VNum c)) with (write_config VNum c ++ [("data"%string, VNull)]). cbv zeta.
    change (check_no_column_reference (VDict (write_config VNum c ++ [("data"%string, VNull)])) = Ok tt) in H. rewrite H. reflexivity. }
  unfold parse_input. rewrite E. cbn [bind].
  rewrite (config_read st VNum N0) by (try assumption; rewrite Forall_forall; reflexivity). cbn [bind].
  rewrite (per_row_ok _ 1%nat).
  - cbn [bind]. rewrite map_compose. f_equal.
  - rewrite vals_config_map. rewrite Forall_forall. intros x Hx. apply in_map_iff in Hx. destruct Hx as [y [<- _]]; exact Logic.I.
  - rewrite vals_config_map. rewrite Forall_forall. intros x Hx. apply in_map_iff in Hx. destruct Hx as [y [<- _]]; exact Logic.I.
Qed.
Lemma numbers_meant : forall co2 st c o, writable c ->
  ((exists inp, parse_input st (write_config VNum c) None = Ok inp /\ calculate_input co2 1 inp = Ok [o]) <-> gives_output co2 c o).
Proof.
  intros co2 st c o T. rewrite numbers_parsed by exact T.
  assert (C : forall i, calculate_input co2 1 (Some (up_input i)) = rmap (fun o => [o]) (calculate_row co2 i)).
  { intros i. cbn [calculate_input]. rewrite sc_calculate. destruct (calculate_row co2 i) as [[]|]; reflexivity. }
  split.
  - intros [[b|] [H1 H2]]; [|discriminate H2]. apply input_meant in H1; [|exact T]. destruct H1 as [i [M ->]]. exists i. split; [exact M|].
    rewrite C in H2. destruct (calculate_row co2 i); [|discriminate]. cbn [rmap] in H2. congruence.
  - intros [i [M H]]. exists (Some (up_input i)). split; [eapply input_built; eassumption|]. rewrite C, H. reflexivity.
Qed.
Lemma one_output : forall co2 c o o', writable c -> gives_output co2 c o -> gives_output co2 c o' -> o = o'.
Proof.
  intros co2 c o o' T H H'. set (st := mkStrings (fun _ => None) (fun _ => None)).
  apply (numbers_meant co2 st) in H; [|exact T]. apply (numbers_meant co2 st) in H'; [|exact T].
  destruct H as [i [P Q]], H' as [j [P' Q']]. congruence.
Qed.
