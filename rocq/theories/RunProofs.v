(** Lemmas about whole runs: labels, the data key, literal lists. *)
From Coq Require Import String List ZArith Lra Lia Permutation.
From Verif Require Import Base BaseProofs FluidsModel InputModel InputSpec InputProofs MainModel MainSpec MainProofs RowModel RowSpec RowProofs
  ReadModel AppModel ReadSpec ReadProofs ReadRowProofs AppProofs AppExampleProofs SchemaSpec SchemaProofs ReorderProofs.
Import ListNotations.
Open Scope R_scope.

(** ** Labels *)
Lemma combine_labels : forall {A B} (a : list A) (b : list B), List.length b = List.length a -> map fst (combine a b) = a.
Proof.
  intros A B a. induction a as [|x a IH]; intros [|y b] L; try discriminate L; [reflexivity|]. cbn. f_equal. apply IH. cbn in L. lia.
Qed.
Lemma calibrate_writes : forall {Row Inp Out} (p : program Row Inp Out) r c w, calibrate_and_exit p r = (c, Some w) -> w = r.
Proof. intros Row Inp Out p r c w H. destruct (calibrate_shape p r) as [c' [E _]]. rewrite E in H. congruence. Qed.
Lemma make_input_app : forall co2 st header items data write compare,
  make_input (app co2 st header (VDict items) data write compare) =
  match parse_rows st header items data with
  | Ret i => Ret i
  | Raise e => make_input (app co2 st header (VDict items) data write compare)
  end.
Proof.
  intros. unfold make_input, load_config_from_yaml, load_data_from_csv. cbn [app yaml_load csv_read parse].
  destruct data as [rows|]; cbn [option_map then_ try_]; destruct (parse_rows _ _ _ _); reflexivity.
Qed.
Lemma default_labels : forall co2 st header items data write compare c w,
  run (app co2 st header (VDict items) data write compare) None = Ret (c, Some w) ->
  map fst w = match data with Some rows => map fst rows | None => [0%Z] end.
Proof.
  intros co2 st header items data write compare c w H. set (p := app co2 st header (VDict items) data write compare) in *.
  unfold run in H. destruct (make_input p) as [i|e] eqn:M; [|destruct e; discriminate H].
  assert (L : fst i = match data with Some rows => map fst rows | None => [0%Z] end).
  { unfold make_input, load_config_from_yaml, load_data_from_csv in M. cbn [p app yaml_load csv_read parse] in M.
    assert (Q : parse_rows st header items data = Ret i).
    { destruct data as [rows|]; cbn [option_map then_ try_] in M;
        match type of M with try_ ?x _ = _ => destruct x as [j|e] eqn:X end; cbn [try_] in M;
        try (destruct e; discriminate M); injection M as <-; reflexivity. }
    unfold parse_rows in Q. apply raise_parse_ret in Q. apply rmap_ok in Q. destruct Q as [a [_ ->]]. reflexivity. }
  destruct (calculate p i) as [r|e] eqn:K; [|destruct (is_value_error e); discriminate H].
  destruct (MainModel.write p r); [|discriminate H]. injection H as H. apply calibrate_writes in H. subst w.
  cbn [p app calculate] in K. unfold AppModel.calculate_rows in K. apply raise_calculate_ret in K. apply rmap_ok in K.
  destruct K as [outs [K ->]]. rewrite combine_labels; [exact L|]. eapply calculate_input_length, K.
Qed.
Lemma threshold_labels : forall co2 st header items rows good write compare t c w,
  succeeding (app co2 st header (VDict items) (Some rows) write compare) items rows good ->
  run (app co2 st header (VDict items) (Some rows) write compare) (Some t) = Ret (c, Some w) ->
  map fst w = map fst good.
Proof.
  intros co2 st header items rows good write compare t c w S H.
  destruct (succeeding_gives co2 st header items write compare rows rows good S) as [outs [F [G _]]].
  destruct (threshold_output (app co2 st header (VDict items) (Some rows) write compare) items rows _ _ t eq_refl eq_refl G) as (c' & w' & E & _ & W & _). rewrite E in H. injection H as -> ->.
  rewrite (W w eq_refl), concat_singletons. apply combine_labels. rewrite map_length. clear -F. induction F; cbn; congruence.
Qed.

(** ** Runs of configurations that are read alike *)
Lemma rows_same_run : forall co2 st header items items' rows write compare t,
  (forall r i, parse_rows st header items (Some [r]) = Ret i <-> parse_rows st header items' (Some [r]) = Ret i) ->
  run (app co2 st header (VDict items) (Some rows) write compare) (Some t) =
  run (app co2 st header (VDict items') (Some rows) write compare) (Some t).
Proof.
  intros co2 st header items items' rows write compare t H.
  unfold run, run_with_threshold, make_per_row_input, load_config_from_yaml, load_data_from_csv.
  cbn [app yaml_load csv_read option_map then_ try_].
  assert (E : map (MainProofs.row_input (app co2 st header (VDict items) (Some rows) write compare) items) rows
            = map (MainProofs.row_input (app co2 st header (VDict items') (Some rows) write compare) items') rows).
  { apply map_ext. intros r. unfold MainProofs.row_input. cbn [app parse]. specialize (H r).
    destruct (parse_rows st header items (Some [r])) as [i|e].
    - rewrite (proj1 (H i) eq_refl). reflexivity.
    - destruct (parse_rows st header items' (Some [r])) as [i|e']; [|reflexivity]. discriminate (proj2 (H i) eq_refl). }
  assert (K : forall l, MainModel.calculate_rows (app co2 st header (VDict items) (Some rows) write compare) l =
                        MainModel.calculate_rows (app co2 st header (VDict items') (Some rows) write compare) l).
  { intros l. induction l as [|[i|] l IH]; [reflexivity| |]; cbn [MainModel.calculate_rows]; rewrite IH; reflexivity. }
  unfold MainProofs.row_input in E. rewrite K. cbn [app parse] in E |- *. rewrite E. reflexivity.
Qed.
Lemma same_run : forall co2 st header items items' data write compare t,
  (forall data, parse_input st items data = parse_input st items' data) ->
  run (app co2 st header (VDict items) data write compare) t =
  run (app co2 st header (VDict items') data write compare) t.
Proof.
  intros co2 st header items items' data write compare [t|] H.
  - destruct data as [rows|]; [|reflexivity]. apply rows_same_run. intros r i. unfold parse_rows. rewrite H. reflexivity.
  - unfold run, make_input, load_config_from_yaml, load_data_from_csv. cbn [app yaml_load csv_read parse]. unfold parse_rows.
    destruct data as [rows|]; cbn [option_map then_ try_]; rewrite H; reflexivity.
Qed.
Lemma parse_rows_ret : forall st header items data i, parse_rows st header items data = Ret i <->
  parse_input st items (option_map (frame header) data) = Ok (snd i) /\
  fst i = match data with Some rows => map fst rows | None => [0%Z] end.
Proof.
  intros st header items data [l b]. unfold parse_rows. rewrite raise_parse_ret, rmap_ok. cbn [fst snd]. split.
  - intros [a [E X]]. injection X as -> ->. split; [exact E|reflexivity].
  - intros [E ->]. exists b. split; [exact E|reflexivity].
Qed.
Lemma default_writes_iff : forall co2 st header items data write compare c w,
  run (app co2 st header (VDict items) data write compare) None = Ret (c, Some w) <->
  exists i, parse_rows st header items data = Ret i /\ calculate_rows co2 i = Ret w /\ write w = Ret tt /\
    calibrate_and_exit (app co2 st header VNull data write compare) w = (c, Some w).
Proof.
  intros co2 st header items data write compare c w.
  unfold run, make_input, load_config_from_yaml, load_data_from_csv. cbn [app yaml_load csv_read parse calculate MainModel.write].
  set (x := parse_rows st header items data). split.
  - intros H. assert (Q : exists i, x = Ret i).
    { destruct data as [rows|]; cbn [option_map then_ try_] in H; change (parse_rows st header items _) with x in H;
        destruct x as [i|e]; try (exists i; reflexivity); destruct e; discriminate H. }
    destruct Q as [i Q]. exists i. split; [exact Q|]. unfold x in *. clear x.
    assert (H' : match calculate_rows co2 i with
                 | Raise e => if is_value_error e then Ret ((-3)%Z, None) else Ret ((-1)%Z, None)
                 | Ret r => match write r with Raise _ => Ret ((-1)%Z, None)
                            | Ret _ => Ret (calibrate_and_exit (app co2 st header VNull data write compare) r) end end = Ret (c, Some w)).
    { destruct data as [rows|]; cbn [option_map then_ try_] in H; rewrite Q in H; exact H. }
    destruct (calculate_rows co2 i) as [r|e]; [|destruct (is_value_error e); discriminate H'].
    destruct (write r) as [[]|] eqn:W; [|discriminate H']. injection H' as H'. pose proof (calibrate_writes _ _ _ _ H') as E. subst r.
    repeat split; assumption.
  - intros (i & X & K & W & C). assert (E : calibrate_and_exit (app co2 st header (VDict items) data write compare) w = (c, Some w)) by exact C.
    unfold x in *. clear x. destruct data as [rows|]; cbn [option_map then_ try_]; rewrite X; cbn [try_]; rewrite K, W, E; reflexivity.
Qed.
Lemma key_order_run : forall co2 st header items items' write compare, distinct (VDict items) -> reordered (VDict items) (VDict items') ->
  let p c data := app co2 st header (VDict c) data write compare in
  (forall data c w, run (p items data) None = Ret (c, Some w) <-> run (p items' data) None = Ret (c, Some w)) /\
  (forall data t, run (p items data) (Some t) = run (p items' data) (Some t)).
Proof.
  intros co2 st header items items' write compare D E p. unfold p. split.
  - intros data c w. rewrite !default_writes_iff. split; intros (i & X & Y); exists i; (split; [|exact Y]);
      apply parse_rows_ret; apply parse_rows_ret in X; (split; [apply (key_order st items items' _ D E), X|apply X]).
  - intros [rows|] t; [|reflexivity]. apply rows_same_run. intros r i. rewrite !parse_rows_ret.
    rewrite (key_order st items items' _ D E). reflexivity.
Qed.

(** ** The key "data" *)
Lemma insert_items_app : forall t a b, insert_items t (a ++ b) =
  let* x := insert_items t a in let* y := insert_items t b in Ok (x ++ y).
Proof.
  intros t a b. induction a as [|[k v] a IH].
  - change (insert_items t []) with (@Ok (list (string * value)) []). cbn [List.app bind]. destruct (insert_items t b); reflexivity.
  - simpl. destruct (insert_from_dataframe t v) as [w|]; [|reflexivity]. cbn [bind].
    change (insert_items t (a ++ b)) with (insert_items t (a ++ b)) in IH. rewrite IH.
    destruct (insert_items t a) as [x|]; [|reflexivity]. cbn [bind]. destruct (insert_items t b); reflexivity.
Qed.
Lemma set_data_here : forall u v a b, ~ In "data"%string (map fst a) -> set_key "data" v (a ++ ("data"%string, u) :: b) = a ++ ("data"%string, v) :: b.
Proof.
  intros u v a b N. induction a as [|[k w] a IH]; [reflexivity|]. cbn [List.app set_key]. cbn [map fst] in N.
  destruct (String.eqb_spec k "data") as [->|_]; [exfalso; apply N; left; reflexivity|]. rewrite IH; [reflexivity|]. intros X. apply N. right. exact X.
Qed.
Lemma set_data_end : forall v a, ~ In "data"%string (map fst a) -> set_key "data" v a = a ++ [("data"%string, v)].
Proof.
  intros v a N. induction a as [|[k w] a IH]; [reflexivity|]. cbn [List.app set_key]. cbn [map fst] in N.
  destruct (String.eqb_spec k "data") as [->|_]; [exfalso; apply N; left; reflexivity|]. rewrite IH; [reflexivity|]. intros X. apply N. right. exact X.
Qed.
Lemma reordered_refl : forall v, reordered v v.
Proof.
  intros v. induction v as [v H1 H2|l F|items F] using value_tree_ind.
  - apply reordered_leaf; assumption.
  - apply reordered_list. induction F; constructor; assumption.
  - apply reordered_dict with items; [|apply Permutation_refl]. induction F; constructor; [split; [reflexivity|assumption]|assumption].
Qed.
Lemma permuted : forall a b, Permutation a b -> reordered (VDict a) (VDict b).
Proof.
  intros a b P. apply reordered_dict with a; [|exact P]. clear P b. induction a as [|x a IH]; constructor; [|exact IH].
  split; [reflexivity|apply reordered_refl].
Qed.
Lemma data_key : forall st a u b data, distinct (VDict (a ++ ("data"%string, u) :: b)) ->
  parse_input st (a ++ ("data"%string, u) :: b) data = parse_input st (a ++ b) data.
Proof.
  intros st a u b data D. pose proof D as D0. apply distinct_dict_inv in D0. destruct D0 as [N D0].
  rewrite map_app in N. cbn [map fst] in N. apply NoDup_remove in N. destruct N as [ND N].
  assert (Na : ~ In "data"%string (map fst a)) by (intros X; apply N, in_or_app; left; exact X).
  assert (Nab : ~ In "data"%string (map fst (a ++ b))) by (rewrite map_app; exact N).
  unfold parse_input. destruct data as [t|].
  - destruct (insert_dataframe (a ++ ("data"%string, u) :: b) (Some t)) as [v|e] eqn:E.
    + assert (Dv : distinct v) by (eapply (insert_conforms st); eassumption).
      unfold insert_dataframe in *. rewrite set_data_here in E by exact Na. rewrite set_data_end by exact Nab.
      rewrite insert_dict_eq in E |- * by (intros n X; unfold is_reference in X; injection X as X; apply (f_equal (map fst)) in X;
        rewrite map_app in X; cbn [map fst] in X;
        assert (Y : In "data"%string ["column"%string]) by (rewrite <- X; apply in_or_app; right; try (rewrite map_app; apply in_or_app; right); left; reflexivity);
        destruct Y as [Y|[]]; discriminate Y).
      rewrite !insert_items_app in *. destruct (insert_items t a) as [x|]; [|discriminate E]. cbn [bind] in *.
      change (insert_items t (("data"%string, VFrame t) :: b)) with (let* r := insert_items t b in Ok (("data"%string, VFrame t) :: r)) in E.
      destruct (insert_items t b) as [y|]; [|discriminate E]. cbn [bind] in *.
      change (insert_items t [("data"%string, VFrame t)]) with (@Ok (list (string * value)) [("data"%string, VFrame t)]). cbn [bind].
      injection E as <-. erewrite (config_alike st _ (VDict ((x ++ y) ++ [("data"%string, VFrame t)]))); [reflexivity|exact Dv|].
      apply permuted. rewrite <- app_assoc. apply Permutation_app_head. apply Permutation_cons_append.
    + unfold insert_dataframe in *. rewrite set_data_here in E by exact Na. rewrite set_data_end by exact Nab.
      rewrite insert_dict_eq in E |- * by (intros n X; unfold is_reference in X; injection X as X; apply (f_equal (map fst)) in X;
        rewrite map_app in X; cbn [map fst] in X;
        assert (Y : In "data"%string ["column"%string]) by (rewrite <- X; apply in_or_app; right; try (rewrite map_app; apply in_or_app; right); left; reflexivity);
        destruct Y as [Y|[]]; discriminate Y).
      rewrite !insert_items_app in *. destruct (insert_items t a) as [x|]; cbn [bind] in *; [|injection E as ->; reflexivity].
      change (insert_items t (("data"%string, VFrame t) :: b)) with (let* r := insert_items t b in Ok (("data"%string, VFrame t) :: r)) in E.
      destruct (insert_items t b) as [y|]; cbn [bind] in *; [discriminate E|injection E as ->; reflexivity].
  - unfold insert_dataframe. rewrite set_data_here by exact Na. rewrite set_data_end by exact Nab.
    assert (P : reordered (VDict (a ++ ("data"%string, VNull) :: b)) (VDict ((a ++ b) ++ [("data"%string, VNull)]))).
    { apply permuted. rewrite <- app_assoc. apply Permutation_app_head. apply Permutation_cons_append. }
    assert (Dv : distinct (VDict (a ++ ("data"%string, VNull) :: b))).
    { rewrite <- (set_data_here u VNull a b Na). apply set_key_distinct; [apply distinct_leaf; discriminate|exact D]. }
    destruct (check_outcome (VDict (a ++ ("data"%string, VNull) :: b))) as [[A ->]|[[n A] ->]];
      destruct (check_outcome (VDict ((a ++ b) ++ [("data"%string, VNull)]))) as [[B ->]|[[m B] ->]]; cbn [bind].
    + rewrite (config_alike st _ _ Dv P). reflexivity.
    + exfalso. destruct (refers_reordered _ _ _ B (reordered_sym _ _ P)) as [k K]. apply (A k), K.
    + exfalso. destruct (refers_reordered _ _ _ A P) as [k K]. apply (B k), K.
    + reflexivity.
Qed.

(** ** Literal lists *)
Lemma both_lengths : forall o r1 r2 rows, frame_columns 2 o = Ok [r1; r2] -> frame_columns 1 o = Ok rows -> r1 = r2.
Proof.
  intros [a b c d e f] r1 r2 rows H K. unfold frame_columns in *.
  cbn [bo_ksat bo_kmin bo_kdry bo_mysat bo_rsat bo_kmin_fls forallb] in *.
  assert (F : forall x : arr R, fits 2 x = true -> fits 1 x = true -> exists y, x = Sc y).
  { intros [x|l] X Y; [exists x; reflexivity|]. cbn in X, Y. apply Nat.eqb_eq in X. apply Nat.eqb_eq in Y. lia. }
  repeat match type of H with context [fits 2 ?x] => let E := fresh in destruct (fits 2 x) eqn:E; [|discriminate H]; cbn [andb] in H end.
  repeat match type of K with context [fits 1 ?x] => let E := fresh in destruct (fits 1 x) eqn:E; [|discriminate K]; cbn [andb] in K end.
  destruct (F a) as [? ->]; [assumption..|]. destruct (F b) as [? ->]; [assumption..|]. destruct (F c) as [? ->]; [assumption..|].
  destruct (F d) as [? ->]; [assumption..|]. destruct (F e) as [? ->]; [assumption..|]. destruct (F f) as [? ->]; [assumption..|].
  cbn in H. congruence.
Qed.
Definition two_values : value := VList [VNum (1 / 3); VNum (1 / 6)].
Lemma literal_parse : forall st header rows,
  parse_input st (sample_items two_values) (Some (frame header rows)) = Ok (Some (sample_binput (Vec [1 / 3; 1 / 6]))).
Proof.
  intros st header rows. unfold parse_input.
  change (insert_dataframe (sample_items two_values) (Some (frame header rows))) with
    (Ok (VDict (sample_items two_values ++ [("data"%string, VFrame (frame header rows))]))).
  cbn [bind]. erewrite sample_read by reflexivity. cbn [bind]. unfold per_row.
  change (existsb matrix (vals_config (sample_config N0 (N1 [1 / 3; 1 / 6])))) with false.
  change (all_equal (lengths (vals_config (sample_config N0 (N1 [1 / 3; 1 / 6]))))) with true. cbv iota. cbn [bind].
  apply (sample_build (Vec [1 / 3; 1 / 6])).
Qed.
Lemma two_outputs : forall co2, calculate_input co2 2 (Some (sample_binput (Vec [1 / 3; 1 / 6]))) =
  Ok [mkRow (8 / 3) 4 2 1 (7 / 3) 4; mkRow 3 4 2 1 (13 / 6) 4].
Proof.
  intros co2. pose (st := mkStrings (fun _ => None) (fun _ => None)).
  assert (G : gives_rows co2 st ["phi"%string] (sample_items from_column) [(0%Z, [1 / 3]); (1%Z, [1 / 6])]
                [mkRow (8 / 3) 4 2 1 (7 / 3) 4; mkRow 3 4 2 1 (13 / 6) 4]).
  { apply alone_together; [apply sample_plain|apply sample_constants|discriminate|].
    constructor; [apply sample_first|]. constructor; [apply sample_second|constructor]. }
  destruct G as [i [X Y]]. rewrite sample_parse in X. injection X as <-. exact Y.
Qed.
Lemma literal_alone : forall co2 rows, calculate_input co2 1 (Some (sample_binput (Vec [1 / 3; 1 / 6]))) <> Ok rows.
Proof.
  intros co2 rows H. pose proof (two_outputs co2) as E. unfold calculate_input in *.
  destruct (b_calculate_results co2 (sample_binput (Vec [1 / 3; 1 / 6]))) as [o|]; [|discriminate E]. cbn [bind] in *.
  pose proof (both_lengths _ _ _ _ E H) as Q. injection Q as Q _. lra.
Qed.
Definition unread_rows : list row := [(0%Z, []); (1%Z, [])].
Definition accept {A} (_ : A) : out unit := Ret tt.
Lemma literal_lists : forall co2 st,
  let p := app co2 st [] (VDict (sample_items two_values)) (Some unread_rows) accept None in
  run p None = Ret (0%Z, Some [(0%Z, mkRow (8 / 3) 4 2 1 (7 / 3) 4); (1%Z, mkRow 3 4 2 1 (13 / 6) 4)]) /\
  forall t, 0 < t -> run p (Some t) = Ret ((-5)%Z, None).
Proof.
  intros co2 st p. split.
  - unfold p. rewrite (default_run co2 st [] (sample_items two_values) accept None unread_rows
      [mkRow (8 / 3) 4 2 1 (7 / 3) 4; mkRow 3 4 2 1 (13 / 6) 4]); [reflexivity|].
    exists (Some (sample_binput (Vec [1 / 3; 1 / 6]))). split; [apply literal_parse|apply two_outputs].
  - intros t Ht.
    assert (G : rows_give p (sample_items two_values) unread_rows [] 2).
    { assert (N : forall r out, ~ row_gives p (sample_items two_values) r out).
      { intros r out R. unfold p in R. apply app_row in R. destruct R as [o [[i [X Y]] _]].
        rewrite literal_parse in X. injection X as <-. eapply literal_alone, Y. }
      unfold unread_rows. apply rows_failure; [apply N|]. apply rows_failure; [apply N|]. constructor. }
    rewrite (threshold_run p (sample_items two_values) unread_rows [] 2 t eq_refl eq_refl G).
    destruct (Rlt_dec _ t) as [_|F]; [reflexivity|]. exfalso. apply F.
    assert (Z : success_percentage 2 2 = 0).
    { unfold success_percentage. simpl Nat.eqb; cbv iota. replace (INR 2 / INR 2) with 1 by (simpl; lra).
      rewrite (fl_small_int 1) by (simpl; lia). replace (1 - 1) with 0 by ring. rewrite (fl_small_int 0) by (simpl; lia).
      replace (0 * 100) with 0 by ring. apply (fl_small_int 0). simpl; lia. }
    cbn [unread_rows List.length]. rewrite Z. exact Ht.
Qed.
