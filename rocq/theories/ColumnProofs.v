(** Which columns of the data file matter. *)
From Coq Require Import String List ZArith Lra Lia.
From Verif Require Import Base BaseProofs FluidsModel InputModel InputSpec InputProofs MainModel MainSpec MainProofs RowModel
  ReadModel AppModel ReadSpec ReadProofs AppProofs AppExampleProofs RunProofs DefaultProofs ColumnSpec.
Import ListNotations.
Open Scope R_scope.

(** ** Insertion looks at the columns referred to *)
Lemma insert_agree : forall t t' v, (forall s, refers v (VStr s) -> find_column t s = find_column t' s) ->
  insert_from_dataframe t v = insert_from_dataframe t' v.
Proof.
  intros t t' v. induction v as [v H1 H2|l F|items F] using value_tree_ind; intros H.
  - rewrite !insert_scalar by assumption. reflexivity.
  - rewrite !insert_list_eq. assert (E : insert_list t l = insert_list t' l); [|rewrite E; reflexivity].
    assert (H' : forall v, In v l -> forall s, refers v (VStr s) -> find_column t s = find_column t' s).
    { intros v I s R. apply H. eapply refers_list; eassumption. }
    clear H. induction F as [|v l Hv F IH]; [reflexivity|]. cbn [insert_list].
    change ((let* e := insert_from_dataframe t v in let* r := insert_list t l in Ok (e :: r)) =
            (let* e := insert_from_dataframe t' v in let* r := insert_list t' l in Ok (e :: r))).
    rewrite Hv by (apply H'; left; reflexivity). rewrite IH by (intros w I; apply H'; right; exact I). reflexivity.
  - destruct (reference_dec items) as [[n ->]|N].
    + rewrite !insert_reference. unfold insert_column. destruct n; try reflexivity.
      rewrite H by constructor. reflexivity.
    + rewrite !insert_dict_eq by exact N. assert (E : insert_items t items = insert_items t' items); [|rewrite E; reflexivity].
      assert (H' : forall k v, In (k, v) items -> forall s, refers v (VStr s) -> find_column t s = find_column t' s).
      { intros k v I s R. apply H. eapply refers_dict; eassumption. }
      clear H N. induction F as [|[k v] items Hv F IH]; [reflexivity|]. cbn [snd] in Hv. rewrite !insert_items_cons.
      rewrite Hv by (eapply H'; left; reflexivity).
      rewrite IH by (intros k' w I; apply (H' k'); right; exact I). reflexivity.
Qed.
Lemma items_agree : forall t t' items,
  (forall k v, In (k, v) items -> forall s, refers v (VStr s) -> find_column t s = find_column t' s) ->
  insert_items t items = insert_items t' items.
Proof.
  intros t t' items H. induction items as [|[k v] items IH]; [reflexivity|]. rewrite !insert_items_cons.
  rewrite (insert_agree t t' v) by (apply (H k); left; reflexivity).
  rewrite IH by (intros k' w I; apply (H k'); right; exact I). reflexivity.
Qed.

(** ** The key "data" *)
Lemma data_place : forall items, NoDup (map fst items) -> exists a b,
  (forall w, set_key "data" w items = a ++ ("data"%string, w) :: b) /\
  forall k v, In (k, v) (a ++ b) <-> In (k, v) items /\ k <> "data"%string.
Proof.
  intros items. induction items as [|[k v] items IH]; intros D.
  - exists [], []. split; [reflexivity|]. cbn. tauto.
  - cbn [map fst] in D. inversion D as [|? ? N D']; subst. cbn [set_key].
    destruct (String.eqb_spec k "data") as [->|K].
    + exists [], items. split; [reflexivity|]. intros k' v'. cbn [List.app In]. split.
      * intros I. split; [right; exact I|]. intros ->. apply N. apply (in_map fst _ _ I).
      * intros [[E|I] K]; [injection E as E _; congruence|exact I].
    + destruct (IH D') as (a & b & H & I). exists ((k, v) :: a), b. split.
      * intros w. rewrite H. reflexivity.
      * intros k' v'. cbn [List.app In]. rewrite I. split; [|tauto].
        intros [E|[J L]]; [injection E as <- <-; tauto|tauto].
Qed.
Lemma parse_agree : forall st items t t', NoDup (map fst items) ->
  (forall s, used items (VStr s) -> find_column t s = find_column t' s) ->
  parse_input st items (Some t) = parse_input st items (Some t').
Proof.
  intros st items t t' D H. destruct (data_place items D) as (a & b & S & I). unfold parse_input, insert_dataframe.
  rewrite !insert_dict_eq by apply set_key_not_reference. rewrite !S, !insert_items_app, !insert_items_cons.
  assert (A : forall k v, In (k, v) (a ++ b) -> forall s, refers v (VStr s) -> find_column t s = find_column t' s).
  { intros k v J s R. apply H. apply I in J. exists k, v. tauto. }
  rewrite (items_agree t t' a) by (intros k v J; apply (A k); apply in_or_app; left; exact J).
  rewrite (items_agree t t' b) by (intros k v J; apply (A k); apply in_or_app; right; exact J).
  destruct (insert_items t' a) as [x|]; [|reflexivity]. cbn [bind insert_from_dataframe].
  destruct (insert_items t' b) as [y|]; [|reflexivity]. cbn [bind].
  rewrite (read_config_section st x y "data" (VFrame t) (VFrame t')); [reflexivity|].
  repeat split; intros E; discriminate E.
Qed.

(** ** The columns of a data file *)
Lemma find_frame_at : forall header k (rows : list row) j name, NoDup header -> nth_error header j = Some name ->
  find_column (map (fun jn => (snd jn, map (fun r : row => nth (fst jn) (snd r) 0) rows))
                 (combine (seq k (List.length header)) header)) name =
  Some (map (fun r : row => nth (k + j)%nat (snd r) 0) rows).
Proof.
  intros header. induction header as [|n header IH]; intros k rows j name D E; [destruct j; discriminate E|].
  inversion D as [|? ? N D']; subst. cbn [List.length seq combine map find_column fst snd].
  destruct j as [|j]; cbn [nth_error] in E.
  - injection E as ->. rewrite String.eqb_refl, Nat.add_0_r. reflexivity.
  - destruct (String.eqb_spec n name) as [->|_].
    + exfalso. apply N. eapply nth_error_In, E.
    + rewrite (IH (S k) rows j name D' E). rewrite Nat.add_succ_comm. reflexivity.
Qed.
Lemma find_frame : forall header (rows : list row) j name, NoDup header -> nth_error header j = Some name ->
  find_column (frame header rows) name = Some (map (fun r : row => nth j (snd r) 0) rows).
Proof. intros. unfold frame. rewrite (find_frame_at header 0 rows j name) by assumption. reflexivity. Qed.
Lemma frame_names : forall header rows, map fst (frame header rows) = header.
Proof.
  intros header rows. unfold frame. rewrite map_map. cbn [fst]. generalize 0%nat.
  induction header as [|n header IH]; intros k; [reflexivity|]. cbn [List.length seq combine map snd]. f_equal. apply IH.
Qed.
Lemma nth_of_error : forall (l l' : list R) j j', nth_error l j = nth_error l' j' -> nth j l 0 = nth j' l' 0.
Proof.
  assert (A : forall (l : list R) j, nth j l 0 = match nth_error l j with Some x => x | None => 0 end).
  { induction l; intros [|j]; try reflexivity. apply IHl. }
  intros. rewrite !A, H. reflexivity.
Qed.
Lemma same_found : forall header rows header' rows' name, NoDup header -> NoDup header' ->
  same_column header rows header' rows' name ->
  find_column (frame header rows) name = find_column (frame header' rows') name.
Proof.
  intros header rows header' rows' name D D' [P C].
  destruct (in_dec string_dec name header) as [I|N].
  - destruct (In_nth_error _ _ I) as [j E], (In_nth_error _ _ (proj1 P I)) as [j' E'].
    rewrite (find_frame _ _ _ _ D E), (find_frame _ _ _ _ D' E'). f_equal. specialize (C j j' E E'). clear P I E E'.
    revert rows' C. induction rows as [|r rows IH]; intros [|r' rows'] C; try discriminate C; [reflexivity|].
    cbn [map] in *. injection C as C1 C2. f_equal; [apply nth_of_error, C1|apply IH, C2].
  - assert (N' : ~ In name header') by (intros X; apply N, P, X).
    rewrite (proj2 (find_column_none (frame header rows) name)) by (rewrite frame_names; exact N).
    rewrite (proj2 (find_column_none (frame header' rows') name)) by (rewrite frame_names; exact N'). reflexivity.
Qed.

(** ** Whole runs *)
Lemma parse_columns : forall st items header rows header' rows', NoDup (map fst items) -> NoDup header -> NoDup header' ->
  map fst rows = map fst rows' -> (forall s, used items (VStr s) -> same_column header rows header' rows' s) ->
  parse_rows st header items (Some rows) = parse_rows st header' items (Some rows').
Proof.
  intros st items header rows header' rows' D Dh Dh' L S. unfold parse_rows. cbn [option_map]. rewrite L.
  rewrite (parse_agree st items (frame header rows) (frame header' rows') D); [reflexivity|].
  intros s U. apply same_found; auto.
Qed.
Lemma same_column_row : forall header header' rows rows' name i r r', same_column header rows header' rows' name ->
  nth_error rows i = Some r -> nth_error rows' i = Some r' -> same_column header [r] header' [r'] name.
Proof.
  intros header header' rows rows' name i r r' [P C] E E'. split; [exact P|]. intros j j' J J'.
  specialize (C j j' J J'). apply (f_equal (fun l => nth_error l i)) in C. rewrite !nth_error_map, E, E' in C.
  cbn [option_map map] in *. congruence.
Qed.
Lemma columns_run : forall co2 st items write compare t header (rows : list row) header' (rows' : list row), NoDup (map fst items) ->
  NoDup header -> NoDup header' -> map fst rows = map fst rows' ->
  (forall s, used items (VStr s) -> same_column header rows header' rows' s) ->
  run (app co2 st header (VDict items) (Some rows) write compare) t =
  run (app co2 st header' (VDict items) (Some rows') write compare) t.
Proof.
  intros co2 st items write compare t header rows header' rows' D Dh Dh' L Sc. destruct t as [t|].
  - unfold run, run_with_threshold, make_per_row_input, load_config_from_yaml, load_data_from_csv.
    cbn [app yaml_load csv_read option_map then_ try_].
    assert (E : map (MainProofs.row_input (app co2 st header (VDict items) (Some rows) write compare) items) rows
              = map (MainProofs.row_input (app co2 st header' (VDict items) (Some rows') write compare) items) rows').
    { assert (Q : forall i, nth_error (map (MainProofs.row_input (app co2 st header (VDict items) (Some rows) write compare) items) rows) i =
          nth_error (map (MainProofs.row_input (app co2 st header' (VDict items) (Some rows') write compare) items) rows') i).
      { intros i. rewrite !nth_error_map. pose proof (f_equal (fun l => nth_error l i) L) as Li. cbn beta in Li. rewrite !nth_error_map in Li.
        change (Z * list RbaseSymbolsImpl.R)%type with row in *. destruct (nth_error rows i) as [r|] eqn:R, (nth_error rows' i) as [r'|] eqn:R'; try discriminate Li; [|reflexivity].
        cbn [option_map] in *. unfold MainProofs.row_input. cbn [app parse].
        assert (X : parse_rows st header items (Some [r]) = parse_rows st header' items (Some [r'])); [apply parse_columns; try assumption|].
        3: { unfold row in *. rewrite X. reflexivity. }
        - cbn. congruence.
        - intros s U. eapply same_column_row; eauto. }
      revert Q. generalize (map (MainProofs.row_input (app co2 st header (VDict items) (Some rows) write compare) items) rows),
        (map (MainProofs.row_input (app co2 st header' (VDict items) (Some rows') write compare) items) rows').
      induction l as [|x l IH]; intros [|y m] Q; [reflexivity|discriminate (Q 0%nat)|discriminate (Q 0%nat)|].
      f_equal; [specialize (Q 0%nat); cbn in Q; congruence|]. apply IH. intros i. apply (Q (S i)). }
    assert (K : forall l, MainModel.calculate_rows (app co2 st header (VDict items) (Some rows) write compare) l =
                          MainModel.calculate_rows (app co2 st header' (VDict items) (Some rows') write compare) l).
    { intros l. induction l as [|[i|] l IH]; [reflexivity| |]; cbn [MainModel.calculate_rows]; rewrite IH; reflexivity. }
    unfold MainProofs.row_input in E. rewrite K. cbn [app parse] in E |- *. rewrite E. reflexivity.
  - unfold run, make_input, load_config_from_yaml, load_data_from_csv. cbn [app yaml_load csv_read parse option_map then_ try_].
    pose proof (parse_columns st items header rows header' rows' D Dh Dh' L Sc) as X. unfold row in *. rewrite X. reflexivity.
Qed.

(** ** Missing columns *)
Lemma missing_parse : forall st header items data, NoDup (map fst items) ->
  (forall n, used items n -> scalar n) -> (exists n, used items n /\ ~ found header data n) ->
  parse_rows st header items data = Raise ColumnErr.
Proof.
  intros st header items data D Sc (n & (k & v & I & K & R) & N).
  assert (E : insert_dataframe items (option_map (frame header) data) = Err ColumnInsertionError).
  { destruct data as [rows|]; cbn [option_map].
    - unfold insert_dataframe. apply insert_error_iff.
      + intros m X. inversion X; subst; [exfalso; eapply set_key_not_reference; unfold is_reference; symmetry; f_equal; eassumption|].
        destruct (data_place items D) as (a & b & S & J).
        match goal with H : In (?k0, ?v0) (set_key _ _ _) |- _ =>
          rewrite S in H; apply in_app_or in H;
          assert (Q : In (k0, v0) (a ++ b) \/ v0 = VFrame (frame header rows))
            by (destruct H as [H|[H|H]]; [left; apply in_or_app; left; exact H|right; congruence|left; apply in_or_app; right; exact H]) end.
        destruct Q as [Q|Q].
        * apply Sc. apply J in Q. eexists _, _. split; [apply Q|]. split; [apply Q|]. assumption.
        * subst. match goal with H : refers (VFrame _) _ |- _ => inversion H end.
      + exists n. split.
        * apply (refers_dict _ k v n); [apply set_key_not_reference|apply set_key_keeps; [exact I|exact K]|exact R].
        * intros [s [Es Is]]. apply N. exists s. rewrite frame_names in Is. split; assumption.
    - apply no_data_iff; [exact D|]. exists k, v, n. tauto. }
  unfold parse_rows, parse_input. rewrite E. reflexivity.
Qed.
Lemma missing_run : forall co2 st header items data write compare, NoDup (map fst items) ->
  (forall n, used items n -> scalar n) -> (exists n, used items n /\ ~ found header data n) ->
  run (app co2 st header (VDict items) data write compare) None = Ret ((-2)%Z, None).
Proof.
  intros co2 st header items data write compare D Sc M.
  pose proof (missing_parse st header items data D Sc M) as E.
  unfold run, make_input, load_config_from_yaml, load_data_from_csv. cbn [app yaml_load csv_read parse].
  destruct data as [rows|]; cbn [option_map then_ try_]; rewrite E; reflexivity.
Qed.
