(** Lemmas about keys and sections that are left out. *)
From Coq Require Import String List ZArith Lra Lia.
From Verif Require Import Base BaseProofs ConfigModel FluidsModel InputModel InputSpec InputProofs MainModel RowModel ReadModel AppModel
  SchemaSpec SchemaProofs ReorderProofs RunProofs DocSpec DocProofs.
Import ListNotations.
Open Scope R_scope.

(** ** One key more *)
Section Added.
Context (l : list (string * value)) (k : string) (d : value) (N : ~ In k (map fst l)).
Lemma get_absent : get l k = None.
Proof.
  destruct (get l k) as [v|] eqn:E; [|reflexivity]. exfalso. apply N. apply get_in in E. apply (in_map fst _ _ E).
Qed.
End Added.
Lemma get_app : forall l m n, get (l ++ m) n = match get l n with Some v => Some v | None => get m n end.
Proof.
  intros l m n. induction l as [|[k v] l IH]; [reflexivity|]. cbn [List.app get]. destruct (String.eqb k n); [reflexivity|exact IH].
Qed.
Lemma get_added : forall l k d n, ~ In k (map fst l) -> get (l ++ [(k, d)]) n = if String.eqb k n then Some d else get l n.
Proof.
  intros l k d n N. rewrite get_app. cbn [get]. destruct (String.eqb_spec k n) as [->|X].
  - rewrite get_absent by exact N. reflexivity.
  - destruct (get l n); reflexivity.
Qed.
Lemma arguments_added : forall names l k d, existsb (String.eqb k) names = true ->
  arguments names (VDict (l ++ [(k, d)])) = rmap (fun f => f ++ [(k, d)]) (arguments names (VDict l)).
Proof.
  intros names l k d H. cbn [arguments]. rewrite forallb_app. cbn [forallb fst]. rewrite H. rewrite !Bool.andb_true_r.
  destruct (forallb _ l); reflexivity.
Qed.
Ltac added := match goal with N : ~ In ?k (map fst ?l) |- _ =>
  rewrite arguments_added by reflexivity;
  match goal with |- context [arguments ?names (VDict l)] =>
    let f := fresh "f" in let A := fresh "A" in destruct (arguments names (VDict l)) as [f|] eqn:A; [|reflexivity];
    apply arguments_dict in A; subst f; cbn [rmap bind]; unfold optional, required, default;
    rewrite !get_added by exact N; cbn [String.eqb Ascii.eqb Bool.eqb]; rewrite (get_absent l k N) end end.

Section Defaults.
Context (st : strings).
Lemma minerals_added : forall l k d, In ("minerals"%string, (k, d)) defaults -> ~ In k (map fst l) ->
  read_minerals st (VDict (l ++ [(k, d)])) = read_minerals st (VDict l).
Proof.
  intros l k d I N. cbn in I. repeat (destruct I as [I|I]; [try discriminate I; injection I as <- <-|]); try contradiction.
  unfold read_minerals. added. reflexivity.
Qed.
Lemma fluids_added : forall l k d, In ("fluids"%string, (k, d)) defaults -> ~ In k (map fst l) ->
  read_fluids_section st (VDict (l ++ [(k, d)])) = read_fluids_section st (VDict l).
Proof.
  intros l k d I N. cbn in I. repeat (destruct I as [I|I]; [try discriminate I; injection I as <- <-|]); try contradiction;
    unfold read_fluids_section; added; reflexivity.
Qed.
Lemma dry_rock_added : forall l k d, In ("dry_rock"%string, (k, d)) defaults -> ~ In k (map fst l) ->
  read_dry_rock st (VDict (l ++ [(k, d)])) = read_dry_rock st (VDict l).
Proof.
  intros l k d I N. cbn in I. repeat (destruct I as [I|I]; [try discriminate I; injection I as <- <-|]); try contradiction;
    unfold read_dry_rock; added; reflexivity.
Qed.
Lemma pressure_added : forall l k d, In ("pressure"%string, (k, d)) defaults -> ~ In k (map fst l) ->
  read_pressure st (VDict (l ++ [(k, d)])) = read_pressure st (VDict l).
Proof.
  intros l k d I N. cbn in I. repeat (destruct I as [I|I]; [try discriminate I; injection I as <- <-|]); try contradiction;
    unfold read_pressure; added; reflexivity.
Qed.

(** ** One section in a configuration *)
Definition section_read_alike (s : string) (v w : value) : Prop :=
  (s = "minerals" -> read_minerals st v = read_minerals st w)%string /\
  (s = "fluids" -> read_fluids_section st v = read_fluids_section st w)%string /\
  (s = "dry_rock" -> read_dry_rock st v = read_dry_rock st w)%string /\
  (s = "pressure" -> read_pressure st v = read_pressure st w)%string.
Lemma read_config_section : forall a b s v w, section_read_alike s v w ->
  read_config st (VDict (a ++ (s, v) :: b)) = read_config st (VDict (a ++ (s, w) :: b)).
Proof.
  intros a b s v w (Hm & Hf & Hd & Hp). unfold read_config. cbn [arguments]. rewrite !forallb_app. cbn [forallb fst].
  destruct (andb _ _); [|reflexivity]. cbn [bind]. unfold default. rewrite !get_app. cbn [get].
  destruct (String.eqb_spec s "minerals") as [->|]; [destruct (get a "minerals"); cbn [String.eqb Ascii.eqb Bool.eqb]; try rewrite Hm by reflexivity; reflexivity|].
  destruct (String.eqb_spec s "fluids") as [->|]; [destruct (get a "fluids"); cbn [String.eqb Ascii.eqb Bool.eqb]; try rewrite Hf by reflexivity; reflexivity|].
  destruct (String.eqb_spec s "dry_rock") as [->|]; [destruct (get a "dry_rock"); cbn [String.eqb Ascii.eqb Bool.eqb]; try rewrite Hd by reflexivity; reflexivity|].
  destruct (String.eqb_spec s "pressure") as [->|]; [destruct (get a "pressure"); cbn [String.eqb Ascii.eqb Bool.eqb]; try rewrite Hp by reflexivity; reflexivity|]. reflexivity.
Qed.
Lemma set_data_split : forall u a s b, s <> "data"%string -> exists a' b',
  (forall v, set_key "data" u (a ++ (s, v) :: b) = a' ++ (s, v) :: b') /\ set_key "data" u (a ++ b) = a' ++ b' /\
  (forall n, n <> "data"%string -> ~ In n (map fst (a ++ b)) -> ~ In n (map fst (a' ++ b'))).
Proof.
  intros u a s b N. induction a as [|[k w] a IH]; cbn [List.app set_key].
  - exists [], (set_key "data" u b). split; [|split; [reflexivity|]].
    + intros v. destruct (String.eqb_spec s "data"); [contradiction|]. reflexivity.
    + intros n Hn A X. apply in_map_iff in X. destruct X as [[k x] [<- X]]. apply set_key_in in X. destruct X as [[-> _]|X]; [apply Hn; reflexivity|].
      apply A. apply (in_map fst _ _ X).
  - destruct (String.eqb_spec k "data") as [->|K].
    + exists (("data"%string, u) :: a), b. repeat split; try reflexivity. intros n Hn A [X|X]; [apply Hn; symmetry; exact X|].
      apply A. right. exact X.
    + destruct IH as (a' & b' & H1 & H2 & H3). exists ((k, w) :: a'), b'. split; [|split].
      * intros v. rewrite H1. reflexivity.
      * rewrite H2. reflexivity.
      * intros n Hn A [X|X]; [apply A; left; exact X|]. apply (H3 n Hn); [|exact X]. intros Y. apply A. right. exact Y.
Qed.
Lemma set_has_data : forall u items, In "data"%string (map fst (set_key "data" u items)).
Proof.
  intros u items. induction items as [|[k v] items IH]; cbn [set_key]; [left; reflexivity|].
  destruct (String.eqb k "data"); [left; reflexivity|right; exact IH].
Qed.
Lemma data_not_reference : forall items, In "data"%string (map fst items) -> forall n, ~ is_reference (VDict items) n.
Proof. intros items H n E. unfold is_reference in E. injection E as ->. destruct H as [H|[]]. discriminate H. Qed.
Lemma check_items_app : forall a b, check_items (a ++ b) = let* _ := check_items a in check_items b.
Proof.
  intros a b. induction a as [|[k v] a IH]; [reflexivity|]. cbn [List.app check_items].
  destruct (check_no_column_reference v); [|reflexivity]. cbn [bind]. exact IH.
Qed.

(** Sections that are alike under any data make configurations that are. *)
Lemma insert_items_cons : forall t k v l, insert_items t ((k, v) :: l) =
  let* v' := insert_from_dataframe t v in let* r := insert_items t l in Ok ((k, v') :: r).
Proof. reflexivity. Qed.
Definition alike_inserted (s : string) (v w : value) : Prop :=
  check_no_column_reference v = check_no_column_reference w /\ section_read_alike s v w /\
  forall t, match insert_from_dataframe t v, insert_from_dataframe t w with
            | Ok v', Ok w' => section_read_alike s v' w'
            | Err e, Err e' => e = e'
            | _, _ => False
            end.
Lemma parse_section : forall a b s v w data, s <> "data"%string -> alike_inserted s v w ->
  parse_input st (a ++ (s, v) :: b) data = parse_input st (a ++ (s, w) :: b) data.
Proof.
  intros a b s v w data Hs (Hc & H0 & Hi). unfold parse_input, insert_dataframe. destruct data as [t|].
  - destruct (set_data_split (VFrame t) a s b Hs) as (a' & b' & E & _ & _).
    pose proof (set_has_data (VFrame t) (a ++ (s, v) :: b)) as Dv. pose proof (set_has_data (VFrame t) (a ++ (s, w) :: b)) as Dw.
    rewrite !E. rewrite E in Dv, Dw. rewrite !insert_dict_eq by (apply data_not_reference; assumption). rewrite !insert_items_app, !insert_items_cons.
    destruct (insert_items t a') as [x|]; [|reflexivity]. cbn [bind]. specialize (Hi t).
    destruct (insert_from_dataframe t v) as [v'|], (insert_from_dataframe t w) as [w'|]; try contradiction; [|subst; reflexivity].
    cbn [bind]. destruct (insert_items t b') as [y|]; [|reflexivity]. cbn [bind]. rewrite (read_config_section x y s v' w' Hi). reflexivity.
  - destruct (set_data_split VNull a s b Hs) as (a' & b' & E & _ & _).
    pose proof (set_has_data VNull (a ++ (s, v) :: b)) as Dv. pose proof (set_has_data VNull (a ++ (s, w) :: b)) as Dw.
    rewrite !E. rewrite E in Dv, Dw. rewrite !check_dict_eq by (apply data_not_reference; assumption). rewrite !check_items_app. cbn [check_items].
    rewrite Hc. destruct (let* _ := check_items a' in _); [|reflexivity]. cbn [bind].
    rewrite (read_config_section a' b' s v w H0). reflexivity.
Qed.

Lemma default_plain : forall s k d, In (s, (k, d)) defaults ->
  check_no_column_reference d = Ok tt /\ (forall t, insert_from_dataframe t d = Ok d) /\ k <> "column"%string /\ s <> "data"%string.
Proof.
  intros s k d I. cbn in I. repeat (destruct I as [I|I]; [injection I as <- <- <-; repeat split; try reflexivity; discriminate|]). contradiction.
Qed.
Lemma insert_items_keys : forall t l l', insert_items t l = Ok l' -> map fst l' = map fst l.
Proof.
  intros t l. induction l as [|[k v] l IH]; intros l' H; [injection H as <-; reflexivity|]. rewrite insert_items_cons in H.
  destruct (insert_from_dataframe t v); [|discriminate]. cbn [bind] in H. destruct (insert_items t l) as [r|]; [|discriminate].
  cbn [bind] in H. injection H as <-. cbn. rewrite (IH r eq_refl). reflexivity.
Qed.
Lemma section_added : forall s k d l, In (s, (k, d)) defaults -> ~ In k (map fst l) ->
  section_read_alike s (VDict (l ++ [(k, d)])) (VDict l).
Proof.
  intros s k d l I N. split; [|split; [|split]]; intros ->;
  [apply minerals_added|apply fluids_added|apply dry_rock_added|apply pressure_added]; assumption.
Qed.
Lemma default_inserted : forall s k d l, In (s, (k, d)) defaults -> ~ In k (map fst l) -> (forall n, l <> [("column"%string, n)]) ->
  alike_inserted s (VDict (l ++ [(k, d)])) (VDict l).
Proof.
  intros s k d l I N R. destruct (default_plain s k d I) as (C & P & K & _).
  assert (R1 : forall n, ~ is_reference (VDict l) n) by (intros n E; unfold is_reference in E; injection E as E; apply (R n E)).
  assert (R2 : forall n, ~ is_reference (VDict (l ++ [(k, d)])) n).
  { intros n E. unfold is_reference in E. injection E as E. destruct l as [|[k' v'] l]; [injection E as E _; apply K, E|].
    injection E as _ _ E. destruct l; discriminate E. }
  split; [|split].
  - rewrite !check_dict_eq by assumption. rewrite check_items_app. cbn [check_items]. rewrite C. cbn [bind]. destruct (check_items l) as [[]|]; reflexivity.
  - apply section_added; assumption.
  - intros t. rewrite !insert_dict_eq by assumption. rewrite insert_items_app, insert_items_cons, P.
    destruct (insert_items t l) as [l'|] eqn:E; [|reflexivity]. cbn [bind insert_items]. apply section_added; [exact I|].
    rewrite (insert_items_keys _ _ _ E). exact N.
Qed.
Lemma default_key : forall a b s k d l data, In (s, (k, d)) defaults -> ~ In k (map fst l) -> (forall n, l <> [("column"%string, n)]) ->
  parse_input st (a ++ (s, VDict (l ++ [(k, d)])) :: b) data = parse_input st (a ++ (s, VDict l) :: b) data.
Proof.
  intros a b s k d l data I N R. apply parse_section; [apply (default_plain s k d I)|]. apply default_inserted; assumption.
Qed.

(** ** A section left out *)
Lemma read_config_empty : forall a b s, In s ["minerals"; "fluids"; "dry_rock"; "pressure"]%string -> ~ In s (map fst (a ++ b)) ->
  read_config st (VDict (a ++ (s, VDict []) :: b)) = read_config st (VDict (a ++ b)).
Proof.
  intros a b s I N. assert (Ga : get a s = None) by (apply get_absent; rewrite map_app in N; intros X; apply N, in_or_app; auto).
  assert (Gb : get b s = None) by (apply get_absent; rewrite map_app in N; intros X; apply N, in_or_app; auto).
  unfold read_config. cbn [arguments]. rewrite !forallb_app. cbn [forallb fst].
  destruct I as [<-|[<-|[<-|[<-|[]]]]];
    cbn [existsb String.eqb Ascii.eqb Bool.eqb orb andb];
    (destruct (andb _ _); [|reflexivity]); cbn [bind]; unfold default; rewrite !get_app, Ga, Gb; cbn [get String.eqb Ascii.eqb Bool.eqb]; reflexivity.
Qed.
Lemma empty_section : forall a b s data, In s ["minerals"; "fluids"; "dry_rock"; "pressure"]%string -> ~ In s (map fst (a ++ b)) ->
  parse_input st (a ++ (s, VDict []) :: b) data = parse_input st (a ++ b) data.
Proof.
  intros a b s data I N.
  assert (Hs : s <> "data"%string) by (cbn in I; intuition (subst; discriminate)).
  unfold parse_input, insert_dataframe. destruct data as [t|].
  - destruct (set_data_split (VFrame t) a s b Hs) as (a' & b' & E & E' & K).
    pose proof (set_has_data (VFrame t) (a ++ (s, VDict []) :: b)) as Dv. pose proof (set_has_data (VFrame t) (a ++ b)) as Dw.
    rewrite E, E'. rewrite E in Dv. rewrite E' in Dw. rewrite !insert_dict_eq by (apply data_not_reference; assumption). rewrite !insert_items_app, !insert_items_cons.
    destruct (insert_items t a') as [x|] eqn:X; [|reflexivity]. cbn [bind].
    change (insert_from_dataframe t (VDict [])) with (@Ok value (VDict [])). cbn [bind].
    destruct (insert_items t b') as [y|] eqn:Y; [|reflexivity]. cbn [bind]. rewrite read_config_empty; [reflexivity|exact I|].
    rewrite map_app, (insert_items_keys _ _ _ X), (insert_items_keys _ _ _ Y), <- map_app. apply (K s Hs N).
  - destruct (set_data_split VNull a s b Hs) as (a' & b' & E & E' & K).
    pose proof (set_has_data VNull (a ++ (s, VDict []) :: b)) as Dv. pose proof (set_has_data VNull (a ++ b)) as Dw.
    rewrite E, E'. rewrite E in Dv. rewrite E' in Dw. rewrite !check_dict_eq by (apply data_not_reference; assumption). rewrite !check_items_app. cbn [check_items].
    change (check_no_column_reference (VDict [])) with (@Ok unit tt). cbn [bind].
    destruct (let* _ := check_items a' in _); [|reflexivity]. cbn [bind]. rewrite read_config_empty; [reflexivity|exact I|]. apply (K s Hs N).
Qed.
End Defaults.
