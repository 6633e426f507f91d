(** Lemmas about types and rewritten parts of a configuration file. *)
From Coq Require Import String Ascii List ZArith Lra Lia.
From Verif Require Import Base BaseProofs ConfigModel FluidsModel InputModel InputSpec InputProofs MainModel RowModel ReadModel AppModel
  SchemaSpec SchemaProofs ReorderProofs RunProofs DocSpec DocProofs DefaultProofs RewriteSpec RewriteProofs.
Import ListNotations.
Open Scope R_scope.

Section Same.
Context (st : strings).

(** ** The alternative the type names *)
Lemma first_tagged : forall A (before after : list (value -> res A)) alt v m,
  Forall (fun f => forall m, f v <> Ok m) (before ++ after) ->
  (forall m, alt v = Ok m -> Forall (fun f => f v = Err ValueError) before) ->
  (first_of (before ++ alt :: after) v = Ok m <-> alt v = Ok m).
Proof.
  intros A before after alt v m F B. induction before as [|f before IH]; cbn [List.app first_of] in *.
  - destruct (alt v) as [x|e] eqn:E; [reflexivity|]. split; [|discriminate]. intros H. exfalso.
    assert (X : first_of after v = Ok m) by (destruct e; try discriminate H; exact H). clear H B E.
    induction F as [|g after G F IH]; [discriminate X|]. cbn [first_of] in X. destruct (g v) as [y|e'] eqn:Y; [apply (G y); reflexivity|].
    destruct e'; try discriminate X. apply IH, X.
  - inversion F as [|? ? H1 H2]; subst. destruct (f v) as [x|e] eqn:E; [exfalso; apply (H1 x); reflexivity|]. split.
    + intros H. destruct e; try discriminate H. apply IH; [exact H2|intros y Y; specialize (B y Y); inversion B; assumption|exact H].
    + intros H. specialize (B m H). inversion B as [|? ? B1 B2]; subst. rewrite E in B1. injection B1 as ->.
      apply IH; [exact H2|intros y Y; exact B2|exact H].
Qed.
Section Tagged.
Context (items : list (string * value)) (s : string) (G : get items "type" = Some (VStr s)).
Ltac mistyped := intros NE m H;
  cbv beta delta [reads rmap read_arbitrary read_gas read_oil read_brine read_condensate read_carbon_dioxide
    read_friable read_patchy read_fit read_powerfit read_polyfit2d read_depth_trend read_pressure_dependency] in H;
  repeat match type of H with match ?x with Ok _ => _ | Err _ => _ end = Ok _ =>
    let E := fresh "E" in destruct x eqn:E; [|discriminate H]; clear H; rename E into H end;
  steps H;
  repeat match goal with E : arguments _ (VDict items) = Ok _ |- _ => apply arguments_dict in E; subst end;
  repeat match goal with u : unit |- _ => destruct u end;
  match goal with E : type_is _ items = Ok tt |- _ => apply (type_said _ _ _ G) in E; apply NE, E end.
Open Scope string_scope.
Lemma not_arbitrary : s <> "material" -> forall m, reads MArbitrary (read_arbitrary st) (VDict items) <> Ok m. Proof. mistyped. Qed.
Lemma not_gas : s <> "gas" -> forall m, read_gas st (VDict items) <> Ok m. Proof. mistyped. Qed.
Lemma not_oil : s <> "oil" -> forall m, read_oil st (VDict items) <> Ok m. Proof. mistyped. Qed.
Lemma not_brine : s <> "brine" -> forall m, read_brine st (VDict items) <> Ok m. Proof. mistyped. Qed.
Lemma not_condensate : s <> "condensate" -> forall m, read_condensate st (VDict items) <> Ok m. Proof. mistyped. Qed.
Lemma not_carbon_dioxide : s <> "carbon_dioxide" -> forall m, read_carbon_dioxide (VDict items) <> Ok m. Proof. mistyped. Qed.
Lemma not_patchy : forall A (f : _ -> A), s <> "patchy_cement" -> forall m, reads f (read_patchy st) (VDict items) <> Ok m. Proof. intros A f. mistyped. Qed.
Lemma not_friable : forall A (f : _ -> A), s <> "friable_sand" -> forall m, reads f (read_friable st) (VDict items) <> Ok m. Proof. intros A f. mistyped. Qed.
Lemma not_powerfit : s <> "powerfit" -> forall m, read_powerfit st (VDict items) <> Ok m. Proof. mistyped. Qed.
Lemma not_fit : forall A (f : _ -> A) name, s <> name -> forall m, reads f (read_fit st name) (VDict items) <> Ok m. Proof. intros A f name. mistyped. Qed.
Lemma not_polyfit2d : s <> "polyfit" -> forall m, read_polyfit2d st (VDict items) <> Ok m. Proof. mistyped. Qed.
Lemma not_depth_trend : s <> "depth_trend" -> forall m, read_depth_trend st (VDict items) <> Ok m. Proof. mistyped. Qed.
Lemma not_pressure_dependency : s <> "pressure_dependency" -> forall m, read_pressure_dependency st (VDict items) <> Ok m. Proof. mistyped. Qed.
Close Scope string_scope.
Lemma mistype : forall name, s <> name -> type_is name items = Err ValueError.
Proof. intros name NE. unfold type_is, default. rewrite G. cbn [literal]. destruct (String.eqb_spec name s); [congruence|reflexivity]. Qed.
Lemma patchy_mistyped : forall A (f : _ -> A), s <> "patchy_cement"%string -> reads f (read_patchy st) (VDict items) = Err ValueError.
Proof.
  intros A f NE. unfold reads, read_patchy. destruct (arguments _ _) as [x|e] eqn:E.
  - apply arguments_dict in E. subst x. cbn [bind]. rewrite mistype by exact NE. reflexivity.
  - cbn [arguments] in E. destruct (forallb _ _); [discriminate|]. injection E as <-. reflexivity.
Qed.
End Tagged.
Lemma get_outside : forall names items n, forallb (fun kv : string * value => existsb (String.eqb (fst kv)) names) items = true ->
  existsb (String.eqb n) names = false -> get items n = None.
Proof.
  intros names items n F N. destruct (get items n) as [v|] eqn:E; [|reflexivity]. apply get_in in E.
  rewrite forallb_forall in F. specialize (F _ E). cbn [fst] in F. congruence.
Qed.
Lemma arguments_cases : forall names items, arguments names (VDict items) = Ok items \/ arguments names (VDict items) = Err ValueError.
Proof. intros names items. cbn [arguments]. destruct (forallb _ _); auto. Qed.
Ltac lacks K := match goal with |- context [arguments ?names (VDict ?items)] =>
  destruct (arguments_cases names items) as [-> | ->]; [|reflexivity]; cbn [bind]; unfold required;
  rewrite (get_outside _ items _ K) by reflexivity; reflexivity end.
Lemma tagged_material : forall items m, get items "type" = Some (VStr "material"%string) ->
  (read_material st (VDict items) = Ok m <-> reads MArbitrary (read_arbitrary st) (VDict items) = Ok m).
Proof.
  intros items m G. unfold read_material. apply (first_tagged _ []); [|intros; constructor]. cbn [List.app].
  repeat apply Forall_cons; try apply Forall_nil;
  first [eapply not_gas|eapply not_oil|eapply not_brine|eapply not_condensate|eapply not_carbon_dioxide]; try exact G; discriminate.
Qed.
Lemma tagged_carbon_dioxide : forall items m, get items "type" = Some (VStr "carbon_dioxide"%string) ->
  (read_material st (VDict items) = Ok m <-> read_carbon_dioxide (VDict items) = Ok m).
Proof.
  intros items m G. unfold read_material.
  apply (first_tagged _ [reads MArbitrary (read_arbitrary st); read_gas st; read_oil st; read_brine st; read_condensate st] []).
  - repeat apply Forall_cons; try apply Forall_nil;
    first [eapply not_arbitrary|eapply not_gas|eapply not_oil|eapply not_brine|eapply not_condensate]; try exact G; discriminate.
  - intros x X. unfold read_carbon_dioxide in X. cbn [arguments] in X. destruct (forallb _ items) eqn:K; [|discriminate X]. clear X.
    repeat apply Forall_cons; try apply Forall_nil; unfold reads;
    [unfold read_arbitrary|unfold read_gas|unfold read_oil|unfold read_brine|unfold read_condensate]; lacks K.
Qed.
Lemma tagged_spatchy : forall items m, get items "type" = Some (VStr "patchy_cement"%string) ->
  (read_sandstone st (VDict items) = Ok m <-> reads SPatchy (read_patchy st) (VDict items) = Ok m).
Proof.
  intros items m G. unfold read_sandstone. apply (first_tagged _ []); [|intros; constructor]. cbn [List.app].
  repeat apply Forall_cons; try apply Forall_nil; first [eapply not_friable|eapply not_polyfit2d]; try exact G; discriminate.
Qed.
Lemma tagged_dpatchy : forall items m, get items "type" = Some (VStr "patchy_cement"%string) ->
  (read_dependency st (VDict items) = Ok m <-> reads DPatchy (read_patchy st) (VDict items) = Ok m).
Proof.
  intros items m G. unfold read_dependency. apply (first_tagged _ []); [|intros; constructor]. cbn [List.app].
  repeat apply Forall_cons; try apply Forall_nil; first [eapply not_friable|eapply not_powerfit|eapply not_fit]; try exact G; discriminate.
Qed.
Lemma tagged_sfriable : forall items m, get items "type" = Some (VStr "friable_sand"%string) ->
  (read_sandstone st (VDict items) = Ok m <-> reads SFriable (read_friable st) (VDict items) = Ok m).
Proof.
  intros items m G. unfold read_sandstone. apply (first_tagged _ [reads SPatchy (read_patchy st)]).
  - repeat apply Forall_cons; try apply Forall_nil; first [eapply not_patchy|eapply not_polyfit2d]; try exact G; discriminate.
  - intros x X. constructor; [|constructor]. eapply patchy_mistyped; [exact G|discriminate].
Qed.
Lemma tagged_dfriable : forall items m, get items "type" = Some (VStr "friable_sand"%string) ->
  (read_dependency st (VDict items) = Ok m <-> reads DFriable (read_friable st) (VDict items) = Ok m).
Proof.
  intros items m G. unfold read_dependency. apply (first_tagged _ [reads DPatchy (read_patchy st)]).
  - repeat apply Forall_cons; try apply Forall_nil; first [eapply not_patchy|eapply not_powerfit|eapply not_fit]; try exact G; discriminate.
  - intros x X. constructor; [|constructor]. eapply patchy_mistyped; [exact G|discriminate].
Qed.
Lemma tagged_spolyfit : forall items m, get items "type" = Some (VStr "polyfit"%string) ->
  (read_sandstone st (VDict items) = Ok m <-> read_polyfit2d st (VDict items) = Ok m).
Proof.
  intros items m G. unfold read_sandstone. apply (first_tagged _ [reads SPatchy (read_patchy st); reads SFriable (read_friable st)] []).
  - repeat apply Forall_cons; try apply Forall_nil; first [eapply not_patchy|eapply not_friable]; try exact G; discriminate.
  - intros x X. constructor; [|constructor; [|constructor]]; [eapply patchy_mistyped; [exact G|discriminate]|].
    unfold read_polyfit2d in X. cbn [arguments] in X. destruct (forallb _ items) eqn:K; [|discriminate X]. clear X.
    unfold reads, read_friable. destruct (arguments_cases ["critical_porosity"; "shear_reduction"; "coordination_number"; "type"]%string items) as [-> | ->]; [|reflexivity].
    cbn [bind]. unfold optional, default. rewrite !(get_outside _ items _ K) by reflexivity. cbn [bind].
    rewrite (mistype items "polyfit" G) by discriminate. reflexivity.
Qed.
Lemma tagged_depth_trend : forall items m, get items "type" = Some (VStr "depth_trend"%string) ->
  (first_of [read_depth_trend st; read_pressure_dependency st] (VDict items) = Ok m <-> read_depth_trend st (VDict items) = Ok m).
Proof.
  intros items m G. apply (first_tagged _ []); [|intros; constructor]. cbn [List.app].
  constructor; [|constructor]. eapply not_pressure_dependency; [exact G|discriminate].
Qed.
Lemma type_of : forall t items, of_type (Some t) items -> get items "type" = Some (VStr t).
Proof. intros t items [D I]. apply get_distinct; assumption. Qed.
Lemma more_same : forall p t k d a b, In (t, (k, d)) (left_out p) -> ~ In k (map fst (a ++ b)) -> of_type t (a ++ b) ->
  same st p (VDict (a ++ (k, d) :: b)) (VDict (a ++ b)).
Proof.
  intros p t k d a b I N T. destruct t as [t|].
  - pose proof (type_of t _ T) as G. clear T.
    assert (G' : k <> "type"%string -> get (a ++ (k, d) :: b) "type" = Some (VStr t)).
    { intros K. rewrite get_more by exact N. destruct (String.eqb_spec k "type"); [contradiction|exact G]. }
    destruct p; try (cbn in I; repeat (destruct I as [I|I]; [discriminate I|]); contradiction I); cbn [same].
    + unfold left_out in I. apply in_app_or in I. destruct I as [I|I].
      * assert (J : In (None, (k, d)) (left_out AtCement)).
        { cbn in I |- *. repeat (destruct I as [I|I]; [injection I; intros; subst; auto 10|]). contradiction I. }
        assert (t = "material"%string) by (cbn in I; repeat (destruct I as [I|I]; [congruence|]); contradiction I). subst t.
        assert (k <> "type"%string) by (cbn in I; repeat (destruct I as [I|I]; [injection I; intros; subst; discriminate|]); contradiction I).
        intros m. rewrite !tagged_material by auto. unfold reads. rewrite (arbitrary_more st a b k d N J). reflexivity.
      * destruct I as [I|[]]. injection I; intros; subst. intros m. rewrite !tagged_carbon_dioxide by (try exact G; apply G'; discriminate).
        rewrite (carbon_dioxide_more a b _ _ N) by reflexivity. reflexivity.
    + unfold left_out in I. rewrite !in_app_iff in I. destruct I as [I|[I|I]].
      * assert (t = "friable_sand"%string) by (cbn in I; repeat (destruct I as [I|I]; [congruence|]); contradiction I). subst t.
        assert (k <> "type"%string) by (cbn in I; repeat (destruct I as [I|I]; [injection I; intros; subst; discriminate|]); contradiction I).
        intros m. rewrite !tagged_sfriable by auto. unfold reads. rewrite (friable_more st a b k d N I). reflexivity.
      * assert (t = "patchy_cement"%string) by (cbn in I; repeat (destruct I as [I|I]; [congruence|]); contradiction I). subst t.
        assert (k <> "type"%string) by (cbn in I; repeat (destruct I as [I|I]; [injection I; intros; subst; discriminate|]); contradiction I).
        intros m. rewrite !tagged_spatchy by auto. unfold reads. rewrite (patchy_more st a b k d N I). reflexivity.
      * destruct I as [I|[]]. injection I; intros; subst. intros m. rewrite !tagged_spolyfit by (try exact G; apply G'; discriminate).
        rewrite (polyfit2d_more st a b _ _ N) by reflexivity. reflexivity.
    + assert (t = "depth_trend"%string) by (cbn in I; repeat (destruct I as [I|I]; [congruence|]); contradiction I). subst t.
      assert (k <> "type"%string) by (cbn in I; repeat (destruct I as [I|I]; [injection I; intros; subst; discriminate|]); contradiction I).
      intros m. rewrite !tagged_depth_trend by auto. rewrite (depth_trend_more st a b k d N); [reflexivity| |];
      cbn in I; repeat (destruct I as [I|I]; [injection I; intros; subst; cbn; auto|]); contradiction I.
    + unfold left_out in I. apply in_app_or in I. destruct I as [I|I].
      * assert (t = "friable_sand"%string) by (cbn in I; repeat (destruct I as [I|I]; [congruence|]); contradiction I). subst t.
        assert (k <> "type"%string) by (cbn in I; repeat (destruct I as [I|I]; [injection I; intros; subst; discriminate|]); contradiction I).
        intros m. rewrite !tagged_dfriable by auto. unfold reads. rewrite (friable_more st a b k d N I). reflexivity.
      * assert (t = "patchy_cement"%string) by (cbn in I; repeat (destruct I as [I|I]; [congruence|]); contradiction I). subst t.
        assert (k <> "type"%string) by (cbn in I; repeat (destruct I as [I|I]; [injection I; intros; subst; discriminate|]); contradiction I).
        intros m. rewrite !tagged_dpatchy by auto. unfold reads. rewrite (patchy_more st a b k d N I). reflexivity.
  - destruct p; try (cbn in I; repeat (destruct I as [I|I]; [discriminate I|]); contradiction I); cbn [same];
    try (apply same_ok_eq; first [apply minerals_more|apply constituent_more|apply fluids_more|apply dry_rock_more|apply pressure_more]; assumption).
    + apply arbitrary_more; assumption.
    + apply (coefficients_more st a b k d N I).
Qed.

(** ** Keys that tell the type *)
Lemma arguments_unknown : forall names items k, In k (map fst items) -> existsb (String.eqb k) names = false ->
  arguments names (VDict items) = Err ValueError.
Proof.
  intros names items k I N. cbn [arguments]. destruct (forallb _ items) eqn:F; [|reflexivity]. exfalso.
  apply in_map_iff in I. destruct I as [x [<- I]]. rewrite forallb_forall in F. specialize (F _ I). congruence.
Qed.
Ltac more N := match type of N with ~ In ?k (map fst (?a ++ ?b)) =>
  match goal with |- context [arguments ?names (VDict (a ++ (k, ?d) :: b))] =>
    destruct (arguments_more names a b k d eq_refl) as [[-> ->]|[-> ->]]; [|first [reflexivity | apply same_ok_eq; reflexivity]];
    cbn [bind]; unfold optional, required, type_is, default; rewrite !(get_more a b k d) by exact N;
    cbn [String.eqb Ascii.eqb Bool.eqb]; rewrite (get_absent (a ++ b) k N); reflexivity end end.
Ltac unknown K := first [unfold reads at 1|idtac];
  match goal with
  | |- context [read_arbitrary st (VDict ?i)] => replace (read_arbitrary st (VDict i)) with (@Err (arbitrary nd) ValueError) by (unfold read_arbitrary; rewrite (arguments_unknown _ _ _ K) by reflexivity; reflexivity)
  | |- context [read_gas st (VDict ?i)] => replace (read_gas st (VDict i)) with (@Err (material_cfg nd) ValueError) by (unfold read_gas; rewrite (arguments_unknown _ _ _ K) by reflexivity; reflexivity)
  | |- context [read_oil st (VDict ?i)] => replace (read_oil st (VDict i)) with (@Err (material_cfg nd) ValueError) by (unfold read_oil; rewrite (arguments_unknown _ _ _ K) by reflexivity; reflexivity)
  | |- context [read_brine st (VDict ?i)] => replace (read_brine st (VDict i)) with (@Err (material_cfg nd) ValueError) by (unfold read_brine; rewrite (arguments_unknown _ _ _ K) by reflexivity; reflexivity)
  | |- context [read_condensate st (VDict ?i)] => replace (read_condensate st (VDict i)) with (@Err (material_cfg nd) ValueError) by (unfold read_condensate; rewrite (arguments_unknown _ _ _ K) by reflexivity; reflexivity)
  | |- context [read_carbon_dioxide (VDict ?i)] => replace (read_carbon_dioxide (VDict i)) with (@Err (material_cfg nd) ValueError) by (unfold read_carbon_dioxide; rewrite (arguments_unknown _ _ _ K) by reflexivity; reflexivity)
  | |- context [read_depth_trend st (VDict ?i)] => replace (read_depth_trend st (VDict i)) with (@Err (adjustment_cfg nd) ValueError) by (unfold read_depth_trend; rewrite (arguments_unknown _ _ _ K) by reflexivity; reflexivity)
  | |- context [read_pressure_dependency st (VDict ?i)] => replace (read_pressure_dependency st (VDict i)) with (@Err (adjustment_cfg nd) ValueError) by (unfold read_pressure_dependency; rewrite (arguments_unknown _ _ _ K) by reflexivity; reflexivity)
  end.
Lemma type_same : forall p k t a b, In (k, t) (tells p) -> In k (map fst (a ++ b)) -> ~ In "type"%string (map fst (a ++ b)) ->
  same st p (VDict (a ++ ("type"%string, VStr t) :: b)) (VDict (a ++ b)).
Proof.
  intros p k t a b I K N. assert (K' : In k (map fst (a ++ ("type"%string, VStr t) :: b))).
  { rewrite map_app in K |- *. cbn [map]. apply in_or_app. apply in_app_or in K. destruct K; [left|right; right]; assumption. }
  destruct p; try contradiction I; cbn [tells In] in I; cbn [same]; apply same_ok_eq;
    repeat (destruct I as [I|I]; [injection I as <- <-|]); try contradiction I; unfold read_material; cbn [first_of]; unfold reads;
    repeat unknown K; repeat unknown K'; cbn [rmap].
  - replace (read_arbitrary st (VDict (a ++ ("type"%string, VStr "material") :: b))) with (read_arbitrary st (VDict (a ++ b))); [reflexivity|].
    symmetry. unfold read_arbitrary. more N.
  - replace (read_oil st (VDict (a ++ ("type"%string, VStr "oil") :: b))) with (read_oil st (VDict (a ++ b))); [reflexivity|].
    symmetry. unfold read_oil. more N.
  - replace (read_condensate st (VDict (a ++ ("type"%string, VStr "condensate") :: b))) with (read_condensate st (VDict (a ++ b))); [reflexivity|].
    symmetry. unfold read_condensate. more N.
  - replace (read_brine st (VDict (a ++ ("type"%string, VStr "brine") :: b))) with (read_brine st (VDict (a ++ b))); [reflexivity|].
    symmetry. unfold read_brine. more N.
  - replace (read_depth_trend st (VDict (a ++ ("type"%string, VStr "depth_trend") :: b))) with (read_depth_trend st (VDict (a ++ b))); [reflexivity|].
    symmetry. unfold read_depth_trend. more N.
  - replace (read_pressure_dependency st (VDict (a ++ ("type"%string, VStr "pressure_dependency") :: b))) with (read_pressure_dependency st (VDict (a ++ b))); [reflexivity|].
    symmetry. unfold read_pressure_dependency. more N.
Qed.

(** ** Values in order *)
Lemma arguments_positions : forall names l, (List.length l <= List.length names)%nat ->
  arguments names (VList l) = Ok (combine names l) /\ arguments names (VDict (combine names l)) = Ok (combine names l).
Proof.
  intros names l L. cbn [arguments]. destruct (Nat.leb_spec (List.length l) (List.length names)); [|lia]. split; [reflexivity|].
  replace (forallb _ (combine names l)) with true; [reflexivity|]. symmetry. apply forallb_forall. intros [k v] I. cbn [fst].
  apply existsb_exists. exists k. split; [apply (in_combine_l _ _ _ _ I)|apply String.eqb_refl].
Qed.
Lemma positions_same : forall p l, positions p <> [] -> (List.length l <= List.length (positions p))%nat ->
  same st p (VList l) (VDict (combine (positions p) l)).
Proof.
  intros p l P L. destruct (arguments_positions _ _ L) as [A B].
  destruct p; try (exfalso; apply P; reflexivity); cbn [same]; try apply same_ok_eq;
  [unfold read_minerals|unfold read_constituent|unfold read_arbitrary|unfold read_fluids_section|unfold read_dry_rock|unfold read_pressure];
  cbn [positions elastic List.app] in *; rewrite A, B; reflexivity.
Qed.

(** ** Columns put in *)
Definition inserted_same (p : place) (v w : value) : Prop :=
  check_no_column_reference v = check_no_column_reference w /\
  forall t, match insert_from_dataframe t v, insert_from_dataframe t w with
            | Ok v', Ok w' => same st p v' w'
            | Err e, Err e' => e = e'
            | _, _ => False
            end.
Lemma insert_list_app : forall t a b, insert_list t (a ++ b) = let* x := insert_list t a in let* y := insert_list t b in Ok (x ++ y).
Proof.
  intros t a b. induction a as [|v a IH].
  - change (insert_list t []) with (@Ok (list value) []). cbn [List.app bind]. destruct (insert_list t b); reflexivity.
  - change (insert_list t ((v :: a) ++ b)) with (let* e := insert_from_dataframe t v in let* r := insert_list t (a ++ b) in Ok (e :: r)).
    change (insert_list t (v :: a)) with (let* e := insert_from_dataframe t v in let* r := insert_list t a in Ok (e :: r)).
    destruct (insert_from_dataframe t v) as [w|]; [|reflexivity]. cbn [bind]. rewrite IH.
    destruct (insert_list t a) as [x|]; [|reflexivity]. cbn [bind]. destruct (insert_list t b); reflexivity.
Qed.
Lemma check_list_app : forall a b, check_list (a ++ b) = let* _ := check_list a in check_list b.
Proof.
  intros a b. induction a as [|v a IH]; [reflexivity|]. cbn [List.app check_list].
  destruct (check_no_column_reference v); [|reflexivity]. cbn [bind]. exact IH.
Qed.
Lemma not_reference_key : forall a b k v, k <> "column"%string -> forall n, ~ is_reference (VDict (a ++ (k, v) :: b)) n.
Proof.
  intros a b k v K n E. unfold is_reference in E. injection E as E. destruct a as [|x a]; [injection E as E _ _; apply K, E|].
  injection E as _ E. destruct a; discriminate E.
Qed.
Lemma not_reference_keyed : forall l k, In k (map fst l) -> k <> "column"%string -> forall n, ~ is_reference (VDict l) n.
Proof. intros l k I K n E. unfold is_reference in E. injection E as ->. destruct I as [I|[]]. apply K. symmetry. exact I. Qed.
Lemma inserted_key : forall p keys q k a b v w, In (keys, q) (inside p) -> In k keys -> inserted_same q v w ->
  inserted_same p (VDict (a ++ (k, v) :: b)) (VDict (a ++ (k, w) :: b)).
Proof.
  intros p keys q k a b v w I K [C H].
  assert (NC : k <> "column"%string).
  { destruct p; cbn [inside In] in I;
    repeat (destruct I as [I|I]; [injection I as <- <-; cbn [elastic grains In] in K;
       repeat (destruct K as [K|K]; [subst; discriminate|]); contradiction K|]); contradiction I. }
  split.
  - rewrite !check_dict_eq by (apply not_reference_key; exact NC). rewrite !check_items_app. cbn [check_items]. rewrite C. reflexivity.
  - intros t. rewrite !insert_dict_eq by (apply not_reference_key; exact NC). rewrite !insert_items_app, !insert_items_cons.
    destruct (insert_items t a) as [x|]; [|reflexivity]. cbn [bind]. specialize (H t).
    destruct (insert_from_dataframe t v) as [v'|], (insert_from_dataframe t w) as [w'|]; try contradiction; [|subst; reflexivity].
    cbn [bind]. destruct (insert_items t b) as [y|]; [|reflexivity]. cbn [bind]. eapply key_same; eassumption.
Qed.
Lemma inserted_item : forall p q a b v w, listed p = Some q -> inserted_same q v w -> inserted_same p (VList (a ++ v :: b)) (VList (a ++ w :: b)).
Proof.
  intros p q a b v w L [C H]. split.
  - rewrite !check_list_eq, !check_list_app. cbn [check_list]. rewrite C. reflexivity.
  - intros t. rewrite !insert_list_eq, !insert_list_app.
    change (insert_list t (v :: b)) with (let* e := insert_from_dataframe t v in let* r := insert_list t b in Ok (e :: r)).
    change (insert_list t (w :: b)) with (let* e := insert_from_dataframe t w in let* r := insert_list t b in Ok (e :: r)).
    destruct (insert_list t a) as [x|]; [|reflexivity]. cbn [bind]. specialize (H t).
    destruct (insert_from_dataframe t v) as [v'|], (insert_from_dataframe t w) as [w'|]; try contradiction; [|subst; reflexivity].
    cbn [bind]. destruct (insert_list t b) as [y|]; [|reflexivity]. cbn [bind]. eapply item_same; eassumption.
Qed.
Lemma insert_items_text : forall t l l' k s, insert_items t l = Ok l' -> In (k, VStr s) l -> In (k, VStr s) l'.
Proof.
  intros t l. induction l as [|[n v] l IH]; intros l' k s H I; [contradiction I|]. rewrite insert_items_cons in H.
  destruct (insert_from_dataframe t v) as [v'|] eqn:V; [|discriminate H]. cbn [bind] in H.
  destruct (insert_items t l) as [r|]; [|discriminate H]. cbn [bind] in H. injection H as <-.
  destruct I as [I|I]; [|right; apply (IH r); [reflexivity|exact I]]. injection I as -> ->. cbn in V. injection V as <-. left. reflexivity.
Qed.
Lemma left_out_plain : forall p t k d, In (t, (k, d)) (left_out p) ->
  check_no_column_reference d = Ok tt /\ (forall t, insert_from_dataframe t d = Ok d) /\ k <> "column"%string.
Proof.
  intros p t k d I. destruct p; cbn in I; repeat (destruct I as [I|I]; [injection I; intros; subst; split; [reflexivity|split; [reflexivity|discriminate]]|]); contradiction I.
Qed.
(** What holds of mappings with and without a key that is written plainly. *)
Lemma inserted_more : forall p k d a b, check_no_column_reference d = Ok tt -> (forall t, insert_from_dataframe t d = Ok d) -> k <> "column"%string ->
  (forall n, ~ is_reference (VDict (a ++ b)) n) ->
  (forall t a' b', insert_items t (a ++ b) = Ok (a' ++ b') -> map fst (a' ++ b') = map fst (a ++ b) ->
     same st p (VDict (a' ++ (k, d) :: b')) (VDict (a' ++ b'))) ->
  inserted_same p (VDict (a ++ (k, d) :: b)) (VDict (a ++ b)).
Proof.
  intros p k d a b C P K R H. pose proof (not_reference_key a b k d K) as R'. split.
  - rewrite !check_dict_eq by assumption. rewrite !check_items_app. cbn [check_items]. rewrite C. reflexivity.
  - intros t. rewrite !insert_dict_eq by assumption. specialize (H t). rewrite insert_items_app in H.
    rewrite !insert_items_app, insert_items_cons, P. destruct (insert_items t a) as [x|] eqn:X; [|reflexivity]. cbn [bind] in *.
    destruct (insert_items t b) as [y|] eqn:Y; [|reflexivity]. cbn [bind] in *. apply H; [reflexivity|].
    rewrite !map_app, (insert_items_keys _ _ _ X), (insert_items_keys _ _ _ Y). reflexivity.
Qed.
Lemma insert_combine : forall t names l, insert_items t (combine names l) =
  if Nat.leb (List.length l) (List.length names) then let* r := insert_list t l in Ok (combine names r) else insert_items t (combine names l).
Proof.
  intros t names l. destruct (Nat.leb_spec (List.length l) (List.length names)) as [L|L]; [|reflexivity].
  revert l L. induction names as [|n names IH]; intros [|v l] L; cbn [List.length] in L; try lia; try reflexivity. cbn [combine].
  rewrite insert_items_cons. rewrite IH by lia.
  change (insert_list t (v :: l)) with (let* e := insert_from_dataframe t v in let* r := insert_list t l in Ok (e :: r)).
  destruct (insert_from_dataframe t v); [|reflexivity]. cbn [bind]. destruct (insert_list t l); reflexivity.
Qed.
Lemma insert_list_length : forall t l l', insert_list t l = Ok l' -> List.length l' = List.length l.
Proof.
  intros t l. induction l as [|v l IH]; intros l' H; [injection H as <-; reflexivity|].
  change (insert_list t (v :: l)) with (let* e := insert_from_dataframe t v in let* r := insert_list t l in Ok (e :: r)) in H.
  destruct (insert_from_dataframe t v); [|discriminate H]. cbn [bind] in H. destruct (insert_list t l) as [r|]; [|discriminate H].
  injection H as <-. cbn [List.length]. rewrite (IH r eq_refl). reflexivity.
Qed.
Lemma check_combine : forall names l, (List.length l <= List.length names)%nat -> check_items (combine names l) = check_list l.
Proof.
  intros names. induction names as [|n names IH]; intros [|v l] L; cbn [List.length] in L; try lia; try reflexivity. cbn [combine check_items check_list].
  rewrite IH by lia. reflexivity.
Qed.
Lemma inserted_positions : forall p l, positions p <> [] -> (List.length l <= List.length (positions p))%nat ->
  inserted_same p (VList l) (VDict (combine (positions p) l)).
Proof.
  intros p l P L. assert (R : forall n, ~ is_reference (VDict (combine (positions p) l)) n).
  { intros n E. unfold is_reference in E. injection E as E. destruct p; try (apply P; reflexivity);
    destruct l as [|v l]; cbn in E; try discriminate E; injection E as E; discriminate E. }
  split.
  - rewrite check_list_eq, check_dict_eq by exact R. symmetry. apply check_combine, L.
  - intros t. rewrite insert_list_eq, insert_dict_eq by exact R. rewrite insert_combine.
    destruct (Nat.leb_spec (List.length l) (List.length (positions p))); [|lia].
    destruct (insert_list t l) as [r|] eqn:E; [|reflexivity]. cbn [bind]. apply positions_same; [exact P|].
    rewrite (insert_list_length _ _ _ E). exact L.
Qed.
Lemma rewritten_inserted : forall p v w, rewritten st p v w -> inserted_same p v w.
Proof.
  intros p v w H. induction H as [p v|p v w H IH|p v w x H IH K IHK|p keys q k a b v w I K H IH|p q a b v w L H IH|p v w H|p t k d a b I N T R|p k t a b I K N|p l P L].
  - split; [reflexivity|]. intros t. destruct (insert_from_dataframe t v); [apply same_refl|reflexivity].
  - destruct IH as [C I]. split; [symmetry; exact C|]. intros t. specialize (I t).
    destruct (insert_from_dataframe t v), (insert_from_dataframe t w); try contradiction; [apply same_sym, I|symmetry; exact I].
  - destruct IH as [C I], IHK as [C' I']. split; [rewrite C; exact C'|]. intros t. specialize (I t). specialize (I' t).
    destruct (insert_from_dataframe t v), (insert_from_dataframe t w), (insert_from_dataframe t x); try contradiction;
    [eapply same_trans; eassumption|congruence].
  - eapply inserted_key; eassumption.
  - eapply inserted_item; eassumption.
  - pose proof (spelled_same st p v w H) as X. destruct H; (split; [reflexivity|]; intros t; exact X).
  - destruct (left_out_plain p t k d I) as (C & P & NK). apply inserted_more; try assumption.
    + intros n E. unfold is_reference in E. injection E as E. apply (R n E).
    + intros tab a' b' E M. apply (more_same p t); [exact I|rewrite M; exact N|]. destruct t as [t|]; [|exact Logic.I].
      destruct T as [D T]. split; [rewrite M; exact D|]. eapply insert_items_text; eassumption.
  - apply inserted_more; try reflexivity; [discriminate| |].
    + apply (not_reference_keyed (a ++ b) k K).
      destruct p; try contradiction I; cbn [tells In] in I; repeat (destruct I as [I|I]; [injection I; intros; subst; discriminate|]); contradiction I.
    + intros tab a' b' E M. apply (type_same p k); [exact I|rewrite M; exact K|rewrite M; exact N].
  - apply inserted_positions; assumption.
Qed.
(** Without data nothing is put in. *)
Lemma rewritten_same_plain : forall p v w, rewritten st p v w -> check_no_column_reference v = Ok tt -> same st p v w.
Proof.
  intros p v w H C. destruct (rewritten_inserted p v w H) as [E I]. specialize (I []).
  assert (Z : forall u, check_no_column_reference u = Ok tt -> insert_from_dataframe [] u = Ok u).
  { intros u U. apply no_reference_unchanged. destruct (check_outcome u) as [[N _]|[_ X]]; [exact N|congruence]. }
  rewrite (Z v C), (Z w) in I by congruence. exact I.
Qed.

(** ** In a configuration *)
Lemma section_ok : forall a b s p v w, In (s, p) sections -> same st p v w ->
  same_ok (read_config st (VDict (a ++ (s, v) :: b))) (read_config st (VDict (a ++ (s, w) :: b))).
Proof.
  intros a b s p v w I H. unfold read_config. cbn [arguments]. rewrite !forallb_app. cbn [forallb fst].
  destruct (andb _ _); [|apply same_ok_eq; reflexivity]. cbn [bind]. unfold default. rewrite !get_app. cbn [get].
  destruct I as [I|[I|[I|[I|[]]]]]; injection I as <- <-; cbn [String.eqb Ascii.eqb Bool.eqb]; cbn [same] in H;
  (apply same_ok_bind; [|intros ?; apply same_ok_bind; [|intros ?; apply same_ok_bind; [|intros ?; apply same_ok_bind; [|intros ?; apply same_ok_eq; reflexivity]]]]);
  try (apply same_ok_eq; reflexivity);
  match goal with |- context [get a ?n] => destruct (get a n); [apply same_ok_eq; reflexivity|] end; cbn [String.eqb Ascii.eqb Bool.eqb];
  first [apply same_ok_eq; reflexivity|exact H].
Qed.
Lemma parse_rewritten : forall a b s p v w data, In (s, p) sections -> rewritten st p v w ->
  same_ok (parse_input st (a ++ (s, v) :: b) data) (parse_input st (a ++ (s, w) :: b) data).
Proof.
  intros a b s p v w data I H. assert (Hs : s <> "data"%string) by (destruct I as [I|[I|[I|[I|[]]]]]; injection I as <- <-; discriminate).
  destruct (rewritten_inserted p v w H) as [Hc Hi].
  unfold parse_input, insert_dataframe. destruct data as [t|].
  - destruct (set_data_split (VFrame t) a s b Hs) as (a' & b' & E & _ & _).
    pose proof (set_has_data (VFrame t) (a ++ (s, v) :: b)) as Dv. pose proof (set_has_data (VFrame t) (a ++ (s, w) :: b)) as Dw.
    rewrite !E. rewrite E in Dv, Dw. rewrite !insert_dict_eq by (apply data_not_reference; assumption). rewrite !insert_items_app, !insert_items_cons.
    destruct (insert_items t a') as [x|]; [|apply same_ok_eq; reflexivity]. cbn [bind]. specialize (Hi t).
    destruct (insert_from_dataframe t v) as [v'|], (insert_from_dataframe t w) as [w'|]; try contradiction; [|subst; apply same_ok_eq; reflexivity].
    cbn [bind]. destruct (insert_items t b') as [y|]; [|apply same_ok_eq; reflexivity]. cbn [bind].
    apply same_ok_bind; [apply (section_ok x y s p v' w' I Hi)|]. intros c. apply same_ok_eq. reflexivity.
  - destruct (set_data_split VNull a s b Hs) as (a' & b' & E & _ & _).
    pose proof (set_has_data VNull (a ++ (s, v) :: b)) as Dv. pose proof (set_has_data VNull (a ++ (s, w) :: b)) as Dw.
    rewrite !E. rewrite E in Dv, Dw. rewrite !check_dict_eq by (apply data_not_reference; assumption). rewrite !check_items_app. cbn [check_items].
    rewrite <- Hc. destruct (check_items a') as [[]|]; [|apply same_ok_eq; reflexivity]. cbn [bind].
    destruct (check_no_column_reference v) as [[]|] eqn:Cv; [|apply same_ok_eq; reflexivity]. cbn [bind].
    destruct (check_items b') as [[]|]; [|apply same_ok_eq; reflexivity]. cbn [bind].
    apply same_ok_bind; [|intros c; apply same_ok_eq; reflexivity]. apply (section_ok a' b' s p v w I). apply rewritten_same_plain; assumption.
Qed.
End Same.
Lemma rewritten_run : forall co2 st header a b s p v w write compare, In (s, p) sections -> rewritten st p v w ->
  (forall data c r, run (app co2 st header (VDict (a ++ (s, v) :: b)) data write compare) None = Ret (c, Some r) <->
                    run (app co2 st header (VDict (a ++ (s, w) :: b)) data write compare) None = Ret (c, Some r)) /\
  (forall data t, run (app co2 st header (VDict (a ++ (s, v) :: b)) data write compare) (Some t) =
                  run (app co2 st header (VDict (a ++ (s, w) :: b)) data write compare) (Some t)).
Proof.
  intros co2 st header a b s p v w write compare I H.
  assert (P : forall data i, parse_rows st header (a ++ (s, v) :: b) data = Ret i <-> parse_rows st header (a ++ (s, w) :: b) data = Ret i).
  { intros data i. rewrite !parse_rows_ret.
    pose proof (parse_rewritten st a b s p v w (option_map (frame header) data) I H (snd i)) as Q. rewrite Q. reflexivity. }
  split.
  - intros data c r. rewrite !default_writes_iff. split; intros (i & X & Y); exists i; (split; [apply P, X|exact Y]).
  - intros [rows|] t; [|reflexivity]. apply rows_same_run. intros r i. apply P.
Qed.
