(** Lemmas about the configurations of the documentation, types and defaults. *)
From Coq Require Import String List ZArith Lra Lia Permutation.
From Verif Require Import Base BaseProofs ConfigModel FluidsModel InputModel InputSpec InputProofs RowModel ReadModel
  SchemaSpec SchemaProofs DocSpec.
Import ListNotations.
Open Scope R_scope.

(** ** Refused configurations *)
Lemma record_field : forall st fields pairs items k v, conforms st (Record fields pairs) (VDict items) -> In (k, v) items ->
  exists b s, In (k, (b, s)) fields /\ conforms st s v.
Proof.
  intros st fields pairs items k v C I. inversion C as [| | | | | | | | | |? ? ? K Q T| | | | |]; subst. rewrite Forall_forall in K.
  destruct (K _ I) as [[k' [b s]] [X [E D]]]. cbn [fst snd] in *. subst k'. exists b, s. split; assumption.
Qed.
Lemma unknown_key : forall st fields pairs items k v, In (k, v) items -> ~ In k (map fst fields) ->
  ~ conforms st (Record fields pairs) (VDict items).
Proof.
  intros st fields pairs items k v I N C. destruct (record_field _ _ _ _ _ _ C I) as (b & s & X & _). apply N. apply (in_map fst _ _ X).
Qed.
Lemma section_of : forall st items k v, conforms st config_schema (VDict items) -> In (k, v) items ->
  (k = "data" \/ k = "minerals" /\ conforms st minerals_schema v \/
  k = "fluids" /\ conforms st fluids_schema v \/ k = "dry_rock" /\ conforms st dry_rock_schema v \/
  k = "pressure" /\ conforms st pressure_schema v)%string.
Proof.
  intros st items k v C I. destruct (record_field _ _ _ _ _ _ C I) as (b & s & X & D).
  destruct X as [X|[X|[X|[X|[X|[]]]]]]; injection X as <- <- <-; auto 10.
Qed.
Lemma refuse : forall items, distinct (VDict items) -> (forall st, ~ conforms st config_schema (VDict items)) -> refused items.
Proof. intros items D N st data inp H. apply (N st). eapply accepted_conforms; eassumption. Qed.

Ltac distinct_tac :=
  repeat first [ apply distinct_dict | apply distinct_list | apply distinct_leaf; discriminate
               | apply Forall_cons | apply Forall_nil | apply NoDup_cons | apply NoDup_nil
               | progress cbn [snd map fst] | (cbn; intuition discriminate) ].
Ltac unfold_docs := unfold tutorial, started_fluids, started_dry_rock, printed_fit, printed_adjustments, sand_and_shale, typical_oil, typical_brine,
  typical_gas, sand, shale, cement_value, moduli, column, printed_trend, printed_powers, matrix_value, numbers; cbn [map].

Lemma tutorial_refused : refused tutorial.
Proof.
  apply refuse; [unfold_docs; distinct_tac|]. intros st C.
  assert (X := section_of st _ "fluids" _ C (or_intror (or_introl eq_refl))).
  destruct X as [X|[[X _]|[[_ X]|[[X _]|[X _]]]]]; try discriminate X.
  eapply unknown_key; [| |exact X]; [right; left; reflexivity|cbn; intuition discriminate].
Qed.
Lemma tutorial_sections_refused : forall k v, In (k, v) tutorial -> k <> "minerals"%string -> refused [(k, v)].
Proof.
  intros k v [I|[I|[I|[]]]] N; injection I as <- <-; [contradiction N; reflexivity| |];
  (apply refuse; [unfold_docs; distinct_tac|]); intros st C; assert (X := section_of st _ _ _ C (or_introl eq_refl));
  destruct X as [X|[[X Y]|[[X Y]|[[X Y]|[X Y]]]]]; try discriminate X.
  - eapply unknown_key; [| |exact Y]; [right; left; reflexivity|cbn; intuition discriminate].
  - eapply unknown_key; [| |exact Y]; [right; right; left; reflexivity|cbn; intuition discriminate].
Qed.
Lemma started_fluids_refused : refused started_fluids.
Proof.
  apply refuse; [unfold_docs; distinct_tac|]. intros st C.
  assert (X := section_of st _ "fluids" _ C (or_introl eq_refl)).
  destruct X as [X|[[X _]|[[_ X]|[[X _]|[X _]]]]]; try discriminate X.
  eapply unknown_key; [| |exact X]; [right; right; left; reflexivity|cbn; intuition discriminate].
Qed.
(** The model of a pressure dependency in the dry rock section. *)
Lemma dependency_of : forall st items l adj d m, conforms st config_schema (VDict items) -> In ("dry_rock", VDict l)%string items ->
  In ("adjustments", VList adj)%string l -> In (VDict d) adj -> In ("model", m)%string d -> conforms st dependency_schema m.
Proof.
  intros st items l adj d m C I1 I2 I3 I4. assert (X := section_of _ _ _ _ C I1).
  destruct X as [X|[[X _]|[[X _]|[[_ X]|[X _]]]]]; try discriminate X.
  destruct (record_field _ _ _ _ _ _ X I2) as (b & s & F & D). destruct F as [F|[F|[F|[]]]]; try discriminate F. injection F as <- <-.
  inversion D as [| | | | | | | | | | | | | | |? ? ? DD]; subst. rewrite Forall_forall in DD. specialize (DD _ I3). inversion DD as [| | | | | | | | | | | |? s ? O Q| | |]; subst.
  destruct O as [<-|[<-|[]]].
  - exfalso. eapply unknown_key; [exact I4| |exact Q]. cbn. intuition discriminate.
  - destruct (record_field _ _ _ _ _ _ Q I4) as (b & s & F & E). destruct F as [F|[F|[]]]; try discriminate F. injection F as <- <-. exact E.
Qed.
Lemma started_dry_rock_refused : refused started_dry_rock.
Proof.
  apply refuse; [unfold_docs; distinct_tac|]. intros st C.
  assert (X := dependency_of st _ _ _ _ _ C (or_introl eq_refl) (or_intror (or_intror (or_introl eq_refl))) (or_introl eq_refl)
    (or_intror (or_introl eq_refl))).
  inversion X as [| | | | | | | | | | | |? s ? O Q| | |]; subst.
  destruct O as [<-|[<-|[<-|[<-|[<-|[<-|[]]]]]]]; (eapply unknown_key; [| |exact Q]; [right; left; reflexivity|cbn; intuition discriminate]).
Qed.

Lemma printed_fit_refused : forall name k1 k2 k3 v1 v2 v3 d1 d2 d3, name = "expfit"%string \/ name = "logfit"%string ->
  refused (printed_fit name [k1; k2; k3] [v1; v2; v3] [d1; d2; d3]).
Proof.
  intros name k1 k2 k3 v1 v2 v3 d1 d2 d3 H st data inp E.
  assert (X : parse_input st (printed_fit name [k1; k2; k3] [v1; v2; v3] [d1; d2; d3]) data = Err ValueError)
    by (destruct data as [t|], H as [->| ->]; reflexivity).
  rewrite X in E. discriminate E.
Qed.

(** ** Accepted configurations *)
Lemma column_there : forall t n, In n (map fst t) -> exists c, find_column t n = Some c.
Proof.
  intros t n H. destruct (find_column t n) as [c|] eqn:E; [exists c; reflexivity|]. apply find_column_none in E. contradiction.
Qed.
Ltac take_column H n := let c := fresh "c" in let E := fresh "E" in
  destruct (column_there _ n%string (H n%string ltac:(cbn; tauto))) as [c E].
Ltac accept_tac :=
  let st := fresh "st" in let t := fresh "t" in let H := fresh "H" in intros st t H;
  take_column H "fluid_pressure"%string; take_column H "brine_saturation"%string; take_column H "gas_saturation"%string;
  take_column H "porosity"%string; take_column H "sand_fraction"%string; take_column H "depth"%string; take_column H "rock_pressure"%string;
  cbv -[find_column read_config Rplus Rmult Rdiv Ropp Rminus Rinv IZR pow];
  repeat match goal with E : find_column t _ = Some _ |- _ => rewrite E; clear E end;
  do 2 eexists; (split; [reflexivity|]);
  cbv -[Rplus Rmult Rdiv Ropp Rminus Rinv IZR pow]; reflexivity.
Lemma example1_accepted : accepted_with example1 columns_used.
Proof. accept_tac. Qed.
Lemma example2_accepted : accepted_with example2 columns_used.
Proof. accept_tac. Qed.
Lemma example3_accepted : accepted_with example3 columns_used.
Proof. accept_tac. Qed.
Lemma example4_accepted : accepted_with example4 columns_used.
Proof. accept_tac. Qed.
Lemma carbon_dioxide_accepted : accepted_with carbon_dioxide_example columns_used.
Proof. accept_tac. Qed.
Lemma adjustments_accepted : accepted_with printed_adjustments columns_used.
Proof. accept_tac. Qed.

(** ** Types *)
Lemma arguments_dict : forall names items f, arguments names (VDict items) = Ok f -> f = items.
Proof. intros names items f H. unfold arguments in H. destruct (forallb _ _); [|discriminate]. injection H as <-. reflexivity. Qed.
Lemma type_said : forall name items s, get items "type" = Some (VStr s) -> type_is name items = Ok tt -> s = name.
Proof.
  intros name items s G H. unfold type_is, default in H. rewrite G in H. unfold literal in H.
  destruct (String.eqb_spec name s); [symmetry; assumption|discriminate].
Qed.
Definition of_kind {A} (kind : A -> string) (read : value -> res A) : Prop :=
  forall items m s, get items "type" = Some (VStr s) -> read (VDict items) = Ok m -> s = kind m.
Ltac steps H := repeat match type of H with
  | bind ?x _ = Ok _ => let E := fresh "E" in destruct x eqn:E; [|discriminate H]; cbn [bind] in H
  | (let '(_, _) := ?x in _) = Ok _ => destruct x
  | match ?x with _ => _ end = Ok _ => destruct x; try discriminate H
  end.
Ltac kind := let v := fresh "v" in let m := fresh "m" in let items := fresh "items" in let s := fresh "s" in
  let G := fresh "G" in let H := fresh "H" in
  unfold of_kind; intros items m s G H;
  cbv beta delta [read_arbitrary read_gas read_oil read_brine read_condensate read_carbon_dioxide
    read_friable read_patchy read_fit read_powerfit read_polyfit2d read_depth_trend read_pressure_dependency] in H;
  steps H; try (injection H as <-);
  repeat match goal with E : arguments _ (VDict items) = Ok _ |- _ => apply arguments_dict in E; subst end;
  repeat match goal with u : unit |- _ => destruct u end;
  match goal with E : type_is _ items = Ok tt |- _ => apply (type_said _ _ _ G) in E; rewrite E; reflexivity end.
Lemma reads_kind : forall {A B} (kind : B -> string) (f : A -> B) read, of_kind (fun a => kind (f a)) read -> of_kind kind (reads f read).
Proof.
  intros A B kind f read H items m s G E. unfold reads, rmap in E. destruct (read (VDict items)) as [a|] eqn:X; [|discriminate].
  injection E as <-. eapply H; eassumption.
Qed.
Section Types.
Context (st : strings).
Lemma kind_arbitrary : of_kind material_kind (reads MArbitrary (read_arbitrary st)). Proof. apply reads_kind. kind. Qed.
Lemma kind_gas : of_kind material_kind (read_gas st). Proof. kind. Qed.
Lemma kind_oil : of_kind material_kind (read_oil st). Proof. kind. Qed.
Lemma kind_brine : of_kind material_kind (read_brine st). Proof. kind. Qed.
Lemma kind_condensate : of_kind material_kind (read_condensate st). Proof. kind. Qed.
Lemma kind_carbon_dioxide : of_kind material_kind read_carbon_dioxide. Proof. kind. Qed.
Lemma kind_dpatchy : of_kind dependency_kind (reads DPatchy (read_patchy st)). Proof. apply reads_kind. kind. Qed.
Lemma kind_dfriable : of_kind dependency_kind (reads DFriable (read_friable st)). Proof. apply reads_kind. kind. Qed.
Lemma kind_powerfit : of_kind dependency_kind (read_powerfit st). Proof. kind. Qed.
Lemma kind_logfit : of_kind dependency_kind (reads (@DLogfit nd) (read_fit st "logfit")). Proof. apply reads_kind. kind. Qed.
Lemma kind_polyfit : of_kind dependency_kind (reads (@DPolyfit nd) (read_fit st "polyfit")). Proof. apply reads_kind. kind. Qed.
Lemma kind_expfit : of_kind dependency_kind (reads (@DExpfit nd) (read_fit st "expfit")). Proof. apply reads_kind. kind. Qed.
Lemma kind_spatchy : of_kind sandstone_kind (reads SPatchy (read_patchy st)). Proof. apply reads_kind. kind. Qed.
Lemma kind_sfriable : of_kind sandstone_kind (reads SFriable (read_friable st)). Proof. apply reads_kind. kind. Qed.
Lemma kind_polyfit2d : of_kind sandstone_kind (read_polyfit2d st). Proof. kind. Qed.
Lemma kind_depth : of_kind adjustment_kind (read_depth_trend st). Proof. kind. Qed.
Lemma kind_pressure : of_kind adjustment_kind (read_pressure_dependency st). Proof. kind. Qed.
End Types.
Lemma kind_first : forall {A} (kind : A -> string) l, Forall (of_kind kind) l -> of_kind kind (first_of l).
Proof.
  intros A kind l F items m s G H. induction F as [|f l Hf F IH]; [discriminate H|]. cbn [first_of] in H.
  destruct (f (VDict items)) as [a|e] eqn:E; [injection H as <-; eapply Hf; eassumption|]. destruct e; try discriminate H. apply IH, H.
Qed.
Lemma types : forall st,
  of_kind material_kind (read_material st) /\ of_kind dependency_kind (read_dependency st) /\
  of_kind sandstone_kind (read_sandstone st) /\
  of_kind adjustment_kind (first_of [read_depth_trend st; read_pressure_dependency st]).
Proof.
  intros st. split; [|split; [|split]]; apply kind_first; repeat (apply Forall_cons || apply Forall_nil);
  first [apply kind_arbitrary|apply kind_gas|apply kind_oil|apply kind_brine|apply kind_condensate|apply kind_carbon_dioxide
        |apply kind_dpatchy|apply kind_dfriable|apply kind_powerfit|apply kind_logfit|apply kind_polyfit|apply kind_expfit
        |apply kind_spatchy|apply kind_sfriable|apply kind_polyfit2d|apply kind_depth|apply kind_pressure].
Qed.

(** ** No type *)
Lemma fit_any_name : forall st items a b, get items "type" = None -> read_fit st a (VDict items) = read_fit st b (VDict items).
Proof.
  intros st items a b G. unfold read_fit. destruct (arguments _ _) as [f|] eqn:A; [|reflexivity]. apply arguments_dict in A. subst f. cbn [bind].
  unfold type_is, default. rewrite G. reflexivity.
Qed.
Lemma untyped_fits : forall st items m, ~ In "type"%string (map fst items) -> read_dependency st (VDict items) = Ok m ->
  dependency_kind m <> "polyfit"%string /\ dependency_kind m <> "expfit"%string.
Proof.
  intros st items m N H. assert (G : get items "type" = None).
  { destruct (get items "type") as [v|] eqn:E; [|reflexivity]. exfalso. apply N. apply get_in in E. apply (in_map fst _ _ E). }
  unfold read_dependency in H. cbn [first_of] in H. unfold reads, rmap in H.
  rewrite (fit_any_name st items "polyfit" "logfit" G), (fit_any_name st items "expfit" "logfit" G) in H.
  destruct (read_patchy st (VDict items)) as [p|[]]; try discriminate H; [injection H as <-; split; discriminate|].
  destruct (read_friable st (VDict items)) as [f|[]]; try discriminate H; [injection H as <-; split; discriminate|].
  destruct (read_powerfit st (VDict items)) as [q|[]] eqn:P; try discriminate H.
  - injection H as <-. unfold read_powerfit in P. steps P. injection P as <-. split; discriminate.
  - destruct (read_fit st "logfit" (VDict items)) as [c|[]]; try discriminate H. injection H as <-. split; discriminate.
Qed.
Lemma untyped_rock : forall st items m, ~ In "type"%string (map fst items) -> ~ In "coefficients"%string (map fst items) ->
  read_sandstone st (VDict items) = Ok m -> sandstone_kind m <> "polyfit"%string.
Proof.
  intros st items m N C H. destruct items as [|[k v] items].
  - cbv -[Rplus Rmult Rdiv Ropp Rminus Rinv IZR pow] in H. injection H as <-. discriminate.
  - unfold read_sandstone in H. cbn [first_of] in H. unfold reads, rmap in H.
    destruct (read_patchy st _) as [p|[]]; try discriminate H; [injection H as <-; discriminate|].
    destruct (read_friable st _) as [f|[]]; try discriminate H; [injection H as <-; discriminate|].
    exfalso. unfold read_polyfit2d in H. cbn [arguments forallb fst] in H.
    destruct (String.eqb_spec k "coefficients") as [->|X]; [apply C; left; reflexivity|].
    destruct (String.eqb_spec k "type") as [->|Y]; [apply N; left; reflexivity|].
    assert (Z : existsb (String.eqb k) ["coefficients"; "type"]%string = false).
    { cbn [existsb]. destruct (String.eqb_spec k "coefficients"); [contradiction|]. destruct (String.eqb_spec k "type"); [contradiction|]. reflexivity. }
    rewrite Z in H. discriminate H.
Qed.
