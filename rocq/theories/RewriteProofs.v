(** Lemmas about ways of writing the same thing in a configuration file. *)
From Coq Require Import String Ascii List ZArith Lra Lia.
From Verif Require Import Base BaseProofs ConfigModel FluidsModel InputModel InputSpec InputProofs MainModel RowModel ReadModel AppModel
  SchemaSpec SchemaProofs ReorderProofs RunProofs DocSpec DocProofs DefaultProofs RewriteSpec.
Import ListNotations.
Open Scope R_scope.

(** ** Results that succeed alike *)
Definition same_ok {A} (r r' : res A) : Prop := forall a, r = Ok a <-> r' = Ok a.
Lemma same_ok_eq : forall A (r r' : res A), r = r' -> same_ok r r'.
Proof. intros A r r' -> a. reflexivity. Qed.
Lemma same_ok_sym : forall A (r r' : res A), same_ok r r' -> same_ok r' r.
Proof. intros A r r' H a. symmetry. apply H. Qed.
Lemma same_ok_trans : forall A (r s t : res A), same_ok r s -> same_ok s t -> same_ok r t.
Proof. intros A r s t H K a. rewrite (H a). apply K. Qed.
Lemma same_ok_bind : forall A B (r r' : res A) (k k' : A -> res B),
  same_ok r r' -> (forall a, same_ok (k a) (k' a)) -> same_ok (bind r k) (bind r' k').
Proof.
  intros A B r r' k k' H K b. destruct r as [a|e].
  - rewrite (proj1 (H a) eq_refl). apply K.
  - destruct r' as [a|e']; [discriminate (proj2 (H a) eq_refl)|]. split; discriminate.
Qed.
Lemma same_ok_sequence : forall A (l m : list (res A)), Forall2 same_ok l m -> same_ok (sequence l) (sequence m).
Proof.
  intros A l m H. induction H as [|x y l m H F IH]; [apply same_ok_eq; reflexivity|]. cbn [sequence].
  apply same_ok_bind; [exact H|]. intros a. apply same_ok_bind; [exact IH|]. intros b. apply same_ok_eq. reflexivity.
Qed.
Lemma same_ok_list_of : forall A (read : value -> res A) l m, Forall2 (fun v w => same_ok (read v) (read w)) l m ->
  same_ok (list_of read (VList l)) (list_of read (VList m)).
Proof.
  intros A read l m H. cbn [list_of]. apply same_ok_sequence. induction H; constructor; assumption.
Qed.
Lemma same_ok_nonempty : forall A (read : value -> res A) v w, same_ok (list_of read v) (list_of read w) ->
  same_ok (nonempty_list_of read v) (nonempty_list_of read w).
Proof. intros A read v w H. unfold nonempty_list_of. apply same_ok_bind; [exact H|]. intros a. apply same_ok_eq. reflexivity. Qed.
Lemma list_of_eq : forall A (read : value -> res A) l m, Forall2 (fun v w => read v = read w) l m ->
  list_of read (VList l) = list_of read (VList m).
Proof. intros A read l m H. cbn [list_of]. f_equal. induction H as [|x y l m E F IH]; [reflexivity|]. cbn [map]. rewrite E, IH. reflexivity. Qed.

(** ** What is the same at a place *)
Section Same.
Context (st : strings).
Definition null_alike (v w : value) : Prop := v = VNull <-> w = VNull.
Definition same (p : place) (v w : value) : Prop :=
  match p with
  | AtNumbers => np_array st v = np_array st w /\ cell st v = cell st w /\ is_scalar v = is_scalar w /\ is_row v = is_row w /\
                 matrix_row st v = matrix_row st w /\ null_alike v w
  | AtNumber => read_float st v = read_float st w
  | AtIndex => read_int st v = read_int st w
  | AtIndices => list_of (read_int st) v = list_of (read_int st) w /\ null_alike v w
  | AtSwitch => read_bool v = read_bool w
  | AtCoefficients => read_moduli st v = read_moduli st w /\ read_velocities st v = read_velocities st w /\
                      read_ratios st v = read_ratios st w /\ null_alike v w
  | AtCement => read_arbitrary st v = read_arbitrary st w
  | AtMaterial => same_ok (read_material st v) (read_material st w)
  | AtConstituent => same_ok (read_constituent st v) (read_constituent st w)
  | AtConstituents => same_ok (list_of (read_constituent st) v) (list_of (read_constituent st) w)
  | AtMinerals => same_ok (read_minerals st v) (read_minerals st w)
  | AtFluids => same_ok (read_fluids_section st v) (read_fluids_section st w)
  | AtModel => same_ok (read_sandstone st v) (read_sandstone st w)
  | AtDependency => same_ok (read_dependency st v) (read_dependency st w)
  | AtAdjustment => same_ok (first_of [read_depth_trend st; read_pressure_dependency st] v)
                            (first_of [read_depth_trend st; read_pressure_dependency st] w)
  | AtAdjustments => same_ok (list_of (first_of [read_depth_trend st; read_pressure_dependency st]) v)
                             (list_of (first_of [read_depth_trend st; read_pressure_dependency st]) w)
  | AtDryRock => same_ok (read_dry_rock st v) (read_dry_rock st w)
  | AtPressure => same_ok (read_pressure st v) (read_pressure st w)
  end.
Lemma same_refl : forall p v, same p v v.
Proof. intros p v. destruct p; cbn [same]; unfold null_alike, same_ok; intuition auto. Qed.
Lemma same_sym : forall p v w, same p v w -> same p w v.
Proof.
  intros p v w H. destruct p; cbn [same] in *; unfold null_alike in *;
    try (apply same_ok_sym; exact H); try (symmetry; exact H); intuition (auto; symmetry; auto).
Qed.
Lemma same_trans : forall p v w x, same p v w -> same p w x -> same p v x.
Proof.
  intros p v w x H K. destruct p; cbn [same] in *; unfold null_alike in *;
    try (eapply same_ok_trans; eassumption); try (etransitivity; eassumption).
  - destruct H as (A & B & C & D), K as (A' & B' & C' & D'). rewrite A, B, C, D, A', B', C'. auto.
  - destruct H as (A & B & C & D & E & F), K as (A' & B' & C' & D' & E' & F'). rewrite A, B, C, D, E, A', B', C', D', E', F. auto 10.
  - destruct H as (A & B), K as (A' & B'). rewrite A, A', B. auto.
Qed.

(** ** One value among the others *)
Definition under (p : place) (n : string) (v w : value) : Prop :=
  v = w \/ exists keys q, In (keys, q) (inside p) /\ In n keys /\ same q v w.
Definition alike (p : place) (l l' : list (string * value)) : Prop :=
  map fst l = map fst l' /\
  forall n, match get l n, get l' n with
            | Some v, Some w => under p n v w
            | None, None => True
            | _, _ => False
            end.
Lemma alike_key : forall p keys q k a b v w, In (keys, q) (inside p) -> In k keys -> same q v w ->
  alike p (a ++ (k, v) :: b) (a ++ (k, w) :: b).
Proof.
  intros p keys q k a b v w I K H. split; [rewrite !map_app; reflexivity|]. intros n. rewrite !get_app.
  destruct (get a n); [left; reflexivity|]. cbn [get]. destruct (String.eqb_spec k n) as [->|].
  - right. exists keys, q. auto.
  - destruct (get b n); [left; reflexivity|exact Logic.I].
Qed.
Lemma arguments_alike : forall names l l', map fst l = map fst l' ->
  arguments names (VDict l) = Ok l /\ arguments names (VDict l') = Ok l' \/
  arguments names (VDict l) = Err ValueError /\ arguments names (VDict l') = Err ValueError.
Proof.
  intros names l l' H. cbn [arguments].
  assert (E : forallb (fun kv : string * value => existsb (String.eqb (fst kv)) names) l
            = forallb (fun kv => existsb (String.eqb (fst kv)) names) l').
  { revert l' H. induction l as [|x l IH]; intros [|y l'] H; try discriminate H; [reflexivity|]. injection H as A B.
    cbn [forallb]. rewrite A, (IH l' B). reflexivity. }
  rewrite <- E. destruct (forallb _ l); auto.
Qed.
Section Fields.
Context (p : place) (l l' : list (string * value)) (H : alike p l l').
Lemma required_eq : forall A (read : value -> res A) n, (forall v w, under p n v w -> read v = read w) ->
  required read l n = required read l' n.
Proof.
  intros A read n K. unfold required. destruct H as [_ G]. specialize (G n). destruct (get l n), (get l' n); try contradiction; auto.
Qed.
Lemma default_eq : forall A (d : A) (read : value -> res A) n, (forall v w, under p n v w -> read v = read w) ->
  default d read l n = default d read l' n.
Proof.
  intros A d read n K. unfold default. destruct H as [_ G]. specialize (G n). destruct (get l n), (get l' n); try contradiction; auto.
Qed.
Lemma required_ok : forall A (read : value -> res A) n, (forall v w, under p n v w -> same_ok (read v) (read w)) ->
  same_ok (required read l n) (required read l' n).
Proof.
  intros A read n K. unfold required. destruct H as [_ G]. specialize (G n).
  destruct (get l n), (get l' n); try contradiction; auto. apply same_ok_eq. reflexivity.
Qed.
Lemma default_ok : forall A (d : A) (read : value -> res A) n, (forall v w, under p n v w -> same_ok (read v) (read w)) ->
  same_ok (default d read l n) (default d read l' n).
Proof.
  intros A d read n K. unfold default. destruct H as [_ G]. specialize (G n).
  destruct (get l n), (get l' n); try contradiction; auto. apply same_ok_eq. reflexivity.
Qed.
End Fields.
Lemma nullable_eq : forall A (read : value -> res A) v w, read v = read w -> null_alike v w -> nullable read v = nullable read w.
Proof.
  intros A read v w E N. unfold null_alike in N. destruct v, w; cbn [nullable]; try rewrite E; try reflexivity;
    (discriminate (proj1 N eq_refl) || discriminate (proj2 N eq_refl)).
Qed.

Lemma bind_eq : forall A B (r r' : res A) (k k' : A -> res B), r = r' -> (forall a, k a = k' a) -> bind r k = bind r' k'.
Proof. intros A B r r' k k' -> K. destruct r'; [apply K|reflexivity]. Qed.
Lemma coefficients_same : forall v w, same AtCoefficients v w -> read_coefficients st v = read_coefficients st w.
Proof. intros v w (A & B & _). unfold read_coefficients. cbn [first_of]. rewrite A, B. reflexivity. Qed.
Ltac look U := let keys := fresh "keys" in let q := fresh "q" in let I := fresh "I" in let K := fresh "K" in
  destruct U as [->|(keys & q & I & K & U)]; [first [reflexivity | apply same_ok_eq; reflexivity]|];
  cbn [inside In] in I;
  repeat (destruct I as [I|I]; [injection I as <- <-; cbn [elastic grains In] in K;
                                repeat (destruct K as [K|K]; [try discriminate K|]); try contradiction K|]);
  try contradiction I; cbn [same] in U.
Ltac found := match goal with
  | U : _ |- _ => solve [exact U | apply U | apply nullable_eq; apply U | apply coefficients_same; exact U
                        | apply nullable_eq; [apply coefficients_same; exact U|apply U] | apply same_ok_nonempty; exact U
                        | apply same_ok_eq; exact U | apply same_ok_eq; apply U | apply same_ok_eq; apply nullable_eq; apply U] end.
Ltac eq_field H := unfold optional, type_is;
  first [ apply (required_eq _ _ _ H) | apply (default_eq _ _ _ H) ];
  let U := fresh "U" in intros ? ? U; look U; found.
Ltac eq_fields H := repeat (apply bind_eq; [solve [eq_field H]|intros ?]); try reflexivity.
Ltac ok_field H := unfold optional, type_is;
  first [ apply (required_ok _ _ _ H) | apply (default_ok _ _ _ H) ];
  let U := fresh "U" in intros ? ? U; look U; found.
Ltac ok_fields H := repeat (apply same_ok_bind; [solve [ok_field H]|intros ?]); try (apply same_ok_eq; reflexivity).
Ltac args H := match goal with |- context [arguments ?names (VDict ?l)] =>
  match goal with |- context [arguments names (VDict ?l')] => match l' with l => fail 1 | _ =>
    destruct (arguments_alike names l l' (proj1 H)) as [[-> ->]|[-> ->]] end end end;
  cbn [bind]; [|first [reflexivity | apply same_ok_eq; reflexivity]].

Lemma arbitrary_alike : forall p l l', In p [AtMaterial; AtCement] -> alike p l l' -> read_arbitrary st (VDict l) = read_arbitrary st (VDict l').
Proof.
  intros p l l' P H. unfold read_arbitrary. destruct P as [<-|[<-|[]]]; args H; eq_fields H.
Qed.
Lemma material_alike : forall l l', alike AtMaterial l l' -> read_material st (VDict l) = read_material st (VDict l').
Proof.
  intros l l' H. unfold read_material. cbn [first_of]. unfold reads. rewrite (arbitrary_alike AtMaterial l l') by (cbn; auto).
  assert (G : read_gas st (VDict l) = read_gas st (VDict l')) by (unfold read_gas; args H; eq_fields H).
  assert (O : read_oil st (VDict l) = read_oil st (VDict l')) by (unfold read_oil; args H; eq_fields H).
  assert (B : read_brine st (VDict l) = read_brine st (VDict l')) by (unfold read_brine; args H; eq_fields H).
  assert (C : read_condensate st (VDict l) = read_condensate st (VDict l')) by (unfold read_condensate; args H; eq_fields H).
  assert (D : read_carbon_dioxide (VDict l) = read_carbon_dioxide (VDict l')) by (unfold read_carbon_dioxide; args H; eq_fields H).
  rewrite G, O, B, C, D. reflexivity.
Qed.
Lemma coefficients_alike : forall l l', alike AtCoefficients l l' -> same AtCoefficients (VDict l) (VDict l').
Proof.
  intros l l' H. cbn [same]. split; [|split; [|split]]; [| | |unfold null_alike; split; discriminate].
  - unfold read_moduli. args H; eq_fields H.
  - unfold read_velocities. args H; eq_fields H.
  - unfold read_ratios. args H; eq_fields H.
Qed.
Lemma friable_alike : forall p l l', In p [AtModel; AtDependency] -> alike p l l' -> read_friable st (VDict l) = read_friable st (VDict l').
Proof. intros p l l' P H. unfold read_friable. destruct P as [<-|[<-|[]]]; args H; eq_fields H. Qed.
Lemma patchy_alike : forall p l l', In p [AtModel; AtDependency] -> alike p l l' -> read_patchy st (VDict l) = read_patchy st (VDict l').
Proof. intros p l l' P H. unfold read_patchy. destruct P as [<-|[<-|[]]]; args H; eq_fields H. Qed.
Lemma fit_alike : forall name l l', alike AtDependency l l' -> read_fit st name (VDict l) = read_fit st name (VDict l').
Proof. intros name l l' H. unfold read_fit. args H; eq_fields H. Qed.
Lemma powerfit_alike : forall l l', alike AtDependency l l' -> read_powerfit st (VDict l) = read_powerfit st (VDict l').
Proof. intros l l' H. unfold read_powerfit. args H; eq_fields H. Qed.
Lemma polyfit2d_alike : forall l l', alike AtModel l l' -> read_polyfit2d st (VDict l) = read_polyfit2d st (VDict l').
Proof. intros l l' H. unfold read_polyfit2d. args H; eq_fields H. Qed.
Lemma sandstone_alike : forall l l', alike AtModel l l' -> read_sandstone st (VDict l) = read_sandstone st (VDict l').
Proof.
  intros l l' H. unfold read_sandstone. cbn [first_of]. unfold reads.
  rewrite (patchy_alike AtModel l l'), (friable_alike AtModel l l'), (polyfit2d_alike l l') by (try exact H; cbn; auto). reflexivity.
Qed.
Lemma dependency_alike : forall l l', alike AtDependency l l' -> read_dependency st (VDict l) = read_dependency st (VDict l').
Proof.
  intros l l' H. unfold read_dependency. cbn [first_of]. unfold reads.
  rewrite (patchy_alike AtDependency l l'), (friable_alike AtDependency l l'), (powerfit_alike l l'), !(fit_alike _ l l') by (try exact H; cbn; auto). reflexivity.
Qed.
Lemma first_two_ok : forall A (f g : value -> res A) v w, f v = f w -> same_ok (g v) (g w) -> same_ok (first_of [f; g] v) (first_of [f; g] w).
Proof.
  intros A f g v w E H a. cbn [first_of]. rewrite E. destruct (f w) as [x|[]]; try reflexivity.
  specialize (H a). destruct (g v) as [x|[]], (g w) as [y|[]]; rewrite H || (split; intros X; try discriminate X; try (apply H in X; discriminate X)); reflexivity.
Qed.
Lemma adjustment_alike : forall l l', alike AtAdjustment l l' -> same AtAdjustment (VDict l) (VDict l').
Proof.
  intros l l' H. cbn [same]. apply first_two_ok.
  - unfold read_depth_trend. args H; eq_fields H.
  - unfold read_pressure_dependency. args H; ok_fields H.
Qed.
Lemma constituent_alike : forall l l', alike AtConstituent l l' -> same AtConstituent (VDict l) (VDict l').
Proof. intros l l' H. cbn [same]. unfold read_constituent. args H; ok_fields H. Qed.
Lemma minerals_alike : forall l l', alike AtMinerals l l' -> same AtMinerals (VDict l) (VDict l').
Proof. intros l l' H. cbn [same]. unfold read_minerals. args H. ok_field H. Qed.
Lemma fluids_alike : forall l l', alike AtFluids l l' -> same AtFluids (VDict l) (VDict l').
Proof. intros l l' H. cbn [same]. unfold read_fluids_section. args H; ok_fields H. Qed.
Lemma dry_rock_alike : forall l l', alike AtDryRock l l' -> same AtDryRock (VDict l) (VDict l').
Proof. intros l l' H. cbn [same]. unfold read_dry_rock. args H; ok_fields H. Qed.
Lemma pressure_alike : forall l l', alike AtPressure l l' -> same AtPressure (VDict l) (VDict l').
Proof. intros l l' H. cbn [same]. unfold read_pressure. args H; ok_fields H. Qed.
Lemma key_same : forall p keys q k a b v w, In (keys, q) (inside p) -> In k keys -> same q v w ->
  same p (VDict (a ++ (k, v) :: b)) (VDict (a ++ (k, w) :: b)).
Proof.
  intros p keys q k a b v w I K H. pose proof (alike_key p keys q k a b v w I K H) as G.
  destruct p; try contradiction I; first [apply minerals_alike | apply constituent_alike | apply fluids_alike | apply dry_rock_alike
    | apply pressure_alike | apply adjustment_alike | apply coefficients_alike
    | cbn [same]; apply same_ok_eq; (apply material_alike || apply sandstone_alike || apply dependency_alike)
    | cbn [same]; apply (arbitrary_alike AtCement); [cbn; auto|]]; exact G.
Qed.

(** ** One element of a list *)
Lemma Forall2_one : forall A (R : A -> A -> Prop) a b x y, (forall z, R z z) -> R x y -> Forall2 R (a ++ x :: b) (a ++ y :: b).
Proof.
  intros A R a b x y Z H. induction a as [|z a IH]; cbn [List.app]; constructor; auto. induction b; constructor; auto.
Qed.
Lemma item_same : forall p q a b v w, listed p = Some q -> same q v w -> same p (VList (a ++ v :: b)) (VList (a ++ w :: b)).
Proof.
  intros p q a b v w L H. destruct p; try discriminate L; injection L as <-; cbn [same] in *.
  - apply same_ok_list_of. apply Forall2_one; [intros z; apply same_ok_eq; reflexivity|exact H].
  - apply same_ok_list_of. apply Forall2_one; [intros z; apply same_ok_eq; reflexivity|exact H].
  - destruct H as (A & B & C & D & E & F).
    assert (S1 : forallb is_scalar (a ++ v :: b) = forallb is_scalar (a ++ w :: b)) by (rewrite !forallb_app; cbn [forallb]; rewrite C; reflexivity).
    assert (S2 : forallb is_row (a ++ v :: b) = forallb is_row (a ++ w :: b)) by (rewrite !forallb_app; cbn [forallb]; rewrite D; reflexivity).
    assert (S3 : map (cell st) (a ++ v :: b) = map (cell st) (a ++ w :: b)) by (rewrite !map_app; cbn [map]; rewrite B; reflexivity).
    assert (S4 : map (matrix_row st) (a ++ v :: b) = map (matrix_row st) (a ++ w :: b)) by (rewrite !map_app; cbn [map]; rewrite E; reflexivity).
    cbn [np_array matrix_row cell is_scalar is_row]. rewrite S1, S2, S3, S4. unfold null_alike. split; [reflexivity|].
    split; [reflexivity|]. split; [reflexivity|]. split; [reflexivity|]. split; [reflexivity|]. split; discriminate.
  - split; [|unfold null_alike; split; discriminate]. apply list_of_eq. apply Forall2_one; [reflexivity|exact H].
Qed.

(** ** Other spellings *)
Lemma lower_same : forall s w, lower w = w -> same_word s w -> lower s = w.
Proof.
  intros s. induction s as [|c s IH]; intros [|d w] L H; cbn [same_word] in H; try contradiction; [reflexivity|].
  destruct H as [H T]. cbn [lower] in L |- *. injection L as L1 L2. rewrite (IH w L2 T). f_equal.
  destruct H as [->|(n & (N1 & N2) & -> & ->)]; [exact L1|]. unfold lower_ascii. rewrite nat_ascii_embedding by lia.
  destruct (Nat.leb_spec 65 n); [|lia]. destruct (Nat.leb_spec n 90); [|lia]. reflexivity.
Qed.
Lemma spelled_same : forall p v w, spelled st p v w -> same p v w.
Proof.
  intros p v w H. destruct H as [p b P|p s x P F|s z F|b|b s w I W].
  - destruct P as [<-|[<-|[<-|[]]]]; cbn; try reflexivity. repeat (split; [reflexivity|]). unfold null_alike. split; discriminate.
  - destruct P as [<-|[<-|[]]]; cbn; rewrite F; try reflexivity. repeat (split; [reflexivity|]). unfold null_alike. split; discriminate.
  - cbn. rewrite F. reflexivity.
  - destruct b; cbn; unfold truth.
    + destruct (Req_EM_T 1 1); [reflexivity|contradiction].
    + destruct (Req_EM_T 0 1); [lra|]. destruct (Req_EM_T 0 0); [reflexivity|contradiction].
  - cbn [same read_bool]. assert (L : lower w = w) by (destruct b; cbn in I; intuition (subst; reflexivity)).
    rewrite (lower_same s w L W). destruct b; cbn in I; intuition (subst; reflexivity).
Qed.

(** ** Keys that are left out *)
Lemma get_more : forall a b k d n, ~ In k (map fst (a ++ b)) -> get (a ++ (k, d) :: b) n = if String.eqb k n then Some d else get (a ++ b) n.
Proof.
  intros a b k d n N. rewrite !get_app. cbn [get]. destruct (String.eqb_spec k n) as [->|X]; [|reflexivity].
  rewrite get_absent; [reflexivity|]. intros Y. apply N. rewrite map_app. apply in_or_app. left. exact Y.
Qed.
Lemma arguments_more : forall names a b k d, existsb (String.eqb k) names = true ->
  arguments names (VDict (a ++ (k, d) :: b)) = Ok (a ++ (k, d) :: b) /\ arguments names (VDict (a ++ b)) = Ok (a ++ b) \/
  arguments names (VDict (a ++ (k, d) :: b)) = Err ValueError /\ arguments names (VDict (a ++ b)) = Err ValueError.
Proof.
  intros names a b k d H. cbn [arguments]. rewrite !forallb_app. cbn [forallb fst]. rewrite H. cbn [andb]. destruct (andb _ _); auto.
Qed.
Ltac more N := match type of N with ~ In ?k (map fst (?a ++ ?b)) =>
  match goal with |- context [arguments ?names (VDict (a ++ (k, ?d) :: b))] =>
    destruct (arguments_more names a b k d eq_refl) as [[-> ->]|[-> ->]]; [|first [reflexivity | apply same_ok_eq; reflexivity]];
    cbn [bind]; unfold optional, required, type_is, default; rewrite !(get_more a b k d) by exact N;
    cbn [String.eqb Ascii.eqb Bool.eqb]; rewrite (get_absent (a ++ b) k N); reflexivity end end.
Ltac pick I := cbn in I; repeat (destruct I as [I|I]; [try discriminate I; injection I; intros; subst; clear I|]); try contradiction I.

Section More.
Context (a b : list (string * value)) (k : string) (d : value) (N : ~ In k (map fst (a ++ b))).
Notation with_k := (VDict (a ++ (k, d) :: b)).
Notation without := (VDict (a ++ b)).
Lemma minerals_more : In (None, (k, d)) (left_out AtMinerals) -> read_minerals st with_k = read_minerals st without.
Proof. intros I. pick I; unfold read_minerals; more N. Qed.
Lemma fluids_more : In (None, (k, d)) (left_out AtFluids) -> read_fluids_section st with_k = read_fluids_section st without.
Proof. intros I. pick I; unfold read_fluids_section; more N. Qed.
Lemma dry_rock_more : In (None, (k, d)) (left_out AtDryRock) -> read_dry_rock st with_k = read_dry_rock st without.
Proof. intros I. pick I; unfold read_dry_rock; more N. Qed.
Lemma pressure_more : In (None, (k, d)) (left_out AtPressure) -> read_pressure st with_k = read_pressure st without.
Proof. intros I. pick I; unfold read_pressure; more N. Qed.
Lemma constituent_more : In (None, (k, d)) (left_out AtConstituent) -> read_constituent st with_k = read_constituent st without.
Proof. intros I. pick I; unfold read_constituent; more N. Qed.
Lemma arbitrary_more : In (None, (k, d)) (left_out AtCement) -> read_arbitrary st with_k = read_arbitrary st without.
Proof. intros I. pick I; unfold read_arbitrary; more N. Qed.
Lemma coefficients_more : In (None, (k, d)) (left_out AtCoefficients) -> same AtCoefficients with_k without.
Proof.
  intros I. cbn [same]. split; [|split; [|split]]; [| | |unfold null_alike; split; discriminate];
  pick I; [unfold read_moduli|unfold read_velocities|unfold read_ratios]; more N.
Qed.
Lemma friable_more : In (Some "friable_sand"%string, (k, d)) friable_defaults -> read_friable st with_k = read_friable st without.
Proof. intros I. pick I; unfold read_friable; more N. Qed.
Lemma patchy_more : In (Some "patchy_cement"%string, (k, d)) patchy_defaults -> read_patchy st with_k = read_patchy st without.
Proof. intros I. pick I; unfold read_patchy; more N. Qed.
Lemma polyfit2d_more : k = "coefficients"%string -> d = VNull -> read_polyfit2d st with_k = read_polyfit2d st without.
Proof. intros -> ->; unfold read_polyfit2d; more N. Qed.
Lemma carbon_dioxide_more : k = "interpolate_density"%string -> d = VBool true -> read_carbon_dioxide with_k = read_carbon_dioxide without.
Proof. intros -> ->; unfold read_carbon_dioxide; more N. Qed.
Lemma depth_trend_more : In k ["reference_depth"; "max_depth"]%string -> d = VNull -> read_depth_trend st with_k = read_depth_trend st without.
Proof. intros I ->. cbn in I. destruct I as [<-|[<-|[]]]; unfold read_depth_trend; more N. Qed.
End More.
End Same.
