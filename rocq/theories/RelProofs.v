(** Two calculations that take the same steps: lemmas to compare a model on one
    kind of numbers with the same model on another. *)
From Coq Require Import String List ZArith.
From Verif Require Import Base FluidsModel RowModel.
Import ListNotations.
Open Scope R_scope.

(** How the two sides may differ in their errors. *)
Record mode := {
  gone : exn -> Prop;            (** the left side fails, the right side does not *)
  fresh : exn -> Prop;           (** the right side fails, the left side does not *)
  both : exn -> exn -> Prop;     (** both fail *)
  both_refl : forall e, both e e;
  gone_both : forall e e', gone e -> both e e';
  fresh_both : forall e e', fresh e' -> both e e' }.

Section Mode.
Context (M : mode).

Definition rrel {A B} (P : A -> B -> Prop) (r : res A) (s : res B) : Prop :=
  match r, s with
  | Ok a, Ok b => P a b
  | Ok _, Err e => fresh M e
  | Err e, Ok _ => gone M e
  | Err e, Err e' => both M e e'
  end.

Definition arel {A B} (P : A -> B -> Prop) (a : arr A) (b : arr B) : Prop :=
  match a, b with
  | Sc x, Sc y => P x y
  | Vec l, Vec m => Forall2 P l m
  | _, _ => False
  end.
Definition prel {A B C D} (P : A -> C -> Prop) (Q : B -> D -> Prop) (x : A * B) (y : C * D) : Prop :=
  P (fst x) (fst y) /\ Q (snd x) (snd y).
Definition orel {A B} (P : A -> B -> Prop) (a : option A) (b : option B) : Prop :=
  match a, b with Some x, Some y => P x y | None, None => True | _, _ => False end.
Definition urel (a b : unit) : Prop := True.

Lemma rrel_ok : forall {A B} (P : A -> B -> Prop) a b, P a b -> rrel P (Ok a) (Ok b).
Proof. intros A B P a b H. exact H. Qed.

Lemma rrel_bind : forall {A B C D} (P : A -> B -> Prop) (Q : C -> D -> Prop) r s f g,
  rrel P r s -> (forall a b, P a b -> rrel Q (f a) (g b)) -> rrel Q (bind r f) (bind s g).
Proof.
  intros A B C D P Q [a|e] [b|e'] f g H G; cbn [bind].
  - apply G, H.
  - cbn in H. destruct (f a); cbn; [exact H|apply fresh_both, H].
  - cbn in H. destruct (g b); cbn; [exact H|apply gone_both, H].
  - exact H.
Qed.

Lemma rrel_mono : forall {A B} (P Q : A -> B -> Prop) r s,
  rrel P r s -> (forall a b, P a b -> Q a b) -> rrel Q r s.
Proof. intros A B P Q [a|e] [b|e'] H G; cbn in *; auto. Qed.

Lemma arel_zip : forall {A B C D} (P : A -> C -> Prop) (Q : B -> D -> Prop) a b a' b',
  arel P a a' -> arel Q b b' -> arel (prel P Q) (zip a b) (zip a' b').
Proof.
  intros A B C D P Q [x|l] [y|m] [x'|l'] [y'|m'] Ha Hb; cbn in *; try contradiction.
  - split; assumption.
  - induction Hb; cbn; constructor; [split; assumption|assumption].
  - induction Ha; cbn; constructor; [split; assumption|assumption].
  - revert m m' Hb. induction Ha as [|u v l l' H Ha IH]; intros m m' Hb; cbn; [constructor|].
    destruct Hb as [|w z m m' G Hb]; constructor; [split; assumption|]. apply IH, Hb.
Qed.

Lemma arel_pmap : forall {A B C D} (P : A -> C -> Prop) (Q : B -> D -> Prop) f g a b,
  arel P a b -> (forall x y, P x y -> Q (f x) (g y)) -> arel Q (pmap f a) (pmap g b).
Proof.
  intros A B C D P Q f g [x|l] [y|m] H F; cbn in *; try contradiction; [apply F, H|].
  induction H; cbn; constructor; [apply F; assumption|assumption].
Qed.

Lemma rrel_sequence : forall {A B C D} (P : A -> C -> Prop) (Q : B -> D -> Prop) f g l m,
  Forall2 P l m -> (forall x y, P x y -> rrel Q (f x) (g y)) ->
  rrel (Forall2 Q) (sequence (map f l)) (sequence (map g m)).
Proof.
  intros A B C D P Q f g l m H F. induction H as [|x y l m H1 H2 IH]; cbn [map sequence].
  - apply rrel_ok. constructor.
  - eapply rrel_bind; [apply F, H1|]. intros a b Hab. eapply rrel_bind; [exact IH|].
    intros u v Huv. apply rrel_ok. constructor; assumption.
Qed.

Lemma rrel_amap : forall {A B C D} (P : A -> C -> Prop) (Q : B -> D -> Prop) f g a b,
  arel P a b -> (forall x y, P x y -> rrel Q (f x) (g y)) -> rrel (arel Q) (amap f a) (amap g b).
Proof.
  intros A B C D P Q f g [x|l] [y|m] H F; cbn [amap]; cbn in H; try contradiction.
  - eapply rrel_bind; [apply F, H|]. intros a b Hab. exact Hab.
  - eapply rrel_bind; [eapply rrel_sequence; [exact H|exact F]|]. intros a b Hab. exact Hab.
Qed.

(** A guard that the right side passes whenever the left side does; on the
    right it may pass more often if the error may be gone. *)
Lemma rrel_guard : forall p q e,
  (q = true -> p = true) -> (p = true -> q = false -> gone M e) -> both M e e ->
  rrel urel (guard p e) (guard q e).
Proof.
  intros [|] [|] e H G B; cbn; [exact B|apply G; reflexivity|discriminate (H eq_refl)|exact I].
Qed.
Lemma rrel_guard_eq : forall p q e, p = q -> both M e e -> rrel urel (guard p e) (guard q e).
Proof. intros p q e H B. subst. destruct q; cbn; [exact B|exact I]. Qed.

Lemma any_mono : forall {A B} (P : A -> B -> Prop) p q a b,
  arel P a b -> (forall x y, P x y -> q y = true -> p x = true) -> any q b = true -> any p a = true.
Proof.
  intros A B P p q [x|l] [y|m] H F; cbn in *; try contradiction; [apply F, H|].
  induction H as [|x y l m H1 H2 IH]; cbn; [discriminate|].
  intro E. apply Bool.orb_true_iff in E. apply Bool.orb_true_iff. destruct E as [E|E]; [left; eapply F; eassumption|right; apply IH, E].
Qed.
Lemma any_eq : forall {A B} (P : A -> B -> Prop) p q a b,
  arel P a b -> (forall x y, P x y -> p x = q y) -> any p a = any q b.
Proof.
  intros A B P p q [x|l] [y|m] H F; cbn in *; try contradiction; [apply F, H|].
  induction H as [|x y l m H1 H2 IH]; cbn; [reflexivity|]. rewrite (F _ _ H1), IH. reflexivity.
Qed.

Lemma arel_is_vec : forall {A B} (P : A -> B -> Prop) a b, arel P a b -> is_vec a = is_vec b.
Proof. intros A B P [x|l] [y|m] H; cbn in *; try contradiction; reflexivity. Qed.
Lemma arel_no_rows : forall {A B} (P : A -> B -> Prop) a b, arel P a b -> no_rows a = no_rows b.
Proof. intros A B P [x|l] [y|m] H; cbn in *; try contradiction; [reflexivity|]. destruct H; reflexivity. Qed.

Lemma rrel_each : forall {A B} (P : A -> B -> Prop) f g l m,
  Forall2 P l m -> (forall x y, P x y -> rrel urel (f x) (g y)) -> rrel urel (each f l) (each g m).
Proof.
  intros A B P f g l m H F. induction H as [|x y l m H1 H2 IH]; cbn [each]; [apply rrel_ok; exact I|].
  eapply rrel_bind; [apply F, H1|]. intros _ _ _. exact IH.
Qed.

Lemma Forall2_combine : forall {A B C D} (P : A -> C -> Prop) (Q : B -> D -> Prop) l l' m m',
  Forall2 P l l' -> Forall2 Q m m' -> Forall2 (prel P Q) (combine l m) (combine l' m').
Proof.
  intros A B C D P Q l l' m m' H. revert m m'. induction H as [|x y l l' H1 H2 IH]; intros m m' G; cbn; [constructor|].
  destruct G; constructor; [split; assumption|]. apply IH. assumption.
Qed.
Lemma Forall2_maps : forall {A B C D} (P : A -> C -> Prop) (Q : B -> D -> Prop) f g l m,
  Forall2 P l m -> (forall x y, P x y -> Q (f x) (g y)) -> Forall2 Q (map f l) (map g m).
Proof. intros A B C D P Q f g l m H F. induction H; cbn; constructor; auto. Qed.
Lemma Forall2_len : forall {A B} (P : A -> B -> Prop) l m, Forall2 P l m -> length l = length m.
Proof. intros A B P l m H. induction H; cbn; congruence. Qed.

Lemma rrel_pop_nat : forall {A B} (P : A -> B -> Prop) i l m, Forall2 P l m ->
  rrel (prel P (Forall2 P)) (pop_nat i l) (pop_nat i m).
Proof.
  intros A B P i l m H. revert i. induction H as [|x y l m H1 H2 IH]; intros [|i]; cbn [pop_nat];
    try apply both_refl.
  - apply rrel_ok. split; assumption.
  - eapply rrel_bind; [apply IH|]. intros a b [E1 E2]. apply rrel_ok. split; [exact E1|].
    cbn [snd]. constructor; assumption.
Qed.
Lemma rrel_pop_all : forall {A B} (P : A -> B -> Prop) idx l m, Forall2 P l m ->
  rrel (prel (Forall2 P) (Forall2 P)) (pop_all idx l) (pop_all idx m).
Proof.
  intros A B P idx. induction idx as [|i idx IH]; intros l m H; cbn [pop_all].
  - apply rrel_ok. split; [constructor|exact H].
  - eapply rrel_bind with (P := prel P (Forall2 P)).
    + unfold py_pop. rewrite (Forall2_len P l m H). destruct (i <? 0)%Z; [|apply rrel_pop_nat, H].
      destruct (i + Z.of_nat (length m) <? 0)%Z; [apply both_refl|apply rrel_pop_nat, H].
    + intros a b [E1 E2]. eapply rrel_bind; [apply IH, E2|]. intros u v [F1 F2]. apply rrel_ok.
      split; [constructor; assumption|exact F2].
Qed.

End Mode.
