(** Lemmas and tactics about the vocabulary of Base. *)
From Verif Require Import Base.

Lemma bind_ok {A B} (r : res A) (f : A -> res B) (b : B) :
  bind r f = Ok b <-> exists a, r = Ok a /\ f a = Ok b.
Proof.
  destruct r as [a|e]; simpl; split.
  - intros H. exists a. auto.
  - intros [a' [H1 H2]]. injection H1 as ->. exact H2.
  - discriminate.
  - intros [a' [H1 _]]. discriminate.
Qed.

Lemma np_div_ok a b : b <> 0 -> np_div a b = Ok (a / b).
Proof. intros H. unfold np_div. destruct (Req_EM_T b 0); [contradiction|reflexivity]. Qed.

Lemma np_div_0 a : np_div a 0 = Err NonFinite.
Proof. unfold np_div. destruct (Req_EM_T 0 0); [reflexivity|contradiction]. Qed.

Lemma np_div_inv a b q : np_div a b = Ok q -> b <> 0 /\ q = a / b.
Proof. unfold np_div. destruct (Req_EM_T b 0); [discriminate|]. intros H. injection H as <-. auto. Qed.

Lemma py_div_ok a b : b <> 0 -> py_div a b = Ok (a / b).
Proof. intros H. unfold py_div. destruct (Req_EM_T b 0); [contradiction|reflexivity]. Qed.

Lemma py_div_0 a : py_div a 0 = Err ZeroDivisionError.
Proof. unfold py_div. destruct (Req_EM_T 0 0); [reflexivity|contradiction]. Qed.

Lemma py_div_inv a b q : py_div a b = Ok q -> b <> 0 /\ q = a / b.
Proof. unfold py_div. destruct (Req_EM_T b 0); [discriminate|]. intros H. injection H as <-. auto. Qed.

Lemma np_sqrt_ok x : 0 <= x -> np_sqrt x = Ok (sqrt x).
Proof. intros H. unfold np_sqrt. destruct (Rlt_dec x 0); [lra|reflexivity]. Qed.

Lemma np_sqrt_inv x q : np_sqrt x = Ok q -> 0 <= x /\ q = sqrt x.
Proof. unfold np_sqrt. destruct (Rlt_dec x 0); [discriminate|]. intros H. injection H as <-. split; [lra|reflexivity]. Qed.

Lemma np_pow_pos x y : 0 < x -> np_pow x y = Ok (Rpower x y).
Proof. intros H. unfold np_pow. destruct (Rlt_dec 0 x); [reflexivity|lra]. Qed.

Lemma np_pow_zero y : 0 < y -> np_pow 0 y = Ok 0.
Proof.
  intros H. unfold np_pow. destruct (Rlt_dec 0 0); [lra|].
  destruct (Req_EM_T 0 0); [|lra]. destruct (Rlt_dec 0 y); [reflexivity|lra].
Qed.

(** Destruct one decision. *)
Ltac dec1 :=
  match goal with
  | |- context [Rlt_dec ?a ?b] => destruct (Rlt_dec a b)
  | |- context [Rle_dec ?a ?b] => destruct (Rle_dec a b)
  | |- context [Req_EM_T ?a ?b] => destruct (Req_EM_T a b)
  end.

Ltac dec_in H :=
  match type of H with
  | context [Rlt_dec ?a ?b] => destruct (Rlt_dec a b)
  | context [Rle_dec ?a ?b] => destruct (Rle_dec a b)
  | context [Req_EM_T ?a ?b] => destruct (Req_EM_T a b)
  end.

(** Invert a successful computation. *)
Ltac ok_inv H :=
  repeat (cbn [bind] in H;
   lazymatch type of H with
   | Err _ = Ok _ => discriminate H
   | bind ?r _ = Ok _ =>
       let E := fresh "E" in
       destruct r eqn:E; [cbn [bind] in H | discriminate H]
   end).

(* ---- sums ---- *)
Lemma rsum_app l1 l2 : rsum (l1 ++ l2) = rsum l1 + rsum l2.
Proof. induction l1 as [|x l1 IH]; simpl; [lra|rewrite IH; lra]. Qed.

Lemma rsum_nonneg l : Forall (fun x => 0 <= x) l -> 0 <= rsum l.
Proof. induction 1 as [|x l Hx Hl IH]; simpl; lra. Qed.

Lemma rsum_map_scale c l : rsum (map (fun x => c * x) l) = c * rsum l.
Proof. induction l as [|x l IH]; simpl; [lra|rewrite IH; lra]. Qed.

Lemma rsum_map_div c l : c <> 0 -> rsum (map (fun x => x / c) l) = rsum l / c.
Proof. intros Hc. induction l as [|x l IH]; simpl; [field; auto|rewrite IH; field; auto]. Qed.

From Coq Require Import Permutation.
Lemma rsum_perm l1 l2 : Permutation l1 l2 -> rsum l1 = rsum l2.
Proof. induction 1; simpl; lra. Qed.
