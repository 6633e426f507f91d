(** Lookup tables. *)
From Coq Require Import String List ZArith Reals Lra Lia.
From Verif Require Import Base BaseProofs Spec MaterialModel FluidModel SpanWagnerModel SpanWagnerSpec.
Import ListNotations.
Open Scope R_scope.

(** ** Increasing lists *)
Lemma increasing_tail : forall a l, increasing (a :: l) -> increasing l.
Proof. intros a [|b l] H; [exact I|apply H]. Qed.
Lemma increasing_head : forall l a, increasing (a :: l) -> forall x, In x l -> a < x.
Proof.
  induction l as [|b l IH]; intros a H x Hx; [contradiction|]. destruct H as [H1 H2]. destruct Hx as [<-|Hx]; [exact H1|].
  specialize (IH b H2 x Hx). lra.
Qed.
Lemma increasing_nth : forall l i j a b, increasing l -> nth_error l i = Some a -> nth_error l j = Some b -> (i < j)%nat -> a < b.
Proof.
  induction l as [|c l IH]; intros i j a b H Hi Hj L; [destruct i; discriminate|].
  destruct j as [|j]; [lia|]. cbn in Hj. destruct i as [|i].
  - injection Hi as ->. apply (increasing_head l a H). eapply nth_error_In, Hj.
  - apply (IH i j); [apply (increasing_tail c), H|exact Hi|exact Hj|lia].
Qed.
Lemma increasing_nth_le : forall l i j a b, increasing l -> nth_error l i = Some a -> nth_error l j = Some b -> (i <= j)%nat -> a <= b.
Proof.
  intros l i j a b H Hi Hj L. destruct (Nat.eq_dec i j) as [->|N].
  - assert (a = b) by congruence. lra.
  - apply Rlt_le, (increasing_nth l i j); auto; lia.
Qed.
Lemma last_in : forall (l : list R) a, In (last (a :: l) a) (a :: l).
Proof.
  intros l a. assert (H : forall (l : list R) x d, In (last (x :: l) d) (x :: l)).
  { clear. induction l as [|y l IH]; intros x d; [left; reflexivity|]. right. apply (IH y d). }
  apply H.
Qed.
Lemma last_indep : forall l (x d e : R), last (x :: l) d = last (x :: l) e.
Proof. induction l as [|y l IH]; intros x d e; [reflexivity|]. exact (IH y d e). Qed.
Lemma increasing_last : forall l a x, increasing (a :: l) -> In x (a :: l) -> x <= last (a :: l) a.
Proof.
  induction l as [|b l IH]; intros a x H Hx.
  - destruct Hx as [->|[]]. cbn. lra.
  - destruct H as [H1 H2]. change (last (a :: b :: l) a) with (last (b :: l) a). rewrite (last_indep l b a b).
    destruct Hx as [<-|Hx]; [|apply IH; assumption].
    specialize (IH b b H2 (or_introl eq_refl)). lra.
Qed.

(** ** Inside and outside *)
Lemma outside_within : forall l v, increasing l -> (outside l v = false <-> within l v).
Proof.
  intros [|a l] v H; cbn [outside].
  - split; [discriminate|]. intros (x & y & [] & _).
  - split.
    + destruct (Rlt_dec v a) as [_|A]; [discriminate|]. destruct (Rlt_dec _ v) as [_|B]; [discriminate|]. intros _.
      exists a, (last (a :: l) a). split; [left; reflexivity|]. split; [apply last_in|lra].
    + intros (x & y & Hx & Hy & L).
      assert (A : a <= x) by (destruct Hx as [->|Hx]; [lra|apply Rlt_le, (increasing_head l a H x Hx)]).
      pose proof (increasing_last l a y H Hy) as B.
      destruct (Rlt_dec v a) as [F|_]; [exfalso; lra|]. destruct (Rlt_dec (last (a :: l) a) v) as [F|_]; [exfalso; lra|reflexivity].
Qed.
Lemma within_cases : forall l v, increasing l -> within l v ->
  exists a b, nth_error l 0 = Some a /\ nth_error l (pred (length l)) = Some b /\ a <= v <= b.
Proof.
  intros [|a l] v H (x & y & Hx & Hy & L); [contradiction|]. cbn [length pred].
  assert (E : exists b, nth_error (a :: l) (length l) = Some b).
  { destruct (nth_error (a :: l) (length l)) as [b|] eqn:E; [exists b; reflexivity|]. apply nth_error_None in E. cbn in E. lia. }
  destruct E as (b & E). exists a, b. split; [reflexivity|]. split; [exact E|].
  apply In_nth_error in Hx. destruct Hx as (i & Hi). apply In_nth_error in Hy. destruct Hy as (j & Hj).
  assert (Lj : (j < length (a :: l))%nat) by (apply nth_error_Some; congruence). cbn [length] in Lj.
  pose proof (increasing_nth_le (a :: l) 0 i a x H eq_refl Hi ltac:(lia)).
  pose proof (increasing_nth_le (a :: l) j (length l) y b H Hj E ltac:(lia)). lra.
Qed.

(** ** The interval *)
Lemma interval_spec : forall l v a b, increasing l -> (2 <= length l)%nat ->
  nth_error l 0 = Some a -> nth_error l (pred (length l)) = Some b -> a <= v <= b ->
  exists x y, nth_error l (find_interval l v) = Some x /\ nth_error l (S (find_interval l v)) = Some y /\ x <= v <= y.
Proof.
  induction l as [|c l IH]; intros v a b H L Ha Hb V; [cbn in L; lia|].
  destruct l as [|d l]; [cbn in L; lia|]. injection Ha as ->.
  destruct l as [|e l].
  - cbn in Hb. injection Hb as ->. exists a, b. split; [reflexivity|]. split; [reflexivity|exact V].
  - change (find_interval (a :: d :: e :: l) v) with
      (if Rle_dec d v then S (find_interval (d :: e :: l) v) else 0%nat).
    destruct (Rle_dec d v) as [D|D].
    + destruct (IH v d b (proj2 H)) as (x & y & X & Y & Z); [cbn; lia|reflexivity|exact Hb|lra|].
      exists x, y. split; [exact X|]. split; [exact Y|exact Z].
    + exists a, d. split; [reflexivity|]. split; [reflexivity|lra].
Qed.
Lemma closest_of_interval : forall l v i x y, increasing l -> nth_error l i = Some x -> nth_error l (S i) = Some y -> x <= v <= y ->
  closest l v (if Rle_dec ((v - x) / (y - x)) (1 / 2) then i else S i).
Proof.
  intros l v i x y H X Y V. pose proof (increasing_nth l i (S i) x y H X Y ltac:(lia)) as L.
  assert (E : (v - x) / (y - x) * (y - x) = v - x) by (field; lra).
  set (q := (v - x) / (y - x)) in *.
  assert (A : forall j b, nth_error l j = Some b -> b <= x \/ y <= b).
  { intros j b B. destruct (le_lt_dec j i) as [C|C].
    - left. apply (increasing_nth_le l j i); assumption.
    - right. apply (increasing_nth_le l (S i) j); assumption. }
  destruct (Rle_dec q (1 / 2)) as [Q|Q].
  - exists x. split; [exact X|]. intros j b B. assert (K : v - x <= (y - x) / 2) by nra.
    rewrite (Rabs_pos_eq (v - x)) by lra. unfold Rabs. destruct (A j b B); destruct (Rcase_abs (v - b)); lra.
  - exists y. split; [exact Y|]. intros j b B. assert (K : (y - x) / 2 <= v - x) by nra.
    rewrite (Rabs_left1 (v - y)) by lra. unfold Rabs. destruct (A j b B); destruct (Rcase_abs (v - b)); lra.
Qed.
Lemma nearest_closest : forall l v, increasing l -> within l v -> closest l v (nearest_index l v).
Proof.
  intros l v H W. destruct (within_cases l v H W) as (a & b & Ha & Hb & V).
  destruct l as [|c [|d l]].
  - discriminate.
  - cbn in Ha. injection Ha as ->. exists a. split; [reflexivity|]. intros [|j] b' B; [injection B as ->; lra|destruct j; discriminate].
  - destruct (interval_spec (c :: d :: l) v a b H ltac:(cbn; lia) Ha Hb V) as (x & y & X & Y & Z).
    change (nearest_index (c :: d :: l) v) with
      (if Rle_dec ((v - nth (find_interval (c :: d :: l) v) (c :: d :: l) 0) /
                   (nth (S (find_interval (c :: d :: l) v)) (c :: d :: l) 0 - nth (find_interval (c :: d :: l) v) (c :: d :: l) 0)) (1 / 2)
       then find_interval (c :: d :: l) v else S (find_interval (c :: d :: l) v)).
    rewrite (nth_error_nth _ _ 0 X), (nth_error_nth _ _ 0 Y). apply closest_of_interval; assumption.
Qed.
(** At a node the closest node is the node. *)
Lemma closest_node : forall l i a k, increasing l -> nth_error l i = Some a -> closest l a k -> k = i.
Proof.
  intros l i a k H Hi (b & Hk & C). specialize (C i a Hi). rewrite (Rminus_diag_eq a a) in C by reflexivity. rewrite Rabs_R0 in C.
  assert (E : a = b).
  { destruct (Req_dec a b) as [E|N]; [exact E|]. pose proof (Rabs_pos_lt (a - b) ltac:(lra)). lra. }
  subst b. destruct (lt_eq_lt_dec k i) as [[L|L]|L]; [|exact L|].
  - pose proof (increasing_nth l k i a a H Hk Hi L). lra.
  - pose proof (increasing_nth l i k a a H Hi Hk L). lra.
Qed.

(** ** Generated tables *)
Lemma sequence_nth : forall A (l : list (res A)) r i x, sequence l = Ok r -> nth_error l i = Some x ->
  exists y, x = Ok y /\ nth_error r i = Some y.
Proof.
  induction l as [|h l IH]; intros r i x H Hi; [destruct i; discriminate|]. cbn [sequence] in H.
  destruct h as [a|e]; [|discriminate]. cbn [bind] in H. destruct (sequence l) as [r'|e]; [|discriminate]. cbn [bind] in H.
  injection H as <-. destruct i as [|i].
  - injection Hi as <-. exists a. split; reflexivity.
  - cbn in Hi. exact (IH r' i x eq_refl Hi).
Qed.
Lemma table_entry : forall func x y t i j a b, generate_lookup_table func x y = Ok t ->
  nth_error x i = Some a -> nth_error y j = Some b ->
  lt_x t = x /\ lt_y t = y /\ exists row v, nth_error (lt_z t) i = Some row /\ nth_error row j = Some v /\ func a b = Ok v.
Proof.
  intros func x y t i j a b H Hi Hj. unfold generate_lookup_table in H.
  destruct (sequence (map (fun a => sequence (map (func a) y)) x)) as [z|e] eqn:Z; [|discriminate]. injection H as <-.
  split; [reflexivity|]. split; [reflexivity|]. cbn [lt_z].
  destruct (sequence_nth _ _ z i _ Z (map_nth_error _ i x Hi)) as (row & R1 & R2).
  destruct (sequence_nth _ _ row j _ R1 (map_nth_error _ j y Hj)) as (v & V1 & V2).
  exists row, v. split; [exact R2|]. split; [exact V2|exact V1].
Qed.
Lemma lookup_nearest : forall func x y t a b, generate_lookup_table func x y = Ok t -> increasing x -> increasing y ->
  within x a -> within y b ->
  exists i j u v w, closest x a i /\ closest y b j /\ nth_error x i = Some u /\ nth_error y j = Some v /\
    func u v = Ok w /\ interpolate t a b = Some w.
Proof.
  intros func x y t a b G Hx Hy Wx Wy.
  pose proof (nearest_closest x a Hx Wx) as Cx. pose proof (nearest_closest y b Hy Wy) as Cy.
  assert (Cx' := Cx). assert (Cy' := Cy). destruct Cx' as (u & U & _). destruct Cy' as (v & V & _).
  destruct (table_entry func x y t _ _ u v G U V) as (E1 & E2 & row & w & R1 & R2 & F).
  exists (nearest_index x a), (nearest_index y b), u, v, w.
  split; [exact Cx|]. split; [exact Cy|]. split; [exact U|]. split; [exact V|]. split; [exact F|].
  unfold interpolate. rewrite E1, E2.
  rewrite (proj2 (outside_within x a Hx) Wx), (proj2 (outside_within y b Hy) Wy). cbn [orb]. rewrite R1. exact R2.
Qed.
Lemma node_within : forall l i a, nth_error l i = Some a -> within l a.
Proof. intros l i a H. apply nth_error_In in H. exists a, a. split; [exact H|]. split; [exact H|lra]. Qed.
Lemma lookup_node : forall func x y t i j a b, generate_lookup_table func x y = Ok t -> increasing x -> increasing y ->
  nth_error x i = Some a -> nth_error y j = Some b ->
  exists w, func a b = Ok w /\ interpolate t a b = Some w.
Proof.
  intros func x y t i j a b G Hx Hy Hi Hj.
  destruct (lookup_nearest func x y t a b G Hx Hy (node_within _ _ _ Hi) (node_within _ _ _ Hj)) as (k & m & u & v & w & C1 & C2 & U & V & F & E).
  pose proof (closest_node x i a k Hx Hi C1). pose proof (closest_node y j b m Hy Hj C2). subst k m.
  assert (u = a) by congruence. assert (v = b) by congruence. subst u v. exists w. split; assumption.
Qed.
Lemma lookup_outside : forall func x y t a b, generate_lookup_table func x y = Ok t -> increasing x -> increasing y ->
  ~ within x a \/ ~ within y b -> interpolate t a b = None.
Proof.
  intros func x y t a b G Hx Hy W. unfold generate_lookup_table in G.
  destruct (sequence (map (fun a => sequence (map (func a) y)) x)) as [z|e]; [|discriminate]. injection G as <-.
  unfold interpolate. cbn [lt_x lt_y].
  assert (K : forall l v, increasing l -> ~ within l v -> outside l v = true).
  { intros l v H N. destruct (outside l v) eqn:E; [reflexivity|]. exfalso. apply N, outside_within; assumption. }
  destruct W as [W|W]; [rewrite (K x a Hx W)|rewrite (K y b Hy W), Bool.orb_true_r]; reflexivity.
Qed.
(** The table is not made when the function fails somewhere. *)
Lemma sequence_all : forall A (l : list (res A)), (forall x, In x l -> is_ok x) -> is_ok (sequence l).
Proof.
  induction l as [|h l IH]; intros H; [eexists; reflexivity|]. cbn [sequence].
  destruct (H h (or_introl eq_refl)) as (a & ->). destruct (IH (fun x Hx => H x (or_intror Hx))) as (r & ->).
  eexists. reflexivity.
Qed.
Lemma table_exists : forall func x y, (forall a b, In a x -> In b y -> is_ok (func a b)) -> is_ok (generate_lookup_table func x y).
Proof.
  intros func x y H. unfold generate_lookup_table.
  destruct (sequence_all _ (map (fun a => sequence (map (func a) y)) x)) as (z & ->).
  - intros r Hr. apply in_map_iff in Hr. destruct Hr as (a & <- & Ha). apply sequence_all.
    intros q Hq. apply in_map_iff in Hq. destruct Hq as (b & <- & Hb). apply H; assumption.
  - eexists. reflexivity.
Qed.

(** ** The grids of the packaged tables *)
Lemma increasing_steps : forall n k s f, 0 < s -> (forall i, f i = k + INR i * s) -> forall m, increasing (map f (seq m n)).
Proof.
  induction n as [|n IH]; intros k s f Hs F m; [exact I|]. cbn [seq map].
  specialize (IH k s f Hs F (S m)). destruct n as [|n]; [exact I|]. cbn [seq map increasing] in *. split; [|exact IH].
  rewrite !F, S_INR. lra.
Qed.
Lemma increasing_app : forall l r, increasing l -> increasing r ->
  (forall a b, In a l -> In b r -> a < b) -> increasing (l ++ r).
Proof.
  induction l as [|a l IH]; intros r Hl Hr H; [exact Hr|].
  assert (T : increasing (l ++ r)) by (apply IH; [apply (increasing_tail a), Hl|exact Hr|intros; apply H; [right|]; assumption]).
  destruct l as [|b l].
  - destruct r as [|b r]; [exact I|]. split; [apply H; left; reflexivity|exact T].
  - split; [apply Hl|exact T].
Qed.
Lemma arange_range : forall k s n x, 0 <= s -> In x (arange k s n) -> k <= x <= k + (INR n - 1) * s.
Proof.
  intros k s n x Hs H. unfold arange in H. apply in_map_iff in H. destruct H as (i & <- & Hi). apply in_seq in Hi.
  pose proof (pos_INR i). assert (INR i <= INR n - 1).
  { replace 1 with (INR 1) by reflexivity. rewrite <- minus_INR by lia. apply le_INR. lia. }
  split; [nra|]. apply Rplus_le_compat_l, Rmult_le_compat_r; assumption.
Qed.
Lemma arange_increasing : forall k s n, 0 < s -> increasing (arange k s n).
Proof. intros k s n H. unfold arange. apply (increasing_steps n k s); [exact H|reflexivity]. Qed.
Lemma increasing_shift : forall l c, increasing l -> increasing (map (fun t => c + t) l).
Proof.
  induction l as [|a l IH]; intros c H; [exact I|]. destruct l as [|b l]; [exact I|].
  split; [destruct H; lra|apply IH, H].
Qed.
Lemma t_density_increasing : increasing t_density.
Proof.
  unfold t_density. apply increasing_shift, increasing_app; [apply arange_increasing; lra|apply arange_increasing; lra|].
  intros a b A B. apply arange_range in A; [|lra]. apply arange_range in B; [|lra].
  rewrite INR_IZR_INZ in A. change (Z.of_nat 1000) with 1000%Z in A. lra.
Qed.
Lemma p_density_increasing : increasing p_density.
Proof.
  unfold p_density. apply increasing_app; [apply arange_increasing; lra|apply arange_increasing; lra|].
  intros a b A B. apply arange_range in A; [|lra]. apply arange_range in B; [|lra].
  rewrite INR_IZR_INZ in A. change (Z.of_nat 950) with 950%Z in A. lra.
Qed.
