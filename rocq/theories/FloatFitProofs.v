(** Polynomials of any size in double precision. *)
From Coq Require Import Reals Lra Lia List ZArith Psatz.
From Flocq Require Import Core.
From Verif Require Import Base BaseProofs MaterialModel MainModel MainProofs ConfigModel Spec ConfigProofs.
From Verif Require Import FloatModel FloatSpec FloatProofs FloatExampleProofs FloatPolyModel FloatPolySpec FloatPolyProofs.
Import ListNotations.
Open Scope R_scope.

Lemma exact_list cs : noisy_list 0 (map Rabs cs) cs cs.
Proof. induction cs as [|c cs IH]; [apply noisy_nil|]. apply noisy_cons; [apply noisy_refl, Rle_refl|exact IH]. Qed.
Lemma exact_rows cs : noisy_rows 0 (map (map Rabs) cs) cs cs.
Proof. induction cs as [|c cs IH]; [apply rows_nil|]. apply rows_cons; [apply exact_list|exact IH]. Qed.
Lemma rectangular_abs cs : rectangular cs -> rectangular (map (map Rabs) cs).
Proof.
  intros (H & n & Hn & F). split; [intros E; apply H; destruct cs; [reflexivity|discriminate]|]. exists n. split; [exact Hn|].
  apply Forall_map. eapply Forall_impl; [|exact F]. intros row L. cbn beta. rewrite map_length. exact L.
Qed.
Lemma moderate_sized x : moderate x -> sized 40 (Rabs x).
Proof. intros [->|H]; [left; apply Rabs_R0|right; exact H]. Qed.

Lemma polyval2d_error x y cs k : moderate x -> moderate y -> rectangular cs -> length (hd [] cs) = k ->
  Forall (Forall (fun c => ordinary (Rabs c))) cs -> (length cs + k <= 20)%nat ->
  exists z, f_polyval2d x y cs = Ok z /\
    Rabs (z - power_sum2 cs x y 0) <= INR (length cs + k) * / 2 ^ 50 * power_sum2 (map (map Rabs) cs) (Rabs x) (Rabs y) 0.
Proof.
  intros Mx My Rc Lk F L.
  assert (Lr : length (poly_rows x cs) = k /\ k <> 0%nat).
  { destruct Rc as (H & n & Hn & G). destruct (poly_rows_spec x y n cs H G) as (E & _). rewrite E. clear E.
    destruct cs as [|c cs]; [congruence|]. inversion G; subst. cbn [hd]. split; [reflexivity|lia]. }
  assert (F' : Forall (Forall (sized 100)) (map (map Rabs) cs)).
  { apply Forall_map. eapply Forall_impl; [|exact F]. intros row Fr. apply Forall_map. eapply Forall_impl; [|exact Fr].
    intros c Oc. apply sized_ordinary. exact Oc. }
  destruct (polyval2d_noisy 0 100 0 40 (Rabs x) x x 0 40 (Rabs y) y y _ cs cs k _ _ (noisy_refl 0 _ _ (Rle_refl _)) (moderate_sized x Mx)
     (noisy_refl 0 _ _ (Rle_refl _)) (moderate_sized y My) (exact_rows cs) F' (proj1 Lr) (proj2 Lr) ltac:(lia) ltac:(lia)
     (polyval2d_spec _ _ _ (rectangular_abs cs Rc)) (polyval2d_spec _ _ _ Rc)) as (z & E & (Q1 & Q2) & _).
  exists z. split; [exact E|]. eapply Rle_trans; [exact Q2|].
  assert (P : 0 <= power_sum2 (map (map Rabs) cs) (Rabs x) (Rabs y) 0) by (eapply Rle_trans; [apply Rabs_pos|exact Q1]).
  apply Rmult_le_compat_r; [exact P|].
  replace (0 + length cs * (0 + 4) + k * (0 + 4))%nat with (4 * (length cs + k))%nat by lia.
  pose proof (factor_bound (4 * (length cs + k)) ltac:(lia)) as B. rewrite mult_INR in B.
  replace (INR 4) with 4 in B by (simpl; ring).
  assert (U : 8 * u = / 2 ^ 50) by (unfold u; rewrite !pow_IZR; simpl Z.pow; lra). rewrite <- U. lra.
Qed.

(** Cancellation: -1 + x + x^2 / 2^60 at 1 comes out as zero. *)
Lemma polyval_cancels : f_polyval2d 1 1 [[-1]; [1]; [/ 2 ^ 60]] = Ok 0.
Proof.
  assert (One : forall x, fl x = x -> Rabs x <= 1 -> rnd x = Ok x).
  { intros x E H. unfold rnd. rewrite E. destruct (Rlt_dec _ _) as [|C]; [reflexivity|]. exfalso. apply C.
    eapply Rle_lt_trans; [exact H|]. apply Rlt_pow_R1; [lra|lia]. }
  assert (T : 0 < / 2 ^ 60 <= 1).
  { split; [apply half_pos|]. replace 1 with (/ 2 ^ 0) by (simpl; lra). apply half_le. lia. }
  assert (E1 : rnd (/ 2 ^ 60 * 1) = Ok (/ 2 ^ 60)).
  { rewrite Rmult_1_r. apply One; [apply fl_pow2_small; lia|rewrite Rabs_pos_eq; lra]. }
  assert (E2 : rnd (1 + / 2 ^ 60) = Ok 1).
  { assert (Q : fl (1 + / 2 ^ 60) = 1).
    { rewrite (fl_dy (1 + / 2 ^ 60) (2 ^ 60 + 1) (2 ^ 60) (2 ^ 52) 52); [unfold dy; simpl; lra| |reflexivity|lia|reflexivity].
      change (Z.pow 2 60 + 1)%Z with 1152921504606846977%Z. rewrite pow_IZR. change (2 ^ Z.of_nat 60)%Z with (2 ^ 60)%Z. simpl Z.pow. lra. }
    unfold rnd. rewrite Q, Rabs_R1. destruct (Rlt_dec _ _) as [|C]; [reflexivity|]. exfalso. apply C. apply Rlt_pow_R1; [lra|lia]. }
  assert (E3 : rnd (1 * 1) = Ok 1) by (rewrite Rmult_1_r; apply One; [apply fl1|rewrite Rabs_R1; lra]).
  assert (E4 : rnd (-1 + 1) = Ok 0) by (replace (-1 + 1) with 0 by ring; apply One; [apply fl0|rewrite Rabs_R0; lra]).
  unfold f_polyval2d. cbn [f_poly_rows f_map2 bind]. unfold f_step. rewrite E1. cbn [bind]. rewrite E2. cbn [bind]. rewrite E3. cbn [bind]. rewrite E4. cbn [bind].
  reflexivity.
Qed.
