(** Polynomials and brine in double precision. *)
From Coq Require Import Reals Lra Lia List ZArith.
From Verif Require Import Base MaterialModel ConfigModel Spec MainModel BatzleWangSpec.
From Verif Require Import FloatModel FloatSpec FloatProofs FloatPolyModel FloatPolySpec FloatFitProofs FloatBrineProofs.
Import ListNotations.
Open Scope R_scope.

(** C231: polynomials in two variables (fits of dry rock, water) with
    [n] rows and [k] columns are calculated up to (n + k) / 2^50 of the sum of the
    sizes of their terms. *)
Theorem C231_polynomial : forall x y cs k,
  moderate x -> moderate y -> rectangular cs -> length (hd [] cs) = k ->
  Forall (Forall (fun c => ordinary (Rabs c))) cs -> (length cs + k <= 20)%nat ->
  exists z, f_polyval2d x y cs = Ok z /\
    Rabs (z - power_sum2 cs x y 0) <=
      INR (length cs + k) * / 2 ^ 50 * power_sum2 (map (map Rabs) cs) (Rabs x) (Rabs y) 0.
Proof. exact polyval2d_error. Qed.
Print Assumptions C231_polynomial.
Example C231_nonvacuous : moderate (37 * 10 ^ 9) /\ moderate (3 / 10) /\ rectangular [[2; -3]; [1 / 2; 0]] /\
  Forall (Forall (fun c => ordinary (Rabs c))) [[2; -3]; [1 / 2; 0]].
Proof.
  split; [right; rewrite Rabs_pos_eq; rewrite ?pow_IZR; simpl Z.pow; lra|].
  split; [right; rewrite Rabs_pos_eq; rewrite ?pow_IZR; simpl Z.pow; lra|].
  split; [split; [discriminate|]; exists 2%nat; split; [lia|]; repeat (apply Forall_cons; [reflexivity|]); apply Forall_nil|].
  assert (Z : ordinary 0) by (left; reflexivity).
  repeat first [apply Forall_nil | apply Forall_cons].
  - rewrite Rabs_pos_eq by lra. apply ordinary_range. lra.
  - replace (-3) with (- (3)) by lra. rewrite Rabs_Ropp, Rabs_pos_eq by lra. apply ordinary_range. lra.
  - rewrite Rabs_pos_eq by lra. apply ordinary_range. lra.
  - rewrite Rabs_R0. exact Z.
Qed.

(** C231 as a relative error is refuted: terms can cancel, and then a polynomial
    that is not zero comes out as zero. *)
Theorem C231_relative_refuted : exists x y cs,
  moderate x /\ moderate y /\ rectangular cs /\ Forall (Forall (fun c => ordinary (Rabs c))) cs /\
  0 < power_sum2 cs x y 0 /\ f_polyval2d x y cs = Ok 0.
Proof.
  assert (T : 0 < / 2 ^ 60 <= 1) by (rewrite pow_IZR; simpl Z.pow; lra).
  exists 1, 1, [[-1]; [1]; [/ 2 ^ 60]].
  split; [right; rewrite Rabs_R1, ?pow_IZR; simpl Z.pow; lra|]. split; [right; rewrite Rabs_R1, ?pow_IZR; simpl Z.pow; lra|].
  split; [split; [discriminate|]; exists 1%nat; split; [lia|]; repeat (apply Forall_cons; [reflexivity|]); apply Forall_nil|].
  split.
  { repeat first [apply Forall_nil | apply Forall_cons].
    - replace (-1) with (- (1)) by lra. rewrite Rabs_Ropp, Rabs_R1. apply ordinary_range. lra.
    - rewrite Rabs_R1. apply ordinary_range. lra.
    - rewrite Rabs_pos_eq by lra. right. split.
      + apply half_le. lia.
      + apply Rle_trans with 1; [tauto|]. apply pow_R1_Rle. lra. }
  split; [|exact polyval_cancels]. cbn [power_sum2 power_sum]. cbn [pow] in *. lra.
Qed.
Print Assumptions C231_relative_refuted.

(** C232: brine in double precision.  At 0 to 100 degrees, up to 100 MPa and up to
    300000 ppm of salt it is accepted; density, velocity and bulk modulus are within
    1e-13, 1e-12 and 1e-11 of the equations of Batzle and Wang. *)
Theorem C232_brine : forall root t p s,
  good_root root -> 0 <= t <= 100 -> 0 <= p <= 100 * 10 ^ 6 -> 0 <= s <= 300000 -> ordinary s ->
  exists m, f_brine root t p s = Ok m /\
    within (1 / 10 ^ 13) (1000 * bw_brine_density t (p / 10 ^ 6) (s / 10 ^ 6)) (dens m) /\
    within (1 / 10 ^ 12) (bw_brine_velocity t (p / 10 ^ 6) (s / 10 ^ 6)) (vp m) /\
    within (1 / 10 ^ 11) (bw_brine_velocity t (p / 10 ^ 6) (s / 10 ^ 6) ^ 2 * (1000 * bw_brine_density t (p / 10 ^ 6) (s / 10 ^ 6))) (bulk m) /\
    shear m = 0 /\ vs m = 0.
Proof. exact f_brine_close. Qed.
Print Assumptions C232_brine.
Example C232_nonvacuous : good_root fl_sqrt /\ 0 <= 80 <= 100 /\ 0 <= 30 * 10 ^ 6 <= 100 * 10 ^ 6 /\ 0 <= 50000 <= 300000 /\ ordinary 50000.
Proof.
  split; [exact fl_sqrt_good|]. split; [lra|]. split; [lra|]. split; [lra|]. apply ordinary_range. rewrite ?pow_IZR. simpl Z.pow. lra.
Qed.
