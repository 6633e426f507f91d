(** Properties C236-C238: the fits of dry rock to pressure in double precision. *)
From Coq Require Import Reals List Lra Lia ZArith.
From Verif Require Import Base MainModel FloatSpec FloatMixProofs FloatProofs FloatPressureSpec FloatPressureModel FloatPressureProofs.
Import ListNotations.
Open Scope R_scope.

(** C236: the exponential fit is calculated when p / c2 is at most 600 in size; its
    error is at most (|p / c2| + 4) 2^-51 of the sizes of the two terms, however the
    terms cancel.  (2^-1073 is less than any normal double.) *)
Theorem C236_exponential_fit : forall ex p c0 c1 c2 rest,
  good_exp ex -> c2 <> 0 -> Rabs (p / c2) <= 600 -> Rabs c0 + Rabs (c1 * exp (p / c2)) <= 2 ^ 1000 ->
  exists r, f_expfit_row ex p (c0 :: c1 :: c2 :: rest) = Ok r /\
    Rabs (r - (c0 + c1 * exp (p / c2))) <= (Rabs (p / c2) + 4) / 2 ^ 51 * (Rabs c0 + Rabs (c1 * exp (p / c2))) + / 2 ^ 1073.
Proof. exact expfit_close. Qed.
Print Assumptions C236_exponential_fit.
Example C236_nonvacuous : good_exp (fun x => fl (exp x)) /\ (-7 <> 0) /\ Rabs (20 / -7) <= 600 /\
  Rabs 25 + Rabs (-9 * exp (20 / -7)) <= 2 ^ 1000.
Proof.
  split; [exact nearest_exp_good|]. split; [lra|]. split; [rewrite Rabs_left by lra; lra|].
  assert (exp (20 / -7) < 1) by (rewrite <- exp_0; apply exp_increasing; lra). pose proof (exp_pos (20 / -7)).
  rewrite Rabs_pos_eq by lra. rewrite Rabs_left by lra. apply Rle_trans with (2 ^ 10); [simpl; lra|apply two_le; lia].
Qed.

(** C237: the logarithmic fit is calculated for every pressure above zero, with an
    error of at most 3 2^-51 of the sizes of the two terms, and for no other. *)
Theorem C237_logarithmic_fit : forall lg p c0 c1 rest,
  (good_log10 lg -> double p -> 0 < p -> Rabs c0 + Rabs (c1 * (ln p / ln 10)) <= 2 ^ 1000 ->
   exists r, f_logfit_row lg p (c0 :: c1 :: rest) = Ok r /\
     Rabs (r - (c0 + c1 * (ln p / ln 10))) <= 3 / 2 ^ 51 * (Rabs c0 + Rabs (c1 * (ln p / ln 10))) + / 2 ^ 1073) /\
  (p <= 0 -> f_logfit_row lg p (c0 :: c1 :: rest) = Err NonFinite).
Proof. intros lg p c0 c1 rest. split; [exact (logfit_close lg p c0 c1 rest)|exact (logfit_none lg p c0 c1 rest)]. Qed.
Print Assumptions C237_logarithmic_fit.
Example C237_nonvacuous : good_log10 (fun x => ln x / ln 10) /\ double 100 /\ 0 < 100 /\
  Rabs 25 + Rabs (-9 * (ln 100 / ln 10)) <= 2 ^ 1000.
Proof.
  split; [exact exact_log_good|]. split; [apply (double_int 100); reflexivity|]. split; [lra|].
  assert (0 < ln 10) by (rewrite <- ln_1; apply ln_increasing; lra).
  assert (E : ln 100 = 2 * ln 10) by (replace 100 with (10 * 10) by ring; rewrite ln_mult by lra; ring).
  rewrite E. replace (-9 * (2 * ln 10 / ln 10)) with (-18) by (field; lra).
  rewrite Rabs_pos_eq by lra. rewrite Rabs_left by lra. apply Rle_trans with (2 ^ 10); [simpl; lra|apply two_le; lia].
Qed.

(** C238: the power fit is calculated with a relative error of at most 3 2^-51. *)
Theorem C238_power_fit : forall pw p c0 c1 rest,
  good_float_power pw -> double p -> double c1 -> 0 < p ->
  / 2 ^ 1000 <= Rpower p c1 <= 2 ^ 1000 -> Rabs (c0 * Rpower p c1) <= 2 ^ 1000 ->
  exists r, f_powerfit_row pw p (c0 :: c1 :: rest) = Ok r /\
    Rabs (r - c0 * Rpower p c1) <= 3 / 2 ^ 51 * Rabs (c0 * Rpower p c1) + / 2 ^ 1073.
Proof. exact powerfit_close. Qed.
Print Assumptions C238_power_fit.
Example C238_nonvacuous : good_float_power (fun x y => fl (Rpower x y)) /\ double 20 /\ double (1 / 2) /\ 0 < 20 /\
  / 2 ^ 1000 <= Rpower 20 (1 / 2) <= 2 ^ 1000 /\ Rabs (-3 * Rpower 20 (1 / 2)) <= 2 ^ 1000.
Proof.
  split; [exact nearest_float_power_good|]. split; [apply (double_int 20); reflexivity|].
  split; [exists 1%Z, (-1)%Z; split; [reflexivity|split; [lia|simpl; lra]]|]. split; [lra|].
  assert (H : 1 <= Rpower 20 (1 / 2) <= 20).
  { pose proof (Rle_Rpower 20 0 (1 / 2) ltac:(lra) ltac:(lra)) as A. pose proof (Rle_Rpower 20 (1 / 2) 1 ltac:(lra) ltac:(lra)) as B.
    rewrite Rpower_O in A by lra. rewrite Rpower_1 in B by lra. lra. }
  assert (2 ^ 10 <= 2 ^ 1000) by (apply two_le; lia). assert (/ 2 ^ 1000 <= / 2 ^ 0) by (apply half_le; lia).
  simpl (2 ^ 10) in *. simpl (2 ^ 0) in *. split; [lra|]. rewrite Rabs_left by lra. lra.
Qed.
