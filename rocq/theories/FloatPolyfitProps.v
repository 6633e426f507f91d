(** Property C243: the polynomial fit of dry rock to pressure in double precision. *)
From Coq Require Import Reals List Lra Lia ZArith.
From Verif Require Import Base MainModel Spec FloatSpec FloatProofs FloatPolySpec FloatDependencyProofs FloatPolyfitModel FloatPolyfitProofs.
Import ListNotations.
Open Scope R_scope.

(** C243: the polynomial fit with n coefficients, highest power first, is calculated
    with an error of at most n 2^-50 of the sum of the sizes of its terms. *)
Theorem C243_polynomial_fit : forall p row,
  row <> [] -> Forall double row -> moderate p -> Forall (fun c => ordinary (Rabs c)) row -> (length row <= 20)%nat ->
  exists z, f_polyfit_row p row = Ok z /\
    Rabs (z - power_sum (rev row) p 0) <= INR (length row) * / 2 ^ 50 * power_sum (rev (map Rabs row)) (Rabs p) 0.
Proof. exact polyfit_close. Qed.
Print Assumptions C243_polynomial_fit.
Example C243_nonvacuous : [3; 0; 7] <> [] /\ Forall double [3; 0; 7] /\ moderate 20 /\
  Forall (fun c => ordinary (Rabs c)) [3; 0; 7] /\ power_sum (rev [3; 0; 7]) 20 0 = 1207.
Proof.
  split; [discriminate|]. split.
  { repeat apply Forall_cons; [apply (double_nat 3); lia|apply (double_nat 0); lia|apply (double_nat 7); lia|apply Forall_nil]. }
  split. { right. rewrite Rabs_pos_eq by lra. rewrite !pow_IZR. simpl Z.pow. lra. }
  split; [|cbn; ring].
  repeat apply Forall_cons; [rewrite Rabs_pos_eq by lra; apply ordinary_range; lra|left; apply Rabs_R0|rewrite Rabs_pos_eq by lra; apply ordinary_range; lra|apply Forall_nil].
Qed.
