(** Error of the polynomial fit in double precision. *)
From Coq Require Import Reals List Lra Lia ZArith.
From Verif Require Import Base MaterialModel MainModel FloatModel ConfigModel Spec ConfigProofs FloatSpec FloatProofs FloatPolyModel FloatPolySpec FloatPolyProofs FloatFitProofs FloatBrineProofs FloatDependencyProofs FloatPolyfitModel.
Import ListNotations.
Open Scope R_scope.

Lemma polyval_reversed x l : l <> [] -> Forall double l ->
  fold_right (fun c acc => let* y := acc in let* t := rnd (y * x) in rnd (t + c)) (Ok 0) l = f_poly_eval x l.
Proof.
  induction l as [|a l IH]; intros N F; [contradiction|]. inversion F as [|? ? Fa Fl]; subst. destruct l as [|b l].
  - cbn [fold_right bind f_poly_eval]. rewrite Rmult_0_l, rnd_0. cbn [bind]. rewrite Rplus_0_l. apply rnd_of_double. exact Fa.
  - change (f_poly_eval x (a :: b :: l)) with (let* acc := f_poly_eval x (b :: l) in f_step x a acc).
    rewrite <- IH by (assumption || discriminate). cbn [fold_right].
    destruct (let* y := fold_right _ _ l in _) as [y|e]; [|reflexivity]. cbn [bind]. unfold f_step.
    destruct (rnd (y * x)) as [t|e]; [|reflexivity]. cbn [bind]. rewrite Rplus_comm. reflexivity.
Qed.

Lemma polyfit_close p row : row <> [] -> Forall double row -> moderate p -> Forall (fun c => ordinary (Rabs c)) row ->
  (length row <= 20)%nat ->
  exists z, f_polyfit_row p row = Ok z /\
    Rabs (z - power_sum (rev row) p 0) <= INR (length row) * / 2 ^ 50 * power_sum (rev (map Rabs row)) (Rabs p) 0.
Proof.
  intros N D Mp O L.
  assert (N' : rev row <> []). { intros E. apply N. rewrite <- (rev_involutive row), E. reflexivity. }
  assert (F : Forall (sized 100) (map Rabs (rev row))).
  { apply Forall_map. apply Forall_rev. eapply Forall_impl; [|exact O]. intros c Oc. apply sized_ordinary. exact Oc. }
  assert (Ll : length (rev row) = length row) by apply rev_length.
  destruct (eval_noisy 0 0 100 40 (Rabs p) p p (noisy_refl 0 _ _ (Rle_refl _)) (moderate_sized p Mp) _ _ _ (exact_list (rev row)) F N'
    ltac:(lia) ltac:(lia)) as (z & E & (Q1 & Q2) & _).
  exists z. split.
  - unfold f_polyfit_row, f_np_polyval. destruct row as [|a row]; [contradiction|].
    rewrite <- fold_left_rev_right, polyval_reversed; [exact E|exact N'|apply Forall_rev; exact D].
  - rewrite map_rev in Q1, Q2. rewrite !poly_eval_spec in Q1, Q2. rewrite Ll in Q2.
    eapply Rle_trans; [exact Q2|].
    apply Rmult_le_compat_r; [eapply Rle_trans; [apply Rabs_pos|exact Q1]|].
    replace (0 + length row * (0 + 4))%nat with (4 * length row)%nat by lia.
    pose proof (factor_bound (4 * length row) ltac:(lia)) as B. rewrite mult_INR in B.
    replace (INR 4) with 4 in B by (simpl; ring).
    assert (H : / 2 ^ 50 = 8 * u). { unfold u. replace 53%nat with (3 + 50)%nat by lia. rewrite pow_add, Rinv_mult. simpl (2 ^ 3). lra. }
    rewrite H. lra.
Qed.
