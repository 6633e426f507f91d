(** Double precision in the Hashin-Shtrikman bounds and their average. *)
From Coq Require Import Reals Lra Lia List ZArith.
From Verif Require Import Base MaterialModel MaterialProofs HashinShtrikmanModel MainModel FloatModel FloatSpec FloatProofs
  FloatExampleProofs PublishedSpec FloatBoundsModel FloatBoundsSpec FloatBoundsProofs FloatMixModel FloatMixProofs.
Open Scope R_scope.

(** C198: the bound of two materials whose moduli differ at most by the factor c
    (up to 2^40) is computed without an exception; its moduli are within c 2^-47
    of the published equations with the first material for the comparison medium,
    the density is within 2^-50. *)
Theorem C198_bound : forall root inv m1 m2 f c mix,
  good_root root -> good_inverse inv -> ordinary_material m1 -> ordinary_material m2 ->
  double f -> ordinary f -> f <= 1 ->
  1 <= c <= 2 ^ 40 -> contrast c (bulk m1) (bulk m2) -> contrast c (shear m1) (shear m2) ->
  Rmax (shear m1) (shear m2) <= 2 ^ 45 * Rmin (bulk m1) (bulk m2) ->
  walpole_mixture (bulk m1) (shear m1) f m1 m2 mix -> 0 < bulk mix -> 0 < shear mix ->
  exists m, f_bound root inv m1 m2 f = Ok m /\
    within (c / 2 ^ 47) (bulk mix) (bulk m) /\ within (c / 2 ^ 47) (shear mix) (shear m) /\ within (/ 2 ^ 50) (dens mix) (dens m).
Proof. exact bound_close. Qed.
Print Assumptions C198_bound.

(** C198, the average: within c 2^-46 of the mean of both bounds, although the
    ratio of the second one is rounded. *)
Theorem C198_average : forall root inv m1 m2 f c x1 x2,
  good_root root -> good_inverse inv -> ordinary_material m1 -> ordinary_material m2 ->
  double f -> ordinary f -> f <= 1 ->
  1 <= c <= 2 ^ 40 -> contrast c (bulk m1) (bulk m2) -> contrast c (shear m1) (shear m2) ->
  Rmax (shear m1) (shear m2) <= 2 ^ 45 * Rmin (bulk m1) (bulk m2) ->
  walpole_mixture (bulk m1) (shear m1) f m1 m2 x1 -> 0 < bulk x1 -> 0 < shear x1 ->
  walpole_mixture (bulk m2) (shear m2) f m1 m2 x2 -> 0 < bulk x2 -> 0 < shear x2 ->
  exists m, f_average root inv m1 m2 f = Ok m /\
    within (c / 2 ^ 46) ((bulk x1 + bulk x2) / 2) (bulk m) /\ within (c / 2 ^ 46) ((shear x1 + shear x2) / 2) (shear m) /\
    within (/ 2 ^ 50) (dens x1) (dens m).
Proof. exact average_close. Qed.
Print Assumptions C198_average.
Example C198_nonvacuous : exists m1 m2 x1 x2, ordinary_material m1 /\ ordinary_material m2 /\ double (1 / 2) /\ ordinary (1 / 2) /\
  contrast 4 (bulk m1) (bulk m2) /\ contrast 4 (shear m1) (shear m2) /\
  Rmax (shear m1) (shear m2) <= 2 ^ 45 * Rmin (bulk m1) (bulk m2) /\
  walpole_mixture (bulk m1) (shear m1) (1 / 2) m1 m2 x1 /\ 0 < bulk x1 /\ 0 < shear x1 /\
  walpole_mixture (bulk m2) (shear m2) (1 / 2) m1 m2 x2 /\ 0 < bulk x2 /\ 0 < shear x2 /\
  good_root fl_sqrt /\ good_inverse (fun x => fl (/ x)).
Proof.
  assert (Z : forall z : Z, (0 < z < 1000)%Z -> double (IZR z) /\ ordinary (IZR z) /\ 0 < IZR z).
  { intros z H. split; [apply double_int; lia|]. assert (1 <= IZR z <= 1000) by (split; apply IZR_le; lia).
    split; [|lra]. apply ordinary_range. rewrite !pow_IZR. simpl Z.pow. lra. }
  exists (mkMat 36 12 2 0 0), (mkMat 24 6 3 0 0), (mkMat (672 / 23) (198 / 23) (5 / 2) 0 0), (mkMat (552 / 19) (414 / 49) (5 / 2) 0 0).
  destruct (Z 36%Z ltac:(lia)) as [A1 [A2 A3]]. destruct (Z 24%Z ltac:(lia)) as [B1 [B2 B3]]. destruct (Z 6%Z ltac:(lia)) as [H1 [H2 H3]].
  destruct (Z 12%Z ltac:(lia)) as [C1 [C2 C3]]. destruct (Z 2%Z ltac:(lia)) as [D1 [D2 D3]]. destruct (Z 3%Z ltac:(lia)) as [E1 [E2 E3]].
  unfold ordinary_material, contrast, walpole_mixture. cbn [bulk shear dens].
  rewrite (Rmin_right 36 24), (Rmax_left 12 6) by lra.
  split; [intuition|]. split; [intuition|]. split; [exists 1%Z, (-1)%Z; split; [reflexivity|split; [lia|simpl; lra]]|].
  split; [apply ordinary_range; rewrite !pow_IZR; simpl Z.pow; lra|]. split; [lra|]. split; [lra|].
  split; [rewrite pow_IZR; simpl Z.pow; lra|].
  split; [split; [lra|split; [lra|lra]]|]. split; [lra|]. split; [lra|].
  split; [split; [lra|split; [lra|lra]]|]. split; [lra|]. split; [lra|]. split; [exact fl_sqrt_good|exact fl_inv_good].
Qed.

(** Without the limit on the contrast C198 is refuted: nothing but the second
    material is mixed, which is the second material by the formula, and in double
    precision refused. *)
Theorem C198_contrast_refuted : exists root inv m1 m2 m,
  good_root root /\ good_inverse inv /\ ordinary_material m1 /\ ordinary_material m2 /\
  hashin_shtrikman_bound m1 m2 0 = Ok m /\ bulk m = bulk m2 /\ shear m = shear m2 /\ dens m = dens m2 /\
  f_bound root inv m1 m2 0 = Err ValueError.
Proof.
  exists fl_sqrt, (fun x => fl (/ x)), (mkMat 3 7 1 0 0), (mkMat (/ 2 ^ 60) 7 1 0 0).
  assert (P : 0 < / 2 ^ 60) by (apply half_pos).
  assert (B : / 2 ^ 60 <= 1) by (rewrite <- Rinv_1; apply Rinv_le_contravar; [lra|apply pow_R1_Rle; lra]).
  assert (O : ordinary (/ 2 ^ 60)) by (right; split; [apply half_le; lia|pose proof (pow_R1_Rle 2 100 ltac:(lra)); lra]).
  assert (Z : forall z : Z, (0 < z < 1000)%Z -> double (IZR z) /\ ordinary (IZR z) /\ 0 < IZR z).
  { intros z H. split; [apply double_int; lia|]. assert (1 <= IZR z <= 1000) by (split; apply IZR_le; lia).
    split; [|lra]. apply ordinary_range. rewrite !pow_IZR. simpl Z.pow. lra. }
  destruct (Z 3%Z ltac:(lia)) as [A1 [A2 A3]]. destruct (Z 7%Z ltac:(lia)) as [C1 [C2 C3]]. destruct (Z 1%Z ltac:(lia)) as [D1 [D2 D3]]. clear Z.
  assert (D0 : double (/ 2 ^ 60)).
  { exists 1%Z, (-60)%Z. split; [reflexivity|]. split; [lia|]. rewrite Rmult_1_l. reflexivity. }
  eexists. split; [exact fl_sqrt_good|]. split; [exact fl_inv_good|].
  split; [unfold ordinary_material; cbn [bulk shear dens]; intuition|]. split; [unfold ordinary_material; cbn [bulk shear dens]; intuition|].
  split; [|split; [|split; [|split; [|exact none_refused]]]].
  - unfold hashin_shtrikman_bound, check_is_ratio. destruct (Rlt_dec _ _) as [Y|_]; [exfalso; lra|]. destruct (Rlt_dec _ _) as [Y|_]; [exfalso; lra|].
    cbn [bind bulk shear dens]. unfold np_div at 1. destruct (Req_EM_T _ 0) as [Y|_]; [exfalso; lra|]. cbn [bind].
    unfold np_div at 1. destruct (Req_EM_T _ 0) as [Y|_]; [exfalso; lra|]. cbn [bind].
    unfold np_div at 1. destruct (Req_EM_T _ 0) as [Y|_]; [exfalso; lra|]. cbn [bind].
    unfold np_div at 1. destruct (Req_EM_T _ 0) as [Y|_]; [exfalso; revert Y; replace (2 * (7 - 7) * 0 * (3 + 2 * 7) / (5 * 7 * (3 + 4 / 3 * 7))) with 0 by field; lra|]. cbn [bind].
    set (t := / 2 ^ 60) in *.
    match goal with |- mat_of_moduli ?a ?b ?d = _ =>
      replace a with t by (field; lra); replace b with 7 by (field; lra); replace d with 1 by ring end.
    apply mat_of_moduli_ok; lra.
  - reflexivity.
  - reflexivity.
  - reflexivity.
Qed.
Print Assumptions C198_contrast_refuted.
