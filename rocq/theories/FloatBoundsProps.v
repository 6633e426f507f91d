(** Double precision in the Hashin-Shtrikman-Walpole bounds. *)
From Coq Require Import Reals Lra Lia List ZArith String.
From Verif Require Import Base MaterialModel MaterialProofs HashinShtrikmanModel MainModel FloatModel FloatSpec FloatProofs
  FloatExampleProofs PublishedSpec FloatBoundsModel FloatBoundsSpec FloatBoundsProofs.
Import ListNotations.
Open Scope R_scope.

(** C194: the bounds of two materials whose moduli differ at most by the factor
    c (up to 2^40) are computed without an exception, and the moduli are within
    c 2^-47 of the published equations; the density within 2^-50. *)
Theorem C194_walpole : forall root inv m1 m2 f c bound mix,
  good_root root -> good_inverse inv -> ordinary_material m1 -> ordinary_material m2 ->
  double f -> ordinary f -> f <= 1 ->
  1 <= c <= 2 ^ 40 -> contrast c (bulk m1) (bulk m2) -> contrast c (shear m1) (shear m2) ->
  Rmax (shear m1) (shear m2) <= 2 ^ 45 * Rmin (bulk m1) (bulk m2) ->
  (bound = "lower"%string /\ lower_mixture f m1 m2 mix) \/ (bound = "upper"%string /\ upper_mixture f m1 m2 mix) ->
  0 < bulk mix -> 0 < shear mix ->
  exists m, f_walpole root inv m1 m2 f bound = Ok m /\
    within (c / 2 ^ 47) (bulk mix) (bulk m) /\ within (c / 2 ^ 47) (shear mix) (shear m) /\ within (/ 2 ^ 50) (dens mix) (dens m).
Proof. exact walpole_close. Qed.
Print Assumptions C194_walpole.
Example C194_nonvacuous : exists m1 m2 mix, ordinary_material m1 /\ ordinary_material m2 /\ double (1 / 2) /\ ordinary (1 / 2) /\
  contrast 4 (bulk m1) (bulk m2) /\ contrast 4 (shear m1) (shear m2) /\
  Rmax (shear m1) (shear m2) <= 2 ^ 45 * Rmin (bulk m1) (bulk m2) /\
  lower_mixture (1 / 2) m1 m2 mix /\ 0 < bulk mix /\ 0 < shear mix /\ good_inverse (fun x => fl (/ x)).
Proof.
  assert (Z : forall z : Z, (0 < z < 1000)%Z -> double (IZR z) /\ ordinary (IZR z) /\ 0 < IZR z).
  { intros z H. split; [apply double_int; lia|]. assert (1 <= IZR z <= 1000) by (split; apply IZR_le; lia).
    split; [|lra]. apply ordinary_range. rewrite !pow_IZR. simpl Z.pow. lra. }
  exists (mkMat 36 12 2 0 0), (mkMat 24 12 3 0 0), (mkMat (672 / 23) 12 (5 / 2) 0 0).
  destruct (Z 36%Z ltac:(lia)) as [A1 [A2 A3]]. destruct (Z 24%Z ltac:(lia)) as [B1 [B2 B3]].
  destruct (Z 12%Z ltac:(lia)) as [C1 [C2 C3]]. destruct (Z 2%Z ltac:(lia)) as [D1 [D2 D3]]. destruct (Z 3%Z ltac:(lia)) as [E1 [E2 E3]].
  unfold ordinary_material, contrast, lower_mixture, walpole_mixture. cbn [bulk shear dens].
  rewrite (Rmin_right 36 24), (Rmin_left 12 12), Rmax_left by lra.
  split; [intuition|]. split; [intuition|]. split; [exists 1%Z, (-1)%Z; split; [reflexivity|split; [lia|simpl; lra]]|].
  split; [apply ordinary_range; rewrite !pow_IZR; simpl Z.pow; lra|]. split; [lra|]. split; [lra|].
  split; [rewrite pow_IZR; simpl Z.pow; lra|]. split; [|split; [lra|split; [lra|exact fl_inv_good]]].
  split; [field|]. split; [field|field].
Qed.

(** The same claim for a material without stiffness is refuted: by the equations
    the mixture has bulk modulus zero and is accepted, in double precision the
    result can be below zero and the mixture is refused. *)
Theorem C194_no_stiffness_refuted : exists root inv m1 m2 f m,
  good_root root /\ good_inverse inv /\ double (bulk m1) /\ double (bulk m2) /\ double f /\ 0 < f < 1 /\
  0 < dens m1 /\ 0 < dens m2 /\
  hashin_shtrikman_walpole m1 m2 f "lower" = Ok m /\ bulk m = 0 /\
  f_walpole root inv m1 m2 f "lower" = Err ValueError.
Proof.
  exists fl_sqrt, (fun x => fl (/ x)), (mkMat 3 0 1 (sqrt 3) 0), (mkMat 0 0 1 0 0), (3 / 4). eexists.
  split; [exact fl_sqrt_good|]. split; [exact fl_inv_good|]. split; [apply (double_int 3); reflexivity|].
  split; [apply (double_int 0); reflexivity|]. split; [exists 3%Z, (-2)%Z; split; [reflexivity|split; [lia|simpl; lra]]|].
  split; [lra|]. split; [cbn; lra|]. split; [cbn; lra|].
  assert (Q : rnd (1 - 3 / 4) = Ok (1 / 4)).
  { apply rnd_small; [|lra]. rewrite (fl_dy _ 1 4 4503599627370496 54); [dyadic|lra|lia|lia|vm_compute; reflexivity]. }
  split; [|split].
  - unfold hashin_shtrikman_walpole. replace (check_is_ratio (3 / 4)) with (Ok tt).
    2:{ unfold check_is_ratio. destruct (Rlt_dec _ _) as [Z|_]; [exfalso; lra|]. destruct (Rlt_dec _ _) as [Z|_]; [exfalso; lra|]. reflexivity. }
    cbn [bind String.eqb Ascii.eqb Bool.eqb orb negb bulk shear dens]. rewrite !Rmin_right by lra.
    unfold calc_bulk_modulus, calc_shear_modulus, calc_density. destruct (Req_EM_T 3 0) as [Z|_]; [exfalso; lra|].
    destruct (Req_EM_T 0 0) as [_|Z]; [|exfalso; apply Z; reflexivity]. destruct (Req_EM_T 1 1) as [_|Z]; [|exfalso; apply Z; reflexivity].
    unfold py_div. destruct (Req_EM_T (0 - 3) 0) as [Z|_]; [exfalso; lra|]. cbn [bind].
    destruct (Req_EM_T _ 0) as [Z|_]; [exfalso; lra|]. cbn [bind].
    destruct (Req_EM_T _ 0) as [Z|_]; [exfalso; lra|]. cbn [bind].
    replace (3 + _) with 0 by field. apply mat_of_moduli_ok; lra.
  - reflexivity.
  - unfold f_walpole. rewrite (ratio_accepted (3 / 4)) by lra. cbn [bind].
    cbn [String.eqb Ascii.eqb Bool.eqb orb negb bulk shear dens]. rewrite Q. cbn [bind]. rewrite !Rmin_right by lra.
    unfold f_calc_density. destruct (Req_EM_T 1 1) as [_|Z]; [|exfalso; apply Z; reflexivity]. cbn [bind].
    rewrite soft_bulk. cbn [bind]. unfold f_calc_shear_modulus. destruct (Req_EM_T 0 0) as [_|Z]; [|exfalso; apply Z; reflexivity]. cbn [bind].
    unfold f_new_material. destruct (Rlt_dec 1 0) as [Z|_]; [exfalso; lra|].
    destruct (Rlt_dec _ 0) as [_|Z]; [reflexivity|]. exfalso. apply Z. dyadic_small.
Qed.
Print Assumptions C194_no_stiffness_refuted.
