(** Double precision: how far the computed numbers are from the formulas, and
    what rounding breaks. *)
From Coq Require Import Reals Lra Lia List ZArith.
From Verif Require Import Base MaterialModel MaterialProofs FluidModel MainModel FloatModel FloatSpec FloatProofs FloatExampleProofs.
Import ListNotations.
Open Scope R_scope.

Ltac in_range := apply ordinary_range; rewrite ?pow_IZR; simpl Z.pow; lra.
Ltac ordinary_list := repeat (apply Forall_cons; [in_range|]); apply Forall_nil.

(** C182: a material given by moduli and density is accepted, and its velocities
    are within 2^-49 of the formulas, unless the shear modulus is more than 2^46
    times the bulk modulus. *)
Theorem C182_velocities : forall root k mu d,
  good_root root -> ordinary k -> ordinary mu -> ordinary d -> 0 < d -> mu <= 2 ^ 46 * k ->
  exists m, f_mat_of_moduli root k mu d = Ok m /\ bulk m = k /\ shear m = mu /\ dens m = d /\
    within (/ 2 ^ 49) (sqrt ((k + 4 / 3 * mu) / d)) (vp m) /\ within (/ 2 ^ 49) (sqrt (mu / d)) (vs m).
Proof. exact material_close. Qed.
Print Assumptions C182_velocities.
Example C182_nonvacuous : good_root fl_sqrt /\ ordinary 37 /\ ordinary 45 /\ ordinary (265 / 100) /\ 45 <= 2 ^ 46 * 37.
Proof.
  split; [exact fl_sqrt_good|]. split; [in_range|]. split; [in_range|]. split; [in_range|]. rewrite pow_IZR. simpl Z.pow. lra.
Qed.

(** C182 without the last hypothesis is refuted: a bulk modulus of zero, which
    the formulas allow (the material with exact velocities is accepted), can be
    refused. *)
Theorem C182_zero_bulk_refuted : exists root k mu d,
  good_root root /\ double k /\ double mu /\ double d /\ ordinary k /\ ordinary mu /\ ordinary d /\ 0 < d /\
  (exists m, mat_of_moduli k mu d = Ok m) /\ f_mat_of_moduli root k mu d = Err ValueError.
Proof.
  exists fl_sqrt, 0, 7, 1. split; [exact fl_sqrt_good|].
  split; [apply (double_int 0); reflexivity|]. split; [apply (double_int 7); reflexivity|]. split; [apply (double_int 1); reflexivity|].
  split; [left; reflexivity|]. split; [in_range|]. split; [in_range|]. split; [lra|].
  split; [eexists; apply mat_of_moduli_ok; lra|]. exact moduli_rejected.
Qed.
Print Assumptions C182_zero_bulk_refuted.

(** C183: the moduli recomputed from the velocities of such a material, as
    vectorize_material does, are accepted, and are the old ones up to 2^-48 (shear)
    and 2^-46 of the P-wave modulus (bulk).  Density and velocities are kept. *)
Theorem C183_repack : forall root k mu d,
  good_root root -> ordinary k -> ordinary mu -> ordinary d -> 0 < d -> mu <= 2 ^ 46 * k ->
  exists m m', f_mat_of_moduli root k mu d = Ok m /\ f_repack root m = Ok m' /\
    dens m' = d /\ vp m' = vp m /\ vs m' = vs m /\ within (/ 2 ^ 48) mu (shear m') /\
    Rabs (bulk m' - k) <= / 2 ^ 46 * (k + 4 / 3 * mu).
Proof. exact repack_close. Qed.
Print Assumptions C183_repack.
Example C183_nonvacuous : good_root fl_sqrt /\ ordinary 21 /\ ordinary 7 /\ ordinary (255 / 100) /\ 7 <= 2 ^ 46 * 21.
Proof.
  split; [exact fl_sqrt_good|]. split; [in_range|]. split; [in_range|]. split; [in_range|]. rewrite pow_IZR. simpl Z.pow. lra.
Qed.

(** C183 without the last hypothesis is refuted: a material can be accepted and
    its repacking refused. *)
Theorem C183_repack_refuted : exists root k mu d m,
  good_root root /\ double k /\ double mu /\ double d /\ ordinary k /\ ordinary mu /\ ordinary d /\ 0 < d /\
  f_mat_of_moduli root k mu d = Ok m /\ f_repack root m = Err ValueError.
Proof.
  exists fl_sqrt, 0, 1, 2. eexists. split; [exact fl_sqrt_good|].
  split; [apply (double_int 0); reflexivity|]. split; [apply (double_int 1); reflexivity|]. split; [apply (double_int 2); reflexivity|].
  split; [left; reflexivity|]. split; [in_range|]. split; [in_range|]. split; [lra|].
  split; [exact moduli_accepted|]. exact repack_rejected.
Qed.
Print Assumptions C183_repack_refuted.

(** C184: Gassmann's equation never divides by zero on doubles that satisfy its
    assumptions, however close they are to each other; the result is within 2^-48
    of the formula and never above the mineral. *)
Theorem C184_gassmann : forall kdry kmin kf phi,
  double kdry -> double kmin -> double kf ->
  ordinary kdry -> ordinary kmin -> ordinary kf -> ordinary phi -> kdry <= kmin -> kf < kmin ->
  exists k', f_gassman_equation kdry kmin kf phi = Ok k' /\ 0 <= k' <= kmin /\
    (phi = 0 -> k' = kmin) /\ (kdry = kmin -> k' = kmin) /\
    forall f, 0 < phi -> kdry < kmin -> f = kdry / (kmin - kdry) + kf / ((kmin - kf) * phi) ->
      within (/ 2 ^ 48) (f / (1 + f) * kmin) k'.
Proof. exact gassman_close. Qed.
Print Assumptions C184_gassmann.
Example C184_nonvacuous : double 12 /\ double 37 /\ double 2 /\ ordinary 12 /\ ordinary 37 /\ ordinary 2 /\ ordinary (1 / 4).
Proof.
  split; [apply (double_int 12); reflexivity|]. split; [apply (double_int 37); reflexivity|]. split; [apply (double_int 2); reflexivity|].
  split; [in_range|]. split; [in_range|]. split; [in_range|]. in_range.
Qed.

(** C184, the lower bound: by the formula the saturated rock is never softer than
    the dry rock.  In double precision it can be. *)
Theorem C184_softer_refuted : exists kdry kmin kf phi k',
  double kdry /\ double kmin /\ double kf /\ double phi /\ 0 <= kf < kmin /\ 0 < kdry < kmin /\ 0 < phi < 1 /\
  gassman_equation kdry kmin kf phi = Ok kdry /\
  f_gassman_equation kdry kmin kf phi = Ok k' /\ k' < kdry.
Proof.
  exists 1, 10, 0, (1 / 4). eexists.
  split; [apply (double_int 1); reflexivity|]. split; [apply (double_int 10); reflexivity|]. split; [apply (double_int 0); reflexivity|].
  split; [exists 1%Z, (-2)%Z; split; [reflexivity|split; [lia|simpl; lra]]|].
  split; [lra|]. split; [lra|]. split; [lra|]. split; [|exact gassman_softer].
  unfold gassman_equation. destruct (Req_EM_T (1 / 4) 0); [lra|]. destruct (Req_EM_T 1 10); [lra|].
  unfold py_div. destruct (Req_EM_T (10 - 1) 0); [lra|]. cbn [bind]. destruct (Req_EM_T ((10 - 0) * (1 / 4)) 0); [lra|]. cbn [bind].
  destruct (Rlt_dec _ 0) as [L|_]; [exfalso; lra|]. destruct (Req_EM_T _ 0) as [L|_]; [exfalso; lra|]. cbn [bind]. f_equal. field.
Qed.
Print Assumptions C184_softer_refuted.

(** C185: all of fluid substitution, to 2^-48. *)
Theorem C185_substitution : forall root dry mineral fluid phi,
  good_root root -> double (bulk dry) -> double (bulk mineral) -> double (bulk fluid) ->
  ordinary (bulk dry) -> ordinary (bulk mineral) -> ordinary (bulk fluid) -> ordinary phi ->
  ordinary (shear dry) -> ordinary (dens dry) -> ordinary (dens fluid) ->
  bulk dry < bulk mineral -> bulk fluid < bulk mineral -> 0 < phi -> 0 < dens dry -> shear dry <= 2 ^ 45 * bulk dry ->
  exists m, f_fluid_substitution root dry mineral fluid phi = Ok m /\
    bulk m <= bulk mineral /\ shear m = shear dry /\
    forall f k d, f = bulk dry / (bulk mineral - bulk dry) + bulk fluid / ((bulk mineral - bulk fluid) * phi) ->
      k = f / (1 + f) * bulk mineral -> d = dens dry + phi * dens fluid ->
      within (/ 2 ^ 48) k (bulk m) /\ within (/ 2 ^ 48) d (dens m) /\
      within (/ 2 ^ 48) (sqrt ((k + 4 / 3 * shear dry) / d)) (vp m) /\ within (/ 2 ^ 48) (sqrt (shear dry / d)) (vs m).
Proof. exact substitution_close. Qed.
Print Assumptions C185_substitution.
Example C185_nonvacuous : exists dry mineral fluid : material,
  double (bulk dry) /\ double (bulk mineral) /\ double (bulk fluid) /\
  ordinary (bulk dry) /\ ordinary (bulk mineral) /\ ordinary (bulk fluid) /\
  ordinary (shear dry) /\ ordinary (dens dry) /\ ordinary (dens fluid) /\
  bulk dry < bulk mineral /\ bulk fluid < bulk mineral /\ 0 < dens dry /\ shear dry <= 2 ^ 45 * bulk dry.
Proof.
  exists (mkMat 12 9 2 0 0), (mkMat 37 45 3 0 0), (mkMat 2 0 1 0 0). cbn [bulk shear dens].
  split; [apply (double_int 12); reflexivity|]. split; [apply (double_int 37); reflexivity|]. split; [apply (double_int 2); reflexivity|].
  do 6 (split; [in_range|]). split; [lra|]. split; [lra|]. split; [lra|]. rewrite pow_IZR. simpl Z.pow. lra.
Qed.

(** C186: Wood's mixture of n fluids is within (n + 4) 2^-51 of the formula,
    with the saturations divided by their sum. *)
Theorem C186_wood : forall root fluids saturations,
  good_root root -> length fluids = length saturations ->
  Forall (fun m => ordinary (bulk m) /\ ordinary (dens m) /\ 0 < bulk m /\ 0 < dens m) fluids ->
  Forall ordinary saturations -> (Z.of_nat (length saturations) <= 2 ^ 35)%Z -> 1 / 10 ^ 14 <= rsum saturations ->
  exists m, f_wood root fluids saturations = Ok m /\ shear m = 0 /\ vs m = 0 /\
    forall t c d e, t = rsum saturations ->
      c = rsum (map (fun fs => snd fs / t / bulk (fst fs)) (combine fluids saturations)) ->
      d = rsum (map (fun fs => dens (fst fs) * (snd fs / t)) (combine fluids saturations)) ->
      e = (INR (length saturations) + 4) / 2 ^ 51 ->
      within e (1 / c) (bulk m) /\ within e d (dens m) /\ within e (sqrt (1 / c / d)) (vp m).
Proof. exact wood_close. Qed.
Print Assumptions C186_wood.
Example C186_nonvacuous : exists fluids saturations, length fluids = length saturations /\
  Forall (fun m => ordinary (bulk m) /\ ordinary (dens m) /\ 0 < bulk m /\ 0 < dens m) fluids /\
  Forall ordinary saturations /\ 1 / 10 ^ 14 <= rsum saturations.
Proof.
  exists [mkMat 2 0 1 0 0; mkMat (1 / 10) 0 (1 / 5) 0 0], [3 / 10; 7 / 10]. split; [reflexivity|]. split; [|split].
  - repeat (apply Forall_cons; [cbn [bulk dens]; (split; [in_range|split; [in_range|lra]])|]). apply Forall_nil.
  - ordinary_list.
  - cbn [rsum]. rewrite pow_IZR. simpl Z.pow. lra.
Qed.

(** C186, saturations that are all zero: every fluid gets the saturation 1. *)
Theorem C186_zero_saturations : forall n, f_sum_saturations_to_one (repeat 0 n) = Ok (repeat 1 n).
Proof. exact saturations_zeros. Qed.
Print Assumptions C186_zero_saturations.
Example C186_zero_nonvacuous : f_sum_saturations_to_one [0; 0] = Ok [1; 1].
Proof. exact (saturations_zeros 2). Qed.

(** C187: fractions written as decimals that add up to one are accepted, though
    neither they nor their sum are exact in double precision. *)
Theorem C187_decimals : forall decimals,
  Forall ordinary decimals -> (Z.of_nat (length decimals) <= 2 ^ 30)%Z -> rsum decimals = 1 ->
  f_minerals (map fl decimals) = Ok tt.
Proof. exact decimals_accepted. Qed.
Print Assumptions C187_decimals.
Example C187_nonvacuous : Forall ordinary decimals /\ rsum decimals = 1.
Proof. split; [unfold decimals; ordinary_list|unfold decimals; cbn [rsum]; lra]. Qed.

(** C187, the tolerance: a sum between 1 - 19e-6 and 1 + 9e-6 is accepted, one
    outside of 1 - 21e-6 and 1 + 11e-6 is not.  (In between the rounding decides.) *)
Theorem C187_tolerance : forall fractions,
  Forall ordinary fractions -> (Z.of_nat (length fractions) <= 2 ^ 30)%Z -> Forall (fun x => x <= 1) fractions ->
  (1 - 19 / 10 ^ 6 <= rsum fractions <= 1 + 9 / 10 ^ 6 -> f_minerals fractions = Ok tt) /\
  (rsum fractions < 1 - 21 / 10 ^ 6 \/ 1 + 11 / 10 ^ 6 < rsum fractions -> f_minerals fractions = Err ValueError).
Proof.
  intros fractions O L F. split.
  - exact (f_minerals_accepts fractions O L F).
  - exact (f_minerals_rejects fractions O L F).
Qed.
Print Assumptions C187_tolerance.
Example C187_tolerance_nonvacuous : Forall ordinary [1 / 2; 49999 / 100000] /\ rsum [1 / 2; 49999 / 100000] = 1 - 1 / 10 ^ 5.
Proof. split; [ordinary_list|cbn [rsum]; rewrite pow_IZR; simpl Z.pow; lra]. Qed.

(** C188: the fraction left to one mineral is within (n + 1) 2^-51 of one minus
    the sum of the n given ones. *)
Theorem C188_rest : forall given,
  Forall ordinary given -> (Z.of_nat (length given) <= 2 ^ 30)%Z -> rsum given <= 1 + 9 / 10 ^ 6 ->
  exists r, f_rest given = Ok r /\ Rabs (r - (1 - rsum given)) <= INR (length given + 1) / 2 ^ 51.
Proof. exact f_rest_close. Qed.
Print Assumptions C188_rest.
Example C188_nonvacuous : Forall ordinary [2 / 10; 3 / 10] /\ rsum [2 / 10; 3 / 10] <= 1 + 9 / 10 ^ 6.
Proof. split; [ordinary_list|cbn [rsum]; rewrite pow_IZR; simpl Z.pow; lra]. Qed.

(** C188, refuted: fractions that add up to exactly one on paper leave the last
    mineral nothing, but in double precision can leave it a negative fraction. *)
Theorem C188_negative_refuted : exists decimals r,
  Forall (fun x => 0 < x < 1) decimals /\ rsum decimals = 1 /\ f_rest (map fl decimals) = Ok r /\ r < 0.
Proof.
  exists decimals. eexists. split; [unfold decimals; repeat constructor; lra|]. split; [unfold decimals; cbn [rsum]; lra|].
  split; [exact rest_negative|]. dyadic_values. lra.
Qed.
Print Assumptions C188_negative_refuted.
