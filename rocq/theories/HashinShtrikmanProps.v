(** Properties C22-C31, C88, C89: Hashin-Shtrikman(-Walpole) bounds. *)
From Verif Require Import Base BaseProofs MaterialModel Spec MaterialProofs FluidModel HashinShtrikmanModel HashinShtrikmanProofs.

(** Quartz and clay. *)
Example quartz_clay :
  solid (sample 37000000000 44000000000 2650) /\ solid (sample 25000000000 9000000000 2550) /\
  mixable false (sample 37000000000 44000000000 2650) (sample 25000000000 9000000000 2550) /\
  mixable true (sample 37000000000 44000000000 2650) (sample 25000000000 9000000000 2550) /\
  mixable true (sample 37000000000 44000000000 2650) (sample 2500000000 0 1000).
Proof.
  assert (S1 : solid (sample 37000000000 44000000000 2650)) by (apply sample_solid; lra).
  assert (S2 : solid (sample 25000000000 9000000000 2550)) by (apply sample_solid; lra).
  split; [exact S1|]. split; [exact S2|].
  split; [apply solid_mixable; assumption|]. split; [apply solid_mixable; assumption|].
  split; [apply S1|]. split; [apply sample_wf; lra|]. left. simpl. lra.
Qed.

(** C22 *)
Theorem C22_ratio_check :
  forall f,
    (check_is_ratio f = Ok tt <-> - (1 / 10 ^ 5) <= f <= 1 + 1 / 10 ^ 5) /\
    (check_is_ratio f = Err ValueError <-> f < - (1 / 10 ^ 5) \/ 1 + 1 / 10 ^ 5 < f).
Proof. exact ratio_check_iff. Qed.
Print Assumptions C22_ratio_check.

Theorem C22_ratio_outside_rejected :
  forall m1 m2 f b,
    f < - (1 / 10 ^ 5) \/ 1 + 1 / 10 ^ 5 < f ->
    hashin_shtrikman_walpole m1 m2 f b = Err ValueError /\
    hashin_shtrikman_bound m1 m2 f = Err ValueError /\
    hashin_shtrikman_average m1 m2 f = Err ValueError.
Proof. exact walpole_bad_ratio. Qed.
Print Assumptions C22_ratio_outside_rejected.

Theorem C22_unknown_bound_rejected :
  forall m1 m2 f b,
    b <> "lower"%string -> b <> "upper"%string -> hashin_shtrikman_walpole m1 m2 f b = Err ValueError.
Proof. exact walpole_bad_bound. Qed.
Print Assumptions C22_unknown_bound_rejected.

(** C23 *)
Theorem C23_walpole_between :
  forall u m1 m2 f,
    mixable u m1 m2 -> 0 <= f <= 1 ->
    exists m, hashin_shtrikman_walpole m1 m2 f (bound_name u) = Ok m /\ wf m /\
      between (bulk m1) (bulk m) (bulk m2) /\
      between (shear m1) (shear m) (shear m2) /\
      dens m = f * dens m1 + (1 - f) * dens m2.
Proof. exact walpole_between. Qed.
Print Assumptions C23_walpole_between.

(** And for every two materials: whatever is returned is between them. *)
Theorem C23_walpole_between_any :
  forall u m1 m2 f m,
    wf m1 -> wf m2 -> 0 <= f <= 1 ->
    hashin_shtrikman_walpole m1 m2 f (bound_name u) = Ok m ->
    wf m /\ between (bulk m1) (bulk m) (bulk m2) /\ between (shear m1) (shear m) (shear m2) /\
    dens m = f * dens m1 + (1 - f) * dens m2.
Proof. exact walpole_any_between. Qed.
Print Assumptions C23_walpole_between_any.

(** C24 *)
Theorem C24_lower_le_upper :
  forall m1 m2 f,
    solid m1 -> solid m2 -> 0 <= f <= 1 ->
    exists lo up,
      hashin_shtrikman_walpole m1 m2 f "lower" = Ok lo /\
      hashin_shtrikman_walpole m1 m2 f "upper" = Ok up /\
      bulk lo <= bulk up /\ shear lo <= shear up /\ dens lo = dens up.
Proof. exact walpole_lower_le_upper. Qed.
Print Assumptions C24_lower_le_upper.

(** The same for every two materials, fluids too, whenever both bounds exist. *)
Theorem C24_lower_le_upper_any :
  forall m1 m2 f lo up,
    wf m1 -> wf m2 -> 0 <= f <= 1 ->
    hashin_shtrikman_walpole m1 m2 f "lower" = Ok lo -> hashin_shtrikman_walpole m1 m2 f "upper" = Ok up ->
    bulk lo <= bulk up /\ shear lo <= shear up /\ dens lo = dens up.
Proof. exact walpole_any_lower_le_upper. Qed.
Print Assumptions C24_lower_le_upper_any.

Example C24_nonvacuous :
  solid (sample 37 44 3) /\ fluid (sample 2 0 1) /\
  is_ok (hashin_shtrikman_walpole (sample 37 44 3) (sample 2 0 1) (1 / 2) "lower") /\
  is_ok (hashin_shtrikman_walpole (sample 37 44 3) (sample 2 0 1) (1 / 2) "upper").
Proof. exact walpole_solid_fluid_sample. Qed.

(** C25 *)
Theorem C25_endpoints :
  forall u m1 m2,
    mixable u m1 m2 ->
    hashin_shtrikman_walpole m1 m2 1 (bound_name u) = Ok m1 /\
    hashin_shtrikman_walpole m1 m2 0 (bound_name u) = Ok m2.
Proof. exact walpole_endpoints. Qed.
Print Assumptions C25_endpoints.

Theorem C25_endpoint_fluid_refuted :
  exists m1 m2,
    solid m1 /\ fluid m2 /\ 0 < bulk m1 /\ 0 < bulk m2 /\
    hashin_shtrikman_walpole m1 m2 1 "lower" = Err ZeroDivisionError.
Proof. exact walpole_fluid_endpoint. Qed.
Print Assumptions C25_endpoint_fluid_refuted.

(** C26 *)
Theorem C26_symmetric :
  forall u m1 m2 f,
    mixable u m1 m2 -> 0 <= f <= 1 ->
    hashin_shtrikman_walpole m1 m2 f (bound_name u) =
    hashin_shtrikman_walpole m2 m1 (1 - f) (bound_name u).
Proof. exact walpole_symmetric. Qed.
Print Assumptions C26_symmetric.

Theorem C26_symmetric_fluid_refuted :
  exists m1 m2 f m,
    solid m1 /\ fluid m2 /\ 0 < bulk m1 /\ 0 < bulk m2 /\ 0 < f < 1 /\
    hashin_shtrikman_walpole m1 m2 f "lower" = Ok m /\
    hashin_shtrikman_walpole m2 m1 (1 - f) "lower" = Err ZeroDivisionError.
Proof. exact walpole_fluid_asymmetry. Qed.
Print Assumptions C26_symmetric_fluid_refuted.

(** C27 *)
Theorem C27_self_mix :
  forall u m1 m2 f,
    wf m1 -> bulk m2 = bulk m1 -> shear m2 = shear m1 -> dens m2 = dens m1 ->
    - (1 / 10 ^ 5) <= f <= 1 + 1 / 10 ^ 5 ->
    hashin_shtrikman_walpole m1 m2 f (bound_name u) = Ok m1.
Proof. exact walpole_self. Qed.
Print Assumptions C27_self_mix.

(** C28 *)
Theorem C28_classical_bound :
  forall m1 m2 f,
    solid m1 -> solid m2 -> 0 <= f <= 1 ->
    (bulk m1 <= bulk m2 -> shear m1 <= shear m2 ->
       hashin_shtrikman_bound m1 m2 f = hashin_shtrikman_walpole m1 m2 f "lower") /\
    (bulk m2 <= bulk m1 -> shear m2 <= shear m1 ->
       hashin_shtrikman_bound m1 m2 f = hashin_shtrikman_walpole m1 m2 f "upper").
Proof. exact bound_is_walpole. Qed.
Print Assumptions C28_classical_bound.

(** C29 *)
Theorem C29_average_symmetric :
  forall m1 m2 f,
    solid m1 -> solid m2 -> 0 <= f <= 1 ->
    hashin_shtrikman_average m1 m2 f = hashin_shtrikman_average m2 m1 (1 - f).
Proof. exact average_symmetric. Qed.
Print Assumptions C29_average_symmetric.

Theorem C29_average_between :
  forall m1 m2 f,
    solid m1 -> solid m2 -> 0 <= f <= 1 ->
    exists b1 b2 m,
      hashin_shtrikman_bound m1 m2 f = Ok b1 /\ hashin_shtrikman_bound m2 m1 (1 - f) = Ok b2 /\
      hashin_shtrikman_average m1 m2 f = Ok m /\ wf m /\
      bulk m = (bulk b1 + bulk b2) / 2 /\ shear m = (shear b1 + shear b2) / 2 /\
      between (bulk m1) (bulk m) (bulk m2) /\ between (shear m1) (shear m) (shear m2) /\
      dens m = f * dens m1 + (1 - f) * dens m2.
Proof. exact average_between. Qed.
Print Assumptions C29_average_between.

(** C30 *)
Theorem C30_reuss_voigt :
  forall m1 m2 f,
    solid m1 -> solid m2 -> 0 < bulk m1 -> 0 < bulk m2 -> 0 <= f <= 1 ->
    exists lo up,
      hashin_shtrikman_walpole m1 m2 f "lower" = Ok lo /\
      hashin_shtrikman_walpole m1 m2 f "upper" = Ok up /\
      reuss f (bulk m1) (bulk m2) <= bulk lo /\ bulk up <= voigt f (bulk m1) (bulk m2) /\
      reuss f (shear m1) (shear m2) <= shear lo /\ shear up <= voigt f (shear m1) (shear m2).
Proof. exact walpole_reuss_voigt. Qed.
Print Assumptions C30_reuss_voigt.

(** C31 *)
Theorem C31_more_stiff_is_stiffer :
  forall u m1 m2 f g a b,
    mixable u m1 m2 -> bulk m2 <= bulk m1 -> shear m2 <= shear m1 ->
    0 <= f -> f <= g -> g <= 1 ->
    hashin_shtrikman_walpole m1 m2 f (bound_name u) = Ok a ->
    hashin_shtrikman_walpole m1 m2 g (bound_name u) = Ok b ->
    bulk a <= bulk b /\ shear a <= shear b.
Proof. exact walpole_mono_ratio. Qed.
Print Assumptions C31_more_stiff_is_stiffer.

Example C31_nonvacuous :
  forall u f, 0 <= f <= 1 ->
  is_ok (hashin_shtrikman_walpole (sample 37000000000 44000000000 2650)
           (sample 25000000000 9000000000 2550) f (bound_name u)).
Proof.
  intros u f Hf. destruct quartz_clay as [S1 [S2 _]].
  destruct (walpole_between u _ _ f (solid_mixable u _ _ S1 S2) Hf) as [m [E _]].
  exists m. exact E.
Qed.

(** C88 *)
Theorem C88_walpole_of_fluids_is_wood :
  forall u m1 m2 f,
    fluid m1 -> fluid m2 -> 0 < bulk m1 -> 0 < bulk m2 -> 0 <= f <= 1 ->
    hashin_shtrikman_walpole m1 m2 f (bound_name u) = wood_fluid_mixing [m1; m2] [f; 1 - f].
Proof. exact walpole_two_fluids. Qed.
Print Assumptions C88_walpole_of_fluids_is_wood.

Example C88_nonvacuous : fluid (sample 2 0 1) /\ fluid (sample 1 0 1) /\ 0 < bulk (sample 2 0 1).
Proof. split; [apply sample_fluid; lra|]. split; [apply sample_fluid; lra|]. simpl. lra. Qed.

(** C89: a fluid among the two materials of the lower bound. *)
Theorem C89_fluid_first :
  forall m1 m2 f,
    wf m1 -> wf m2 -> shear m1 = 0 -> 0 < shear m2 -> 0 < bulk m1 -> 0 < bulk m2 -> 0 <= f <= 1 ->
    hashin_shtrikman_walpole m1 m2 f "lower" = Err ZeroDivisionError.
Proof. exact walpole_fluid_first. Qed.
Print Assumptions C89_fluid_first.

Theorem C89_fluid_second :
  forall m1 m2 f,
    wf m1 -> wf m2 -> 0 < shear m1 -> shear m2 = 0 -> 0 < bulk m1 -> 0 < bulk m2 -> 0 <= f < 1 ->
    exists m, hashin_shtrikman_walpole m1 m2 f "lower" = Ok m /\ shear m = 0 /\
              bulk m = reuss f (bulk m1) (bulk m2).
Proof. exact walpole_fluid_second. Qed.
Print Assumptions C89_fluid_second.

Theorem C89_fluid_second_absent :
  forall m1 m2,
    wf m1 -> wf m2 -> 0 < shear m1 -> shear m2 = 0 -> 0 < bulk m1 -> 0 < bulk m2 ->
    hashin_shtrikman_walpole m1 m2 1 "lower" = Err ZeroDivisionError.
Proof. exact walpole_fluid_second_pure. Qed.
Print Assumptions C89_fluid_second_absent.

Example C89_nonvacuous : wf (sample 2 0 1) /\ wf (sample 37 44 3) /\ shear (sample 2 0 1) = 0.
Proof. split; [apply sample_wf; lra|]. split; [apply sample_wf; lra|]. reflexivity. Qed.
