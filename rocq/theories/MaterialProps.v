(** Properties C01-C05 of Material. *)
From Verif Require Import Base MaterialModel Spec MaterialProofs.

(** C01: moduli -> velocities -> moduli loses nothing. *)
Theorem C01_moduli_roundtrip :
  forall k mu d m,
    mat_of_moduli k mu d = Ok m ->
    is_material m k mu d /\
    mat_of_velocities d (vp m) (vs m) = Ok m.
Proof. exact roundtrip_moduli_full. Qed.
Print Assumptions C01_moduli_roundtrip.

Theorem C01_velocities_roundtrip :
  forall d p s m,
    0 < d -> mat_of_velocities d p s = Ok m ->
    vp m = p /\ vs m = s /\ mat_of_moduli (bulk m) (shear m) d = Ok m.
Proof. exact roundtrip_velocities. Qed.
Print Assumptions C01_velocities_roundtrip.

Example C01_nonvacuous :
  is_ok (mat_of_moduli 36 44 2650) /\ is_ok (mat_of_velocities 2650 6 3).
Proof.
  split.
  - apply moduli_accept_iff; lra.
  - apply velocities_accept_iff; [lra|]. repeat split; try lra.
    replace 6 with (2 * 3) by lra. apply Rmult_le_compat_r; [lra|].
    rewrite <- (sqrt_square 2) by lra. apply sqrt_le_1_alt. lra.
Qed.

(** C02: whatever the arguments, a returned Material is admissible and keeps
    every attribute it was given. *)
Theorem C02_accepted_admissible :
  forall ok om od os op m,
    mk_material ok om od os op = Ok m -> admissible m.
Proof. exact admissible_of_ok. Qed.
Print Assumptions C02_accepted_admissible.

Theorem C02_accepted_keeps_arguments :
  forall ok om od os op m,
    mk_material ok om od os op = Ok m ->
    (forall x, ok = Some x -> bulk m = x) /\ (forall x, om = Some x -> shear m = x) /\
    (forall x, od = Some x -> dens m = x) /\ (forall x, os = Some x -> vs m = x) /\
    (forall x, op = Some x -> vp m = x).
Proof. exact mk_material_keeps. Qed.
Print Assumptions C02_accepted_keeps_arguments.

Example C02_nonvacuous : is_ok (mk_material (Some 2) (Some 0) (Some 1) None None).
Proof. apply (moduli_accept_iff 2 0 1); lra. Qed.

(** C03: exactly which data are accepted. *)
Theorem C03_moduli_accepted_iff :
  forall k mu d, 0 < d ->
    (is_ok (mat_of_moduli k mu d) <-> 0 <= k /\ 0 <= mu) /\
    (mat_of_moduli k mu d = Err ValueError <-> k < 0 \/ mu < 0).
Proof. exact (fun k mu d H => conj (moduli_accept_iff k mu d H) (moduli_reject_ve k mu d H)). Qed.
Print Assumptions C03_moduli_accepted_iff.

Theorem C03_velocities_accepted_iff :
  forall d p s, 0 <= d ->
    (is_ok (mat_of_velocities d p s) <-> 0 <= p /\ 0 <= s /\ sqrt (4 / 3) * s <= p) /\
    (mat_of_velocities d p s = Err ValueError <-> p < 0 \/ s < 0 \/ p < sqrt (4 / 3) * s).
Proof. exact (fun d p s H => conj (velocities_accept_iff d p s H) (velocities_reject_ve d p s H)). Qed.
Print Assumptions C03_velocities_accepted_iff.

Theorem C03_negative_density_rejected :
  forall ok om d os op, d < 0 -> mk_material ok om (Some d) os op = Err ValueError.
Proof. exact mk_material_negative_density_ve. Qed.
Print Assumptions C03_negative_density_rejected.

Theorem C03_missing_data_rejected :
  forall ok om od os op,
    (om = None /\ (os = None \/ od = None)) \/
    (om <> None /\ ok = None /\ (op = None \/ od = None)) \/
    (om <> None /\ ok <> None /\ od = None /\ (op = None \/ os = None)) ->
    mk_material ok om od os op = Err ValueError.
Proof. exact missing_data_ve. Qed.
Print Assumptions C03_missing_data_rejected.

Example C03_nonvacuous : 0 < 2650 /\ mat_of_moduli (-1) 0 2650 = Err ValueError.
Proof. split; [lra|]. apply (moduli_reject_ve (-1) 0 2650); lra. Qed.

(** C04: a configured material is *not* guarded (finding). *)
Theorem C04_config_material_admissible_refuted :
  exists ok om d os op m,
    arbitrary_material ok om d os op = Ok m /\ ~ admissible m /\
    mk_material ok om (Some d) os op = Err ValueError.
Proof. exact arbitrary_refuted. Qed.
Print Assumptions C04_config_material_admissible_refuted.

(** What does hold: wherever Material accepts, the configured material is the
    same. *)
Theorem C04_config_material_agrees :
  forall ok om d os op m,
    mk_material ok om (Some d) os op = Ok m -> arbitrary_material ok om d os op = Ok m.
Proof. exact arbitrary_agrees. Qed.
Print Assumptions C04_config_material_agrees.

(** C05: Poisson ratio and impedances. *)
Theorem C05_poisson :
  forall k mu d m,
    0 < k + mu -> mat_of_moduli k mu d = Ok m ->
    exists nu, poisson_ratio m = Ok nu /\ -1 <= nu <= 1 / 2 /\
      2 * (3 * k + mu) * nu = 3 * k - 2 * mu.
Proof. exact poisson_defined. Qed.
Print Assumptions C05_poisson.

Theorem C05_poisson_fluid :
  forall k d m, 0 < k -> mat_of_moduli k 0 d = Ok m -> poisson_ratio m = Ok (1 / 2).
Proof. exact poisson_fluid. Qed.
Print Assumptions C05_poisson_fluid.

Theorem C05_impedance :
  forall k mu d m,
    mat_of_moduli k mu d = Ok m ->
    acoustic_impedance m ^ 2 = dens m * primary_wave_modulus m /\
    shear_impedance m ^ 2 = dens m * shear m.
Proof. exact impedance_sq. Qed.
Print Assumptions C05_impedance.

Example C05_nonvacuous : 0 < 36 + 44 /\ is_ok (mat_of_moduli 36 44 2650).
Proof. split; [lra|]. apply moduli_accept_iff; lra. Qed.
