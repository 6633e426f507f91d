(** Properties C06-C21: fluid mixing and fluid substitution. *)
From Coq Require Import Permutation.
From Verif Require Import Base BaseProofs MaterialModel Spec MaterialProofs FluidModel FluidProofs GassmannProofs.

(** Brine, oil and gas in Pa and kg/m3, and a call mixing them. *)
Example three_fluids :
  usable [sample 2500000000 0 1000; sample 1300000000 0 800; sample 50000000 0 200] /\
  saturation_input [sample 2500000000 0 1000; sample 1300000000 0 800; sample 50000000 0 200]
    [5 / 10; 3 / 10; 2 / 10].
Proof.
  split.
  - repeat (apply usable_cons; [apply sample_fluid; lra|simpl; lra|]). apply usable_nil.
  - split; [reflexivity|]. split; [repeat constructor; lra|simpl; lra].
Qed.

(** C06 *)
Theorem C06_wood_between :
  forall fluids sats,
    usable fluids -> saturation_input fluids sats ->
    exists m, wood_fluid_mixing fluids sats = Ok m /\ fluid m /\
      (forall lo, all_ge lo (map bulk fluids) -> lo <= bulk m) /\
      (forall hi, all_le hi (map bulk fluids) -> bulk m <= hi) /\
      (forall lo, all_ge lo (map dens fluids) -> lo <= dens m) /\
      (forall hi, all_le hi (map dens fluids) -> dens m <= hi).
Proof. exact wood_between. Qed.
Print Assumptions C06_wood_between.

(** All saturations zero: softer and denser than every constituent. *)
Theorem C06_wood_between_zero_total_refuted :
  exists fluids sats m,
    usable fluids /\ length sats = length fluids /\ Forall (fun s => s = 0) sats /\
    wood_fluid_mixing fluids sats = Ok m /\
    (forall f, In f fluids -> bulk m < bulk f) /\
    (forall f, In f fluids -> dens f < dens m).
Proof. exact wood_zero_refuted. Qed.
Print Assumptions C06_wood_between_zero_total_refuted.

(** A positive total below 1e-15: stiffer and lighter than every constituent. *)
Theorem C06_wood_between_tiny_total_refuted :
  exists fluids sats m,
    usable fluids /\ saturation_input fluids (map (fun s => 10 ^ 16 * s) sats) /\
    wood_fluid_mixing fluids sats = Ok m /\
    (forall f, In f fluids -> bulk f < bulk m) /\
    (forall f, In f fluids -> dens m < dens f).
Proof. exact wood_tiny_refuted. Qed.
Print Assumptions C06_wood_between_tiny_total_refuted.

(** C07 *)
Theorem C07_wood_order :
  forall f1 s1 f2 s2,
    length f1 = length s1 -> length f2 = length s2 ->
    Permutation (combine f1 s1) (combine f2 s2) ->
    wood_fluid_mixing f1 s1 = wood_fluid_mixing f2 s2.
Proof. exact wood_perm. Qed.
Print Assumptions C07_wood_order.

Theorem C07_wood_scale :
  forall fluids s c,
    0 < c -> 1 / 10 ^ 15 <= rsum s -> 1 / 10 ^ 15 <= c * rsum s ->
    wood_fluid_mixing fluids (map (fun x => c * x) s) = wood_fluid_mixing fluids s.
Proof. exact wood_scale. Qed.
Print Assumptions C07_wood_scale.

Example C07_nonvacuous :
  let f := sample 2 0 1 in let g := sample 1 0 1 in
  Permutation (combine [f; g] [1 / 4; 3 / 4]) (combine [g; f] [3 / 4; 1 / 4]) /\
  1 / 10 ^ 15 <= rsum [1 / 4; 3 / 4] /\ 1 / 10 ^ 15 <= 100 * rsum [1 / 4; 3 / 4].
Proof. split; [apply perm_swap|]. simpl; lra. Qed.

(** C08 *)
Theorem C08_wood_conserves :
  forall fluids sats,
    usable fluids -> saturation_input fluids sats ->
    exists m, wood_fluid_mixing fluids sats = Ok m /\
      dens m * rsum sats = wsum sats (map dens fluids) /\
      rsum sats / bulk m = wsum sats (map (fun f => 1 / bulk f) fluids) /\
      shear m = 0.
Proof. exact wood_conserves. Qed.
Print Assumptions C08_wood_conserves.

Theorem C08_wood_pure :
  forall f s,
    fluid f -> 0 < bulk f -> 1 / 10 ^ 15 <= s -> wood_fluid_mixing [f] [s] = Ok f.
Proof. exact wood_pure. Qed.
Print Assumptions C08_wood_pure.

Theorem C08_wood_drop_zero :
  forall f fs ss,
    bulk f <> 0 -> 1 / 10 ^ 15 <= rsum ss -> length fs = length ss ->
    wood_fluid_mixing (f :: fs) (0 :: ss) = wood_fluid_mixing fs ss.
Proof. exact wood_drop_zero. Qed.
Print Assumptions C08_wood_drop_zero.

Example C08_nonvacuous :
  fluid (sample 2 0 1) /\ 0 < bulk (sample 2 0 1) /\ 1 / 10 ^ 15 <= rsum [1 / 4; 3 / 4] /\
  1 / 10 ^ 15 <= 1.
Proof. split; [apply sample_fluid; lra|]. simpl; lra. Qed.

(** C09: exactly when the normalised saturations sum to one. *)
Theorem C09_saturations_sum_to_one_iff :
  forall s,
    rsum (sum_saturations_to_one s) = 1 <->
    1 / 10 ^ 15 <= rsum s \/ (rsum s <= 0 /\ length s = 1%nat).
Proof. exact sats_sum_one_iff. Qed.
Print Assumptions C09_saturations_sum_to_one_iff.

Theorem C09_saturations_sum_to_one_refuted :
  exists s, Forall (fun x => 0 <= x) s /\ s <> [] /\ rsum (sum_saturations_to_one s) <> 1.
Proof. exact saturations_refuted. Qed.
Print Assumptions C09_saturations_sum_to_one_refuted.

(** C10 *)
Theorem C10_wood_mismatched_lengths_refuted :
  exists fluids sats m,
    usable fluids /\ length sats <> length fluids /\ rsum sats = 1 /\
    wood_fluid_mixing fluids sats = Ok m.
Proof. exact wood_mismatch_refuted. Qed.
Print Assumptions C10_wood_mismatched_lengths_refuted.

(** C11 *)
Theorem C11_brie_between :
  forall fluids s gases sg e liquid gas,
    fluids <> [] -> gases <> [] ->
    length fluids = length s -> length gases = length sg ->
    wood_fluid_mixing fluids s = Ok liquid -> wood_fluid_mixing gases sg = Ok gas ->
    0 <= rsum s <= 1 -> 0 < e ->
    exists m, brie_fluid_mixing fluids s gases sg e = Ok m /\ fluid m /\
      between (bulk gas) (bulk m) (bulk liquid) /\
      between (dens gas) (dens m) (dens liquid) /\
      (rsum s = 0 -> m = gas) /\ (rsum s = 1 -> m = liquid).
Proof. exact brie_between. Qed.
Print Assumptions C11_brie_between.

Theorem C11_brie_grows_with_liquid :
  forall fluids s s' gases sg sg' e liquid gas m m',
    fluids <> [] -> gases <> [] ->
    wood_fluid_mixing fluids s = Ok liquid -> wood_fluid_mixing fluids s' = Ok liquid ->
    wood_fluid_mixing gases sg = Ok gas -> wood_fluid_mixing gases sg' = Ok gas ->
    0 <= rsum s -> rsum s <= rsum s' -> rsum s' <= 1 -> 0 < e ->
    brie_fluid_mixing fluids s gases sg e = Ok m ->
    brie_fluid_mixing fluids s' gases sg' e = Ok m' ->
    (bulk gas <= bulk liquid -> bulk m <= bulk m') /\
    (bulk liquid <= bulk gas -> bulk m' <= bulk m) /\
    (dens gas <= dens liquid -> dens m <= dens m') /\
    (dens liquid <= dens gas -> dens m' <= dens m).
Proof. exact brie_mono. Qed.
Print Assumptions C11_brie_grows_with_liquid.

(** The law itself, as published: K = (K_l - K_g) S_l^e + K_g. *)
Theorem C11_brie_law :
  forall fluids s gases sg e liquid gas m,
    fluids <> [] -> gases <> [] ->
    wood_fluid_mixing fluids s = Ok liquid -> wood_fluid_mixing gases sg = Ok gas ->
    0 < rsum s ->
    brie_fluid_mixing fluids s gases sg e = Ok m ->
    bulk m = (bulk liquid - bulk gas) * Rpower (rsum s) e + bulk gas /\
    dens m = rsum s * dens liquid + (1 - rsum s) * dens gas /\ shear m = 0.
Proof. exact brie_law. Qed.
Print Assumptions C11_brie_law.

Example C11_nonvacuous :
  wood_fluid_mixing [sample 3 0 3] [1 / 4] = Ok (sample 3 0 3) /\
  wood_fluid_mixing [sample 3 0 3] [1 / 2] = Ok (sample 3 0 3) /\
  wood_fluid_mixing [sample 1 0 1] [3 / 4] = Ok (sample 1 0 1) /\
  wood_fluid_mixing [sample 1 0 1] [1 / 2] = Ok (sample 1 0 1) /\
  is_ok (brie_fluid_mixing [sample 3 0 3] [1 / 4] [sample 1 0 1] [3 / 4] 3) /\
  is_ok (brie_fluid_mixing [sample 3 0 3] [1 / 2] [sample 1 0 1] [1 / 2] 3).
Proof.
  assert (W : forall k x, 0 < k -> 1 / 10 ^ 15 <= x -> wood_fluid_mixing [sample k 0 k] [x] = Ok (sample k 0 k)).
  { intros. apply wood_pure; [apply sample_fluid; lra|simpl; lra|assumption]. }
  assert (B : forall x y, 1 / 10 ^ 15 <= x <= 1 -> 1 / 10 ^ 15 <= y ->
    is_ok (brie_fluid_mixing [sample 3 0 3] [x] [sample 1 0 1] [y] 3)).
  { intros x y Hx Hy.
    destruct (brie_between [sample 3 0 3] [x] [sample 1 0 1] [y] 3 (sample 3 0 3) (sample 1 0 1))
      as [m [E _]]; try discriminate; try reflexivity; try (apply W; lra); try (simpl; lra).
    exists m. exact E. }
  repeat split; first [apply W; lra|apply B; lra].
Qed.

(** C12 *)
Theorem C12_brie_rejects_and_degenerates :
  forall fluids s gases sg e,
    (length fluids <> length s -> brie_fluid_mixing fluids s gases sg e = Err ValueError) /\
    (length gases <> length sg -> brie_fluid_mixing fluids s gases sg e = Err ValueError) /\
    (fluids = [] -> gases = [] -> brie_fluid_mixing fluids s gases sg e = Err ValueError) /\
    (length fluids = length s -> brie_fluid_mixing fluids s [] [] e =
       match fluids with [] => Err ValueError | _ => wood_fluid_mixing fluids s end) /\
    (length gases = length sg -> brie_fluid_mixing [] [] gases sg e =
       match gases with [] => Err ValueError | _ => wood_fluid_mixing gases sg end).
Proof. exact brie_rejects. Qed.
Print Assumptions C12_brie_rejects_and_degenerates.

(** Nothing else is rejected: usable fluids, proper saturations. *)
Theorem C12_brie_accepts :
  forall fluids s gases sg e,
    usable fluids -> usable gases ->
    saturation_input fluids s -> saturation_input gases sg ->
    rsum s <= 1 -> 0 < e ->
    is_ok (brie_fluid_mixing fluids s gases sg e).
Proof. exact brie_accepts. Qed.
Print Assumptions C12_brie_accepts.

(** C13 *)
Theorem C13_brie_mass :
  forall fluids s gases sg e m,
    usable fluids -> usable gases ->
    saturation_input fluids s -> saturation_input gases sg ->
    rsum s + rsum sg = 1 -> 0 < e ->
    brie_fluid_mixing fluids s gases sg e = Ok m ->
    dens m = wsum s (map dens fluids) + wsum sg (map dens gases).
Proof. exact brie_mass. Qed.
Print Assumptions C13_brie_mass.

Example C12_C13_nonvacuous :
  usable [sample 3 0 3] /\ usable [sample 1 0 1] /\
  saturation_input [sample 3 0 3] [1 / 4] /\ saturation_input [sample 1 0 1] [3 / 4] /\
  rsum [1 / 4] + rsum [3 / 4] = 1.
Proof.
  split; [apply usable_cons; [apply sample_fluid; lra|simpl; lra|apply usable_nil]|].
  split; [apply usable_cons; [apply sample_fluid; lra|simpl; lra|apply usable_nil]|].
  unfold saturation_input. repeat split; try (repeat constructor); simpl; lra.
Qed.

(** C14 *)
Theorem C14_brie_scale_refuted :
  exists l g m1 m2,
    usable [l] /\ usable [g] /\
    brie_fluid_mixing [l] [1 / 4] [g] [1 / 4] 1 = Ok m1 /\
    brie_fluid_mixing [l] [1 / 2] [g] [1 / 2] 1 = Ok m2 /\
    bulk m1 < bulk m2 /\ dens m1 < dens m2.
Proof. exact brie_scale_refuted. Qed.
Print Assumptions C14_brie_scale_refuted.

(** C15 *)
Theorem C15_gassmann :
  forall dry mineral fl phi m,
    fluid_substitution dry mineral fl phi = Ok m ->
    0 < bulk mineral -> phi <> 0 -> bulk dry <> bulk mineral ->
    bulk m <> bulk mineral /\ bulk fl <> bulk mineral /\
    bulk m / (bulk mineral - bulk m) =
      bulk dry / (bulk mineral - bulk dry) + bulk fl / (phi * (bulk mineral - bulk fl)).
Proof. exact gassmann_eq. Qed.
Print Assumptions C15_gassmann.

(** C16 *)
Theorem C16_saturated_between :
  forall dry mineral fl phi,
    wf dry -> wf mineral -> wf fl ->
    bulk dry < bulk mineral -> bulk fl < bulk mineral -> 0 < phi ->
    exists m, fluid_substitution dry mineral fl phi = Ok m /\
              bulk dry <= bulk m < bulk mineral /\ (bulk m = bulk dry <-> bulk fl = 0).
Proof. exact substitution_between. Qed.
Print Assumptions C16_saturated_between.

Example C15_C16_nonvacuous :
  let dry := sample 12000000000 9000000000 2000 in
  let mineral := sample 37000000000 44000000000 2650 in
  let fl := sample 2500000000 0 1000 in
  wf dry /\ wf mineral /\ wf fl /\ bulk dry < bulk mineral /\ bulk fl < bulk mineral /\
  is_ok (fluid_substitution dry mineral fl (2 / 10)).
Proof.
  intros dry mineral fl.
  assert (Wd : wf dry) by (apply sample_wf; lra).
  assert (Wm : wf mineral) by (apply sample_wf; lra).
  assert (Wf : wf fl) by (apply sample_wf; lra).
  repeat (split; [first [assumption|simpl; lra]|]).
  destruct (substitution_between dry mineral fl (2 / 10)) as [m [E _]];
    try assumption; try (simpl; lra).
  exists m. exact E.
Qed.

(** C17 *)
Theorem C17_increasing_in_fluid :
  forall dry mineral f1 f2 phi m1 m2,
    wf dry -> wf mineral -> wf f1 -> wf f2 ->
    bulk dry < bulk mineral -> bulk f2 < bulk mineral -> 0 < phi ->
    fluid_substitution dry mineral f1 phi = Ok m1 ->
    fluid_substitution dry mineral f2 phi = Ok m2 ->
    bulk f1 < bulk f2 -> bulk m1 < bulk m2.
Proof. exact substitution_mono_fluid. Qed.
Print Assumptions C17_increasing_in_fluid.

Theorem C17_increasing_in_dry :
  forall d1 d2 mineral fl phi m1 m2,
    wf d1 -> wf d2 -> wf mineral -> wf fl ->
    bulk d2 < bulk mineral -> bulk fl < bulk mineral -> 0 < phi ->
    fluid_substitution d1 mineral fl phi = Ok m1 ->
    fluid_substitution d2 mineral fl phi = Ok m2 ->
    bulk d1 < bulk d2 -> bulk m1 < bulk m2.
Proof. exact substitution_mono_dry. Qed.
Print Assumptions C17_increasing_in_dry.

Theorem C17_decreasing_in_porosity :
  forall dry mineral fl p1 p2 m1 m2,
    wf dry -> wf mineral -> wf fl ->
    bulk dry < bulk mineral -> bulk fl < bulk mineral -> 0 < p1 -> p1 <= p2 ->
    fluid_substitution dry mineral fl p1 = Ok m1 ->
    fluid_substitution dry mineral fl p2 = Ok m2 ->
    bulk m2 <= bulk m1.
Proof. exact substitution_mono_porosity. Qed.
Print Assumptions C17_decreasing_in_porosity.

Example C17_nonvacuous :
  forall kf phi, 0 <= kf < 37 -> 0 < phi ->
    is_ok (fluid_substitution (sample 12 9 2) (sample 37 44 3) (sample kf 0 1) phi) /\
    is_ok (fluid_substitution (sample 13 9 2) (sample 37 44 3) (sample kf 0 1) phi).
Proof.
  intros kf phi H1 H2. split.
  - destruct (substitution_between (sample 12 9 2) (sample 37 44 3) (sample kf 0 1) phi) as [m [E _]];
      try (apply sample_wf; lra); try (simpl; lra). exists m; exact E.
  - destruct (substitution_between (sample 13 9 2) (sample 37 44 3) (sample kf 0 1) phi) as [m [E _]];
      try (apply sample_wf; lra); try (simpl; lra). exists m; exact E.
Qed.

(** C18 *)
Theorem C18_dense_rock_ignores_fluid :
  forall dry mineral fl phi,
    wf dry -> wf mineral -> wf fl -> 0 <= phi ->
    phi = 0 \/ bulk dry = bulk mineral ->
    exists m, fluid_substitution dry mineral fl phi = Ok m /\ bulk m = bulk mineral.
Proof. exact substitution_dense_ok. Qed.
Print Assumptions C18_dense_rock_ignores_fluid.

Example C18_nonvacuous :
  wf (sample 12 9 2) /\ wf (sample 37 44 3) /\ wf (sample 2 0 1).
Proof. repeat split; try (apply sample_wf; lra); simpl; lra. Qed.

(** C19 *)
Theorem C19_shear_and_density :
  forall dry mineral fl phi m,
    fluid_substitution dry mineral fl phi = Ok m ->
    shear m = shear dry /\ dens m = dens dry + phi * dens fl /\ admissible m.
Proof. exact substitution_shear_density. Qed.
Print Assumptions C19_shear_and_density.

(** C20 *)
Theorem C20_outcomes :
  forall dry mineral fl phi,
    wf dry -> wf mineral -> wf fl -> 0 < dens dry + phi * dens fl ->
    phi <> 0 -> bulk dry <> bulk mineral ->
    let df := bulk dry / (bulk mineral - bulk dry) +
              bulk fl / ((bulk mineral - bulk fl) * phi) in
    (fluid_substitution dry mineral fl phi = Err ZeroDivisionError <-> bulk fl = bulk mineral) /\
    (fluid_substitution dry mineral fl phi = Err ValueError <->
       bulk fl <> bulk mineral /\ df < 0) /\
    (is_ok (fluid_substitution dry mineral fl phi) <->
       bulk fl <> bulk mineral /\ 0 <= df).
Proof. exact substitution_cases. Qed.
Print Assumptions C20_outcomes.

Theorem C20_stiff_fluid :
  forall dry mineral fl phi,
    wf dry -> wf mineral -> wf fl -> 0 < phi ->
    bulk dry < bulk mineral -> bulk mineral < bulk fl ->
    (fluid_substitution dry mineral fl phi = Err ValueError <->
     phi * bulk dry * (bulk fl - bulk mineral) < bulk fl * (bulk mineral - bulk dry)).
Proof. exact stiff_fluid_rejected. Qed.
Print Assumptions C20_stiff_fluid.

Theorem C20_negative_porosity :
  forall dry mineral fl phi,
    wf dry -> wf mineral -> wf fl -> phi < 0 -> 0 < dens dry + phi * dens fl ->
    bulk dry < bulk mineral -> bulk fl < bulk mineral ->
    (fluid_substitution dry mineral fl phi = Err ValueError <->
     - phi * bulk dry * (bulk mineral - bulk fl) < bulk fl * (bulk mineral - bulk dry)).
Proof. exact negative_porosity_rejected. Qed.
Print Assumptions C20_negative_porosity.

Example C20_nonvacuous :
  fluid_substitution (sample 12 9 2) (sample 37 44 3) (sample 40 0 1) (2 / 10) = Err ValueError /\
  fluid_substitution (sample 12 9 2) (sample 37 44 3) (sample 37 0 1) (2 / 10) = Err ZeroDivisionError /\
  fluid_substitution (sample 12 9 2) (sample 37 44 3) (sample 2 0 1) (- (1 / 10)) = Err ValueError /\
  is_ok (fluid_substitution (sample 12 9 2) (sample 37 44 3) (sample 2 0 1) (- (2 / 10))).
Proof.
  split; [apply stiff_fluid_rejected; try (apply sample_wf; lra); simpl; lra|].
  split; [apply substitution_cases; try (apply sample_wf; lra); simpl; lra|].
  split; [apply negative_porosity_rejected; try (apply sample_wf; lra); simpl; lra|].
  destruct (substitution_cases (sample 12 9 2) (sample 37 44 3) (sample 2 0 1) (- (2 / 10))) as [_ [_ H]];
    try (apply sample_wf; lra); try (simpl; lra).
  apply H. simpl. split; [lra|]. replace ((37 - 2) * - (2 / 10)) with (-7) by lra. lra.
Qed.

(** C21 *)
Theorem C21_fluid_determined :
  forall dry mineral f1 f2 phi m1 m2,
    wf dry -> wf mineral -> wf f1 -> wf f2 ->
    bulk dry < bulk mineral -> bulk f1 < bulk mineral -> bulk f2 < bulk mineral -> 0 < phi ->
    fluid_substitution dry mineral f1 phi = Ok m1 ->
    fluid_substitution dry mineral f2 phi = Ok m2 ->
    bulk m1 = bulk m2 -> bulk f1 = bulk f2.
Proof. exact substitution_injective. Qed.
Print Assumptions C21_fluid_determined.

Theorem C21_resaturation :
  forall d1 d2 mineral fA fB phi mA1 mA2 mB1 mB2,
    wf d1 -> wf d2 -> wf mineral -> wf fA ->
    bulk d1 < bulk mineral -> bulk d2 < bulk mineral ->
    bulk fA < bulk mineral -> 0 < phi ->
    fluid_substitution d1 mineral fA phi = Ok mA1 ->
    fluid_substitution d2 mineral fA phi = Ok mA2 ->
    mA1 = mA2 ->
    fluid_substitution d1 mineral fB phi = Ok mB1 ->
    fluid_substitution d2 mineral fB phi = Ok mB2 ->
    mB1 = mB2.
Proof. exact resaturation. Qed.
Print Assumptions C21_resaturation.

(** C87: a rock "stiffer than its mineral" is accepted and comes out softer
    than it went in. *)
Theorem C87_never_softer_than_dry_refuted :
  exists dry mineral fl phi m,
    wf dry /\ wf mineral /\ wf fl /\ 0 < phi < 1 /\
    fluid_substitution dry mineral fl phi = Ok m /\ bulk m < bulk dry.
Proof. exact softer_than_dry_refuted. Qed.
Print Assumptions C87_never_softer_than_dry_refuted.
