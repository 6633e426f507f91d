(** Sand in double precision. *)
From Coq Require Import Reals Lra Lia ZArith String.
From Verif Require Import Base BaseProofs MaterialModel MainModel HashinShtrikmanProofs Spec PublishedSpec PublishedProofs.
From Verif Require Import FloatModel FloatSpec FloatProofs FloatPolySpec FloatBoundsSpec FloatBoundsProofs FloatSandModel FloatSandSpec FloatSandProofs FloatFriableProofs FloatBoundsModel FloatVelocityProofs.
Open Scope R_scope.

(** C233: a pack of grains after Hertz and Mindlin in double precision is
    calculated without an exception; its density, moduli and velocities are within
    2^-42 of the published equations. *)
Theorem C233_hertz_mindlin : forall root pw m phi p sr n pack,
  good_root root -> good_power pw ->
  0 <= bulk m -> 0 < shear m -> 0 < dens m -> 0 <= phi < 1 -> 0 <= p -> 0 <= sr -> 0 < n ->
  moderate (bulk m) -> moderate (shear m) -> moderate (dens m) ->
  moderate (1 - phi) -> moderate p -> moderate sr -> moderate n ->
  hertz_mindlin_pack m phi p sr n pack ->
  exists g, f_hertz_mindlin root pw m phi p sr n = Ok g /\
    within (/ 2 ^ 42) (bulk pack) (bulk g) /\ within (/ 2 ^ 42) (shear pack) (shear g) /\ within (/ 2 ^ 42) (dens pack) (dens g) /\
    within (/ 2 ^ 42) (sqrt ((bulk pack + 4 / 3 * shear pack) / dens pack)) (vp g) /\
    within (/ 2 ^ 42) (sqrt (shear pack / dens pack)) (vs g).
Proof. exact f_hm_published. Qed.
Print Assumptions C233_hertz_mindlin.
Example C233_nonvacuous : exists pack, let m := mkMat (37 * 10 ^ 9) (44 * 10 ^ 9) 2650 0 0 in
  good_root fl_sqrt /\ good_power (fun x y => fl (Rpower x y)) /\
  moderate (bulk m) /\ moderate (shear m) /\ moderate (dens m) /\
  moderate (1 - 4 / 10) /\ moderate (20 * 10 ^ 6) /\ moderate 1 /\ moderate 9 /\
  hertz_mindlin_pack m (4 / 10) (20 * 10 ^ 6) 1 9 pack.
Proof.
  set (m := mkMat (37 * 10 ^ 9) (44 * 10 ^ 9) 2650 0 0).
  assert (G : grain_pack (exact m) (4 / 10) 1 9) by (split; [apply exact_solid; unfold m; cbn [bulk shear dens]; lra|lra]).
  destruct (hm_published (exact m) (4 / 10) (20 * 10 ^ 6) 1 9 G ltac:(lra)) as (g & _ & P). exists g. cbv zeta.
  split; [exact fl_sqrt_good|]. split; [exact nearest_power_good|].
  assert (M : forall x, / 1000 <= x <= 10 ^ 12 -> moderate x).
  { intros x H. right. rewrite Rabs_pos_eq by lra. rewrite !pow_IZR in *. simpl Z.pow in *. lra. }
  repeat (split; [apply M; unfold m; cbn [bulk shear dens]; lra|]). exact P.
Qed.

(** C234: friable sand in double precision.  When the moduli and the density of
    the mineral and of the pack at critical porosity differ at most by the factor k
    (up to 2^39), it is calculated without an exception; density and moduli are
    within k 2^-42 of the published equations and velocities within k 2^-40. *)
Theorem C234_friable_sand : forall root inv pw m phi c p n sr k pack s,
  good_root root -> good_inverse inv -> good_power pw ->
  double (bulk m) -> double (shear m) -> double (dens m) ->
  0 < bulk m -> 0 < shear m -> 0 < dens m -> 0 < c < 1 -> 0 <= phi <= c -> 0 <= p -> 0 <= sr -> 0 < n ->
  moderate (bulk m) -> moderate (shear m) -> moderate (dens m) -> moderate phi -> moderate c ->
  moderate (1 - c) -> moderate p -> moderate sr -> moderate n ->
  hertz_mindlin_pack m c p sr n pack -> lower_mixture (1 - phi / c) m pack s -> 0 < bulk s -> 0 < shear s ->
  1 <= k <= 2 ^ 39 -> contrast k (bulk m) (bulk pack) -> contrast k (shear m) (shear pack) -> contrast k (dens m) (dens pack) ->
  Rmax (shear m) (shear pack) <= 2 ^ 43 * Rmin (bulk m) (bulk pack) ->
  exists r, f_friable_sand root inv pw m phi c p n sr = Ok r /\
    within (k / 2 ^ 42) (bulk s) (bulk r) /\ within (k / 2 ^ 42) (shear s) (shear r) /\ within (k / 2 ^ 42) (dens s) (dens r) /\
    within (k / 2 ^ 40) (sqrt ((bulk s + 4 / 3 * shear s) / dens s)) (vp r) /\
    within (k / 2 ^ 40) (sqrt (shear s / dens s)) (vs r).
Proof. exact f_friable_full. Qed.
Print Assumptions C234_friable_sand.
Example C234_nonvacuous : exists pack s, let m := mkMat 2 3 2 0 0 in
  good_root fl_sqrt /\ good_inverse (fun x => fl (/ x)) /\ good_power (fun x y => fl (Rpower x y)) /\
  double (bulk m) /\ double (shear m) /\ double (dens m) /\
  moderate (bulk m) /\ moderate (shear m) /\ moderate (dens m) /\ moderate (1 / 4) /\ moderate (1 / 2) /\
  moderate (1 - 1 / 2) /\ moderate 1 /\ moderate 9 /\
  hertz_mindlin_pack m (1 / 2) 1 1 9 pack /\ lower_mixture (1 - 1 / 4 / (1 / 2)) m pack s /\ 0 < bulk s /\ 0 < shear s /\
  contrast 4 (bulk m) (bulk pack) /\ contrast 4 (shear m) (shear pack) /\ contrast 4 (dens m) (dens pack) /\
  Rmax (shear m) (shear pack) <= 2 ^ 43 * Rmin (bulk m) (bulk pack).
Proof.
  set (m := mkMat 2 3 2 0 0).
  assert (G : grain_pack (exact m) (1 / 2) 1 9) by (split; [apply exact_solid; unfold m; cbn [bulk shear dens]; lra|lra]).
  destruct (hm_published (exact m) (1 / 2) 1 1 9 G ltac:(lra)) as (g & _ & P).
  pose proof P as (A & B & C). unfold poisson, exact, m in A, B, C. cbn [bulk shear dens] in A, B, C.
  pose proof PI_4 as P4. pose proof PI2_3_2 as P3. assert (PP : 9 <= PI * PI <= 16) by nra.
  assert (I : / 16 <= / (PI * PI) <= / 9) by (split; apply Rinv_le_contravar; lra).
  replace (9 ^ 2 * (1 - 1 / 2) ^ 2 * 3 ^ 2 * 1 / (18 * PI ^ 2 * (1 - (3 * 2 - 2 * 3) / (2 * (3 * 2 + 3))) ^ 2)) with (81 / 8 * / (PI * PI)) in A by (field; lra).
  replace ((2 - (3 * 2 - 2 * 3) / (2 * (3 * 2 + 3)) + 3 * 1 * (1 - (3 * 2 - 2 * 3) / (2 * (3 * 2 + 3)))) ^ 3 *
    (3 * 9 ^ 2 * (1 - 1 / 2) ^ 2 * 3 ^ 2 * 1 / (2 * PI ^ 2 * (1 - (3 * 2 - 2 * 3) / (2 * (3 * 2 + 3))) ^ 2)))
    with (125 * (2187 / 8) * / (PI * PI)) in B by (field; lra).
  replace (5 * (2 - (3 * 2 - 2 * 3) / (2 * (3 * 2 + 3))) * shear g) with (10 * shear g) in B by field.
  assert (Kl : 1 / 2 <= bulk g). { destruct (Rle_lt_dec 0 (bulk g)) as [N|N]; [apply cube_le; [exact N|rewrite A; simpl; lra]|].
    exfalso. assert (bulk g ^ 3 < 0); [|lra]. simpl. rewrite Rmult_1_r. assert (0 < bulk g * bulk g) by nra. nra. }
  assert (Kh : bulk g <= 2) by (apply cube_le; [lra|rewrite A; simpl; lra]).
  assert (Sl : 10 <= 10 * shear g). { destruct (Rle_lt_dec 0 (10 * shear g)) as [N|N]; [apply cube_le; [exact N|rewrite B; simpl; lra]|].
    exfalso. assert ((10 * shear g) ^ 3 < 0); [|lra]. simpl. rewrite Rmult_1_r. assert (0 < 10 * shear g * (10 * shear g)) by nra. nra. }
  assert (Sh : 10 * shear g <= 30) by (apply cube_le; [lra|rewrite B; simpl; lra]).
  assert (M1 : Rmin (shear m) (shear g) = shear g) by (unfold m; cbn [shear]; apply Rmin_right; lra).
  assert (M2 : Rmin (bulk m) (bulk g) = bulk g) by (unfold m; cbn [bulk]; apply Rmin_right; lra).
  assert (Q : 1 - 1 / 4 / (1 / 2) = 1 / 2) by field.
  pose proof (zeta_pos (bulk g) (shear g) ltac:(lra) ltac:(lra)) as Z.
  exists g, (mkMat (hs (1 / 2) 2 (bulk g) (4 / 3 * shear g)) (hs (1 / 2) 3 (shear g) (zeta (bulk g) (shear g))) (1 / 2 * 2 + (1 - 1 / 2) * dens g) 0 0).
  cbv zeta. split; [exact fl_sqrt_good|]. split; [exact fl_inv_good|]. split; [exact nearest_power_good|].
  split; [apply (double_int 2); reflexivity|]. split; [apply (double_int 3); reflexivity|]. split; [apply (double_int 2); reflexivity|].
  assert (M : forall x, / 1000 <= x <= 10 ^ 12 -> moderate x).
  { intros x H. right. rewrite Rabs_pos_eq by lra. rewrite !pow_IZR in *. simpl Z.pow in *. lra. }
  split; [apply M; unfold m; cbn [bulk]; lra|]. split; [apply M; unfold m; cbn [shear]; lra|]. split; [apply M; unfold m; cbn [dens]; lra|].
  do 5 (split; [apply M; lra|]). split; [exact P|]. split.
  { unfold lower_mixture, walpole_mixture. cbv zeta. rewrite Q, M1, M2. unfold m. cbn [bulk shear dens].
    split; [apply hs_equation; lra|]. split; [|reflexivity].
    replace (shear g / 6 * ((9 * bulk g + 8 * shear g) / (bulk g + 2 * shear g))) with (zeta (bulk g) (shear g)) by (unfold zeta; field; lra).
    apply hs_equation; lra. }
  cbn [bulk shear].
  assert (B1 : between 2 (hs (1 / 2) 2 (bulk g) (4 / 3 * shear g)) (bulk g)) by (apply hs_between; lra).
  assert (B2 : between 3 (hs (1 / 2) 3 (shear g) (zeta (bulk g) (shear g))) (shear g)) by (apply hs_between; lra).
  unfold between in B1, B2. rewrite Rmin_right in B1, B2 by lra.
  split; [lra|]. split; [lra|]. unfold contrast. rewrite M2. unfold m. cbn [bulk shear dens]. rewrite C.
  split; [lra|]. split; [lra|]. split; [lra|]. rewrite Rmax_left by lra. rewrite pow_IZR. simpl Z.pow. lra.
Qed.

(** C235: the velocities of the bounds of C194 are within c 2^-45 of those that
    follow from the published equations. *)
Theorem C235_bound_velocities : forall root inv m1 m2 f c bound mix,
  good_root root -> good_inverse inv -> ordinary_material m1 -> ordinary_material m2 ->
  double f -> ordinary f -> f <= 1 ->
  1 <= c <= 2 ^ 40 -> contrast c (bulk m1) (bulk m2) -> contrast c (shear m1) (shear m2) ->
  Rmax (shear m1) (shear m2) <= 2 ^ 45 * Rmin (bulk m1) (bulk m2) ->
  (bound = "lower"%string /\ lower_mixture f m1 m2 mix) \/ (bound = "upper"%string /\ upper_mixture f m1 m2 mix) ->
  0 < bulk mix -> 0 < shear mix ->
  exists m, f_walpole root inv m1 m2 f bound = Ok m /\
    within (c / 2 ^ 45) (sqrt ((bulk mix + 4 / 3 * shear mix) / dens mix)) (vp m) /\
    within (c / 2 ^ 45) (sqrt (shear mix / dens mix)) (vs m).
Proof. exact walpole_velocities. Qed.
Print Assumptions C235_bound_velocities.
Example C235_nonvacuous : exists m1 m2 mix, ordinary_material m1 /\ ordinary_material m2 /\ double (1 / 2) /\ ordinary (1 / 2) /\
  contrast 2 (bulk m1) (bulk m2) /\ contrast 2 (shear m1) (shear m2) /\
  Rmax (shear m1) (shear m2) <= 2 ^ 45 * Rmin (bulk m1) (bulk m2) /\
  upper_mixture (1 / 2) m1 m2 mix /\ 0 < bulk mix /\ 0 < shear mix /\ good_inverse (fun x => fl (/ x)).
Proof.
  assert (Z : forall z : Z, (0 < z < 1000)%Z -> double (IZR z) /\ ordinary (IZR z) /\ 0 < IZR z).
  { intros z H. split; [apply double_int; lia|]. assert (1 <= IZR z <= 1000) by (split; apply IZR_le; lia).
    split; [|lra]. apply ordinary_range. rewrite !pow_IZR. simpl Z.pow. lra. }
  exists (mkMat 36 12 2 0 0), (mkMat 24 12 3 0 0), (mkMat (672 / 23) 12 (5 / 2) 0 0).
  destruct (Z 36%Z ltac:(lia)) as [A1 [A2 A3]]. destruct (Z 24%Z ltac:(lia)) as [B1 [B2 B3]].
  destruct (Z 12%Z ltac:(lia)) as [C1 [C2 C3]]. destruct (Z 2%Z ltac:(lia)) as [D1 [D2 D3]]. destruct (Z 3%Z ltac:(lia)) as [E1 [E2 E3]].
  unfold ordinary_material, contrast, upper_mixture, walpole_mixture. cbn [bulk shear dens].
  rewrite (Rmin_right 36 24), (Rmax_left 36 24), (Rmax_left 12 12) by lra.
  split; [intuition|]. split; [intuition|]. split; [exists 1%Z, (-1)%Z; split; [reflexivity|split; [lia|simpl; lra]]|].
  split; [apply ordinary_range; rewrite !pow_IZR; simpl Z.pow; lra|]. split; [lra|]. split; [lra|].
  split; [rewrite pow_IZR; simpl Z.pow; lra|]. split; [|split; [lra|split; [lra|exact fl_inv_good]]].
  split; [field|]. split; [field|field].
Qed.
