(** Properties C38-C48, C90-C96: sandstone models. *)
From Coq Require Import String List.
From Verif Require Import Base BaseProofs MaterialModel Spec MaterialProofs HashinShtrikmanModel HashinShtrikmanProofs SandstoneModel SandstoneProofs.
Open Scope R_scope.

(** A quartz grain pack, and quartz sand with calcite cement. *)
Example quartz_pack : grain_pack (sample 36800000000 44000000000 2650) (2 / 5) 1 9.
Proof. split; [apply quartz_solid|]. repeat split; lra. Qed.

Example quartz_with_calcite :
  patchy_input (sample 36800000000 44000000000 2650) (sample 76800000000 32000000000 2710)
    (1 / 5) (35 / 100) (3 / 10) (2 / 5).
Proof.
  split; [apply quartz_calcite; lra|]. split; [apply quartz_calcite; lra|]. repeat split; lra.
Qed.

(** C38 *)
Theorem C38_cube_root_law :
  forall mineral porosity sr n p l,
    grain_pack mineral porosity sr n -> 0 <= p -> 0 < l ->
    exists g g',
      hertz_mindlin mineral porosity p sr n = Ok g /\
      hertz_mindlin mineral porosity (l ^ 3 * p) sr n = Ok g' /\
      bulk g' = l * bulk g /\ shear g' = l * shear g /\ dens g' = dens g.
Proof. exact hm_cube_root. Qed.
Print Assumptions C38_cube_root_law.

Theorem C38_increasing_in_pressure :
  forall mineral porosity sr n p q,
    grain_pack mineral porosity sr n -> 0 <= p -> p < q ->
    exists g g',
      hertz_mindlin mineral porosity p sr n = Ok g /\
      hertz_mindlin mineral porosity q sr n = Ok g' /\
      bulk g < bulk g' /\ shear g < shear g' /\ (p = 0 -> bulk g = 0 /\ shear g = 0).
Proof. exact hm_pressure. Qed.
Print Assumptions C38_increasing_in_pressure.

Example C38_nonvacuous :
  grain_pack (sample 36800000000 44000000000 2650) (2 / 5) 1 9 /\ 0 <= 20000000 /\ 20000000 < 30000000.
Proof. split; [exact quartz_pack|lra]. Qed.

(** C39 *)
Theorem C39_density_and_shear_reduction :
  forall mineral porosity sr sr' n p,
    grain_pack mineral porosity sr n -> 0 <= p -> sr < sr' ->
    exists g g',
      hertz_mindlin mineral porosity p sr n = Ok g /\
      hertz_mindlin mineral porosity p sr' n = Ok g' /\
      dens g = dens mineral * (1 - porosity) /\ dens g' = dens g /\ bulk g' = bulk g /\
      shear g <= shear g' /\ (0 < p -> shear g < shear g').
Proof. exact hm_density_sr. Qed.
Print Assumptions C39_density_and_shear_reduction.

Example C39_nonvacuous :
  grain_pack (sample 36800000000 44000000000 2650) (2 / 5) (1 / 2) 9 /\ 1 / 2 < 1.
Proof. split; [split; [apply quartz_solid|]; repeat split; lra|lra]. Qed.

(** C40.  Proved for positive pressure; at zero pressure the pack has no
    stiffness and the code divides by zero for every mineral and porosity. *)
Theorem C40_friable_endpoints :
  forall mineral critical p n sr,
    grain_pack mineral critical sr n -> 0 < critical -> 0 < p ->
    friable_sand mineral 0 critical p n sr = Ok mineral /\
    friable_sand mineral critical critical p n sr = hertz_mindlin mineral critical p sr n.
Proof. exact friable_endpoints. Qed.
Print Assumptions C40_friable_endpoints.

Theorem C40_friable_density :
  forall mineral porosity critical p n sr,
    grain_pack mineral critical sr n -> 0 < critical -> 0 <= porosity <= critical -> 0 < p ->
    exists s, friable_sand mineral porosity critical p n sr = Ok s /\ solid s /\
      dens s = dens mineral * (1 - porosity).
Proof.
  intros m phi c p n sr G Hc Hphi Hp.
  destruct (friable_value m phi c p n sr G Hc Hphi Hp) as [g [s [_ [_ [_ [_ [E [S [_ [_ [_ [_ D]]]]]]]]]]]].
  exists s. auto.
Qed.
Print Assumptions C40_friable_density.

Theorem C40_zero_pressure :
  forall mineral porosity critical n sr,
    grain_pack mineral critical sr n -> 0 < critical -> 0 <= porosity <= critical ->
    friable_sand mineral porosity critical 0 n sr = Err ZeroDivisionError.
Proof. exact friable_zero_pressure. Qed.
Print Assumptions C40_zero_pressure.

Theorem C40_endpoints_refuted :
  exists mineral critical p n sr,
    grain_pack mineral critical sr n /\ 0 < critical /\ 0 <= p /\
    friable_sand mineral 0 critical p n sr <> Ok mineral /\
    friable_sand mineral critical critical p n sr <> hertz_mindlin mineral critical p sr n.
Proof.
  exists (sample 36800000000 44000000000 2650), (2 / 5), 0, 9, 1.
  split; [exact quartz_pack|]. split; [lra|]. split; [lra|].
  rewrite !friable_zero_pressure by (try exact quartz_pack; lra).
  split; [discriminate|].
  destruct (hm_value _ _ 0 _ _ quartz_pack ltac:(lra)) as [g [-> _]]. discriminate.
Qed.
Print Assumptions C40_endpoints_refuted.

Example C40_nonvacuous :
  grain_pack (sample 36800000000 44000000000 2650) (2 / 5) 1 9 /\ 0 < 2 / 5 /\ 0 <= 1 / 4 <= 2 / 5.
Proof. split; [exact quartz_pack|lra]. Qed.

(** C41 *)
Theorem C41_friable_between :
  forall mineral porosity critical p n sr,
    grain_pack mineral critical sr n -> 0 < critical -> 0 <= porosity <= critical -> 0 < p ->
    exists g s,
      hertz_mindlin mineral critical p sr n = Ok g /\
      friable_sand mineral porosity critical p n sr = Ok s /\
      between (bulk mineral) (bulk s) (bulk g) /\ between (shear mineral) (shear s) (shear g).
Proof.
  intros m phi c p n sr G Hc Hphi Hp.
  destruct (friable_value m phi c p n sr G Hc Hphi Hp) as [g [s [Eg [_ [_ [_ [E [_ [_ [_ [B1 [B2 _]]]]]]]]]]]].
  exists g, s. auto.
Qed.
Print Assumptions C41_friable_between.

Theorem C41_friable_pressure :
  forall mineral porosity critical p q n sr,
    grain_pack mineral critical sr n -> 0 < critical -> 0 <= porosity <= critical -> 0 < p -> p <= q ->
    exists s s',
      friable_sand mineral porosity critical p n sr = Ok s /\
      friable_sand mineral porosity critical q n sr = Ok s' /\
      bulk s <= bulk s' /\ shear s <= shear s'.
Proof. exact friable_pressure. Qed.
Print Assumptions C41_friable_pressure.

Example C41_nonvacuous :
  grain_pack (sample 36800000000 44000000000 2650) (2 / 5) 1 9 /\ 0 <= 1 / 4 <= 2 / 5 /\ 0 < 10000000 <= 20000000.
Proof. split; [exact quartz_pack|lra]. Qed.

(** C42 *)
Theorem C42_radius_ratio_range :
  forall cemented grain a,
    cement_radius_ratio cemented grain = Ok a -> 0 <= a <= 1 /\ (a = 0 <-> cemented = grain).
Proof. exact radius_range. Qed.
Print Assumptions C42_radius_ratio_range.

Theorem C42_radius_ratio_antitone :
  forall cemented cemented' grain a a',
    cemented <= cemented' ->
    cement_radius_ratio cemented grain = Ok a -> cement_radius_ratio cemented' grain = Ok a' -> a' <= a.
Proof. exact radius_antitone. Qed.
Print Assumptions C42_radius_ratio_antitone.

Theorem C42_radius_ratio_rejects :
  forall cemented grain,
    (cement_radius_ratio cemented grain = Err ValueError <->
       grain < 0 \/ 1 < grain \/ cemented < 0 \/ 1 < cemented \/ grain < cemented) /\
    (is_ok (cement_radius_ratio cemented grain) <-> 0 <= cemented <= grain /\ grain < 1).
Proof. exact radius_rejects. Qed.
Print Assumptions C42_radius_ratio_rejects.

(** The value is that of the paper's equation (2) whenever it is below one. *)
Theorem C42_radius_ratio_square :
  forall cemented grain a,
    cement_radius_ratio cemented grain = Ok a -> a < 1 -> a ^ 2 * (3 * (1 - grain)) = 2 * (grain - cemented).
Proof. exact radius_square. Qed.
Print Assumptions C42_radius_ratio_square.

Example C42_nonvacuous :
  exists a, cement_radius_ratio (1 / 4) (2 / 5) = Ok a /\ 0 < a < 1.
Proof.
  rewrite radius_value by lra. eexists. split; [reflexivity|].
  replace (2 * (2 / 5 - 1 / 4) / (3 * (1 - 2 / 5))) with (1 / 6) by lra.
  assert (0 < sqrt (1 / 6)) by (apply sqrt_lt_R0; lra).
  pose proof (sqrt_lt_1_alt (1 / 6) 1 ltac:(lra)) as Hl. rewrite sqrt_1 in Hl.
  rewrite Rmin_left by lra. lra.
Qed.

(** C43 *)
Theorem C43_contact_cement_rejects :
  forall cement mineral cemented sand sr n,
    sand < 0 \/ 1 < sand \/ cemented < 0 \/ 1 < cemented \/ sand < cemented ->
    contact_cement cement mineral cemented sand sr n = Err ValueError.
Proof. exact cc_rejects. Qed.
Print Assumptions C43_contact_cement_rejects.

(** Possible porosities are accepted if the cement is not too soft. *)
Theorem C43_contact_cement_accepts :
  forall cement mineral cemented sand sr n,
    cementable cement mineral cemented sand -> 0 <= sr -> 0 < n ->
    exists cc, contact_cement cement mineral cemented sand sr n = Ok cc /\ solid cc /\ 0 < bulk cc.
Proof.
  intros cement mineral c g sr n C Hs Hn.
  destruct (cc_value cement mineral c g sr n C Hs Hn) as [a [cc [_ [_ [E [S [B _]]]]]]].
  exists cc. auto.
Qed.
Print Assumptions C43_contact_cement_accepts.

Example C43_nonvacuous :
  cementable (sample 76800000000 32000000000 2710) (sample 36800000000 44000000000 2650) (1 / 4) (2 / 5).
Proof. apply quartz_calcite; lra. Qed.

(** C44, the full claim: [dens cc = (1 - sand) * dens mineral + (sand -
    cemented) * dens cement].  False: *)
Theorem C44_mass_refuted :
  exists cement mineral cemented sand cc,
    cementable cement mineral cemented sand /\
    contact_cement cement mineral cemented sand 1 9 = Ok cc /\
    dens cc > (1 - sand) * dens mineral + (sand - cemented) * dens cement.
Proof. exact cc_mass_refuted. Qed.
Print Assumptions C44_mass_refuted.

(** When it does hold. *)
Theorem C44_mass_characterised :
  forall cement mineral cemented sand sr n a cc,
    contact_cement cement mineral cemented sand sr n = Ok cc ->
    cement_radius_ratio cemented sand = Ok a ->
    (dens cc = (1 - sand) * dens mineral + (sand - cemented) * dens cement <->
     dens cement = dens mineral \/ a * (1 - cemented) = sand - cemented).
Proof. exact cc_mass. Qed.
Print Assumptions C44_mass_characterised.

Example C44_nonvacuous :
  exists cc, contact_cement (sample 36800000000 44000000000 2650) (sample 36800000000 44000000000 2650) (1 / 4) (2 / 5) 1 9 = Ok cc.
Proof.
  destruct (cc_value (sample 36800000000 44000000000 2650) (sample 36800000000 44000000000 2650) (1 / 4) (2 / 5) 1 9)
    as [a [cc [_ [_ [E _]]]]].
  - split; [apply quartz_solid|]. split; [apply quartz_solid|]. simpl. repeat split; lra.
  - lra.
  - lra.
  - exists cc. exact E.
Qed.

(** C45 *)
Theorem C45_constant_cement_ends :
  forall sand cement contact_porosity sand_porosity n sr,
    cementable cement sand contact_porosity sand_porosity -> 0 < contact_porosity -> 0 <= sr -> 0 < n ->
    constant_cement sand cement 0 contact_porosity sand_porosity n sr
      = hashin_shtrikman_walpole cement sand (sand_porosity - contact_porosity) "lower" /\
    constant_cement sand cement contact_porosity contact_porosity sand_porosity n sr
      = contact_cement cement sand contact_porosity sand_porosity sr n.
Proof. exact constant_endpoints. Qed.
Print Assumptions C45_constant_cement_ends.

Theorem C45_constant_cement_between :
  forall sand cement porosity contact_porosity sand_porosity n sr,
    cementable cement sand contact_porosity sand_porosity -> 0 < contact_porosity ->
    0 <= porosity <= contact_porosity -> 0 <= sr -> 0 < n ->
    exists d cc r,
      hashin_shtrikman_walpole cement sand (sand_porosity - contact_porosity) "lower" = Ok d /\
      contact_cement cement sand contact_porosity sand_porosity sr n = Ok cc /\
      constant_cement sand cement porosity contact_porosity sand_porosity n sr = Ok r /\ solid r /\
      between (bulk d) (bulk r) (bulk cc) /\ between (shear d) (shear r) (shear cc).
Proof.
  intros sand cement phi c g n sr C Hc Hphi Hs Hn.
  destruct (constant_value sand cement phi c g n sr C Hc Hphi Hs Hn)
    as [d [cc [r [Ed [_ [Ec [_ [Er [Sr [_ [B1 B2]]]]]]]]]]].
  exists d, cc, r. auto 10.
Qed.
Print Assumptions C45_constant_cement_between.

Example C45_nonvacuous :
  cementable (sample 76800000000 32000000000 2710) (sample 36800000000 44000000000 2650) (35 / 100) (2 / 5) /\
  0 < 35 / 100 /\ 0 <= 1 / 5 <= 35 / 100.
Proof. split; [apply quartz_calcite; lra|lra]. Qed.

(** C46 *)
Theorem C46_patchy_between :
  forall sand cement porosity contact_porosity upper_porosity p lower_p critical sr nf nc,
    patchy_input sand cement porosity contact_porosity upper_porosity critical ->
    0 < p -> 0 < lower_p -> 0 <= sr -> 0 < nf -> 0 < nc ->
    exists d fr up r,
      hashin_shtrikman_walpole cement sand (critical - upper_porosity) "lower" = Ok d /\
      friable_sand d porosity critical p nf sr = Ok fr /\
      constant_cement sand cement porosity upper_porosity critical nc sr = Ok up /\
      patchy_cement sand cement porosity contact_porosity upper_porosity p lower_p critical sr nf nc = Ok r /\
      solid r /\
      between (bulk fr) (bulk r) (bulk up) /\ between (shear fr) (shear r) (shear up) /\
      (contact_porosity = upper_porosity -> bulk r = bulk up /\ shear r = shear up).
Proof. exact patchy_between. Qed.
Print Assumptions C46_patchy_between.

Example C46_nonvacuous :
  patchy_input (sample 36800000000 44000000000 2650) (sample 76800000000 32000000000 2710)
    (1 / 5) (35 / 100) (3 / 10) (2 / 5).
Proof. exact quartz_with_calcite. Qed.

(** C47 *)
Theorem C47_patchy_density :
  forall sand cement porosity contact_porosity upper_porosity p lower_p critical sr nf nc r,
    patchy_cement sand cement porosity contact_porosity upper_porosity p lower_p critical sr nf nc = Ok r ->
    dens r = (1 - porosity - (critical - contact_porosity)) * dens sand
             + (critical - contact_porosity) * dens cement /\
    (dens cement = dens sand -> dens r = dens sand * (1 - porosity)).
Proof. exact patchy_density. Qed.
Print Assumptions C47_patchy_density.

Example C47_nonvacuous :
  exists r, patchy_cement (sample 36800000000 44000000000 2650) (sample 76800000000 32000000000 2710)
    (1 / 5) (35 / 100) (3 / 10) 20000000 10000000 (2 / 5) 1 9 9 = Ok r.
Proof.
  destruct (patchy_between _ _ _ _ _ 20000000 10000000 _ 1 9 9 quartz_with_calcite)
    as [d [fr [up [r [_ [_ [_ [E _]]]]]]]]; try lra. exists r. exact E.
Qed.

(** C48 *)
Theorem C48_murphy_positive : forall porosity, 0 < murphy_coordination_number porosity.
Proof. exact murphy_pos. Qed.
Print Assumptions C48_murphy_positive.

Theorem C48_murphy_decreasing :
  forall x y, 0 <= x -> x < y -> y <= 84 / 100 ->
    murphy_coordination_number y < murphy_coordination_number x.
Proof. exact murphy_decreasing. Qed.
Print Assumptions C48_murphy_decreasing.

(** Within 0.06 of every entry of Murphy's table (Rock Physics Handbook). *)
Theorem C48_murphy_table :
  Forall (fun row : R * R => Rabs (murphy_coordination_number (fst row) - snd row) < 6 / 100)
    [(20 / 100, 140070 / 10000); (25 / 100, 123360 / 10000); (30 / 100, 108430 / 10000); (35 / 100, 95078 / 10000); (40 / 100, 83147 / 10000); (45 / 100, 72517 / 10000); (50 / 100, 63108 / 10000); (55 / 100, 54878 / 10000); (60 / 100, 47826 / 10000); (65 / 100, 41988 / 10000); (70 / 100, 37440 / 10000)].
Proof.
  unfold murphy_coordination_number.
  repeat (apply Forall_cons; [simpl; apply Rabs_def1; lra|]). apply Forall_nil.
Qed.
Print Assumptions C48_murphy_table.

Example C48_nonvacuous : 0 <= 1 / 5 /\ 1 / 5 < 2 / 5 /\ 2 / 5 <= 84 / 100.
Proof. lra. Qed.

(** C90 *)
Theorem C90_handbook_formula :
  forall mineral porosity n p nu,
    grain_pack mineral porosity 1 n -> 0 <= p -> poisson_ratio mineral = Ok nu ->
    exists g, hertz_mindlin mineral porosity p 1 n = Ok g /\
      bulk g ^ 3 = n ^ 2 * (1 - porosity) ^ 2 * shear mineral ^ 2 / (18 * PI ^ 2 * (1 - nu) ^ 2) * p /\
      shear g ^ 3 = ((5 - 4 * nu) / (5 * (2 - nu))) ^ 3 *
        (3 * n ^ 2 * (1 - porosity) ^ 2 * shear mineral ^ 2 / (2 * PI ^ 2 * (1 - nu) ^ 2) * p).
Proof. exact hm_handbook. Qed.
Print Assumptions C90_handbook_formula.

Example C90_nonvacuous :
  grain_pack (sample 36800000000 44000000000 2650) (2 / 5) 1 9 /\
  is_ok (poisson_ratio (sample 36800000000 44000000000 2650)).
Proof. split; [exact quartz_pack|]. eexists. apply (nu_ok _ quartz_solid). Qed.

(** C91 *)
Theorem C91_friable_softens_with_porosity :
  forall mineral porosity porosity' critical p n sr g,
    grain_pack mineral critical sr n -> 0 < critical ->
    0 <= porosity -> porosity <= porosity' -> porosity' <= critical -> 0 < p ->
    hertz_mindlin mineral critical p sr n = Ok g -> bulk g <= bulk mineral -> shear g <= shear mineral ->
    exists s s',
      friable_sand mineral porosity critical p n sr = Ok s /\
      friable_sand mineral porosity' critical p n sr = Ok s' /\
      bulk s' <= bulk s /\ shear s' <= shear s /\ dens s' <= dens s.
Proof. exact friable_porosity. Qed.
Print Assumptions C91_friable_softens_with_porosity.

(** A pack that is softer than its mineral: any, at low enough pressure. *)
Example C91_nonvacuous :
  exists p g, 0 < p /\
    hertz_mindlin (sample 36800000000 44000000000 2650) (2 / 5) p 1 9 = Ok g /\
    bulk g <= 36800000000 /\ shear g <= 44000000000.
Proof.
  destruct (hm_pressure (sample 36800000000 44000000000 2650) (2 / 5) 1 9 0 1 quartz_pack ltac:(lra) ltac:(lra))
    as [g00 [g [_ [E [B [S _]]]]]].
  destruct (hm_value (sample 36800000000 44000000000 2650) (2 / 5) 1 1 9 quartz_pack ltac:(lra))
    as [g' [E' [[_ [K [M _]]] _]]].
  assert (g' = g) by congruence. subst g'.
  pose (x := 1 + bulk g + shear g).
  assert (Hx : 0 < x) by (unfold x; lra).
  destruct (hm_cube_root (sample 36800000000 44000000000 2650) (2 / 5) 1 9 1 (/ x) quartz_pack ltac:(lra)
     (Rinv_0_lt_compat x Hx)) as [g0 [g1 [E0 [E1 [Hb [Hs _]]]]]].
  assert (g0 = g) by congruence. subst g0.
  exists ((/ x) ^ 3 * 1), g1. split.
  { rewrite Rmult_1_r. apply pow_lt, Rinv_0_lt_compat, Hx. }
  split; [exact E1|]. rewrite Hb, Hs.
  assert (Hi : / x * x = 1) by (field; lra).
  assert (0 < / x) by (apply Rinv_0_lt_compat; exact Hx).
  unfold x in *. split; nra.
Qed.

(** C92 *)
Theorem C92_patchy_pressure :
  forall sand cement porosity contact_porosity upper_porosity p q lower_p critical sr nf nc,
    patchy_input sand cement porosity contact_porosity upper_porosity critical ->
    0 < p -> p <= q -> 0 < lower_p -> 0 <= sr -> 0 < nf -> 0 < nc ->
    exists r r',
      patchy_cement sand cement porosity contact_porosity upper_porosity p lower_p critical sr nf nc = Ok r /\
      patchy_cement sand cement porosity contact_porosity upper_porosity q lower_p critical sr nf nc = Ok r' /\
      bulk r <= bulk r' /\ shear r <= shear r' /\ dens r = dens r'.
Proof. exact patchy_pressure. Qed.
Print Assumptions C92_patchy_pressure.

Example C92_nonvacuous :
  patchy_input (sample 36800000000 44000000000 2650) (sample 76800000000 32000000000 2710)
    (1 / 5) (35 / 100) (3 / 10) (2 / 5) /\ 0 < 10000000 <= 20000000.
Proof. split; [exact quartz_with_calcite|lra]. Qed.

(** C93 *)
Theorem C93_patchy_at_lower_pressure :
  forall sand cement porosity contact_porosity upper_porosity p critical sr nf nc,
    patchy_input sand cement porosity contact_porosity upper_porosity critical ->
    0 < p -> 0 <= sr -> 0 < nf -> 0 < nc ->
    exists d lo up ct cst r,
      hashin_shtrikman_walpole cement sand (critical - upper_porosity) "lower" = Ok d /\
      friable_sand d porosity critical p nf sr = Ok lo /\
      constant_cement sand cement porosity upper_porosity critical nc sr = Ok up /\
      contact_cement cement sand contact_porosity critical sr nc = Ok ct /\
      hashin_shtrikman_walpole d ct (1 - porosity / contact_porosity) "lower" = Ok cst /\
      patchy_cement sand cement porosity contact_porosity upper_porosity p p critical sr nf nc = Ok r /\
      (bulk lo <= bulk cst <= bulk up -> bulk r = bulk cst) /\
      (shear lo <= shear cst <= shear up -> shear r = shear cst).
Proof. exact patchy_reproduces. Qed.
Print Assumptions C93_patchy_at_lower_pressure.

Example C93_nonvacuous :
  patchy_input (sample 36800000000 44000000000 2650) (sample 76800000000 32000000000 2710)
    (1 / 5) (35 / 100) (3 / 10) (2 / 5) /\ 0 < 10000000.
Proof. split; [exact quartz_with_calcite|lra]. Qed.

(** C94 *)
Theorem C94_frictionless_pack :
  forall mineral porosity n p,
    grain_pack mineral porosity 0 n -> 0 < p ->
    exists g, hertz_mindlin mineral porosity p 0 n = Ok g /\
      shear g = 3 / 5 * bulk g /\ poisson_ratio g = Ok (1 / 4).
Proof. exact hm_frictionless. Qed.
Print Assumptions C94_frictionless_pack.

Theorem C94_frictionless_cement :
  forall cement sand cemented porosity n,
    cementable cement sand cemented porosity -> 0 < n ->
    exists cc, contact_cement cement sand cemented porosity 0 n = Ok cc /\
      shear cc = 3 / 5 * bulk cc /\ poisson_ratio cc = Ok (1 / 4).
Proof. exact cc_frictionless. Qed.
Print Assumptions C94_frictionless_cement.

Example C94_nonvacuous :
  grain_pack (sample 36800000000 44000000000 2650) (2 / 5) 0 9 /\
  cementable (sample 76800000000 32000000000 2710) (sample 36800000000 44000000000 2650) (1 / 4) (2 / 5).
Proof. split; [split; [apply quartz_solid|]; repeat split; lra|apply quartz_calcite; lra]. Qed.

(** C95: equations (1)-(3) and appendix A of Dvorkin and Nur. *)
Theorem C95_published_contact_cement :
  forall cement sand cemented porosity sr n alpha v vc cc,
    solid cement -> solid sand ->
    cement_radius_ratio cemented porosity = Ok alpha ->
    poisson_ratio sand = Ok v -> poisson_ratio cement = Ok vc ->
    contact_cement cement sand cemented porosity sr n = Ok cc ->
    let Ln := 2 * shear cement / (PI * shear sand) * ((1 - v) * (1 - vc) / (1 - 2 * vc)) in
    let Lt := shear cement / (PI * shear sand) in
    let Sn := - (24153 / 1000000) * Rpower Ln (- (13646 / 10000)) * alpha ^ 2
              + 20405 / 100000 * Rpower Ln (- (89008 / 100000)) * alpha
              + 24649 / 100000000 * Rpower Ln (- (19864 / 10000)) in
    let St := - (1 / 100) * (226 / 100 * v ^ 2 + 207 / 100 * v + 23 / 10)
                * Rpower Lt (79 / 1000 * v ^ 2 + 1754 / 10000 * v - 1342 / 1000) * alpha ^ 2
              + (573 / 10000 * v ^ 2 + 937 / 10000 * v + 202 / 1000)
                * Rpower Lt (274 / 10000 * v ^ 2 + 529 / 10000 * v - 8765 / 10000) * alpha
              + 1 / 10000 * (9654 / 1000 * v ^ 2 + 4945 / 1000 * v + 31 / 10)
                * Rpower Lt (1867 / 100000 * v ^ 2 + 4011 / 10000 * v - 18186 / 10000) in
    bulk cc = n * (1 - porosity) / 6 * (bulk cement + 4 / 3 * shear cement) * Sn /\
    shear cc = 3 / 5 * bulk cc + sr * (3 * n * (1 - porosity) / 20 * shear cement * St).
Proof. exact cc_published. Qed.
Print Assumptions C95_published_contact_cement.

Example C95_nonvacuous :
  exists cc alpha,
    contact_cement (sample 76800000000 32000000000 2710) (sample 36800000000 44000000000 2650) (1 / 4) (2 / 5) 1 9 = Ok cc /\
    cement_radius_ratio (1 / 4) (2 / 5) = Ok alpha.
Proof.
  destruct (cc_value (sample 76800000000 32000000000 2710) (sample 36800000000 44000000000 2650) (1 / 4) (2 / 5) 1 9
    ltac:(apply quartz_calcite; lra) ltac:(lra) ltac:(lra)) as [a [cc [Ea [_ [E _]]]]].
  exists cc, a. auto.
Qed.

(** C96: no number in these models depends on the unit of stiffness. *)
Theorem C96_unit_of_stiffness_walpole :
  forall l upper m1 m2 m1' m2' f,
    0 < l -> mixable upper m1 m2 -> scaled l m1 m1' -> scaled l m2 m2' -> 0 <= f <= 1 ->
    exists r r',
      hashin_shtrikman_walpole m1 m2 f (bound_name upper) = Ok r /\
      hashin_shtrikman_walpole m1' m2' f (bound_name upper) = Ok r' /\ scaled l r r'.
Proof. exact walpole_scaled. Qed.
Print Assumptions C96_unit_of_stiffness_walpole.

Theorem C96_unit_of_stiffness_friable :
  forall l m m' porosity critical p n sr,
    0 < l -> grain_pack m critical sr n -> scaled l m m' -> 0 < critical ->
    0 <= porosity <= critical -> 0 < p ->
    exists s s',
      friable_sand m porosity critical p n sr = Ok s /\
      friable_sand m' porosity critical (l * p) n sr = Ok s' /\ scaled l s s'.
Proof. exact friable_scaled. Qed.
Print Assumptions C96_unit_of_stiffness_friable.

Theorem C96_unit_of_stiffness_patchy :
  forall l cement sand cement' sand' porosity contact_porosity upper_porosity p lower_p critical sr nf nc,
    0 < l -> patchy_input sand cement porosity contact_porosity upper_porosity critical ->
    scaled l cement cement' -> scaled l sand sand' ->
    0 < p -> 0 < lower_p -> 0 <= sr -> 0 < nf -> 0 < nc ->
    exists r r',
      patchy_cement sand cement porosity contact_porosity upper_porosity p lower_p critical sr nf nc = Ok r /\
      patchy_cement sand' cement' porosity contact_porosity upper_porosity (l * p) (l * lower_p) critical sr nf nc = Ok r' /\
      scaled l r r'.
Proof. exact patchy_scaled. Qed.
Print Assumptions C96_unit_of_stiffness_patchy.

Example C96_nonvacuous :
  scaled (1 / 1000000000) (sample 36800000000 44000000000 2650) (sample (368 / 10) 44 2650).
Proof. split; [apply sample_wf; lra|]. simpl. repeat split; lra. Qed.
