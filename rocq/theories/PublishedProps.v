(** Properties C189-C192: the bounds and sandstone models are the published ones. *)
From Coq Require Import Reals Lra String.
From Verif Require Import Base BaseProofs MaterialModel Spec MaterialProofs HashinShtrikmanModel HashinShtrikmanProofs
  HashinShtrikmanProps SandstoneModel SandstoneProofs SandstoneProps PublishedSpec PublishedProofs.
Open Scope R_scope.

(** C189 *)
Theorem C189_lower :
  forall m1 m2 f, mixable false m1 m2 -> 0 <= f <= 1 ->
    exists m, hashin_shtrikman_walpole m1 m2 f "lower" = Ok m /\ lower_mixture f m1 m2 m.
Proof. exact walpole_lower. Qed.
Print Assumptions C189_lower.

Theorem C189_upper :
  forall m1 m2 f, mixable true m1 m2 -> 0 <= f <= 1 ->
    exists m, hashin_shtrikman_walpole m1 m2 f "upper" = Ok m /\ upper_mixture f m1 m2 m.
Proof. exact walpole_upper. Qed.
Print Assumptions C189_upper.

(** The bound with the first material as comparison medium. *)
Theorem C189_first :
  forall m1 m2 f, solid m1 -> wf m2 -> 0 <= f <= 1 ->
    exists m, hashin_shtrikman_bound m1 m2 f = Ok m /\ walpole_mixture (bulk m1) (shear m1) f m1 m2 m.
Proof. exact bound_mixture. Qed.
Print Assumptions C189_first.

(** The published equations have one solution. *)
Theorem C189_unique :
  forall km mum f m1 m2 m m', 0 <= km -> 0 < mum -> 0 <= f <= 1 -> wf m1 -> wf m2 ->
    walpole_mixture km mum f m1 m2 m -> walpole_mixture km mum f m1 m2 m' ->
    bulk m' = bulk m /\ shear m' = shear m /\ dens m' = dens m.
Proof. exact mixture_unique. Qed.
Print Assumptions C189_unique.

Example C189_nonvacuous :
  solid (sample 37000000000 44000000000 2650) /\
  mixable false (sample 37000000000 44000000000 2650) (sample 25000000000 9000000000 2550) /\
  mixable true (sample 37000000000 44000000000 2650) (sample 2500000000 0 1000) /\
  (exists m, lower_mixture (1 / 3) (sample 37000000000 44000000000 2650) (sample 25000000000 9000000000 2550) m).
Proof.
  destruct quartz_clay as [A [_ [B [_ C]]]]. split; [exact A|]. split; [exact B|]. split; [exact C|].
  destruct (walpole_lower _ _ (1 / 3) B ltac:(lra)) as [m [_ H]]. exists m. exact H.
Qed.

(** C190 *)
Theorem C190_friable :
  forall mineral phi c p n sr, grain_pack mineral c sr n -> 0 < c -> 0 <= phi <= c -> 0 < p ->
    exists s, friable_sand mineral phi c p n sr = Ok s /\ friable_mixture mineral phi c p n sr s.
Proof. exact friable_published. Qed.
Print Assumptions C190_friable.

(** With a pack softer than its mineral the comparison medium is the pack, as in the
    textbook. *)
Theorem C190_softer_pack :
  forall mineral phi c p n sr g s, grain_pack mineral c sr n -> 0 < c -> 0 <= phi <= c -> 0 < p ->
    hertz_mindlin mineral c p sr n = Ok g -> bulk g <= bulk mineral -> shear g <= shear mineral ->
    friable_sand mineral phi c p n sr = Ok s ->
    walpole_mixture (bulk g) (shear g) (1 - phi / c) mineral g s.
Proof. exact friable_classical. Qed.
Print Assumptions C190_softer_pack.

(** The pack itself, with any share of contacts that do not slip. *)
Theorem C190_pack :
  forall mineral phi p sr n, grain_pack mineral phi sr n -> 0 <= p ->
    exists g, hertz_mindlin mineral phi p sr n = Ok g /\ hertz_mindlin_pack mineral phi p sr n g.
Proof. exact hm_published. Qed.
Print Assumptions C190_pack.

Example C190_nonvacuous :
  grain_pack (sample 36800000000 44000000000 2650) (2 / 5) 1 9 /\ 0 <= 1 / 4 <= 2 / 5 /\
  exists p g, 0 < p /\
    hertz_mindlin (sample 36800000000 44000000000 2650) (2 / 5) p 1 9 = Ok g /\
    bulk g <= 36800000000 /\ shear g <= 44000000000.
Proof. split; [exact quartz_pack|]. split; [lra|]. exact C91_nonvacuous. Qed.

(** C191 *)
Theorem C191_constant_cement :
  forall sand cement phi c phi0 n sr,
    cementable cement sand c phi0 -> 0 < c -> 0 <= phi <= c -> 0 <= sr -> 0 < n ->
    exists r, constant_cement sand cement phi c phi0 n sr = Ok r /\ constant_mixture sand cement phi c phi0 n sr r.
Proof. exact constant_published. Qed.
Print Assumptions C191_constant_cement.

Example C191_nonvacuous :
  cementable (sample 76800000000 32000000000 2710) (sample 36800000000 44000000000 2650) (1 / 4) (2 / 5) /\
  0 <= 1 / 5 <= 1 / 4.
Proof. split; [apply quartz_calcite; lra|lra]. Qed.

(** C192 *)
Theorem C192_patchy_cement :
  forall sand cement phi c u p lp g sr nf nc,
    patchy_input sand cement phi c u g -> 0 < p -> 0 < lp -> 0 <= sr -> 0 < nf -> 0 < nc ->
    exists r, patchy_cement sand cement phi c u p lp g sr nf nc = Ok r /\
      patchy_mixture sand cement phi c u p lp g sr nf nc r.
Proof. exact patchy_published. Qed.
Print Assumptions C192_patchy_cement.

Example C192_nonvacuous :
  patchy_input (sample 36800000000 44000000000 2650) (sample 76800000000 32000000000 2710)
    (1 / 5) (35 / 100) (3 / 10) (2 / 5).
Proof. exact quartz_with_calcite. Qed.
