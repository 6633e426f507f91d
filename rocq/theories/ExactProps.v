(** What remains true of claims refuted elsewhere: exactly when they hold, or
    what happens instead. *)
From Coq Require Import String List ZArith Lra Lia.
From Flocq Require Import Core.
From Verif Require Import Base BaseProofs MaterialModel Spec MaterialProofs FluidModel GassmannProofs FluidProofs
  MineralsModel FluidsModel FluidsSpec FluidsProofs BatzleWangModel BatzleWangProofs ConfigModel InputModel MainModel MainSpec MainProofs MainProps
  RowModel SpanWagnerModel SpanWagnerArrayModel ExactProofs.
Import ListNotations.
Open Scope R_scope.

(** C10: surplus fluids are left out without notice; a surplus saturation makes
    the mixture stiffer and lighter in proportion to what is missing. *)
Theorem C10_extra_fluids : forall fluids sats,
  wood_fluid_mixing fluids sats = wood_fluid_mixing (firstn (length sats) fluids) sats.
Proof. exact wood_extra_fluids. Qed.
Print Assumptions C10_extra_fluids.
Example C10_extra_fluids_nonvacuous :
  wood_fluid_mixing [sample 2 0 1; sample 1 0 1] [1] = Ok (sample 2 0 1).
Proof. rewrite C10_extra_fluids. cbn [length firstn]. apply wood_pure; [apply sample_fluid; lra|cbn; lra|lra]. Qed.

Theorem C10_extra_saturations : forall fluids s1 s2,
  usable fluids -> saturation_input fluids s1 -> Forall (fun x => 0 <= x) s2 ->
  exists m0 m, wood_fluid_mixing fluids s1 = Ok m0 /\ wood_fluid_mixing fluids (s1 ++ s2) = Ok m /\
    bulk m * rsum s1 = bulk m0 * rsum (s1 ++ s2) /\ dens m * rsum (s1 ++ s2) = dens m0 * rsum s1.
Proof. exact wood_extra_saturations. Qed.
Print Assumptions C10_extra_saturations.
Example C10_extra_saturations_nonvacuous : exists m,
  wood_fluid_mixing [sample 2 0 1] [1 / 4; 3 / 4] = Ok m /\ bulk m = 8 /\ dens m = 1 / 4.
Proof.
  destruct (C10_extra_saturations [sample 2 0 1] [1 / 4] [3 / 4]) as (m0 & m & E0 & E & K & D).
  - apply usable_cons; [apply sample_fluid; lra|cbn; lra|apply usable_nil].
  - repeat split; try (repeat constructor); cbn; lra.
  - repeat constructor; lra.
  - rewrite wood_pure in E0; [|apply sample_fluid; lra|cbn; lra|lra]. injection E0 as <-.
    exists m. split; [exact E|]. cbn in K, D. split; lra.
Qed.

(** C14: the gas saturations matter only relative to each other; the total of
    the liquid saturations is what weighs liquid against gas. *)
Theorem C14_gas_scale : forall fluids s gases sg e c,
  0 < c -> 1 / 10 ^ 15 <= rsum sg -> 1 / 10 ^ 15 <= c * rsum sg ->
  brie_fluid_mixing fluids s gases (map (fun x => c * x) sg) e = brie_fluid_mixing fluids s gases sg e.
Proof. exact brie_gas_scale. Qed.
Print Assumptions C14_gas_scale.
Example C14_gas_scale_nonvacuous : forall l g,
  brie_fluid_mixing [l] [1 / 4] [g] [2 * (1 / 4)] 1 = brie_fluid_mixing [l] [1 / 4] [g] [1 / 4] 1.
Proof. intros l g. apply (C14_gas_scale [l] [1 / 4] [g] [1 / 4] 1 2); cbn; lra. Qed.

Theorem C14_liquid_scale : forall fluids s gases sg e c liquid gas m,
  fluids <> [] -> gases <> [] -> length fluids = length s -> length gases = length sg ->
  wood_fluid_mixing fluids s = Ok liquid -> wood_fluid_mixing gases sg = Ok gas ->
  0 < c -> 1 / 10 ^ 15 <= rsum s -> 1 / 10 ^ 15 <= c * rsum s ->
  brie_fluid_mixing fluids (map (fun x => c * x) s) gases sg e = Ok m ->
  bulk m = bulk gas + (bulk liquid - bulk gas) * Rpower (c * rsum s) e /\
  dens m = dens gas + (dens liquid - dens gas) * (c * rsum s).
Proof. exact brie_liquid_scale. Qed.
Print Assumptions C14_liquid_scale.
Example C14_liquid_scale_nonvacuous : exists m,
  brie_fluid_mixing [sample 3 0 2] (map (fun x => 2 * x) [1 / 4]) [sample 1 0 1] [1 / 2] 1 = Ok m /\ bulk m = 2 /\ dens m = 3 / 2.
Proof.
  assert (W1 : wood_fluid_mixing [sample 3 0 2] [1 / 4] = Ok (sample 3 0 2))
    by (apply wood_pure; [apply sample_fluid; lra|cbn; lra|lra]).
  assert (W1' : wood_fluid_mixing [sample 3 0 2] (map (fun x => 2 * x) [1 / 4]) = Ok (sample 3 0 2))
    by (rewrite wood_scale; [exact W1|lra|cbn; lra|cbn; lra]).
  assert (W2 : wood_fluid_mixing [sample 1 0 1] [1 / 2] = Ok (sample 1 0 1))
    by (apply wood_pure; [apply sample_fluid; lra|cbn; lra|lra]).
  destruct (brie_between [sample 3 0 2] (map (fun x => 2 * x) [1 / 4]) [sample 1 0 1] [1 / 2] 1 (sample 3 0 2) (sample 1 0 1))
    as (m & E & _); try discriminate; try reflexivity; try assumption; [cbn; lra|lra|].
  exists m. split; [exact E|].
  destruct (C14_liquid_scale [sample 3 0 2] [1 / 4] [sample 1 0 1] [1 / 2] 1 2 (sample 3 0 2) (sample 1 0 1) m)
    as [K D]; try discriminate; try reflexivity; try assumption; try lra; try (cbn; lra).
  rewrite K, D. cbn. rewrite Rpower_1 by lra. split; lra.
Qed.

(** C50: there is no pore pressure exactly when the fluid pressure is null and
    the rock pressure null or absent; every use of it is then a TypeError. *)
Theorem C50_exactly : forall o r fl mx rk p, make_pressure o r fl mx rk = Ok p ->
  (p_fluid p = None <-> fl = Null /\ (rk = Null \/ rk = Absent)) /\
  (p_rock p = None <-> fl = Null /\ (rk = Null \/ rk = Absent)).
Proof. exact pressure_exactly. Qed.
Print Assumptions C50_exactly.
Example C50_exactly_nonvacuous : exists p, make_pressure Absent Absent Null Absent (Given 10) = Ok p /\
  p_fluid p <> None /\ p_rock p <> None.
Proof. eexists. split; [reflexivity|]. split; discriminate. Qed.

Theorem C50_unusable : forall p, p_fluid p = None -> p_rock p = None ->
  truncated_fluid p = Err TypeError /\ truncated_rock p = Err TypeError.
Proof. exact no_pore_pressure_everywhere. Qed.
Print Assumptions C50_unusable.
Example C50_unusable_nonvacuous : exists p, make_pressure Absent Absent Null Absent Null = Ok p /\
  truncated_fluid p = Err TypeError /\ truncated_rock p = Err TypeError.
Proof. eexists. split; [reflexivity|]. apply C50_unusable; reflexivity. Qed.

(** C57: polyfit, expfit and logfit always take the fitted values for bulk and
    shear modulus; for velocity coefficients that is right only when the values
    happen to solve the equations between velocities and moduli. *)
Theorem C57_values : forall md p phi mn d a b,
  match md with Polyfit _ | Expfit _ | Logfit _ => True | _ => False end ->
  eval_model md p phi mn = Ok (d, a, b) -> model_eval_material md p phi mn = mat_of_moduli a b d.
Proof. exact fit_values. Qed.
Print Assumptions C57_values.

Theorem C57_velocities : forall md p phi mn d a b m m',
  match md with Polyfit _ | Expfit _ | Logfit _ => True | _ => False end ->
  eval_model md p phi mn = Ok (d, a, b) ->
  mat_of_velocities d a b = Ok m -> model_eval_material md p phi mn = Ok m' ->
  (bulk m' = bulk m /\ shear m' = shear m <-> a = d * (a ^ 2 - 4 / 3 * b ^ 2) /\ b = d * b ^ 2).
Proof. exact fit_velocities. Qed.
Print Assumptions C57_velocities.
Example C57_values_nonvacuous : exists c, uses_moduli c = false /\
  eval_model (Polyfit c) 1 (1 / 4) (sample 1 1 1) = Ok (1, 3, 1) /\
  is_ok (mat_of_velocities 1 3 1) /\ is_ok (model_eval_material (Polyfit c) 1 (1 / 4) (sample 1 1 1)).
Proof.
  exists (mkCoef Velocity (Some [1]) (Some [3]) (Some [1])). split; [reflexivity|].
  assert (EV : eval_model (Polyfit (mkCoef Velocity (Some [1]) (Some [3]) (Some [1]))) 1 (1 / 4) (sample 1 1 1) = Ok (1, 3, 1)).
  { cbn [eval_model c_density c_primary c_secondary coefficient_rows length Nat.eqb andb bind three polyfit_row np_polyval fold_left].
    repeat f_equal; ring. }
  split; [exact EV|]. split.
  - destruct (mat_of_velocities_cases 1 3 1) as [[_ [X|[X|X]]]|(_ & _ & _ & X)]; try lra; [|eexists; exact X].
    assert (sqrt (4 / 3) <= sqrt 4) by (apply sqrt_le_1_alt; lra).
    replace 4 with (2 * 2) in H at 2 by ring. rewrite sqrt_square in H by lra. lra.
  - rewrite (C57_values (Polyfit _) _ _ _ _ _ _ I EV). destruct (mat_of_moduli_spec 3 1 1) as (m & E & _); try lra. exists m. exact E.
Qed.

(** C87: the saturated rock is at least as stiff as the dry one exactly when
    the dry rock is as stiff as the mineral, or both dry rock and fluid are
    softer than it. *)
Theorem C87_exactly : forall dry mineral fl phi m, fluid_substitution dry mineral fl phi = Ok m ->
  wf dry -> wf mineral -> wf fl -> 0 < phi ->
  (bulk dry <= bulk m <-> bulk dry = bulk mineral \/ bulk dry < bulk mineral /\ bulk fl < bulk mineral).
Proof. exact softer_exactly. Qed.
Print Assumptions C87_exactly.
Example C87_exactly_nonvacuous : exists m, fluid_substitution (sample 4 1 2) (sample 10 4 3) (sample 2 0 1) (1 / 4) = Ok m /\
  4 <= bulk m.
Proof.
  assert (W1 : wf (sample 4 1 2)) by (apply sample_wf; lra). assert (W2 : wf (sample 10 4 3)) by (apply sample_wf; lra).
  assert (W3 : wf (sample 2 0 1)) by (apply sample_wf; lra).
  destruct (substitution_gass (sample 4 1 2) (sample 10 4 3) (sample 2 0 1) (1 / 4)) as (m & E & _); try assumption; try (cbn; lra).
  exists m. split; [exact E|]. apply (C87_exactly _ _ _ _ _ E); try assumption; cbn; lra.
Qed.

(** C105: which failures to read the files are reported as input errors. *)
Theorem C105_config : forall (Row Inp Out : Type) (p : program Row Inp Out) e, foreign p -> yaml_load p = Raise e ->
  exists c, run p None = Ret (c, None) /\ (c = (-2)%Z <-> e = YAMLError) /\ (c = (-1)%Z <-> e <> YAMLError).
Proof. intros Row Inp Out. exact config_code. Qed.
Print Assumptions C105_config.
Theorem C105_data : forall (Row Inp Out : Type) (p : program Row Inp Out) items e,
  foreign p -> config_is p items -> csv_read p = Some (Raise e) ->
  exists c, run p None = Ret (c, None) /\ (c = (-2)%Z <-> e = ParserError \/ e = EmptyDataError) /\
    (c = (-1)%Z <-> e <> ParserError /\ e <> EmptyDataError).
Proof. intros Row Inp Out. exact data_code. Qed.
Print Assumptions C105_data.
Example C105_nonvacuous : exists p q : program bool bool bool,
  foreign p /\ yaml_load p = Raise YAMLError /\ foreign q /\ config_is q [] /\ csv_read q = Some (Raise EmptyDataError).
Proof.
  exists (mkProgram bool bool bool (Raise YAMLError) None (fun _ _ => Ret true) (fun _ => Ret []) (fun _ => Ret tt) None),
         (mkProgram bool bool bool (Ret (VDict [])) (Some (Raise EmptyDataError)) (fun _ _ => Ret true) (fun _ => Ret []) (fun _ => Ret tt) None).
  repeat split; discriminate.
Qed.

(** C106: what is written is the rows that succeeded, in order; the failing
    ones are missing from it. *)
Theorem C106_written : forall (Row Inp Out : Type) (p : program Row Inp Out) items rows rs f t c w,
  config_is p items -> data_is p (Some rows) -> rows_give p items rows rs f -> run p (Some t) = Ret (c, Some w) ->
  w = concat rs /\ ((forall inp r, calculate p inp = Ret r -> length r = 1%nat) -> (length w + f = length rows)%nat).
Proof. intros Row Inp Out. exact written_rows. Qed.
Print Assumptions C106_written.
Example C106_written_nonvacuous : let l := [true; false; true] in
  config_is (flags l) [] /\ data_is (flags l) (Some l) /\ rows_give (flags l) [] l [[true]; [true]] 1 /\
  run (flags l) (Some 50) = Ret (0%Z, Some [true; true]).
Proof.
  intros l. assert (H : rows_give (flags l) [] l [[true]; [true]] 1).
  { apply rows_success; [apply flags_true|]. apply rows_failure; [apply flags_false|].
    apply rows_success; [apply flags_true|]. constructor. }
  split; [reflexivity|]. split; [reflexivity|]. split; [exact H|].
  rewrite (threshold_run (flags l) [] l [[true]; [true]] 1 50 eq_refl eq_refl H).
  destruct (Rlt_dec _ 50) as [L|_]; [exfalso|reflexivity].
  pose proof (percentage_error 1 3 ltac:(lia)) as Q. apply Rabs_le_inv in Q.
  unfold exact_percentage in Q. simpl in Q, L. lra.
Qed.

(** C116: water is fresh brine with density and bulk modulus a thousand times
    smaller, and is accepted for the same temperatures and pressures. *)
Theorem C116_exactly : forall t p,
  (is_ok (water t p) <-> is_ok (brine t (p * 10 ^ 6) 0)) /\
  (forall w b, water t p = Ok w -> brine t (p * 10 ^ 6) 0 = Ok b ->
     bulk b = 1000 * bulk w /\ dens b = 1000 * dens w /\ shear b = shear w /\ vp b = vp w).
Proof. exact water_is_brine. Qed.
Print Assumptions C116_exactly.
Example C116_exactly_nonvacuous : is_ok (water 20 10).
Proof.
  apply C116_exactly. destruct (brine_usable 20 (10 * 10 ^ 6) 0) as (b & E & _); [lra|lra|lra|]. exists b. exact E.
Qed.

(** C126: with all fractions given, only their sum not exceeding one is
    checked. *)
Theorem C126_accepts : forall t cs method e gases model,
  cs <> [] -> Forall raw_ok cs -> name_ok model -> method = "wood"%string \/ method = "brie"%string ->
  count_missing (map rc_fraction cs) = 0%nat ->
  (is_ok (read_fluids t cs method e gases model) <-> sum_given (map rc_fraction cs) <= 1 + 1 / 10 ^ 5).
Proof. exact fractions_given_read. Qed.
Print Assumptions C126_accepts.
Example C126_accepts_nonvacuous :
  is_ok (read_fluids 80 [mk_raw_constituent (FArbitrary (sample 1 0 1)) (Some 0) None] "wood" 3 None "default").
Proof.
  apply C126_accepts; [discriminate| |left; reflexivity|left; reflexivity|reflexivity|cbn; lra].
  unfold raw_ok. apply Forall_cons; [cbn; split; [lra|exact I]|apply Forall_nil].
Qed.

(** C50: the pressure section is accepted whatever pressures it leaves out;
    null is refused for overburden and reference. *)
Theorem C50_accepted : forall o r fl mx rk,
  ((exists p, make_pressure o r fl mx rk = Ok p) <-> o <> Null /\ r <> Null) /\
  (o = Null \/ r = Null -> make_pressure o r fl mx rk = Err ValueError).
Proof. exact pressure_accepted. Qed.
Print Assumptions C50_accepted.
Example C50_accepted_nonvacuous : (exists p, make_pressure Absent (Given 10) Null Absent Null = Ok p) /\
  make_pressure (Given 10) Null Absent Absent Absent = Err ValueError.
Proof. split; [eexists; reflexivity|reflexivity]. Qed.

(** C140: starting values for the search on arrays are found exactly when every
    pressure (in MPa) is at most 1.01 times some temperature (in K) of the
    array; they are inside the bounds of the phase. *)
Theorem C140_start : forall interp bounds ts ps, length ts = length ps -> Forall (fun t => 0 < t) ts -> Forall (fun p => 0 < p) ps ->
  ((exists iv, find_initial_density_values interp bounds ts ps = Ok iv) <->
   forall p, In p ps -> exists t, In t ts /\ p <= 101 / 100 * t) /\
  ((exists p, In p ps /\ forall t, In t ts -> 101 / 100 * t < p) -> find_initial_density_values interp bounds ts ps = Err ValueError).
Proof. exact start_exactly. Qed.
Print Assumptions C140_start.
Theorem C140_start_inside : forall interp bounds ts ps iv i b v, Forall (fun b => fst b <= snd b) bounds ->
  find_initial_density_values interp bounds ts ps = Ok iv -> nth_error iv i = Some v -> nth_error bounds i = Some b -> fst b <= v <= snd b.
Proof. exact start_inside. Qed.
Print Assumptions C140_start_inside.
Example C140_start_nonvacuous : exists iv, find_initial_density_values (fun _ _ => None) [(1, 3); (2, 6)] [300; 400] [20; 350] = Ok iv /\
  nth_error iv 1 = Some ((2 + 6) / 2).
Proof.
  destruct (proj2 (proj1 (C140_start (fun _ _ => None) [(1, 3); (2, 6)] [300; 400] [20; 350] eq_refl
    ltac:(repeat constructor; lra) ltac:(repeat constructor; lra)))) as [iv E].
  { intros p I. exists 400. split; [right; left; reflexivity|]. destruct I as [<- | [<- | []]]; lra. }
  exists iv. split; [exact E|]. unfold find_initial_density_values in E. destruct (existsb _ _); [discriminate|]. injection E as <-. reflexivity.
Qed.
