(** Proofs for FurtherProps. *)
From Coq Require Import String List ZArith Lia Lra Bool.
From Verif Require Import Base BaseProofs MaterialModel InputModel MainModel MainSpec MainProofs CommandModel CommandSpec CommandProofs
  ConfigModel FluidsModel RowModel NumModel NanModel PoisonSpec MissingSpec MissingProofs.
Import ListNotations.
Open Scope R_scope.

(** ** Mistakes on the command line *)
Section Command.
Context {Text Row Inp Out : Type} (t : tools Text Row Inp Out).
Implicit Types (argv : list argument) (d : disk Text).

Lemma percentage_some v x : percentage v = Some x -> v = Finite x /\ 0 <= x <= 100.
Proof.
  destruct v as [y| | | |]; cbn [percentage]; try discriminate.
  destruct (Rle_dec 0 y); [|discriminate]. destruct (Rle_dec y 100); [|discriminate]. intros [= ->]. split; [reflexivity|lra].
Qed.
Lemma open_r_true d p : open_r d p = true -> exists x, d p = Some (File x).
Proof. unfold open_r. destruct (d p) as [[x|]|]; try discriminate. intros _. exists x. reflexivity. Qed.

Lemma parse_accepts argv : forall d ns n' d', parse_arguments t argv d ns = inr (n', d') ->
  (forall p, In (Config p) argv \/ In (DataFile p) argv \/ In (Calibration p) argv ->
     (exists x, d p = Some (File x)) \/ In (OutputFile p) argv) /\
  (forall p, In (OutputFile p) argv -> d p <> Some Folder /\ may_write t p = true) /\
  (forall v, In (SuccessThreshold v) argv -> exists x, v = Finite x /\ 0 <= x <= 100).
Proof.
  induction argv as [|x argv IH]; intros d [c da ca o th u] ns d' E; cbn [parse_arguments] in E.
  { split; [intros p [[]|[[]|[]]]|split; [intros p []|intros v []]]. }
  assert (K : forall y d1, (forall p, y <> OutputFile p) -> (forall v, y <> SuccessThreshold v) -> d1 = d ->
    (forall p, y = Config p \/ y = DataFile p \/ y = Calibration p -> exists z, d p = Some (File z)) ->
    (forall p, In (Config p) argv \/ In (DataFile p) argv \/ In (Calibration p) argv ->
       (exists z, d1 p = Some (File z)) \/ In (OutputFile p) argv) /\
    (forall p, In (OutputFile p) argv -> d1 p <> Some Folder /\ may_write t p = true) /\
    (forall v, In (SuccessThreshold v) argv -> exists z, v = Finite z /\ 0 <= z <= 100) ->
    (forall p, In (Config p) (y :: argv) \/ In (DataFile p) (y :: argv) \/ In (Calibration p) (y :: argv) ->
       (exists z, d p = Some (File z)) \/ In (OutputFile p) (y :: argv)) /\
    (forall p, In (OutputFile p) (y :: argv) -> d p <> Some Folder /\ may_write t p = true) /\
    (forall v, In (SuccessThreshold v) (y :: argv) -> exists z, v = Finite z /\ 0 <= z <= 100)).
  { intros y d1 Y1 Y2 -> Y3 (H1 & H2 & H3). split; [|split].
    - intros p I. cbn [In] in *.
      assert (D : (y = Config p \/ y = DataFile p \/ y = Calibration p) \/
                  (In (Config p) argv \/ In (DataFile p) argv \/ In (Calibration p) argv)) by tauto.
      destruct D as [D|D]; [left; exact (Y3 p D)|]. destruct (H1 p D) as [X|X]; [left; exact X|right; right; exact X].
    - intros p [I|I]; [exfalso; exact (Y1 p I)|exact (H2 p I)].
    - intros v [I|I]; [exfalso; exact (Y2 v I)|exact (H3 v I)]. }
  destruct x as [path|path|path|path| |dir|v|].
  - destruct c as [c|]; [exfalso; exact (parse_unrecognized t _ _ _ _ _ _ _ _ _ E)|].
    destruct (open_r d path) eqn:O; [|discriminate E]. apply open_r_true in O.
    apply (K _ d); [discriminate|discriminate|reflexivity| |exact (IH _ _ _ _ E)].
    intros p [[= <-]|[X|X]]; [exact O|discriminate X|discriminate X].
  - destruct (open_r d path) eqn:O; [|discriminate E]. apply open_r_true in O.
    apply (K _ d); [discriminate|discriminate|reflexivity| |exact (IH _ _ _ _ E)].
    intros p [X|[[= <-]|X]]; [discriminate X|exact O|discriminate X].
  - destruct (open_r d path) eqn:O; [|discriminate E]. apply open_r_true in O.
    apply (K _ d); [discriminate|discriminate|reflexivity| |exact (IH _ _ _ _ E)].
    intros p [X|[X|[= <-]]]; [discriminate X|discriminate X|exact O].
  - destruct (open_w t d path) as [d1|] eqn:W; [|discriminate E].
    apply open_w_is in W. destruct W as (-> & W1 & W2).
    destruct (IH _ _ _ _ E) as (H1 & H2 & H3). split; [|split].
    + intros p I. cbn [In] in I.
      destruct (string_dec p path) as [->|N]; [right; left; reflexivity|].
      assert (D : In (Config p) argv \/ In (DataFile p) argv \/ In (Calibration p) argv).
      { destruct I as [[I|I]|[[I|I]|[I|I]]]; try discriminate I; tauto. }
      destruct (H1 p D) as [[z Z]|X]; [|right; right; exact X]. left. exists z.
      rewrite (set_other _ _ _ _ N) in Z. exact Z.
    + intros p I. destruct (string_dec p path) as [->|N]; [split; assumption|].
      destruct I as [I|I]; [injection I as I; exfalso; exact (N (eq_sym I))|].
      destruct (H2 p I) as [Z1 Z2]. rewrite (set_other _ _ _ _ N) in Z1. split; assumption.
    + intros w [I|I]; [discriminate I|exact (H3 w I)].
  - discriminate E.
  - destruct (generate_tutorial t d dir); discriminate E.
  - destruct (percentage v) as [y|] eqn:P; [|discriminate E]. apply percentage_some in P.
    destruct (IH _ _ _ _ E) as (H1 & H2 & H3). split; [|split].
    + intros p I. cbn [In] in I.
      assert (D : In (Config p) argv \/ In (DataFile p) argv \/ In (Calibration p) argv).
      { destruct I as [[I|I]|[[I|I]|[I|I]]]; try discriminate I; tauto. }
      destruct (H1 p D) as [Z|X]; [left; exact Z|right; right; exact X].
    + intros p [I|I]; [discriminate I|exact (H2 p I)].
    + intros w [I|I]; [injection I as <-; exists y; exact P|exact (H3 w I)].
  - discriminate E.
Qed.

Lemma mistake_rejected argv d : asks_for_run argv ->
  (forall c, ~ configured argv c) \/
  (exists p, (In (Config p) argv \/ In (DataFile p) argv \/ In (Calibration p) argv) /\
     (forall x, d p <> Some (File x)) /\ ~ In (OutputFile p) argv) \/
  (exists p, In (OutputFile p) argv /\ (d p = Some Folder \/ may_write t p = false)) \/
  (exists v, In (SuccessThreshold v) argv /\ forall x, v = Finite x -> ~ (0 <= x <= 100)) ->
  status (main t argv d) = 2%Z /\ stdout (main t argv d) = [].
Proof.
  intros A M. unfold main. fold start. destruct (parse_arguments t argv d start) as [f|[ns d']] eqn:E.
  - destruct (parse_status t _ _ _ _ E) as [H|[H _]]; [exact H|contradiction].
  - exfalso. destruct (parsed t _ _ _ _ E) as (_ & (C & _) & _).
    destruct (parse_accepts _ _ _ _ _ E) as (H1 & H2 & H3).
    destruct M as [M|[(p & I & N & O)|[(p & I & [F|F])|(v & I & N)]]].
    + exact (M _ C).
    + destruct (H1 p I) as [[x X]|X]; [exact (N x X)|exact (O X)].
    + exact (proj1 (H2 p I) F).
    + rewrite (proj2 (H2 p I)) in F. discriminate F.
    + destruct (H3 v I) as (x & X & R). exact (N x X R).
Qed.

(** ** Messages of failing runs *)
Lemma calibrate_code (p : program Row Inp Out) r c w : calibrate_and_exit p r = (c, w) -> c <> 0%Z ->
  exists body e, compare p = Some body /\ body r = Raise e.
Proof.
  unfold calibrate_and_exit. destruct (compare p) as [body|]; [|intros [= <- <-] N; exfalso; apply N; reflexivity].
  intros E N. exists body. destruct (body r) as [[]|e] eqn:B; [|exists e; split; reflexivity].
  cbn [run_calibration try_] in E. injection E as <- <-. exfalso. apply N. reflexivity.
Qed.
Lemma run_written_code (p : program Row Inp Out) th c r : run p th = Ret (c, Some r) -> c <> 0%Z ->
  exists body e, compare p = Some body /\ body r = Raise e.
Proof.
  assert (K : forall r' c' w, calibrate_and_exit p r' = (c', w) -> w = Some r').
  { intros r' c' w E. unfold calibrate_and_exit in E. destruct (compare p) as [body|]; [|injection E as _ <-; reflexivity].
    destruct (run_calibration (body r')) as [|[]]; injection E as _ <-; reflexivity. }
  intros E N. destruct th as [th|]; cbn [run] in E.
  - unfold run_with_threshold in E. destruct (csv_read p); [|discriminate E].
    destruct (make_per_row_input p) as [inputs|e]; [|discriminate E]. cbn [then_] in E.
    destruct (calculate_rows p inputs) as [results failures]. destruct (Rlt_dec _ _); [discriminate E|].
    destruct (then_ (pd_concat results) _) as [r'|e]; [|discriminate E].
    injection E as E. pose proof (K _ _ _ E) as W. injection W as ->. exact (calibrate_code p _ _ _ E N).
  - destruct (make_input p) as [inp|e]; [|destruct e; discriminate E].
    destruct (calculate p inp) as [results|e]; [|destruct (is_value_error e); discriminate E].
    destruct (write p results); [|discriminate E].
    injection E as E. pose proof (K _ _ _ E) as W. injection W as ->. exact (calibrate_code p _ _ _ E N).
Qed.

Lemma failure_message argv d : (251 <= status (main t argv d) <= 255)%Z -> In Message (stdout (main t argv d)).
Proof.
  unfold main. destruct (parse_arguments t argv d _) as [f|[ns d']] eqn:E.
  - intros B. revert d f E B. generalize (mkNamespace None None None None None false).
    induction argv as [|x argv IH]; intros [c da ca o th u] d f E B; cbn [parse_arguments] in E.
    { destruct c; [destruct u; [|discriminate E]|]; injection E as <-; cbn in B; lia. }
    destruct x as [path|path|path|path| |dir|v|].
    + destruct c; [exact (IH _ _ _ E B)|].
      destruct (open_r d path); [exact (IH _ _ _ E B)|injection E as <-; cbn in B; lia].
    + destruct (open_r d path); [exact (IH _ _ _ E B)|injection E as <-; cbn in B; lia].
    + destruct (open_r d path); [exact (IH _ _ _ E B)|injection E as <-; cbn in B; lia].
    + destruct (open_w t d path); [exact (IH _ _ _ E B)|injection E as <-; cbn in B; lia].
    + injection E as <-; cbn in B; lia.
    + destruct (generate_tutorial t d dir); injection E as <-; [cbn in B; lia|left; reflexivity].
    + destruct (percentage v); [exact (IH _ _ _ E B)|injection E as <-; cbn in B; lia].
    + injection E as <-; cbn in B; lia.
  - unfold execute. destruct (run (program_of t ns d') (success_threshold ns)) as [[code [r|]]|e] eqn:R.
    + intros B. destruct (written t (output ns) d' r) as [[d1 d2] rows] eqn:W.
      assert (N : code <> 0%Z). { intros ->. cbn in B. lia. }
      destruct (run_written_code _ _ _ _ R N) as (body & e & Cp & Br).
      cbn [exit stdout]. apply in_or_app. right. apply in_or_app. right.
      unfold calibration_lines. unfold program_of in Cp. cbn [compare] in Cp.
      destruct (calibration_data ns) as [f|]; [|discriminate Cp]. cbn [option_map] in Cp. injection Cp as <-.
      destruct (statistics t _ r) as [keys ended]. cbn [snd] in Br. rewrite Br. apply in_or_app. right. left. reflexivity.
    + intros _. cbn [exit stdout]. apply in_or_app. right. left. reflexivity.
    + cbn. lia.
Qed.

(** A run that ended with status 1 or 2 prints nothing to standard output. *)
Lemma crash_silent argv d : (status (main t argv d) = 1 \/ status (main t argv d) = 2)%Z -> stdout (main t argv d) = [].
Proof.
  unfold main. fold start. destruct (parse_arguments t argv d start) as [f|[ns d']] eqn:E.
  - destruct (parse_status t _ _ _ _ E) as [[_ H]|[_ [H|H]]]; [intros _; exact H|rewrite H; lia|rewrite H; lia].
  - unfold execute. destruct (run _ _) as [[code w]|e] eqn:R; [|reflexivity].
    assert (K : (code mod 256 <> 1 /\ code mod 256 <> 2)%Z).
    { destruct (run_codes _ _ _ _ R) as [[-> _]|B]; [split; discriminate|]. rewrite (negative_status _ B). lia. }
    destruct w as [r|]; [destruct (written t (output ns) d' r) as [[d1 d2] rows]|]; cbn [exit status]; lia.
Qed.
End Command.

(** ** Coefficients that are missing *)
Lemma fit_missing v m c : c_density c = None \/ c_primary c = None \/ c_secondary c = None ->
  forall m', polyval_material v m c <> Ok m'.
Proof.
  intros H m' E. unfold polyval_material, fit_property in E.
  destruct (uses_moduli c); apply bind_ok in E; destruct E as (a & Ea & E); apply bind_ok in E; destruct E as (b & Eb & E);
    apply bind_ok in E; destruct E as (s & Es & E); destruct H as [H|[H|H]]; rewrite H in *; discriminate.
Qed.
Lemma trend_missing t m p phi mn : c_density (dt_coefficients t) = None \/ c_primary (dt_coefficients t) = None \/
  c_secondary (dt_coefficients t) = None -> forall m', adjust_one (DepthTrend t) m p phi mn <> Ok m'.
Proof. intros H. cbn [adjust_one]. apply fit_missing. exact H. Qed.

(** ** Where nan comes from *)
Lemma logfit_negative x row v : x < 0 -> n_logfit_row (Num x) row = Ok v -> v = Nan.
Proof.
  intros N E. unfold n_logfit_row in E. apply bind_ok in E. destruct E as (a & _ & E). apply bind_ok in E.
  destruct E as (b & _ & E). cbn [n_log] in E. destruct (Rlt_dec 0 x); [lra|]. destruct (Req_EM_T x 0); [lra|].
  cbn in E. injection E as <-. reflexivity.
Qed.
Lemma ndiv_nan a : (a / Nan)%num = Nan.
Proof. destruct a; reflexivity. Qed.

Lemma logfit_negative_or_nan a row v : (forall x, a = Num x -> x < 0) -> n_logfit_row a row = Ok v -> v = Nan.
Proof.
  intros N E. destruct a as [x|]; [exact (logfit_negative x row v (N x eq_refl) E)|].
  unfold n_logfit_row in E. apply bind_ok in E. destruct E as (a & _ & E). apply bind_ok in E.
  destruct E as (b & _ & E). cbn in E. injection E as <-. reflexivity.
Qed.
Lemma logfit_factors c m p phi mn m' i x : n_adjust_one (NPressureDependency (NLogfit c)) m p phi mn = Ok m' ->
  npr_rock p = Some x ->
  (forall o y, entry i (npr_overburden p) = Some (Num o) -> entry i x = Some (Num y) -> o < y) ->
  ~ at_row i (n_dens m').
Proof.
  intros E X N H. cbn [n_adjust_one] in E. unfold n_adjust_pressure in E. nb E e1 E1. nb E e2 E2. injection E2 as <-.
  cbn [n_pressure_dependency] in E. unfold n_generic_dependency in E. nb E ref F1. nb E eff F2. nb E u F3. cbv zeta in E.
  assert (D : at_row i (n_times (n_dens m) (fst (fst (n_factors eff ref))))).
  { destruct (n_model_uses_moduli (NLogfit c)).
    - apply moduli_kept in E. destruct E as (_ & _ & E). rewrite E in H. exact H.
    - apply velocities_kept in E. destruct E as [E _]. rewrite E in H. exact H. }
  apply at_pmap in D. destruct D as ([d f] & D1 & D). apply entry_zip_back in D1. destruct D1 as [_ D1]. cbn [snd] in D1.
  isn_step. cbn [fst snd n_factors] in D1. apply entry_pmap in D1. destruct D1 as ([[[a1 a2] a3] [[b1 b2] b3]] & Z & ->).
  apply entry_zip_back in Z. destruct Z as [Z _]. cbn [fst] in Z. isn_step.
  cbn [n_eval_model] in F2. nb F2 rows G1. nb F2 w G2.
  destruct (entry_amap _ i _ _ _ F2 Z) as (q & Q & T).
  assert (V : forall z, q = Num z -> z < 0).
  { intros z ->. unfold n_truncated_rock in E1. rewrite X in E1. injection E1 as <-.
    assert (B : exists z0, entry i (pmap (fun '(a, b) => nsub a b) (zip (npr_overburden p) x)) = Some (Num z0) /\ z <= z0).
    { unfold n_clip_above in Q. destruct (npr_max_effective p) as [b|].
      - apply entry_pmap in Q. destruct Q as ([[z0|] [z1|]] & Q & Y); cbn in Y; try discriminate.
        apply entry_zip_back in Q. destruct Q as [Q _]. exists z0. split; [exact Q|]. injection Y as ->.
        apply Rmin_l.
      - exists z. split; [exact Q|lra]. }
    destruct B as (z0 & B & L). apply entry_pmap in B. destruct B as ([[o|] [y|]] & B & Y); cbn in Y; try discriminate.
    injection Y as ->. apply entry_zip_back in B. destruct B as [B1 B2]. specialize (N o y B1 B2). lra. }
  unfold n_three in T. destruct rows as [[r1 r2] r3]. nb T u1 U1. nb T u2 U2. nb T u3 U3. injection T as <- <- <-.
  pose proof (logfit_negative_or_nan _ _ _ V U1) as ->. match goal with K : isn Nan |- _ => apply K; reflexivity end.
Qed.
Lemma logfit_adjustments l : forall m p phi mn m' i x c, n_adjust_material l m p phi mn = Ok m' ->
  npr_rock p = Some x -> In (NPressureDependency (NLogfit c)) l -> at_row i (n_dens m') ->
  ~ (forall o y, entry i (npr_overburden p) = Some (Num o) -> entry i x = Some (Num y) -> o < y).
Proof.
  induction l as [|a l IH]; intros m p phi mn m' i x c E X I H N; [destruct I|].
  cbn [n_adjust_material] in E. nb E m1 E1. destruct I as [->|I].
  - apply (logfit_factors _ _ _ _ _ _ _ _ E1 X N). apply (adjustments_numbers _ _ _ _ _ _ i E H).
  - exact (IH _ _ _ _ _ _ _ _ E X I H N).
Qed.
Lemma logfit_rows : forall co2 n inp rows i r c x o y, n_results co2 n inp = Ok rows -> nth_error rows i = Some r ->
  In (NPressureDependency (NLogfit c)) (ndr_adjustments (ni_dry_rock inp)) -> npr_rock (ni_pressure inp) = Some x ->
  entry i (npr_overburden (ni_pressure inp)) = Some (Num o) -> entry i x = Some (Num y) -> o < y -> w_rsat r = Nan.
Proof.
  intros co2 n inp rows i r c x o y E R I X O Y L.
  destruct (w_rsat r) as [v|] eqn:V; [|reflexivity]. exfalso. unfold n_results in E. nb E o' E0. injection E as <-.
  apply row_entries in R. destruct R as (_ & _ & _ & _ & R & _).
  unfold n_calculate_results in E0. nb E0 ms E1. nb E0 fl E2. nb E0 u E3. nb E0 mm E4. nb E0 fp E5. nb E0 mf E6. nb E0 dry E7.
  nb E0 dense E8. nb E0 sat E9. injection E0 as <-. cbn in R.
  unfold n_fluid_substitution in E9. nb E9 k E10. apply moduli_kept in E9. destruct E9 as (_ & _ & D). rewrite D in R.
  rewrite V in R. apply entry_pmap in R. destruct R as ([[d q] f] & Z & W). cbn [fst snd] in W.
  assert (T : isn d). { assert (G : isn (nadd d (nmul q f))) by (rewrite <- W; apply num_isn). isn_step. assumption. }
  apply entry_zip_back in Z. destruct Z as [Z _]. cbn [fst] in Z. 
  assert (Ddry : at_row i (n_dens dry)).
  { apply entry_zip_back in Z. destruct Z as [Z _]. cbn [fst] in Z. exists d. split; assumption. }
  unfold n_dry_rock_material in E7. nb E7 eff F1. nb E7 m0 F2.
  apply (logfit_adjustments _ _ _ _ _ _ i x c E7 X I Ddry). intros o1 y1 A B. rewrite O in A. rewrite Y in B.
  injection A as <-. injection B as <-. exact L.
Qed.

(** ** Nothing of a fluid without stiffness *)
Lemma wood_zero_by_zero fl sat m i f s v : n_wood fl sat = Ok m -> In (f, s) (combine fl sat) ->
  entry i (n_bulk f) = Some (Num 0) -> entry i s = Some (Num 0) -> entry i (n_bulk m) = Some v -> v = Nan.
Proof.
  intros E I K Z V. destruct v as [v|]; [|reflexivity]. exfalso.
  unfold n_wood, n_fluid in E. cbv zeta in E. nb E k E1. apply moduli_kept in E. destruct E as (Ek & _ & _). rewrite Ek in V.
  unfold n_mix_bulk_moduli in E1. cbv zeta in E1. nb E1 u U. nb E1 t T.
  assert (A : at_row i k) by (exists (Num v); split; [exact V|apply num_isn]).
  destruct (at_amap _ _ _ _ E1 A) as (x & y & X & Y & N). isn_step.
  assert (B : at_row i t) by (exists x; split; assumption).
  pose proof (nsum_res_there _ i _ _ T B) as F. rewrite Forall_forall in F.
  unfold n_sum_saturations_to_one in F.
  set (g := fun s => pmap (fun x => nquot (if nltb 0 (fst (fst x)) then snd (fst x) else Num (1 / 10 ^ 15)) (snd x))
                       (zip3 (nsum sat) s (pmap (fun t => nmax t (Num (1 / 10 ^ 15))) (nsum sat)))) in *.
  assert (J : In (g s, f) (combine (map g sat) fl)).
  { clear -I. clearbody g. revert fl I. induction sat as [|s0 sat IH]; intros [|f0 fl] I; cbn in *; try tauto.
    destruct I as [I|I]; [left; congruence|right; apply IH, I]. }
  specialize (F _ J). destruct F as (q & Q & C). cbn [fst snd] in Q.
  destruct (at_amap _ _ _ _ Q C) as ([s1 b1] & z & S1 & S2 & S3). apply entry_zip_back in S1. cbn [fst snd] in *.
  destruct S1 as [S1 S4]. rewrite K in S4. injection S4 as <-. unfold g in S1. apply entry_pmap in S1.
  destruct S1 as ([[tt0 s0] a0] & S5 & ->). cbn [fst snd] in S2.
  apply entry_zip_back in S5. destruct S5 as [S5 S6]. apply entry_zip_back in S5. destruct S5 as [S5 S7]. cbn [fst snd] in *.
  rewrite Z in S7. injection S7 as <-. apply entry_pmap in S6. destruct S6 as (tt1 & S6 & ->). rewrite S5 in S6. injection S6 as <-.
  destruct tt0 as [tot|]; cbn in S2; [|injection S2 as <-; apply S3; reflexivity].
  assert (P15 : 0 < 1 / 10 ^ 15) by lra.
  destruct (Rlt_dec 0 tot) as [Ht|Ht]; cbn in S2; destruct (Req_EM_T 0 0) as [_|]; try lra.
  - destruct (Req_EM_T _ 0) as [_|G]; [injection S2 as <-; apply S3; reflexivity|]. apply G. unfold Rdiv. ring.
  - destruct (Req_EM_T _ 0) as [G|_]; [|discriminate S2]. apply (f_equal (fun r => r * Rmax tot (1 / 10 ^ 15))) in G.
    assert (M : 0 < Rmax tot (1 / 10 ^ 15)) by (pose proof (Rmax_r tot (1 / 10 ^ 15)); lra).
    unfold Rdiv at 1 in G. rewrite Rmult_assoc, Rinv_l, Rmult_0_l in G by lra. lra.
Qed.
