(** What remains true of claims refuted elsewhere. *)
From Coq Require Import String List ZArith Lra Lia Psatz.
From Verif Require Import Base BaseProofs MaterialModel Spec MaterialProofs FluidModel GassmannProofs FluidProofs
  MineralsModel FluidsModel FluidsSpec FluidsProofs BatzleWangModel BatzleWangProofs ConfigModel InputModel MainModel MainSpec MainProofs
  RowModel SpanWagnerModel SpanWagnerArrayModel.
Import ListNotations.
Open Scope R_scope.

(* ---- C10 ---- *)
Lemma combine_firstn {A B} (l : list A) (l' : list B) : combine (firstn (length l') l) l' = combine l l'.
Proof. revert l'. induction l as [|a l IH]; intros [|b l']; try reflexivity. simpl. f_equal. apply IH. Qed.
Lemma combine_firstn_r {A B} (l : list A) (l' : list B) : combine l' (firstn (length l') l) = combine l' l.
Proof. revert l. induction l' as [|b l' IH]; intros [|a l]; try reflexivity. simpl. f_equal. apply IH. Qed.
Lemma wood_extra_fluids fluids sats : wood_fluid_mixing fluids sats = wood_fluid_mixing (firstn (length sats) fluids) sats.
Proof.
  unfold wood_fluid_mixing, mix_bulk_moduli, mix_densities. rewrite <- (sats_length sats).
  rewrite (combine_firstn_r fluids (sum_saturations_to_one sats)), (combine_firstn fluids (sum_saturations_to_one sats)). reflexivity.
Qed.
Lemma combine_app_r {A B} (l : list A) (s1 s2 : list B) : length l = length s1 -> combine l (s1 ++ s2) = combine l s1.
Proof.
  revert s1. induction l as [|a l IH]; intros [|b s1] H; try discriminate; [destruct s2; reflexivity|]. simpl. f_equal. apply IH.
  injection H as H. exact H.
Qed.
Lemma combine_app_l {A B} (l : list A) (s1 s2 : list B) : length l = length s1 -> combine (s1 ++ s2) l = combine s1 l.
Proof.
  revert s1. induction l as [|a l IH]; intros [|b s1] H; try discriminate; [destruct s2; reflexivity|]. simpl. f_equal. apply IH.
  injection H as H. exact H.
Qed.

Lemma wsum_app_w s1 s2 xs : length s1 = length xs -> wsum (s1 ++ s2) xs = wsum s1 xs.
Proof.
  revert xs. induction s1 as [|a s1 IH]; intros [|x xs] L; try discriminate; [destruct s2; reflexivity|].
  simpl. rewrite IH; [reflexivity|]. injection L as L. exact L.
Qed.
Lemma wood_extra_saturations fluids s1 s2 : usable fluids -> saturation_input fluids s1 -> Forall (fun x => 0 <= x) s2 ->
  exists m0 m, wood_fluid_mixing fluids s1 = Ok m0 /\ wood_fluid_mixing fluids (s1 ++ s2) = Ok m /\
    bulk m * rsum s1 = bulk m0 * rsum (s1 ++ s2) /\ dens m * rsum (s1 ++ s2) = dens m0 * rsum s1.
Proof.
  intros U I N. destruct (wood_value fluids s1 U I) as (m0 & E0 & _ & K0 & D0 & C & _).
  destruct I as (L & Hn & Ht). pose proof tiny_pos as Hp. pose proof (rsum_nonneg s2 N) as N2.
  assert (Hr : 0 < wsum s1 (map dens fluids)).
  { apply wsum_pos; [rewrite map_length; exact L|exact Hn|apply usable_dens_pos; exact U|lra]. }
  pose proof (rsum_app s1 s2) as RA. set (T := rsum (s1 ++ s2)) in *.
  assert (Ec : compl (map (fun x => x / T) (s1 ++ s2)) fluids = compl s1 fluids / T).
  { unfold compl. rewrite wsum_scale_w, wsum_app_w; [reflexivity|rewrite map_length; exact L]. }
  assert (Hcp : 0 < compl s1 fluids / T) by (apply Rdiv_lt_0_compat; lra).
  destruct (mat_of_moduli_spec (T / compl s1 fluids) 0 (wsum s1 (map dens fluids) / T)) as [m [E [Hi _]]];
    [apply Rdiv_lt_0_compat; lra|apply Rlt_le, Rdiv_lt_0_compat; lra|lra|].
  exists m0, m. split; [exact E0|]. split.
  - unfold wood_fluid_mixing. rewrite sats_big by (fold T; lra). fold T. rewrite mix_bulk_value.
    + cbn [bind]. rewrite mix_densities_wsum, wsum_scale_w, wsum_app_w, Ec by (rewrite map_length; exact L).
      replace (1 / (compl s1 fluids / T)) with (T / compl s1 fluids) by (field; lra). exact E.
    + apply usable_nz. exact U.
    + destruct s1 as [|a s1]; [simpl in Ht; lra|]. destruct fluids as [|f fl]; [discriminate|discriminate].
    + rewrite Ec. lra.
  - destruct Hi as [Hk [_ [Hd _]]]. rewrite Hk, Hd, K0, D0. split; field; lra.
Qed.

(* ---- C14 ---- *)
Lemma brie_gas_scale fluids s gases sg e c : 0 < c -> 1 / 10 ^ 15 <= rsum sg -> 1 / 10 ^ 15 <= c * rsum sg ->
  brie_fluid_mixing fluids s gases (map (fun x => c * x) sg) e = brie_fluid_mixing fluids s gases sg e.
Proof.
  intros Hc H1 H2. unfold brie_fluid_mixing. rewrite map_length.
  rewrite (wood_scale gases sg c Hc H1 H2). reflexivity.
Qed.
Lemma brie_liquid_scale fluids s gases sg e c liquid gas m :
  fluids <> [] -> gases <> [] -> length fluids = length s -> length gases = length sg ->
  wood_fluid_mixing fluids s = Ok liquid -> wood_fluid_mixing gases sg = Ok gas ->
  0 < c -> 1 / 10 ^ 15 <= rsum s -> 1 / 10 ^ 15 <= c * rsum s ->
  brie_fluid_mixing fluids (map (fun x => c * x) s) gases sg e = Ok m ->
  bulk m = bulk gas + (bulk liquid - bulk gas) * Rpower (c * rsum s) e /\
  dens m = dens gas + (dens liquid - dens gas) * (c * rsum s).
Proof.
  intros N1 N2 L1 L2 W1 W2 Hc H1 H2 H. pose proof tiny_pos.
  destruct fluids as [|f fs]; [congruence|]. destruct gases as [|g gs]; [congruence|].
  rewrite (brie_mixed f fs _ g gs sg e liquid gas) in H;
    [|rewrite map_length; exact L1|exact L2|rewrite wood_scale by assumption; exact W1|exact W2].
  rewrite rsum_map_scale in H. rewrite np_pow_pos in H by lra. cbn [bind] in H.
  apply mat_of_moduli_wf in H. destruct H as (_ & -> & _ & ->). split; ring.
Qed.

(* ---- C50 ---- *)
Lemma pressure_exactly o r fl mx rk p : make_pressure o r fl mx rk = Ok p ->
  (p_fluid p = None <-> fl = Null /\ (rk = Null \/ rk = Absent)) /\
  (p_rock p = None <-> fl = Null /\ (rk = Null \/ rk = Absent)).
Proof.
  unfold make_pressure. intros H.
  destruct (plain_field _ o); [|discriminate]. destruct (plain_field _ r); [|discriminate].
  cbn [bind at_least_one_pore_pressure orb negb] in H. injection H as <-.
  destruct fl, rk; cbn; split; split; intros X; try discriminate X; try reflexivity; try (split; [reflexivity|auto]; fail);
    destruct X as [X1 X2]; try discriminate X1; destruct X2; discriminate.
Qed.
Lemma no_pore_pressure_everywhere p : p_fluid p = None -> p_rock p = None ->
  truncated_fluid p = Err TypeError /\ truncated_rock p = Err TypeError.
Proof. unfold truncated_fluid, truncated_rock. intros -> ->. split; reflexivity. Qed.

(* ---- C57 ---- *)
Definition fit (md : dependency_model) : Prop :=
  match md with Polyfit _ | Expfit _ | Logfit _ => True | _ => False end.
Lemma fit_values md p phi mn d a b : fit md -> eval_model md p phi mn = Ok (d, a, b) ->
  model_eval_material md p phi mn = mat_of_moduli a b d.
Proof. intros F E. destruct md; try contradiction; unfold model_eval_material; rewrite E; reflexivity. Qed.
Lemma fit_velocities md p phi mn d a b m m' : fit md -> eval_model md p phi mn = Ok (d, a, b) ->
  mat_of_velocities d a b = Ok m -> model_eval_material md p phi mn = Ok m' ->
  (bulk m' = bulk m /\ shear m' = shear m <-> a = d * (a ^ 2 - 4 / 3 * b ^ 2) /\ b = d * b ^ 2).
Proof.
  intros F E V H. rewrite (fit_values md p phi mn d a b F E) in H.
  apply mat_of_moduli_wf in H. destruct H as (_ & Hk & Hs & _).
  assert (Hd : 0 <= d).
  { revert V. unfold mat_of_velocities, mk_material. cbn [fill_moduli bind]. destruct (Rlt_dec d 0); [discriminate|]. lra. }
  destruct (mat_of_velocities_cases d a b Hd) as [[X _]|(_ & _ & _ & X)]; rewrite X in V; [discriminate|].
  injection V as <-. cbn [bulk shear]. unfold calculate_bulk_modulus, calculate_shear_modulus. rewrite Hk, Hs.
  split; intros [A B]; split; lra.
Qed.

(* ---- C87 ---- *)
Lemma softer_exactly dry mineral fl phi m : fluid_substitution dry mineral fl phi = Ok m ->
  wf dry -> wf mineral -> wf fl -> 0 < phi ->
  (bulk dry <= bulk m <-> bulk dry = bulk mineral \/ bulk dry < bulk mineral /\ bulk fl < bulk mineral).
Proof.
  intros H Wd Wm Wf Hp. pose proof H as H'. apply substitution_inv in H'. destruct H' as (G & _).
  destruct Wd as (_ & Kd & _), Wm as (_ & Km & _), Wf as (_ & Kf & _).
  apply gassman_ok_inv in G. destruct G as [[E _]|[[E G]|(_ & Nd & Nf & Hn & G)]]; [lra| |].
  - rewrite G. split; intros; [left; exact E|lra].
  - set (D := dfac (bulk dry) (bulk mineral) (bulk fl) phi) in *.
    assert (Q : 0 <= D / (1 + D) < 1).
    { split; [apply div_nonneg; lra|]. apply Rmult_lt_reg_r with (1 + D); [lra|].
      unfold Rdiv. rewrite Rmult_assoc, Rinv_l by lra. lra. }
    assert (Le : bulk m <= bulk mineral) by (rewrite G; nra).
    destruct (Rtotal_order (bulk dry) (bulk mineral)) as [L|[L|L]]; [|contradiction|split; intros; lra].
    assert (Ea : bulk dry = (bulk dry / (bulk mineral - bulk dry)) / (1 + bulk dry / (bulk mineral - bulk dry)) * bulk mineral).
    { field. split; lra. }
    assert (Ha : 0 <= bulk dry / (bulk mineral - bulk dry)) by (apply div_nonneg; lra).
    destruct (Rtotal_order (bulk fl) (bulk mineral)) as [X|[X|X]]; [|contradiction|].
    + split; [intros; right; split; assumption|]. intros _. rewrite Ea, G. apply Rmult_le_compat_r; [exact Km|].
      apply frac_le; [exact Ha|]. unfold D, dfac. assert (0 <= bulk fl / ((bulk mineral - bulk fl) * phi)) by (apply div_nonneg; nra). lra.
    + split; [|intros; lra]. intros C. exfalso. apply (Rlt_irrefl (bulk dry)). eapply Rle_lt_trans; [exact C|].
      rewrite G, Ea. apply Rmult_lt_compat_r; [lra|]. apply frac_lt; [exact Hn|]. unfold D, dfac.
      assert (bulk fl / ((bulk mineral - bulk fl) * phi) < 0); [|lra].
      assert (0 < bulk fl / ((bulk fl - bulk mineral) * phi)) by (apply Rdiv_lt_0_compat; nra).
      replace (bulk fl / ((bulk mineral - bulk fl) * phi)) with (- (bulk fl / ((bulk fl - bulk mineral) * phi))); [lra|].
      field. repeat split; lra.
Qed.

(* ---- C105 ---- *)
Lemma config_code {Row Inp Out} (p : program Row Inp Out) e : foreign p -> yaml_load p = Raise e ->
  exists c, run p None = Ret (c, None) /\ (c = (-2)%Z <-> e = YAMLError) /\ (c = (-1)%Z <-> e <> YAMLError).
Proof.
  intros [F _] H. unfold run, make_input, load_config_from_yaml. rewrite H in *.
  destruct e; cbn [then_ try_]; try (exfalso; apply F; reflexivity); eexists; (split; [reflexivity|]);
    split; split; intros X; try discriminate X; try reflexivity; try discriminate; exfalso; apply X; reflexivity.
Qed.
Lemma data_code {Row Inp Out} (p : program Row Inp Out) items e : foreign p -> config_is p items -> csv_read p = Some (Raise e) ->
  exists c, run p None = Ret (c, None) /\ (c = (-2)%Z <-> e = ParserError \/ e = EmptyDataError) /\
    (c = (-1)%Z <-> e <> ParserError /\ e <> EmptyDataError).
Proof.
  intros [_ F] C H. unfold run, make_input, load_config_from_yaml, load_data_from_csv. rewrite H in *. rewrite C.
  destruct e; cbn [then_ try_]; try (exfalso; apply F; reflexivity); eexists; (split; [reflexivity|]);
    split; split; intros X; try discriminate X; try reflexivity; try (left; reflexivity); try (right; reflexivity);
    try (split; discriminate); try (destruct X as [X|X]; discriminate X); try (destruct X as [X Y]; exfalso; auto).
Qed.

(* ---- C116 ---- *)
Lemma water_is_brine t p :
  (is_ok (water t p) <-> is_ok (brine t (p * 10 ^ 6) 0)) /\
  (forall w b, water t p = Ok w -> brine t (p * 10 ^ 6) 0 = Ok b ->
     bulk b = 1000 * bulk w /\ dens b = 1000 * dens w /\ shear b = shear w /\ vp b = vp w).
Proof.
  destruct (fresh_brine t p) as [F G]. split; [split; intros [x X]|].
  - destruct (F x X) as (b & B & _). exists b. exact B.
  - destruct (G x X) as (w & W & _). exists w. exact W.
  - intros w b W B. destruct (F w W) as (b' & B' & D & V). rewrite B in B'. injection B' as <-.
    destruct (water_value _ _ _ W) as (_ & _ & M1 & M2 & _ & M4 & M5).
    destruct (brine_value _ _ _ _ B) as (_ & _ & _ & N1 & N2 & _ & N4 & N5).
    repeat split; try assumption; [rewrite M1, N1, D, V; ring|rewrite N2, M2; reflexivity].
Qed.

(* ---- C126 ---- *)
Lemma fractions_given_read t cs method e gases model :
  cs <> [] -> Forall raw_ok cs -> name_ok model -> method = "wood"%string \/ method = "brie"%string ->
  count_missing (map rc_fraction cs) = 0%nat ->
  (is_ok (read_fluids t cs method e gases model) <-> sum_given (map rc_fraction cs) <= 1 + 1 / 10 ^ 5).
Proof.
  intros Ne R N M Z. destruct (read_fluids_outcome t cs method e gases model) as [A _]. cbv zeta in A. split.
  - intros H. apply A in H. tauto.
  - intros H. apply A. rewrite Z. repeat split; try assumption; [lia|discriminate].
Qed.

(* ---- C106 ---- *)
Lemma rows_give_length {Row Inp Out} (p : program Row Inp Out) items rows rs f : rows_give p items rows rs f ->
  (length rs + f = length rows)%nat.
Proof. induction 1; simpl; lia. Qed.
Lemma rows_give_single {Row Inp Out} (p : program Row Inp Out) items rows rs f :
  (forall inp r, calculate p inp = Ret r -> length r = 1%nat) -> rows_give p items rows rs f -> length (concat rs) = length rs.
Proof.
  intros S1. induction 1 as [|row rows r rs f (inp & _ & C) _ IH|row rows rs f _ _ IH]; [reflexivity| |exact IH].
  simpl. rewrite app_length, IH, (S1 inp r C). reflexivity.
Qed.
Lemma written_rows {Row Inp Out} (p : program Row Inp Out) items rows rs f t c w :
  config_is p items -> data_is p (Some rows) -> rows_give p items rows rs f -> run p (Some t) = Ret (c, Some w) ->
  w = concat rs /\ ((forall inp r, calculate p inp = Ret r -> length r = 1%nat) -> (length w + f = length rows)%nat).
Proof.
  intros C D G H. rewrite (threshold_run p items rows rs f t C D G) in H.
  assert (W : w = concat rs).
  { destruct (Rlt_dec _ t); [discriminate|]. destruct rs as [|r rs]; [discriminate|].
    destruct (write p _); [|discriminate]. unfold calibrate_and_exit in H.
    destruct (compare p) as [b|]; [destruct (run_calibration _) as [u|[]]|]; injection H as _ <-; reflexivity. }
  split; [exact W|]. intros S1. rewrite W, (rows_give_single p items rows rs f S1 G). exact (rows_give_length _ _ _ _ _ G).
Qed.
Lemma pressure_accepted : forall o r fl mx rk,
  ((exists p, make_pressure o r fl mx rk = Ok p) <-> o <> Null /\ r <> Null) /\
  (o = Null \/ r = Null -> make_pressure o r fl mx rk = Err ValueError).
Proof.
  intros o r fl mx rk. split.
  - split.
    + intros [p H]. split; intros ->; [discriminate|]. unfold make_pressure in H. destruct (plain_field _ o); discriminate.
    + intros [A B]. destruct o; [| |]; destruct r; try contradiction; eexists; reflexivity.
  - intros [-> | ->]; [reflexivity|]. destruct o; reflexivity.
Qed.
Lemma rmin_le : forall l x, In x l -> rmin l <= x.
Proof.
  intros l. unfold rmin. generalize (hd 0 l). induction l as [|a l IH]; intros d x; [intros []|]; intros [<- | I]; cbn [fold_right].
  - apply Rmin_l.
  - eapply Rle_trans; [apply Rmin_r|apply IH, I].
Qed.
Lemma rmax_ge : forall l x, In x l -> x <= rmax l.
Proof.
  intros l. unfold rmax. generalize (hd 0 l). induction l as [|a l IH]; intros d x; [intros []|]; intros [<- | I]; cbn [fold_right].
  - apply Rmax_l.
  - eapply Rle_trans; [apply IH, I|apply Rmax_r].
Qed.
Lemma rmax_in : forall l, l <> [] -> In (rmax l) l.
Proof.
  intros [|a l] H; [contradiction|]. unfold rmax. cbn [hd].
  assert (G : forall l, fold_right Rmax a l = a \/ In (fold_right Rmax a l) l).
  { clear. induction l as [|b l IH]; [left; reflexivity|]. cbn [fold_right].
    unfold Rmax at 1 3. destruct (Rle_dec b (fold_right Rmax a l)) as [L|L].
    - destruct IH as [IH|IH]; [left; exact IH|right; right; exact IH].
    - right. left. reflexivity. }
  destruct (G (a :: l)) as [E|E]; [rewrite E; left; reflexivity|exact E].
Qed.
(** No positive temperature or pressure is off the grid but a high pressure. *)
Lemma start_exactly : forall interp bounds ts ps, length ts = length ps -> Forall (fun t => 0 < t) ts -> Forall (fun p => 0 < p) ps ->
  ((exists iv, find_initial_density_values interp bounds ts ps = Ok iv) <->
   forall p, In p ps -> exists t, In t ts /\ p <= 101 / 100 * t) /\
  ((exists p, In p ps /\ forall t, In t ts -> 101 / 100 * t < p) -> find_initial_density_values interp bounds ts ps = Err ValueError).
Proof.
  intros interp bounds ts ps L T P. rewrite Forall_forall in T, P.
  set (c := existsb (fun x => ltb (fst x) (rmin ts * (99 / 100)) || ltb (rmax ts * (101 / 100)) (fst x) || ltb (snd x) (rmin ps * (99 / 100)) ||
      ltb (rmax ts * (101 / 100)) (snd x))%bool (combine ts ps)).
  assert (Ec : c = true <-> exists p, In p ps /\ forall t, In t ts -> 101 / 100 * t < p).
  { split.
    - intros E. apply existsb_exists in E. destruct E as ([t p] & I & E). cbn [fst snd] in E.
      pose proof (in_combine_l _ _ _ _ I) as It. pose proof (in_combine_r _ _ _ _ I) as Ip.
      pose proof (rmin_le _ _ It). pose proof (rmax_ge _ _ It). pose proof (rmin_le _ _ Ip). pose proof (T t It). pose proof (P p Ip).
      exists p. split; [exact Ip|]. unfold ltb in E.
      destruct (Rlt_dec t (rmin ts * (99 / 100))); [lra|]. destruct (Rlt_dec (rmax ts * (101 / 100)) t); [lra|].
      destruct (Rlt_dec p (rmin ps * (99 / 100))); [lra|]. destruct (Rlt_dec (rmax ts * (101 / 100)) p) as [Hp|]; [|discriminate].
      intros t' I'. pose proof (rmax_ge _ _ I'). lra.
    - intros (p & I & H). apply existsb_exists.
      assert (N : ts <> []) by (intros ->; destruct ps; [destruct I|discriminate]).
      assert (C : exists t, In (t, p) (combine ts ps)).
      { clear -L I. revert ts L. induction ps as [|b ps IH]; intros [|a ts] L; try discriminate; [destruct I|].
        destruct I as [-> | I]; [exists a; left; reflexivity|]. destruct (IH I ts ltac:(injection L; auto)) as [t J]. exists t. right. exact J. }
      destruct C as [t C]. exists (t, p). split; [exact C|]. cbn [fst snd]. pose proof (H _ (rmax_in ts N)).
      unfold ltb at 4. destruct (Rlt_dec (rmax ts * (101 / 100)) p) as [|F]; [|lra]. apply Bool.orb_true_r. }
  unfold find_initial_density_values. fold c. split; [split|].
  - intros [iv E] p I. destruct c eqn:Q; [discriminate|].
    assert (N : ts <> []) by (intros ->; destruct ps; [destruct I|discriminate]).
    exists (rmax ts). split; [apply rmax_in, N|]. destruct (Rle_dec p (101 / 100 * rmax ts)) as [|F]; [assumption|exfalso].
    assert (false = true) by (apply Ec; exists p; split; [exact I|]; intros t It; pose proof (rmax_ge _ _ It); lra). discriminate.
  - intros H. destruct c eqn:Q; [|eexists; reflexivity]. exfalso. destruct (proj1 Ec eq_refl) as (p & I & K).
    destruct (H p I) as (t & It & Le). specialize (K t It). lra.
  - intros H. rewrite (proj2 Ec H). reflexivity.
Qed.
(** Starting values are inside the bounds. *)
Lemma start_inside : forall interp bounds ts ps iv i b v, Forall (fun b => fst b <= snd b) bounds ->
  find_initial_density_values interp bounds ts ps = Ok iv -> nth_error iv i = Some v -> nth_error bounds i = Some b -> fst b <= v <= snd b.
Proof.
  intros interp bounds ts ps iv i b v F E V B. unfold find_initial_density_values in E.
  destruct (existsb _ _); [discriminate|]. injection E as <-. rewrite nth_error_map in V.
  destruct (nth_error (combine bounds (combine ts ps)) i) as [[b' [t p]]|] eqn:Q; [|discriminate].
  assert (K : b' = b).
  { clear -Q B. revert i Q B. generalize (combine ts ps). induction bounds as [|a bounds IH]; intros [|c l] [|i] Q B; try discriminate.
    - cbn in Q, B. congruence.
    - apply (IH l i Q B). }
  subst b'. cbn in V. injection V as <-. rewrite Forall_forall in F. pose proof (F b (nth_error_In _ _ B)) as Fb. cbv beta in Fb.
  destruct (interp t p) as [w|]; [|lra]. unfold ltb. destruct (Rlt_dec w (fst b)); cbn; [lra|]. destruct (Rlt_dec (snd b) w); cbn; lra.
Qed.
