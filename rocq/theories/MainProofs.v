(** Lemmas about runs of the command line tool. *)
From Coq Require Import String List ZArith Lra Lia.
From Flocq Require Import Core Relative.
From Verif Require Import Base InputModel MainModel MainSpec.
Open Scope R_scope.

Lemma value_error_iff e : is_value_error e = true <-> value_error e.
Proof. unfold value_error. destruct e; simpl; split; intros; try discriminate; auto 8; decompose [or] H; discriminate. Qed.

Section Run.
Context {Row Inp Out : Type}.
Implicit Type p : program Row Inp Out.

Lemma load_config_cases p :
  (exists items, config_is p items /\ load_config_from_yaml p = Ret items) \/
  (config_malformed p /\ load_config_from_yaml p = Raise InputError) \/
  (exists e, yaml_load p = Raise e /\ e <> YAMLError /\ load_config_from_yaml p = Raise e).
Proof.
  unfold load_config_from_yaml, config_is, config_malformed. destruct (yaml_load p) as [v|e]; simpl.
  - destruct v as [| | | | | | |items];
      try (right; left; split; [right; eexists; split; [reflexivity|intros ? X; discriminate X]|reflexivity]).
    left. exists items. auto.
  - destruct e; simpl; try (right; right; eexists; split; [reflexivity|split; [discriminate|reflexivity]]).
    right; left. auto.
Qed.

Lemma load_data_cases p :
  (exists data, data_is p data /\ load_data_from_csv p = Ret data) \/
  (data_malformed p /\ load_data_from_csv p = Raise InputError) \/
  (exists e, csv_read p = Some (Raise e) /\ e <> ParserError /\ e <> EmptyDataError /\
             load_data_from_csv p = Raise e).
Proof.
  unfold load_data_from_csv, data_is, data_malformed. destruct (csv_read p) as [[rows|e]|]; simpl.
  - left. exists (Some rows). auto.
  - destruct e; simpl; try (right; right; eexists; split; [reflexivity|split; [discriminate|split; [discriminate|reflexivity]]]);
      right; left; auto.
  - left. exists None. auto.
Qed.

Lemma config_is_inj p a b : config_is p a -> config_is p b -> a = b.
Proof. unfold config_is. congruence. Qed.
Lemma data_is_inj p a b : data_is p a -> data_is p b -> a = b.
Proof. unfold data_is. destruct a, b; congruence. Qed.
Lemma malformed_not p a : config_malformed p -> ~ config_is p a.
Proof. unfold config_malformed, config_is. intros [E|[v [E N]]] X; [congruence|]. apply (N a). congruence. Qed.
Lemma data_malformed_not p d : data_malformed p -> ~ data_is p d.
Proof. unfold data_malformed, data_is. intros [E|E] X; destruct d; congruence. Qed.

(** An outcome of reading that is not a known input error. *)
Lemma make_input_cases p :
  (exists inp, reads p inp /\ make_input p = Ret inp /\ ~ input_error p) \/
  (input_error p /\ make_input p = Raise InputError /\ forall inp, ~ reads p inp) \/
  (exists e, make_input p = Raise e /\ e <> InputError /\ ~ input_error p /\ forall inp, ~ reads p inp) \/
  (make_input p = Raise InputError /\ ~ input_error p /\ (forall inp, ~ reads p inp) /\
   (yaml_load p = Raise InputError \/ csv_read p = Some (Raise InputError))).
Proof.
  unfold make_input.
  destruct (load_config_cases p) as [[items [C ->]]|[[C ->]|[e [C [N ->]]]]]; simpl.
  - destruct (load_data_cases p) as [[data [D ->]]|[[D ->]|[e [D [N1 [N2 ->]]]]]]; simpl.
    + destruct (parse p items data) as [inp|e] eqn:P; simpl.
      * left. exists inp. split; [exists items, data; auto|]. split; [reflexivity|].
        intros [X|[[_ X]|[i [d [e [X1 [X2 [X3 X4]]]]]]]].
        { exact (malformed_not p items X C). }
        { exact (data_malformed_not p data X D). }
        { rewrite (config_is_inj p i items X1 C), (data_is_inj p d data X2 D) in X3. congruence. }
      * assert (NR : forall inp, ~ reads p inp).
        { intros inp [i [d [X1 [X2 X3]]]].
          rewrite (config_is_inj p i items X1 C), (data_is_inj p d data X2 D) in X3. congruence. }
        destruct (is_value_error e) eqn:V.
        { right; left. split; [right; right; exists items, data, e; split; [exact C|split; [exact D|split; [exact P|right; apply value_error_iff; exact V]]]|].
          split; [|exact NR]. destruct e; simpl in V; try discriminate; reflexivity. }
        { destruct e; simpl in V; try discriminate; cbn.
          2:{ right; left. split; [right; right; exists items, data, ColumnErr; auto|]. auto. }
          all: right; right; left; eexists; split; [reflexivity|split; [discriminate|split; [|exact NR]]];
            intros [X|[[_ X]|[i [d [e [X1 [X2 [X3 X4]]]]]]]];
            [exact (malformed_not p items X C)|exact (data_malformed_not p data X D)|];
            rewrite (config_is_inj p i items X1 C), (data_is_inj p d data X2 D) in X3;
            rewrite P in X3; injection X3 as <-;
            destruct X4 as [X4|X4]; [discriminate|]; apply value_error_iff in X4; discriminate. }
    + right; left. split; [right; left; split; [exists items; exact C|exact D]|]. split; [reflexivity|].
      intros inp [i [d [X1 [X2 X3]]]]. exact (data_malformed_not p d D X2).
    + assert (NR : forall inp, ~ reads p inp).
      { intros inp [i [d [X1 [X2 X3]]]]. unfold data_is in X2. destruct d; congruence. }
      assert (NI : ~ input_error p).
      { intros [X|[[_ X]|[i [d [e' [X1 [X2 [X3 X4]]]]]]]].
        - exact (malformed_not p items X C).
        - destruct X; congruence.
        - unfold data_is in X2. destruct d; congruence. }
      destruct e; try (right; right; left; eexists; split; [reflexivity|split; [discriminate|auto]]; fail).
      right; right; right. auto 6.
  - right; left. split; [left; exact C|]. split; [reflexivity|].
    intros inp [i [d [X1 _]]]. exact (malformed_not p i C X1).
  - assert (NR : forall inp, ~ reads p inp).
    { intros inp [i [d [X1 _]]]. unfold config_is in X1. congruence. }
    assert (NI : ~ input_error p).
    { intros [X|[[[i X] _]|[i [d [e' [X1 _]]]]]].
      - destruct X as [X|[v [X _]]]; congruence.
      - unfold config_is in X. congruence.
      - unfold config_is in X1. congruence. }
    destruct e; try (right; right; left; eexists; split; [reflexivity|split; [discriminate|auto]]; fail).
    right; right; right. auto 6.
Qed.

Lemma run_spec p : foreign p -> exists c w, run p None = Ret (c, w) /\
  (c = 0%Z \/ c = (-1)%Z \/ c = (-2)%Z \/ c = (-3)%Z \/ c = (-4)%Z) /\
  (c = 0%Z <-> exists r, writes p r /\
     match compare p with None => True | Some body => body r = Ret tt end) /\
  (c = (-2)%Z <-> input_error p) /\
  (c = (-3)%Z <-> exists inp e, reads p inp /\ calculate p inp = Raise e /\ value_error e) /\
  (c = (-4)%Z <-> exists r body e, writes p r /\ compare p = Some body /\
     body r = Raise e /\ calibration_problem e) /\
  (forall r, w = Some r <-> writes p r).
Proof.
  intros [Fy Fc].
  assert (U : forall inp inp', reads p inp -> reads p inp' -> inp = inp').
  { intros a b [i [d [X1 [X2 X3]]]] [i' [d' [Y1 [Y2 Y3]]]].
    rewrite (config_is_inj p i i' X1 Y1), (data_is_inj p d d' X2 Y2) in X3. congruence. }
  unfold run. destruct (make_input_cases p) as [[inp [Rd [-> NI]]]|[[IE [-> NR]]|[[e [-> [Ne [NI NR]]]]|[_ [_ [_ [X|X]]]]]]];
    [| | |contradiction|contradiction].
  - destruct (calculate p inp) as [r|e] eqn:C.
    + destruct (write p r) as [[]|e] eqn:W.
      * assert (Wr : writes p r) by (exists inp; auto).
        assert (Wu : forall r', writes p r' -> r' = r).
        { intros r' [i [X1 [X2 X3]]]. rewrite (U i inp X1 Rd) in X2. congruence. }
        assert (NC : ~ exists inp e, reads p inp /\ calculate p inp = Raise e /\ value_error e).
        { intros [i [e [X1 [X2 X3]]]]. rewrite (U i inp X1 Rd) in X2. congruence. }
        assert (WW : forall r', Some r = Some r' <-> writes p r').
        { intros r'. split; [intros E; injection E as <-; exact Wr|intros X; rewrite (Wu r' X); reflexivity]. }
        destruct (compare p) as [body|] eqn:K.
        2:{ unfold calibrate_and_exit. rewrite K. exists 0%Z, (Some r). split; [reflexivity|]. repeat split; auto; try lia; try discriminate; try tauto.
            - intros _. exists r. auto.
            - intros [r' [body [e [X1 [X2 _]]]]]. discriminate.
            - apply WW.
            - apply WW. }
        destruct (body r) as [[]|e] eqn:B.
        { unfold calibrate_and_exit. rewrite K, B. cbn. exists 0%Z, (Some r). split; [reflexivity|]. repeat split; auto; try lia; try discriminate; try tauto.
          - intros _. exists r. auto.
          - intros [r' [body' [e [X1 [X2 [X3 X4]]]]]]. injection X2 as <-. rewrite (Wu r' X1) in X3. congruence.
          - apply WW.
          - apply WW. }
        assert (N0 : ~ exists r, writes p r /\ body r = Ret tt).
        { intros [r' [X1 X2]]. rewrite (Wu r' X1) in X2. congruence. }
        assert (P4 : calibration_problem e <-> exists r body0 e, writes p r /\ Some body = Some body0 /\
                       body0 r = Raise e /\ calibration_problem e).
        { split.
          - intros X. exists r, body, e. auto.
          - intros [r' [body' [e' [X1 [X2 [X3 X4]]]]]]. injection X2 as <-. rewrite (Wu r' X1) in X3. congruence. }
        assert (Q : exists c, (c = (-1)%Z \/ c = (-4)%Z) /\ (c = (-4)%Z <-> calibration_problem e) /\
          calibrate_and_exit p r = (c, Some r)).
        { unfold calibrate_and_exit. rewrite K, B.
          unfold calibration_problem.
          destruct e; simpl;
            first [exists (-4)%Z; split; [auto|]; split; [|reflexivity]; split; [intros _; auto 8|reflexivity]; fail
                  |exists (-1)%Z; split; [auto|]; split; [|reflexivity]; split; [discriminate|intros X; decompose [or] X; discriminate]]. }
        destruct Q as [c [Qc [Q4 Qe]]]. rewrite Qe.
        exists c, (Some r). split; [reflexivity|]. split; [tauto|].
        split; [split; [intros ->; destruct Qc; discriminate|intros X; exfalso; apply N0; exact X]|].
        split; [split; [intros ->; destruct Qc; discriminate|intros X; exfalso; apply NI; exact X]|].
        split; [split; [intros ->; destruct Qc; discriminate|intros X; exfalso; apply NC; exact X]|].
        split; [|exact WW]. rewrite <- P4. exact Q4.
      * exists (-1)%Z, None. split; [reflexivity|].
        assert (NW : forall r', ~ writes p r').
        { intros r' [i [X1 [X2 X3]]]. rewrite (U i inp X1 Rd) in X2. congruence. }
        split; auto. split; [split; [discriminate|intros [r' [X _]]; exfalso; exact (NW r' X)]|].
        split; [split; [discriminate|intros X; exfalso; exact (NI X)]|].
        split; [split; [discriminate|intros [i [e' [X1 [X2 _]]]]; rewrite (U i inp X1 Rd) in X2; congruence]|].
        split; [split; [discriminate|intros [r' [b [e' [X1 _]]]]; exfalso; exact (NW r' X1)]|].
        intros r'. split; [discriminate|intros X; exfalso; exact (NW r' X)].
    + assert (NW : forall r', ~ writes p r').
      { intros r' [i [X1 [X2 X3]]]. rewrite (U i inp X1 Rd) in X2. congruence. }
      destruct (is_value_error e) eqn:V.
      * exists (-3)%Z, None. split; [reflexivity|].
        split; [auto|]. split; [split; [discriminate|intros [r' [X _]]; exfalso; exact (NW r' X)]|].
        split; [split; [discriminate|intros X; exfalso; exact (NI X)]|].
        split; [split; [intros _; exists inp, e; split; [exact Rd|split; [exact C|apply value_error_iff; exact V]]|reflexivity]|].
        split; [split; [discriminate|intros [r' [b [e' [X1 _]]]]; exfalso; exact (NW r' X1)]|].
        intros r'. split; [discriminate|intros X; exfalso; exact (NW r' X)].
      * exists (-1)%Z, None. split; [reflexivity|].
        split; [auto|]. split; [split; [discriminate|intros [r' [X _]]; exfalso; exact (NW r' X)]|].
        split; [split; [discriminate|intros X; exfalso; exact (NI X)]|].
        split; [split; [discriminate|]|].
        { intros [i [e' [X1 [X2 X3]]]]. rewrite (U i inp X1 Rd) in X2. apply value_error_iff in X3. congruence. }
        split; [split; [discriminate|intros [r' [b [e' [X1 _]]]]; exfalso; exact (NW r' X1)]|].
        intros r'. split; [discriminate|intros X; exfalso; exact (NW r' X)].
  - assert (NW : forall r', ~ writes p r') by (intros r' [i [X1 _]]; exact (NR i X1)).
    exists (-2)%Z, None. split; [reflexivity|]. split; [auto|].
    split; [split; [discriminate|intros [r' [X _]]; exfalso; exact (NW r' X)]|].
    split; [tauto|].
    split; [split; [discriminate|intros [i [e' [X1 _]]]; exfalso; exact (NR i X1)]|].
    split; [split; [discriminate|intros [r' [b [e' [X1 _]]]]; exfalso; exact (NW r' X1)]|].
    intros r'. split; [discriminate|intros X; exfalso; exact (NW r' X)].
  - assert (NW : forall r', ~ writes p r') by (intros r' [i [X1 _]]; exact (NR i X1)).
    assert (E : (match e with InputError => Ret ((-2)%Z, None) | _ => Ret ((-1)%Z, None) end : out (outcome Out))
                = Ret ((-1)%Z, None)) by (destruct e; try reflexivity; contradiction).
    exists (-1)%Z, None. split; [exact E|]. split; [auto|].
    split; [split; [discriminate|intros [r' [X _]]; exfalso; exact (NW r' X)]|].
    split; [split; [discriminate|intros X; exfalso; exact (NI X)]|].
    split; [split; [discriminate|intros [i [e' [X1 _]]]; exfalso; exact (NR i X1)]|].
    split; [split; [discriminate|intros [r' [b [e' [X1 _]]]]; exfalso; exact (NW r' X1)]|].
    intros r'. split; [discriminate|intros X; exfalso; exact (NW r' X)].
Qed.
End Run.

(* ---- percentages in double precision ---- *)
Lemma fl_error x : Rabs (fl x - x) <= Rabs x * / 2 ^ 53 + / 2 ^ 1075.
Proof.
  unfold fl. destruct (error_N_FLT radix2 (-1074) 53 ltac:(lia) (fun n => negb (Z.even n)) x) as [eps [eta [He [Ht [_ ->]]]]].
  replace (x * (1 + eps) + eta - x) with (x * eps + eta) by ring.
  eapply Rle_trans; [apply Rabs_triang|]. apply Rplus_le_compat.
  - rewrite Rabs_mult. apply Rmult_le_compat_l; [apply Rabs_pos|].
    eapply Rle_trans; [exact He|]. right. change (-53 + 1)%Z with (-52)%Z.
    change (bpow radix2 (-52)) with (/ IZR (Z.pow_pos 2 52)). 
    change (Z.pow_pos 2 52) with (2 ^ 52)%Z. rewrite (pow_IZR 2 53 : 2 ^ 53 = _).
    change (2 ^ Z.of_nat 53)%Z with (2 * 2 ^ 52)%Z. rewrite mult_IZR. rewrite Rinv_mult. reflexivity.
  - eapply Rle_trans; [exact Ht|]. right.
    change (-1074)%Z with (- Z.of_nat 1074)%Z. rewrite bpow_opp.
    rewrite <- (IZR_Zpower radix2) by lia. change (Zpower radix2 (Z.of_nat 1074)) with (2 ^ Z.of_nat 1074)%Z.
    rewrite <- pow_IZR. rewrite <- Rinv_mult. f_equal. 
Qed.

Lemma tiny : / 2 ^ 1075 <= / 2 ^ 60.
Proof. apply Rinv_le_contravar; [apply pow_lt; lra|]. apply Rle_pow; [lra|lia]. Qed.

Lemma fl_close x b : Rabs x <= b -> Rabs (fl x - x) <= b * / 2 ^ 53 + / 2 ^ 60.
Proof.
  intros H. eapply Rle_trans; [apply fl_error|]. apply Rplus_le_compat; [|exact tiny].
  apply Rmult_le_compat_r; [|exact H]. left. apply Rinv_0_lt_compat. apply pow_lt. lra.
Qed.

Lemma percentage_error f n : (f <= n)%nat ->
  Rabs (success_percentage f n - exact_percentage f n) <= 1 / 10 ^ 13.
Proof.
  intros Hf. unfold success_percentage, exact_percentage. destruct n as [|n].
  { simpl Nat.eqb. cbv iota. replace (100 - 100) with 0 by ring. rewrite Rabs_R0. lra. }
  simpl Nat.eqb. cbv iota. set (N := INR (S n)). set (F := INR f).
  assert (HN : 0 < N) by (apply lt_0_INR; lia).
  assert (HF : 0 <= F <= N) by (split; [apply pos_INR|apply le_INR; exact Hf]).
  set (q := F / N). assert (Hq : 0 <= q <= 1).
  { unfold q, Rdiv. split.
    - apply Rmult_le_pos; [lra|]. left. apply Rinv_0_lt_compat. exact HN.
    - apply Rmult_le_reg_r with N; [exact HN|]. rewrite Rmult_assoc, Rinv_l by lra. lra. }
  replace (100 * (N - F) / N) with (100 * (1 - q)) by (unfold q; field; lra).
  assert (E0 : / 2 ^ 53 <= 1 / 9 / 10 ^ 15) by (simpl; lra).
  assert (E1 : / 2 ^ 60 <= 1 / 10 ^ 18) by (simpl; lra).
  assert (P53 : 0 < / 2 ^ 53) by (apply Rinv_0_lt_compat, pow_lt; lra).
  pose proof (fl_close q 1 ltac:(rewrite Rabs_pos_eq; lra)) as A. apply Rabs_le_inv in A.
  set (x := fl q) in *.
  assert (Hx : Rabs (1 - x) <= 2) by (apply Rabs_le; lra).
  pose proof (fl_close (1 - x) 2 Hx) as B. apply Rabs_le_inv in B. set (y := fl (1 - x)) in *.
  assert (Hy : Rabs (y * 100) <= 101) by (apply Rabs_le; lra).
  pose proof (fl_close (y * 100) 101 Hy) as C. apply Rabs_le_inv in C. set (z := fl (y * 100)) in *.
  apply Rabs_le. lra.
Qed.

Lemma fl_le x y : x <= y -> fl x <= fl y.
Proof. intros H. unfold fl. apply round_le; [apply FLT_exp_valid; red; lia|apply valid_rnd_N|exact H]. Qed.
Lemma fl_small_int n : (Z.abs n <= 2 ^ 53)%Z -> fl (IZR n) = IZR n.
Proof.
  intros H. unfold fl. apply round_generic; [apply valid_rnd_N|]. apply generic_format_FLT.
  destruct (Z.eq_dec (Z.abs n) (2 ^ 53)) as [E|N].
  - exists (Float radix2 (n / 2) 1).
    + unfold F2R; simpl. rewrite <- mult_IZR. f_equal.
      assert (D : (n mod 2 = 0)%Z). { destruct (Z.abs_spec n) as [[_ X]|[_ X]]; rewrite X in E; [subst n; reflexivity|]. replace n with (- 2 ^ 53)%Z by lia. reflexivity. }
      pose proof (Z.div_mod n 2). lia.
    + simpl. destruct (Z.abs_spec n) as [[_ X]|[_ X]]; rewrite X in E; [subst n; reflexivity|].
      replace n with (- 2 ^ 53)%Z by lia. reflexivity.
    + simpl. lia.
  - exists (Float radix2 n 0).
    + unfold F2R; simpl. ring.
    + simpl. change (Z.pow_pos 2 53) with (2 ^ 53)%Z. lia.
    + simpl. lia.
Qed.

Lemma percentage_range f n : (f <= n)%nat -> 0 <= success_percentage f n <= 100.
Proof.
  intros Hf. unfold success_percentage. destruct n as [|n]; [simpl Nat.eqb; cbv iota; lra|].
  simpl Nat.eqb; cbv iota. set (N := INR (S n)). set (F := INR f).
  assert (HN : 0 < N) by (apply lt_0_INR; lia).
  assert (HF : 0 <= F <= N) by (split; [apply pos_INR|apply le_INR; exact Hf]).
  assert (Hq : 0 <= F / N <= 1).
  { unfold Rdiv. split.
    - apply Rmult_le_pos; [lra|]. left. apply Rinv_0_lt_compat. exact HN.
    - apply Rmult_le_reg_r with N; [exact HN|]. rewrite Rmult_assoc, Rinv_l by lra. lra. }
  assert (Z0 : fl 0 = 0) by (apply (fl_small_int 0); simpl; lia).
  assert (Z1 : fl 1 = 1) by (apply (fl_small_int 1); simpl; lia).
  assert (Z2 : fl 100 = 100) by (apply (fl_small_int 100); simpl; lia).
  set (x := fl (F / N)).
  assert (Hx : 0 <= x <= 1) by (split; [rewrite <- Z0|rewrite <- Z1]; apply fl_le; lra).
  set (y := fl (1 - x)).
  assert (Hy : 0 <= y <= 1) by (split; [rewrite <- Z0|rewrite <- Z1]; apply fl_le; lra).
  split; [rewrite <- Z0 at 1; apply fl_le; lra|]. eapply Rle_trans; [apply (fl_le _ 100); lra|]. lra.
Qed.

Lemma percentage_no_failures n : success_percentage 0 n = 100.
Proof.
  unfold success_percentage. destruct n as [|n]; [reflexivity|]. simpl Nat.eqb; cbv iota.
  assert (Z0 : fl 0 = 0) by (apply (fl_small_int 0); simpl; lia).
  assert (Z1 : fl 1 = 1) by (apply (fl_small_int 1); simpl; lia).
  assert (Z2 : fl 100 = 100) by (apply (fl_small_int 100); simpl; lia).
  change (INR 0) with 0. replace (0 / INR (S n)) with 0 by (field; apply not_0_INR; lia).
  rewrite Z0. replace (1 - 0) with 1 by ring. rewrite Z1. replace (1 * 100) with 100 by ring. exact Z2.
Qed.

(** The value of a rounding from its exponent and nearest mantissa. *)
Lemma fl_value x e m : (-1021 <= e)%Z ->
  bpow radix2 (e - 1) <= x < bpow radix2 e ->
  Rabs (x * bpow radix2 (53 - e) - IZR m) < / 2 -> fl x = IZR m * bpow radix2 (e - 53).
Proof.
  intros He Hx Hm. unfold fl, round, scaled_mantissa, cexp.
  assert (M : mag radix2 x = e :> Z).
  { apply mag_unique. rewrite Rabs_pos_eq; [exact Hx|]. destruct Hx as [H _].
    eapply Rle_trans; [|exact H]. apply bpow_ge_0. }
  rewrite M. unfold FLT_exp. rewrite Z.max_l by lia.
  replace (- (e - 53))%Z with (53 - e)%Z by lia. rewrite (Znearest_imp _ _ m Hm). reflexivity.
Qed.

Lemma nine_of_ten : success_percentage 9 10 < 10.
Proof.
  unfold success_percentage. simpl Nat.eqb; cbv iota.
  replace (INR 9) with 9 by (simpl; ring). replace (INR 10) with 10 by (simpl; ring).
  rewrite (fl_value (9 / 10) 0 8106479329266893); [|lia|simpl; unfold Z.pow_pos; simpl; lra|simpl; unfold Z.pow_pos; simpl; apply Rabs_def1; lra].
  rewrite (fl_value (1 - _) (-3) 7205759403792792); [|lia|simpl; unfold Z.pow_pos; simpl; lra|simpl; unfold Z.pow_pos; simpl; apply Rabs_def1; lra].
  rewrite (fl_value _ 4 5629499534213119); [|lia|simpl; unfold Z.pow_pos; simpl; lra|simpl; unfold Z.pow_pos; simpl; apply Rabs_def1; lra].
  simpl; unfold Z.pow_pos; simpl; lra.
Qed.

(* ---- threshold mode ---- *)
Section Threshold.
Context {Row Inp Out : Type}.
Implicit Type p : program Row Inp Out.

Definition row_input p items (row : Row) : option Inp :=
  match parse p items (Some [row]) with Ret inp => Some inp | Raise _ => None end.

Lemma rows_give_calculated p items rows rs f :
  rows_give p items rows rs f -> calculate_rows p (map (row_input p items) rows) = (rs, f).
Proof.
  intros H. induction H as [|row rows r rs f [inp [P C]] H IH|row rows rs f N H IH]; [reflexivity| |].
  - simpl. rewrite IH. unfold row_input. rewrite P, C. reflexivity.
  - simpl. rewrite IH. unfold row_input. destruct (parse p items (Some [row])) as [inp|e] eqn:P; [|reflexivity].
    destruct (calculate p inp) as [r|e] eqn:C; [|reflexivity]. exfalso. apply (N r). exists inp. auto.
Qed.

Lemma rows_give_total p items rows : exists rs f, rows_give p items rows rs f.
Proof.
  induction rows as [|row rows [rs [f IH]]]; [exists [], O; constructor|].
  destruct (parse p items (Some [row])) as [inp|e] eqn:P.
  - destruct (calculate p inp) as [r|e] eqn:C.
    + exists (r :: rs), f. constructor; [exists inp; auto|exact IH].
    + exists rs, (S f). constructor; [|exact IH]. intros r [i [X Y]]. congruence.
  - exists rs, (S f). constructor; [|exact IH]. intros r [i [X Y]]. congruence.
Qed.

Lemma rows_give_length p items rows rs f : rows_give p items rows rs f -> (length rs + f = length rows)%nat.
Proof. intros H. induction H; simpl; lia. Qed.

Lemma threshold_run p items rows rs f t :
  config_is p items -> data_is p (Some rows) -> rows_give p items rows rs f ->
  run p (Some t) =
    if Rlt_dec (success_percentage f (length rows)) t then Ret ((-5)%Z, None)
    else match rs with
         | [] => Ret ((-1)%Z, None)
         | _ => match write p (concat rs) with
                | Raise _ => Ret ((-1)%Z, None)
                | Ret _ => Ret (calibrate_and_exit p (concat rs))
                end
         end.
Proof.
  intros C D H. unfold run, run_with_threshold. unfold data_is in D. rewrite D.
  assert (M : make_per_row_input p = Ret (map (row_input p items) rows)).
  { unfold make_per_row_input, load_config_from_yaml, load_data_from_csv. unfold config_is in C.
    rewrite C, D. reflexivity. }
  rewrite M. cbn [then_]. rewrite (rows_give_calculated _ _ _ _ _ H), map_length.
  destruct (Rlt_dec _ t); [reflexivity|]. destruct rs as [|r rs]; [reflexivity|].
  unfold pd_concat, then_. destruct (write p (concat (r :: rs))); reflexivity.
Qed.

Lemma calibrate_shape p r : exists c, calibrate_and_exit p r = (c, Some r) /\ (c = 0%Z \/ c = (-4)%Z \/ c = (-1)%Z).
Proof.
  unfold calibrate_and_exit. destruct (compare p) as [body|]; [|eexists; split; [reflexivity|auto]].
  destruct (run_calibration (body r)) as [u|e]; [eexists; split; [reflexivity|auto]|].
  destruct e; eexists; (split; [reflexivity|auto]).
Qed.

Lemma threshold_output p items rows rs f t :
  config_is p items -> data_is p (Some rows) -> rows_give p items rows rs f ->
  exists c w, run p (Some t) = Ret (c, w) /\ (c = (-5)%Z -> w = None) /\
    (forall r, w = Some r -> r = concat rs) /\
    (c = (-5)%Z <-> success_percentage f (length rows) < t) /\
    (c <> (-5)%Z -> rs <> [] -> write p (concat rs) = Ret tt -> w = Some (concat rs)).
Proof.
  intros C D H. rewrite (threshold_run p items rows rs f t C D H).
  destruct (Rlt_dec _ t) as [L|L].
  { exists (-5)%Z, None. repeat split; auto; try discriminate. intros X; contradiction. }
  destruct rs as [|r rs].
  { exists (-1)%Z, None. repeat split; auto; try discriminate; [intros X; lra|contradiction]. }
  destruct (write p (concat (r :: rs))) as [[]|e].
  - destruct (calibrate_shape p (concat (r :: rs))) as [c [-> Hc]]. exists c, (Some (concat (r :: rs))).
    split; [reflexivity|]. split; [intros ->; destruct Hc as [X|[X|X]]; discriminate X|].
    split; [intros x X; injection X as <-; reflexivity|].
    split; [|reflexivity]. split; [intros ->; destruct Hc as [X|[X|X]]; discriminate X|intros X; contradiction].
  - exists (-1)%Z, None. repeat split; auto; try discriminate; intros; lra.
Qed.

Lemma threshold_margin p items rows rs f t :
  config_is p items -> data_is p (Some rows) -> rows_give p items rows rs f ->
  1 / 10 ^ 13 < Rabs (exact_percentage f (length rows) - t) ->
  exists c w, run p (Some t) = Ret (c, w) /\ (c = (-5)%Z <-> exact_percentage f (length rows) < t).
Proof.
  intros C D H M. destruct (threshold_output p items rows rs f t C D H) as [c [w [E [_ [_ [X _]]]]]].
  exists c, w. split; [exact E|]. rewrite X.
  pose proof (rows_give_length _ _ _ _ _ H) as Ln.
  pose proof (percentage_error f (length rows) ltac:(lia)) as Q. apply Rabs_le_inv in Q.
  unfold Rabs in M. destruct (Rcase_abs _) in M; split; intros; lra.
Qed.

(** An exact percentage different from an integer differs by at least one
    in the number of rows. *)
Lemma integer_gap f n k : (0 < n)%nat -> (f <= n)%nat -> INR n <= 10 ^ 12 ->
  exact_percentage f n <> IZR k -> 1 / 10 ^ 13 < Rabs (exact_percentage f n - IZR k).
Proof.
  intros Hn Hf Hb Ne. unfold exact_percentage in *. destruct n as [|n]; [lia|].
  set (N := INR (S n)) in *.
  assert (HN : 0 < N) by (apply lt_0_INR; lia).
  assert (E : 100 * (N - INR f) / N - IZR k = IZR (100 * (Z.of_nat (S n) - Z.of_nat f) - k * Z.of_nat (S n)) / N).
  { rewrite minus_IZR, !mult_IZR, minus_IZR, <- !INR_IZR_INZ. fold N. field. lra. }
  rewrite E. set (z := (100 * (Z.of_nat (S n) - Z.of_nat f) - k * Z.of_nat (S n))%Z) in *.
  assert (Hz : (z <> 0)%Z). { intros X. rewrite X in E. apply Ne. unfold Rdiv in *. lra. }
  unfold Rdiv. rewrite Rabs_mult, Rabs_inv, (Rabs_pos_eq N) by lra.
  assert (Hz1 : 1 <= Rabs (IZR z)). { rewrite <- abs_IZR. apply IZR_le. lia. }
  assert (Hi : 1 / 10 ^ 12 <= / N).
  { unfold Rdiv. rewrite Rmult_1_l. apply Rinv_le_contravar; [exact HN|exact Hb]. }
  apply Rlt_le_trans with (1 * / N); [|apply Rmult_le_compat_r; [left; apply Rinv_0_lt_compat; exact HN|exact Hz1]].
  rewrite (Rmult_1_l (/ N)). eapply Rlt_le_trans; [|exact Hi]. simpl. lra.
Qed.

Lemma threshold_escapes p t : csv_read p <> None -> config_malformed p -> run p (Some t) = Raise InputError.
Proof.
  intros Hd Hc. unfold run, run_with_threshold. destruct (csv_read p); [|contradiction].
  unfold make_per_row_input. destruct (load_config_cases p) as [[items [C _]]|[[_ ->]|[e [E [Ne _]]]]].
  - exfalso. exact (malformed_not p items Hc C).
  - reflexivity.
  - exfalso. destruct Hc as [X|[v [X _]]]; congruence.
Qed.

Lemma threshold_escapes_data p items t : config_is p items -> data_malformed p -> run p (Some t) = Raise InputError.
Proof.
  intros C D. unfold run, run_with_threshold, make_per_row_input, load_config_from_yaml, load_data_from_csv.
  unfold config_is in C. rewrite C. destruct D as [-> | ->]; reflexivity.
Qed.
End Threshold.

Lemma percentage_spec v x : percentage v = Some x <-> v = Finite x /\ 0 <= x <= 100.
Proof.
  unfold percentage. split.
  - destruct v as [y| | | |]; try discriminate. destruct (Rle_dec 0 y); [|discriminate].
    destruct (Rle_dec y 100); [|discriminate]. intros E. injection E as <-. auto.
  - intros [-> [A B]]. destruct (Rle_dec 0 x); [|contradiction]. destruct (Rle_dec x 100); [reflexivity|contradiction].
Qed.
