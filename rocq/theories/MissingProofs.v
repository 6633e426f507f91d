(** Numbers among the results need numbers in the table. *)
From Coq Require Import String List ZArith Lra Lia.
From Verif Require Import Base BaseProofs FluidsModel ConfigModel BatzleWangModel RowModel NumModel NanModel NanSpec PoisonSpec MissingSpec.
Import ListNotations.
Open Scope R_scope.

(** ** One value *)
Definition isn (a : num) : Prop := a <> Nan.
Lemma isn_num : forall a, isn a -> exists x, a = Num x.
Proof. intros [x|] H; [exists x; reflexivity|contradiction]. Qed.
Lemma num_isn : forall x, isn (Num x).
Proof. intros x H. discriminate. Qed.
Lemma isn1 : forall f a, isn (nlift1 f a) -> isn a.
Proof. intros f [x|] H; [apply num_isn|exact H]. Qed.
Lemma isn2 : forall f a b, isn (nlift2 f a b) -> isn a /\ isn b.
Proof. intros f [x|] [y|] H; split; try apply num_isn; exfalso; apply H; reflexivity. Qed.
Lemma isn_div : forall a b z, n_div a b = Ok z -> isn z -> isn a /\ isn b.
Proof. intros [x|] [y|] z E H; cbn in E; try (injection E as <-; contradiction). split; apply num_isn. Qed.
Lemma isn_pdiv : forall a b z, p_div a b = Ok z -> isn z -> isn a /\ isn b.
Proof.
  intros [x|] [y|] z E H; cbn in E; try (injection E as <-; contradiction).
  - split; apply num_isn.
  - destruct (Req_EM_T y 0); [discriminate|]. injection E as <-. contradiction.
Qed.
Lemma isn_sqrt : forall a z, n_sqrt a = Ok z -> isn z -> isn a.
Proof. intros [x|] z E H; [apply num_isn|]. injection E as <-. exact H. Qed.
Lemma isn_ppow : forall a y z, p_pow a y = Ok z -> isn z -> isn a.
Proof. intros [x|] y z E H; [apply num_isn|]. injection E as <-. exact H. Qed.
Lemma isn_npow : forall a y z, y <> 0 -> n_pow a (Num y) = Ok z -> isn z -> isn a.
Proof.
  intros [x|] y z N E H; [apply num_isn|]. cbn in E. destruct (Req_EM_T y 0); [contradiction|].
  injection E as <-. exact H.
Qed.
Lemma neqb_isn : forall a b, neqb a b = true -> a = b /\ isn a /\ isn b.
Proof.
  intros [x|] [y|] E; cbn in E; try discriminate. destruct (Req_EM_T x y) as [->|]; [|discriminate].
  split; [reflexivity|]. split; apply num_isn.
Qed.

Tactic Notation "nb" hyp(H) ident(x) ident(E) := let H2 := fresh in destruct (proj1 (bind_ok _ _ _) H) as (x & E & H2); clear H; rename H2 into H.
Ltac isn_step :=
  match goal with
  | H : isn (nadd _ _) |- _ => apply isn2 in H; destruct H
  | H : isn (nsub _ _) |- _ => apply isn2 in H; destruct H
  | H : isn (nmul _ _) |- _ => apply isn2 in H; destruct H
  | H : isn (nquot _ _) |- _ => apply isn2 in H; destruct H
  | H : isn (nmin _ _) |- _ => apply isn2 in H; destruct H
  | H : isn (nmax _ _) |- _ => apply isn2 in H; destruct H
  | H : isn (nopp _) |- _ => apply isn1 in H
  | H : isn (nabs _) |- _ => apply isn1 in H
  | H : isn (nexp _) |- _ => apply isn1 in H
  | H : isn (npow _ _) |- _ => apply isn1 in H
  | E : n_div _ _ = Ok ?z, H : isn ?z |- _ => destruct (isn_div _ _ _ E H); clear E
  | E : p_div _ _ = Ok ?z, H : isn ?z |- _ => destruct (isn_pdiv _ _ _ E H); clear E
  | E : n_sqrt _ = Ok ?z, H : isn ?z |- _ => pose proof (isn_sqrt _ _ E H); clear E
  | E : p_pow _ _ = Ok ?z, H : isn ?z |- _ => pose proof (isn_ppow _ _ _ E H); clear E
  end.
Ltac isn_all := repeat isn_step; repeat split; assumption.

(** ** Polynomials *)
Lemma eval_arg : forall x c, c <> [] -> isn (n_poly_eval x c) -> isn x.
Proof. intros x [|a c] N H; [contradiction|]. cbn in H. isn_all. Qed.
Lemma eval_coefficients : forall x c, isn (n_poly_eval x c) -> Forall isn c.
Proof. intros x c. induction c as [|a c IH]; intros H; constructor; cbn in H; isn_step; [assumption|]. isn_step. apply IH. assumption. Qed.
Lemma rows_arg : forall x c a, In a (n_poly_rows x c) -> isn a -> isn x.
Proof.
  intros x c a. destruct c as [|row c]; [intros []|]. destruct c as [|row' c].
  - cbn. intros I H. apply in_map_iff in I. destruct I as (b & <- & _). isn_all.
  - change (n_poly_rows x (row :: row' :: c)) with (nmap2 (fun a acc => nadd a (nmul acc x)) row (n_poly_rows x (row' :: c))).
    generalize (n_poly_rows x (row' :: c)).
    induction row as [|b row IH]; intros [|e m]; cbn; intros I H; try contradiction.
    destruct I as [<-|I]; [isn_all|]. apply (IH m I H).
Qed.
Lemma polyval2d_args : forall x y c z, n_polyval2d_of x y c = Ok z -> isn z -> isn x /\ isn y.
Proof.
  intros x y c z E H. unfold n_polyval2d_of in E. destruct (n_poly_rows x c) as [|a l] eqn:L; [discriminate|].
  injection E as <-. split; [|apply (eval_arg y (a :: l)); [discriminate|exact H]].
  apply (eval_coefficients y (a :: l)) in H. apply (rows_arg x c a); [rewrite L; left; reflexivity|inversion H; assumption].
Qed.

(** ** Fluids *)
Lemma velocity_fluid : forall d p m, nfluid_of_velocity d p = Ok m -> (isn (v_dens m) \/ isn (v_bulk m)) -> isn d.
Proof.
  intros d p m E H. unfold nfluid_of_velocity in E.
  nb E u1 E1. nb E u2 E2. nb E s E3. nb E u4 E4. injection E as <-. cbn in H. destruct H as [H|H]; [exact H|].
  unfold n_bulk_modulus in H. isn_all.
Qed.
Lemma velocity_density : forall d p m, nfluid_of_velocity d p = Ok m -> v_dens m = d.
Proof.
  intros d p m E. unfold nfluid_of_velocity in E.
  nb E u1 E1. nb E u2 E2. nb E s E3. nb E u4 E4. injection E as <-. reflexivity.
Qed.
Lemma bulk_fluid : forall k d m, nfluid_of_bulk k d = Ok m -> v_dens m = d /\ v_bulk m = k.
Proof.
  intros k d m E. unfold nfluid_of_bulk, nmaterial_of_moduli in E.
  nb E u1 E1. nb E u2 E2. nb E p E3. nb E s E4. nb E u5 E5. injection E as <-. split; reflexivity.
Qed.
Lemma brine_args : forall t p s m, n_brine t p s = Ok m -> (isn (v_dens m) \/ isn (v_bulk m)) -> isn t /\ isn p /\ isn s.
Proof.
  intros t p s m E H. unfold n_brine in E. nb E d E1. nb E v E2. apply (velocity_fluid _ _ _ E) in H.
  unfold n_brine_density in E1. nb E1 w E3. nb E1 q E4. injection E1 as <-. isn_step. isn_step.
  apply polyval2d_args in E3; [|assumption]. destruct E3. isn_all.
Qed.
Lemma ideal_args : forall t p g m, n_ideal_gas t p g = Ok m -> isn (v_dens m) -> isn t /\ isn p /\ isn g.
Proof.
  intros t p g m E H. unfold n_ideal_gas in E. nb E d E1. nb E v E2. apply velocity_density in E. rewrite E in H.
  unfold n_ideal_gas_density, n_molar_volume in E1. nb E1 w E3. unfold n_molecular_weight in E1. isn_all.
Qed.
Lemma gas_args : forall t p g m, n_gas t p g = Ok m -> (isn (v_dens m) \/ isn (v_bulk m)) -> isn t /\ isn p /\ isn g.
Proof.
  intros t p g m E H. unfold n_gas in E. nb E d E1. nb E k E2. apply bulk_fluid in E. destruct E as [D K].
  rewrite D, K in H. unfold n_celsius_to_kelvin in *. destruct H as [H|H].
  - unfold n_gas_density in E1. nb E1 i E3. nb E1 z E4. isn_step.
    apply ideal_args in E3; [|assumption]. destruct E3 as (A & B & C). isn_all.
  - isn_step. unfold n_gas_bulk_modulus in E2. nb E2 z E3. nb E2 dz E4. nb E2 ppr E5. nb E2 gg E6. nb E2 q E7.
    repeat isn_step. unfold n_compressability_factor in E3. nb E3 tpr E8. nb E3 ppr' E9. nb E3 i E10. nb E3 q' E11. nb E3 e E12.
    injection E3 as <-. unfold n_pseudoreduced_temperature, n_pseudoreduced_pressure in *. isn_all.
Qed.
Lemma oil_args : forall t p r gor g m, n_oil t p r gor g = Ok m -> (isn (v_dens m) \/ isn (v_bulk m)) ->
  isn t /\ isn p /\ isn r /\ isn gor /\ isn g.
Proof.
  intros t p r gor g m E H. unfold n_oil in E. nb E lo E1. nb E d_o E2. apply (velocity_fluid _ _ _ E) in H. clear E.
  repeat isn_step.
  unfold n_live_oil in E1. nb E1 w1 F1. nb E1 w2 F2. nb E1 d F3. nb E1 v F4. apply velocity_density in E1. rewrite E1 in *.
  unfold n_dead_oil in E2. nb E2 d' G1. nb E2 v' G2. apply velocity_density in E2. rewrite E2 in *.
  repeat isn_step.
  unfold n_live_oil_density in F3. nb F3 b0 F5. unfold n_dead_oil_density, n_temperature_adjusted_dead_oil_density in G1. nb G1 q G3.
  unfold n_pressure_adjusted_dead_oil_density in G1. isn_all.
Qed.

(** ** Columns *)
Definition at_row (i : nat) (a : arr num) : Prop := exists x, entry i a = Some x /\ isn x.
Lemma at_number : forall i a, at_row i a <-> number_at i a.
Proof.
  intros i a. split.
  - intros (x & E & H). destruct (isn_num x H) as [y ->]. exists y. exact E.
  - intros (x & E). exists (Num x). split; [exact E|apply num_isn].
Qed.
Lemma entry_pmap : forall {A B} (f : A -> B) i a y, entry i (pmap f a) = Some y -> exists x, entry i a = Some x /\ y = f x.
Proof.
  intros A B f i [x|l] y; cbn.
  - intros H. injection H as <-. exists x. split; reflexivity.
  - rewrite nth_error_map. destruct (nth_error l i) as [x|]; cbn; [|discriminate]. intros H. injection H as <-.
    exists x. split; reflexivity.
Qed.
Lemma nth_combine_back : forall {A B} (l : list A) (m : list B) i p, nth_error (combine l m) i = Some p ->
  nth_error l i = Some (fst p) /\ nth_error m i = Some (snd p).
Proof.
  intros A B l. induction l as [|a l IH]; intros [|b m] [|i] p E; cbn in E; try discriminate.
  - injection E as <-. split; reflexivity.
  - apply (IH m i p E).
Qed.
Lemma entry_zip_back : forall {A B} i (a : arr A) (b : arr B) p, entry i (zip a b) = Some p ->
  entry i a = Some (fst p) /\ entry i b = Some (snd p).
Proof.
  intros A B i [x|l] [y|m] p; cbn.
  - intros H. injection H as <-. split; reflexivity.
  - rewrite nth_error_map. destruct (nth_error m i); cbn; [|discriminate]. intros H. injection H as <-. split; reflexivity.
  - rewrite nth_error_map. destruct (nth_error l i); cbn; [|discriminate]. intros H. injection H as <-. split; reflexivity.
  - apply nth_combine_back.
Qed.
Lemma nth_sequence_back : forall {A B} (f : A -> res B) l m i y, sequence (map f l) = Ok m -> nth_error m i = Some y ->
  exists x, nth_error l i = Some x /\ f x = Ok y.
Proof.
  intros A B f l. induction l as [|a l IH]; intros m i y E N; cbn in E.
  - injection E as <-. destruct i; discriminate.
  - nb E b E1. nb E m' E2. injection E as <-. destruct i as [|i]; cbn in N.
    + injection N as <-. exists a. split; [reflexivity|exact E1].
    + apply (IH m' i y E2 N).
Qed.
Lemma entry_amap : forall {A B} (f : A -> res B) i a b y, amap f a = Ok b -> entry i b = Some y ->
  exists x, entry i a = Some x /\ f x = Ok y.
Proof.
  intros A B f i [x|l] b y E N; cbn in E.
  - nb E z E1. injection E as <-. cbn in N. injection N as <-. exists x. split; [reflexivity|exact E1].
  - nb E m E1. injection E as <-. apply (nth_sequence_back f l m i y E1 N).
Qed.
Lemma at_pmap : forall {A} (f : A -> num) i a, at_row i (pmap f a) -> exists x, entry i a = Some x /\ isn (f x).
Proof. intros A f i a (y & E & H). apply entry_pmap in E. destruct E as (x & E & ->). exists x. split; assumption. Qed.
Lemma at_amap : forall {A} (f : A -> res num) i a b, amap f a = Ok b -> at_row i b ->
  exists x y, entry i a = Some x /\ f x = Ok y /\ isn y.
Proof.
  intros A f i a b E (y & N & H). destruct (entry_amap f i a b y E N) as (x & X & F). exists x, y. repeat split; assumption.
Qed.
(** Take the entry of zipped columns apart. *)
Ltac unzip_ :=
  repeat match goal with
  | E : entry _ (zip3 _ _ _) = Some _ |- _ => unfold zip3 in E
  | E : entry _ (zip4 _ _ _ _) = Some _ |- _ => unfold zip4 in E
  | E : entry _ (zip5 _ _ _ _ _) = Some _ |- _ => unfold zip5 in E
  | E : entry _ (zip6 _ _ _ _ _ _) = Some _ |- _ => unfold zip6 in E
  | E : entry _ (zip _ _) = Some ?p |- _ => apply entry_zip_back in E; destruct E; try (is_var p; destruct p as [? ?]); cbn [fst snd] in *
  end.
Lemma at_sum2 : forall i a b, at_row i (pmap (fun x => nadd (fst x) (snd x)) (zip a b)) -> at_row i a /\ at_row i b.
Proof.
  intros i a b H. apply at_pmap in H. destruct H as ([x y] & E & H). unzip_. isn_step.
  split; eexists; split; eassumption.
Qed.
Lemma at_nsum : forall i l, at_row i (nsum l) -> Forall (at_row i) l.
Proof. intros i l. induction l as [|a l IH]; cbn; intros H; constructor; apply at_sum2 in H; destruct H; auto. Qed.

(** ** Materials *)
Lemma moduli_kept : forall k mu d m, nmat_of_moduli k mu d = Ok m -> n_bulk m = k /\ n_shear m = mu /\ n_dens m = d.
Proof.
  intros k mu d m E. unfold nmat_of_moduli in E. nb E u1 E1. nb E u2 E2. nb E p E3. nb E s E4. nb E u5 E5.
  injection E as <-. repeat split.
Qed.
Lemma velocities_kept : forall d p s m, nmat_of_velocities d p s = Ok m -> n_dens m = d /\
  n_bulk m = pmap (fun x => n_bulk_modulus (fst (fst x)) (snd (fst x)) (snd x))
    (zip3 p (pmap (fun x => n_shear_modulus (fst x) (snd x)) (zip s d)) d).
Proof.
  intros d p s m E. unfold nmat_of_velocities in E. nb E u1 E1. nb E u2 E2. injection E as <-. split; reflexivity.
Qed.
Lemma arbitrary_kept : forall k mu d m, narbitrary k mu d = Ok m -> n_bulk m = k /\ n_dens m = d.
Proof. intros k mu d m E. unfold narbitrary in E. nb E p E1. nb E s E2. injection E as <-. split; reflexivity. Qed.
Lemma vectorized_density : forall {X} (f : X -> res nmaterial) a m i, n_vectorize_material f a = Ok m ->
  at_row i (n_dens m) \/ at_row i (n_bulk m) ->
  exists x v, entry i a = Some x /\ f x = Ok v /\ (isn (v_dens v) \/ isn (v_bulk v)).
Proof.
  intros X f a m i E H. unfold n_vectorize_material in E. nb E ms E1. destruct ms as [v|l].
  - injection E as <-. assert (V : entry i (Sc v) = Some v) by reflexivity.
    destruct (entry_amap f i a (Sc v) v E1 V) as (x & X1 & F). exists x, v. split; [exact X1|]. split; [exact F|].
    destruct H as [(y & Y & H)|(y & Y & H)]; injection Y as <-; [left|right]; exact H.
  - apply velocities_kept in E. destruct E as [D K]. rewrite D, K in H.
    assert (N : at_row i (Vec (map v_dens l))).
    { destruct H as [H|H]; [exact H|]. apply at_pmap in H. destruct H as ([[p mu] d] & E & H). unzip_.
      exists d. split; [assumption|]. unfold n_bulk_modulus in H. isn_all. }
    destruct N as (y & Y & N). cbn in Y. rewrite nth_error_map in Y. destruct (nth_error l i) as [v|] eqn:V; [|discriminate].
    injection Y as <-. destruct (entry_amap f i a (Vec l) v E1 V) as (x & X1 & F). exists x, v.
    split; [exact X1|]. split; [exact F|]. left. exact N.
Qed.

(** ** Mixtures of minerals *)
Lemma walpole_numbers : forall m1 m2 r m i, n_walpole m1 m2 r = Ok m ->
  (at_row i (n_dens m) -> at_row i (n_dens m1) /\ at_row i (n_dens m2)) /\
  (at_row i (n_bulk m) -> at_row i (n_bulk m1) /\ at_row i (n_bulk m2)).
Proof.
  intros m1 m2 r m i E. unfold n_walpole in E. nb E u1 E1. cbv zeta in E. nb E k E2. nb E mu E3.
  apply moduli_kept in E. destruct E as (-> & _ & ->). split; intros H.
  - apply at_pmap in H. destruct H as ([[[r1 r2] f1] f2] & E & H). unzip_. unfold n_calc_density in H.
    destruct (neqb r1 r2) eqn:Q.
    + apply neqb_isn in Q. destruct Q as (_ & Q1 & Q2). split; eexists; split; eassumption.
    + repeat isn_step. split; eexists; split; eassumption.
  - destruct (at_amap _ _ _ _ E2 H) as ([[[[k1 k2] mum] f1] f2] & y & E & F & Y). unzip_. unfold n_calc_bulk_modulus in F.
    destruct (neqb k1 k2) eqn:Q.
    + apply neqb_isn in Q. destruct Q as (_ & Q1 & Q2). split; eexists; split; eassumption.
    + nb F a A. nb F b B. nb F q Q1. injection F as <-. repeat isn_step. split; eexists; split; eassumption.
Qed.
Lemma mixing_numbers : forall i rest cur r, n_mix_loop cur rest = Ok r ->
  (at_row i (n_dens (fst r)) -> Forall (fun c => at_row i (n_dens (fst c))) (cur :: rest)) /\
  (at_row i (n_bulk (fst r)) -> Forall (fun c => at_row i (n_bulk (fst c))) (cur :: rest)).
Proof.
  intros i rest. induction rest as [|next rest IH]; intros cur r E; cbn [n_mix_loop] in E.
  - injection E as <-. split; intros H; (constructor; [exact H|constructor]).
  - nb E cur' E1. unfold n_mix_minerals in E1. cbv zeta in E1. nb E1 f E2. nb E1 mix E3. nb E1 w E4. nb E1 u E5. injection E1 as <-.
    apply arbitrary_kept in E4. destruct E4 as [K D]. destruct (IH _ _ E) as [I1 I2]. destruct (walpole_numbers _ _ _ _ i E3) as [W1 W2].
    split; intros H.
    + specialize (I1 H). inversion I1 as [|? ? P Q]. subst. cbn [fst] in P. rewrite D in P. destruct (W1 P). constructor; [assumption|].
      constructor; assumption.
    + specialize (I2 H). inversion I2 as [|? ? P Q]. subst. cbn [fst] in P. rewrite K in P. destruct (W2 P). constructor; [assumption|].
      constructor; assumption.
Qed.
Lemma minerals_numbers : forall i cs l m, n_minerals cs = Ok l -> n_minerals_as_mixture l = Ok m ->
  (at_row i (n_dens m) -> Forall (fun c => at_row i (n_dens (fst c))) cs) /\
  (at_row i (n_bulk m) -> Forall (fun c => at_row i (n_bulk (fst c))) cs).
Proof.
  intros i cs l m E M. unfold n_minerals in E. nb E u1 E1. nb E u2 E2. nb E fs E3. nb E u3 E4. injection E as <-.
  assert (L : length fs = length (map snd cs)).
  { unfold n_fix_one_fraction in E3. nb E3 u4 E5. nb E3 u5 E6. injection E3 as <-. apply map_length. }
  assert (K : map fst (combine (map fst cs) fs) = map fst cs).
  { clear - L. revert fs L. induction cs as [|c cs IH]; intros [|f fs] L; cbn in *; try discriminate; [reflexivity|].
    f_equal. apply IH. lia. }
  set (l := combine (map fst cs) fs) in *. clearbody l. clear - K M.
  assert (T : forall P : nmat -> Prop, Forall (fun c => P (fst c)) l -> Forall (fun c => P (fst c)) cs).
  { intros P F. apply (Forall_map fst P cs). rewrite <- K. apply (Forall_map fst P l). exact F. }
  destruct l as [|first rest]; [discriminate|]. cbn in M. nb M r R. injection M as <-.
  destruct (mixing_numbers i _ _ _ R) as [A B]. split; intros H.
  - apply (T (fun m => at_row i (n_dens m))), A, H.
  - apply (T (fun m => at_row i (n_bulk m))), B, H.
Qed.

(** ** Mixtures of fluids *)
Lemma saturations_there : forall i l s, In s (n_sum_saturations_to_one l) -> at_row i s -> Forall (at_row i) l.
Proof.
  intros i l s I H. unfold n_sum_saturations_to_one in I. apply in_map_iff in I. destruct I as (s' & <- & _).
  apply at_pmap in H. destruct H as ([[t x] a] & E & H). unzip_. isn_step. apply at_nsum. eexists; split; [eassumption|].
  match goal with E : entry i (pmap _ _) = Some a |- _ => apply entry_pmap in E; destruct E as (t' & E' & ->) end.
  repeat isn_step. congruence.
Qed.
Lemma densities_there : forall i fl sat, length fl = length sat -> at_row i (n_mix_densities fl sat) ->
  Forall (fun m => at_row i (n_dens m)) fl /\ Forall (at_row i) sat.
Proof.
  intros i fl sat L H. unfold n_mix_densities in H. apply at_nsum in H. rewrite Forall_map in H.
  revert sat L H. induction fl as [|m fl IH]; intros [|s sat] L H; cbn in *; try discriminate; [split; constructor|].
  inversion H as [|? ? P Q]. subst. destruct (IH sat ltac:(lia) Q) as [A B].
  apply at_pmap in P. destruct P as ([x y] & E & P). cbn [fst snd] in *. unzip_. isn_step.
  split; (constructor; [eexists; split; eassumption|assumption]).
Qed.
Lemma nsum_res_there : forall {X} (g : X -> res (arr num)) i l t, nsum_res (map g l) = Ok t -> at_row i t ->
  Forall (fun x => exists a, g x = Ok a /\ at_row i a) l.
Proof.
  intros X g i l. induction l as [|x l IH]; intros t E H; [constructor|]. cbn in E. nb E a E1. nb E s E2. injection E as <-.
  apply at_sum2 in H. destruct H as [A B]. constructor; [exists a; split; assumption|apply (IH s E2 B)].
Qed.
Lemma bulks_there : forall i fl sat k, length fl = length sat -> n_mix_bulk_moduli fl sat = Ok k -> at_row i k ->
  Forall (fun m => at_row i (n_bulk m)) fl /\ Forall (at_row i) sat.
Proof.
  intros i fl sat k L E H. unfold n_mix_bulk_moduli in E. cbv zeta in E. nb E u E1. nb E t E2.
  destruct (at_amap _ _ _ _ E H) as (x & y & X & Y & N). isn_step.
  assert (T : at_row i t) by (exists x; split; assumption). clear - L E2 T.
  pose proof (nsum_res_there _ i _ _ E2 T) as F. clear E2. revert sat L F.
  induction fl as [|m fl IH]; intros [|s sat] L F; cbn in *; try discriminate; [split; constructor|].
  inversion F as [|? ? P Q]. subst. destruct (IH sat ltac:(lia) Q) as [A B]. cbn [fst snd] in P. destruct P as (a & P & N).
  destruct (at_amap _ _ _ _ P N) as ([u v] & y & X & Y & M). unzip_. isn_step.
  split; (constructor; [eexists; split; eassumption|assumption]).
Qed.
Lemma saturations_length : forall l, length (n_sum_saturations_to_one l) = length l.
Proof. intros l. apply map_length. Qed.
Lemma wood_there : forall i fl sat m, length fl = length sat -> n_wood fl sat = Ok m ->
  (at_row i (n_dens m) -> Forall (fun m => at_row i (n_dens m)) fl /\ Forall (at_row i) sat) /\
  (at_row i (n_bulk m) -> Forall (fun m => at_row i (n_bulk m)) fl /\ Forall (at_row i) sat).
Proof.
  intros i fl sat m L E. unfold n_wood, n_fluid in E. cbv zeta in E. nb E k E1. apply moduli_kept in E. destruct E as (-> & _ & ->).
  assert (S1 : Forall (at_row i) (n_sum_saturations_to_one sat) -> Forall (at_row i) sat).
  { intros F. destruct sat as [|s sat]; [constructor|]. 
    assert (I : exists x, In x (n_sum_saturations_to_one (s :: sat))) by (eexists; left; reflexivity).
    destruct I as [x I]. apply (saturations_there i (s :: sat) x I). rewrite Forall_forall in F. apply F, I. }
  assert (L' : length fl = length (n_sum_saturations_to_one sat)) by (rewrite saturations_length; exact L).
  split; intros H.
  - destruct (densities_there i _ _ L' H) as [A B]. split; [exact A|apply S1, B].
  - destruct (bulks_there i _ _ _ L' E1 H) as [A B]. split; [exact A|apply S1, B].
Qed.
Lemma brie_there : forall i fl fs gs gsat e m, n_brie fl fs gs gsat e = Ok m ->
  (at_row i (n_dens m) -> Forall (fun m => at_row i (n_dens m)) fl /\ Forall (fun m => at_row i (n_dens m)) gs /\
                          Forall (at_row i) fs /\ Forall (at_row i) gsat) /\
  (at_row i (n_bulk m) -> Forall (fun m => at_row i (n_bulk m)) fl /\ Forall (fun m => at_row i (n_bulk m)) gs /\
                          Forall (at_row i) fs /\ Forall (at_row i) gsat).
Proof.
  intros i fl fs gs gsat e m E. unfold n_brie in E. nb E u1 E1. nb E u2 E2.
  assert (L1 : length fl = length fs).
  { unfold guard in E1. destruct (Nat.eqb (length fl) (length fs)) eqn:Q; [apply Nat.eqb_eq, Q|discriminate]. }
  assert (L2 : length gs = length gsat).
  { unfold guard in E2. destruct (Nat.eqb (length gs) (length gsat)) eqn:Q; [apply Nat.eqb_eq, Q|discriminate]. }
  clear E1 E2. destruct fl as [|f fl]; destruct gs as [|g gs]; [discriminate| | |].
  - destruct fs; [|discriminate]. destruct (wood_there i _ _ _ L2 E) as [A B].
    split; intros H; [destruct (A H)|destruct (B H)]; repeat split; try assumption; constructor.
  - destruct gsat; [|discriminate]. destruct (wood_there i _ _ _ L1 E) as [A B].
    split; intros H; [destruct (A H)|destruct (B H)]; repeat split; try assumption; constructor.
  - nb E liq E1. nb E ga E2. cbv zeta in E. nb E w E3. unfold n_fluid in E. apply moduli_kept in E. destruct E as (-> & _ & ->).
    destruct (wood_there i _ _ _ L1 E1) as [A1 B1]. destruct (wood_there i _ _ _ L2 E2) as [A2 B2]. split; intros H.
    + apply densities_there in H; [|reflexivity]. destruct H as [H _]. inversion H as [|? ? P Q]. inversion Q as [|? ? P' Q']. subst.
      destruct (A1 P). destruct (A2 P'). repeat split; assumption.
    + apply at_pmap in H. destruct H as ([[x y] z] & E & H). unzip_. repeat isn_step.
      destruct B1 as [? ?]; [eexists; split; eassumption|]. destruct B2 as [? ?]; [eexists; split; eassumption|].
      repeat split; assumption.
Qed.
Lemma pop_nat_back : forall {A} (P : A -> Prop) i l r, pop_nat i l = Ok r -> P (fst r) -> Forall P (snd r) -> Forall P l.
Proof.
  intros A P i. induction i as [|i IH]; intros [|x l] r E H F; cbn in E; try discriminate.
  - injection E as <-. constructor; assumption.
  - nb E q E1. injection E as <-. cbn in *. inversion F as [|? ? G1 G2]. subst. constructor; [exact G1|apply (IH l q E1 H G2)].
Qed.
Lemma pop_all_back : forall {A} (P : A -> Prop) idx l r, pop_all idx l = Ok r -> Forall P (fst r) -> Forall P (snd r) -> Forall P l.
Proof.
  intros A P idx. induction idx as [|j idx IH]; intros l r E F G; cbn in E.
  - injection E as <-. exact G.
  - nb E q E1. nb E q' E2. injection E as <-. cbn in *. inversion F as [|? ? F1 F2]. subst.
    pose proof (IH _ _ E2 F2 G) as R. unfold py_pop in E1.
    destruct (j <? 0)%Z; [destruct (j + Z.of_nat (length l) <? 0)%Z; [discriminate|]|]; apply (pop_nat_back P _ _ _ E1 F1 R).
Qed.

Section Fluids.
Context (co2 : n_equation_of_state) (Hco2 : needs_both co2).
Definition of_density (of : nmat -> arr num) : Prop := of = n_dens \/ of = n_bulk.
Lemma fluid_numbers : forall of i p f t pr r, of_density of -> n_fluid_as_material co2 p f t pr = Ok r -> at_row i (of (fst r)) ->
  fluid_there of i t pr f /\ (at_row i (snd r) -> at_row i pr).
Proof.
  intros of i p f t pr r O E H.
  assert (D : at_row i (n_dens (fst r)) \/ at_row i (n_bulk (fst r))) by (destruct O as [-> | ->]; [left|right]; exact H).
  destruct f as [m|a b c|a|a|a b c|ii]; destruct p; cbn in E; try discriminate.
  - injection E as <-. cbn. rewrite <- at_number. split; [exact H|auto].
  - injection E as <-. cbn. rewrite <- at_number. split; [exact H|auto].
  - nb E m E1. injection E as <-. destruct (vectorized_density _ _ _ i E1 D) as ([[[[x1 x2] x3] x4] x5] & v & X & F & V). unzip_.
    destruct (oil_args _ _ _ _ _ _ F V) as (A1 & A2 & A3 & A4 & A5). split; [|auto]. cbn. rewrite <- !at_number.
    repeat split; eexists; split; eassumption.
  - nb E m E1. injection E as <-. destruct (vectorized_density _ _ _ i E1 D) as ([[x1 x2] x3] & v & X & F & V). unzip_.
    destruct (gas_args _ _ _ _ F V) as (A1 & A2 & A3). split; [|auto]. cbn. rewrite <- !at_number.
    repeat split; eexists; split; eassumption.
  - nb E m E1. injection E as <-. destruct (vectorized_density _ _ _ i E1 D) as ([[x1 x2] x3] & v & X & F & V). unzip_.
    destruct (brine_args _ _ _ _ F V) as (A1 & A2 & A3). split; [|auto]. cbn. rewrite <- !at_number.
    repeat split; eexists; split; eassumption.
  - nb E m E1. injection E as <-. cbn [fst snd] in *. unfold n_eos in E1. nb E1 a E2. injection E1 as <-.
    assert (V : exists v, entry i a = Some v /\ (isn (v_dens v) \/ isn (v_bulk v))).
    { destruct D as [D|D]; apply at_pmap in D; destruct D as (v & V & N); exists v; split; auto. }
    destruct V as (v & V & N). destruct (entry_amap _ _ _ _ _ E2 V) as ([x1 x2] & X & F). unzip_.
    destruct (Hco2 _ _ _ _ F N) as [T P].
    split.
    + cbn. rewrite <- !at_number. split.
      * match goal with E : entry i (pmap n_celsius_to_kelvin _) = Some x1 |- _ => apply entry_pmap in E; destruct E as (z & Z & ->) end.
        unfold n_celsius_to_kelvin in T. apply isn2 in T. exists z. split; [exact Z|apply T].
      * match goal with E : entry i (pmap _ pr) = Some x2 |- _ => apply entry_pmap in E; destruct E as (z & Z & ->) end.
        apply isn2 in P. exists z. split; [exact Z|apply P].
    + intros Q. apply at_pmap in Q. destruct Q as (z & Z & Q). apply isn2 in Q. exists z. split; [exact Z|apply Q].
Qed.
Lemma fluid_there_pressure : forall of i t pr pr' f, (at_row i pr' -> at_row i pr) -> fluid_there of i t pr' f -> fluid_there of i t pr f.
Proof.
  intros of i t pr pr' f H F. rewrite !at_number in H. destruct f; cbn in *; tauto.
Qed.
Lemma materials_numbers : forall of i p t cs pr ms, of_density of -> n_as_materials co2 p t pr cs = Ok ms ->
  Forall (fun m => at_row i (of m)) ms -> Forall (fun c => fluid_there of i t pr (nc_material c)) cs.
Proof.
  intros of i p t cs. induction cs as [|c cs IH]; intros pr ms O E H; [constructor|]. cbn [n_as_materials] in E.
  nb E mp E1. nb E ms' E2. injection E as <-. inversion H as [|? ? P Q]. subst.
  destruct (fluid_numbers of i _ _ _ _ _ O E1 P) as [A B]. constructor; [exact A|].
  pose proof (IH _ _ O E2 Q) as F. eapply Forall_impl; [|exact F]. intros c' G. cbv beta in G.
  apply (fluid_there_pressure of i t pr (snd mp)); assumption.
Qed.
Lemma materials_length : forall p t cs pr ms, n_as_materials co2 p t pr cs = Ok ms -> length ms = length cs.
Proof.
  intros p t cs. induction cs as [|c cs IH]; intros pr ms E; cbn [n_as_materials] in E; [injection E as <-; reflexivity|].
  nb E mp E1. nb E ms' E2. injection E as <-. cbn. f_equal. apply (IH _ _ E2).
Qed.
Lemma mixture_numbers : forall of i f pr m, of_density of -> n_as_mixture co2 f pr = Ok m -> at_row i (of m) ->
  Forall (fun c => fluid_there of i (nf_temperature f) pr (nc_material c)) (nf_constituents f) /\
  Forall (fun c => at_row i (nc_fraction c)) (nf_constituents f).
Proof.
  intros of i f pr m O E H. unfold n_as_mixture in E. nb E ms E1. pose proof (materials_length _ _ _ _ _ E1) as L. cbv zeta in E.
  assert (G : Forall (fun m => at_row i (of m)) ms /\ Forall (at_row i) (map nc_fraction (nf_constituents f))).
  { destruct (nf_mix_method f).
    - destruct (wood_there i ms _ _ ltac:(rewrite map_length; exact L) E) as [A B]. destruct O as [-> | ->]; [apply A, H|apply B, H].
    - nb E g G1. nb E s G2. destruct (brie_there i _ _ _ _ _ _ E) as [A B].
      destruct O as [-> | ->]; [destruct (A H) as (X1 & X2 & X3 & X4)|destruct (B H) as (X1 & X2 & X3 & X4)];
        (split; [exact (pop_all_back _ _ _ _ G1 X2 X1)|exact (pop_all_back _ _ _ _ G2 X4 X3)]). }
  destruct G as [A B]. split; [apply (materials_numbers of i _ _ _ _ _ O E1 A)|]. apply (Forall_map nc_fraction (at_row i)). exact B.
Qed.
End Fluids.
Lemma completed_list : forall (P : nfluid_type -> Prop) (Q : arr num -> Prop) rest fs cs, length fs = length cs ->
  (Forall (fun c => P (nc_material c))
     (map (fun cf : nconstituent * arr num => mk_nconstituent (nc_material (fst cf)) (snd cf) (nc_fluid_model (fst cf)))
        (combine cs (map (n_completed rest) fs))) -> Forall (fun c => P (nc_material c)) cs) /\
  (Forall (fun c => Q (nc_fraction c))
     (map (fun cf : nconstituent * arr num => mk_nconstituent (nc_material (fst cf)) (snd cf) (nc_fluid_model (fst cf)))
        (combine cs (map (n_completed rest) fs))) -> forall a, In (Some a) fs -> Q a).
Proof.
  intros P Q rest fs. induction fs as [|o fs IH]; intros [|c cs] L; cbn in *; try discriminate.
  - split; intros _; [constructor|intros a []].
  - destruct (IH cs ltac:(lia)) as [A B]. split; intros H; inversion H as [|? ? H1 H2]; subst.
    + constructor; [exact H1|apply A, H2].
    + intros a [-> | I]; [exact H1|apply (B H2 a I)].
Qed.
Lemma completed_numbers : forall f fs g (P : nfluid_type -> Prop) (Q : arr num -> Prop), n_complete_fluids f fs = Ok g ->
  length fs = length (nf_constituents f) ->
  nf_temperature g = nf_temperature f /\
  (Forall (fun c => P (nc_material c)) (nf_constituents g) -> Forall (fun c => P (nc_material c)) (nf_constituents f)) /\
  (Forall (fun c => Q (nc_fraction c)) (nf_constituents g) -> forall a, In (Some a) fs -> Q a).
Proof.
  intros f fs g P Q E L. unfold n_complete_fluids in E. nb E u1 E1. nb E u2 E2. nb E u3 E3. nb E fs' E4. injection E as <-.
  split; [reflexivity|]. unfold n_fix_one_fraction in E4. nb E4 u4 E5. nb E4 u5 E6. injection E4 as <-.
  apply (completed_list P Q _ _ _ L).
Qed.

(** ** Dry rock *)
Lemma fitted_numbers : forall v m c r i, n_polyval_material v m c = Ok r -> at_row i (n_dens r) -> at_row i (n_dens m) /\ at_row i v.
Proof.
  intros v m c r i E H. unfold n_polyval_material in E.
  assert (G : exists x w, entry i (if uses_moduli c then zip4 (n_dens m) (n_bulk m) (n_shear m) v else zip4 (n_dens m) (n_vp m) (n_vs m) v) = Some x
    /\ n_fit_material c x = Ok w /\ isn (v_dens w)).
  { unfold n_vectorize_material in E. nb E ms E1. destruct ms as [w|l].
    - injection E as <-. destruct H as (y & Y & H). injection Y as <-.
      destruct (entry_amap _ i _ (Sc w) w E1 eq_refl) as (x & X & F). exists x, w. split; [exact X|]. split; [exact F|exact H].
    - apply velocities_kept in E. destruct E as [D _]. rewrite D in H. destruct H as (y & Y & H). cbn in Y. rewrite nth_error_map in Y.
      destruct (nth_error l i) as [w|] eqn:W; [|discriminate]. injection Y as <-.
      destruct (entry_amap _ i _ (Vec l) w E1 W) as (x & X & F). exists x, w. split; [exact X|]. split; [exact F|exact H]. }
  destruct G as ([[[d p] s] z] & w & X & F & W).
  assert (Y : entry i (n_dens m) = Some d /\ entry i v = Some z) by (destruct (uses_moduli c); unzip_; split; assumption).
  unfold n_fit_material in F. nb F a A. nb F b B. nb F e Q.
  assert (K : isn a).
  { destruct (uses_moduli c).
    - unfold nmaterial_of_moduli in F. nb F u1 F1. nb F u2 F2. nb F q1 F3. nb F q2 F4. nb F u5 F5. injection F as <-. exact W.
    - unfold nmaterial_of_velocities in F. cbv zeta in F. nb F u1 F1. nb F u2 F2. injection F as <-. exact W. }
  unfold n_fit_property in A. destruct (c_density c) as [mm|]; [|discriminate].
  destruct (polyval2d_args _ _ _ _ A K) as [P1 P2]. destruct Y as [Y1 Y2]. split; eexists; split; eassumption.
Qed.
Lemma friable_numbers : forall mineral phi phic p cn sr r i, n_friable_sand mineral phi phic p cn sr = Ok r ->
  at_row i (n_dens r) -> at_row i (n_dens mineral).
Proof.
  intros mineral phi phic p cn sr r i E H. unfold n_friable_sand in E. nb E c E1. nb E q E2.
  apply (proj1 (walpole_numbers _ _ _ _ i E) H).
Qed.
Lemma at_difference : forall i a b, at_row i (pmap (fun '(a, b) => nsub a b) (zip a b)) -> at_row i a /\ at_row i b.
Proof. intros i a b H. apply at_pmap in H. destruct H as ([x y] & E & H). unzip_. isn_step. split; eexists; split; eassumption. Qed.
Lemma patchy_numbers : forall q p phi mineral r i, n_patchy_material q p phi mineral = Ok r -> at_row i (n_dens r) ->
  at_row i phi /\ at_row i (n_dens mineral) /\ at_row i (n_dens (npa_cement q)) /\ at_row i (npa_critical q) /\ at_row i (npa_cement_fraction q).
Proof.
  intros q p phi mineral r i E H. unfold n_patchy_material, n_patchy_cement in E.
  nb E dense E1. nb E fr E2. nb E lo E3. nb E up_ E4. nb E co E5. nb E ra E6. nb E cons_ E7. nb E wk E8. nb E wmu E9. cbv zeta in E.
  apply moduli_kept in E. destruct E as (_ & _ & E). rewrite E in H.
  apply at_pmap in H. destruct H as ([[[f c] ds] dc] & X & H). unzip_. repeat isn_step.
  assert (F : at_row i (npa_critical q) /\ at_row i (npa_cement_fraction q)).
  { match goal with E : entry i (pmap _ _) = Some c |- _ =>
      assert (C : at_row i (pmap (fun '(a, b) => nsub a b)
        (zip (npa_critical q) (pmap (fun '(a, b) => nsub a b) (zip (npa_critical q) (npa_cement_fraction q))))))
        by (exists c; split; assumption) end.
    apply at_difference in C. destruct C as [C1 C2]. apply at_difference in C2. exact C2. }
  destruct F. repeat split; try assumption; eexists; split; eassumption.
Qed.
Lemma at_times : forall i a b, at_row i (n_times a b) -> at_row i a.
Proof. intros i a b H. apply at_pmap in H. destruct H as ([x y] & E & H). unzip_. isn_step. eexists; split; eassumption. Qed.
Lemma at_plus : forall i a b, at_row i (n_plus a b) -> at_row i a.
Proof. intros i a b H. apply at_pmap in H. destruct H as ([x y] & E & H). unzip_. isn_step. eexists; split; eassumption. Qed.
Lemma adjusted_numbers : forall a m p phi mineral r i, n_adjust_one a m p phi mineral = Ok r -> at_row i (n_dens r) ->
  at_row i (n_dens m) /\
  forall t, a = NDepthTrend t -> at_row i (ndt_depth t) /\ forall b, ndt_reference t = Some b -> at_row i b.
Proof.
  intros a m p phi mineral r i E H. destruct a as [t|md]; cbn [n_adjust_one] in E.
  - nb E d E1. destruct (fitted_numbers _ _ _ _ i E H) as [A B]. split; [exact A|]. intros t' Q. injection Q as <-.
    unfold n_effective_depth in E1. destruct (ndt_reference t) as [b|].
    + nb E1 u U. injection E1 as <-. apply at_difference in B. destruct B as [B1 B2]. split; [exact B1|]. intros b' Q. injection Q as <-. exact B2.
    + injection E1 as <-. split; [exact B|]. discriminate.
  - split; [|discriminate]. unfold n_adjust_pressure in E. nb E e1 E1. nb E e2 E2. unfold n_pressure_dependency in E.
    assert (G : n_generic_dependency md m e2 (n_truncated_reference p) phi mineral = Ok r \/
                n_powerfit_dependency md m e2 (n_truncated_reference p) phi mineral = Ok r) by (destruct md; auto).
    clear E. destruct G as [E|E].
    + unfold n_generic_dependency in E. nb E ref F1. nb E eff F2. nb E u F3. cbv zeta in E. destruct (n_model_uses_moduli md).
      * apply moduli_kept in E. destruct E as (_ & _ & E). rewrite E in H. apply at_times in H. exact H.
      * apply velocities_kept in E. destruct E as [E _]. rewrite E in H. apply at_times in H. exact H.
    + unfold n_powerfit_dependency in E. nb E ref F1. nb E eff F2. cbv zeta in E. nb E ratio F3. nb E u F4.
      apply moduli_kept in E. destruct E as (_ & _ & E). rewrite E in H. apply at_plus in H. exact H.
Qed.
Lemma adjustments_numbers : forall l m p phi mineral r i, n_adjust_material l m p phi mineral = Ok r -> at_row i (n_dens r) ->
  at_row i (n_dens m) /\
  forall t, In (NDepthTrend t) l -> at_row i (ndt_depth t) /\ forall b, ndt_reference t = Some b -> at_row i b.
Proof.
  intros l. induction l as [|a l IH]; intros m p phi mineral r i E H; cbn [n_adjust_material] in E.
  - injection E as <-. split; [exact H|]. intros t [].
  - nb E m' E1. destruct (IH _ _ _ _ _ _ E H) as [A B]. destruct (adjusted_numbers _ _ _ _ _ _ i E1 A) as [C D].
    split; [exact C|]. intros t [Q|I]; [apply D; exact Q|apply B, I].
Qed.
Lemma gassmann_numbers : forall kdry kmin kf phi z, n_gassman_equation kdry kmin kf phi = Ok z -> isn z ->
  z = kmin \/ (isn kdry /\ isn kmin /\ isn kf /\ isn phi).
Proof.
  intros kdry kmin kf phi z E H. unfold n_gassman_equation in E.
  destruct (neqb phi (Num 0)); [left; injection E as <-; reflexivity|].
  destruct (neqb kdry kmin); [left; injection E as <-; reflexivity|]. right.
  nb E a A. nb E b B. cbv zeta in E. destruct (nltb (nadd a b) (Num 0)); [discriminate|]. nb E q Q. injection E as <-. isn_all.
Qed.

(** ** Whole tables *)
Lemma expanded : forall {A} n (a : arr A) i x, nth_error (expand n a) i = Some x -> entry i a = Some x.
Proof.
  intros A n [y|l] i x; cbn; [|auto]. intros E. apply nth_error_In in E. apply repeat_spec in E. subst. reflexivity.
Qed.
Lemma row_entries : forall n o i r, nth_error (n_result_rows n o) i = Some r ->
  entry i (no_ksat o) = Some (w_ksat r) /\ entry i (no_kmin o) = Some (w_kmin r) /\ entry i (no_kdry o) = Some (w_kdry r) /\
  entry i (no_mysat o) = Some (w_mysat r) /\ entry i (no_rsat o) = Some (w_rsat r) /\ entry i (no_kmin_fls o) = Some (w_kmin_fls r).
Proof.
  intros n o i r E. unfold n_result_rows in E. rewrite nth_error_map in E.
  match type of E with option_map _ (nth_error ?l i) = _ => destruct (nth_error l i) as [[[[[[a b] c] d] e] f]|] eqn:Q end; [|discriminate].
  cbn in E. injection E as <-. cbn.
  repeat (apply nth_combine_back in Q; cbn [fst snd] in Q; let Q2 := fresh "Q" in destruct Q as [Q Q2]; apply expanded in Q2).
  apply expanded in Q. repeat split; assumption.
Qed.

Lemma density_shows : forall co2 n inp rows i r, needs_both co2 -> one_fraction_each inp -> n_results co2 n inp = Ok rows ->
  nth_error rows i = Some r -> w_rsat r <> Nan ->
  number_at i (ndr_porosity (ni_dry_rock inp)) /\
  (forall m f, In (m, f) (ni_minerals inp) -> number_at i (n_dens m)) /\
  fluids_there n_dens i inp /\ fractions_there i inp /\ cement_there i inp /\ depths_there i inp.
Proof.
  intros co2 n inp rows i r C L E R H. unfold n_results in E. nb E o E0. injection E as <-.
  apply row_entries in R. destruct R as (_ & _ & _ & _ & R & _).
  unfold n_calculate_results in E0. nb E0 ms E1. nb E0 fl E2. nb E0 u E3. nb E0 mm E4. nb E0 fp E5. nb E0 mf E6. nb E0 dry E7.
  nb E0 dense E8. nb E0 sat E9. injection E0 as <-. cbn in R.
  assert (P : npr_fluid (ni_pressure inp) = Some fp) by (destruct (npr_fluid (ni_pressure inp)); [injection E5 as <-; reflexivity|discriminate]).
  unfold n_fluid_substitution in E9. nb E9 k E10. apply moduli_kept in E9. destruct E9 as (_ & _ & D). rewrite D in R.
  assert (T : at_row i (pmap (fun x => nadd (fst (fst x)) (nmul (snd (fst x)) (snd x))) (zip3 (n_dens dry) (ndr_porosity (ni_dry_rock inp)) (n_dens mf))))
    by (exists (w_rsat r); split; [exact R|exact H]).
  apply at_pmap in T. destruct T as ([[x y] z] & X & T). unzip_. repeat isn_step.
  assert (Dphi : at_row i (ndr_porosity (ni_dry_rock inp))) by (eexists; split; eassumption).
  assert (Dfl : at_row i (n_dens mf)) by (eexists; split; eassumption).
  assert (Ddry : at_row i (n_dens dry)) by (eexists; split; eassumption).
  unfold n_dry_rock_material in E7. nb E7 eff F1. nb E7 m0 F2.
  destruct (adjustments_numbers _ _ _ _ _ _ i E7 Ddry) as [D0 Depths].
  assert (G : at_row i (n_dens mm) /\ forall q, ndr_model (ni_dry_rock inp) = NRockPatchy q ->
    at_row i (n_dens (npa_cement q)) /\ at_row i (npa_critical q) /\ at_row i (npa_cement_fraction q)).
  { unfold n_material_from_model in F2. destruct (ndr_model (ni_dry_rock inp)) as [c|f|q].
    - split; [apply (fitted_numbers _ _ _ _ i F2 D0)|discriminate].
    - split; [apply (friable_numbers _ _ _ _ _ _ _ i F2 D0)|discriminate].
    - destruct (patchy_numbers _ _ _ _ _ i F2 D0) as (_ & A2 & A3 & A4 & A5). split; [exact A2|].
      intros q' Q. injection Q as <-. repeat split; assumption. }
  destruct G as [Dm Cement].
  destruct (mixture_numbers co2 C n_dens i _ _ _ (or_introl eq_refl) E6 Dfl) as [M1 M2].
  destruct (completed_numbers _ _ _ (fluid_there n_dens i (nf_temperature fl) fp) (at_row i) E2 L) as (Temp & K1 & K2).
  split; [apply at_number, Dphi|].
  split. { intros m f I. apply at_number. destruct (minerals_numbers i _ _ _ E1 E4) as [A _]. specialize (A Dm).
           rewrite Forall_forall in A. apply (A (m, f) I). }
  split. { intros p c Q I. rewrite P in Q. injection Q as <-. specialize (K1 M1). rewrite Forall_forall in K1.
           rewrite <- Temp. apply (K1 c I). }
  split. { intros f I. apply at_number, (K2 M2 f I). }
  split. { intros q Q. rewrite <- !at_number. apply (Cement q Q). }
  intros t I. destruct (Depths t I) as [A B]. split; [apply at_number, A|]. intros b Q. apply at_number, (B b Q).
Qed.

Lemma mineral_bulk_shows : forall co2 n inp rows i r m f, n_results co2 n inp = Ok rows -> nth_error rows i = Some r ->
  w_kmin r <> Nan -> In (m, f) (ni_minerals inp) -> number_at i (n_bulk m).
Proof.
  intros co2 n inp rows i r m f E R H I. unfold n_results in E. nb E o E0. injection E as <-.
  apply row_entries in R. destruct R as (_ & R & _).
  unfold n_calculate_results in E0. nb E0 ms E1. nb E0 fl E2. nb E0 u E3. nb E0 mm E4. nb E0 fp E5. nb E0 mf E6. nb E0 dry E7.
  nb E0 dense E8. nb E0 sat E9. injection E0 as <-. cbn in R.
  destruct (minerals_numbers i _ _ _ E1 E4) as [_ A]. apply at_number.
  assert (B : at_row i (n_bulk mm)) by (eexists; split; eassumption). specialize (A B). rewrite Forall_forall in A. apply (A (m, f) I).
Qed.

Lemma saturated_bulk_shows : forall co2 n inp rows i r, needs_both co2 -> one_fraction_each inp -> n_results co2 n inp = Ok rows ->
  nth_error rows i = Some r -> w_ksat r <> Nan ->
  w_ksat r = w_kmin_fls r \/
  (w_kdry r <> Nan /\ w_kmin_fls r <> Nan /\ number_at i (ndr_porosity (ni_dry_rock inp)) /\ fluids_there n_bulk i inp /\ fractions_there i inp).
Proof.
  intros co2 n inp rows i r C L E R H. unfold n_results in E. nb E o E0. injection E as <-.
  apply row_entries in R. destruct R as (Rsat & _ & Rdry & _ & _ & Rfls).
  unfold n_calculate_results in E0. nb E0 ms E1. nb E0 fl E2. nb E0 u E3. nb E0 mm E4. nb E0 fp E5. nb E0 mf E6. nb E0 dry E7.
  nb E0 dense E8. nb E0 sat E9. injection E0 as <-. cbn in Rsat, Rdry, Rfls.
  assert (P : npr_fluid (ni_pressure inp) = Some fp) by (destruct (npr_fluid (ni_pressure inp)); [injection E5 as <-; reflexivity|discriminate]).
  unfold n_fluid_substitution in E9. nb E9 k E10. apply moduli_kept in E9. destruct E9 as (K & _ & _). rewrite K in Rsat.
  assert (T : at_row i k) by (exists (w_ksat r); split; [exact Rsat|exact H]).
  destruct (entry_amap _ i _ _ _ E10 Rsat) as ([[[kd km] kf] phi] & X & F). unzip_.
  assert (Q1 : kd = w_kdry r) by congruence. assert (Q2 : km = w_kmin_fls r) by congruence. subst kd km.
  destruct (gassmann_numbers _ _ _ _ _ F H) as [Q|(A1 & A2 & A3 & A4)]; [left; exact Q|right].
  split; [exact A1|]. split; [exact A2|].
  assert (Dfl : at_row i (n_bulk mf)) by (eexists; split; eassumption).
  destruct (mixture_numbers co2 C n_bulk i _ _ _ (or_intror eq_refl) E6 Dfl) as [M1 M2].
  destruct (completed_numbers _ _ _ (fluid_there n_bulk i (nf_temperature fl) fp) (at_row i) E2 L) as (Temp & K1 & K2).
  split; [apply at_number; eexists; split; eassumption|].
  split. { intros p c Q I. rewrite P in Q. injection Q as <-. specialize (K1 M1). rewrite Forall_forall in K1.
           rewrite <- Temp. apply (K1 c I). }
  intros f I. apply at_number, (K2 M2 f I).
Qed.
Lemma with_nan_needs : forall co2, needs_both (with_nan co2).
Proof.
  intros co2 [t|] [p|] i m E H; cbn in E; [split; discriminate| | |]; injection E as <-; cbn in H; destruct H as [H|H]; contradiction.
Qed.
