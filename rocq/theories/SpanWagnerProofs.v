(** Derivatives of the Helmholtz energy and of the pressure. *)
From Coq Require Import String List ZArith Reals Lra Lia.
From Verif Require Import Base BaseProofs Spec MaterialModel FluidModel SpanWagnerModel SpanWagnerSpec.
Import ListNotations.
Open Scope R_scope.

(** ** Derivatives, locally *)
Lemma derivative_local : forall (f g : R -> R) x l r, 0 < r ->
  (forall y, Rabs (y - x) < r -> f y = g y) -> derivable_pt_lim g x l -> derivable_pt_lim f x l.
Proof.
  intros f g x l r Hr E D eps He. destruct (D eps He) as [d Hd].
  assert (Hm : 0 < Rmin r d) by (apply Rmin_glb_lt; [exact Hr|apply cond_pos]).
  exists (mkposreal _ Hm). intros h Hh0 Hh. cbn [pos] in Hh.
  rewrite !E.
  - apply Hd; [exact Hh0|]. eapply Rlt_le_trans; [exact Hh|apply Rmin_r].
  - rewrite Rminus_diag_eq by reflexivity. rewrite Rabs_R0. exact Hr.
  - replace (x + h - x) with h by ring. eapply Rlt_le_trans; [exact Hh|apply Rmin_l].
Qed.
Lemma derivative_value : forall f x l l', l = l' -> derivable_pt_lim f x l -> derivable_pt_lim f x l'.
Proof. intros f x l l' <- H. exact H. Qed.
Lemma derivative_const : forall c x, derivable_pt_lim (fun _ => c) x 0.
Proof. intros c x. apply derivable_pt_lim_const. Qed.

(** ** Expressions *)
Fixpoint den (e : expr) (d t : R) : R :=
  match e with
  | Cst c => c
  | Var Delta => d
  | Var Tau => t
  | Add a b => den a d t + den b d t
  | Mul a b => den a d t * den b d t
  | PowN a n => den a d t ^ n
  | Pow a c => Rpower (den a d t) c
  | Exp a => exp (den a d t)
  end.
Fixpoint dom (e : expr) (d t : R) : Prop :=
  match e with
  | Cst _ | Var _ => True
  | Add a b | Mul a b => dom a d t /\ dom b d t
  | PowN a _ | Exp a => dom a d t
  | Pow a _ => dom a d t /\ 0 < den a d t
  end.

Lemma lambdified_den : forall e d t, dom e d t -> lambdified e d t = Ok (den e d t).
Proof.
  induction e as [c|v|a IHa b IHb|a IHa b IHb|a IH n|a IH c|a IH]; intros d t H; cbn [lambdified den dom] in *.
  - reflexivity.
  - destruct v; reflexivity.
  - destruct H. rewrite IHa, IHb by assumption. reflexivity.
  - destruct H. rewrite IHa, IHb by assumption. reflexivity.
  - rewrite IH by assumption. reflexivity.
  - destruct H. rewrite IH by assumption. cbn [bind]. apply np_pow_pos. assumption.
  - rewrite IH by assumption. reflexivity.
Qed.
Lemma dom_diff : forall e v d t, dom e d t -> dom (diff v e) d t.
Proof.
  induction e as [c|w|a IHa b IHb|a IHa b IHb|a IH n|a IH c|a IH]; intros v d t H; cbn [diff dom] in *.
  - exact I.
  - destruct v, w; exact I.
  - destruct H; split; auto.
  - destruct H; repeat split; auto.
  - repeat split; auto.
  - destruct H; repeat split; auto.
  - repeat split; auto.
Qed.
Lemma dom_iter : forall v n e d t, dom e d t -> dom (Nat.iter n (diff v) e) d t.
Proof. intros v n e d t H. induction n as [|n IH]; [exact H|]. apply dom_diff, IH. Qed.

(** The line through (d, t) along the variable [v]. *)
Definition along (v : var) (d t x : R) : R * R := match v with Delta => (x, t) | Tau => (d, x) end.

Lemma diff_along : forall e v d t, dom e d t ->
  derivable_pt_lim (fun x => den e (fst (along v d t x)) (snd (along v d t x)))
    (match v with Delta => d | Tau => t end) (den (diff v e) d t).
Proof.
  assert (P : forall v d t, along v d t (match v with Delta => d | Tau => t end) = (d, t)) by (intros [] d t; reflexivity).
  induction e as [c|w|a IHa b IHb|a IHa b IHb|a IH n|a IH c|a IH]; intros v d t H; cbn [den dom diff] in *.
  - apply derivative_const.
  - destruct v, w; cbn [along fst snd den].
    + apply derivable_pt_lim_id.
    + apply derivative_const.
    + apply derivative_const.
    + apply derivable_pt_lim_id.
  - destruct H. apply (derivable_pt_lim_plus (fun x => den a _ _) (fun x => den b _ _)); auto.
  - destruct H as [Ha Hb]. eapply derivative_value; [|apply (derivable_pt_lim_mult (fun x => den a _ _) (fun x => den b _ _)); [apply IHa|apply IHb]; assumption].
    cbv beta. rewrite !P. cbn [fst snd]. reflexivity.
  - eapply derivative_value; [|apply (derivable_pt_lim_comp (fun x => den a (fst (along v d t x)) (snd (along v d t x))) (fun y => y ^ n));
      [apply IH, H|apply derivable_pt_lim_pow]].
    cbv beta. rewrite !P. cbn [fst snd]. reflexivity.
  - destruct H as [Ha Hp]. eapply derivative_value; [|apply (derivable_pt_lim_comp (fun x => den a (fst (along v d t x)) (snd (along v d t x))) (fun y => Rpower y c));
      [apply IH, Ha|apply derivable_pt_lim_power; cbv beta; rewrite P; exact Hp]].
    cbv beta. rewrite !P. cbn [fst snd]. reflexivity.
  - eapply derivative_value; [|apply (derivable_pt_lim_comp (fun x => den a (fst (along v d t x)) (snd (along v d t x))) exp);
      [apply IH, H|apply derivable_pt_lim_exp]].
    cbv beta. rewrite !P. cbn [fst snd]. reflexivity.
Qed.
Lemma diff_delta : forall e d t, dom e d t -> derivable_pt_lim (fun x => den e x t) d (den (diff Delta e) d t).
Proof. intros e d t H. exact (diff_along e Delta d t H). Qed.
Lemma diff_tau : forall e d t, dom e d t -> derivable_pt_lim (fun x => den e d x) t (den (diff Tau e) d t).
Proof. intros e d t H. exact (diff_along e Tau d t H). Qed.

(** Mixed derivatives do not depend on the order. *)
Lemma diff_comm : forall e d t, den (diff Delta (diff Tau e)) d t = den (diff Tau (diff Delta e)) d t.
Proof.
  induction e as [c|w|a IHa b IHb|a IHa b IHb|a IH n|a IH c|a IH]; intros d t; cbn [diff den].
  - reflexivity.
  - destruct w; reflexivity.
  - rewrite IHa, IHb. reflexivity.
  - rewrite IHa, IHb. ring.
  - rewrite IH. ring.
  - rewrite IH. ring.
  - rewrite IH. ring.
Qed.

(** ** Sums *)
Definition dsum (g : list expr) (d t : R) : R := rsum (map (fun e => den e d t) g).
Definition all_dom (g : list expr) (d t : R) : Prop := Forall (fun e => dom e d t) g.

Lemma sum_delta : forall g d t, all_dom g d t -> derivable_pt_lim (fun x => dsum g x t) d (dsum (map (diff Delta) g) d t).
Proof.
  induction g as [|e g IH]; intros d t H; unfold dsum; cbn [map rsum]; [apply derivative_const|].
  apply Forall_cons_iff in H. destruct H as [He Hg].
  apply (derivable_pt_lim_plus (fun x => den e x t) (fun x => rsum (map (fun e => den e x t) g)));
    [apply diff_delta, He|apply IH, Hg].
Qed.
Lemma sum_tau : forall g d t, all_dom g d t -> derivable_pt_lim (fun x => dsum g d x) t (dsum (map (diff Tau) g) d t).
Proof.
  induction g as [|e g IH]; intros d t H; unfold dsum; cbn [map rsum]; [apply derivative_const|].
  apply Forall_cons_iff in H. destruct H as [He Hg].
  apply (derivable_pt_lim_plus (fun x => den e d x) (fun x => rsum (map (fun e => den e d x) g)));
    [apply diff_tau, He|apply IH, Hg].
Qed.
Lemma all_dom_diff : forall g v d t, all_dom g d t -> all_dom (map (diff v) g) d t.
Proof. intros g v d t H. apply Forall_map. eapply Forall_impl; [|exact H]. intros e He. apply dom_diff, He. Qed.
Lemma dsum_app : forall g h d t, dsum (g ++ h) d t = dsum g d t + dsum h d t.
Proof. intros g h d t. unfold dsum. rewrite map_app, rsum_app. reflexivity. Qed.
Lemma dsum_comm : forall g d t, dsum (map (diff Delta) (map (diff Tau) g)) d t = dsum (map (diff Tau) (map (diff Delta) g)) d t.
Proof.
  intros g d t. unfold dsum. rewrite !map_map. f_equal. apply map_ext. intros e. apply diff_comm.
Qed.

Lemma group_sum_ok : forall dd dt g d t, all_dom g d t -> group_sum dd dt d t g = Ok (dsum (map (derived dd dt) g) d t).
Proof.
  intros dd dt g d t H. unfold group_sum, dsum. induction H as [|e g He Hg IH]; [reflexivity|].
  cbn [map rsum_res rsum]. rewrite lambdified_den by (apply dom_iter, dom_iter, He). cbn [bind]. rewrite IH. reflexivity.
Qed.

(** All the terms *)
Definition all_terms : list expr := group1 ++ group2 ++ group3 ++ group4.
Definition phi_r (dd dt : nat) (d t : R) : R := dsum (map (derived dd dt) all_terms) d t.

Lemma dom_s1 : forall n a b d t, 0 < d -> 0 < t -> dom (s1 n a b) d t.
Proof. intros. cbn. tauto. Qed.
Lemma dom_s2 : forall n a b c d t, 0 < d -> 0 < t -> dom (s2 n a b c) d t.
Proof. intros. cbn. tauto. Qed.
Lemma dom_s3 : forall n a b c e f g d t, 0 < d -> 0 < t -> dom (s3 n a b c e f g) d t.
Proof. intros. cbn. tauto. Qed.
Lemma sq_pos : forall d, d <> 1 -> 0 < (d + -1 * 1) ^ 2.
Proof. intros d H. replace ((d + -1 * 1) ^ 2) with (Rsqr (d - 1)) by (unfold Rsqr; ring). apply Rsqr_pos_lt. lra. Qed.
Lemma bigdelta_pos : forall a be A B d t, 0 < B -> 0 < den (bigdelta_expr a be A B) d t.
Proof.
  intros a be A B d t HB. cbn [bigdelta_expr den]. apply Rplus_le_lt_0_compat; [apply pow2_ge_0|].
  apply Rmult_lt_0_compat; [exact HB|apply exp_pos].
Qed.
Lemma dom_s4 : forall n b a be A B C D d t, d <> 1 -> 0 < B -> dom (s4 n b a be A B C D) d t.
Proof.
  intros n b a be A B C D d t Hd HB. pose proof (sq_pos d Hd) as S.
  pose proof (bigdelta_pos a be A B d t HB) as P. cbn in *. repeat split; assumption.
Qed.
Lemma all_terms_dom : forall d t, 0 < d -> 0 < t -> d <> 1 -> all_dom all_terms d t.
Proof.
  intros d t Hd Ht H1. unfold all_terms, all_dom. rewrite !Forall_app. split; [|split; [|split]].
  - apply Forall_map, Forall_forall. intros [[n a] b] _. apply dom_s1; assumption.
  - apply Forall_map, Forall_forall. intros [[[n a] b] c] _. apply dom_s2; assumption.
  - apply Forall_map, Forall_forall. intros [[[[[[n a] b] c] e] f] g] _. apply dom_s3; assumption.
  - unfold group4. cbn [map combine n4 b4 a4 beta4 A4 B4 C4 D4].
    repeat (constructor; [apply dom_s4; [assumption|lra]|]). constructor.
Qed.

Lemma residual_ok : forall d t dd dt, 0 < d -> 0 < t -> d <> 1 -> (dd + dt <= 2)%nat ->
  residual_helmholtz_energy d t dd dt = Ok (phi_r dd dt d t).
Proof.
  intros d t dd dt Hd Ht H1 L. unfold residual_helmholtz_energy.
  destruct (Nat.leb_spec (dd + dt) 2) as [_|F]; [|lia].
  pose proof (all_terms_dom d t Hd Ht H1) as A. unfold all_terms, all_dom in A. rewrite !Forall_app in A.
  destruct A as (A1 & A2 & A3 & A4). rewrite !group_sum_ok by assumption. cbn [bind].
  unfold phi_r, all_terms. rewrite !map_app, !dsum_app. f_equal. ring.
Qed.

Lemma phi_delta : forall dd d t, 0 < d -> 0 < t -> d <> 1 ->
  derivable_pt_lim (fun x => phi_r dd 0 x t) d (phi_r (S dd) 0 d t).
Proof.
  intros dd d t Hd Ht H1. unfold phi_r.
  assert (E : map (derived (S dd) 0) all_terms = map (diff Delta) (map (derived dd 0) all_terms))
    by (rewrite map_map; reflexivity).
  rewrite E. apply sum_delta. apply Forall_map. eapply Forall_impl; [|apply (all_terms_dom d t Hd Ht H1)].
  intros e He. apply dom_iter, dom_iter, He.
Qed.
Lemma phi_tau : forall dd dt d t, 0 < d -> 0 < t -> d <> 1 ->
  derivable_pt_lim (fun x => phi_r dd dt d x) t (phi_r dd (S dt) d t).
Proof.
  intros dd dt d t Hd Ht H1. unfold phi_r.
  assert (E : map (derived dd (S dt)) all_terms = map (diff Tau) (map (derived dd dt) all_terms))
    by (rewrite map_map; reflexivity).
  rewrite E. apply sum_tau. apply Forall_map. eapply Forall_impl; [|apply (all_terms_dom d t Hd Ht H1)].
  intros e He. apply dom_iter, dom_iter, He.
Qed.
Lemma phi_delta_mixed : forall d t, 0 < d -> 0 < t -> d <> 1 ->
  derivable_pt_lim (fun x => phi_r 0 1 x t) d (phi_r 1 1 d t).
Proof.
  intros d t Hd Ht H1. unfold phi_r.
  assert (E : dsum (map (derived 1 1) all_terms) d t = dsum (map (diff Delta) (map (derived 0 1) all_terms)) d t).
  { change (map (derived 1 1) all_terms) with (map (fun e => diff Tau (diff Delta e)) all_terms).
    change (map (derived 0 1) all_terms) with (map (diff Tau) all_terms).
    rewrite dsum_comm, map_map. reflexivity. }
  rewrite E. apply sum_delta. apply Forall_map. eapply Forall_impl; [|apply (all_terms_dom d t Hd Ht H1)].
  intros e He. apply dom_iter, dom_iter, He.
Qed.

(** The code is phi_r away from 1. *)
Lemma nudged_id : forall x, x <> 1 -> nudged x = x.
Proof. intros x H. unfold nudged. destruct (Req_EM_T x 1); [contradiction|reflexivity]. Qed.
Lemma nudged_pos : forall x, 0 < x -> 0 < nudged x.
Proof. intros x H. unfold nudged. destruct (Req_EM_T x 1) as [->|]; lra. Qed.
Lemma nudged_ne : forall x, nudged x <> 1.
Proof. intros x. unfold nudged. destruct (Req_EM_T x 1) as [->|]; lra. Qed.

Lemma co2_residual_ok : forall d t dd dt, 0 < d -> 0 < t -> (dd + dt <= 2)%nat ->
  co2_residual_helmholtz_energy d t dd dt = Ok (phi_r dd dt (nudged d) (nudged t)).
Proof.
  intros d t dd dt Hd Ht L. unfold co2_residual_helmholtz_energy.
  apply residual_ok; [apply nudged_pos, Hd|apply nudged_pos, Ht|apply nudged_ne|exact L].
Qed.

(** ** The residual part as computed *)
Lemma near_positive : forall x c, 0 < x -> x <> c -> 0 < Rmin x (Rabs (x - c)).
Proof. intros x c H N. apply Rmin_glb_lt; [exact H|apply Rabs_pos_lt; lra]. Qed.
Lemma near_ok : forall x c y, Rabs (y - x) < Rmin x (Rabs (x - c)) -> 0 < y /\ y <> c.
Proof.
  intros x c y H. pose proof (Rmin_l x (Rabs (x - c))). pose proof (Rmin_r x (Rabs (x - c))).
  split.
  - assert (A : Rabs (y - x) < x) by lra. apply Rabs_def2 in A. lra.
  - intros ->. rewrite Rabs_minus_sym in H. lra.
Qed.

Lemma residual_delta : forall d t dd dt, 0 < d -> 0 < t -> d <> 1 ->
  (dd = 0 /\ dt = 0 \/ dd = 1 /\ dt = 0 \/ dd = 0 /\ dt = 1)%nat ->
  derivable_pt_lim (fun x => value (co2_residual_helmholtz_energy x t dd dt)) d
    (value (co2_residual_helmholtz_energy d t (S dd) dt)).
Proof.
  intros d t dd dt Hd Ht H1 C.
  apply (derivative_local _ (fun x => phi_r dd dt x (nudged t)) _ _ (Rmin d (Rabs (d - 1)))).
  - apply near_positive; assumption.
  - intros y Hy. apply near_ok in Hy. destruct Hy as [Y0 Y1].
    rewrite co2_residual_ok by (assumption || lia). cbn [value]. rewrite (nudged_id y) by assumption. reflexivity.
  - rewrite co2_residual_ok by (assumption || lia). cbn [value]. rewrite (nudged_id d) by assumption.
    pose proof (nudged_pos t Ht). destruct C as [[-> ->]|[[-> ->]|[-> ->]]].
    + apply phi_delta; assumption.
    + apply phi_delta; assumption.
    + apply phi_delta_mixed; assumption.
Qed.
Lemma residual_tau : forall d t dd dt, 0 < d -> 0 < t -> t <> 1 -> (dd + dt <= 1)%nat ->
  derivable_pt_lim (fun x => value (co2_residual_helmholtz_energy d x dd dt)) t
    (value (co2_residual_helmholtz_energy d t dd (S dt))).
Proof.
  intros d t dd dt Hd Ht H1 C.
  apply (derivative_local _ (fun x => phi_r dd dt (nudged d) x) _ _ (Rmin t (Rabs (t - 1)))).
  - apply near_positive; assumption.
  - intros y Hy. apply near_ok in Hy. destruct Hy as [Y0 Y1].
    rewrite co2_residual_ok by (assumption || lia). cbn [value]. rewrite (nudged_id y) by assumption. reflexivity.
  - rewrite co2_residual_ok by (assumption || lia). cbn [value]. rewrite (nudged_id t) by assumption.
    apply phi_tau; [apply nudged_pos; assumption|assumption|apply nudged_ne].
Qed.
Lemma residual_succeeds : forall d t dd dt, 0 < d -> 0 < t ->
  ((dd + dt <= 2)%nat -> is_ok (co2_residual_helmholtz_energy d t dd dt)) /\
  ((2 < dd + dt)%nat -> co2_residual_helmholtz_energy d t dd dt = Err KeyError).
Proof.
  intros d t dd dt Hd Ht. split; intros L.
  - rewrite co2_residual_ok by assumption. eexists. reflexivity.
  - unfold co2_residual_helmholtz_energy, residual_helmholtz_energy.
    destruct (Nat.leb_spec (dd + dt) 2) as [F|_]; [lia|reflexivity].
Qed.

(** ** Pressure *)
Lemma Tc_pos : 0 < CO2_CRITICAL_TEMPERATURE. Proof. unfold CO2_CRITICAL_TEMPERATURE. lra. Qed.
Lemma rc_pos : 0 < CO2_CRITICAL_DENSITY. Proof. unfold CO2_CRITICAL_DENSITY. lra. Qed.
Lemma R_pos : 0 < CO2_GAS_CONSTANT. Proof. unfold CO2_GAS_CONSTANT. lra. Qed.

Definition tau_of (T : R) : R := CO2_CRITICAL_TEMPERATURE / T.
Definition delta_of (rho : R) : R := rho / CO2_CRITICAL_DENSITY.
Lemma tau_pos : forall T, 0 < T -> 0 < tau_of T.
Proof. intros T H. apply Rdiv_lt_0_compat; [apply Tc_pos|exact H]. Qed.
Lemma delta_pos : forall x, 0 < x -> 0 < delta_of x.
Proof. intros x H. apply Rdiv_lt_0_compat; [exact H|apply rc_pos]. Qed.
Lemma delta_one : forall x, x <> CO2_CRITICAL_DENSITY -> delta_of x <> 1.
Proof.
  intros x H E. apply H. unfold delta_of in E. pose proof rc_pos.
  replace x with (x / CO2_CRITICAL_DENSITY * CO2_CRITICAL_DENSITY) by (field; lra). rewrite E. ring.
Qed.
Lemma tau_one : forall T, 0 < T -> T <> CO2_CRITICAL_TEMPERATURE -> tau_of T <> 1.
Proof.
  intros x H0 H E. apply H. unfold tau_of in E.
  replace x with (1 * x) by ring. rewrite <- E. field. lra.
Qed.

(** The isothermal pressure, as a formula. *)
Definition p_of (T rho : R) : R :=
  rho * CO2_GAS_CONSTANT * T * (1 + delta_of rho * phi_r 1 0 (nudged (delta_of rho)) (nudged (tau_of T))) / 10 ^ 6.
Lemma pressure_ok : forall T rho i, 0 < T -> 0 < rho -> carbon_dioxide_pressure T rho 0 0 i = Ok (Some (p_of T rho)).
Proof.
  intros T rho i HT Hr. unfold carbon_dioxide_pressure. rewrite np_div_ok by lra. cbn [bind Nat.eqb negb].
  fold (tau_of T). fold (delta_of rho). rewrite co2_residual_ok by (apply tau_pos || apply delta_pos || lia; assumption).
  reflexivity.
Qed.
Definition dp_of (T rho : R) : R :=
  T * CO2_GAS_CONSTANT * (1 + 2 * delta_of rho * phi_r 1 0 (nudged (delta_of rho)) (nudged (tau_of T)) +
    delta_of rho ^ 2 * phi_r 2 0 (nudged (delta_of rho)) (nudged (tau_of T))) / 10 ^ 6.
Lemma dpressure_ok : forall T rho, 0 < T -> 0 < rho -> carbon_dioxide_pressure T rho 1 0 false = Ok (Some (dp_of T rho)).
Proof.
  intros T rho HT Hr. unfold carbon_dioxide_pressure. rewrite np_div_ok by lra. cbn [bind Nat.eqb negb].
  fold (tau_of T). fold (delta_of rho). pose proof (tau_pos T HT). pose proof (delta_pos rho Hr).
  rewrite !co2_residual_ok by (assumption || lia).
  cbn [bind]. do 2 f_equal. unfold dp_of. rewrite Rplus_0_r. reflexivity.
Qed.

Lemma pressure_derivative : forall T rho, 0 < T -> 0 < rho -> rho <> CO2_CRITICAL_DENSITY ->
  derivable_pt_lim (fun x => number (carbon_dioxide_pressure T x 0 0 false)) rho
    (number (carbon_dioxide_pressure T rho 1 0 false)).
Proof.
  intros T rho HT Hr Hc. rewrite dpressure_ok by assumption. cbn [number].
  pose proof rc_pos as RC. set (tn := nudged (tau_of T)).
  apply (derivative_local _ (fun x => x * CO2_GAS_CONSTANT * T * (1 + delta_of x * phi_r 1 0 (delta_of x) tn) / 10 ^ 6)
           _ _ (Rmin rho (Rabs (rho - CO2_CRITICAL_DENSITY)))).
  - apply near_positive; assumption.
  - intros y Hy. apply near_ok in Hy. destruct Hy as [Y0 Y1]. rewrite pressure_ok by assumption. cbn [number].
    unfold p_of. rewrite (nudged_id (delta_of y)) by (apply delta_one, Y1). reflexivity.
  - assert (Ht : 0 < tn) by (apply nudged_pos, tau_pos, HT).
    assert (D : derivable_pt_lim (fun x => phi_r 1 0 (delta_of x) tn) rho (phi_r 2 0 (delta_of rho) tn * / CO2_CRITICAL_DENSITY)).
    { apply (derivable_pt_lim_comp delta_of (fun y => phi_r 1 0 y tn)).
      - eapply derivative_value; [|apply (derivable_pt_lim_scal_right (fun x => x) rho 1 (/ CO2_CRITICAL_DENSITY)), derivable_pt_lim_id]. ring.
      - apply phi_delta; [apply delta_pos, Hr|exact Ht|apply delta_one, Hc]. }
    assert (I : derivable_pt_lim delta_of rho (/ CO2_CRITICAL_DENSITY)).
    { eapply derivative_value; [|apply (derivable_pt_lim_scal_right (fun x => x) rho 1 (/ CO2_CRITICAL_DENSITY)), derivable_pt_lim_id]. ring. }
    assert (P : derivable_pt_lim (fun x => x * CO2_GAS_CONSTANT * T) rho (CO2_GAS_CONSTANT * T)).
    { eapply derivative_value; [|apply (derivable_pt_lim_scal_right (fun x => x * CO2_GAS_CONSTANT) rho (1 * CO2_GAS_CONSTANT) T),
        (derivable_pt_lim_scal_right (fun x => x) rho 1 CO2_GAS_CONSTANT), derivable_pt_lim_id]. ring. }
    assert (Q : derivable_pt_lim (fun x => 1 + delta_of x * phi_r 1 0 (delta_of x) tn) rho
                  (0 + (/ CO2_CRITICAL_DENSITY * phi_r 1 0 (delta_of rho) tn +
                        delta_of rho * (phi_r 2 0 (delta_of rho) tn * / CO2_CRITICAL_DENSITY)))).
    { apply (derivable_pt_lim_plus (fun _ => 1) (fun x => delta_of x * phi_r 1 0 (delta_of x) tn)); [apply derivative_const|].
      apply (derivable_pt_lim_mult delta_of (fun x => phi_r 1 0 (delta_of x) tn)); assumption. }
    pose proof (derivable_pt_lim_mult (fun x => x * CO2_GAS_CONSTANT * T) (fun x => 1 + delta_of x * phi_r 1 0 (delta_of x) tn)
                  rho _ _ P Q) as M.
    eapply derivative_value;
      [|exact (derivable_pt_lim_scal_right (fun x => x * CO2_GAS_CONSTANT * T * (1 + delta_of x * phi_r 1 0 (delta_of x) tn)) rho _ (/ 10 ^ 6) M)].
    cbv beta. unfold dp_of. fold tn. rewrite (nudged_id (delta_of rho)) by (apply delta_one, Hc).
    assert (E : rho = delta_of rho * CO2_CRITICAL_DENSITY) by (unfold delta_of; field; lra).
    set (d := delta_of rho) in *. set (a := phi_r 1 0 d tn). set (b := phi_r 2 0 d tn). rewrite E. field. lra.
Qed.
