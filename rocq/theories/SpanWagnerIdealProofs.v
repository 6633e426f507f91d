(** The ideal-gas part, and what the isentropic derivative is. *)
From Coq Require Import String List ZArith Reals Lra Lia.
From Coquelicot Require Import Coquelicot.
From Verif Require Import Base BaseProofs Spec MaterialModel FluidModel SpanWagnerModel SpanWagnerSpec SpanWagnerProofs.
Import ListNotations.
Open Scope R_scope.

Lemma exp_small : forall th t, 0 < th -> 0 < t -> 0 < 1 - exp (- th * t).
Proof.
  intros th t H1 H2. assert (exp (- th * t) < exp 0) by (apply exp_increasing; nra). rewrite exp_0 in *. lra.
Qed.

Definition rows : list (R * R) := combine (skipn 3 a0) theta0.
Lemma rows_pos : Forall (fun '(a, th) => 0 < a /\ 0 < th) rows.
Proof. unfold rows, a0, theta0. cbn [skipn combine]. repeat (constructor; [split; lra|]). constructor. Qed.

Definition term0 (t : R) (r : R * R) : R := fst r * ln (1 - exp (- snd r * t)).
Definition term1 (t : R) (r : R * R) : R := fst r * snd r * (1 / (1 - exp (- snd r * t)) - 1).
Definition term2 (t : R) (r : R * R) : R := fst r * snd r ^ 2 * exp (- snd r * t) * (1 / (1 - exp (- snd r * t)) ^ 2).

Lemma term0_deriv : forall a th t, 0 < th -> 0 < t ->
  derivable_pt_lim (fun x => term0 x (a, th)) t (term1 t (a, th)).
Proof.
  intros a th t H1 H2. pose proof (exp_small th t H1 H2) as E. unfold term0, term1. cbn [fst snd].
  apply is_derive_Reals. auto_derive; [exact E|]. field. lra.
Qed.
Lemma term1_deriv : forall a th t, 0 < th -> 0 < t ->
  derivable_pt_lim (fun x => term1 x (a, th)) t (- term2 t (a, th)).
Proof.
  intros a th t H1 H2. pose proof (exp_small th t H1 H2) as E. unfold term1, term2. cbn [fst snd].
  apply is_derive_Reals. auto_derive; [lra|]. field. lra.
Qed.
Lemma term2_pos : forall a th t, 0 < a -> 0 < th -> 0 < t -> 0 < term2 t (a, th).
Proof.
  intros a th t Ha H1 H2. pose proof (exp_small th t H1 H2) as E. pose proof (exp_pos (- th * t)).
  unfold term2. cbn [fst snd]. apply Rmult_lt_0_compat.
  - apply Rmult_lt_0_compat; [apply Rmult_lt_0_compat; [exact Ha|apply pow_lt, H1]|assumption].
  - apply Rdiv_lt_0_compat; [lra|apply pow_lt, E].
Qed.

Definition tsum (f : R -> R * R -> R) (l : list (R * R)) (t : R) : R := rsum (map (f t) l).
Lemma tsum_deriv : forall f g l t, (forall r, In r l -> derivable_pt_lim (fun x => f x r) t (g t r)) ->
  derivable_pt_lim (tsum f l) t (tsum g l t).
Proof.
  induction l as [|r l IH]; intros t H.
  - apply (derivable_pt_lim_const 0).
  - apply (derivable_pt_lim_plus (fun x => f x r) (tsum f l)); [apply H; left; reflexivity|].
    apply IH. intros q Hq. apply H. right. exact Hq.
Qed.
Lemma tsum_res : forall (F : R * R -> res R) f t l, (forall r, In r l -> F r = Ok (f t r)) ->
  rsum_res (map F l) = Ok (tsum f l t).
Proof.
  intros F f t. induction l as [|r l IH]; intros H; [reflexivity|]. cbn [map rsum_res].
  rewrite (H r) by (left; reflexivity). cbn [bind].
  rewrite IH by (intros q Hq; apply H; right; exact Hq). reflexivity.
Qed.
Lemma tsum_nonneg : forall f l t, (forall r, In r l -> 0 <= f t r) -> 0 <= tsum f l t.
Proof.
  intros f l t. induction l as [|r l IH]; intros H; unfold tsum in *; cbn [map rsum fold_right].
  - cbn. lra.
  - change (rsum (f t r :: map (f t) l)) with (f t r + rsum (map (f t) l)).
    pose proof (H r (or_introl eq_refl)). pose proof (IH (fun q Hq => H q (or_intror Hq))). lra.
Qed.

Definition c_ (i : nat) : R := nth i a0 0.
Definition phi0 (dd dt : nat) (d t : R) : R :=
  match dd, dt with
  | 0%nat, 0%nat => ln d + c_ 0 + c_ 1 * t + c_ 2 * ln t + tsum term0 rows t
  | 0%nat, 1%nat => c_ 1 + c_ 2 / t + tsum term1 rows t
  | 1%nat, 0%nat => 1 / d
  | 0%nat, 2%nat => - c_ 2 / t ^ 2 - tsum term2 rows t
  | 2%nat, 0%nat => -1 / d ^ 2
  | _, _ => 0
  end.
Lemma rows_in : forall a th, In (a, th) rows -> 0 < a /\ 0 < th.
Proof. intros a th H. pose proof rows_pos as P. rewrite Forall_forall in P. exact (P _ H). Qed.

Lemma ideal_ok : forall d t dd dt, 0 < d -> 0 < t -> (dd + dt <= 2)%nat ->
  ideal_gas_helmholtz_energy d t dd dt = Ok (phi0 dd dt d t).
Proof.
  intros d t dd dt Hd Ht L. unfold ideal_gas_helmholtz_energy. fold rows.
  assert (L0 : forall x, 0 < x -> np_log x = Ok (ln x)).
  { intros x Hx. unfold np_log. destruct (Rlt_dec 0 x) as [_|F]; [reflexivity|exfalso; lra]. }
  assert (P2 : forall x, 0 < x -> x ^ 2 <> 0) by (intros x Hx; pose proof (pow_lt x 2 Hx); lra).
  destruct dd as [|[|[|dd]]]; destruct dt as [|[|[|dt]]]; try (exfalso; lia); cbn [phi0].
  - rewrite (tsum_res _ term0 t).
    + cbn [bind]. rewrite !L0 by assumption. reflexivity.
    + intros [a th] Hin. destruct (rows_in _ _ Hin). rewrite L0 by (apply exp_small; assumption). reflexivity.
  - rewrite (tsum_res _ term1 t).
    + cbn [bind]. rewrite np_div_ok by lra. reflexivity.
    + intros [a th] Hin. destruct (rows_in _ _ Hin). pose proof (exp_small th t ltac:(assumption) Ht).
      rewrite np_div_ok by lra. reflexivity.
  - rewrite (tsum_res _ term2 t).
    + cbn [bind]. rewrite np_div_ok by (apply P2; lra). reflexivity.
    + intros [a th] Hin. destruct (rows_in _ _ Hin). pose proof (exp_small th t ltac:(assumption) Ht).
      rewrite np_div_ok by (apply P2; lra). reflexivity.
  - apply np_div_ok. lra.
  - reflexivity.
  - apply np_div_ok. apply P2; lra.
Qed.

Lemma phi0_delta : forall d t dd dt, 0 < d -> 0 < t -> (dd + dt <= 1)%nat ->
  derivable_pt_lim (fun x => phi0 dd dt x t) d (phi0 (S dd) dt d t).
Proof.
  intros d t dd dt Hd Ht L. destruct dd as [|[|dd]]; destruct dt as [|[|dt]]; try (exfalso; lia); cbn [phi0].
  - set (k := c_ 0). set (m := c_ 1). set (n := c_ 2). set (s := tsum term0 rows t).
    apply is_derive_Reals. auto_derive; [exact Hd|]. field. lra.
  - apply derivable_pt_lim_const.
  - apply is_derive_Reals. auto_derive; [lra|]. field. lra.
Qed.
Lemma phi0_tau : forall d t dd dt, 0 < d -> 0 < t -> (dd + dt <= 1)%nat ->
  derivable_pt_lim (fun x => phi0 dd dt d x) t (phi0 dd (S dt) d t).
Proof.
  intros d t dd dt Hd Ht L. destruct dd as [|[|dd]]; destruct dt as [|[|dt]]; try (exfalso; lia); cbn [phi0].
  - apply (derivable_pt_lim_plus (fun x => ln d + c_ 0 + c_ 1 * x + c_ 2 * ln x) (tsum term0 rows)).
    + set (k := c_ 0). set (m := c_ 1). set (n := c_ 2).
      apply is_derive_Reals. auto_derive; [lra|]. field. lra.
    + apply tsum_deriv. intros [a th] Hin. apply term0_deriv; [apply (rows_in _ _ Hin)|exact Ht].
  - apply (derivable_pt_lim_plus (fun x => c_ 1 + c_ 2 / x) (tsum term1 rows)).
    + set (m := c_ 1). set (n := c_ 2).
      apply is_derive_Reals. auto_derive; [lra|]. field. lra.
    + replace (- tsum term2 rows t) with (tsum (fun x r => - term2 x r) rows t).
      * apply (tsum_deriv term1 (fun x r => - term2 x r)).
        intros [a th] Hin. apply term1_deriv; [apply (rows_in _ _ Hin)|exact Ht].
      * unfold tsum. induction rows as [|r l IH]; [cbn; ring|].
        change (- term2 t r + rsum (map (fun r => - term2 t r) l) = - (term2 t r + rsum (map (term2 t) l))).
        rewrite IH. ring.
  - apply derivable_pt_lim_const.
Qed.

Lemma ideal_delta : forall d t dd dt, 0 < d -> 0 < t -> (dd + dt <= 1)%nat ->
  derivable_pt_lim (fun x => value (ideal_gas_helmholtz_energy x t dd dt)) d
    (value (ideal_gas_helmholtz_energy d t (S dd) dt)).
Proof.
  intros d t dd dt Hd Ht L. rewrite ideal_ok by (assumption || lia). cbn [value].
  apply (derivative_local _ (fun x => phi0 dd dt x t) _ _ d Hd).
  - intros y Hy. apply Rabs_def2 in Hy. rewrite ideal_ok by (lra || lia). reflexivity.
  - apply phi0_delta; assumption.
Qed.
Lemma ideal_tau : forall d t dd dt, 0 < d -> 0 < t -> (dd + dt <= 1)%nat ->
  derivable_pt_lim (fun x => value (ideal_gas_helmholtz_energy d x dd dt)) t
    (value (ideal_gas_helmholtz_energy d t dd (S dt))).
Proof.
  intros d t dd dt Hd Ht L. rewrite ideal_ok by (assumption || lia). cbn [value].
  apply (derivative_local _ (fun x => phi0 dd dt d x) _ _ t Ht).
  - intros y Hy. apply Rabs_def2 in Hy. rewrite ideal_ok by (lra || lia). reflexivity.
  - apply phi0_tau; assumption.
Qed.
Lemma ideal_succeeds : forall d t dd dt, 0 < d -> 0 < t ->
  ((dd + dt <= 2)%nat -> is_ok (ideal_gas_helmholtz_energy d t dd dt)) /\
  ((2 < dd + dt)%nat -> ideal_gas_helmholtz_energy d t dd dt = Err NotImplementedError).
Proof.
  intros d t dd dt Hd Ht. split; intros L.
  - rewrite ideal_ok by assumption. eexists. reflexivity.
  - destruct dd as [|[|[|dd]]]; destruct dt as [|[|[|dt]]]; try (exfalso; lia); reflexivity.
Qed.
(** The (0, 0) entry is the published equation 6.3. *)
Lemma ideal_value : forall d t, 0 < d -> 0 < t -> ideal_gas_helmholtz_energy d t 0 0 = Ok (published_ideal d t).
Proof.
  intros d t Hd Ht. rewrite ideal_ok by (assumption || lia). f_equal.
  unfold published_ideal. cbn [phi0]. unfold tsum, rows, c_, a0, theta0. cbn [nth skipn combine map rsum]. unfold term0. cbn [fst snd].
  replace (- (611190 / 10 ^ 5)) with (- (61119 / 10 ^ 4)) by lra. field.
Qed.

Lemma ideal_heat : forall d t, 0 < t -> phi0 0 2 d t < 0.
Proof.
  intros d t Ht. cbn [phi0].
  assert (0 <= tsum term2 rows t).
  { apply tsum_nonneg. intros [a th] Hin. destruct (rows_in _ _ Hin). apply Rlt_le, term2_pos; assumption. }
  assert (0 < c_ 2) by (unfold c_, a0; cbn [nth]; lra).
  assert (- c_ 2 / t ^ 2 < 0).
  { apply Ropp_lt_cancel. rewrite Ropp_0. replace (- (- c_ 2 / t ^ 2)) with (c_ 2 / t ^ 2) by (field; lra).
    apply Rdiv_lt_0_compat; [assumption|apply pow_lt, Ht]. }
  lra.
Qed.

(** ** The isentropic derivative *)
Definition total (dd dt : nat) (d t : R) : R := phi0 dd dt d t + phi_r dd dt (nudged d) (nudged t).
Lemma total_ok : forall d t dd dt, 0 < d -> 0 < t -> (dd + dt <= 2)%nat ->
  co2_helmholtz_energy d t dd dt = Ok (total dd dt d t).
Proof.
  intros d t dd dt Hd Ht L. unfold co2_helmholtz_energy.
  rewrite ideal_ok, co2_residual_ok by assumption. reflexivity.
Qed.
Lemma isentropic_ok : forall T rho, 0 < T -> 0 < rho -> total 0 2 (delta_of rho) (tau_of T) <> 0 ->
  carbon_dioxide_pressure T rho 1 0 true =
  Ok (Some (T * CO2_GAS_CONSTANT * (1 + 2 * delta_of rho * phi_r 1 0 (nudged (delta_of rho)) (nudged (tau_of T)) +
    delta_of rho ^ 2 * phi_r 2 0 (nudged (delta_of rho)) (nudged (tau_of T)) +
    - (1 + delta_of rho * phi_r 1 0 (nudged (delta_of rho)) (nudged (tau_of T)) -
       delta_of rho * tau_of T * phi_r 1 1 (nudged (delta_of rho)) (nudged (tau_of T))) ^ 2 /
      (tau_of T ^ 2 * total 0 2 (delta_of rho) (tau_of T))) / 10 ^ 6)).
Proof.
  intros T rho HT Hr N. pose proof (tau_pos T HT) as Pt. pose proof (delta_pos rho Hr) as Pd.
  unfold carbon_dioxide_pressure. rewrite np_div_ok by lra. cbn [bind Nat.eqb negb].
  fold (tau_of T). fold (delta_of rho).
  rewrite !co2_residual_ok, total_ok by (assumption || lia). cbn [bind].
  rewrite np_div_ok. 2:{ apply Rmult_integral_contrapositive_currified; [pose proof (pow_lt _ 2 Pt); lra|exact N]. }
  reflexivity.
Qed.

(** The constants of the code are the published ones. *)
Lemma Tc_same : critical_T = CO2_CRITICAL_TEMPERATURE. Proof. reflexivity. Qed.
Lemma rc_same : critical_rho = CO2_CRITICAL_DENSITY. Proof. reflexivity. Qed.
Lemma Tt_same : triple_T = CO2_TRIPLE_TEMPERATURE. Proof. reflexivity. Qed.
Lemma R_same : gas_constant = CO2_GAS_CONSTANT. Proof. unfold gas_constant, CO2_GAS_CONSTANT. lra. Qed.

Lemma tau_deriv : forall T, 0 < T -> derivable_pt_lim tau_of T (- tau_of T / T).
Proof.
  intros T H. unfold tau_of. generalize CO2_CRITICAL_TEMPERATURE as c. intros c.
  apply is_derive_Reals. auto_derive; [lra|]. field. lra.
Qed.
Lemma delta_deriv : forall r, derivable_pt_lim delta_of r (/ CO2_CRITICAL_DENSITY).
Proof.
  intros r. unfold delta_of. pose proof rc_pos. generalize dependent CO2_CRITICAL_DENSITY. intros c Hc.
  apply is_derive_Reals. auto_derive; [exact I|]. field. lra.
Qed.
Lemma tau_compose : forall f T l, 0 < T -> derivable_pt_lim f (tau_of T) l ->
  derivable_pt_lim (fun x => f (tau_of x)) T (l * (- tau_of T / T)).
Proof. intros f T l H D. apply (derivable_pt_lim_comp tau_of f); [apply tau_deriv, H|exact D]. Qed.
Lemma delta_compose : forall f r l, derivable_pt_lim f (delta_of r) l ->
  derivable_pt_lim (fun x => f (delta_of x)) r (l * / CO2_CRITICAL_DENSITY).
Proof. intros f r l D. apply (derivable_pt_lim_comp delta_of f); [apply delta_deriv|exact D]. Qed.

(** Away from delta = 1 and tau = 1 nothing is nudged. *)
Definition smooth_total (dd dt : nat) (d t : R) : R := phi0 dd dt d t + phi_r dd dt d t.
Lemma total_smooth : forall dd dt d t, d <> 1 -> t <> 1 -> total dd dt d t = smooth_total dd dt d t.
Proof. intros dd dt d t Hd Ht. unfold total, smooth_total. rewrite !nudged_id by assumption. reflexivity. Qed.
Lemma smooth_tau : forall d t dd dt, 0 < d -> 0 < t -> d <> 1 -> (dd + dt <= 1)%nat ->
  derivable_pt_lim (fun x => smooth_total dd dt d x) t (smooth_total dd (S dt) d t).
Proof.
  intros d t dd dt Hd Ht H1 L.
  apply (derivable_pt_lim_plus (fun x => phi0 dd dt d x) (fun x => phi_r dd dt d x)); [apply phi0_tau|apply phi_tau]; assumption.
Qed.
Lemma smooth_delta : forall d t dt, 0 < d -> 0 < t -> d <> 1 -> (dt <= 1)%nat ->
  derivable_pt_lim (fun x => smooth_total 0 dt x t) d (smooth_total 1 dt d t).
Proof.
  intros d t dt Hd Ht H1 L.
  apply (derivable_pt_lim_plus (fun x => phi0 0 dt x t) (fun x => phi_r 0 dt x t)); [apply phi0_delta; assumption|].
  destruct dt as [|[|dt]]; [apply phi_delta; assumption|apply phi_delta_mixed; assumption|lia].
Qed.

Lemma entropy_smooth : forall T rho, 0 < T -> T <> CO2_CRITICAL_TEMPERATURE -> 0 < rho -> rho <> CO2_CRITICAL_DENSITY ->
  entropy T rho = CO2_GAS_CONSTANT * (tau_of T * smooth_total 0 1 (delta_of rho) (tau_of T) - smooth_total 0 0 (delta_of rho) (tau_of T)).
Proof.
  intros T rho HT HTc Hr Hrc. unfold entropy. rewrite R_same, Tc_same, rc_same. fold (tau_of T). fold (delta_of rho).
  rewrite !total_ok by (apply tau_pos || apply delta_pos || lia; assumption). cbn [value].
  rewrite !total_smooth by (apply tau_one || apply delta_one; assumption). reflexivity.
Qed.

Lemma entropy_T : forall T rho, 0 < T -> T <> CO2_CRITICAL_TEMPERATURE -> 0 < rho -> rho <> CO2_CRITICAL_DENSITY ->
  derivable_pt_lim (fun x => entropy x rho) T
    (- (CO2_GAS_CONSTANT * tau_of T ^ 2 * smooth_total 0 2 (delta_of rho) (tau_of T) / T)).
Proof.
  intros T rho HT HTc Hr Hrc. pose proof (delta_pos rho Hr) as Pd. pose proof (tau_pos T HT) as Pt.
  pose proof (delta_one rho Hrc) as D1.
  apply (derivative_local _ (fun x => CO2_GAS_CONSTANT * (tau_of x * smooth_total 0 1 (delta_of rho) (tau_of x) - smooth_total 0 0 (delta_of rho) (tau_of x)))
           _ _ (Rmin T (Rabs (T - CO2_CRITICAL_TEMPERATURE)))).
  - apply near_positive; assumption.
  - intros y Hy. apply near_ok in Hy. destruct Hy. apply entropy_smooth; assumption.
  - set (d := delta_of rho) in *.
    pose proof (tau_compose (fun y => smooth_total 0 1 d y) T _ HT (smooth_tau d (tau_of T) 0 1 Pd Pt D1 ltac:(lia))) as A.
    pose proof (tau_compose (fun y => smooth_total 0 0 d y) T _ HT (smooth_tau d (tau_of T) 0 0 Pd Pt D1 ltac:(lia))) as B.
    pose proof (derivable_pt_lim_mult tau_of _ T _ _ (tau_deriv T HT) A) as M.
    pose proof (derivable_pt_lim_minus _ _ T _ _ M B) as S.
    pose proof (derivable_pt_lim_scal _ CO2_GAS_CONSTANT T _ S) as F.
    eapply derivative_value; [|exact F]. cbv beta.
    set (a := smooth_total 0 1 d (tau_of T)). set (b := smooth_total 0 2 d (tau_of T)). field. lra.
Qed.
Lemma entropy_rho : forall T rho, 0 < T -> T <> CO2_CRITICAL_TEMPERATURE -> 0 < rho -> rho <> CO2_CRITICAL_DENSITY ->
  derivable_pt_lim (fun x => entropy T x) rho
    (CO2_GAS_CONSTANT * (tau_of T * smooth_total 1 1 (delta_of rho) (tau_of T) - smooth_total 1 0 (delta_of rho) (tau_of T)) / CO2_CRITICAL_DENSITY).
Proof.
  intros T rho HT HTc Hr Hrc. pose proof (delta_pos rho Hr) as Pd. pose proof (tau_pos T HT) as Pt.
  pose proof (delta_one rho Hrc) as D1. pose proof rc_pos.
  apply (derivative_local _ (fun x => CO2_GAS_CONSTANT * (tau_of T * smooth_total 0 1 (delta_of x) (tau_of T) - smooth_total 0 0 (delta_of x) (tau_of T)))
           _ _ (Rmin rho (Rabs (rho - CO2_CRITICAL_DENSITY)))).
  - apply near_positive; assumption.
  - intros y Hy. apply near_ok in Hy. destruct Hy. apply entropy_smooth; assumption.
  - set (t := tau_of T) in *.
    pose proof (delta_compose (fun y => smooth_total 0 1 y t) rho _ (smooth_delta (delta_of rho) t 1 Pd Pt D1 ltac:(lia))) as A.
    pose proof (delta_compose (fun y => smooth_total 0 0 y t) rho _ (smooth_delta (delta_of rho) t 0 Pd Pt D1 ltac:(lia))) as B.
    pose proof (derivable_pt_lim_scal _ t rho _ A) as M.
    pose proof (derivable_pt_lim_minus _ _ rho _ _ M B) as S.
    pose proof (derivable_pt_lim_scal _ CO2_GAS_CONSTANT rho _ S) as F.
    eapply derivative_value; [|exact F]. cbv beta.
    set (a := smooth_total 1 1 _ t). set (b := smooth_total 1 0 _ t). field. lra.
Qed.
Lemma pressure_T : forall T rho, 0 < T -> T <> CO2_CRITICAL_TEMPERATURE -> 0 < rho -> rho <> CO2_CRITICAL_DENSITY ->
  derivable_pt_lim (fun x => number (carbon_dioxide_pressure x rho 0 0 false)) T
    (rho * CO2_GAS_CONSTANT * (1 + delta_of rho * phi_r 1 0 (delta_of rho) (tau_of T)
       - delta_of rho * tau_of T * phi_r 1 1 (delta_of rho) (tau_of T)) / 10 ^ 6).
Proof.
  intros T rho HT HTc Hr Hrc. pose proof (delta_pos rho Hr) as Pd. pose proof (tau_pos T HT) as Pt.
  pose proof (delta_one rho Hrc) as D1.
  set (d := delta_of rho) in *.
  apply (derivative_local _ (fun x => (rho * CO2_GAS_CONSTANT / 10 ^ 6) * (x * (1 + d * phi_r 1 0 d (tau_of x))))
           _ _ (Rmin T (Rabs (T - CO2_CRITICAL_TEMPERATURE)))).
  - apply near_positive; assumption.
  - intros y Hy. apply near_ok in Hy. destruct Hy as [Y0 Y1]. rewrite pressure_ok by assumption. cbn [number].
    unfold p_of. fold d. rewrite !nudged_id by (assumption || (apply tau_one; assumption)). field.
  - pose proof (tau_compose (fun y => phi_r 1 0 d y) T _ HT (phi_tau 1 0 d (tau_of T) Pd Pt D1)) as A.
    pose proof (derivable_pt_lim_scal _ d T _ A) as M.
    pose proof (derivable_pt_lim_plus (fun _ => 1) _ T _ _ (derivative_const 1 T) M) as S.
    pose proof (derivable_pt_lim_mult (fun x => x) _ T _ _ (derivable_pt_lim_id T) S) as F.
    pose proof (derivable_pt_lim_scal _ (rho * CO2_GAS_CONSTANT / 10 ^ 6) T _ F) as G.
    eapply derivative_value; [|exact G]. cbv beta. unfold plus_fct, mult_real_fct.
    set (a := phi_r 1 0 d (tau_of T)). set (b := phi_r 1 1 d (tau_of T)). field. lra.
Qed.

(** Along a curve of constant entropy dT/drho = - s_rho / s_T. *)
Lemma isentropic_identity : forall T rho, 0 < T -> T <> CO2_CRITICAL_TEMPERATURE -> 0 < rho -> rho <> CO2_CRITICAL_DENSITY ->
  exists p_T p_rho s_T s_rho,
    derivable_pt_lim (fun x => number (carbon_dioxide_pressure x rho 0 0 false)) T p_T /\
    derivable_pt_lim (fun x => number (carbon_dioxide_pressure T x 0 0 false)) rho p_rho /\
    derivable_pt_lim (fun x => entropy x rho) T s_T /\
    derivable_pt_lim (fun x => entropy T x) rho s_rho /\
    s_rho = - (p_T * 10 ^ 6) / rho ^ 2 /\
    (s_T <> 0 -> carbon_dioxide_pressure T rho 1 0 true = Ok (Some (p_rho + p_T * (- s_rho / s_T)))) /\
    (s_T = 0 -> carbon_dioxide_pressure T rho 1 0 true = Err NonFinite).
Proof.
  intros T rho HT HTc Hr Hrc. pose proof (delta_pos rho Hr) as Pd. pose proof (tau_pos T HT) as Pt.
  pose proof rc_pos as RC. pose proof R_pos as RP.
  pose proof (pressure_T T rho HT HTc Hr Hrc) as A.
  pose proof (pressure_derivative T rho HT Hr Hrc) as B. rewrite dpressure_ok in B by assumption. cbn [number] in B.
  pose proof (entropy_T T rho HT HTc Hr Hrc) as C. pose proof (entropy_rho T rho HT HTc Hr Hrc) as D.
  do 4 eexists. split; [exact A|]. split; [exact B|]. split; [exact C|]. split; [exact D|].
  assert (E : rho = delta_of rho * CO2_CRITICAL_DENSITY) by (unfold delta_of; field; lra).
  assert (TN : total 0 2 (delta_of rho) (tau_of T) = smooth_total 0 2 (delta_of rho) (tau_of T))
    by (apply total_smooth; [apply delta_one, Hrc|apply tau_one; assumption]).
  assert (N1 : nudged (delta_of rho) = delta_of rho) by (apply nudged_id, delta_one, Hrc).
  assert (N2 : nudged (tau_of T) = tau_of T) by (apply nudged_id, tau_one; assumption).
  assert (S10 : smooth_total 1 0 (delta_of rho) (tau_of T) = 1 / delta_of rho + phi_r 1 0 (delta_of rho) (tau_of T)) by reflexivity.
  assert (S11 : smooth_total 1 1 (delta_of rho) (tau_of T) = phi_r 1 1 (delta_of rho) (tau_of T))
    by (unfold smooth_total; cbn [phi0]; ring).
  rewrite S10, S11.
  split; [|split].
  - set (d := delta_of rho) in *. set (a := phi_r 1 0 d _). set (b := phi_r 1 1 d _). rewrite E. field. lra.
  - intros NZ. assert (NZ' : smooth_total 0 2 (delta_of rho) (tau_of T) <> 0) by (intros Z; apply NZ; rewrite Z; field; lra).
    rewrite isentropic_ok by (assumption || (rewrite TN; exact NZ')). rewrite TN. unfold dp_of. rewrite N1, N2.
    do 2 f_equal. set (d := delta_of rho) in *. set (t := tau_of T) in *.
    set (a := phi_r 1 0 d t). set (b := phi_r 1 1 d t). set (c := phi_r 2 0 d t). set (h := smooth_total 0 2 d t) in *.
    rewrite E. field. repeat split; try lra; try assumption.
  - intros Z. assert (Z' : smooth_total 0 2 (delta_of rho) (tau_of T) = 0).
    { set (h := smooth_total 0 2 _ _) in *.
      assert (K : CO2_GAS_CONSTANT * tau_of T ^ 2 / T <> 0).
      { apply Rgt_not_eq. apply Rdiv_lt_0_compat; [|exact HT]. apply Rmult_lt_0_compat; [exact RP|apply pow_lt, Pt]. }
      assert (Z2 : (CO2_GAS_CONSTANT * tau_of T ^ 2 / T) * h = 0).
      { replace (CO2_GAS_CONSTANT * tau_of T ^ 2 / T * h) with (- - (CO2_GAS_CONSTANT * tau_of T ^ 2 * h / T)) by (field; lra). rewrite Z. ring. }
      apply Rmult_integral in Z2. tauto. }
    unfold carbon_dioxide_pressure. rewrite np_div_ok by lra. cbn [bind Nat.eqb negb].
    fold (tau_of T). fold (delta_of rho).
    rewrite !co2_residual_ok, total_ok by (assumption || lia). cbn [bind]. rewrite TN, Z', Rmult_0_r, np_div_0. reflexivity.
Qed.

(** ** Published residual part, and pressure as a derivative of the energy *)
Lemma residual_value : forall d t, 0 < d -> 0 < t -> d <> 1 -> t <> 1 ->
  co2_residual_helmholtz_energy d t 0 0 = Ok (published_residual d t).
Proof.
  intros d t Hd Ht H1 H2. rewrite co2_residual_ok by (assumption || lia). rewrite !nudged_id by assumption. f_equal.
  assert (S4 : forall a b c e a' b' c' e', a = a' -> b = b' -> c = c' -> e = e' -> a + (b + (c + e)) = a' + b' + c' + e')
    by (intros; subst; ring).
  assert (D0 : forall l, map (derived 0 0) l = l) by apply map_id.
  unfold phi_r, all_terms, published_residual. rewrite D0, !dsum_app. apply S4; unfold dsum.
  - reflexivity.
  - unfold group2, n2, d2, t2, c2, published_group2. cbn [combine map rsum s2 den Neg].
    assert (E : forall x, -1 * x = - x) by (intros x; ring). rewrite !E. reflexivity.
  - unfold group3, n3, d3, t3, alpha3, beta3, gamma3, epsilon3, published_group3. cbn [combine map rsum s3 den Neg Sub].
    assert (E : forall a b c e x y, -1 * (a * (x + -1 * e) ^ 2) + -1 * (b * (y + -1 * c) ^ 2) = - a * (x - e) ^ 2 - b * (y - c) ^ 2)
      by (intros; ring). rewrite !E. reflexivity.
  - unfold group4, n4, b4, a4, beta4, A4, B4, C4, D4, published_group4.
    cbn [combine map rsum s4 bigphi_expr bigdelta_expr theta_expr den Neg Sub].
    assert (E : forall x, x + -1 * 1 = x - 1) by (intros x; ring). rewrite !E.
    assert (F : forall x, 1 + -1 * x = 1 - x) by (intros x; ring). rewrite !F.
    assert (G : forall a b x y, -1 * (a * x) + -1 * (b * y) = - a * x - b * y) by (intros; ring). rewrite !G. reflexivity.
Qed.
Lemma pressure_from_energy : forall T rho, 0 < T -> T <> critical_T -> 0 < rho -> rho <> critical_rho ->
  exists p, carbon_dioxide_pressure T rho 0 0 false = Ok (Some p) /\
    derivable_pt_lim (fun x => helmholtz T x) rho (p * 10 ^ 6 / rho ^ 2).
Proof.
  intros T rho HT HTc Hr Hrc. rewrite Tc_same in HTc. rewrite rc_same in Hrc.
  exists (p_of T rho). split; [apply pressure_ok; assumption|].
  pose proof (delta_pos rho Hr) as Pd. pose proof (tau_pos T HT) as Pt. pose proof (delta_one rho Hrc) as D1.
  pose proof (tau_one T HT HTc) as T1. pose proof rc_pos as RC.
  apply (derivative_local _ (fun x => CO2_GAS_CONSTANT * T * smooth_total 0 0 (delta_of x) (tau_of T))
           _ _ (Rmin rho (Rabs (rho - CO2_CRITICAL_DENSITY)))).
  - apply near_positive; assumption.
  - intros y Hy. apply near_ok in Hy. destruct Hy as [Y0 Y1]. unfold helmholtz. rewrite R_same, Tc_same, rc_same.
    fold (tau_of T). fold (delta_of y). rewrite total_ok by (apply delta_pos || assumption || lia; assumption). cbn [value].
    rewrite total_smooth by (assumption || (apply delta_one, Y1)). reflexivity.
  - pose proof (delta_compose (fun y => smooth_total 0 0 y (tau_of T)) rho _ (smooth_delta (delta_of rho) (tau_of T) 0 Pd Pt D1 ltac:(lia))) as B.
    pose proof (derivable_pt_lim_scal _ (CO2_GAS_CONSTANT * T) rho _ B) as F.
    eapply derivative_value; [|exact F]. cbv beta. unfold p_of, smooth_total. cbn [phi0]. rewrite !nudged_id by assumption.
    assert (E : rho = delta_of rho * CO2_CRITICAL_DENSITY) by (unfold delta_of; field; lra).
    set (d := delta_of rho) in *. set (a := phi_r 1 0 d _). rewrite E. field. lra.
Qed.
