(** Low density: the residual part vanishes. *)
From Coq Require Import String List ZArith Reals Lra Lia.
From Verif Require Import Base BaseProofs Spec MaterialModel FluidModel SpanWagnerModel SpanWagnerSpec SpanWagnerProofs
  SpanWagnerIdealProofs.
Import ListNotations.
Open Scope R_scope.

(** ** Two expressions with the same values where both are smooth have the same derivatives *)
Definition inside (d t : R) : Prop := 0 < d /\ d <> 1 /\ 0 < t.
Definition twins (e f : expr) : Prop :=
  forall d t, inside d t -> dom e d t /\ dom f d t /\ den e d t = den f d t.
Lemma twins_diff : forall v e f, twins e f -> twins (diff v e) (diff v f).
Proof.
  intros v e f H d t I. destruct (H d t I) as (De & Df & E). destruct I as (I1 & I2 & I3).
  split; [apply dom_diff, De|]. split; [apply dom_diff, Df|]. destruct v.
  - apply (uniqueness_limite (fun x => den f x t) d); [|apply diff_delta, Df].
    apply (derivative_local _ (fun x => den e x t) _ _ (Rmin d (Rabs (d - 1)))).
    + apply near_positive; assumption.
    + intros y Hy. apply near_ok in Hy. symmetry. apply H. split; [tauto|]. split; tauto.
    + apply diff_delta, De.
  - apply (uniqueness_limite (fun x => den f d x) t); [|apply diff_tau, Df].
    apply (derivative_local _ (fun x => den e d x) _ _ t I3).
    + intros y Hy. apply Rabs_def2 in Hy. symmetry. apply H. split; [assumption|]. split; [assumption|lra].
    + apply diff_tau, De.
Qed.
Lemma twins_derived : forall dd dt e f, twins e f -> twins (derived dd dt e) (derived dd dt f).
Proof.
  intros dd dt e f H. unfold derived.
  assert (A : twins (Nat.iter dd (diff Delta) e) (Nat.iter dd (diff Delta) f))
    by (induction dd as [|dd IH]; [exact H|apply twins_diff, IH]).
  induction dt as [|dt IH]; [exact A|apply twins_diff, IH].
Qed.
Lemma twins_sum : forall g h, Forall2 twins g h -> forall dd dt d t, inside d t ->
  dsum (map (derived dd dt) g) d t = dsum (map (derived dd dt) h) d t.
Proof.
  intros g h H dd dt d t I. unfold dsum. induction H as [|e f g h T _ IH]; [reflexivity|]. cbn [map rsum].
  destruct (twins_derived dd dt e f T d t I) as (_ & _ & ->). rewrite IH. reflexivity.
Qed.

(** ** The terms with integer powers of delta *)
Definition q1 (n : R) (k : nat) (t : R) : expr := Mul (Mul (Cst n) (PowN (Var Delta) k)) (Pow (Var Tau) t).
Definition q2 (n : R) (k : nat) (t : R) (c : nat) : expr :=
  Mul (Mul (Mul (Cst n) (PowN (Var Delta) k)) (Pow (Var Tau) t)) (Exp (Neg (PowN (Var Delta) c))).
Definition q3 (n : R) (k : nat) (t alpha epsilon beta gamma : R) : expr :=
  Mul (Mul (Mul (Cst n) (PowN (Var Delta) k)) (Pow (Var Tau) t))
    (Exp (Sub (Neg (Mul (Cst alpha) (PowN (Sub (Var Delta) (Cst epsilon)) 2)))
              (Mul (Cst beta) (PowN (Sub (Var Tau) (Cst gamma)) 2)))).
Lemma twins_q1 : forall n k t, twins (s1 n (INR k) t) (q1 n k t).
Proof.
  intros n k t d u (I1 & I2 & I3). cbn. split; [tauto|]. split; [tauto|]. rewrite Rpower_pow by exact I1. reflexivity.
Qed.
Lemma twins_q2 : forall n k t c, twins (s2 n (INR k) t (INR c)) (q2 n k t c).
Proof.
  intros n k t c d u (I1 & I2 & I3). cbn. split; [tauto|]. split; [tauto|]. rewrite !Rpower_pow by exact I1. reflexivity.
Qed.
Lemma twins_q3 : forall n k t a e b g, twins (s3 n (INR k) t a e b g) (q3 n k t a e b g).
Proof.
  intros n k t a e b g d u (I1 & I2 & I3). cbn. split; [tauto|]. split; [tauto|]. rewrite !Rpower_pow by exact I1. reflexivity.
Qed.
Lemma twins_s4 : forall n b a be A B C D, 0 < B -> twins (s4 n b a be A B C D) (s4 n b a be A B C D).
Proof.
  intros n b a be A B C D HB d t (I1 & I2 & I3). split; [|split; [|reflexivity]]; apply dom_s4; assumption.
Qed.

Lemma cast2 : forall n d t, (exists k, (1 <= k)%nat /\ d = INR k) -> exists f,
  twins (s1 n d t) f /\ (forall u, 0 < u -> dom f 0 u) /\ (forall u, den f 0 u = 0).
Proof.
  intros n d t (k & Hk & ->). exists (q1 n k t). split; [apply twins_q1|]. split.
  - intros u Hu. cbn. tauto.
  - intros u. cbn [q1 den]. rewrite pow_i by lia. ring.
Qed.
Lemma cast3 : forall n d t c, (exists k, (1 <= k)%nat /\ d = INR k) -> (exists m, c = INR m) -> exists f,
  twins (s2 n d t c) f /\ (forall u, 0 < u -> dom f 0 u) /\ (forall u, den f 0 u = 0).
Proof.
  intros n d t c (k & Hk & ->) (m & ->). exists (q2 n k t m). split; [apply twins_q2|]. split.
  - intros u Hu. cbn. tauto.
  - intros u. cbn [q2 den]. rewrite (pow_i k) by lia. ring.
Qed.
Lemma cast4 : forall n d t a e b g, (exists k, (1 <= k)%nat /\ d = INR k) -> exists f,
  twins (s3 n d t a e b g) f /\ (forall u, 0 < u -> dom f 0 u) /\ (forall u, den f 0 u = 0).
Proof.
  intros n d t a e b g (k & Hk & ->). exists (q3 n k t a e b g). split; [apply twins_q3|]. split.
  - intros u Hu. cbn. tauto.
  - intros u. cbn [q3 den]. rewrite (pow_i k) by lia. ring.
Qed.
Lemma cast5 : forall n b a be A B C D, 0 < B -> exists f,
  twins (s4 n b a be A B C D) f /\ (forall u, 0 < u -> dom f 0 u) /\ (forall u, den f 0 u = 0).
Proof.
  intros n b a be A B C D HB. exists (s4 n b a be A B C D). split; [apply twins_s4, HB|]. split.
  - intros u _. apply dom_s4; lra.
  - intros u. cbn [s4 den]. ring.
Qed.

Ltac natural k := exists k; split; [lia|cbn [INR]; lra].
Ltac some_natural :=
  first [natural 1%nat|natural 2%nat|natural 3%nat|natural 4%nat|natural 5%nat|natural 6%nat|natural 7%nat|natural 8%nat|natural 9%nat|natural 10%nat].
Ltac a_natural k := exists k; cbn [INR]; lra.
Ltac any_natural := first [a_natural 1%nat|a_natural 2%nat|a_natural 3%nat|a_natural 4%nat|a_natural 5%nat|a_natural 6%nat].

Definition extends (e f : expr) : Prop := twins e f /\ (forall u, 0 < u -> dom f 0 u) /\ (forall u, den f 0 u = 0).
Lemma extension : exists g, Forall2 extends all_terms g.
Proof.
  assert (H : Forall (fun e => exists f, extends e f) all_terms).
  { unfold all_terms. rewrite !Forall_app. split; [|split; [|split]].
    - unfold group1, n1, d1, t1. cbn [combine map]. repeat (constructor; [apply cast2; some_natural|]). constructor.
    - unfold group2, n2, d2, t2, c2. cbn [combine map]. repeat (constructor; [apply cast3; [some_natural|any_natural]|]). constructor.
    - unfold group3, n3, d3, t3, alpha3, epsilon3, beta3, gamma3. cbn [combine map]. repeat (constructor; [apply cast4; some_natural|]). constructor.
    - unfold group4, n4, b4, a4, beta4, A4, B4, C4, D4. cbn [combine map]. repeat (constructor; [apply cast5; lra|]). constructor. }
  induction H as [|e l (f & Hf) _ (g & Hg)]; [exists []; constructor|].
  exists (f :: g). constructor; assumption.
Qed.

Lemma extends_twins : forall l g, Forall2 extends l g -> Forall2 twins l g.
Proof. intros l g H. induction H as [|e f l g E _ IH]; constructor; [apply E|exact IH]. Qed.

(** ** Limits at zero density *)
Lemma tends_plus : forall f g a b, tends_to f a -> tends_to g b -> tends_to (fun x => f x + g x) (a + b).
Proof.
  intros f g a b F G eps He. destruct (F (eps / 2) ltac:(lra)) as (r & Hr & P). destruct (G (eps / 2) ltac:(lra)) as (s & Hs & Q).
  exists (Rmin r s). split; [apply Rmin_glb_lt; assumption|]. intros x Hx.
  pose proof (Rmin_l r s). pose proof (Rmin_r r s). specialize (P x ltac:(lra)). specialize (Q x ltac:(lra)).
  replace (f x + g x - (a + b)) with ((f x - a) + (g x - b)) by ring.
  eapply Rle_lt_trans; [apply Rabs_triang|lra].
Qed.
Lemma tends_const : forall c, tends_to (fun _ => c) c.
Proof. intros c eps He. exists 1. split; [lra|]. intros x _. rewrite Rminus_diag_eq, Rabs_R0 by reflexivity. exact He. Qed.
Lemma tends_id : tends_to (fun x => x) 0.
Proof. intros eps He. exists eps. split; [exact He|]. intros x Hx. rewrite Rminus_0_r, Rabs_pos_eq by lra. lra. Qed.
Lemma tends_mult : forall f g a b, tends_to f a -> tends_to g b -> tends_to (fun x => f x * g x) (a * b).
Proof.
  intros f g a b F G eps He. pose proof (Rabs_pos a) as Pa. pose proof (Rabs_pos b) as Pb.
  assert (K : 0 < eps / (2 * (1 + Rabs a + Rabs b))) by (apply Rdiv_lt_0_compat; lra).
  set (k := eps / (2 * (1 + Rabs a + Rabs b))) in *.
  destruct (F (Rmin 1 k) ltac:(apply Rmin_glb_lt; lra)) as (r & Hr & P). destruct (G (Rmin 1 k) ltac:(apply Rmin_glb_lt; lra)) as (s & Hs & Q).
  exists (Rmin r s). split; [apply Rmin_glb_lt; assumption|]. intros x Hx.
  pose proof (Rmin_l r s). pose proof (Rmin_r r s). specialize (P x ltac:(lra)). specialize (Q x ltac:(lra)).
  pose proof (Rmin_l 1 k). pose proof (Rmin_r 1 k).
  replace (f x * g x - a * b) with ((f x - a) * (g x - b) + (f x - a) * b + a * (g x - b)) by ring.
  eapply Rle_lt_trans; [eapply Rle_trans; [apply Rabs_triang|apply Rplus_le_compat_r, Rabs_triang]|].
  rewrite !Rabs_mult.
  pose proof (Rabs_pos (f x - a)). pose proof (Rabs_pos (g x - b)).
  assert (M1 : Rabs (f x - a) * Rabs (g x - b) <= k * 1) by (apply Rmult_le_compat; lra).
  assert (M2 : Rabs (f x - a) * Rabs b <= k * Rabs b) by (apply Rmult_le_compat_r; lra).
  assert (M3 : Rabs a * Rabs (g x - b) <= Rabs a * k) by (apply Rmult_le_compat_l; lra).
  assert (E : k * (1 + Rabs a + Rabs b) = eps / 2) by (unfold k; field; lra).
  assert (k * 1 + k * Rabs b + Rabs a * k = eps / 2) by (rewrite <- E; ring).
  lra.
Qed.
Lemma tends_near : forall f g l s, 0 < s -> (forall x, 0 < x < s -> f x = g x) -> tends_to g l -> tends_to f l.
Proof.
  intros f g l s Hs E G eps He. destruct (G eps He) as (r & Hr & P). exists (Rmin r s). split; [apply Rmin_glb_lt; assumption|].
  intros x Hx. pose proof (Rmin_l r s). pose proof (Rmin_r r s). rewrite E by lra. apply P. lra.
Qed.
Lemma tends_derivable : forall f l, derivable_pt_lim f 0 l -> tends_to f (f 0).
Proof.
  intros f l H. assert (C : continuity_pt f 0) by (apply derivable_continuous_pt; exists l; exact H).
  intros eps He. destruct (C eps He) as (r & Hr & P). exists r. split; [exact Hr|]. intros x Hx.
  apply (P x). split.
  - split; [exact I|lra].
  - cbn. unfold R_dist. rewrite Rminus_0_r, Rabs_pos_eq by lra. lra.
Qed.
Lemma tends_scaled : forall f l c, 0 < c -> tends_to f l -> tends_to (fun x => f (x / c)) l.
Proof.
  intros f l c Hc F eps He. destruct (F eps He) as (r & Hr & P). exists (r * c). split; [apply Rmult_lt_0_compat; assumption|].
  intros x Hx. apply P. split; [apply Rdiv_lt_0_compat; lra|]. apply (Rmult_lt_reg_r c); [exact Hc|].
  replace (x / c * c) with x by (field; lra). lra.
Qed.

Lemma derived_zero : forall dt f, (forall u, 0 < u -> dom f 0 u) -> (forall u, 0 < u -> den f 0 u = 0) ->
  forall u, 0 < u -> den (derived 0 dt f) 0 u = 0.
Proof.
  intros dt f D Z. induction dt as [|dt IH]; intros u Hu; [apply Z, Hu|].
  change (derived 0 (S dt) f) with (diff Tau (derived 0 dt f)).
  apply (uniqueness_limite (fun x => den (derived 0 dt f) 0 x) u).
  - apply diff_tau. apply dom_iter, D, Hu.
  - apply (derivative_local _ (fun _ => 0) _ _ u Hu); [|apply derivative_const].
    intros y Hy. apply Rabs_def2 in Hy. apply IH. lra.
Qed.
Lemma sum_tends : forall g dd dt t, 0 < t -> Forall (fun f => forall u, 0 < u -> dom f 0 u) g ->
  tends_to (fun x => dsum (map (derived dd dt) g) x t) (dsum (map (derived dd dt) g) 0 t).
Proof.
  intros g dd dt t Ht H. eapply (tends_derivable (fun x => dsum (map (derived dd dt) g) x t)).
  apply sum_delta. apply Forall_map. eapply Forall_impl; [|exact H]. intros f D. apply dom_iter, dom_iter, D, Ht.
Qed.

(** Every entry has a limit, and the entries that are not derivatives in delta
    vanish. *)
Lemma phi_tends : forall dd dt t, 0 < t -> exists l, tends_to (fun x => phi_r dd dt x t) l.
Proof.
  intros dd dt t Ht. destruct extension as (g & H). exists (dsum (map (derived dd dt) g) 0 t).
  apply (tends_near _ (fun x => dsum (map (derived dd dt) g) x t) _ 1 ltac:(lra)).
  - intros x Hx. unfold phi_r. apply twins_sum; [|split; [lra|split; lra]].
    apply extends_twins, H.
  - apply sum_tends; [exact Ht|]. clear -H. induction H as [|e f l g E _ IH]; constructor; [apply E|exact IH].
Qed.
Lemma phi_vanishes : forall dt t, 0 < t -> tends_to (fun x => phi_r 0 dt x t) 0.
Proof.
  intros dt t Ht. destruct extension as (g & H).
  apply (tends_near _ (fun x => dsum (map (derived 0 dt) g) x t) _ 1 ltac:(lra)).
  - intros x Hx. unfold phi_r. apply twins_sum; [|split; [lra|split; lra]].
    apply extends_twins, H.
  - replace 0 with (dsum (map (derived 0 dt) g) 0 t).
    + apply sum_tends; [exact Ht|]. clear -H. induction H as [|e f l g E _ IH]; constructor; [apply E|exact IH].
    + unfold dsum. clear -H Ht. induction H as [|e f l g (_ & D & Z) _ IH]; [reflexivity|]. cbn [map rsum].
      rewrite IH, (derived_zero dt f D (fun u _ => Z u) t Ht). ring.
Qed.

(** ** Pressure at low density *)
Lemma residual_tends : forall dd dt T, 0 < T -> exists l,
  tends_to (fun rho => phi_r dd dt (nudged (delta_of rho)) (nudged (tau_of T))) l.
Proof.
  intros dd dt T HT. pose proof rc_pos as RC.
  destruct (phi_tends dd dt (nudged (tau_of T)) (nudged_pos _ (tau_pos T HT))) as (l & H). exists l.
  apply (tends_near _ (fun rho => phi_r dd dt (rho / CO2_CRITICAL_DENSITY) (nudged (tau_of T))) _ CO2_CRITICAL_DENSITY RC).
  - intros x Hx. rewrite nudged_id; [reflexivity|]. apply delta_one. lra.
  - apply (tends_scaled (fun x => phi_r dd dt x (nudged (tau_of T)))); [exact RC|exact H].
Qed.
Lemma residual_vanishes : forall dt T, 0 < T ->
  tends_to (fun rho => phi_r 0 dt (nudged (delta_of rho)) (nudged (tau_of T))) 0.
Proof.
  intros dt T HT. pose proof rc_pos as RC.
  pose proof (phi_vanishes dt (nudged (tau_of T)) (nudged_pos _ (tau_pos T HT))) as H.
  apply (tends_near _ (fun rho => phi_r 0 dt (rho / CO2_CRITICAL_DENSITY) (nudged (tau_of T))) _ CO2_CRITICAL_DENSITY RC).
  - intros x Hx. rewrite nudged_id; [reflexivity|]. apply delta_one. lra.
  - apply (tends_scaled (fun x => phi_r 0 dt x (nudged (tau_of T)))); [exact RC|exact H].
Qed.
Lemma delta_tends : tends_to delta_of 0.
Proof. apply (tends_scaled (fun x => x)); [apply rc_pos|apply tends_id]. Qed.

Lemma ideal_gas_limit : forall T, 0 < T ->
  (forall rho, 0 < rho -> exists p, carbon_dioxide_pressure T rho 0 0 false = Ok (Some p)) /\
  tends_to (fun rho => number (carbon_dioxide_pressure T rho 0 0 false) * 10 ^ 6 / (rho * CO2_GAS_CONSTANT * T)) 1.
Proof.
  intros T HT. pose proof R_pos as RP. split.
  - intros rho Hr. eexists. apply pressure_ok; assumption.
  - destruct (residual_tends 1 0 T HT) as (l & H).
    apply (tends_near _ (fun rho => 1 + delta_of rho * phi_r 1 0 (nudged (delta_of rho)) (nudged (tau_of T))) _ 1 ltac:(lra)).
    + intros x Hx. rewrite pressure_ok by lra. cbn [number]. unfold p_of. field. lra.
    + pose proof (tends_plus _ _ _ _ (tends_const 1) (tends_mult _ _ _ _ delta_tends H)) as G.
      replace (1 + 0 * l) with 1 in G by ring. exact G.
Qed.

(** Where the heat capacity is positive the isentropic derivative is at least
    the isothermal one. *)
Lemma isentropic_stiffer : forall T rho, 0 < T -> 0 < rho ->
  value (co2_helmholtz_energy (rho / CO2_CRITICAL_DENSITY) (CO2_CRITICAL_TEMPERATURE / T) 0 2) < 0 ->
  exists a b, carbon_dioxide_pressure T rho 1 0 false = Ok (Some a) /\
              carbon_dioxide_pressure T rho 1 0 true = Ok (Some b) /\ a <= b.
Proof.
  intros T rho HT Hr. fold (tau_of T). fold (delta_of rho).
  pose proof (tau_pos T HT) as Pt. pose proof (delta_pos rho Hr) as Pd.
  rewrite total_ok by (assumption || lia). cbn [value]. intros N. pose proof R_pos as RP.
  rewrite dpressure_ok by assumption. rewrite isentropic_ok by (assumption || lra).
  do 2 eexists. split; [reflexivity|]. split; [reflexivity|]. unfold dp_of.
  set (x := phi_r 1 0 _ _). set (y := phi_r 2 0 _ _). set (z := phi_r 1 1 _ _). set (h := total 0 2 _ _) in *.
  set (d := delta_of rho) in *. set (t := tau_of T) in *. set (n := (1 + d * x - d * t * z) ^ 2).
  assert (Hn : 0 <= n) by apply pow2_ge_0.
  assert (Q : 0 <= - n / (t ^ 2 * h)).
  { replace (- n / (t ^ 2 * h)) with (n / (t ^ 2 * - h)) by (field; lra).
    apply Rmult_le_pos; [exact Hn|]. apply Rlt_le, Rinv_0_lt_compat, Rmult_lt_0_compat; [apply pow_lt, Pt|lra]. }
  apply Rmult_le_compat_r; [apply Rlt_le, Rinv_0_lt_compat; lra|].
  apply Rmult_le_compat_l; [apply Rlt_le, Rmult_lt_0_compat; assumption|]. lra.
Qed.

Lemma low_density : forall T, 0 < T -> exists r, 0 < r /\ forall rho, 0 < rho < r ->
  value (co2_helmholtz_energy (rho / CO2_CRITICAL_DENSITY) (CO2_CRITICAL_TEMPERATURE / T) 0 2) < 0 /\
  exists a b, carbon_dioxide_pressure T rho 1 0 false = Ok (Some a) /\
              carbon_dioxide_pressure T rho 1 0 true = Ok (Some b) /\ 0 < a /\ a < b.
Proof.
  intros T HT. pose proof (tau_pos T HT) as Pt. pose proof R_pos as RP.
  destruct (residual_tends 1 0 T HT) as (l1 & H1). destruct (residual_tends 2 0 T HT) as (l2 & H2).
  destruct (residual_tends 1 1 T HT) as (l3 & H3). pose proof (residual_vanishes 2 T HT) as H4.
  set (t := tau_of T) in *.
  pose proof (tends_plus _ _ _ _ (tends_plus _ _ _ _ (tends_const 1) (tends_mult _ _ _ _ (tends_mult _ _ _ _ (tends_const 2) delta_tends) H1))
                (tends_mult _ _ _ _ (tends_mult _ _ _ _ delta_tends delta_tends) H2)) as A.
  pose proof (tends_plus _ _ _ _ (tends_plus _ _ _ _ (tends_const 1) (tends_mult _ _ _ _ delta_tends H1))
                (tends_mult _ _ _ _ (tends_mult _ _ _ _ (tends_const (- t)) delta_tends) H3)) as B.
  pose proof (ideal_heat 1 t Pt) as C. set (k := phi0 0 2 1 t) in *.
  destruct (A (1 / 2) ltac:(lra)) as (ra & Ra & FA). destruct (B (1 / 2) ltac:(lra)) as (rb & Rb & FB).
  destruct (H4 (- k) ltac:(lra)) as (rc & Rc & FC).
  exists (Rmin ra (Rmin rb rc)). split; [repeat apply Rmin_glb_lt; assumption|]. intros rho Hrho.
  pose proof (Rmin_l ra (Rmin rb rc)). pose proof (Rmin_r ra (Rmin rb rc)). pose proof (Rmin_l rb rc). pose proof (Rmin_r rb rc).
  specialize (FA rho ltac:(lra)). specialize (FB rho ltac:(lra)). specialize (FC rho ltac:(lra)). cbv beta in *.
  apply Rabs_def2 in FA. apply Rabs_def2 in FB. apply Rabs_def2 in FC.
  assert (Hr : 0 < rho) by lra. pose proof (delta_pos rho Hr) as Pd.
  assert (N : total 0 2 (delta_of rho) t < 0).
  { unfold total. change (phi0 0 2 (delta_of rho) t) with k. lra. }
  split.
  { fold t. fold (delta_of rho). change (CO2_CRITICAL_TEMPERATURE / T) with t.
    rewrite total_ok by (assumption || lia). exact N. }
  rewrite dpressure_ok by assumption. rewrite isentropic_ok by (assumption || (fold t; lra)).
  do 2 eexists. split; [reflexivity|]. split; [reflexivity|]. unfold dp_of. fold t.
  set (x := phi_r 1 0 _ _) in *. set (y := phi_r 2 0 _ _) in *. set (z := phi_r 1 1 _ _) in *. set (h := total 0 2 _ _) in *.
  set (d := delta_of rho) in *. set (n := 1 + d * x - d * t * z).
  assert (Hn : 0 < n) by (unfold n; lra).
  assert (Hm : 0 < 1 + 2 * d * x + d ^ 2 * y) by (replace (d ^ 2) with (d * d) by ring; lra).
  assert (Q : 0 < - n ^ 2 / (t ^ 2 * h)).
  { replace (- n ^ 2 / (t ^ 2 * h)) with (n ^ 2 / (t ^ 2 * - h)) by (field; lra).
    apply Rdiv_lt_0_compat; [apply pow_lt, Hn|]. apply Rmult_lt_0_compat; [apply pow_lt, Pt|lra]. }
  split.
  - apply Rdiv_lt_0_compat; [|lra]. apply Rmult_lt_0_compat; [apply Rmult_lt_0_compat; assumption|exact Hm].
  - apply Rmult_lt_compat_r; [apply Rinv_0_lt_compat; lra|].
    apply Rmult_lt_compat_l; [apply Rmult_lt_0_compat; assumption|]. lra.
Qed.
