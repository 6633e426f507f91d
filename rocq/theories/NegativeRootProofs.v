(** Square roots of negative numbers in the properties of brine and of oil. *)
From Coq Require Import List Lra Lia.
From Verif Require Import Base NumModel BatzleWangModel FluidsModel ConfigModel RowModel NanModel.
Import ListNotations.
Open Scope R_scope.

Lemma fluid_shape : forall d v m, nfluid_of_velocity d v = Ok m ->
  v_bulk m = n_bulk_modulus v (Num 0) d /\ v_dens m = d /\ v_vp m = v.
Proof.
  intros d v m. unfold nfluid_of_velocity. cbv zeta.
  destruct (guard (neqb d (Num 0)) NonFinite) as [|]; cbn [bind]; [|discriminate].
  destruct (n_moduli_guards _ _ _) as [|]; cbn [bind]; [|discriminate].
  destruct (n_secondary_velocity _ _) as [s|]; cbn [bind]; [|discriminate].
  destruct (n_velocity_guards _ _) as [|]; cbn [bind]; [|discriminate].
  intro E. injection E as <-. repeat split.
Qed.
Lemma modulus_nan : forall v d, n_bulk_modulus v (Num 0) (Num d) = Nan <-> v = Nan.
Proof. intros [v|] d; cbn; split; intro E; try discriminate; reflexivity. Qed.


Lemma brine_density_num : forall t p s, exists d, n_brine_density (Num t) (Num p) (Num s) = Ok (Num d).
Proof. intros. eexists. reflexivity. Qed.
Lemma water_velocity_num : forall t p, exists d, n_water_primary_velocity (Num t) (Num p) = Ok (Num d).
Proof. intros. eexists. reflexivity. Qed.
Lemma brine_velocity_nan : forall t p s, s < 0 -> n_brine_primary_velocity (Num t) (Num p) (Num s) = Ok Nan.
Proof.
  intros t p s L. unfold n_brine_primary_velocity.
  destruct (water_velocity_num t p) as [w ->]. cbn [bind n_sqrt].
  destruct (Rlt_dec s 0); [reflexivity|contradiction].
Qed.
Lemma brine_velocity_num : forall t p s, 0 <= s -> exists v, n_brine_primary_velocity (Num t) (Num p) (Num s) = Ok (Num v).
Proof.
  intros t p s L. unfold n_brine_primary_velocity.
  destruct (water_velocity_num t p) as [w ->]. cbn [bind n_sqrt].
  destruct (Rlt_dec s 0) as [B|_]; [lra|]. eexists. reflexivity.
Qed.

Lemma brine_nan : forall t p s m, n_brine (Num t) (Num p) (Num s) = Ok m ->
  (exists d, v_dens m = Num d) /\ (v_bulk m = Nan <-> s < 0) /\ (v_vp m = Nan <-> s < 0).
Proof.
  intros t p s m. unfold n_brine. cbn [nmul nquot npow nlift1 nlift2].
  destruct (brine_density_num t (p * (1 / 10 ^ 6)) (s * (1 / 10 ^ 6))) as [d ->]. cbn [bind nmul nlift2].
  destruct (Rlt_dec s 0) as [L|L].
  - rewrite brine_velocity_nan by lra. cbn [bind]. intro E. destruct (fluid_shape _ _ _ E) as (-> & -> & ->).
    rewrite modulus_nan. split; [eexists; reflexivity|]. tauto.
  - destruct (brine_velocity_num t (p * (1 / 10 ^ 6)) (s * (1 / 10 ^ 6))) as [v ->]; [lra|]. cbn [bind].
    intro E. destruct (fluid_shape _ _ _ E) as (-> & -> & ->). rewrite modulus_nan.
    split; [eexists; reflexivity|]. split; (split; [discriminate|contradiction]).
Qed.

(** Oil. *)
Lemma dead_oil_density_num : forall t p r v, n_dead_oil_density (Num t) (Num p) (Num r) = Ok v -> exists d, v = Num d.
Proof.
  intros t p r v. unfold n_dead_oil_density, n_temperature_adjusted_dead_oil_density.
  cbn [nadd nquot npow nlift1 nlift2 p_pow]. destruct (np_pow _ _) as [q|]; cbn [bind]; [|discriminate].
  unfold n_pressure_adjusted_dead_oil_density. cbn [nadd nmul nquot nsub npow nlift1 nlift2 p_div].
  destruct (Req_EM_T _ 0); [discriminate|]. intro E. injection E as <-. eexists. reflexivity.
Qed.
Lemma dead_oil_velocity_nan : forall t p r v, n_dead_oil_primary_velocity (Num t) (Num p) (Num r) = Ok v ->
  v = Nan <-> r < 0 \/ 108 / 100 < r.
Proof.
  intros t p r v. unfold n_dead_oil_primary_velocity. cbn [nsub nquot nlift2 n_div].
  destruct (Req_EM_T (26 / 10 - r) 0) as [Z|Z].
  { destruct (Req_EM_T r 0); [lra|discriminate]. }
  cbn [bind n_sqrt n_div]. destruct (Req_EM_T r 0) as [Z0|Z0].
  { destruct (Req_EM_T 1 0); [lra|discriminate]. }
  cbn [bind nmul nquot nsub nlift2 n_sqrt]. intro E.
  assert (Q : 0 < r -> 108 / 100 * (1 / r) - 1 < 0 <-> 108 / 100 < r).
  { intro P. replace (108 / 100 * (1 / r) - 1) with ((108 / 100 - r) / r) by (field; lra).
    split; intro L.
    - apply Rnot_le_lt. intro G. assert (0 <= (108 / 100 - r) / r); [|lra].
      apply Rmult_le_pos; [lra|]. left. apply Rinv_0_lt_compat. exact P.
    - assert (0 < (r - 108 / 100) / r) by (apply Rdiv_lt_0_compat; lra).
      replace ((108 / 100 - r) / r) with (- ((r - 108 / 100) / r)) by (field; lra). lra. }
  destruct (Rlt_dec r 0) as [N|N].
  - destruct (Rlt_dec (108 / 100 * (1 / r) - 1) 0) as [B|B].
    + injection E as <-. split; [intros _; left; exact N|intros _].
      destruct (Rlt_dec (r / (26 / 10 - r)) 0); reflexivity.
    + exfalso. apply B. assert (1 / r < 0); [|lra]. unfold Rdiv. rewrite Rmult_1_l. apply Rinv_lt_0_compat. exact N.
  - assert (P : 0 < r) by lra. specialize (Q P).
    destruct (Rlt_dec (108 / 100 * (1 / r) - 1) 0) as [B|B].
    + injection E as <-. split; [intros _; right; apply Q; exact B|intros _].
      destruct (Rlt_dec (r / (26 / 10 - r)) 0); reflexivity.
    + destruct (Rlt_dec (r / (26 / 10 - r)) 0) as [C|C].
      * exfalso. assert (r <= 108 / 100). { apply Rnot_lt_le. intro L. apply B, Q, L. }
        assert (0 < r / (26 / 10 - r)) by (apply Rdiv_lt_0_compat; lra). lra.
      * injection E as <-. split; [discriminate|]. intros [L|L]; [lra|]. exfalso. apply B, Q, L.
Qed.
Lemma dead_oil_nan : forall t p r m, n_dead_oil (Num t) (Num p) (Num r) = Ok m ->
  (exists d, v_dens m = Num d) /\ (v_bulk m = Nan <-> r < 0 \/ 1080 < r) /\ (v_vp m = Nan <-> r < 0 \/ 1080 < r).
Proof.
  intros t p r m. unfold n_dead_oil. cbn [nmul nquot npow nlift1 nlift2].
  destruct (n_dead_oil_density _ _ _) as [d|] eqn:D; cbn [bind]; [|discriminate].
  destruct (dead_oil_density_num _ _ _ _ D) as [d' ->].
  destruct (n_dead_oil_primary_velocity _ _ _) as [v|] eqn:V; cbn [bind]; [|discriminate].
  apply dead_oil_velocity_nan in V. cbn [nmul nlift2]. intro E.
  destruct (fluid_shape _ _ _ E) as (-> & -> & ->). rewrite modulus_nan.
  assert (H : v = Nan <-> r < 0 \/ 1080 < r).
  { rewrite V. split; intros [L|L]; lra. }
  split; [eexists; reflexivity|]. split; exact H.
Qed.

(** The dead oil takes part in the mean with weight zero as well. *)
Lemma nan_weight : forall w x, nadd (nmul Nan w) x = Nan.
Proof. intros w [x|]; reflexivity. Qed.
Lemma modulus_of_nan : forall d, n_bulk_modulus Nan (Num 0) d = Nan.
Proof. intro d. reflexivity. Qed.
Lemma oil_nan : forall t p r gor gas m, r < 0 \/ 1080 < r ->
  n_oil (Num t) (Num p) (Num r) gor gas = Ok m -> v_bulk m = Nan /\ v_vp m = Nan.
Proof.
  intros t p r gor gas m L. unfold n_oil.
  destruct (n_live_oil _ _ _ _ _) as [lo|]; cbn [bind]; [|discriminate].
  destruct (n_dead_oil _ _ _) as [do|] eqn:D; cbn [bind]; [|discriminate].
  destruct (dead_oil_nan _ _ _ _ D) as (_ & _ & V). cbv zeta. rewrite (proj2 V L), nan_weight.
  intro E. destruct (fluid_shape _ _ _ E) as (-> & _ & ->). split; reflexivity.
Qed.

(** Where the density is positive nothing is refused. *)
Lemma nan_fluid_ok : forall d, 0 < d ->
  nfluid_of_velocity (Num d) Nan = Ok (mkNMat Nan (Num 0) (Num d) Nan (Num 0)).
Proof.
  intros d P. unfold nfluid_of_velocity. cbn [n_bulk_modulus npow nlift1 nmul nsub nlift2]. cbv zeta.
  unfold n_bulk_modulus, n_moduli_guards, n_velocity_guards, n_secondary_velocity, guard.
  cbn [npow nlift1 nmul nsub nlift2 nltb neqb n_div].
  destruct (Req_EM_T d 0); [lra|]. cbn [bind].
  destruct (Rlt_dec d 0); [lra|]. cbn [bind].
  destruct (Rlt_dec 0 0); [lra|]. cbn [bind n_sqrt].
  replace (0 / d) with 0 by (field; lra). destruct (Rlt_dec 0 0); [lra|]. cbn [bind nltb].
  rewrite sqrt_0. destruct (Rlt_dec 0 0); [lra|]. reflexivity.
Qed.
Lemma num_fluid_ok : forall d v, 0 < d -> 0 <= v ->
  exists m, nfluid_of_velocity (Num d) (Num v) = Ok m /\ v_dens m = Num d /\ v_vp m = Num v.
Proof.
  intros d v P Q. unfold nfluid_of_velocity. cbv zeta.
  unfold n_bulk_modulus, n_moduli_guards, n_velocity_guards, n_secondary_velocity, guard.
  cbn [npow nlift1 nmul nsub nquot nlift2 nltb neqb n_div].
  destruct (Req_EM_T d 0); [lra|]. cbn [bind].
  destruct (Rlt_dec d 0); [lra|]. cbn [bind].
  assert (0 <= v ^ 2 * d) by (apply Rmult_le_pos; [apply pow_le; lra|lra]).
  destruct (Rlt_dec (v ^ 2 * d - 4 / 3 * 0) 0); [lra|]. cbn [bind].
  destruct (Rlt_dec 0 0); [lra|]. cbn [bind n_sqrt].
  replace (0 / d) with 0 by (field; lra). destruct (Rlt_dec 0 0); [lra|]. cbn [bind nltb].
  rewrite sqrt_0. destruct (Rlt_dec v 0); [lra|]. cbn [bind]. destruct (Rlt_dec 0 0); [lra|]. cbn [bind nmul nlift2 nltb].
  rewrite Rmult_0_r. destruct (Rlt_dec v 0); [lra|]. eexists. split; [reflexivity|]. split; reflexivity.
Qed.
Lemma fluid_ok : forall d v, 0 < d -> (forall x, v = Num x -> 0 <= x) ->
  exists m, nfluid_of_velocity (Num d) v = Ok m /\ v_dens m = Num d /\ v_vp m = v.
Proof.
  intros d [v|] P Q; [apply num_fluid_ok; [exact P|apply Q; reflexivity]|].
  rewrite nan_fluid_ok by exact P. eexists. split; [reflexivity|]. split; reflexivity.
Qed.
Lemma salt_debt : exists d, n_brine (Num 0) (Num 0) (Num (- 1)) = Ok (mkNMat Nan (Num 0) (Num d) Nan (Num 0)).
Proof.
  unfold n_brine. cbn [nmul nquot npow nlift1 nlift2].
  rewrite brine_velocity_nan by lra.
  unfold n_brine_density, n_water_density, n_polyval3d, n_polyval2d, n_polyval2d_of.
  cbn -[Rplus Rmult Rdiv Ropp Rinv pow nfluid_of_velocity IZR].
  rewrite nan_fluid_ok; [eexists; reflexivity|]. lra.
Qed.
Lemma dead_at_zero : forall r, 0 < r -> r <> 26 / 10 -> exists v, n_dead_oil_primary_velocity (Num 0) (Num 0) (Num r) = Ok v /\
  forall x, v = Num x -> 0 <= x.
Proof.
  intros r P N. unfold n_dead_oil_primary_velocity. cbn [nsub nquot nlift2 n_div].
  destruct (Req_EM_T (26 / 10 - r) 0); [lra|]. cbn [bind n_sqrt n_div].
  destruct (Req_EM_T r 0); [lra|]. cbn [bind nmul nsub nquot nlift2 n_sqrt].
  eexists. split; [reflexivity|].
  destruct (Rlt_dec (r / (26 / 10 - r)) 0); cbn [nmul nsub nadd nlift2]; [discriminate|].
  destruct (Rlt_dec (108 / 100 * (1 / r) - 1) 0); cbn [nmul nsub nadd nlift2]; [discriminate|].
  intros x E. injection E as <-. pose proof (sqrt_pos (r / (26 / 10 - r))). lra.
Qed.

Lemma pow_num : forall x y, 0 < x -> n_pow (Num x) (Num y) = Ok (Num (Rpower x y)).
Proof. intros x y P. unfold n_pow. destruct (Rlt_dec 0 x); [reflexivity|contradiction]. Qed.
Lemma python_pow_num : forall x y, 0 < x -> p_pow (Num x) y = Ok (Num (Rpower x y)).
Proof. intros x y P. unfold p_pow, np_pow. destruct (Rlt_dec 0 x); [reflexivity|contradiction]. Qed.
Lemma heavy_live : exists d v m, 0 < d /\ n_live_oil (Num 0) (Num 0) (Num 1100) (Num 0) (Num 1) = Ok m /\
  v_dens m = Num d /\ v_vp m = v /\ (forall x, v = Num x -> 0 <= x).
Proof.
  unfold n_live_oil. cbn [p_div]. destruct (Req_EM_T 1 0); [lra|]. cbn [bind].
  destruct (Req_EM_T 1100 0); [lra|]. cbn [bind].
  cbn [nmul nquot npow nlift1 nlift2].
  unfold n_live_oil_density, n_live_oil_primary_velocity, n_live_oil_pseudo_density, n_live_oil_volume_factor.
  cbn [p_div]. destruct (Req_EM_T (1100 / 1000) 0); [lra|]. cbn [bind n_sqrt].
  destruct (Rlt_dec (1 / (1100 / 1000)) 0); [lra|]. cbn [bind nmul nadd nquot nlift2].
  rewrite pow_num by lra. cbn [bind nadd nmul nquot nlift2 npow nlift1].
  set (b := 972 / 1000 + 38 / 100000 * Rpower _ _).
  assert (B : 0 < b).
  { pose proof (exp_pos (1175 / 1000 * ln (24 / 10 * 0 * sqrt (1 / (1100 / 1000)) + 0 + 178 / 10))) as E.
    subst b. unfold Rpower. lra. }
  cbn [n_div]. destruct (Req_EM_T b 0); [lra|]. cbn [bind n_div nadd nmul nlift2].
  destruct (Req_EM_T (1 + 1 / 1000 * 0) 0); [lra|]. cbn [bind].
  replace (0 * (1 / 10 ^ 6)) with 0 by lra.
  set (r := 1100 / 1000 / b / (1 + 1 / 1000 * 0)).
  assert (R0 : 0 < r).
  { subst r. apply Rdiv_lt_0_compat; [apply Rdiv_lt_0_compat; lra|lra]. }
  assert (R1 : r <> 26 / 10).
  { subst r. assert (972 / 1000 < b).
    { pose proof (exp_pos (1175 / 1000 * ln (24 / 10 * 0 * sqrt (1 / (1100 / 1000)) + 0 + 178 / 10))) as E.
      subst b. unfold Rpower. lra. }
    apply Rlt_not_eq. replace (1100 / 1000 / b / (1 + 1 / 1000 * 0)) with ((11 / 10) / b) by (field; lra).
    apply (Rmult_lt_reg_r b); [lra|]. unfold Rdiv at 1. rewrite Rmult_assoc, Rinv_l by lra. lra. }
  destruct (dead_at_zero r R0 R1) as (v & -> & V). cbn [bind nmul nlift2].
  destruct (fluid_ok ((1100 / 1000 + 12 / 10000 * 1 * 0) / b * 1000) v) as (m & -> & D & P); [|exact V|].
  { apply Rmult_lt_0_compat; [apply Rdiv_lt_0_compat; lra|lra]. }
  exists ((1100 / 1000 + 12 / 10000 * 1 * 0) / b * 1000), v, m.
  split; [apply Rmult_lt_0_compat; [apply Rdiv_lt_0_compat; lra|lra]|].
  split; [reflexivity|]. split; [exact D|]. split; [exact P|exact V].
Qed.
Lemma heavy_dead : exists d m, 0 < d /\ n_dead_oil (Num 0) (Num 0) (Num 1100) = Ok m /\ v_dens m = Num d /\ v_vp m = Nan.
Proof.
  unfold n_dead_oil. cbn [nmul nquot npow nlift1 nlift2].
  unfold n_dead_oil_density, n_temperature_adjusted_dead_oil_density.
  cbn [nadd nquot npow nlift1 nlift2]. rewrite python_pow_num by lra. cbn [bind].
  unfold n_pressure_adjusted_dead_oil_density. cbn [nadd nmul nquot nsub npow nlift1 nlift2 p_div].
  pose proof (exp_pos (1175 / 1000 * ln (0 + 1778 / 100))) as E. fold (Rpower (0 + 1778 / 100) (1175 / 1000)) in E.
  set (q := 972 / 1000 + 381 / 10 ^ 6 * Rpower (0 + 1778 / 100) (1175 / 1000)).
  assert (Q : 0 < q) by (subst q; lra).
  destruct (Req_EM_T q 0); [lra|]. cbn [bind].
  replace (0 * (1 / 10 ^ 6)) with 0 by lra.
  destruct (dead_at_zero (1100 / 1000)) as (v & V & _); [lra|lra|]. rewrite V. cbn [bind].
  rewrite (proj2 (dead_oil_velocity_nan _ _ _ _ V)) by lra. cbn [nmul nlift2].
  rewrite nan_fluid_ok.
  - eexists. eexists. split; [|split; [reflexivity|split; reflexivity]].
    apply Rmult_lt_0_compat; [apply Rdiv_lt_0_compat; lra|lra].
  - apply Rmult_lt_0_compat; [apply Rdiv_lt_0_compat; lra|lra].
Qed.
Lemma heavy_oil : exists d, n_oil (Num 0) (Num 0) (Num 1100) (Num 0) (Num 1) = Ok (mkNMat Nan (Num 0) (Num d) Nan (Num 0)).
Proof.
  unfold n_oil. destruct heavy_live as (d & v & m & P & -> & D & E & V). cbn [bind].
  destruct heavy_dead as (d' & m' & P' & -> & D' & E'). cbn [bind]. cbv zeta. rewrite D, E, D', E'.
  unfold n_triangular_window. cbn [nltb nopp nlift1 nabs nsub nquot nlift2].
  destruct (Rlt_dec 1 0); [lra|]. destruct (Rlt_dec 0 (- 1)); [lra|].
  rewrite nan_weight. cbn [nmul nadd nsub nlift2]. rewrite Rabs_R0.
  replace (Rabs ((0 - 1) / 1)) with 1 by (rewrite Rabs_left; lra).
  rewrite nan_fluid_ok; [eexists; reflexivity|lra].
Qed.
