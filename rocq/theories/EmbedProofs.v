(** The calculation on numbers with nan agrees with the one on real numbers
    wherever the latter does not stop. *)
From Coq Require Import String List ZArith.
From Verif Require Import Base MaterialModel HashinShtrikmanModel MineralsModel FluidModel SandstoneModel ConfigModel
  BatzleWangModel FluidsModel RowModel NumModel NanModel NanSpec RelProofs.
Import ListNotations.
Open Scope R_scope.

Definition faithful : mode.
Proof.
  refine {| gone := fun e => e = NonFinite; fresh := fun _ => False; both := fun e e' => e = NonFinite \/ e = e' |}.
  - intros e. right. reflexivity.
  - intros e e' H. left. exact H.
  - intros e e' [].
Defined.

Notation sim := (rrel faithful).
Definition real (x : R) (n : num) : Prop := n = Num x.
Definition realm (m : material) (v : nmaterial) : Prop :=
  v = mkNMat (Num (bulk m)) (Num (shear m)) (Num (dens m)) (Num (vp m)) (Num (vs m)).
Definition realb (m : bmat) (v : nmat) : Prop :=
  arel real (b_bulk m) (n_bulk v) /\ arel real (b_shear m) (n_shear v) /\ arel real (b_dens m) (n_dens v) /\
  arel real (b_vp m) (n_vp v) /\ arel real (b_vs m) (n_vs v).

(** ** Tactics *)
Ltac sim_prods :=
  repeat match goal with
  | H : prel _ _ ?x ?y |- _ => destruct x, y, H; cbn [fst snd] in *
  | H : real ?x ?y |- _ => unfold real in H; subst y
  | H : realm ?x ?y |- _ => unfold realm in H; subst y
  | H : urel _ _ |- _ => clear H
  end.
Ltac sim_err := cbn; solve [reflexivity | right; reflexivity | left; reflexivity | exact I].
Create HintDb sim.
Ltac sim_arel :=
  idtac; unfold zip3, zip4, zip5, zip6;
  try match goal with |- @arel R num ?P _ _ => is_evar P; unify P real end;
  lazymatch goal with
  | |- arel _ (zip _ _) (zip _ _) => eapply arel_zip; sim_arel
  | |- arel _ (pmap _ _) (pmap _ _) => eapply arel_pmap; [sim_arel|intros; sim_prods; try reflexivity]
  | |- arel real (Sc _) (Sc _) => reflexivity
  | |- arel _ (b_bulk ?m) _ => match goal with H : realb m _ |- _ => exact (proj1 H) end
  | |- arel _ (b_shear ?m) _ => match goal with H : realb m _ |- _ => exact (proj1 (proj2 H)) end
  | |- arel _ (b_dens ?m) _ => match goal with H : realb m _ |- _ => exact (proj1 (proj2 (proj2 H))) end
  | |- arel _ (b_vp ?m) _ => match goal with H : realb m _ |- _ => exact (proj1 (proj2 (proj2 (proj2 H)))) end
  | |- arel _ (b_vs ?m) _ => match goal with H : realb m _ |- _ => exact (proj2 (proj2 (proj2 (proj2 H)))) end
  | _ => first [eassumption | solve [eauto with sim]]
  end.
Ltac sim_step :=
  idtac;
  lazymatch goal with
  | |- rrel _ _ (bind _ _) (bind _ _) => eapply rrel_bind; [|intros; sim_prods]
  | |- rrel _ _ (let _ := ?x in _) (let _ := ?y in _) => cbv zeta
  | |- rrel _ _ (Err _) (Err _) => sim_err
  | |- rrel _ _ (amap _ _) (amap _ _) => eapply rrel_amap; [sim_arel|intros; sim_prods]
  | |- rrel _ _ (guard (any _ _) _) (guard (any _ _) _) =>
      apply rrel_guard_eq; [eapply any_eq; [sim_arel|intros; sim_prods; try reflexivity]|sim_err]
  | |- rrel _ real (Ok _) (Ok _) => apply rrel_ok; try reflexivity
  | |- rrel _ (arel _) (Ok _) (Ok _) => apply rrel_ok; sim_arel
  | |- rrel _ urel (Ok _) (Ok _) => exact I
  end.
Ltac sim_leaf := solve [eauto with sim nocore].
Ltac simul := repeat (sim_prods; first [sim_step | sim_leaf]).

(** ** Arithmetic *)
Lemma sim_div : forall a b, sim real (np_div a b) (n_div (Num a) (Num b)).
Proof. intros a b. unfold np_div, n_div. destruct (Req_EM_T b 0); [destruct (Req_EM_T a 0); sim_err|reflexivity]. Qed.
Lemma sim_pdiv : forall a b, sim real (py_div a b) (p_div (Num a) (Num b)).
Proof. intros a b. unfold py_div, p_div. destruct (Req_EM_T b 0); [sim_err|reflexivity]. Qed.
Lemma sim_sqrt : forall a, sim real (np_sqrt a) (n_sqrt (Num a)).
Proof. intros a. unfold np_sqrt, n_sqrt. destruct (Rlt_dec a 0); [reflexivity|reflexivity]. Qed.
Lemma sim_log : forall a, sim real (np_log a) (n_log (Num a)).
Proof.
  intros a. unfold np_log, n_log. destruct (Rlt_dec 0 a); [reflexivity|]. destruct (Req_EM_T a 0); [sim_err|reflexivity].
Qed.
Lemma sim_pow : forall a b, sim real (np_pow a b) (n_pow (Num a) (Num b)).
Proof.
  intros a b. unfold np_pow, n_pow. destruct (Rlt_dec 0 a); [reflexivity|].
  destruct (Req_EM_T a 0); [destruct (Rlt_dec 0 b); [reflexivity|destruct (Req_EM_T b 0); [reflexivity|sim_err]]|].
  destruct (Req_EM_T b (IZR (Int_part b))); [reflexivity|reflexivity].
Qed.
Lemma sim_ppow : forall a b, sim real (np_pow a b) (p_pow (Num a) b).
Proof. intros a b. unfold p_pow. destruct (np_pow a b) as [z|e]; cbn; [reflexivity|right; reflexivity]. Qed.
#[global] Hint Extern 1 (rrel _ _ (np_div _ _) _) => apply sim_div : sim.
#[global] Hint Extern 1 (rrel _ _ (py_div _ _) _) => apply sim_pdiv : sim.
#[global] Hint Extern 1 (rrel _ _ (np_sqrt _) _) => apply sim_sqrt : sim.
#[global] Hint Extern 1 (rrel _ _ (np_log _) _) => apply sim_log : sim.
#[global] Hint Extern 1 (rrel _ _ (np_pow _ _) (n_pow _ _)) => apply sim_pow : sim.
#[global] Hint Extern 1 (rrel _ _ (np_pow _ _) (p_pow _ _)) => apply sim_ppow : sim.

Lemma sim_guard : forall P (c : {P} + {~ P}) (A B : Type) (Q : A -> B -> Prop) e r (s : res B),
  sim Q r s -> sim Q (if c then Err e else r) (let* _ := guard (if c then true else false) e in s).
Proof. intros P c A B Q e r s H. destruct c; cbn [guard bind]; [right; reflexivity|exact H]. Qed.

(** ** One material *)
Lemma sim_primary : forall k mu d,
  sim real (calculate_primary_velocity k mu d) (n_primary_velocity (Num k) (Num mu) (Num d)).
Proof. intros k mu d. unfold calculate_primary_velocity, n_primary_velocity. simul. Qed.
Lemma sim_secondary : forall mu d,
  sim real (calculate_secondary_velocity mu d) (n_secondary_velocity (Num mu) (Num d)).
Proof. intros mu d. unfold calculate_secondary_velocity, n_secondary_velocity. simul. Qed.
#[global] Hint Extern 1 (rrel _ _ (calculate_primary_velocity _ _ _) _) => apply sim_primary : sim.
#[global] Hint Extern 1 (rrel _ _ (calculate_secondary_velocity _ _) _) => apply sim_secondary : sim.

Lemma bind_bind : forall {A B C} (r : res A) (f : A -> res B) (g : B -> res C),
  bind (bind r f) g = bind r (fun a => bind (f a) g).
Proof. intros A B C [a|e] f g; reflexivity. Qed.

Lemma sim_of_moduli : forall k mu d,
  sim realm (mat_of_moduli k mu d) (nmaterial_of_moduli (Num k) (Num mu) (Num d)).
Proof.
  intros k mu d. unfold mat_of_moduli, mk_material, nmaterial_of_moduli, n_moduli_guards, n_velocity_guards, fill_moduli,
    fill_velocities. cbn [bind].
  destruct (Req_EM_T d 0) as [E|E].
  { unfold neqb. destruct (Req_EM_T d 0); [|contradiction]. left. reflexivity. }
  unfold neqb at 1. destruct (Req_EM_T d 0) as [E'|_]; [contradiction|]. cbn [guard bind].
  rewrite ?bind_bind. apply sim_guard. rewrite ?bind_bind. apply sim_guard. apply sim_guard.
  rewrite ?bind_bind. eapply rrel_bind; [apply sim_primary|]. intros p ? ->.
  rewrite ?bind_bind. eapply rrel_bind; [apply sim_secondary|]. intros s ? ->. cbn [bind].
  rewrite ?bind_bind. apply sim_guard. rewrite ?bind_bind. apply sim_guard. apply sim_guard. reflexivity.
Qed.

Lemma sim_of_velocities : forall d p s,
  sim realm (mat_of_velocities d p s) (nmaterial_of_velocities (Num d) (Num p) (Num s)).
Proof.
  intros d p s. unfold mat_of_velocities, mk_material, nmaterial_of_velocities, n_moduli_guards, n_velocity_guards, fill_moduli,
    fill_velocities. cbn [bind]. cbv zeta.
  rewrite ?bind_bind. apply sim_guard. rewrite ?bind_bind. apply sim_guard. apply sim_guard.
  rewrite ?bind_bind. apply sim_guard. rewrite ?bind_bind. apply sim_guard. apply sim_guard. reflexivity.
Qed.

Lemma sim_fluid_of_velocity : forall d p,
  sim realm (fluid_of_velocity d p) (nfluid_of_velocity (Num d) (Num p)).
Proof.
  intros d p. unfold fluid_of_velocity, mk_material, nfluid_of_velocity, n_moduli_guards, n_velocity_guards, fill_moduli,
    fill_velocities. cbn [bind]. cbv zeta.
  destruct (Req_EM_T d 0) as [E|E].
  { unfold neqb. destruct (Req_EM_T d 0); [|contradiction]. left. reflexivity. }
  unfold neqb at 1. destruct (Req_EM_T d 0) as [E'|_]; [contradiction|]. cbn [guard bind].
  rewrite ?bind_bind. apply sim_guard. rewrite ?bind_bind. apply sim_guard. apply sim_guard.
  rewrite ?bind_bind. eapply rrel_bind; [apply sim_secondary|]. intros s ? ->. cbn [bind].
  rewrite ?bind_bind. apply sim_guard. rewrite ?bind_bind. apply sim_guard. apply sim_guard. reflexivity.
Qed.
Lemma sim_fluid_of_bulk : forall k d,
  sim realm (fluid_of_bulk k d) (nfluid_of_bulk (Num k) (Num d)).
Proof. intros k d. unfold fluid_of_bulk, nfluid_of_bulk. apply sim_of_moduli. Qed.
#[global] Hint Extern 1 (rrel _ _ (mat_of_moduli _ _ _) _) => apply sim_of_moduli : sim.
#[global] Hint Extern 1 (rrel _ _ (mat_of_velocities _ _ _) _) => apply sim_of_velocities : sim.
#[global] Hint Extern 1 (rrel _ _ (fluid_of_velocity _ _) _) => apply sim_fluid_of_velocity : sim.
#[global] Hint Extern 1 (rrel _ _ (fluid_of_bulk _ _) _) => apply sim_fluid_of_bulk : sim.

(** ** Polynomials *)
Lemma real_np_polyval : forall row x, n_np_polyval row (Num x) = Num (np_polyval row x).
Proof.
  intros row x. unfold n_np_polyval, np_polyval. generalize 0. induction row as [|c row IH]; intro a; cbn [fold_left]; [reflexivity|].
  rewrite <- IH. reflexivity.
Qed.
Lemma real_poly_eval : forall x l, n_poly_eval (Num x) (map Num l) = Num (poly_eval x l).
Proof. intros x l. unfold n_poly_eval, poly_eval. induction l as [|a l IH]; cbn [map fold_right]; [reflexivity|]. rewrite IH. reflexivity. Qed.
Lemma real_map2 : forall f g l m, (forall a b, g (Num a) (Num b) = Num (f a b)) ->
  nmap2 g (map Num l) (map Num m) = map Num (map2 f l m).
Proof.
  intros f g l m H. revert m. induction l as [|a l IH]; intros [|b m]; cbn; try reflexivity. rewrite H, IH. reflexivity.
Qed.
Lemma real_last : forall x l, map (fun a => nadd a (nmul (Num x) (Num 0))) (map Num l) = map Num l.
Proof. intros x l. rewrite map_map. apply map_ext. intro a. cbn. f_equal. ring. Qed.
Lemma real_poly_rows : forall x rows, n_poly_rows (Num x) (map (map Num) rows) = map Num (poly_rows x rows).
Proof.
  intros x rows. induction rows as [|row rows IH]; [reflexivity|].
  destruct rows as [|row' rows]; [apply real_last|].
  change (n_poly_rows (Num x) (map (map Num) (row :: row' :: rows)))
    with (nmap2 (fun a acc => nadd a (nmul acc (Num x))) (map Num row) (n_poly_rows (Num x) (map (map Num) (row' :: rows)))).
  rewrite IH. change (poly_rows x (row :: row' :: rows)) with (map2 (fun a acc => a + acc * x) row (poly_rows x (row' :: rows))).
  apply real_map2. intros a b. reflexivity.
Qed.
Lemma sim_polyval2d_of : forall x y c c', c' = map (map Num) c ->
  sim real (polyval2d x y c) (n_polyval2d_of (Num x) (Num y) c').
Proof.
  intros x y c c' ->. unfold polyval2d, n_polyval2d_of. rewrite real_poly_rows.
  destruct (poly_rows x c) as [|a l]; [right; reflexivity|].
  change (sim real (Ok (poly_eval y (a :: l))) (Ok (n_poly_eval (Num y) (map Num (a :: l))))).
  rewrite real_poly_eval. reflexivity.
Qed.
Lemma sim_polyval2d : forall x y c, sim real (polyval2d x y c) (n_polyval2d (Num x) (Num y) c).
Proof. intros x y c. apply sim_polyval2d_of. reflexivity. Qed.
Lemma real_poly_matrices : forall x ms,
  n_poly_matrices (Num x) (map nums ms) = map (map Num) (poly_matrices x ms).
Proof.
  intros x ms. induction ms as [|m ms IH]; [reflexivity|].
  destruct ms as [|m' ms].
  { cbn. unfold nums. rewrite map_map. apply map_ext. intro l. apply real_last. }
  change (n_poly_matrices (Num x) (map nums (m :: m' :: ms)))
    with (map (fun rr => nmap2 (fun a acc => nadd a (nmul acc (Num x))) (fst rr) (snd rr))
            (combine (nums m) (n_poly_matrices (Num x) (map nums (m' :: ms))))).
  rewrite IH. change (poly_matrices x (m :: m' :: ms))
    with (map (fun rr => map2 (fun a acc => a + acc * x) (fst rr) (snd rr)) (combine m (poly_matrices x (m' :: ms)))).
  generalize (poly_matrices x (m' :: ms)). intro l. clear. revert l.
  induction m as [|r m IH]; intros [|s l]; cbn; try reflexivity.
  rewrite (real_map2 (fun a acc => a + acc * x)) by reflexivity. f_equal. apply IH.
Qed.
Lemma sim_polyval3d : forall x y z c, sim real (polyval3d x y z c) (n_polyval3d (Num x) (Num y) (Num z) c).
Proof. intros x y z c. apply sim_polyval2d_of, real_poly_matrices. Qed.
#[global] Hint Extern 1 (rrel _ _ (polyval2d _ _ _) _) => apply sim_polyval2d : sim.
#[global] Hint Extern 1 (rrel _ _ (polyval3d _ _ _ _) _) => apply sim_polyval3d : sim.

(** ** Batzle and Wang *)
Lemma real_window : forall x, n_triangular_window (Num x) = Num (triangular_window x).
Proof.
  intro x. unfold n_triangular_window, triangular_window, nltb. cbn [nopp nlift1].
  destruct (Rlt_dec 1 x); [reflexivity|]. destruct (Rlt_dec x (- 1)); reflexivity.
Qed.
Lemma sim_molar_volume : forall a b, sim real (molar_volume a b) (n_molar_volume (Num a) (Num b)).
Proof. intros a b. unfold molar_volume, n_molar_volume. simul. Qed.
#[global] Hint Extern 1 (rrel _ _ (molar_volume _ _) _) => apply sim_molar_volume : sim.
Lemma sim_ideal_gas_density : forall a b c, sim real (ideal_gas_density a b c) (n_ideal_gas_density (Num a) (Num b) (Num c)).
Proof. intros a b c. unfold ideal_gas_density, n_ideal_gas_density. simul. Qed.
#[global] Hint Extern 1 (rrel _ _ (ideal_gas_density _ _ _) _) => apply sim_ideal_gas_density : sim.
Lemma sim_ideal_gas_primary_velocity : forall a b, sim real (ideal_gas_primary_velocity a b) (n_ideal_gas_primary_velocity (Num a) (Num b)).
Proof. intros a b. unfold ideal_gas_primary_velocity, n_ideal_gas_primary_velocity. simul. Qed.
#[global] Hint Extern 1 (rrel _ _ (ideal_gas_primary_velocity _ _) _) => apply sim_ideal_gas_primary_velocity : sim.
Lemma sim_ideal_gas : forall a b c, sim realm (ideal_gas a b c) (n_ideal_gas (Num a) (Num b) (Num c)).
Proof. intros a b c. unfold ideal_gas, n_ideal_gas. simul. Qed.
#[global] Hint Extern 1 (rrel _ _ (ideal_gas _ _ _) _) => apply sim_ideal_gas : sim.
Lemma sim_pseudoreduced_temperature : forall a b, sim real (pseudoreduced_temperature a b) (n_pseudoreduced_temperature (Num a) (Num b)).
Proof. intros a b. unfold pseudoreduced_temperature, n_pseudoreduced_temperature. simul. Qed.
#[global] Hint Extern 1 (rrel _ _ (pseudoreduced_temperature _ _) _) => apply sim_pseudoreduced_temperature : sim.
Lemma sim_pseudoreduced_pressure : forall a b, sim real (pseudoreduced_pressure a b) (n_pseudoreduced_pressure (Num a) (Num b)).
Proof. intros a b. unfold pseudoreduced_pressure, n_pseudoreduced_pressure. simul. Qed.
#[global] Hint Extern 1 (rrel _ _ (pseudoreduced_pressure _ _) _) => apply sim_pseudoreduced_pressure : sim.
Lemma sim_compressability_factor : forall a b c, sim real (compressability_factor a b c) (n_compressability_factor (Num a) (Num b) (Num c)).
Proof. intros a b c. unfold compressability_factor, n_compressability_factor. simul. Qed.
#[global] Hint Extern 1 (rrel _ _ (compressability_factor _ _ _) _) => apply sim_compressability_factor : sim.
Lemma sim_gas_density : forall a b c, sim real (gas_density a b c) (n_gas_density (Num a) (Num b) (Num c)).
Proof. intros a b c. unfold gas_density, n_gas_density. simul. Qed.
#[global] Hint Extern 1 (rrel _ _ (gas_density _ _ _) _) => apply sim_gas_density : sim.
Lemma sim_compressability_rate_per_pseudoreduced_pressure : forall a b c, sim real (compressability_rate_per_pseudoreduced_pressure a b c) (n_compressability_rate_per_pseudoreduced_pressure (Num a) (Num b) (Num c)).
Proof. intros a b c. unfold compressability_rate_per_pseudoreduced_pressure, n_compressability_rate_per_pseudoreduced_pressure. simul. Qed.
#[global] Hint Extern 1 (rrel _ _ (compressability_rate_per_pseudoreduced_pressure _ _ _) _) => apply sim_compressability_rate_per_pseudoreduced_pressure : sim.
Lemma sim_gamma_0 : forall a, sim real (gamma_0 a) (n_gamma_0 (Num a)).
Proof. intros a. unfold gamma_0, n_gamma_0. simul. Qed.
#[global] Hint Extern 1 (rrel _ _ (gamma_0 _) _) => apply sim_gamma_0 : sim.
Lemma sim_gas_bulk_modulus : forall a b c, sim real (gas_bulk_modulus a b c) (n_gas_bulk_modulus (Num a) (Num b) (Num c)).
Proof. intros a b c. unfold gas_bulk_modulus, n_gas_bulk_modulus. simul. Qed.
#[global] Hint Extern 1 (rrel _ _ (gas_bulk_modulus _ _ _) _) => apply sim_gas_bulk_modulus : sim.
Lemma sim_gas : forall a b c, sim realm (gas a b c) (n_gas (Num a) (Num b) (Num c)).
Proof. intros a b c. unfold gas, n_gas. simul. Qed.
#[global] Hint Extern 1 (rrel _ _ (gas _ _ _) _) => apply sim_gas : sim.
Lemma sim_temperature_adjusted_dead_oil_density : forall a b, sim real (temperature_adjusted_dead_oil_density a b) (n_temperature_adjusted_dead_oil_density (Num a) (Num b)).
Proof. intros a b. unfold temperature_adjusted_dead_oil_density, n_temperature_adjusted_dead_oil_density. simul. Qed.
#[global] Hint Extern 1 (rrel _ _ (temperature_adjusted_dead_oil_density _ _) _) => apply sim_temperature_adjusted_dead_oil_density : sim.
Lemma sim_dead_oil_density : forall a b c, sim real (dead_oil_density a b c) (n_dead_oil_density (Num a) (Num b) (Num c)).
Proof. intros a b c. unfold dead_oil_density, n_dead_oil_density. simul. Qed.
#[global] Hint Extern 1 (rrel _ _ (dead_oil_density _ _ _) _) => apply sim_dead_oil_density : sim.
Lemma sim_dead_oil_primary_velocity : forall a b c, sim real (dead_oil_primary_velocity a b c) (n_dead_oil_primary_velocity (Num a) (Num b) (Num c)).
Proof. intros a b c. unfold dead_oil_primary_velocity, n_dead_oil_primary_velocity. simul. Qed.
#[global] Hint Extern 1 (rrel _ _ (dead_oil_primary_velocity _ _ _) _) => apply sim_dead_oil_primary_velocity : sim.
Lemma sim_dead_oil : forall a b c, sim realm (dead_oil a b c) (n_dead_oil (Num a) (Num b) (Num c)).
Proof. intros a b c. unfold dead_oil, n_dead_oil. simul. Qed.
#[global] Hint Extern 1 (rrel _ _ (dead_oil _ _ _) _) => apply sim_dead_oil : sim.
Lemma sim_live_oil_volume_factor : forall a b c d, sim real (live_oil_volume_factor a b c d) (n_live_oil_volume_factor (Num a) (Num b) (Num c) (Num d)).
Proof. intros a b c d. unfold live_oil_volume_factor, n_live_oil_volume_factor. simul. Qed.
#[global] Hint Extern 1 (rrel _ _ (live_oil_volume_factor _ _ _ _) _) => apply sim_live_oil_volume_factor : sim.
Lemma sim_live_oil_pseudo_density : forall a b c d, sim real (live_oil_pseudo_density a b c d) (n_live_oil_pseudo_density (Num a) (Num b) (Num c) (Num d)).
Proof. intros a b c d. unfold live_oil_pseudo_density, n_live_oil_pseudo_density. simul. Qed.
#[global] Hint Extern 1 (rrel _ _ (live_oil_pseudo_density _ _ _ _) _) => apply sim_live_oil_pseudo_density : sim.
Lemma sim_live_oil_density : forall a b c d e, sim real (live_oil_density a b c d e) (n_live_oil_density (Num a) (Num b) (Num c) (Num d) (Num e)).
Proof. intros a b c d e. unfold live_oil_density, n_live_oil_density. simul. Qed.
#[global] Hint Extern 1 (rrel _ _ (live_oil_density _ _ _ _ _) _) => apply sim_live_oil_density : sim.
Lemma sim_live_oil_primary_velocity : forall a b c d e, sim real (live_oil_primary_velocity a b c d e) (n_live_oil_primary_velocity (Num a) (Num b) (Num c) (Num d) (Num e)).
Proof. intros a b c d e. unfold live_oil_primary_velocity, n_live_oil_primary_velocity. simul. Qed.
#[global] Hint Extern 1 (rrel _ _ (live_oil_primary_velocity _ _ _ _ _) _) => apply sim_live_oil_primary_velocity : sim.
Lemma sim_live_oil : forall a b c d e, sim realm (live_oil a b c d e) (n_live_oil (Num a) (Num b) (Num c) (Num d) (Num e)).
Proof. intros a b c d e. unfold live_oil, n_live_oil. simul. Qed.
#[global] Hint Extern 1 (rrel _ _ (live_oil _ _ _ _ _) _) => apply sim_live_oil : sim.
Lemma sim_oil : forall a b c d e, sim realm (oil a b c d e) (n_oil (Num a) (Num b) (Num c) (Num d) (Num e)).
Proof. intros a b c d e. unfold oil, n_oil. rewrite real_window. simul. Qed.
#[global] Hint Extern 1 (rrel _ _ (oil _ _ _ _ _) _) => apply sim_oil : sim.
Lemma sim_water_density : forall a b, sim real (water_density a b) (n_water_density (Num a) (Num b)).
Proof. intros a b. unfold water_density, n_water_density. simul. Qed.
#[global] Hint Extern 1 (rrel _ _ (water_density _ _) _) => apply sim_water_density : sim.
Lemma sim_water_primary_velocity : forall a b, sim real (water_primary_velocity a b) (n_water_primary_velocity (Num a) (Num b)).
Proof. intros a b. unfold water_primary_velocity, n_water_primary_velocity. simul. Qed.
#[global] Hint Extern 1 (rrel _ _ (water_primary_velocity _ _) _) => apply sim_water_primary_velocity : sim.
Lemma sim_water : forall a b, sim realm (water a b) (n_water (Num a) (Num b)).
Proof. intros a b. unfold water, n_water. simul. Qed.
#[global] Hint Extern 1 (rrel _ _ (water _ _) _) => apply sim_water : sim.
Lemma sim_brine_density : forall a b c, sim real (brine_density a b c) (n_brine_density (Num a) (Num b) (Num c)).
Proof. intros a b c. unfold brine_density, n_brine_density. simul. Qed.
#[global] Hint Extern 1 (rrel _ _ (brine_density _ _ _) _) => apply sim_brine_density : sim.
Lemma sim_brine_primary_velocity : forall a b c, sim real (brine_primary_velocity a b c) (n_brine_primary_velocity (Num a) (Num b) (Num c)).
Proof. intros a b c. unfold brine_primary_velocity, n_brine_primary_velocity. simul. Qed.
#[global] Hint Extern 1 (rrel _ _ (brine_primary_velocity _ _ _) _) => apply sim_brine_primary_velocity : sim.
Lemma sim_brine : forall a b c, sim realm (brine a b c) (n_brine (Num a) (Num b) (Num c)).
Proof. intros a b c. unfold brine, n_brine. simul. Qed.
#[global] Hint Extern 1 (rrel _ _ (brine _ _ _) _) => apply sim_brine : sim.
