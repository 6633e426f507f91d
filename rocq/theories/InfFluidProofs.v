(** The fluids of Batzle and Wang with infinities. *)
From Coq Require Import List ZArith Lra Lia.
From Verif Require Import Base BaseProofs MaterialModel MaterialProofs FluidModel ConfigModel BatzleWangModel RowModel InfModel InfFluidModel
  InfSpec RelProofs EmbedProofs InfProofs InfSandProofs LineProofs BatzleWangSpec BatzleWangProofs.
Import ListNotations.
Open Scope R_scope.

Lemma reads_cube : forall x a, reads x a -> reads (x ^ 3) (xcube a).
Proof. intros x a H. replace (x ^ 3) with (x * x * x) by ring. unfold xcube. auto with xr. Qed.
Lemma reads_fourth : forall x a, reads x a -> reads (x ^ 4) (xsquare (xsquare a)).
Proof. intros x a H. replace (x ^ 4) with ((x ^ 2) ^ 2) by ring. auto with xr. Qed.
Lemma reads_over_exp : forall x y a b, reads x a -> reads y b -> reads (x / exp y) (a / x_exp b)%xnum.
Proof. intros x y a b Ha Hb. apply reads_div; [exact Ha|apply reads_exp, Hb|]. pose proof (exp_pos y). lra. Qed.
Lemma reads_over_1000 : forall x a, reads x a -> reads (x / 1000) (a / XFin 1000)%xnum.
Proof. intros x a Ha. apply reads_div; [exact Ha|apply reads_fin|lra]. Qed.
#[global] Hint Resolve reads_cube reads_fourth reads_over_exp reads_over_1000 : xr.

Lemma xs_polyval2d : forall x y c a b, reads x a -> reads y b -> sim reads (polyval2d x y c) (x_polyval2d a b c).
Proof. intros x y c a b Ha Hb. exact (xs_fit_property x y a b (Some c) Ha Hb). Qed.
Lemma reads_poly_rows_of : forall x a c c', reads x a -> Forall2 (Forall2 reads) c c' -> Forall2 reads (poly_rows x c) (x_poly_rows a c').
Proof.
  intros x a c c' Ha H. induction H as [|row row' c c' Hr H IH]; [constructor|]. destruct H as [|r2 r2' c c' H2 H].
  - cbn [poly_rows x_poly_rows]. induction Hr as [|y y' l l' Hy Hr IHr]; cbn [map]; constructor; [|exact IHr].
    replace y with (y + x * 0) by ring. auto with xr.
  - change (poly_rows x (row :: r2 :: c)) with (map2 (fun a acc => a + acc * x) row (poly_rows x (r2 :: c))).
    change (x_poly_rows a (row' :: r2' :: c')) with (xmap2 (fun u acc => (u + acc * a)%xnum) row' (x_poly_rows a (r2' :: c'))).
    apply reads_map2; [exact Hr|exact IH|]. intros. auto with xr.
Qed.
Lemma reads_poly_matrices : forall x a c, reads x a -> Forall2 (Forall2 reads) (poly_matrices x c) (x_poly_matrices a (map (map (map XFin)) c)).
Proof.
  assert (I : forall l, Forall2 reads l (map XFin l)) by (induction l; constructor; auto with xr).
  intros x a c Ha. induction c as [|m c IH]; [constructor|]. destruct c as [|m' c].
  - cbn [poly_matrices map x_poly_matrices]. rewrite map_map. induction m as [|row m IHm]; cbn [map]; constructor; [|exact IHm].
    induction row as [|y row IHr]; cbn [map]; constructor; [|exact IHr]. replace y with (y + x * 0) at 1 by ring. auto with xr.
  - change (poly_matrices x (m :: m' :: c)) with
      (map (fun rr => map2 (fun a acc => a + acc * x) (fst rr) (snd rr)) (combine m (poly_matrices x (m' :: c)))).
    change (x_poly_matrices a (map (map (map XFin)) (m :: m' :: c))) with
      (map (fun rr => xmap2 (fun u acc => (u + acc * a)%xnum) (fst rr) (snd rr))
           (combine (map (map XFin) m) (x_poly_matrices a (map (map (map XFin)) (m' :: c))))).
    revert IH. generalize (poly_matrices x (m' :: c)) (x_poly_matrices a (map (map (map XFin)) (m' :: c))).
    induction m as [|row m IHm]; intros l l' H; [constructor|]. destruct H as [|r r' l l' Hr H]; [constructor|].
    cbn [combine map fst snd]. constructor; [|apply IHm, H]. apply reads_map2; [apply I|exact Hr|]. intros. auto with xr.
Qed.
Lemma xs_polyval3d : forall x y z c a b d, reads x a -> reads y b -> reads z d -> sim reads (polyval3d x y z c) (x_polyval3d a b d c).
Proof.
  intros x y z c a b d Ha Hb Hd. unfold polyval3d, polyval2d, x_polyval3d.
  pose proof (reads_poly_rows_of y b _ _ Hb (reads_poly_matrices x a c Ha)) as H.
  destruct H as [|u u' l l' Hu H]; [right; reflexivity|]. apply rrel_ok. apply reads_poly_eval; [exact Hd|constructor; assumption].
Qed.

Lemma xs_fluid_of_velocity : forall kd d p a b, reads d a -> reads p b ->
  sim reads_material (fluid_of_velocity d p) (x_fluid_of_velocity kd a b).
Proof.
  intros kd d p a b Ha Hb. unfold fluid_of_velocity, mk_material, x_fluid_of_velocity, x_moduli_guards, x_velocity_guards,
    fill_moduli, fill_velocities. cbn [bind]. cbv zeta.
  assert (Hk : reads (calculate_bulk_modulus p 0 d) (x_bulk_modulus b (XFin 0) a))
    by (unfold calculate_bulk_modulus, x_bulk_modulus; auto with xr).
  destruct (Req_EM_T d 0) as [E|E].
  { match goal with |- sim _ _ ?s => destruct s; [reflexivity|left; reflexivity] end. }
  assert (G : (match kd with Python => xzero a | _ => false end) = false).
  { destruct kd; [|reflexivity..]. rewrite (reads_zero d a Ha). destruct (Req_EM_T d 0); [contradiction|reflexivity]. }
  rewrite G. cbn [guard bind].
  rewrite ?bind_bind. apply xs_guard; [assumption|apply reads_fin|]. rewrite ?bind_bind. apply xs_guard; [assumption|apply reads_fin|].
  apply xs_guard; [apply reads_fin|apply reads_fin|].
  unfold calculate_secondary_velocity, x_secondary_velocity.
  rewrite ?bind_bind. eapply rrel_bind; [apply xs_np_div; [apply reads_fin|exact Ha]|]. intros r r' Hr.
  rewrite ?bind_bind. eapply rrel_bind; [apply xs_sqrt, Hr|]. intros s s' Hs. cbn [bind].
  rewrite ?bind_bind. apply xs_guard; [assumption|apply reads_fin|]. rewrite ?bind_bind. apply xs_guard; [assumption|apply reads_fin|].
  apply xs_guard; [assumption|auto with xr|]. apply rrel_ok. repeat split; try assumption; apply reads_fin.
Qed.

Ltac rd := solve [auto 20 with xr].
Ltac xstep :=
  match goal with
  | |- sim _ (bind _ _) (bind _ _) => eapply (rrel_bind _ reads); [|intros ? ? ?]
  | |- _ (py_div _ _) (x_div Python _ _) => apply xs_py_div; rd
  | |- _ (np_div _ _) (x_div _ _ _) => apply xs_np_div; rd
  | |- _ (np_sqrt _) (x_root _ _) => apply xs_sqrt; rd
  | |- _ (np_pow _ _) (x_power _ _ _) => apply xs_pow; rd
  | |- _ (polyval2d _ _ _) _ => apply xs_polyval2d; rd
  | |- _ (polyval3d _ _ _ _) _ => apply xs_polyval3d; rd
  | |- _ (fluid_of_velocity _ _) _ => apply xs_fluid_of_velocity; rd
  | |- _ (Ok _) (Ok _) => apply rrel_ok; rd
  end.

Lemma reads_kelvin : forall x a, reads x a -> reads (celsius_to_kelvin x) (x_celsius_to_kelvin a).
Proof. intros. unfold celsius_to_kelvin, x_celsius_to_kelvin. rd. Qed.
#[global] Hint Resolve reads_kelvin : xr.

Section Gas.
Context (t p g : R) (a b c : xnum) (Ha : reads t a) (Hb : reads p b) (Hc : reads g c).
Lemma reads_weight : reads (molecular_weight g) (x_molecular_weight c).
Proof. unfold molecular_weight, x_molecular_weight. rd. Qed.
Lemma xs_ideal_gas_density : sim reads (ideal_gas_density t p g) (x_ideal_gas_density a b c).
Proof.
  unfold ideal_gas_density, x_ideal_gas_density, molar_volume, x_molar_volume. pose proof reads_weight.
  repeat xstep.
Qed.
Lemma xs_ideal_gas_velocity : sim reads (ideal_gas_primary_velocity t g) (x_ideal_gas_primary_velocity a c).
Proof. unfold ideal_gas_primary_velocity, x_ideal_gas_primary_velocity. pose proof reads_weight. repeat xstep. Qed.
Lemma xs_factor : sim reads (compressability_factor t p g) (x_compressability_factor a b c).
Proof.
  unfold compressability_factor, x_compressability_factor, pseudoreduced_temperature, x_pseudoreduced_temperature,
    pseudoreduced_pressure, x_pseudoreduced_pressure. repeat xstep.
Qed.
Lemma xs_rate : sim reads (compressability_rate_per_pseudoreduced_pressure t p g) (x_compressability_rate_per_pseudoreduced_pressure a b c).
Proof.
  unfold compressability_rate_per_pseudoreduced_pressure, x_compressability_rate_per_pseudoreduced_pressure, pseudoreduced_temperature,
    x_pseudoreduced_temperature, pseudoreduced_pressure, x_pseudoreduced_pressure. repeat xstep.
Qed.
End Gas.
Lemma xs_gas_density : forall t p g a b c, reads t a -> reads p b -> reads g c -> sim reads (gas_density t p g) (x_gas_density a b c).
Proof.
  intros t p g a b c Ha Hb Hc. unfold gas_density, x_gas_density, ideal_gas, x_ideal_gas.
  eapply rrel_bind.
  { eapply rrel_bind; [apply xs_ideal_gas_density; rd|]. intros d d' Hd.
    eapply rrel_bind; [apply xs_ideal_gas_velocity; rd|]. intros v v' Hv. apply xs_fluid_of_velocity; rd. }
  intros m m' (_ & _ & D & _). eapply rrel_bind; [apply xs_factor; assumption|]. intros z z' Hz. repeat xstep.
Qed.
Lemma xs_gas_bulk : forall t p g a b c, reads t a -> reads p b -> reads g c -> sim reads (gas_bulk_modulus t p g) (x_gas_bulk_modulus a b c).
Proof.
  intros t p g a b c Ha Hb Hc. unfold gas_bulk_modulus, x_gas_bulk_modulus.
  eapply rrel_bind; [apply xs_factor; assumption|]. intros z z' Hz.
  eapply rrel_bind; [apply xs_rate; assumption|]. intros q q' Hq.
  unfold pseudoreduced_pressure, x_pseudoreduced_pressure, gamma_0, x_gamma_0. repeat xstep.
Qed.
Lemma xs_gas : forall t p g a b c, reads t a -> reads p b -> reads g c -> sim reads_material (gas t p g) (x_gas a b c).
Proof.
  intros t p g a b c Ha Hb Hc. unfold gas, x_gas.
  eapply rrel_bind; [apply xs_gas_density; rd|]. intros d d' Hd. eapply rrel_bind; [apply xs_gas_bulk; rd|]. intros k k' Hk.
  unfold fluid_of_bulk, x_fluid_of_bulk. apply xs_of_moduli; rd.
Qed.

Lemma xs_dead_density : forall t p r a b c, reads t a -> reads p b -> reads r c -> sim reads (dead_oil_density t p r) (x_dead_oil_density a b c).
Proof.
  intros t p r a b c Ha Hb Hc. unfold dead_oil_density, x_dead_oil_density, temperature_adjusted_dead_oil_density,
    x_temperature_adjusted_dead_oil_density, pressure_adjusted_dead_oil_density, x_pressure_adjusted_dead_oil_density. repeat xstep.
Qed.
Lemma xs_dead_velocity : forall kd t p r a b c, reads t a -> reads p b -> reads r c ->
  sim reads (dead_oil_primary_velocity t p r) (x_dead_oil_primary_velocity kd a b c).
Proof. intros kd t p r a b c Ha Hb Hc. unfold dead_oil_primary_velocity, x_dead_oil_primary_velocity. repeat xstep. Qed.
Lemma xs_dead_oil : forall t p r a b c, reads t a -> reads p b -> reads r c -> sim reads_material (dead_oil t p r) (x_dead_oil a b c).
Proof.
  intros t p r a b c Ha Hb Hc. unfold dead_oil, x_dead_oil. eapply rrel_bind; [apply xs_dead_density; rd|]. intros d d' Hd.
  eapply rrel_bind; [apply xs_dead_velocity; rd|]. intros v v' Hv. repeat xstep.
Qed.
Lemma xs_volume_factor : forall t r rg g a c d e, reads t a -> reads r c -> reads rg d -> reads g e ->
  sim reads (live_oil_volume_factor t r rg g) (x_live_oil_volume_factor a c d e).
Proof. intros. unfold live_oil_volume_factor, x_live_oil_volume_factor. repeat xstep. Qed.
Lemma xs_live_oil : forall t p r rg g a b c d e, reads t a -> reads p b -> reads r c -> reads rg d -> reads g e ->
  sim reads_material (live_oil t p r rg g) (x_live_oil a b c d e).
Proof.
  intros t p r rg g a b c d e Ha Hb Hc Hd He. unfold live_oil, x_live_oil, live_oil_density, x_live_oil_density, live_oil_primary_velocity,
    x_live_oil_primary_velocity, live_oil_pseudo_density, x_live_oil_pseudo_density.
  xstep; [xstep|]. xstep; [xstep|]. rewrite ?bind_bind.
  eapply rrel_bind; [apply xs_volume_factor; rd|]. intros v v' Hv. xstep; [xstep|]. rewrite ?bind_bind.
  eapply rrel_bind; [apply xs_volume_factor; rd|]. intros w w' Hw. rewrite ?bind_bind. xstep; [xstep|]. rewrite ?bind_bind. xstep; [xstep|].
  eapply rrel_bind; [apply xs_dead_velocity; rd|]. intros u u' Hu. xstep.
Qed.
Lemma reads_window : forall x a, reads x a -> reads (triangular_window x) (x_triangular_window a).
Proof.
  intros x a H. unfold triangular_window, x_triangular_window.
  rewrite (reads_ltb 1 x (XFin 1) a (reads_fin _) H). destruct (Rlt_dec 1 x); [apply reads_fin|].
  rewrite (reads_ltb x (-1) a _ H (reads_fin _)). destruct (Rlt_dec x (-1)); [apply reads_fin|].
  apply reads_abs, reads_div; [rd|apply reads_fin|lra].
Qed.
#[global] Hint Resolve reads_window : xr.
Lemma xs_oil : forall t p r rg g a b c d e, reads t a -> reads p b -> reads r c -> reads rg d -> reads g e ->
  sim reads_material (oil t p r rg g) (x_oil a b c d e).
Proof.
  intros t p r rg g a b c d e Ha Hb Hc Hd He. unfold oil, x_oil.
  eapply rrel_bind; [apply xs_live_oil; assumption|]. intros l l' (_ & _ & L1 & L2 & _).
  eapply rrel_bind; [apply xs_dead_oil; assumption|]. intros m m' (_ & _ & M1 & M2 & _). cbv zeta. xstep.
Qed.
Lemma xs_water : forall t p a b, reads t a -> reads p b -> sim reads_material (water t p) (x_water a b).
Proof.
  intros t p a b Ha Hb. unfold water, x_water, water_density, x_water_density, water_primary_velocity, x_water_primary_velocity.
  repeat xstep.
Qed.
Lemma xs_brine : forall t p s a b c, reads t a -> reads p b -> reads s c -> sim reads_material (brine t p s) (x_brine a b c).
Proof.
  intros t p s a b c Ha Hb Hc. unfold brine, x_brine, brine_density, x_brine_density, brine_primary_velocity, x_brine_primary_velocity,
    water_density, x_water_density, water_primary_velocity, x_water_primary_velocity. rewrite ?bind_bind.
  repeat (rewrite ?bind_bind; xstep).
Qed.

Lemma xs_vectorized : forall c m m', reads_material m m' ->
  sim reads_material (if c : bool then mat_of_velocities (dens m) (vp m) (vs m) else Ok m) (x_vectorized c m').
Proof. intros c m m' H. unfold x_vectorized. destruct c; [|exact H]. destruct H as (_ & _ & A & B & C). apply xs_of_velocities; assumption. Qed.

(** ** Infinite arguments *)
Lemma inf_scaled : forall s c, 0 < c -> (XInf s * XFin c)%xnum = XInf s.
Proof.
  intros s c H. cbn [xmul xsign]. unfold xzero. cbn [xval]. destruct (Req_EM_T c 0); [lra|]. destruct (Rlt_dec c 0); [lra|].
  destruct s; reflexivity.
Qed.
Lemma scaled_inf : forall s c, 0 < c -> (XFin c * XInf s)%xnum = XInf s.
Proof.
  intros s c H. cbn [xmul xsign]. unfold xzero. cbn [xval]. destruct (Req_EM_T c 0); [lra|]. destruct (Rlt_dec c 0); [lra|].
  destruct s; reflexivity.
Qed.
Lemma fin_over_inf : forall x a s, reads x a -> reads 0 (a / XInf s)%xnum.
Proof. intros x a s [->|[-> ->]]; cbn [xdiv]; apply reads_signed. Qed.
Lemma py_by_zero : forall a b, reads 0 b -> x_div Python a b = Err ZeroDivisionError.
Proof. intros a b H. cbn [x_div]. rewrite (reads_zero 0 b H). destruct (Req_EM_T 0 0); [reflexivity|lra]. Qed.
Lemma py_fin : forall x y a b, reads x a -> reads y b -> y <> 0 -> x_div Python a b = Ok (a / b)%xnum.
Proof. intros x y a b Ha Hb N. cbn [x_div]. rewrite (reads_zero y b Hb). destruct (Req_EM_T y 0); [contradiction|reflexivity]. Qed.
Lemma py_nonzero : forall a y b, reads y b -> y <> 0 -> x_div Python a b = Ok (a / b)%xnum.
Proof. intros a y b Hb N. cbn [x_div]. rewrite (reads_zero y b Hb). destruct (Req_EM_T y 0); [contradiction|reflexivity]. Qed.

Lemma py_inf : forall a s, x_div Python a (XInf s) = Ok (a / XInf s)%xnum.
Proof. reflexivity. Qed.

Lemma gas_infinite_pressure : forall t s g, x_gas (XFin t) (XInf s) (XFin g) = Err ZeroDivisionError.
Proof.
  intros t s g. unfold x_gas, x_gas_density, x_ideal_gas, x_ideal_gas_density, x_molar_volume. rewrite !inf_scaled by lra.
  rewrite py_inf. cbn [bind]. rewrite py_by_zero; [reflexivity|].
  eapply fin_over_inf. unfold x_celsius_to_kelvin. rd.
Qed.
Lemma gas_constant_pos : 0 < gas_constant.
Proof. unfold gas_constant. lra. Qed.
Lemma inf_over_fin : forall s x a, reads x a -> exists s', (XInf s / a)%xnum = XInf s'.
Proof. intros s x a [->|[-> _]]; cbn [xdiv]; eauto. Qed.
Lemma root_ok : forall kd a, kd <> Python -> exists z, x_root kd a = Ok z.
Proof.
  intros kd a N. unfold x_root. destruct a as [x| |[]|]; eauto. destruct (Rlt_dec x 0); [|eauto]. destruct kd; [congruence|eauto..].
Qed.
Lemma gas_infinite_temperature : forall s p g, x_gas (XInf s) (XFin p) (XFin g) = Err ZeroDivisionError.
Proof.
  intros s p g. unfold x_gas, x_gas_density, x_ideal_gas, x_ideal_gas_density, x_molar_volume, x_ideal_gas_primary_velocity.
  unfold x_celsius_to_kelvin. cbn [xadd]. rewrite scaled_inf by apply gas_constant_pos.
  set (q := (XFin p * XFin (1 / 10 ^ 6) * XFin (1 / 10 ^ 6) * XFin (10 ^ 6))%xnum).
  assert (Q : reads (p * (1 / 10 ^ 6) * (1 / 10 ^ 6) * 10 ^ 6) q) by (unfold q; rd).
  destruct (Req_EM_T (p * (1 / 10 ^ 6) * (1 / 10 ^ 6) * 10 ^ 6) 0) as [E|E].
  { rewrite E in Q. rewrite (py_by_zero _ _ Q). reflexivity. }
  rewrite (py_nonzero _ _ _ Q E). cbn [bind]. destruct (inf_over_fin s _ _ Q) as (s' & ->).
  rewrite py_inf. cbn [bind]. cbn [x_div].
  set (w := x_molecular_weight (XFin g)). assert (W : reads (g * AIR_WEIGHT) w) by (unfold w, x_molecular_weight; rd).
  assert (Z : reads 0 (w / XInf s' * XFin 1000)%xnum).
  { eapply reads_is; [apply reads_mul; [eapply fin_over_inf, W|apply reads_fin]|]. ring. }
  destruct (xzero w); [reflexivity|]. cbn [bind]. destruct (root_ok Array (XInf s / w)%xnum) as (v & ->); [discriminate|]. cbn [bind].
  unfold x_fluid_of_velocity. rewrite (reads_zero _ _ Z). destruct (Req_EM_T 0 0); [reflexivity|lra].
Qed.

Lemma not_real_cases : forall a, ~ finite a <-> not_finite a.
Proof.
  intros a. split.
  - intros H. destruct a as [x| |s|]; [destruct H; exists x; apply reads_fin|destruct H; exists 0; right; auto|right; eauto|left; reflexivity].
  - intros [->|(s & ->)] (x & [H|[H _]]); discriminate.
Qed.
Lemma polyval2d_some : forall x y c z, x_polyval2d x y c = Ok z -> not_finite x \/ not_finite y -> z = XNan.
Proof. intros x y c z E H. apply (LineProofs.poly_not_finite x y c z); [|exact E]. rewrite !not_real_cases. exact H. Qed.
Lemma fluid_of_nan : forall kd, x_fluid_of_velocity kd XNan XNan = Ok (mkX XNan (XFin 0) XNan XNan XNan).
Proof.
  intros kd. unfold x_fluid_of_velocity, x_bulk_modulus, x_secondary_velocity, x_moduli_guards, x_velocity_guards, xsquare.
  cbn [xmul]. unfold xsub. cbn [xadd]. unfold xzero. cbn [xval]. destruct kd; cbn [guard bind xltb xval x_div xdiv x_root];
    (destruct (Rlt_dec 0 0); [lra|]); cbn [guard bind]; rewrite ?xmul_nan; cbn [guard bind xltb]; reflexivity.
Qed.
Lemma brine_parts : forall t p' s', not_finite t \/ not_finite p' \/ not_finite s' ->
  x_brine_density t p' s' = Ok XNan /\ x_brine_primary_velocity t p' s' = Ok XNan.
Proof.
  intros t p' s' H'.
  assert (D : x_brine_density t p' s' = Ok XNan).
  { unfold x_brine_density. assert (W : exists w, x_water_density t p' = Ok w) by (unfold x_water_density, x_polyval2d; cbn [map x_poly_rows xmap2]; eauto).
    destruct W as (w & W). rewrite W. cbn [bind].
    assert (P : exists q, x_polyval3d s' t p' [[[668 / 1000; 3 / 10 ^ 4]; [8 / 10 ^ 5; - (13 / 10 ^ 6)]; [3 / 10 ^ 6; 0]];
     [[44 / 100; - (24 / 10 ^ 4)]; [- (33 / 10 ^ 4); 47 / 10 ^ 6]; [0; 0]]] = Ok q /\ (not_finite s' -> q = XNan)).
    { unfold x_polyval3d. cbn [map x_poly_matrices x_poly_rows xmap2 combine fst snd]. eexists. split; [reflexivity|]. intros F.
      rewrite !(InfSandProofs.times_zero (XFin 0) s' (reads_fin 0) F). rewrite ?xadd_nan. cbn [xmul]. rewrite ?xadd_nan. cbn [xmul x_poly_eval].
      rewrite ?xadd_nan. cbn [xadd xmul]. rewrite ?xadd_nan. cbn [xadd xmul]. rewrite ?xadd_nan. reflexivity. }
    destruct P as (q & P & Q). rewrite P. cbn [bind]. f_equal. destruct H' as [F|[F|F]].
    - rewrite (polyval2d_some _ _ _ _ W (or_introl F)). reflexivity.
    - rewrite (polyval2d_some _ _ _ _ W (or_intror F)). reflexivity.
    - rewrite (Q F), xmul_nan. apply xadd_nan. }
  assert (V : x_brine_primary_velocity t p' s' = Ok XNan).
  { unfold x_brine_primary_velocity.
    assert (W : exists w, x_water_primary_velocity t p' = Ok w) by (unfold x_water_primary_velocity, x_polyval2d; cbn [map x_poly_rows xmap2]; eauto).
    destruct W as (w & W). rewrite W. cbn [bind]. destruct (root_ok Array s') as (r & R); [discriminate|]. rewrite R. cbn [bind].
    match goal with |- context [x_polyval3d r t p' ?c] => assert (P : exists q, x_polyval3d r t p' c = Ok q /\ (not_finite r -> q = XNan)) end.
    { unfold x_polyval3d. cbn [map x_poly_matrices x_poly_rows xmap2 combine fst snd]. eexists. split; [reflexivity|]. intros F.
      rewrite !(InfSandProofs.times_zero (XFin 0) r (reads_fin 0) F). rewrite ?xadd_nan. cbn [xmul]. rewrite ?xadd_nan. cbn [xmul x_poly_eval].
      rewrite ?xadd_nan. cbn [xadd xmul]. rewrite ?xadd_nan. cbn [xadd xmul]. rewrite ?xadd_nan. cbn [xadd xmul]. rewrite ?xadd_nan. reflexivity. }
    destruct P as (q & P & Q). rewrite P. cbn [bind]. f_equal. destruct H' as [F|[F|F]].
    - rewrite (polyval2d_some _ _ _ _ W (or_introl F)). reflexivity.
    - rewrite (polyval2d_some _ _ _ _ W (or_intror F)). reflexivity.
    - assert (F' : not_finite r).
      { destruct F as [->|([] & ->)]; cbn [x_root] in R; injection R as <-; [left; reflexivity|left; reflexivity|right; eauto]. }
      rewrite (Q F'), xmul_nan. apply xadd_nan. }
  split; assumption.
Qed.
Lemma scaled_not_finite : forall a c, 0 < c -> not_finite a -> not_finite (a * XFin c)%xnum.
Proof. intros a c C [->|(u & ->)]; [left; reflexivity|right; rewrite inf_scaled by exact C; eauto]. Qed.
Lemma brine_infinite : forall t p s, not_finite t \/ not_finite p \/ not_finite s ->
  x_brine t p s = Ok (mkX XNan (XFin 0) XNan XNan XNan).
Proof.
  intros t p s H. destruct (brine_parts t (p * XFin (1 / 10 ^ 6)) (s * XFin (1 / 10 ^ 6)))%xnum as (D & V).
  { destruct H as [H|[H|H]]; [left; exact H|right; left|right; right]; apply scaled_not_finite; try exact H; lra. }
  unfold x_brine. rewrite D, V. cbn [bind xmul]. apply fluid_of_nan.
Qed.
Lemma water_infinite : forall t p, not_finite t \/ not_finite p -> x_water t p = Ok (mkX XNan (XFin 0) XNan XNan XNan).
Proof.
  intros t p H. unfold x_water.
  assert (W : exists w, x_water_density t p = Ok w) by (unfold x_water_density, x_polyval2d; cbn [map x_poly_rows xmap2]; eauto).
  assert (V : exists w, x_water_primary_velocity t p = Ok w) by (unfold x_water_primary_velocity, x_polyval2d; cbn [map x_poly_rows xmap2]; eauto).
  destruct W as (w & W). destruct V as (v & V). rewrite W, V. cbn [bind].
  rewrite (polyval2d_some _ _ _ _ W H), (polyval2d_some _ _ _ _ V H). apply fluid_of_nan.
Qed.

Lemma pos_over_inf : forall x, 0 < x -> (XFin x / XInf false)%xnum = XFin 0.
Proof. intros x H. cbn [xdiv xsign]. destruct (Rlt_dec x 0); [lra|]. unfold signed. cbn [xorb]. destruct (Req_EM_T 0 0); [reflexivity|lra]. Qed.
Lemma inf_over_pos : forall x, 0 < x -> (XInf false / XFin x)%xnum = XInf false.
Proof. intros x H. cbn [xdiv xsign]. destruct (Rlt_dec x 0); [lra|]. reflexivity. Qed.
Lemma root_zero : forall kd, x_root kd (XFin 0) = Ok (XFin 0).
Proof. intros kd. unfold x_root. destruct (Rlt_dec 0 0); [lra|]. rewrite sqrt_0. reflexivity. Qed.
Lemma lt_zero_zero : xltb (XFin 0) (XFin 0) = false.
Proof. cbn [xltb xval]. destruct (Rlt_dec 0 0); [lra|reflexivity]. Qed.

Lemma ratio_of_pos : forall x y, 0 < x -> 0 < y -> exists z, (XFin x / XFin y)%xnum = XFin z /\ 0 < z.
Proof.
  intros x y Hx Hy. pose proof (reads_div x y (XFin x) (XFin y) (reads_fin x) (reads_fin y)) as H.
  assert (N : y <> 0) by lra. specialize (H N). exists (x / y)%R. split.
  - destruct H as [H|[_ H]]; [exact H|]. exfalso. assert (0 < x / y)%R by (apply Rdiv_lt_0_compat; assumption). lra.
  - apply Rdiv_lt_0_compat; assumption.
Qed.
Lemma prod_of_pos : forall x y, 0 < x -> 0 < y -> exists z, (XFin x * XFin y)%xnum = XFin z /\ 0 < z.
Proof.
  intros x y Hx Hy. exists (x * y)%R. split; [|apply Rmult_lt_0_compat; assumption].
  pose proof (reads_mul x y (XFin x) (XFin y) (reads_fin x) (reads_fin y)) as [H|[_ H]]; [exact H|].
  exfalso. assert (0 < x * y)%R by (apply Rmult_lt_0_compat; assumption). lra.
Qed.

Lemma py_pos : forall a y, 0 < y -> x_div Python a (XFin y) = Ok (a / XFin y)%xnum.
Proof. intros a y H. apply (py_nonzero a y); [apply reads_fin|lra]. Qed.
Lemma zero_of_inf : x_fluid_of_velocity Python (XInf false) (XFin 0) = Ok (mkX XNan (XFin 0) (XInf false) (XFin 0) (XFin 0)).
Proof.
  unfold x_fluid_of_velocity, x_bulk_modulus, xsquare.
  rewrite (zero_times (XFin 0 * XFin 0)%xnum (XInf false)); [|eapply reads_is; [apply reads_mul; apply reads_fin|ring]|right; eauto].
  unfold xsub at 1. cbn [xadd]. unfold x_secondary_velocity. rewrite py_inf. cbn [bind].
  assert (E : (XFin 0 / XInf false)%xnum = XFin 0).
  { cbn [xdiv xsign]. destruct (Rlt_dec 0 0); [lra|]. unfold signed. cbn [xorb]. destruct (Req_EM_T 0 0); [reflexivity|lra]. }
  rewrite E, root_zero. unfold x_moduli_guards, x_velocity_guards. rewrite lt_zero_zero. unfold xzero. cbn [xval xltb guard bind].
  rewrite ?lt_zero_zero. cbn [guard bind].
  assert (F : reads 0 (XFin (sqrt (4 / 3)) * XFin 0)%xnum) by (eapply reads_is; [apply reads_mul; apply reads_fin|ring]).
  destruct F as [-> |[-> _]]; cbn [xltb xval guard bind]; destruct (Rlt_dec 0 0); try lra; reflexivity.
Qed.
Lemma air_pos : 0 < AIR_WEIGHT.
Proof. unfold AIR_WEIGHT. lra. Qed.
Lemma gas_infinite_gravity : forall t p, - (27315 / 100) < t -> 0 < p -> x_gas (XFin t) (XFin p) (XInf false) = Err ZeroDivisionError.
Proof.
  intros t p Ht Hp. unfold x_gas, x_gas_density, x_ideal_gas, x_ideal_gas_density, x_molar_volume, x_ideal_gas_primary_velocity.
  unfold x_molecular_weight. rewrite (scaled_inf false AIR_WEIGHT air_pos) || rewrite (inf_scaled false AIR_WEIGHT air_pos).
  unfold x_celsius_to_kelvin. cbn [xadd].
  set (T := (t + 27315 / 100)%R). assert (HT : 0 < T) by (unfold T; lra). clearbody T.
  destruct (prod_of_pos gas_constant T gas_constant_pos HT) as (rt & -> & HR).
  destruct (prod_of_pos p (1 / 10 ^ 6)) as (q1 & -> & HQ1); [exact Hp|lra|].
  destruct (prod_of_pos q1 (1 / 10 ^ 6)) as (q2 & -> & HQ2); [exact HQ1|lra|].
  destruct (prod_of_pos q2 (10 ^ 6)) as (q3 & -> & HQ3); [exact HQ2|lra|].
  rewrite (py_pos _ q3 HQ3). cbn [bind]. destruct (ratio_of_pos rt q3 HR HQ3) as (v & -> & HV).
  rewrite (py_pos _ v HV). cbn [bind]. rewrite (inf_over_pos v HV), inf_scaled by lra.
  rewrite py_inf. cbn [bind]. rewrite (pos_over_inf rt HR), root_zero. cbn [bind]. rewrite zero_of_inf. cbn [bind].
  unfold x_compressability_factor, x_pseudoreduced_temperature, x_pseudoreduced_pressure. rewrite !scaled_inf by lra.
  unfold xsub at 1. cbn [xopp xadd negb]. rewrite py_inf. cbn [bind]. rewrite py_inf. cbn [bind]. rewrite (pos_over_inf T HT).
  rewrite (py_by_zero (XFin 1) (XFin 0)) by apply reads_fin. reflexivity.
Qed.

(** An infinite gas-oil ratio. *)
Lemma not_real_dens : forall kd d v, d = XNan -> xltb v (XFin 0) = false -> kd <> Python -> exists m, x_fluid_of_velocity kd d v = Ok m /\
  x_dens m = XNan /\ x_bulk m = XNan /\ x_vp m = v /\ x_vs m = XNan /\ x_shear m = XFin 0.
Proof.
  intros kd d v -> V N. unfold x_fluid_of_velocity, x_bulk_modulus, x_secondary_velocity, x_moduli_guards, x_velocity_guards.
  rewrite xmul_nan. unfold xsub. cbn [xadd]. rewrite lt_zero_zero, V.
  destruct kd; [congruence|..]; cbn [guard bind xltb x_div xdiv x_root]; rewrite xmul_nan; (destruct v; cbn [xltb guard bind]; eexists; repeat split; reflexivity).
Qed.
Lemma inf_plus_fin : forall s x a, reads x a -> (XInf s + a)%xnum = XInf s /\ (a + XInf s)%xnum = XInf s.
Proof. intros s x a [->|[-> _]]; split; reflexivity. Qed.
Lemma root_pos : forall kd x, 0 < x -> x_root kd (XFin x) = Ok (XFin (sqrt x)) /\ 0 < sqrt x.
Proof. intros kd x H. cbn [x_root]. destruct (Rlt_dec x 0); [lra|]. split; [reflexivity|apply sqrt_lt_R0, H]. Qed.
Lemma oil_infinite_ratio : forall t p r g m, 0 < t -> 0 < p -> 0 < r -> 0 < g -> dead_oil t p r = Ok m ->
  exists m', x_oil (XFin t) (XFin p) (XFin r) (XInf false) (XFin g) = Ok m' /\ x_dens m' = XNan /\ x_bulk m' = XNan /\ x_vp m' = XInf false /\ x_vs m' = XNan.
Proof.
  intros t p r g m Ht Hp Hr Hg HD. unfold x_oil, x_live_oil, x_live_oil_density, x_live_oil_primary_velocity, x_live_oil_pseudo_density.
  rewrite (py_pos _ g Hg), (py_pos _ r Hr). cbn [bind].
  destruct (ratio_of_pos r 1000 Hr) as (d & -> & Hd); [lra|].
  destruct (prod_of_pos p (1 / 10 ^ 6) Hp) as (q & -> & Hq); [lra|].
  assert (B : x_live_oil_volume_factor (XFin t) (XFin d) (XInf false) (XFin g) = Ok (XInf false)).
  { unfold x_live_oil_volume_factor. rewrite (py_pos _ d Hd). cbn [bind]. destruct (ratio_of_pos g d Hg Hd) as (u & -> & Hu).
    destruct (root_pos Array u Hu) as (-> & HS). cbn [bind]. rewrite scaled_inf by lra. rewrite (inf_scaled false (sqrt u) HS). cbn [xadd].
    cbn [x_power]. unfold x_pow. destruct (Req_EM_T (1175 / 1000) 0); [lra|]. destruct (Rlt_dec 0 (1175 / 1000)); [|lra]. cbn [andb bind].
    rewrite scaled_inf by lra. reflexivity. }
  rewrite B. cbn [bind x_div]. rewrite (pos_over_inf d Hd). rewrite !scaled_inf by lra. cbn [xadd bind].
  destruct (prod_of_pos (12 / 10000) g) as (w & -> & Hw); [lra|exact Hg|]. rewrite (scaled_inf false w Hw). cbn [xadd].
  assert (Z : (XFin 0 / XInf false)%xnum = XFin 0).
  { cbn [xdiv xsign]. destruct (Rlt_dec 0 0); [lra|]. unfold signed. cbn [xorb]. destruct (Req_EM_T 0 0); [reflexivity|lra]. }
  rewrite Z. cbn [bind]. assert (N : (XInf false / XInf false)%xnum = XNan) by reflexivity. rewrite N. cbn [bind]. cbn [xmul].
  assert (V : x_dead_oil_primary_velocity Scalar (XFin t) (XFin q) (XFin 0) = Ok (XInf false)).
  { unfold x_dead_oil_primary_velocity. cbn [x_div bind].
    assert (A : exists z, x_root Array (XFin 0 / (XFin (26 / 10) - XFin 0))%xnum = Ok z /\ reads 0 z).
    { assert (E : reads 0 (XFin 0 / (XFin (26 / 10) - XFin 0))%xnum).
      { eapply reads_is; [apply reads_div; [apply reads_fin|apply reads_sub; apply reads_fin|lra]|]. field. }
      destruct E as [-> |[-> _]]; [rewrite root_zero; eexists; split; [reflexivity|apply reads_fin]|].
      eexists. split; [reflexivity|right; auto]. }
    destruct A as (z & -> & Hz). cbn [bind].
    assert (I : (XFin 1 / XFin 0)%xnum = XInf false).
    { cbn [xdiv xval xsign]. destruct (Req_EM_T 0 0); [|lra]. destruct (Req_EM_T 1 0); [lra|].
      destruct (Rlt_dec 1 0); [lra|]. destruct (Rlt_dec 0 0); [lra|]. reflexivity. }
    rewrite I, scaled_inf by lra.
    assert (O : forall a, (XInf false - XFin a)%xnum = XInf false).
    { intros a. apply (inf_plus_fin false (- a)). apply reads_opp, reads_fin. }
    rewrite O. cbn [x_root bind]. rewrite scaled_inf by lra. rewrite O.
    rewrite scaled_inf by lra. rewrite (inf_scaled false t Ht), (inf_scaled false q Hq). f_equal.
    eapply inf_plus_fin. apply reads_add; [apply reads_sub|]; apply reads_mul; try exact Hz; apply reads_fin. }
  rewrite V. cbn [bind].
  destruct (not_real_dens Scalar XNan (XInf false)) as (l & L1 & L2 & L3 & L4 & L5 & L6); [reflexivity|reflexivity|discriminate|].
  rewrite L1. cbn [bind].
  pose proof (xs_dead_oil t p r (XFin t) (XFin p) (XFin r) (reads_fin t) (reads_fin p) (reads_fin r)) as D. rewrite HD in D.
  destruct (x_dead_oil (XFin t) (XFin p) (XFin r)) as [dm|]; [|destruct D]. cbn [bind]. destruct D as (_ & _ & D1 & D2 & _).
  assert (W : x_triangular_window (XInf false) = XFin 0) by reflexivity. rewrite W, L2, L4.
  assert (N1 : xsub (XFin 1) (XFin 0) = XFin 1).
  { assert (X : reads 1 (XFin 1 - XFin 0)%xnum) by (eapply reads_is; [apply reads_sub; apply reads_fin|ring]). destruct X as [X|[_ X]]; [exact X|lra]. }
  rewrite N1, xmul_nan, xadd_nan, scaled_inf by lra.
  assert (V2 : (x_vp dm * XFin 0 + XInf false)%xnum = XInf false) by (eapply inf_plus_fin; apply reads_mul; [exact D2|apply reads_fin]).
  rewrite V2. destruct (not_real_dens Scalar XNan (XInf false)) as (k & K1 & K2 & K3 & K4 & K5 & K6); [reflexivity|reflexivity|discriminate|].
  exists k. auto.
Qed.

Lemma dead_oil_warm : exists m, dead_oil 1 (10 * 10 ^ 6) 800 = Ok m.
Proof.
  apply dead_oil_ok; [lra|lra| |].
  - unfold bw_dead_density. apply div_pos; [lra|apply dead_den_pos].
  - unfold bw_oil_velocity. pose proof (sqrt_pos (800 / 1000 / (26 / 10 - 800 / 1000))). pose proof (sqrt_pos (108 / 100 / (800 / 1000) - 1)). lra.
Qed.
