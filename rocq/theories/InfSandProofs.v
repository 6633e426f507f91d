(** Bounds and sandstone models with infinities: agreement with the real numbers. *)
From Coq Require Import String List ZArith Lra Lia.
From Verif Require Import Base BaseProofs MaterialModel MaterialProofs HashinShtrikmanModel SandstoneModel RowModel
  InfModel InfSandModel InfSpec RelProofs EmbedProofs InfProofs.
Import ListNotations.
Open Scope R_scope.

Lemma reads_min : forall x y a b, reads x a -> reads y b -> reads (Rmin x y) (xmin a b).
Proof.
  intros x y a b Ha Hb. assert (E : xmin a b = if xltb b a then b else a).
  { destruct Ha as [->|[-> _]], Hb as [->|[-> _]]; reflexivity. }
  rewrite E, (reads_ltb y x) by assumption. destruct (Rlt_dec y x); [rewrite Rmin_right by lra|rewrite Rmin_left by lra]; assumption.
Qed.
#[global] Hint Resolve reads_min : xr.

Lemma xs_guard_last : forall x y a b e, reads x a -> reads y b ->
  sim (fun _ _ : unit => True) (if Rlt_dec x y then Err e else Ok tt) (guard (xltb a b) e).
Proof. intros x y a b e Ha Hb. rewrite (reads_ltb x y a b Ha Hb). destruct (Rlt_dec x y); cbn [guard]; [right; reflexivity|exact I]. Qed.
Lemma xs_check_ratio : forall x a, reads x a -> sim (fun _ _ => True) (check_is_ratio x) (x_check_is_ratio a).
Proof.
  intros x a H. unfold check_is_ratio, x_check_is_ratio. apply xs_guard; [apply reads_fin|exact H|].
  apply xs_guard_last; [exact H|apply reads_fin].
Qed.
Lemma xs_poisson : forall kd m m', reads_material m m' -> sim reads (poisson_ratio m) (x_poisson_ratio kd m').
Proof. intros kd m m' (A & B & _). unfold poisson_ratio, x_poisson_ratio. apply xs_np_div; auto with xr. Qed.
Lemma reads_wave : forall m m', reads_material m m' -> reads (primary_wave_modulus m) (x_primary_wave_modulus m').
Proof. intros m m' (A & B & _). unfold primary_wave_modulus, x_primary_wave_modulus. auto with xr. Qed.

Lemma xs_bound : forall kd m1 m2 f m1' m2' a, reads_material m1 m1' -> reads_material m2 m2' -> reads f a ->
  sim reads_material (hashin_shtrikman_bound m1 m2 f) (x_hashin_shtrikman_bound kd m1' m2' a).
Proof.
  intros kd m1 m2 f m1' m2' a (A1 & A2 & A3 & _) (B1 & B2 & B3 & _) F. unfold hashin_shtrikman_bound, x_hashin_shtrikman_bound.
  eapply rrel_bind; [apply xs_check_ratio, F|]. intros _ _ _. cbv zeta.
  eapply rrel_bind; [apply xs_np_div; auto with xr|]. intros i i' Hi.
  eapply rrel_bind; [apply xs_np_div; auto 10 with xr|]. intros qk qk' Hk.
  eapply rrel_bind; [apply xs_np_div; auto 10 with xr|]. intros t t' Ht.
  eapply rrel_bind; [apply xs_np_div; auto 10 with xr|]. intros qm qm' Hm.
  apply xs_of_moduli; auto with xr.
Qed.
Lemma xs_average : forall kd m1 m2 f m1' m2' a, reads_material m1 m1' -> reads_material m2 m2' -> reads f a ->
  sim reads_material (hashin_shtrikman_average m1 m2 f) (x_hashin_shtrikman_average kd m1' m2' a).
Proof.
  intros kd m1 m2 f m1' m2' a H1 H2 F. unfold hashin_shtrikman_average, x_hashin_shtrikman_average.
  eapply rrel_bind; [apply xs_check_ratio, F|]. intros _ _ _.
  eapply rrel_bind; [apply xs_bound; eassumption|]. intros b b' (B1 & B2 & _).
  eapply rrel_bind; [apply xs_bound; [exact H2|exact H1|auto with xr]|]. intros c c' (C1 & C2 & _).
  destruct H1 as (_ & _ & D1 & _), H2 as (_ & _ & D2 & _).
  apply xs_of_moduli; [apply reads_div; auto with xr; lra|apply reads_div; auto with xr; lra|auto with xr].
Qed.
Lemma xs_calc_bulk : forall k1 k2 mum f1 f2 a b c d e, reads k1 a -> reads k2 b -> reads mum c -> reads f1 d -> reads f2 e ->
  sim reads (calc_bulk_modulus k1 k2 mum f1 f2) (x_calc_bulk_modulus a b c d e).
Proof.
  intros k1 k2 mum f1 f2 a b c d e Ha Hb Hc Hd He. unfold calc_bulk_modulus, x_calc_bulk_modulus.
  rewrite (reads_eqb k1 k2 a b Ha Hb). destruct (Req_EM_T k1 k2); [apply rrel_ok, Ha|].
  eapply rrel_bind; [apply xs_py_div; auto with xr|]. intros x x' Hx.
  eapply rrel_bind; [apply xs_py_div; auto with xr|]. intros y y' Hy.
  eapply rrel_bind; [apply xs_py_div; auto with xr|]. intros q q' Hq. apply rrel_ok. auto with xr.
Qed.
Lemma xs_calc_shear : forall k1 k2 km mum f1 f2 a b g c d e,
  reads k1 a -> reads k2 b -> reads km g -> reads mum c -> reads f1 d -> reads f2 e ->
  sim reads (calc_shear_modulus k1 k2 km mum f1 f2) (x_calc_shear_modulus a b g c d e).
Proof.
  intros k1 k2 km mum f1 f2 a b g c d e Ha Hb Hg Hc Hd He. unfold calc_shear_modulus, x_calc_shear_modulus.
  rewrite (reads_eqb k1 k2 a b Ha Hb). destruct (Req_EM_T k1 k2); [apply rrel_ok, Ha|].
  eapply rrel_bind; [apply xs_py_div; auto with xr|]. intros x x' Hx.
  eapply rrel_bind; [apply xs_py_div; auto with xr; apply reads_mul; auto with xr; apply reads_div; auto with xr; lra|]. intros z z' Hz.
  eapply rrel_bind; [apply xs_py_div; auto with xr|]. intros y y' Hy.
  eapply rrel_bind; [apply xs_py_div; auto with xr|]. intros q q' Hq. apply rrel_ok. auto with xr.
Qed.
Lemma xs_walpole : forall kd m1 m2 f m1' m2' a bound, reads_material m1 m1' -> reads_material m2 m2' -> reads f a ->
  sim reads_material (hashin_shtrikman_walpole m1 m2 f bound) (x_hashin_shtrikman_walpole kd m1' m2' a bound).
Proof.
  intros kd m1 m2 f m1' m2' a bound (A1 & A2 & A3 & _) (B1 & B2 & B3 & _) F.
  unfold hashin_shtrikman_walpole, x_hashin_shtrikman_walpole.
  eapply rrel_bind; [apply xs_check_ratio, F|]. intros _ _ _.
  destruct (negb _); [right; reflexivity|]. cbv zeta.
  eapply rrel_bind; [apply xs_calc_bulk; auto with xr; destruct (String.eqb bound "lower"); auto with xr|]. intros k k' Hk.
  eapply rrel_bind; [apply xs_calc_shear; auto with xr; destruct (String.eqb bound "lower"); auto with xr|]. intros mu mu' Hm.
  apply xs_of_moduli; [exact Hk|exact Hm|]. unfold calc_density, x_calc_density. rewrite (reads_eqb _ _ _ _ A3 B3).
  destruct (Req_EM_T _ _); auto with xr.
Qed.

(** Sandstone. *)
Lemma pi_mult : forall x, 0 < x -> x * PI <> 0.
Proof. intros x H. pose proof PI_RGT_0. pose proof (Rmult_lt_0_compat x PI H). lra. Qed.
Lemma xs_hertz : forall km kp m phi p s n m' a b c d, reads_material m m' -> reads phi a -> reads p b -> reads s c -> reads n d ->
  sim reads_material (hertz_mindlin m phi p s n) (x_hertz_mindlin km kp m' a b c d).
Proof.
  intros km kp m phi p s n m' a b c d Hm Ha Hb Hc Hd. pose proof Hm as (A1 & A2 & A3 & _). unfold hertz_mindlin, x_hertz_mindlin. cbv zeta.
  eapply rrel_bind; [apply xs_poisson, Hm|]. intros v v' Hv.
  eapply rrel_bind; [apply xs_np_div; auto 10 with xr|]. intros q q' Hq.
  eapply rrel_bind; [apply xs_pow, Hq|]. intros w w' Hw.
  eapply rrel_bind; [apply xs_np_div; auto 10 with xr|]. intros sn sn' Hn.
  eapply rrel_bind; [apply xs_np_div; auto 10 with xr|]. intros st st' Ht.
  apply xs_of_moduli; auto with xr; (apply reads_mul; [apply reads_div; auto with xr; apply pi_mult; lra|auto with xr]).
Qed.
Lemma xs_friable : forall km kp m phi phc p n s m' a a' b d c, reads_material m m' -> reads phi a -> reads phc a' -> reads p b -> reads n d -> reads s c ->
  sim reads_material (friable_sand m phi phc p n s) (x_friable_sand km kp m' a a' b d c).
Proof.
  intros km kp m phi phc p n s m' a a' b d c Hm Ha Ha' Hb Hd Hc. unfold friable_sand, x_friable_sand.
  eapply rrel_bind; [apply xs_hertz; eassumption|]. intros x x' Hx.
  eapply rrel_bind; [apply xs_np_div; auto with xr|]. intros r r' Hr. apply xs_walpole; auto with xr.
Qed.
Lemma xs_power_num : forall kd x y a b, reads x a -> reads y b -> sim reads (np_pow x y) (x_power_num kd a b).
Proof.
  intros kd x y a b Ha Hb. unfold x_power_num. apply reads_val in Hb. rewrite Hb. apply xs_pow, Ha.
Qed.
Lemma xs_shear_stiffness : forall kd c g v al a b d e, reads c a -> reads g b -> reads v d -> reads al e ->
  sim reads (shear_stiffness c g v al) (x_shear_stiffness kd a b d e).
Proof.
  intros kd c g v al a b d e Ha Hb Hd He. unfold shear_stiffness, x_shear_stiffness. cbv zeta.
  eapply rrel_bind; [apply xs_np_div; auto with xr|]. intros x x' Hx.
  eapply rrel_bind; [apply xs_power_num; [exact Hx|auto 10 with xr]|]. intros y y' Hy.
  eapply rrel_bind; [apply xs_power_num; [exact Hx|auto 10 with xr]|]. intros z z' Hz.
  eapply rrel_bind; [apply xs_power_num; [exact Hx|auto 10 with xr]|]. intros w w' Hw.
  apply rrel_ok. auto 12 with xr.
Qed.
Lemma xs_normal_stiffness : forall kd v vc c g al a b d e h, reads v a -> reads vc b -> reads c d -> reads g e -> reads al h ->
  sim reads (normal_stiffness v vc c g al) (x_normal_stiffness kd a b d e h).
Proof.
  intros kd v vc c g al a b d e h Ha Hb Hd He Hh. unfold normal_stiffness, x_normal_stiffness. cbv zeta.
  eapply rrel_bind; [apply xs_np_div; auto with xr|]. intros x x' Hx.
  eapply rrel_bind; [apply xs_np_div; auto with xr|]. intros u u' Hu.
  eapply rrel_bind; [apply xs_pow; auto with xr|]. intros y y' Hy.
  eapply rrel_bind; [apply xs_pow; auto with xr|]. intros z z' Hz.
  eapply rrel_bind; [apply xs_pow; auto with xr|]. intros w w' Hw.
  apply rrel_ok. auto 12 with xr.
Qed.
Lemma xs_check_porosities : forall x y a b, reads x a -> reads y b ->
  sim (fun _ _ => True) (check_porosities x y) (x_check_porosities a b).
Proof.
  intros x y a b Ha Hb. unfold check_porosities, x_check_porosities.
  repeat (apply xs_guard; [auto with xr|auto with xr|]). apply xs_guard_last; assumption.
Qed.
Lemma xs_radius : forall kd x y a b, reads x a -> reads y b -> sim reads (cement_radius_ratio x y) (x_cement_radius_ratio kd a b).
Proof.
  intros kd x y a b Ha Hb. unfold cement_radius_ratio, x_cement_radius_ratio.
  eapply rrel_bind; [apply xs_check_porosities; assumption|]. intros _ _ _.
  eapply rrel_bind; [apply xs_np_div; auto with xr|]. intros q q' Hq.
  eapply rrel_bind; [apply xs_sqrt, Hq|]. intros r r' Hr. apply rrel_ok. rewrite (Rmax_right 0 1) by lra. auto with xr.
Qed.
Lemma xs_contact : forall kc km kp c m phi phs s n c' m' a b d e, reads_material c c' -> reads_material m m' ->
  reads phi a -> reads phs b -> reads s d -> reads n e ->
  sim reads_material (contact_cement c m phi phs s n) (x_contact_cement kc km kp c' m' a b d e).
Proof.
  intros kc km kp c m phi phs s n c' m' a b d e Hc Hm Ha Hb Hd He.
  pose proof Hc as (C1 & C2 & C3 & _). pose proof Hm as (M1 & M2 & M3 & _). pose proof (reads_wave c c' Hc) as W.
  unfold contact_cement, x_contact_cement. cbv zeta.
  eapply rrel_bind; [apply xs_check_porosities; assumption|]. intros _ _ _.
  eapply rrel_bind; [apply xs_radius; assumption|]. intros al al' Hal.
  eapply rrel_bind; [apply xs_poisson, Hm|]. intros nu nu' Hnu.
  eapply rrel_bind; [apply xs_shear_stiffness; eassumption|]. intros st st' Hst.
  eapply rrel_bind; [apply xs_poisson, Hc|]. intros nc nc' Hnc.
  eapply rrel_bind; [apply xs_normal_stiffness; eassumption|]. intros sn sn' Hsn.
  apply xs_of_moduli; auto 15 with xr.
Qed.
Lemma xs_constant : forall ks kc kp sd c phi phc phs n s sd' c' a b d e g, reads_material sd sd' -> reads_material c c' ->
  reads phi a -> reads phc b -> reads phs d -> reads n e -> reads s g ->
  sim reads_material (constant_cement sd c phi phc phs n s) (x_constant_cement ks kc kp sd' c' a b d e g).
Proof.
  intros ks kc kp sd c phi phc phs n s sd' c' a b d e g Hs Hc Ha Hb Hd He Hg. unfold constant_cement, x_constant_cement. cbv zeta.
  eapply rrel_bind; [apply xs_walpole; auto with xr|]. intros x x' Hx.
  eapply rrel_bind; [apply xs_contact; eassumption|]. intros y y' Hy.
  eapply rrel_bind; [apply xs_np_div; eassumption|]. intros r r' Hr. apply xs_walpole; auto with xr.
Qed.
Lemma reads_weight : forall x y z a b c, reads x a -> reads y b -> reads z c -> reads (patchy_weight x y z) (x_patchy_weight a b c).
Proof.
  intros x y z a b c Ha Hb Hc. unfold patchy_weight, x_patchy_weight. cbv zeta. rewrite Rmin_comm.
  apply reads_min; [|auto with xr]. apply reads_max; [|auto with xr].
  rewrite (reads_eqb z y c b Hc Hb). destruct (Req_EM_T z y); [auto with xr|]. apply reads_div; auto with xr. lra.
Qed.
Lemma xs_patchy : forall ks kc kp sd c phi phc phu p pl phs s nf nc sd' c' a b d e g h i j k,
  reads_material sd sd' -> reads_material c c' ->
  reads phi a -> reads phc b -> reads phu d -> reads p e -> reads pl g -> reads phs h -> reads s i -> reads nf j -> reads nc k ->
  sim reads_material (patchy_cement sd c phi phc phu p pl phs s nf nc) (x_patchy_cement ks kc kp sd' c' a b d e g h i j k).
Proof.
  intros ks kc kp sd c phi phc phu p pl phs s nf nc sd' c' a b d e g h i j k Hs Hc Ha Hb Hd He Hg Hh Hi Hj Hk.
  pose proof Hc as (C1 & C2 & C3 & _). pose proof Hs as (M1 & M2 & M3 & _).
  unfold patchy_cement, x_patchy_cement. cbv zeta.
  eapply rrel_bind; [apply xs_walpole; auto with xr|]. intros x x' Hx.
  eapply rrel_bind; [apply xs_friable; eassumption|]. intros f f' (F1 & F2 & _).
  eapply rrel_bind; [apply xs_friable; eassumption|]. intros l l' (L1 & L2 & _).
  eapply rrel_bind; [apply xs_constant; eassumption|]. intros u u' (U1 & U2 & _).
  eapply rrel_bind; [apply xs_contact; eassumption|]. intros t t' Ht.
  eapply rrel_bind; [apply xs_np_div; eassumption|]. intros r r' Hr.
  eapply rrel_bind; [apply xs_walpole; auto with xr|]. intros y y' (Y1 & Y2 & _).
  pose proof (reads_weight _ _ _ _ _ _ Y1 L1 U1). pose proof (reads_weight _ _ _ _ _ _ Y2 L2 U2).
  apply xs_of_moduli; auto 10 with xr.
Qed.

(** ** Where nothing finite comes out. *)
Lemma xadd_nan : forall a, (a + XNan)%xnum = XNan.
Proof. destruct a; reflexivity. Qed.
Lemma xmul_nan : forall a, (a * XNan)%xnum = XNan.
Proof. destruct a; reflexivity. Qed.
Lemma xdiv_nan : forall a, (a / XNan)%xnum = XNan.
Proof. destruct a; reflexivity. Qed.
Lemma xsub_nan : forall a, (a - XNan)%xnum = XNan.
Proof. destruct a; reflexivity. Qed.
Definition not_finite (a : xnum) : Prop := a = XNan \/ exists s, a = XInf s.
Lemma zero_times : forall a b, reads 0 a -> not_finite b -> (a * b)%xnum = XNan.
Proof.
  intros a b Ha [->|[s ->]]; [apply xmul_nan|]. pose proof (reads_zero 0 a Ha) as Z. destruct (Req_EM_T 0 0); [|lra].
  destruct Ha as [->|[-> _]]; cbn [xmul]; rewrite Z; reflexivity.
Qed.
Lemma times_zero : forall a b, reads 0 a -> not_finite b -> (b * a)%xnum = XNan.
Proof.
  intros a b Ha [->|[s ->]]; [reflexivity|]. pose proof (reads_zero 0 a Ha) as Z. destruct (Req_EM_T 0 0); [|lra].
  destruct Ha as [->|[-> _]]; cbn [xmul]; rewrite Z; reflexivity.
Qed.
Lemma not_finite_times : forall x a b, reads x a -> x <> 0 -> not_finite b -> not_finite (a * b)%xnum.
Proof.
  intros x a b Ha N [->|[s ->]]; [left; apply xmul_nan|]. destruct Ha as [->|[-> ->]]; [|contradiction].
  right. cbn [xmul]. assert (Z : xzero (XFin x) = false) by (cbn; destruct (Req_EM_T x 0); [contradiction|reflexivity]).
  rewrite Z. eauto.
Qed.
Lemma times_not_finite : forall x a b, reads x a -> x <> 0 -> not_finite b -> not_finite (b * a)%xnum.
Proof.
  intros x a b Ha N [->|[s ->]]; [left; reflexivity|]. destruct Ha as [->|[-> ->]]; [|contradiction].
  right. cbn [xmul]. assert (Z : xzero (XFin x) = false) by (cbn; destruct (Req_EM_T x 0); [contradiction|reflexivity]).
  rewrite Z. eauto.
Qed.
Lemma not_finite_over : forall x a b, reads x a -> not_finite b -> not_finite (b / a)%xnum.
Proof. intros x a b Ha [->|[s ->]]; [left; reflexivity|]. destruct Ha as [->|[-> ->]]; right; cbn [xdiv]; eauto. Qed.
Lemma over_zero : forall x a b, reads x a -> reads 0 b -> not_finite (a / b)%xnum.
Proof.
  intros x a b [->|[-> ->]] [->|[-> _]]; cbn [xdiv xval]; (destruct (Req_EM_T 0 0); [|lra]);
    (destruct (Req_EM_T _ 0); [left; reflexivity|right; eauto]) || (left; reflexivity).
Qed.
Lemma not_finite_add : forall a b, not_finite a -> not_finite (a + b)%xnum.
Proof.
  intros a b [->|[s ->]]; [left; reflexivity|]. destruct b as [y| |t|]; cbn [xadd]; try (right; eauto; fail); [|left; reflexivity].
  destruct (Bool.eqb s t); [right; eauto|left; reflexivity].
Qed.
Lemma third_power : forall a, not_finite a -> not_finite (x_pow a (1 / 3)).
Proof.
  intros a H. unfold x_pow. destruct (Req_EM_T (1 / 3) 0); [lra|]. destruct H as [->|[s ->]]; [left; reflexivity|].
  destruct (Rlt_dec 0 (1 / 3)); [right; eauto|lra].
Qed.
Lemma x_div_numpy : forall kd a b, kd <> Python -> x_div kd a b = Ok (a / b)%xnum.
Proof. intros [] a b H; [congruence|reflexivity..]. Qed.
Lemma x_power_numpy : forall kd a y, kd <> Python -> x_power kd a y = Ok (x_pow a y).
Proof. intros [] a b H; [congruence|reflexivity..]. Qed.
Lemma x_div_nonzero : forall kd x y a b, reads x a -> reads y b -> y <> 0 -> exists q, x_div kd a b = Ok q /\ reads (x / y) q.
Proof.
  intros kd x y a b Ha Hb N. pose proof (xs_np_div kd x y a b Ha Hb) as H. unfold np_div in H.
  destruct (Req_EM_T y 0); [contradiction|]. destruct (x_div kd a b) as [q|e]; [|contradiction]. exists q. split; [reflexivity|exact H].
Qed.
Lemma join_python : forall a b, join a b = Python -> a = Python /\ b = Python.
Proof. intros [] []; cbn; intros; try discriminate; auto. Qed.
Lemma calculated_numpy : forall a, calculated a <> Python.
Proof. intros []; discriminate. Qed.

Lemma poisson_reads : forall kd m, 0 < bulk m -> 0 <= shear m -> exists v a, x_poisson_ratio kd (x_of m) = Ok a /\ reads v a /\ v <= 1 / 2.
Proof.
  intros kd m K M. destruct (x_div_nonzero kd (3 * bulk m - 2 * shear m) (2 * (3 * bulk m + shear m))
    (XFin 3 * XFin (bulk m) - XFin 2 * XFin (shear m))%xnum (XFin 2 * (XFin 3 * XFin (bulk m) + XFin (shear m)))%xnum) as (q & E & Q);
    [auto with xr|auto with xr|lra|].
  exists ((3 * bulk m - 2 * shear m) / (2 * (3 * bulk m + shear m))), q. split; [exact E|]. split; [exact Q|].
  apply (Rmult_le_reg_r (2 * (3 * bulk m + shear m))); [lra|]. unfold Rdiv. rewrite Rmult_assoc, Rinv_l by lra. lra.
Qed.

(** A packing of grains that cannot be divided by. *)
Lemma pack_nan : forall km kp m phc p n s, join km kp <> Python -> 0 < bulk m -> 0 <= shear m -> 0 <= dens m -> phc <= 1 ->
  n * (1 - phc) * shear m = 0 ->
  exists r, x_hertz_mindlin km kp (x_of m) (XFin phc) (XFin p) (XFin s) (XFin n) = Ok r /\ x_bulk r = XNan /\ x_shear r = XNan /\
    reads (dens m * (1 - phc)) (x_dens r).
Proof.
  intros km kp m phc p n s J K M D C Z. unfold x_hertz_mindlin. cbv zeta.
  destruct (poisson_reads km m K M) as (v & a & Ev & Rv & V). rewrite Ev. cbn [bind]. cbn [x_of x_shear x_dens].
  rewrite x_div_numpy by exact J. cbn [bind].
  assert (R0 : reads 0 (XFin 2 * XFin n * (XFin 1 - XFin phc) * XFin (shear m))%xnum).
  { replace 0 with (2 * n * (1 - phc) * shear m) by (replace 0 with (2 * (n * (1 - phc) * shear m)) by (rewrite Z; ring); ring). auto with xr. }
  assert (Q : not_finite (XFin (3 * PI) * (XFin 1 - a) * XFin p / (XFin 2 * XFin n * (XFin 1 - XFin phc) * XFin (shear m)))%xnum).
  { apply (over_zero (3 * PI * (1 - v) * p)); [auto with xr|exact R0]. }
  rewrite x_power_numpy by exact J. cbn [bind]. apply third_power in Q. revert Q. generalize (x_pow
    (XFin (3 * PI) * (XFin 1 - a) * XFin p / (XFin 2 * XFin n * (XFin 1 - XFin phc) * XFin (shear m)))%xnum (1 / 3)). intros w W.
  rewrite !x_div_numpy by exact J. cbn [bind].
  assert (N4 : not_finite (XFin 4 * w)%xnum) by (apply (not_finite_times 4); [apply reads_fin|lra|exact W]).
  assert (SN : not_finite (XFin 4 * w * XFin (shear m) / (XFin 1 - a))%xnum).
  { apply (not_finite_over (1 - v)); [auto with xr|]. destruct (Req_EM_T (shear m) 0) as [E|N].
    - left. apply times_zero; [rewrite E; apply reads_fin|exact N4].
    - apply (times_not_finite (shear m)); [apply reads_fin|exact N|exact N4]. }
  assert (H : forall c x, 0 < c -> not_finite x ->
     (shear m = 0 -> x = XNan) -> (XFin n * (XFin 1 - XFin phc) / XFin (c * PI) * x)%xnum = XNan).
  { intros c x Hc Hx H0. destruct (Req_EM_T (shear m) 0) as [E|N].
    - rewrite (H0 E). apply xmul_nan.
    - apply zero_times; [|exact Hx]. assert (E : n * (1 - phc) = 0) by (apply Rmult_integral in Z; destruct Z; [assumption|contradiction]).
      replace 0 with (n * (1 - phc) / (c * PI)) by (rewrite E; unfold Rdiv; ring).
      apply reads_div; auto with xr. apply pi_mult, Hc. }
  assert (SN0 : shear m = 0 -> (XFin 4 * w * XFin (shear m) / (XFin 1 - a))%xnum = XNan).
  { intros E. rewrite (times_zero (XFin (shear m)) _ (eq_ind_r (fun z => reads 0 (XFin z)) (reads_fin 0) E) N4). reflexivity. }
  rewrite (H 12 _ ltac:(lra) SN SN0).
  rewrite (H 20); [|lra|apply not_finite_add, SN|intros E; rewrite (SN0 E); reflexivity].
  assert (RD : reads (dens m * (1 - phc)) (XFin (dens m) * (XFin 1 - XFin phc))%xnum) by auto with xr.
  destruct (inf_accepted (join km kp) XNan XNan (XFin (dens m) * (XFin 1 - XFin phc))%xnum (or_introl J)) as [A _].
  destruct A as (r & E & B & S' & D').
  { split; [exact (fun x => x)|]. split; [exact (fun x => x)|]. destruct RD as [->|[-> _]]; cbn [below_zero]; [|tauto].
    apply Rle_not_lt, Rmult_le_pos; lra. }
  exists r. rewrite D'. auto.
Qed.
(** A bound with a material of nan. *)
Ltac nan := rewrite ?xadd_nan, ?xmul_nan, ?xdiv_nan, ?xsub_nan; cbn [xadd xsub xmul xdiv xzero xval x_div bind xmin xmax].
Lemma calc_bulk_nan : forall k f1 f2, x_calc_bulk_modulus (XFin k) XNan XNan f1 f2 = Ok XNan.
Proof. intros k f1 f2. unfold x_calc_bulk_modulus. cbn [xeqb]. nan. nan. nan. reflexivity. Qed.
Lemma calc_shear_nan : forall mu f1 f2, x_calc_shear_modulus (XFin mu) XNan XNan XNan f1 f2 = Ok XNan.
Proof. intros mu f1 f2. unfold x_calc_shear_modulus. cbn [xeqb]. nan. nan. nan. reflexivity. Qed.
Lemma walpole_nan : forall kd m r f a, reads f a -> 0 <= f <= 1 -> 0 <= dens m ->
  x_bulk r = XNan -> x_shear r = XNan -> forall e, reads e (x_dens r) -> 0 <= e ->
  exists s, x_hashin_shtrikman_walpole kd (x_of m) r a "lower" = Ok s /\ x_bulk s = XNan /\ x_shear s = XNan /\
    reads (f * dens m + (1 - f) * e) (x_dens s).
Proof.
  intros kd m r f a Ha F D B S' e He E. unfold x_hashin_shtrikman_walpole.
  assert (C : x_check_is_ratio a = Ok tt).
  { unfold x_check_is_ratio. rewrite (reads_ltb _ _ _ _ (reads_fin _) Ha), (reads_ltb _ _ _ _ Ha (reads_fin _)).
    destruct (Rlt_dec _ f); [lra|]. destruct (Rlt_dec f _); [lra|]. reflexivity. }
  rewrite C. cbn [bind String.eqb Ascii.eqb Bool.eqb orb negb]. cbv zeta. rewrite B, S'. cbn [x_of x_bulk x_shear x_dens xmin].
  rewrite calc_bulk_nan, calc_shear_nan. cbn [bind].
  assert (RD : reads (f * dens m + (1 - f) * e) (x_calc_density (XFin (dens m)) (x_dens r) a (XFin 1 - a)%xnum)).
  { unfold x_calc_density. rewrite (reads_eqb _ _ _ _ (reads_fin (dens m)) He). destruct (Req_EM_T (dens m) e) as [<-|]; [|auto with xr].
    replace (f * dens m + (1 - f) * dens m) with (dens m) by ring. exact He. }
  destruct (inf_accepted (calculated kd) XNan XNan (x_calc_density (XFin (dens m)) (x_dens r) a (XFin 1 - a)%xnum)
    (or_introl (calculated_numpy kd))) as [A _].
  destruct A as (s & Es & Bs & Ss & Ds).
  { split; [exact (fun x => x)|]. split; [exact (fun x => x)|]. destruct RD as [->|[-> _]]; cbn [below_zero]; [|tauto].
    apply Rle_not_lt. assert (0 <= f * dens m) by (apply Rmult_le_pos; lra). assert (0 <= (1 - f) * e) by (apply Rmult_le_pos; lra). lra. }
  exists s. rewrite Ds. auto.
Qed.
Lemma friable_nan : forall km kp m phi phc p n s, join km kp <> Python -> 0 < bulk m -> 0 <= shear m -> 0 <= dens m ->
  0 < phc <= 1 -> 0 <= phi <= phc -> n * (1 - phc) * shear m = 0 ->
  exists r, x_friable_sand km kp (x_of m) (XFin phi) (XFin phc) (XFin p) (XFin n) (XFin s) = Ok r /\
    x_bulk r = XNan /\ x_shear r = XNan /\ reads (dens m * (1 - phi)) (x_dens r).
Proof.
  intros km kp m phi phc p n s J K M D C P Z. unfold x_friable_sand.
  destruct (pack_nan km kp m phc p n s J K M D ltac:(lra) Z) as (g & E & B & S' & G). rewrite E. cbn [bind].
  destruct (x_div_nonzero kp phi phc (XFin phi) (XFin phc)) as (q & Eq & Q); [auto with xr..|lra|]. rewrite Eq. cbn [bind].
  assert (F : 0 <= phi / phc <= 1).
  { split; [apply Rle_mult_inv_pos; lra|]. apply (Rmult_le_reg_r phc); [lra|]. unfold Rdiv. rewrite Rmult_assoc, Rinv_l by lra. lra. }
  destruct (walpole_nan (join km kp) m g (1 - phi / phc) (XFin 1 - q)%xnum) with (e := dens m * (1 - phc)) as (r & Er & Br & Sr & Dr);
    [auto with xr|lra|exact D|exact B|exact S'|exact G|apply Rmult_le_pos; lra|].
  exists r. repeat (split; [assumption|]).
  replace (dens m * (1 - phi)) with ((1 - phi / phc) * dens m + (1 - (1 - phi / phc)) * (dens m * (1 - phc))) by (field; lra). exact Dr.
Qed.
Lemma pack_python : forall m phc p n s, 0 < bulk m -> 0 <= shear m -> n * (1 - phc) * shear m = 0 ->
  x_hertz_mindlin Python Python (x_of m) (XFin phc) (XFin p) (XFin s) (XFin n) = Err ZeroDivisionError.
Proof.
  intros m phc p n s K M Z. unfold x_hertz_mindlin. cbv zeta. cbn [join].
  destruct (poisson_reads Python m K M) as (v & a & Ev & Rv & V). rewrite Ev. cbn [bind]. cbn [x_of x_shear x_dens].
  assert (R0 : reads 0 (XFin 2 * XFin n * (XFin 1 - XFin phc) * XFin (shear m))%xnum).
  { replace 0 with (2 * n * (1 - phc) * shear m) by (replace 0 with (2 * (n * (1 - phc) * shear m)) by (rewrite Z; ring); ring). auto with xr. }
  unfold x_div. rewrite (reads_zero 0 _ R0). destruct (Req_EM_T 0 0); [reflexivity|lra].
Qed.
Lemma saturated_nan : forall kd m f r phi, kd <> Python -> x_bulk r = XNan -> x_shear r = XNan -> 0 < phi <= 1 -> 0 < dens f ->
  0 < bulk f < bulk m -> forall e, reads e (x_dens r) -> 0 <= e ->
  exists s, x_fluid_substitution kd r (x_of m) (x_of f) (XFin phi) = Ok s /\ x_bulk s = XNan /\ x_shear s = XNan /\
    reads (e + phi * dens f) (x_dens s).
Proof.
  intros kd m f r phi N B S' P Df F e He E. unfold x_fluid_substitution, x_gassman_equation. rewrite B, S'.
  cbn [x_of x_bulk x_shear x_dens].
  assert (Z : xeqb (XFin phi) (XFin 0) = false) by (cbn; destruct (Req_EM_T phi 0); [lra|reflexivity]). rewrite Z.
  cbn [xeqb].
  destruct (x_div_nonzero Python (bulk f) ((bulk m - bulk f) * phi) (XFin (bulk f)) ((XFin (bulk m) - XFin (bulk f)) * XFin phi)%xnum)
    as (q & Eq & Q); [auto with xr..| |].
  { intros H. apply Rmult_integral in H. lra. }
  nan. unfold x_div in Eq. destruct (xzero _); [discriminate|]. injection Eq as Eq.
  cbn [bind]. nan. cbn [xltb]. nan.
  assert (RD : reads (e + phi * dens f) (x_dens r + XFin phi * XFin (dens f))%xnum) by auto with xr.
  destruct (inf_accepted kd XNan XNan (x_dens r + XFin phi * XFin (dens f))%xnum (or_introl N)) as [A _].
  destruct A as (s & Es & Bs & Ss & Ds).
  { split; [exact (fun x => x)|]. split; [exact (fun x => x)|]. destruct RD as [->|[-> _]]; cbn [below_zero]; [|tauto].
    apply Rle_not_lt. assert (0 <= phi * dens f) by (apply Rmult_le_pos; lra). lra. }
  exists s. rewrite Ds. auto.
Qed.

(** The classical bound where the first material has no shear modulus. *)
Lemma check_ratio_ok : forall f a, reads f a -> 0 <= f <= 1 -> x_check_is_ratio a = Ok tt.
Proof.
  intros f a Ha F. unfold x_check_is_ratio. rewrite (reads_ltb _ _ _ _ (reads_fin _) Ha), (reads_ltb _ _ _ _ Ha (reads_fin _)).
  destruct (Rlt_dec _ f); [lra|]. destruct (Rlt_dec f _); [lra|]. reflexivity.
Qed.
Lemma reads_not_below : forall x a, reads x a -> 0 <= x -> ~ below_zero a.
Proof. intros x a [->|[-> _]] H; cbn [below_zero]; [lra|tauto]. Qed.
Lemma signed_inf : forall x b, 0 < x -> reads 0 b -> (XFin x / b)%xnum = XInf (xsign b).
Proof.
  intros x b Hx [->|[-> _]]; cbn [xdiv xval xsign]; dec; reflexivity.
Qed.
Lemma bound_bulk : forall kd m1 m2 f, 0 < bulk m1 -> 0 < bulk m2 -> shear m1 = 0 -> 0 <= f <= 1 ->
  exists i q, x_div kd (XFin 1) (XFin (bulk m1) + XFin (4 / 3) * XFin (shear m1))%xnum = Ok i /\
    x_div kd ((XFin 1 - XFin f) * (XFin (bulk m2) - XFin (bulk m1)))%xnum
      (XFin 1 + (XFin (bulk m2) - XFin (bulk m1)) * XFin f * i)%xnum = Ok q /\
    reads (1 / (f / bulk m1 + (1 - f) / bulk m2)) (XFin (bulk m1) + q)%xnum /\ 0 < f / bulk m1 + (1 - f) / bulk m2.
Proof.
  intros kd m1 m2 f K1 K2 Z F.
  assert (P : 0 < f / bulk m1 + (1 - f) / bulk m2).
  { assert (0 < / bulk m1) by (apply Rinv_0_lt_compat; lra). assert (0 < / bulk m2) by (apply Rinv_0_lt_compat; lra). unfold Rdiv.
    assert (0 <= f * / bulk m1) by (apply Rmult_le_pos; lra). assert (0 <= (1 - f) * / bulk m2) by (apply Rmult_le_pos; lra).
    destruct (Req_EM_T f 0) as [->|]; [lra|]. assert (0 < f * / bulk m1) by (apply Rmult_lt_0_compat; lra). lra. }
  destruct (x_div_nonzero kd 1 (bulk m1 + 4 / 3 * shear m1) (XFin 1) (XFin (bulk m1) + XFin (4 / 3) * XFin (shear m1))%xnum)
    as (i & Ei & Hi); [auto with xr..|rewrite Z; lra|].
  assert (G : 1 + (bulk m2 - bulk m1) * f * (1 / (bulk m1 + 4 / 3 * shear m1)) = bulk m2 * (f / bulk m1 + (1 - f) / bulk m2)).
  { rewrite Z. field. lra. }
  destruct (x_div_nonzero kd ((1 - f) * (bulk m2 - bulk m1)) (1 + (bulk m2 - bulk m1) * f * (1 / (bulk m1 + 4 / 3 * shear m1)))
    ((XFin 1 - XFin f) * (XFin (bulk m2) - XFin (bulk m1)))%xnum
    (XFin 1 + (XFin (bulk m2) - XFin (bulk m1)) * XFin f * i)%xnum) as (q & Eq & Hq); [auto 10 with xr..| |].
  { rewrite G. intros H. apply Rmult_integral in H. lra. }
  exists i, q. split; [exact Ei|]. split; [exact Eq|]. split; [|exact P].
  replace (1 / (f / bulk m1 + (1 - f) / bulk m2)) with
    (bulk m1 + (1 - f) * (bulk m2 - bulk m1) / (1 + (bulk m2 - bulk m1) * f * (1 / (bulk m1 + 4 / 3 * shear m1)))); [auto with xr|].
  rewrite G. assert (H : f * bulk m2 + (1 - f) * bulk m1 <> 0).
  { replace (f * bulk m2 + (1 - f) * bulk m1) with (bulk m1 * bulk m2 * (f / bulk m1 + (1 - f) / bulk m2)) by (field; lra).
    assert (0 < bulk m1 * bulk m2) by (apply Rmult_lt_0_compat; lra).
    pose proof (Rmult_lt_0_compat _ _ H P). lra. }
  field. repeat split; lra.
Qed.
Lemma bound_suspension : forall kd m1 m2 f, kd <> Python -> 0 < bulk m1 -> 0 < bulk m2 -> shear m1 = 0 -> 0 < shear m2 -> 0 < f <= 1 ->
  0 <= dens m1 -> 0 <= dens m2 ->
  exists r, x_hashin_shtrikman_bound kd (x_of m1) (x_of m2) (XFin f) = Ok r /\
    reads (1 / (f / bulk m1 + (1 - f) / bulk m2)) (x_bulk r) /\ is_zero (x_shear r) /\
    reads (f * dens m1 + (1 - f) * dens m2) (x_dens r).
Proof.
  intros kd m1 m2 f N K1 K2 Z M2 F D1 D2. unfold x_hashin_shtrikman_bound. rewrite (check_ratio_ok f) by (auto with xr; lra).
  cbn [bind]. cbv zeta. cbn [x_of x_bulk x_shear x_dens].
  destruct (bound_bulk kd m1 m2 f K1 K2 Z ltac:(lra)) as (i & q & Ei & Eq & Hk & P). rewrite Ei. cbn [bind]. rewrite Eq. cbn [bind].
  rewrite x_div_numpy by exact N. cbn [bind]. rewrite x_div_numpy by exact N. cbn [bind].
  assert (Num : reads (2 * (shear m2 - shear m1) * f * (bulk m1 + 2 * shear m1))
    (XFin 2 * (XFin (shear m2) - XFin (shear m1)) * XFin f * (XFin (bulk m1) + XFin 2 * XFin (shear m1)))%xnum) by auto 10 with xr.
  assert (Den : reads 0 (XFin 5 * XFin (shear m1) * (XFin (bulk m1) + XFin (4 / 3) * XFin (shear m1)))%xnum).
  { replace 0 with (5 * shear m1 * (bulk m1 + 4 / 3 * shear m1)) by (rewrite Z; ring). auto 10 with xr. }
  assert (X : 0 < 2 * (shear m2 - shear m1) * f * (bulk m1 + 2 * shear m1)).
  { rewrite Z. repeat apply Rmult_lt_0_compat; lra. }
  rewrite (reads_nonzero _ _ Num) by lra. rewrite (signed_inf _ _ X Den). cbn [xadd].
  assert (T : reads 0 (XFin (shear m1) + (XFin 1 - XFin f) * (XFin (shear m2) - XFin (shear m1)) /
     XInf (xsign (XFin 5 * XFin (shear m1) * (XFin (bulk m1) + XFin (4 / 3) * XFin (shear m1)))))%xnum).
  { replace 0 with (shear m1 + 0) by (rewrite Z; ring). apply reads_add; [apply reads_fin|].
    assert (G : reads ((1 - f) * (shear m2 - shear m1)) ((XFin 1 - XFin f) * (XFin (shear m2) - XFin (shear m1)))%xnum) by auto with xr.
    destruct G as [->|[-> _]]; cbn [xdiv]; apply reads_signed. }
  assert (RD : reads (f * dens m1 + (1 - f) * dens m2) (XFin f * XFin (dens m1) + (XFin 1 - XFin f) * XFin (dens m2))%xnum) by auto with xr.
  match goal with |- context [x_material_of_moduli kd ?k ?mu ?d] => destruct (inf_accepted kd k mu d (or_introl N)) as [A _] end.
  destruct A as (r & Er & Br & Sr & Dr).
  { split; [eapply reads_not_below; [exact Hk|]|split; [eapply reads_not_below; [exact T|lra]|eapply reads_not_below; [exact RD|]]].
    - left. unfold Rdiv at 1. rewrite Rmult_1_l. apply Rinv_0_lt_compat, P.
    - assert (0 <= f * dens m1) by (apply Rmult_le_pos; lra). assert (0 <= (1 - f) * dens m2) by (apply Rmult_le_pos; lra). lra. }
  exists r. rewrite Br, Sr, Dr. auto.
Qed.
Lemma bound_nan : forall kd m1 m2 f, kd <> Python -> 0 < bulk m1 -> 0 < bulk m2 -> shear m1 = 0 -> 0 <= shear m2 -> 0 <= f <= 1 ->
  f = 0 \/ shear m2 = 0 -> 0 <= dens m1 -> 0 <= dens m2 ->
  exists r, x_hashin_shtrikman_bound kd (x_of m1) (x_of m2) (XFin f) = Ok r /\
    reads (1 / (f / bulk m1 + (1 - f) / bulk m2)) (x_bulk r) /\ x_shear r = XNan /\
    reads (f * dens m1 + (1 - f) * dens m2) (x_dens r) /\ x_vp r = XNan /\ x_vs r = XNan.
Proof.
  intros kd m1 m2 f N K1 K2 Z M2 F C D1 D2. unfold x_hashin_shtrikman_bound. rewrite (check_ratio_ok f) by (auto with xr; lra).
  cbn [bind]. cbv zeta. cbn [x_of x_bulk x_shear x_dens].
  destruct (bound_bulk kd m1 m2 f K1 K2 Z ltac:(lra)) as (i & q & Ei & Eq & Hk & P). rewrite Ei. cbn [bind]. rewrite Eq. cbn [bind].
  rewrite x_div_numpy by exact N. cbn [bind]. rewrite x_div_numpy by exact N. cbn [bind].
  assert (Num : reads 0
    (XFin 2 * (XFin (shear m2) - XFin (shear m1)) * XFin f * (XFin (bulk m1) + XFin 2 * XFin (shear m1)))%xnum).
  { replace 0 with (2 * (shear m2 - shear m1) * f * (bulk m1 + 2 * shear m1)) by (rewrite Z; destruct C as [-> | ->]; ring). auto 10 with xr. }
  assert (Den : reads 0 (XFin 5 * XFin (shear m1) * (XFin (bulk m1) + XFin (4 / 3) * XFin (shear m1)))%xnum).
  { replace 0 with (5 * shear m1 * (bulk m1 + 4 / 3 * shear m1)) by (rewrite Z; ring). auto 10 with xr. }
  assert (Q : forall a b, reads 0 a -> reads 0 b -> (a / b)%xnum = XNan).
  { intros a b [->|[-> _]] [->|[-> _]]; cbn [xdiv xval]; dec; reflexivity. }
  rewrite (Q _ _ Num Den). cbn [xadd]. rewrite xdiv_nan. cbn [xadd].
  assert (RD : reads (f * dens m1 + (1 - f) * dens m2) (XFin f * XFin (dens m1) + (XFin 1 - XFin f) * XFin (dens m2))%xnum) by auto with xr.
  destruct (inf_accepted kd (XFin (bulk m1) + q)%xnum XNan (XFin f * XFin (dens m1) + (XFin 1 - XFin f) * XFin (dens m2))%xnum (or_introl N)) as [A _].
  destruct A as (r & Er & Br & Sr & Dr).
  { split; [eapply reads_not_below; [exact Hk|]|split; [exact (fun x => x)|eapply reads_not_below; [exact RD|]]].
    - left. unfold Rdiv at 1. rewrite Rmult_1_l. apply Rinv_0_lt_compat, P.
    - assert (0 <= f * dens m1) by (apply Rmult_le_pos; lra). assert (0 <= (1 - f) * dens m2) by (apply Rmult_le_pos; lra). lra. }
  exists r. rewrite Br, Sr, Dr. split; [exact Er|]. split; [exact Hk|]. split; [reflexivity|]. split; [exact RD|].
  destruct (x_material_inv _ _ _ _ _ Er) as [V W]. unfold x_primary_velocity, x_secondary_velocity in V, W.
  rewrite x_div_numpy in V by exact N. rewrite x_div_numpy in W by exact N. cbn [bind] in V, W.
  rewrite xmul_nan, xadd_nan in V. cbn [xdiv x_root] in V, W. split; congruence.
Qed.
Lemma bound_python : forall m1 m2 f, 0 < bulk m1 -> 0 < bulk m2 -> shear m1 = 0 -> 0 <= f <= 1 ->
  x_hashin_shtrikman_bound Python (x_of m1) (x_of m2) (XFin f) = Err ZeroDivisionError.
Proof.
  intros m1 m2 f K1 K2 Z F. unfold x_hashin_shtrikman_bound. rewrite (check_ratio_ok f) by (auto with xr; lra).
  cbn [bind]. cbv zeta. cbn [x_of x_bulk x_shear x_dens].
  destruct (bound_bulk Python m1 m2 f K1 K2 Z F) as (i & q & Ei & Eq & Hk & P). rewrite Ei. cbn [bind]. rewrite Eq. cbn [bind].
  assert (Den : reads 0 (XFin 5 * XFin (shear m1) * (XFin (bulk m1) + XFin (4 / 3) * XFin (shear m1)))%xnum).
  { replace 0 with (5 * shear m1 * (bulk m1 + 4 / 3 * shear m1)) by (rewrite Z; ring). auto 10 with xr. }
  unfold x_div at 1. rewrite (reads_zero 0 _ Den). destruct (Req_EM_T 0 0); [reflexivity|lra].
Qed.

(** Contact cement between grains without shear modulus. *)
Lemma reads_is : forall x y a, reads x a -> x = y -> reads y a.
Proof. intros x y a H <-. exact H. Qed.
Ltac xrd := repeat first [eassumption | apply reads_fin | apply reads_sub | apply reads_add | apply reads_square | apply reads_mul].
Lemma pow_inf_neg : forall s y, y < 0 -> reads 0 (x_pow (XInf s) y).
Proof. intros s y H. unfold x_pow. dec. destruct (andb s (odd y)); unfold reads; auto. Qed.
Lemma power_num_inf_neg : forall kd s y b, kd <> Python -> reads y b -> y < 0 -> exists z, x_power_num kd (XInf s) b = Ok z /\ reads 0 z.
Proof.
  intros kd s y b N Hb Y. unfold x_power_num. apply reads_val in Hb. rewrite Hb, x_power_numpy by exact N.
  eexists. split; [reflexivity|apply pow_inf_neg, Y].
Qed.
Lemma poisson_half : forall kd m, 0 < bulk m -> shear m = 0 -> x_poisson_ratio kd (x_of m) = Ok (XFin (1 / 2)).
Proof.
  intros kd m K Z. destruct (x_div_nonzero kd (3 * bulk m - 2 * shear m) (2 * (3 * bulk m + shear m))
    (XFin 3 * XFin (bulk m) - XFin 2 * XFin (shear m))%xnum (XFin 2 * (XFin 3 * XFin (bulk m) + XFin (shear m)))%xnum) as (q & E & Q);
    [auto with xr|auto with xr|lra|].
  replace ((3 * bulk m - 2 * shear m) / (2 * (3 * bulk m + shear m))) with (1 / 2) in Q by (rewrite Z; field; lra).
  rewrite (reads_nonzero _ _ Q) in E by lra. exact E.
Qed.
Lemma poisson_less : forall kd m, 0 < bulk m -> 0 < shear m -> exists v a, x_poisson_ratio kd (x_of m) = Ok a /\ reads v a /\ v < 1 / 2.
Proof.
  intros kd m K M. destruct (x_div_nonzero kd (3 * bulk m - 2 * shear m) (2 * (3 * bulk m + shear m))
    (XFin 3 * XFin (bulk m) - XFin 2 * XFin (shear m))%xnum (XFin 2 * (XFin 3 * XFin (bulk m) + XFin (shear m)))%xnum) as (q & E & Q);
    [auto with xr|auto with xr|lra|].
  exists ((3 * bulk m - 2 * shear m) / (2 * (3 * bulk m + shear m))), q. split; [exact E|]. split; [exact Q|].
  apply (Rmult_lt_reg_r (2 * (3 * bulk m + shear m))); [lra|]. unfold Rdiv. rewrite Rmult_assoc, Rinv_l by lra. lra.
Qed.
Lemma radius_reads : forall kp phc phs al, cement_radius_ratio phc phs = Ok al ->
  exists a, x_cement_radius_ratio kp (XFin phc) (XFin phs) = Ok a /\ reads al a.
Proof.
  intros kp phc phs al E. pose proof (xs_radius kp phc phs _ _ (reads_fin phc) (reads_fin phs)) as H. rewrite E in H.
  destruct (x_cement_radius_ratio kp (XFin phc) (XFin phs)) as [a|e]; [exists a; auto|contradiction].
Qed.
Lemma check_porosities_ok : forall phs phc, 0 <= phc <= phs -> phs <= 1 -> x_check_porosities (XFin phs) (XFin phc) = Ok tt.
Proof.
  intros phs phc H H1. unfold x_check_porosities. rewrite !(reads_ltb _ _ _ _ (reads_fin _) (reads_fin _)).
  do 5 (destruct (Rlt_dec _ _); [lra|]; cbn [guard bind]). reflexivity.
Qed.
Lemma contact_soft : forall kc km kp c m phc phs s n al, join kc km <> Python -> 0 < bulk c -> 0 < shear c -> 0 <= dens c ->
  0 < bulk m -> shear m = 0 -> 0 <= dens m -> cement_radius_ratio phc phs = Ok al -> 0 <= phc <= phs -> phs < 1 -> 0 <= al <= 1 ->
  exists r, x_contact_cement kc km kp (x_of c) (x_of m) (XFin phc) (XFin phs) (XFin s) (XFin n) = Ok r /\
    is_zero (x_bulk r) /\ is_zero (x_shear r) /\ reads ((1 - phc) * (al * dens c + (1 - al) * dens m)) (x_dens r).
Proof.
  intros kc km kp c m phc phs s n al J Kc Mc Dc Km Z Dm Eal P P1 Al. unfold x_contact_cement.
  rewrite check_porosities_ok by lra. cbn [bind].
  destruct (radius_reads kp phc phs al Eal) as (a & Ea & Ha). rewrite Ea. cbn [bind].
  rewrite (poisson_half km m Km Z). cbn [bind]. cbn [x_of x_shear x_dens].
  assert (Den : reads 0 (XFin PI * XFin (shear m))%xnum) by (replace 0 with (PI * shear m) by (rewrite Z; ring); auto with xr).
  assert (ST : exists st, x_shear_stiffness (join kc km) (XFin (shear c)) (XFin (shear m)) (XFin (1 / 2)) a = Ok st /\ reads 0 st).
  { unfold x_shear_stiffness. cbv zeta. rewrite x_div_numpy by exact J. cbn [bind]. rewrite (signed_inf _ _ Mc Den).
    assert (H2 : reads ((1 / 2) ^ 2) (xsquare (XFin (1 / 2)))) by auto with xr.
    destruct (power_num_inf_neg (join kc km) (xsign (XFin PI * XFin (shear m))) (79 / 1000 * (1 / 2) ^ 2 + 1754 / 10000 * (1 / 2) - 1342 / 1000)
      (XFin (79 / 1000) * xsquare (XFin (1 / 2)) + XFin (1754 / 10000) * XFin (1 / 2) - XFin (1342 / 1000))%xnum J) as (x & Ex & Hx); [auto with xr|lra|].
    destruct (power_num_inf_neg (join kc km) (xsign (XFin PI * XFin (shear m))) (274 / 10000 * (1 / 2) ^ 2 + 529 / 10000 * (1 / 2) - 8765 / 10000)
      (XFin (274 / 10000) * xsquare (XFin (1 / 2)) + XFin (529 / 10000) * XFin (1 / 2) - XFin (8765 / 10000))%xnum J) as (y & Ey & Hy); [auto with xr|lra|].
    destruct (power_num_inf_neg (join kc km) (xsign (XFin PI * XFin (shear m))) (1867 / 100000 * (1 / 2) ^ 2 + 4011 / 10000 * (1 / 2) - 18186 / 10000)
      (XFin (1867 / 100000) * xsquare (XFin (1 / 2)) + XFin (4011 / 10000) * XFin (1 / 2) - XFin (18186 / 10000))%xnum J) as (z & Ez & Hz); [auto with xr|lra|].
    rewrite Ex. cbn [bind]. rewrite Ey. cbn [bind]. rewrite Ez. cbn [bind]. eexists. split; [reflexivity|].
    eapply reads_is; [xrd|]. cbn [pow]. ring. }
  destruct ST as (st & Est & Hst). rewrite Est. cbn [bind].
  destruct (poisson_less kc c Kc Mc) as (vc & b & Eb & Hb & Vc). rewrite Eb. cbn [bind].
  assert (SN : exists sn, x_normal_stiffness (join kc km) (XFin (1 / 2)) b (XFin (shear c)) (XFin (shear m)) a = Ok sn /\ reads 0 sn).
  { unfold x_normal_stiffness. rewrite x_div_numpy by exact J. cbn [bind].
    assert (N2 : reads (2 * shear c) (XFin 2 * XFin (shear c))%xnum) by auto with xr.
    rewrite (reads_nonzero _ _ N2), (signed_inf _ _ (ltac:(lra) : 0 < 2 * shear c) Den) by lra.
    destruct (x_div_nonzero (join kc km) ((1 - 1 / 2) * (1 - vc)) (1 - 2 * vc) ((XFin 1 - XFin (1 / 2)) * (XFin 1 - b))%xnum
      (XFin 1 - XFin 2 * b)%xnum) as (w & Ew & Hw); [auto with xr..|lra|]. rewrite Ew. cbn [bind].
    assert (W : (1 - 1 / 2) * (1 - vc) / (1 - 2 * vc) <> 0).
    { assert (0 < (1 - 1 / 2) * (1 - vc) / (1 - 2 * vc)); [|lra]. unfold Rdiv at 1. apply Rmult_lt_0_compat; [|apply Rinv_0_lt_compat; lra].
      apply Rmult_lt_0_compat; lra. }
    assert (I : exists t, (XInf (xsign (XFin PI * XFin (shear m))) * w)%xnum = XInf t).
    { rewrite (reads_nonzero _ _ Hw W). cbn [xmul]. assert (X : forall x, x <> 0 -> xzero (XFin x) = false) by (intros; cbn; dec; reflexivity).
      rewrite X by exact W. eauto. }
    destruct I as (t & ->). cbv zeta. rewrite x_power_numpy by exact J. cbn [bind]. rewrite x_power_numpy by exact J. cbn [bind].
    rewrite x_power_numpy by exact J. cbn [bind]. eexists. split; [reflexivity|].
    pose proof (pow_inf_neg t (- (19864 / 10000)) ltac:(lra)). pose proof (pow_inf_neg t (- (89008 / 100000)) ltac:(lra)).
    pose proof (pow_inf_neg t (- (13646 / 10000)) ltac:(lra)).
    eapply reads_is; [xrd|]. cbn [pow]. ring. }
  destruct SN as (sn & Esn & Hsn). rewrite Esn. cbn [bind]. cbv zeta.
  assert (HW : reads (primary_wave_modulus c) (x_primary_wave_modulus (x_of c))) by (apply reads_wave; repeat split; apply reads_fin).
  assert (HK : reads 0 (XFin (1 / 6) * XFin n * (XFin 1 - XFin phs) * x_primary_wave_modulus (x_of c) * sn)%xnum).
  { eapply reads_is; [xrd|]. ring. }
  assert (HM : reads 0 (XFin (3 / 5) * (XFin (1 / 6) * XFin n * (XFin 1 - XFin phs) * x_primary_wave_modulus (x_of c) * sn)
     + XFin s * XFin (3 / 20) * XFin n * (XFin 1 - XFin phs) * XFin (shear c) * st)%xnum).
  { eapply reads_is; [xrd|]. ring. }
  assert (HD : reads ((1 - phc) * (al * dens c + (1 - al) * dens m))
     ((XFin 1 - XFin phc) * (a * XFin (dens c) + (XFin 1 - a) * XFin (dens m)))%xnum) by auto with xr.
  match goal with |- context [x_material_of_moduli ?kd ?k ?mu ?d] =>
    destruct (inf_accepted kd k mu d (or_introl (calculated_numpy _))) as [A _] end.
  destruct A as (r & Er & Br & Sr & Dr).
  { split; [eapply reads_not_below; [exact HK|lra]|]. split; [eapply reads_not_below; [exact HM|lra]|]. eapply reads_not_below; [exact HD|].
    apply Rmult_le_pos; [lra|]. assert (0 <= al * dens c) by (apply Rmult_le_pos; lra). assert (0 <= (1 - al) * dens m) by (apply Rmult_le_pos; lra). lra. }
  exists r. rewrite Br, Sr, Dr. auto.
Qed.

(** Contact cement without shear modulus. *)
Lemma power_num_ok : forall kd a b, kd <> Python -> exists z, x_power_num kd a b = Ok z.
Proof.
  intros kd a b N. unfold x_power_num. destruct (xval b); [rewrite x_power_numpy by exact N; eauto|]. destruct kd; [congruence|eauto..].
Qed.
Lemma contact_soft_cement : forall kc km kp c m phc phs s n al, join kc km <> Python -> 0 < bulk c -> shear c = 0 -> 0 <= dens c ->
  0 < bulk m -> 0 < shear m -> 0 <= dens m -> cement_radius_ratio phc phs = Ok al -> 0 <= phc <= phs -> phs < 1 -> 0 <= al <= 1 ->
  exists r, x_contact_cement kc km kp (x_of c) (x_of m) (XFin phc) (XFin phs) (XFin s) (XFin n) = Ok r /\
    x_bulk r = XNan /\ x_shear r = XNan /\ reads ((1 - phc) * (al * dens c + (1 - al) * dens m)) (x_dens r).
Proof.
  intros kc km kp c m phc phs s n al J Kc Z Dc Km Mm Dm Eal P P1 Al. unfold x_contact_cement.
  rewrite check_porosities_ok by lra. cbn [bind].
  destruct (radius_reads kp phc phs al Eal) as (a & Ea & Ha). rewrite Ea. cbn [bind].
  destruct (poisson_reads km m Km ltac:(lra)) as (v & b & Eb & Hb & _). rewrite Eb. cbn [bind]. cbn [x_of x_shear x_dens].
  assert (ST : exists st, x_shear_stiffness (join kc km) (XFin (shear c)) (XFin (shear m)) b a = Ok st).
  { unfold x_shear_stiffness. cbv zeta. rewrite x_div_numpy by exact J. cbn [bind].
    match goal with |- context [x_power_num ?k ?x ?y] => destruct (power_num_ok k x y J) as (z1 & ->) end. cbn [bind].
    match goal with |- context [x_power_num ?k ?x ?y] => destruct (power_num_ok k x y J) as (z2 & ->) end. cbn [bind].
    match goal with |- context [x_power_num ?k ?x ?y] => destruct (power_num_ok k x y J) as (z3 & ->) end. cbn [bind]. eauto. }
  destruct ST as (st & Est). rewrite Est. cbn [bind].
  rewrite (poisson_half kc c Kc Z). cbn [bind].
  assert (SN : x_normal_stiffness (join kc km) b (XFin (1 / 2)) (XFin (shear c)) (XFin (shear m)) a = Ok XNan).
  { unfold x_normal_stiffness. rewrite x_div_numpy by exact J. cbn [bind]. rewrite x_div_numpy by exact J. cbn [bind].
    assert (Q1 : reads 0 (XFin 2 * XFin (shear c) / (XFin PI * XFin (shear m)))%xnum).
    { eapply reads_is; [apply reads_div; [xrd|xrd|]|].
      - pose proof PI_RGT_0. pose proof (Rmult_lt_0_compat PI (shear m)). lra.
      - rewrite Z. unfold Rdiv. ring. }
    assert (Q2 : not_finite ((XFin 1 - b) * (XFin 1 - XFin (1 / 2)) / (XFin 1 - XFin 2 * XFin (1 / 2)))%xnum).
    { apply (over_zero ((1 - v) * (1 - 1 / 2))); [xrd|]. eapply reads_is; [xrd|]. lra. }
    rewrite (zero_times _ _ Q1 Q2). cbv zeta. rewrite ?x_power_numpy by exact J. cbn [bind]. rewrite ?x_power_numpy by exact J. cbn [bind].
    rewrite ?x_power_numpy by exact J. cbn [bind].
    assert (PN : forall y, y < 0 -> x_pow XNan y = XNan) by (intros; unfold x_pow; dec; reflexivity).
    rewrite !PN by lra. rewrite !xmul_nan. cbn [xmul xadd]. reflexivity. }
  rewrite SN. cbn [bind]. cbv zeta. rewrite !xmul_nan. cbn [xadd].
  assert (HD : reads ((1 - phc) * (al * dens c + (1 - al) * dens m))
     ((XFin 1 - XFin phc) * (a * XFin (dens c) + (XFin 1 - a) * XFin (dens m)))%xnum) by auto with xr.
  match goal with |- context [x_material_of_moduli ?kd ?k ?mu ?d] =>
    destruct (inf_accepted kd k mu d (or_introl (calculated_numpy _))) as [A _] end.
  destruct A as (r & Er & Br & Sr & Dr).
  { split; [exact (fun x => x)|]. split; [exact (fun x => x)|]. eapply reads_not_below; [exact HD|].
    apply Rmult_le_pos; [lra|]. assert (0 <= al * dens c) by (apply Rmult_le_pos; lra). assert (0 <= (1 - al) * dens m) by (apply Rmult_le_pos; lra). lra. }
  exists r. rewrite Br, Sr, Dr. auto.
Qed.
