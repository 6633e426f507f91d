(** Properties of bounds and sandstone models with infinities (C219-C222). *)
From Coq Require Import String List Lra.
From Verif Require Import Base MaterialModel HashinShtrikmanModel SandstoneModel Spec RowModel InfModel InfSandModel InfSpec
  RelProofs EmbedProofs MaterialProofs HashinShtrikmanProofs SandstoneProofs InfProofs InfSandProofs SandstoneProps.
Import ListNotations.
Open Scope R_scope.

(** C219: with infinities and nan the bounds of Hashin, Shtrikman and Walpole
    give what the real numbers give, wherever those suffice and wherever the
    numbers come from. *)
Theorem C219_bounds : forall kd m1 m2 f m1' m2' a bound, reads_material m1 m1' -> reads_material m2 m2' -> reads f a ->
  agrees reads_material (hashin_shtrikman_bound m1 m2 f) (x_hashin_shtrikman_bound kd m1' m2' a) /\
  agrees reads_material (hashin_shtrikman_average m1 m2 f) (x_hashin_shtrikman_average kd m1' m2' a) /\
  agrees reads_material (hashin_shtrikman_walpole m1 m2 f bound) (x_hashin_shtrikman_walpole kd m1' m2' a bound).
Proof. intros. split; [|split]; apply sim_agrees; [apply xs_bound|apply xs_average|apply xs_walpole]; assumption. Qed.
Print Assumptions C219_bounds.

(** C219: packings of grains and friable sand. *)
Theorem C219_sand : forall km kp m phi phc p n s m' a b c d e,
  reads_material m m' -> reads phi a -> reads phc b -> reads p c -> reads n d -> reads s e ->
  agrees reads_material (hertz_mindlin m phi p s n) (x_hertz_mindlin km kp m' a c e d) /\
  agrees reads_material (friable_sand m phi phc p n s) (x_friable_sand km kp m' a b c d e).
Proof. intros. split; apply sim_agrees; [apply xs_hertz|apply xs_friable]; assumption. Qed.
Print Assumptions C219_sand.

(** C219: cemented sand. *)
Theorem C219_cement : forall ks kc kp sd c phi phc phu p pl phs s nf nc sd' c' a b d e g h i j k,
  reads_material sd sd' -> reads_material c c' ->
  reads phi a -> reads phc b -> reads phu d -> reads p e -> reads pl g -> reads phs h -> reads s i -> reads nf j -> reads nc k ->
  agrees reads_material (contact_cement c sd phc phs s nc) (x_contact_cement kc ks kp c' sd' b h i k) /\
  agrees reads_material (constant_cement sd c phi phc phs nc s) (x_constant_cement ks kc kp sd' c' a b h k i) /\
  agrees reads_material (patchy_cement sd c phi phc phu p pl phs s nf nc) (x_patchy_cement ks kc kp sd' c' a b d e g h i j k).
Proof. intros. split; [|split]; apply sim_agrees; [apply xs_contact|apply xs_constant|apply xs_patchy]; assumption. Qed.
Print Assumptions C219_cement.

(** C219: so friable sand without effective pressure raises ZeroDivisionError,
    also where the numbers are NumPy's. *)
Theorem C219_zero_pressure : forall km kp m phi phc n s, grain_pack m phc s n -> 0 < phc -> 0 <= phi <= phc ->
  x_friable_sand km kp (x_of m) (XFin phi) (XFin phc) (XFin 0) (XFin n) (XFin s) = Err ZeroDivisionError.
Proof.
  intros km kp m phi phc n s G C P. pose proof (C40_zero_pressure m phi phc n s G C P) as E.
  assert (M : reads_material m (x_of m)) by (repeat split; apply reads_fin).
  destruct (sim_agrees _ _ _ (xs_friable km kp m phi phc 0 n s _ _ _ _ _ _ M (reads_fin _) (reads_fin _) (reads_fin _) (reads_fin _) (reads_fin _))) as [_ A].
  apply A; [exact E|discriminate].
Qed.
Print Assumptions C219_zero_pressure.

Example C219_nonvacuous : exists r r',
  hashin_shtrikman_walpole (sample 37 44 3) (sample 2 0 1) (1 / 2) "lower" = Ok r /\
  x_hashin_shtrikman_walpole Python (x_of (sample 37 44 3)) (x_of (sample 2 0 1)) (XFin (1 / 2)) "lower" = Ok r' /\ reads_material r r' /\
  x_friable_sand Array Python (x_of (sample 36800000000 44000000000 2650)) (XFin (1 / 5)) (XFin (2 / 5)) (XFin 0) (XFin 9) (XFin 1) =
    Err ZeroDivisionError.
Proof.
  assert (M : forall m, reads_material m (x_of m)) by (intros; repeat split; apply reads_fin).
  destruct walpole_solid_fluid_sample as (_ & _ & (r & E) & _).
  destruct (C219_bounds Python _ _ (1 / 2) _ _ _ "lower" (M (sample 37 44 3)) (M (sample 2 0 1)) (reads_fin _)) as (_ & _ & A & _).
  destruct (A _ E) as (r' & E' & H). exists r, r'. split; [exact E|]. split; [exact E'|]. split; [exact H|].
  apply C219_zero_pressure; [exact quartz_pack|lra|lra].
Qed.

(** C220: grains without shear modulus, without contacts or filling nothing of
    the packing (critical porosity one): friable sand has nan for moduli, at
    every pressure and without error, if the numbers are NumPy's; its density is
    right. *)
Theorem C220_nan : forall km kp m phi phc p n s, join km kp <> Python -> 0 < bulk m -> 0 <= shear m -> 0 <= dens m ->
  0 < phc <= 1 -> 0 <= phi <= phc -> n * (1 - phc) * shear m = 0 ->
  exists r, x_friable_sand km kp (x_of m) (XFin phi) (XFin phc) (XFin p) (XFin n) (XFin s) = Ok r /\
    x_bulk r = XNan /\ x_shear r = XNan /\ reads (dens m * (1 - phi)) (x_dens r).
Proof. exact friable_nan. Qed.
Print Assumptions C220_nan.

(** C220: with Python's numbers it is ZeroDivisionError. *)
Theorem C220_python : forall m phi phc p n s, 0 < bulk m -> 0 <= shear m -> n * (1 - phc) * shear m = 0 ->
  x_friable_sand Python Python (x_of m) (XFin phi) (XFin phc) (XFin p) (XFin n) (XFin s) = Err ZeroDivisionError.
Proof. intros m phi phc p n s K M Z. unfold x_friable_sand. rewrite pack_python by assumption. reflexivity. Qed.
Print Assumptions C220_python.

(** C220: fluid substitution does not notice either. *)
Theorem C220_saturated : forall km kp kd m f phi phc p n s, join km kp <> Python -> kd <> Python -> 0 <= shear m -> 0 <= dens m ->
  0 < phc <= 1 -> 0 < phi <= phc -> n * (1 - phc) * shear m = 0 -> 0 < bulk f < bulk m -> 0 < dens f ->
  exists r t, x_friable_sand km kp (x_of m) (XFin phi) (XFin phc) (XFin p) (XFin n) (XFin s) = Ok r /\
    x_fluid_substitution kd r (x_of m) (x_of f) (XFin phi) = Ok t /\ x_bulk t = XNan /\ x_shear t = XNan /\
    reads (dens m * (1 - phi) + phi * dens f) (x_dens t).
Proof.
  intros km kp kd m f phi phc p n s J N M D C P Z F Df.
  destruct (friable_nan km kp m phi phc p n s J ltac:(lra) M D C ltac:(lra) Z) as (r & E & B & S' & R).
  destruct (saturated_nan kd m f r phi N B S' ltac:(lra) Df F _ R) as (t & Et & Bt & St & Dt); [apply Rmult_le_pos; lra|].
  exists r, t. auto.
Qed.
Print Assumptions C220_saturated.

(** C220: that such grains are refused is false. *)
Theorem C220_refused_refuted : exists m phi phc p n s r, shear m = 0 /\ 0 < bulk m /\ 0 < dens m /\ 0 < p /\ 0 < phi < phc /\ phc < 1 /\
  x_friable_sand Array Array (x_of m) (XFin phi) (XFin phc) (XFin p) (XFin n) (XFin s) = Ok r /\ x_bulk r = XNan.
Proof.
  destruct (C220_nan Array Array (mkMat 2 0 1 1 0) (1 / 5) (2 / 5) 1 9 1) as (r & E & B & _); [discriminate|cbn; lra..|].
  exists (mkMat 2 0 1 1 0), (1 / 5), (2 / 5), 1, 9, 1, r. cbn [shear bulk dens]. repeat (split; [lra|]). auto.
Qed.
Print Assumptions C220_refused_refuted.

Example C220_nonvacuous : join Python Array <> Python /\ 0 < bulk (mkMat 2 0 1 1 0) /\ 0 < bulk (mkMat 1 0 1 1 0) < bulk (mkMat 2 0 1 1 0) /\
  9 * (1 - 2 / 5) * shear (mkMat 2 0 1 1 0) = 0 /\ 9 * (1 - 1) * shear (mkMat 2 1 1 1 0) = 0.
Proof. cbn. repeat split; try discriminate; lra. Qed.

(** C221: the classical bound of a fluid and a solid (NumPy's numbers): there is
    no shear modulus and the bulk modulus is Reuss's, if there is any fluid. *)
Theorem C221_suspension : forall kd m1 m2 f, kd <> Python -> 0 < bulk m1 -> 0 < bulk m2 -> shear m1 = 0 -> 0 < shear m2 -> 0 < f <= 1 ->
  0 <= dens m1 -> 0 <= dens m2 ->
  exists r, x_hashin_shtrikman_bound kd (x_of m1) (x_of m2) (XFin f) = Ok r /\
    reads (1 / (f / bulk m1 + (1 - f) / bulk m2)) (x_bulk r) /\ is_zero (x_shear r) /\
    reads (f * dens m1 + (1 - f) * dens m2) (x_dens r).
Proof. exact bound_suspension. Qed.
Print Assumptions C221_suspension.

(** C221: of two fluids, or of a solid and nothing of a fluid, shear modulus and
    velocities are nan. *)
Theorem C221_nan : forall kd m1 m2 f, kd <> Python -> 0 < bulk m1 -> 0 < bulk m2 -> shear m1 = 0 -> 0 <= shear m2 -> 0 <= f <= 1 ->
  f = 0 \/ shear m2 = 0 -> 0 <= dens m1 -> 0 <= dens m2 ->
  exists r, x_hashin_shtrikman_bound kd (x_of m1) (x_of m2) (XFin f) = Ok r /\
    reads (1 / (f / bulk m1 + (1 - f) / bulk m2)) (x_bulk r) /\ x_shear r = XNan /\
    reads (f * dens m1 + (1 - f) * dens m2) (x_dens r) /\ x_vp r = XNan /\ x_vs r = XNan.
Proof. exact bound_nan. Qed.
Print Assumptions C221_nan.

(** C221: Python's numbers raise ZeroDivisionError. *)
Theorem C221_python : forall m1 m2 f, 0 < bulk m1 -> 0 < bulk m2 -> shear m1 = 0 -> 0 <= f <= 1 ->
  x_hashin_shtrikman_bound Python (x_of m1) (x_of m2) (XFin f) = Err ZeroDivisionError.
Proof. exact bound_python. Qed.
Print Assumptions C221_python.

(** C221: so the bound at the ratio of nothing is not the other material. *)
Theorem C221_endpoint_refuted : exists m1 m2 r, 0 < bulk m1 /\ shear m1 = 0 /\ solid m2 /\
  x_hashin_shtrikman_bound Array (x_of m1) (x_of m2) (XFin 0) = Ok r /\ x_shear r = XNan.
Proof.
  destruct (C221_nan Array (mkMat 2 0 1 1 0) (sample 36800000000 44000000000 2650) 0) as (r & E & _ & B & _); [discriminate|cbn; lra..|].
  exists (mkMat 2 0 1 1 0), (sample 36800000000 44000000000 2650), r. cbn [bulk shear]. split; [lra|]. split; [reflexivity|].
  split; [apply sample_solid; lra|]. auto.
Qed.
Print Assumptions C221_endpoint_refuted.

Example C221_nonvacuous : exists r, x_hashin_shtrikman_bound Scalar (x_of (mkMat 2 0 1 1 0)) (x_of (mkMat 6 3 2 1 1)) (XFin (1 / 2)) = Ok r /\
  x_bulk r = XFin 3 /\ is_zero (x_shear r).
Proof.
  destruct (C221_suspension Scalar (mkMat 2 0 1 1 0) (mkMat 6 3 2 1 1) (1 / 2)) as (r & E & B & S' & _); [discriminate|cbn; lra..|].
  exists r. split; [exact E|]. split; [|exact S']. cbn [bulk] in B. replace (1 / (1 / 2 / 2 + (1 - 1 / 2) / 6)) with 3 in B by lra.
  apply reads_nonzero in B; [exact B|lra].
Qed.

(** C222: cement between grains without shear modulus has no stiffness at all;
    cement without shear modulus has nan for moduli.  Neither is an error with
    NumPy's numbers. *)
Theorem C222_soft_grains : forall kc km kp c m phc phs s n al, join kc km <> Python -> 0 < bulk c -> 0 < shear c -> 0 <= dens c ->
  0 < bulk m -> shear m = 0 -> 0 <= dens m -> cement_radius_ratio phc phs = Ok al -> 0 <= phc <= phs -> phs < 1 -> 0 <= al <= 1 ->
  exists r, x_contact_cement kc km kp (x_of c) (x_of m) (XFin phc) (XFin phs) (XFin s) (XFin n) = Ok r /\
    is_zero (x_bulk r) /\ is_zero (x_shear r) /\ reads ((1 - phc) * (al * dens c + (1 - al) * dens m)) (x_dens r).
Proof. exact contact_soft. Qed.
Print Assumptions C222_soft_grains.

Theorem C222_soft_cement : forall kc km kp c m phc phs s n al, join kc km <> Python -> 0 < bulk c -> shear c = 0 -> 0 <= dens c ->
  0 < bulk m -> 0 < shear m -> 0 <= dens m -> cement_radius_ratio phc phs = Ok al -> 0 <= phc <= phs -> phs < 1 -> 0 <= al <= 1 ->
  exists r, x_contact_cement kc km kp (x_of c) (x_of m) (XFin phc) (XFin phs) (XFin s) (XFin n) = Ok r /\
    x_bulk r = XNan /\ x_shear r = XNan /\ reads ((1 - phc) * (al * dens c + (1 - al) * dens m)) (x_dens r).
Proof. exact contact_soft_cement. Qed.
Print Assumptions C222_soft_cement.

Example C222_nonvacuous : exists al r, cement_radius_ratio (1 / 4) (2 / 5) = Ok al /\ 0 <= al <= 1 /\
  x_contact_cement Python Array Python (x_of (mkMat 2 1 1 1 1)) (x_of (mkMat 2 0 1 1 0)) (XFin (1 / 4)) (XFin (2 / 5)) (XFin 1) (XFin 9) = Ok r /\
  is_zero (x_bulk r).
Proof.
  destruct C42_nonvacuous as (al & E & A). 
  destruct (C222_soft_grains Python Array Python (mkMat 2 1 1 1 1) (mkMat 2 0 1 1 0) (1 / 4) (2 / 5) 1 9 al) as (r & Er & B & _);
    [discriminate|cbn; try lra; assumption..|].
  exists al, r. split; [exact E|]. split; [lra|]. auto.
Qed.
