(** Property C244: depth trends in double precision. *)
From Coq Require Import Reals List Lra Lia ZArith.
From Verif Require Import Base MaterialModel MainModel FloatModel Spec FloatSpec FloatProofs FloatExampleProofs FloatPolyModel FloatPolySpec FloatPolyProofs FloatDependencyProofs FloatTrendSpec FloatTrendModel FloatTrendProofs.
Import ListNotations.
Open Scope R_scope.

(** C244: a material adjusted by polynomials has the density and velocities of the
    polynomials, for arrays and for numbers. *)
Theorem C244_velocities : forall root array v m dc pc sc g,
  moderate v -> moderate (dens m) -> moderate (vp m) -> moderate (vs m) -> ordinary_matrix dc -> ordinary_matrix pc -> ordinary_matrix sc ->
  f_polyval_material root array false v m dc pc sc = Ok g ->
  fitted (dens m) v dc (dens g) /\ fitted (vp m) v pc (vp g) /\ fitted (vs m) v sc (vs g).
Proof. exact trend_velocities. Qed.
Print Assumptions C244_velocities.
(** Of moduli: *)
Theorem C244_moduli : forall root v m dc pc sc g,
  moderate v -> moderate (dens m) -> moderate (bulk m) -> moderate (shear m) -> ordinary_matrix dc -> ordinary_matrix pc -> ordinary_matrix sc ->
  f_polyval_material root false true v m dc pc sc = Ok g ->
  fitted (dens m) v dc (dens g) /\ fitted (bulk m) v pc (bulk g) /\ fitted (shear m) v sc (shear g).
Proof. exact trend_moduli. Qed.
Print Assumptions C244_moduli.
(** With arrays, density and velocities are those of numbers. *)
Theorem C244_arrays : forall root use_moduli v m dc pc sc g,
  f_polyval_material root true use_moduli v m dc pc sc = Ok g ->
  exists g0, f_polyval_material root false use_moduli v m dc pc sc = Ok g0 /\ dens g = dens g0 /\ vp g = vp g0 /\ vs g = vs g0.
Proof. exact trend_arrays. Qed.
Print Assumptions C244_arrays.
Example C244_nonvacuous : moderate 3 /\ moderate 1 /\ moderate 2 /\ ordinary_matrix [[0]; [1]] /\
  (exists g, f_polyval_material fl_sqrt true false 3 (mkMat 0 0 1 2 1) [[0]; [1]] [[0]; [1]] [[0]; [1]] = Ok g) /\
  (exists g, f_polyval_material fl_sqrt false true 3 (mkMat 2 1 1 0 0) [[0]; [1]] [[0]; [1]] [[0]; [1]] = Ok g).
Proof.
  assert (M : forall x, 1 <= x <= 3 -> moderate x).
  { intros x H. right. rewrite Rabs_pos_eq by lra. rewrite !pow_IZR. simpl Z.pow. lra. }
  split; [apply M; lra|]. split; [apply M; lra|]. split; [apply M; lra|].
  split.
  { split; [split; [discriminate|]; exists 1%nat; split; [lia|]; repeat (apply Forall_cons; [reflexivity|]); apply Forall_nil|].
    split; [|cbn; lia]. repeat first [apply Forall_nil|apply Forall_cons]; [left; apply Rabs_R0|rewrite Rabs_R1; apply ordinary_range; lra]. }
  assert (P : forall z : Z, (0 <= z < 1000)%Z -> f_polyval2d (IZR z) 3 [[0]; [1]] = Ok (IZR z)).
  { intros z H. unfold f_polyval2d. cbn [f_poly_rows f_map2 bind]. unfold f_step. rewrite Rmult_1_l.
    rewrite (rnd_of_double _ (double_nat z H)). cbn [bind]. rewrite Rplus_0_l, (rnd_of_double _ (double_nat z H)). reflexivity. }
  unfold f_polyval_material. cbn [dens vp vs bulk shear]. rewrite (P 1%Z ltac:(lia)), (P 2%Z ltac:(lia)). cbn [bind].
  destruct velocities_example as (g & E). split.
  - rewrite E. cbn [bind]. destruct (made_parts_v _ _ _ _ _ E) as (E1 & E2 & E3). unfold f_repack. rewrite E1, E2, E3. exists g. exact E.
  - destruct (material_close fl_sqrt 2 1 1 fl_sqrt_good) as (m & Em & _); try (apply ordinary_range; lra); try lra.
    rewrite Em. exists m. reflexivity.
Qed.
