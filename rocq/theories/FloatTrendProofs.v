(** Depth trends in double precision. *)
From Coq Require Import Reals List Lra Lia ZArith.
From Verif Require Import Base MaterialModel MainModel FloatModel ConfigModel Spec FloatSpec FloatProofs FloatPolyModel FloatPolySpec FloatPolyProofs FloatFitProofs FloatDependencyProofs FloatTrendSpec FloatTrendModel.
Import ListNotations.
Open Scope R_scope.

Lemma fit_close x y cs z : moderate x -> moderate y -> ordinary_matrix cs -> f_polyval2d x y cs = Ok z -> fitted x y cs z.
Proof.
  intros Mx My (Rc & O & L) E. destruct (polyval2d_error x y cs _ Mx My Rc eq_refl O L) as (z' & E' & B).
  rewrite E in E'. injection E' as <-. exact B.
Qed.
Lemma fit_exists x y cs : moderate x -> moderate y -> ordinary_matrix cs -> exists z, f_polyval2d x y cs = Ok z.
Proof. intros Mx My (Rc & O & L). destruct (polyval2d_error x y cs _ Mx My Rc eq_refl O L) as (z & E & _). exists z. exact E. Qed.

Lemma trend_velocities root array v m dc pc sc g :
  moderate v -> moderate (dens m) -> moderate (vp m) -> moderate (vs m) -> ordinary_matrix dc -> ordinary_matrix pc -> ordinary_matrix sc ->
  f_polyval_material root array false v m dc pc sc = Ok g ->
  fitted (dens m) v dc (dens g) /\ fitted (vp m) v pc (vp g) /\ fitted (vs m) v sc (vs g).
Proof.
  intros Mv Md Mp Ms Od Op Os. unfold f_polyval_material.
  destruct (f_polyval2d (dens m) v dc) as [a|] eqn:A; [|discriminate]. cbn [bind].
  destruct (f_polyval2d (vp m) v pc) as [b|] eqn:B; [|discriminate]. cbn [bind].
  destruct (f_polyval2d (vs m) v sc) as [c|] eqn:C; [|discriminate]. cbn [bind].
  destruct (f_mat_of_velocities root a b c) as [h|] eqn:H; [|discriminate]. cbn [bind].
  destruct (made_parts_v _ _ _ _ _ H) as (H1 & H2 & H3). intros E.
  assert (G : dens g = a /\ vp g = b /\ vs g = c).
  { destruct array; [|injection E as <-; auto]. unfold f_repack in E. rewrite H1, H2, H3 in E. exact (made_parts_v _ _ _ _ _ E). }
  destruct G as (-> & -> & ->). split; [|split]; apply fit_close; assumption.
Qed.
Lemma trend_moduli root v m dc pc sc g :
  moderate v -> moderate (dens m) -> moderate (bulk m) -> moderate (shear m) -> ordinary_matrix dc -> ordinary_matrix pc -> ordinary_matrix sc ->
  f_polyval_material root false true v m dc pc sc = Ok g ->
  fitted (dens m) v dc (dens g) /\ fitted (bulk m) v pc (bulk g) /\ fitted (shear m) v sc (shear g).
Proof.
  intros Mv Md Mp Ms Od Op Os. unfold f_polyval_material.
  destruct (f_polyval2d (dens m) v dc) as [a|] eqn:A; [|discriminate]. cbn [bind].
  destruct (f_polyval2d (bulk m) v pc) as [b|] eqn:B; [|discriminate]. cbn [bind].
  destruct (f_polyval2d (shear m) v sc) as [c|] eqn:C; [|discriminate]. cbn [bind].
  destruct (f_mat_of_moduli root b c a) as [h|] eqn:H; [|discriminate]. cbn [bind].
  destruct (made_parts _ _ _ _ _ H) as (H1 & H2 & H3). intros E. injection E as <-.
  rewrite H1, H2, H3. split; [|split]; apply fit_close; assumption.
Qed.
Lemma trend_arrays root use v m dc pc sc g : f_polyval_material root true use v m dc pc sc = Ok g ->
  exists g0, f_polyval_material root false use v m dc pc sc = Ok g0 /\ dens g = dens g0 /\ vp g = vp g0 /\ vs g = vs g0.
Proof.
  unfold f_polyval_material. destruct (f_polyval2d _ _ dc) as [a|]; [|discriminate]. cbn [bind].
  destruct (f_polyval2d _ _ pc) as [b|]; [|discriminate]. cbn [bind]. destruct (f_polyval2d _ _ sc) as [c|]; [|discriminate]. cbn [bind].
  destruct (if use then _ else _) as [h|]; [|discriminate]. cbn [bind]. intros E. exists h. split; [reflexivity|].
  exact (made_parts_v _ _ _ _ _ E).
Qed.
