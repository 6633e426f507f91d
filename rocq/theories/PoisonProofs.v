(** Replacing numbers by nan: results are kept or become nan. *)
From Coq Require Import String List ZArith Lra.
From Verif Require Import Base FluidsModel ConfigModel BatzleWangModel RowModel NumModel NanModel RelProofs PoisonSpec.
Import ListNotations.
Open Scope R_scope.

Definition poison : mode.
Proof.
  refine {| gone := fun _ => True; fresh := fun e => e = ZeroDivisionError; both := fun _ _ => True |}; intros; exact I.
Defined.
Notation poi := (rrel poison).

(** ** Numbers *)
Lemma hole_refl : forall a, hole a a.
Proof. intro a. right. reflexivity. Qed.
Lemma hole_nan : forall a, hole a Nan.
Proof. intro a. left. reflexivity. Qed.
#[global] Hint Resolve hole_refl hole_nan : poi.
Lemma hole_lift1 : forall f a a', hole a a' -> hole (nlift1 f a) (nlift1 f a').
Proof. intros f a a' [->| ->]; [left|right]; reflexivity. Qed.
Lemma hole_lift2 : forall f a a' b b', hole a a' -> hole b b' -> hole (nlift2 f a b) (nlift2 f a' b').
Proof.
  intros f a a' b b' [->| ->] [->| ->]; [left; reflexivity| |left; destruct a'; reflexivity|right; reflexivity].
  left. reflexivity.
Qed.
Ltac hole_op := first
  [ eassumption
  | apply hole_refl
  | apply hole_nan
  | match goal with
    | |- hole (nadd _ _) (nadd _ _) => apply hole_lift2
    | |- hole (nsub _ _) (nsub _ _) => apply hole_lift2
    | |- hole (nmul _ _) (nmul _ _) => apply hole_lift2
    | |- hole (nquot _ _) (nquot _ _) => apply hole_lift2
    | |- hole (nmin _ _) (nmin _ _) => apply hole_lift2
    | |- hole (nmax _ _) (nmax _ _) => apply hole_lift2
    | |- hole (nopp _) (nopp _) => apply hole_lift1
    | |- hole (npow _ _) (npow _ _) => apply hole_lift1
    | |- hole (nabs _) (nabs _) => apply hole_lift1
    | |- hole (nexp _) (nexp _) => apply hole_lift1
    end ].
Ltac hole_solve := idtac; repeat hole_op; try solve [eauto with poi].
#[global] Hint Extern 2 (hole _ _) => progress hole_op : poi.

Lemma nltb_hole : forall a a' b b', hole a a' -> hole b b' -> nltb a' b' = true -> nltb a b = true.
Proof. intros a a' b b' [->| ->] [->| ->] H; try discriminate; [destruct a'; discriminate|exact H]. Qed.
Lemma nleb_hole : forall a a' b b', hole a a' -> hole b b' -> nleb a' b' = true -> nleb a b = true.
Proof. intros a a' b b' [->| ->] [->| ->] H; try discriminate; [destruct a'; discriminate|exact H]. Qed.
Lemma neqb_hole : forall a a' b b', hole a a' -> hole b b' -> neqb a' b' = true -> neqb a b = true /\ a = a' /\ b = b'.
Proof.
  intros a a' b b' [->| ->] [->| ->] H; try discriminate; [destruct a'; discriminate|].
  split; [exact H|split; reflexivity].
Qed.

Lemma poi_div : forall a a' b b', hole a a' -> hole b b' -> poi hole (n_div a b) (n_div a' b').
Proof.
  intros a a' b b' [->| ->] [->| ->]; cbn [n_div].
  - destruct (n_div a b); cbn; [apply hole_nan|exact I].
  - destruct (n_div a b'); cbn; [apply hole_nan|exact I].
  - destruct (n_div a' b), a'; cbn; try exact I; apply hole_nan.
  - destruct (n_div a' b'); cbn; [apply hole_refl|exact I].
Qed.
Lemma poi_pdiv : forall a a' b b', hole a a' -> hole b b' -> poi hole (p_div a b) (p_div a' b').
Proof.
  intros a a' b b' [->| ->] [->| ->].
  - destruct (p_div a b); cbn; [apply hole_nan|exact I].
  - destruct b' as [y|]; cbn; [|apply hole_nan]. destruct (Req_EM_T y 0); cbn; [exact I|apply hole_nan].
  - destruct (p_div a' b); cbn; [apply hole_nan|exact I].
  - destruct (p_div a' b'); cbn; [apply hole_refl|exact I].
Qed.
Lemma poi_sqrt : forall a a', hole a a' -> poi hole (n_sqrt a) (n_sqrt a').
Proof. intros a a' [->| ->]; cbn; [apply hole_nan|apply hole_refl]. Qed.
Lemma poi_log : forall a a', hole a a' -> poi hole (n_log a) (n_log a').
Proof.
  intros a a' [->| ->]; [destruct (n_log a); cbn; [apply hole_nan|exact I]|].
  destruct (n_log a'); cbn; [apply hole_refl|exact I].
Qed.
Lemma n_pow_0 : forall a, poi (fun x y => x = y) (n_pow a (Num 0)) (Ok (Num 1)).
Proof.
  intros [x|]; cbn.
  - destruct (Rlt_dec 0 x) as [H|H]; cbn; [rewrite Rpower_O by exact H; reflexivity|].
    destruct (Req_EM_T x 0) as [E|E]; cbn.
    + destruct (Rlt_dec 0 0); [lra|]. destruct (Req_EM_T 0 0); [reflexivity|contradiction].
    + assert (Z : Int_part 0 = 0%Z).
      { pose proof (base_Int_part 0) as [B1 B2]. assert (L : (Int_part 0 <= 0)%Z) by (apply le_IZR; exact B1).
        assert (G : (-1 < Int_part 0)%Z) by (apply lt_IZR; lra). lia. }
      rewrite Z. destruct (Req_EM_T 0 (IZR 0)); [reflexivity|contradiction].
  - destruct (Req_EM_T 0 0); [reflexivity|contradiction].
Qed.
Lemma n_pow_1 : forall b, poi (fun x y => x = y) (n_pow (Num 1) b) (Ok (Num 1)).
Proof.
  intros [y|]; cbn; [|destruct (Req_EM_T 1 1); [reflexivity|contradiction]].
  destruct (Rlt_dec 0 1) as [H|H]; [|lra]. cbn. unfold Rpower. rewrite ln_1, Rmult_0_r, exp_0. reflexivity.
Qed.
Lemma poi_pow : forall a a' b b', hole a a' -> hole b b' -> poi hole (n_pow a b) (n_pow a' b').
Proof.
  intros a a' b b' [->| ->] [->| ->].
  - destruct (n_pow a b); cbn; [apply hole_nan|exact I].
  - destruct b' as [y|]; [|destruct (n_pow a Nan); cbn; [apply hole_nan|exact I]].
    change (n_pow Nan (Num y)) with (Ok (if Req_EM_T y 0 then Num 1 else Nan)).
    destruct (Req_EM_T y 0) as [->|E]; [|destruct (n_pow a (Num y)); cbn; [apply hole_nan|exact I]].
    pose proof (n_pow_0 a) as H. destruct (n_pow a (Num 0)); cbn in *; [right; exact H|exact I].
  - destruct a' as [x|]; [|destruct (n_pow Nan b); cbn; [apply hole_nan|exact I]].
    change (n_pow (Num x) Nan) with (Ok (if Req_EM_T x 1 then Num 1 else Nan)).
    destruct (Req_EM_T x 1) as [->|E]; [|destruct (n_pow (Num x) b); cbn; [apply hole_nan|exact I]].
    pose proof (n_pow_1 b) as H. destruct (n_pow (Num 1) b); cbn in *; [right; exact H|exact I].
  - destruct (n_pow a' b'); cbn; [apply hole_refl|exact I].
Qed.
Lemma poi_ppow : forall a a' y, hole a a' -> poi hole (p_pow a y) (p_pow a' y).
Proof.
  intros a a' y [->| ->]; [destruct (p_pow a y); cbn; [apply hole_nan|exact I]|].
  destruct (p_pow a' y); cbn; [apply hole_refl|exact I].
Qed.

(** ** Tactics *)
Lemma poi_err : forall {A B} (P : A -> B -> Prop) e s, (forall b, s = Ok b -> True) -> poi P (Err e) s.
Proof. intros A B P e [b|e'] _; exact I. Qed.
Lemma poi_guard : forall p q e, (q = true -> p = true) -> poi urel (guard p e) (guard q e).
Proof. intros p q e H. apply rrel_guard; [exact H|intros; exact I|exact I]. Qed.
Ltac poi_prods :=
  repeat match goal with
  | H : prel _ _ ?x ?y |- _ => destruct x, y, H; cbn [fst snd] in *
  | H : urel _ _ |- _ => clear H
  end.
Ltac poi_cmp :=
  idtac;
  lazymatch goal with
  | |- nltb _ _ = true -> nltb _ _ = true => apply nltb_hole; hole_solve
  | |- nleb _ _ = true -> nleb _ _ = true => apply nleb_hole; hole_solve
  end.
Notation leb_ := (arel hole).
Ltac poi_arel :=
  idtac; unfold zip3, zip4, zip5, zip6;
  try match goal with |- @arel num num ?P _ _ => is_evar P; unify P hole end;
  lazymatch goal with
  | |- arel _ (zip _ _) (zip _ _) => eapply arel_zip; poi_arel
  | |- arel _ (pmap _ _) (pmap _ _) => eapply arel_pmap; [poi_arel|intros; poi_prods; hole_solve]
  | |- arel hole (Sc _) (Sc _) => cbn; hole_solve
  | |- arel _ (n_bulk ?m) _ => match goal with H : holes_mat m _ |- _ => exact (proj1 H) end
  | |- arel _ (n_shear ?m) _ => match goal with H : holes_mat m _ |- _ => exact (proj1 (proj2 H)) end
  | |- arel _ (n_dens ?m) _ => match goal with H : holes_mat m _ |- _ => exact (proj1 (proj2 (proj2 H))) end
  | |- arel _ (n_vp ?m) _ => match goal with H : holes_mat m _ |- _ => exact (proj1 (proj2 (proj2 (proj2 H)))) end
  | |- arel _ (n_vs ?m) _ => match goal with H : holes_mat m _ |- _ => exact (proj2 (proj2 (proj2 (proj2 H)))) end
  | _ => first [eassumption | solve [eauto with poi]]
  end.
Ltac poi_step :=
  idtac;
  lazymatch goal with
  | |- rrel _ _ (bind _ _) (bind _ _) => eapply rrel_bind; [|intros; poi_prods]
  | |- rrel _ _ (let _ := ?x in _) (let _ := ?y in _) => cbv zeta
  | |- rrel _ _ (Err _) (Err _) => exact I
  | |- rrel _ _ (amap _ _) (amap _ _) => eapply rrel_amap; [poi_arel|intros; poi_prods]
  | |- rrel _ _ (guard (any _ _) _) (guard (any _ _) _) =>
      apply poi_guard; eapply any_mono; [poi_arel|intros ? ? ?; poi_prods; poi_cmp]
  | |- rrel _ _ (guard (nltb _ _) _) (guard (nltb _ _) _) => apply poi_guard; poi_cmp
  | |- rrel _ hole (Ok _) (Ok _) => apply rrel_ok; hole_solve
  | |- rrel _ (arel _) (Ok _) (Ok _) => apply rrel_ok; poi_arel
  | |- rrel _ urel (Ok _) (Ok _) => exact I
  end.
Ltac poi_leaf := solve [eauto with poi nocore].
Ltac poison_ := repeat (poi_prods; first [poi_step | poi_leaf]).
#[global] Hint Extern 1 (rrel _ _ (n_div _ _) _) => apply poi_div; hole_solve : poi.
#[global] Hint Extern 1 (rrel _ _ (p_div _ _) _) => apply poi_pdiv; hole_solve : poi.
#[global] Hint Extern 1 (rrel _ _ (n_sqrt _) _) => apply poi_sqrt; hole_solve : poi.
#[global] Hint Extern 1 (rrel _ _ (n_log _) _) => apply poi_log; hole_solve : poi.
#[global] Hint Extern 1 (rrel _ _ (n_pow _ _) _) => apply poi_pow; hole_solve : poi.
#[global] Hint Extern 1 (rrel _ _ (p_pow _ _) _) => apply poi_ppow; hole_solve : poi.

(** ** One material *)
Lemma poi_primary : forall k k' mu mu' d d', hole k k' -> hole mu mu' -> hole d d' ->
  poi hole (n_primary_velocity k mu d) (n_primary_velocity k' mu' d').
Proof. intros. unfold n_primary_velocity. poison_. Qed.
Lemma poi_secondary : forall mu mu' d d', hole mu mu' -> hole d d' ->
  poi hole (n_secondary_velocity mu d) (n_secondary_velocity mu' d').
Proof. intros. unfold n_secondary_velocity. poison_. Qed.
#[global] Hint Extern 1 (rrel _ _ (n_primary_velocity _ _ _) _) => apply poi_primary; hole_solve : poi.
#[global] Hint Extern 1 (rrel _ _ (n_secondary_velocity _ _) _) => apply poi_secondary; hole_solve : poi.
Lemma poi_moduli_guards : forall k k' mu mu' d d', hole k k' -> hole mu mu' -> hole d d' ->
  poi urel (n_moduli_guards k mu d) (n_moduli_guards k' mu' d').
Proof. intros. unfold n_moduli_guards. poison_. Qed.
Lemma poi_velocity_guards : forall p p' s s', hole p p' -> hole s s' ->
  poi urel (n_velocity_guards p s) (n_velocity_guards p' s').
Proof. intros. unfold n_velocity_guards. poison_. Qed.
#[global] Hint Extern 1 (rrel _ _ (n_moduli_guards _ _ _) _) => apply poi_moduli_guards; hole_solve : poi.
#[global] Hint Extern 1 (rrel _ _ (n_velocity_guards _ _) _) => apply poi_velocity_guards; hole_solve : poi.
Lemma poi_eq_guard : forall a a' b b' e, hole a a' -> hole b b' -> poi urel (guard (neqb a b) e) (guard (neqb a' b') e).
Proof. intros a a' b b' e H G. apply poi_guard. intro E. exact (proj1 (neqb_hole _ _ _ _ H G E)). Qed.
#[global] Hint Extern 1 (rrel _ _ (guard (neqb _ _) _) _) => apply poi_eq_guard; hole_solve : poi.
Lemma hole_mk : forall k mu d p s k' mu' d' p' s', hole k k' -> hole mu mu' -> hole d d' -> hole p p' -> hole s s' ->
  poi hole_material (Ok (mkNMat k mu d p s)) (Ok (mkNMat k' mu' d' p' s')).
Proof. intros. apply rrel_ok. repeat split; assumption. Qed.
#[global] Hint Extern 1 (rrel _ _ (Ok (mkNMat _ _ _ _ _)) _) => apply hole_mk; hole_solve : poi.
Lemma poi_of_moduli : forall k k' mu mu' d d', hole k k' -> hole mu mu' -> hole d d' ->
  poi hole_material (nmaterial_of_moduli k mu d) (nmaterial_of_moduli k' mu' d').
Proof. intros. unfold nmaterial_of_moduli. poison_. Qed.
Lemma poi_of_velocities : forall d d' p p' s s', hole d d' -> hole p p' -> hole s s' ->
  poi hole_material (nmaterial_of_velocities d p s) (nmaterial_of_velocities d' p' s').
Proof. intros. unfold nmaterial_of_velocities, n_bulk_modulus, n_shear_modulus. poison_. Qed.
Lemma poi_fluid_of_velocity : forall d d' p p', hole d d' -> hole p p' ->
  poi hole_material (nfluid_of_velocity d p) (nfluid_of_velocity d' p').
Proof. intros. unfold nfluid_of_velocity, n_bulk_modulus. poison_. Qed.
Lemma poi_fluid_of_bulk : forall k k' d d', hole k k' -> hole d d' ->
  poi hole_material (nfluid_of_bulk k d) (nfluid_of_bulk k' d').
Proof. intros. unfold nfluid_of_bulk. apply poi_of_moduli; hole_solve. Qed.
#[global] Hint Extern 1 (rrel _ _ (nmaterial_of_moduli _ _ _) _) => apply poi_of_moduli; hole_solve : poi.
#[global] Hint Extern 1 (rrel _ _ (nmaterial_of_velocities _ _ _) _) => apply poi_of_velocities; hole_solve : poi.
#[global] Hint Extern 1 (rrel _ _ (nfluid_of_velocity _ _) _) => apply poi_fluid_of_velocity; hole_solve : poi.
#[global] Hint Extern 1 (rrel _ _ (nfluid_of_bulk _ _) _) => apply poi_fluid_of_bulk; hole_solve : poi.
Lemma hole_v_dens : forall m v, hole_material m v -> hole (v_dens m) (v_dens v).
Proof. intros m v H. apply H. Qed.
Lemma hole_v_vp : forall m v, hole_material m v -> hole (v_vp m) (v_vp v).
Proof. intros m v H. apply H. Qed.
#[global] Hint Resolve hole_v_dens hole_v_vp : poi.

(** ** Polynomials *)
Lemma hole_polyval : forall row x x', hole x x' -> hole (n_np_polyval row x) (n_np_polyval row x').
Proof.
  intros row x x' H. unfold n_np_polyval. pose proof (hole_refl (Num 0)) as Z. revert Z. generalize (Num 0) at 1 3.
  generalize (Num 0). induction row as [|c row IH]; intros a b Z; cbn [fold_left]; [exact Z|].
  apply IH. hole_solve.
Qed.
Lemma hole_poly_eval : forall x x' l l', hole x x' -> Forall2 hole l l' -> hole (n_poly_eval x l) (n_poly_eval x' l').
Proof. intros x x' l l' H G. unfold n_poly_eval. induction G; cbn [fold_right]; [apply hole_refl|]. hole_solve. Qed.
Lemma hole_map2 : forall f g l l' m m', (forall a a' b b', hole a a' -> hole b b' -> hole (f a b) (g a' b')) ->
  Forall2 hole l l' -> Forall2 hole m m' -> Forall2 hole (nmap2 f l m) (nmap2 g l' m').
Proof.
  intros f g l l' m m' F H. revert m m'. induction H as [|x y l l' H1 H2 IH]; intros m m' K; cbn; [constructor|].
  destruct K; constructor; [apply F; assumption|]. apply IH. assumption.
Qed.
Lemma hole_last : forall x x' l l', hole x x' -> Forall2 hole l l' ->
  Forall2 hole (map (fun a => nadd a (nmul x (Num 0))) l) (map (fun a => nadd a (nmul x' (Num 0))) l').
Proof. intros x x' l l' H G. eapply Forall2_maps; [exact G|]. intros; hole_solve. Qed.
Lemma hole_poly_rows : forall x x' c c', hole x x' -> Forall2 (Forall2 hole) c c' ->
  Forall2 hole (n_poly_rows x c) (n_poly_rows x' c').
Proof.
  intros x x' c c' H G. induction G as [|row row' c c' G1 G2 IH]; [constructor|].
  destruct G2 as [|r r' c c' G2 G3]; [apply hole_last; assumption|].
  change (Forall2 hole (nmap2 (fun a acc => nadd a (nmul acc x)) row (n_poly_rows x (r :: c)))
    (nmap2 (fun a acc => nadd a (nmul acc x')) row' (n_poly_rows x' (r' :: c')))).
  apply hole_map2; [intros; hole_solve|exact G1|exact IH].
Qed.
Lemma poi_polyval2d_of : forall x x' y y' c c', hole x x' -> hole y y' -> Forall2 (Forall2 hole) c c' ->
  poi hole (n_polyval2d_of x y c) (n_polyval2d_of x' y' c').
Proof.
  intros x x' y y' c c' H G C. unfold n_polyval2d_of. pose proof (hole_poly_rows x x' c c' H C) as R.
  destruct R as [|a a' l l' R1 R2]; [exact I|]. apply rrel_ok, hole_poly_eval; [exact G|constructor; assumption].
Qed.
Lemma rows_refl : forall (c : list (list num)), Forall2 (Forall2 hole) c c.
Proof.
  intro c. induction c as [|r c IH]; constructor; [|exact IH]. induction r; constructor; [apply hole_refl|assumption].
Qed.
Lemma poi_polyval2d : forall x x' y y' c, hole x x' -> hole y y' -> poi hole (n_polyval2d x y c) (n_polyval2d x' y' c).
Proof. intros. apply poi_polyval2d_of; [assumption|assumption|apply rows_refl]. Qed.
Lemma hole_matrices : forall x x' ms, hole x x' -> Forall2 (Forall2 hole) (n_poly_matrices x ms) (n_poly_matrices x' ms).
Proof.
  intros x x' ms H. induction ms as [|m ms IH]; [constructor|]. destruct ms as [|m' ms].
  - cbn. eapply Forall2_maps; [apply rows_refl|]. intros; apply hole_last; assumption.
  - change (Forall2 (Forall2 hole)
      (map (fun rr => nmap2 (fun a acc => nadd a (nmul acc x)) (fst rr) (snd rr)) (combine m (n_poly_matrices x (m' :: ms))))
      (map (fun rr => nmap2 (fun a acc => nadd a (nmul acc x')) (fst rr) (snd rr)) (combine m (n_poly_matrices x' (m' :: ms))))).
    eapply Forall2_maps; [apply Forall2_combine; [apply rows_refl|exact IH]|].
    intros r r' [E1 E2]. apply hole_map2; [intros; hole_solve|exact E1|exact E2].
Qed.
Lemma poi_polyval3d : forall x x' y y' z z' c, hole x x' -> hole y y' -> hole z z' ->
  poi hole (n_polyval3d x y z c) (n_polyval3d x' y' z' c).
Proof. intros. apply poi_polyval2d_of; [assumption|assumption|apply hole_matrices; assumption]. Qed.
#[global] Hint Extern 1 (rrel _ _ (n_polyval2d _ _ _) _) => apply poi_polyval2d; hole_solve : poi.
#[global] Hint Extern 1 (rrel _ _ (n_polyval3d _ _ _ _) _) => apply poi_polyval3d; hole_solve : poi.

(** ** Batzle and Wang *)
Lemma hole_window : forall x x', hole x x' -> hole (n_triangular_window x) (n_triangular_window x').
Proof. intros x x' [->| ->]; [apply hole_nan|apply hole_refl]. Qed.
#[global] Hint Resolve hole_window : poi.
Lemma poi_molar_volume : forall a a' b b', hole a a' -> hole b b' ->
  poi hole (n_molar_volume a b) (n_molar_volume a' b').
Proof. intros. unfold n_molar_volume. poison_. Qed.
#[global] Hint Extern 1 (rrel _ _ (n_molar_volume _ _) _) => apply poi_molar_volume; hole_solve : poi.
Lemma poi_ideal_gas_density : forall a a' b b' c c', hole a a' -> hole b b' -> hole c c' ->
  poi hole (n_ideal_gas_density a b c) (n_ideal_gas_density a' b' c').
Proof. intros. unfold n_ideal_gas_density, n_molecular_weight. poison_. Qed.
#[global] Hint Extern 1 (rrel _ _ (n_ideal_gas_density _ _ _) _) => apply poi_ideal_gas_density; hole_solve : poi.
Lemma poi_ideal_gas_primary_velocity : forall a a' b b', hole a a' -> hole b b' ->
  poi hole (n_ideal_gas_primary_velocity a b) (n_ideal_gas_primary_velocity a' b').
Proof. intros. unfold n_ideal_gas_primary_velocity, n_molecular_weight. poison_. Qed.
#[global] Hint Extern 1 (rrel _ _ (n_ideal_gas_primary_velocity _ _) _) => apply poi_ideal_gas_primary_velocity; hole_solve : poi.
Lemma poi_ideal_gas : forall a a' b b' c c', hole a a' -> hole b b' -> hole c c' ->
  poi hole_material (n_ideal_gas a b c) (n_ideal_gas a' b' c').
Proof. intros. unfold n_ideal_gas. poison_. Qed.
#[global] Hint Extern 1 (rrel _ _ (n_ideal_gas _ _ _) _) => apply poi_ideal_gas; hole_solve : poi.
Lemma poi_pseudoreduced_temperature : forall a a' b b', hole a a' -> hole b b' ->
  poi hole (n_pseudoreduced_temperature a b) (n_pseudoreduced_temperature a' b').
Proof. intros. unfold n_pseudoreduced_temperature. poison_. Qed.
#[global] Hint Extern 1 (rrel _ _ (n_pseudoreduced_temperature _ _) _) => apply poi_pseudoreduced_temperature; hole_solve : poi.
Lemma poi_pseudoreduced_pressure : forall a a' b b', hole a a' -> hole b b' ->
  poi hole (n_pseudoreduced_pressure a b) (n_pseudoreduced_pressure a' b').
Proof. intros. unfold n_pseudoreduced_pressure. poison_. Qed.
#[global] Hint Extern 1 (rrel _ _ (n_pseudoreduced_pressure _ _) _) => apply poi_pseudoreduced_pressure; hole_solve : poi.
Lemma poi_compressability_factor : forall a a' b b' c c', hole a a' -> hole b b' -> hole c c' ->
  poi hole (n_compressability_factor a b c) (n_compressability_factor a' b' c').
Proof. intros. unfold n_compressability_factor. poison_. Qed.
#[global] Hint Extern 1 (rrel _ _ (n_compressability_factor _ _ _) _) => apply poi_compressability_factor; hole_solve : poi.
Lemma poi_gas_density : forall a a' b b' c c', hole a a' -> hole b b' -> hole c c' ->
  poi hole (n_gas_density a b c) (n_gas_density a' b' c').
Proof. intros. unfold n_gas_density. poison_. Qed.
#[global] Hint Extern 1 (rrel _ _ (n_gas_density _ _ _) _) => apply poi_gas_density; hole_solve : poi.
Lemma poi_compressability_rate_per_pseudoreduced_pressure : forall a a' b b' c c', hole a a' -> hole b b' -> hole c c' ->
  poi hole (n_compressability_rate_per_pseudoreduced_pressure a b c) (n_compressability_rate_per_pseudoreduced_pressure a' b' c').
Proof. intros. unfold n_compressability_rate_per_pseudoreduced_pressure. poison_. Qed.
#[global] Hint Extern 1 (rrel _ _ (n_compressability_rate_per_pseudoreduced_pressure _ _ _) _) => apply poi_compressability_rate_per_pseudoreduced_pressure; hole_solve : poi.
Lemma poi_gamma_0 : forall a a', hole a a' ->
  poi hole (n_gamma_0 a) (n_gamma_0 a').
Proof. intros. unfold n_gamma_0. poison_. Qed.
#[global] Hint Extern 1 (rrel _ _ (n_gamma_0 _) _) => apply poi_gamma_0; hole_solve : poi.
Lemma poi_gas_bulk_modulus : forall a a' b b' c c', hole a a' -> hole b b' -> hole c c' ->
  poi hole (n_gas_bulk_modulus a b c) (n_gas_bulk_modulus a' b' c').
Proof. intros. unfold n_gas_bulk_modulus. poison_. Qed.
#[global] Hint Extern 1 (rrel _ _ (n_gas_bulk_modulus _ _ _) _) => apply poi_gas_bulk_modulus; hole_solve : poi.
Lemma poi_gas : forall a a' b b' c c', hole a a' -> hole b b' -> hole c c' ->
  poi hole_material (n_gas a b c) (n_gas a' b' c').
Proof. intros. unfold n_gas, n_celsius_to_kelvin. poison_. Qed.
#[global] Hint Extern 1 (rrel _ _ (n_gas _ _ _) _) => apply poi_gas; hole_solve : poi.
Lemma poi_temperature_adjusted_dead_oil_density : forall a a' b b', hole a a' -> hole b b' ->
  poi hole (n_temperature_adjusted_dead_oil_density a b) (n_temperature_adjusted_dead_oil_density a' b').
Proof. intros. unfold n_temperature_adjusted_dead_oil_density. poison_. Qed.
#[global] Hint Extern 1 (rrel _ _ (n_temperature_adjusted_dead_oil_density _ _) _) => apply poi_temperature_adjusted_dead_oil_density; hole_solve : poi.
Lemma poi_dead_oil_density : forall a a' b b' c c', hole a a' -> hole b b' -> hole c c' ->
  poi hole (n_dead_oil_density a b c) (n_dead_oil_density a' b' c').
Proof. intros. unfold n_dead_oil_density, n_pressure_adjusted_dead_oil_density. poison_. Qed.
#[global] Hint Extern 1 (rrel _ _ (n_dead_oil_density _ _ _) _) => apply poi_dead_oil_density; hole_solve : poi.
Lemma poi_dead_oil_primary_velocity : forall a a' b b' c c', hole a a' -> hole b b' -> hole c c' ->
  poi hole (n_dead_oil_primary_velocity a b c) (n_dead_oil_primary_velocity a' b' c').
Proof. intros. unfold n_dead_oil_primary_velocity. poison_. Qed.
#[global] Hint Extern 1 (rrel _ _ (n_dead_oil_primary_velocity _ _ _) _) => apply poi_dead_oil_primary_velocity; hole_solve : poi.
Lemma poi_dead_oil : forall a a' b b' c c', hole a a' -> hole b b' -> hole c c' ->
  poi hole_material (n_dead_oil a b c) (n_dead_oil a' b' c').
Proof. intros. unfold n_dead_oil. poison_. Qed.
#[global] Hint Extern 1 (rrel _ _ (n_dead_oil _ _ _) _) => apply poi_dead_oil; hole_solve : poi.
Lemma poi_live_oil_volume_factor : forall a a' b b' c c' d d', hole a a' -> hole b b' -> hole c c' -> hole d d' ->
  poi hole (n_live_oil_volume_factor a b c d) (n_live_oil_volume_factor a' b' c' d').
Proof. intros. unfold n_live_oil_volume_factor. poison_. Qed.
#[global] Hint Extern 1 (rrel _ _ (n_live_oil_volume_factor _ _ _ _) _) => apply poi_live_oil_volume_factor; hole_solve : poi.
Lemma poi_live_oil_pseudo_density : forall a a' b b' c c' d d', hole a a' -> hole b b' -> hole c c' -> hole d d' ->
  poi hole (n_live_oil_pseudo_density a b c d) (n_live_oil_pseudo_density a' b' c' d').
Proof. intros. unfold n_live_oil_pseudo_density. poison_. Qed.
#[global] Hint Extern 1 (rrel _ _ (n_live_oil_pseudo_density _ _ _ _) _) => apply poi_live_oil_pseudo_density; hole_solve : poi.
Lemma poi_live_oil_density : forall a a' b b' c c' d d' e e', hole a a' -> hole b b' -> hole c c' -> hole d d' -> hole e e' ->
  poi hole (n_live_oil_density a b c d e) (n_live_oil_density a' b' c' d' e').
Proof. intros. unfold n_live_oil_density. poison_. Qed.
#[global] Hint Extern 1 (rrel _ _ (n_live_oil_density _ _ _ _ _) _) => apply poi_live_oil_density; hole_solve : poi.
Lemma poi_live_oil_primary_velocity : forall a a' b b' c c' d d' e e', hole a a' -> hole b b' -> hole c c' -> hole d d' -> hole e e' ->
  poi hole (n_live_oil_primary_velocity a b c d e) (n_live_oil_primary_velocity a' b' c' d' e').
Proof. intros. unfold n_live_oil_primary_velocity. poison_. Qed.
#[global] Hint Extern 1 (rrel _ _ (n_live_oil_primary_velocity _ _ _ _ _) _) => apply poi_live_oil_primary_velocity; hole_solve : poi.
Lemma poi_live_oil : forall a a' b b' c c' d d' e e', hole a a' -> hole b b' -> hole c c' -> hole d d' -> hole e e' ->
  poi hole_material (n_live_oil a b c d e) (n_live_oil a' b' c' d' e').
Proof. intros. unfold n_live_oil. poison_. Qed.
#[global] Hint Extern 1 (rrel _ _ (n_live_oil _ _ _ _ _) _) => apply poi_live_oil; hole_solve : poi.
Lemma poi_oil : forall a a' b b' c c' d d' e e', hole a a' -> hole b b' -> hole c c' -> hole d d' -> hole e e' ->
  poi hole_material (n_oil a b c d e) (n_oil a' b' c' d' e').
Proof. intros. unfold n_oil. poison_. Qed.
#[global] Hint Extern 1 (rrel _ _ (n_oil _ _ _ _ _) _) => apply poi_oil; hole_solve : poi.
Lemma poi_water_density : forall a a' b b', hole a a' -> hole b b' ->
  poi hole (n_water_density a b) (n_water_density a' b').
Proof. intros. unfold n_water_density. poison_. Qed.
#[global] Hint Extern 1 (rrel _ _ (n_water_density _ _) _) => apply poi_water_density; hole_solve : poi.
Lemma poi_water_primary_velocity : forall a a' b b', hole a a' -> hole b b' ->
  poi hole (n_water_primary_velocity a b) (n_water_primary_velocity a' b').
Proof. intros. unfold n_water_primary_velocity. poison_. Qed.
#[global] Hint Extern 1 (rrel _ _ (n_water_primary_velocity _ _) _) => apply poi_water_primary_velocity; hole_solve : poi.
Lemma poi_water : forall a a' b b', hole a a' -> hole b b' ->
  poi hole_material (n_water a b) (n_water a' b').
Proof. intros. unfold n_water. poison_. Qed.
#[global] Hint Extern 1 (rrel _ _ (n_water _ _) _) => apply poi_water; hole_solve : poi.
Lemma poi_brine_density : forall a a' b b' c c', hole a a' -> hole b b' -> hole c c' ->
  poi hole (n_brine_density a b c) (n_brine_density a' b' c').
Proof. intros. unfold n_brine_density. poison_. Qed.
#[global] Hint Extern 1 (rrel _ _ (n_brine_density _ _ _) _) => apply poi_brine_density; hole_solve : poi.
Lemma poi_brine_primary_velocity : forall a a' b b' c c', hole a a' -> hole b b' -> hole c c' ->
  poi hole (n_brine_primary_velocity a b c) (n_brine_primary_velocity a' b' c').
Proof. intros. unfold n_brine_primary_velocity. poison_. Qed.
#[global] Hint Extern 1 (rrel _ _ (n_brine_primary_velocity _ _ _) _) => apply poi_brine_primary_velocity; hole_solve : poi.
Lemma poi_brine : forall a a' b b' c c', hole a a' -> hole b b' -> hole c c' ->
  poi hole_material (n_brine a b c) (n_brine a' b' c').
Proof. intros. unfold n_brine. poison_. Qed.
#[global] Hint Extern 1 (rrel _ _ (n_brine _ _ _) _) => apply poi_brine; hole_solve : poi.
