(** Replacing numbers of a table by nan. *)
From Coq Require Import String List ZArith Lra.
From Verif Require Import Base FluidsModel ConfigModel BatzleWangModel RowModel NumModel NanModel NanSpec RelProofs PoisonSpec
  PoisonProofs.
Import ListNotations.
Open Scope R_scope.

Lemma arel_hole_refl : forall a, arel hole a a.
Proof. intros [x|l]; cbn; [apply hole_refl|]. induction l; constructor; [apply hole_refl|assumption]. Qed.
Lemma holes_mk : forall k mu d p s k' mu' d' p' s',
  arel hole k k' -> arel hole mu mu' -> arel hole d d' -> arel hole p p' -> arel hole s s' ->
  poi holes_mat (Ok (mkNB k mu d p s)) (Ok (mkNB k' mu' d' p' s')).
Proof. intros. apply rrel_ok. repeat split; assumption. Qed.
#[global] Hint Extern 1 (rrel _ _ (Ok (mkNB _ _ _ _ _)) _) => apply holes_mk; poi_arel : poi.

(** ** Materials *)
Lemma poi_check_velocities : forall p p' s s', arel hole p p' -> arel hole s s' ->
  poi urel (n_check_velocities p s) (n_check_velocities p' s').
Proof. intros. unfold n_check_velocities. poison_. Qed.
Lemma poi_check_moduli : forall k k' mu mu' d d', arel hole k k' -> arel hole mu mu' -> arel hole d d' ->
  poi urel (n_check_moduli k mu d) (n_check_moduli k' mu' d').
Proof. intros. unfold n_check_moduli. poison_. Qed.
#[global] Hint Extern 1 (rrel _ _ (n_check_velocities _ _) _) => apply poi_check_velocities; poi_arel : poi.
#[global] Hint Extern 1 (rrel _ _ (n_check_moduli _ _ _) _) => apply poi_check_moduli; poi_arel : poi.
Lemma poi_zero_guard : forall d d', arel hole d d' ->
  poi urel (guard (any (fun d => if neqb d (Num 0) then true else false) d) NonFinite)
    (guard (any (fun d => if neqb d (Num 0) then true else false) d') NonFinite).
Proof.
  intros d d' H. apply poi_guard. eapply any_mono; [exact H|]. intros x y E.
  destruct (neqb y (Num 0)) eqn:F; [|discriminate].
  rewrite (proj1 (neqb_hole _ _ _ _ E (hole_refl _) F)). reflexivity.
Qed.
Lemma poi_mat_of_moduli : forall k k' mu mu' d d', arel hole k k' -> arel hole mu mu' -> arel hole d d' ->
  poi holes_mat (nmat_of_moduli k mu d) (nmat_of_moduli k' mu' d').
Proof.
  intros. unfold nmat_of_moduli. eapply rrel_bind; [apply poi_zero_guard; assumption|]. intros _ _ _. poison_.
Qed.
Lemma poi_mat_of_velocities : forall d d' p p' s s', arel hole d d' -> arel hole p p' -> arel hole s s' ->
  poi holes_mat (nmat_of_velocities d p s) (nmat_of_velocities d' p' s').
Proof. intros. unfold nmat_of_velocities, n_bulk_modulus, n_shear_modulus. poison_. Qed.
#[global] Hint Extern 1 (rrel _ _ (nmat_of_moduli _ _ _) _) => apply poi_mat_of_moduli; poi_arel : poi.
#[global] Hint Extern 1 (rrel _ _ (nmat_of_velocities _ _ _) _) => apply poi_mat_of_velocities; poi_arel : poi.

Lemma poi_arbitrary : forall k k' mu mu' d d', arel hole k k' -> arel hole mu mu' -> arel hole d d' ->
  poi holes_mat (narbitrary k mu d) (narbitrary k' mu' d').
Proof. intros. unfold narbitrary. poison_. Qed.
#[global] Hint Extern 1 (rrel _ _ (narbitrary _ _ _) _) => apply poi_arbitrary; poi_arel : poi.

Lemma holes_unpack : forall a a', arel hole_material a a' -> holes_mat (n_unpack a) (n_unpack a').
Proof.
  intros a a' H. unfold n_unpack, holes_mat. cbn.
  repeat split; (eapply (arel_pmap hole_material hole); [exact H|intros x y E; apply E]).
Qed.
Lemma poi_vectorize : forall X Y (P : X -> Y -> Prop) f g a b, arel P a b ->
  (forall x y, P x y -> poi hole_material (f x) (g y)) -> poi holes_mat (n_vectorize_material f a) (n_vectorize_material g b).
Proof.
  intros X Y P f g a b H F. unfold n_vectorize_material.
  eapply rrel_bind; [eapply rrel_amap; [exact H|exact F]|].
  intros [m|l] [v|l'] G; cbn in G; try contradiction.
  - apply rrel_ok, holes_unpack. exact G.
  - apply poi_mat_of_velocities; (eapply Forall2_maps; [exact G|intros x y E; apply E]).
Qed.

Lemma poi_poisson : forall m m', holes_mat m m' -> poi (arel hole) (n_poisson_ratio m) (n_poisson_ratio m').
Proof. intros. unfold n_poisson_ratio. poison_. Qed.
Lemma holes_wave : forall m m', holes_mat m m' -> arel hole (n_primary_wave_modulus m) (n_primary_wave_modulus m').
Proof. intros. unfold n_primary_wave_modulus. poi_arel. Qed.
#[global] Hint Extern 1 (rrel _ _ (n_poisson_ratio _) _) => apply poi_poisson; eassumption : poi.
#[global] Hint Extern 1 (arel _ (n_primary_wave_modulus _) _) => apply holes_wave; eassumption : poi.

(** ** Mixing *)
Lemma poi_check_is_ratio : forall r r', arel hole r r' -> poi urel (n_check_is_ratio r) (n_check_is_ratio r').
Proof. intros. unfold n_check_is_ratio. poison_. Qed.
#[global] Hint Extern 1 (rrel _ _ (n_check_is_ratio _) _) => apply poi_check_is_ratio; poi_arel : poi.
Lemma nsub_nan_r : forall a, nsub a Nan = Nan. Proof. intros []; reflexivity. Qed.
Lemma nadd_nan_r : forall a, nadd a Nan = Nan. Proof. intros []; reflexivity. Qed.
Lemma nmul_nan_r : forall a, nmul a Nan = Nan. Proof. intros []; reflexivity. Qed.
Lemma hole_cases : forall a a' b b', hole a a' -> hole b b' -> (a' = Nan \/ b' = Nan) \/ (a = a' /\ b = b').
Proof. intros a a' b b' [->| ->] [->| ->]; auto. Qed.
Lemma hole_calc_density : forall a a' b b' c c' d d', hole a a' -> hole b b' -> hole c c' -> hole d d' ->
  hole (n_calc_density a b c d) (n_calc_density a' b' c' d').
Proof.
  intros a a' b b' c c' d d' A B C D. unfold n_calc_density. destruct (neqb a' b') eqn:E.
  - destruct (neqb_hole _ _ _ _ A B E) as [-> [_ F]]. right. exact F.
  - destruct (neqb a b) eqn:F; [|hole_solve].
    destruct (hole_cases _ _ _ _ A B) as [[->| ->]|[-> ->]].
    + rewrite nmul_nan_r. left. reflexivity.
    + rewrite nmul_nan_r, nadd_nan_r. left. reflexivity.
    + congruence.
Qed.
(** A step that fails or gives nan. *)
Lemma poi_nan : forall x (s : res num), s = Err ZeroDivisionError \/ s = Ok Nan -> poi hole (Ok x) s.
Proof. intros x s [->| ->]; [reflexivity|apply hole_nan]. Qed.
Definition lost (s : res num) : Prop := s = Err ZeroDivisionError \/ s = Ok Nan.
Definition zd (s : res num) : Prop := s = Err ZeroDivisionError \/ exists x, s = Ok x.
Lemma p_div_zd : forall a b, zd (p_div a b).
Proof. intros a [y|]; unfold p_div, zd; [destruct (Req_EM_T y 0)|]; eauto. Qed.
Lemma lost_bind : forall r (f : num -> res num), zd r -> (forall x, lost (f x)) -> lost (bind r f).
Proof. intros r f [->|[x ->]] H; cbn; [left; reflexivity|apply H]. Qed.
Lemma lost_bind_nan : forall r (f : num -> res num), lost r -> lost (f Nan) -> lost (bind r f).
Proof. intros r f [->| ->] H; cbn; [left; reflexivity|exact H]. Qed.
Lemma lost_div : forall a b, a = Nan \/ b = Nan -> lost (p_div a b).
Proof.
  intros a b [->| ->]; unfold p_div, lost; [|right; reflexivity].
  destruct b as [y|]; [destruct (Req_EM_T y 0)|]; auto.
Qed.
Lemma lost_bulk : forall k1 k2 m f g, k1 = Nan \/ k2 = Nan -> lost (n_calc_bulk_modulus k1 k2 m f g).
Proof.
  intros k1 k2 m f g H. unfold n_calc_bulk_modulus.
  assert (E : neqb k1 k2 = false) by (destruct H as [->| ->]; [reflexivity|destruct k1; reflexivity]). rewrite E.
  assert (D : nsub k2 k1 = Nan) by (destruct H as [->| ->]; [apply nsub_nan_r|reflexivity]). rewrite D.
  apply lost_bind_nan; [apply lost_div; right; reflexivity|].
  apply lost_bind; [apply p_div_zd|]. intro b. apply lost_bind_nan; [apply lost_div; right; reflexivity|].
  right. rewrite nadd_nan_r. reflexivity.
Qed.
Lemma lost_shear : forall k1 k2 km m f g, k1 = Nan \/ k2 = Nan -> lost (n_calc_shear_modulus k1 k2 km m f g).
Proof.
  intros k1 k2 km m f g H. unfold n_calc_shear_modulus.
  assert (E : neqb k1 k2 = false) by (destruct H as [->| ->]; [reflexivity|destruct k1; reflexivity]). rewrite E.
  assert (D : nsub k2 k1 = Nan) by (destruct H as [->| ->]; [apply nsub_nan_r|reflexivity]). rewrite D.
  apply lost_bind_nan; [apply lost_div; right; reflexivity|].
  apply lost_bind; [apply p_div_zd|]. intro z. apply lost_bind; [apply p_div_zd|]. intro b.
  apply lost_bind_nan; [apply lost_div; right; reflexivity|].
  right. rewrite nadd_nan_r. reflexivity.
Qed.
Lemma poi_lost : forall (r s : res num), lost s -> poi hole r s.
Proof. intros r s [->| ->]; destruct r; cbn; try exact I; [reflexivity|apply hole_nan]. Qed.
Lemma poi_calc_bulk : forall a a' b b' c c' d d' e e', hole a a' -> hole b b' -> hole c c' -> hole d d' -> hole e e' ->
  poi hole (n_calc_bulk_modulus a b c d e) (n_calc_bulk_modulus a' b' c' d' e').
Proof.
  intros a a' b b' c c' d d' e e' A B C D E. destruct (hole_cases _ _ _ _ A B) as [H|[-> ->]].
  - apply poi_lost, lost_bulk, H.
  - unfold n_calc_bulk_modulus. destruct (neqb a' b'); [apply rrel_ok, hole_refl|]. poison_.
Qed.
Lemma poi_calc_shear : forall a a' b b' c c' d d' e e' f f', hole a a' -> hole b b' -> hole c c' -> hole d d' ->
  hole e e' -> hole f f' -> poi hole (n_calc_shear_modulus a b c d e f) (n_calc_shear_modulus a' b' c' d' e' f').
Proof.
  intros a a' b b' c c' d d' e e' f f' A B C D E F. destruct (hole_cases _ _ _ _ A B) as [H|[-> ->]].
  - apply poi_lost, lost_shear, H.
  - unfold n_calc_shear_modulus. destruct (neqb a' b'); [apply rrel_ok, hole_refl|]. poison_.
Qed.
#[global] Hint Extern 1 (rrel _ _ (n_calc_bulk_modulus _ _ _ _ _) _) => apply poi_calc_bulk; hole_solve : poi.
#[global] Hint Extern 1 (rrel _ _ (n_calc_shear_modulus _ _ _ _ _ _) _) => apply poi_calc_shear; hole_solve : poi.
#[global] Hint Resolve hole_calc_density : poi.
Lemma poi_walpole : forall m m' n n' r r', holes_mat m m' -> holes_mat n n' -> arel hole r r' ->
  poi holes_mat (n_walpole m n r) (n_walpole m' n' r').
Proof. intros. unfold n_walpole. poison_. Qed.
#[global] Hint Extern 1 (rrel _ _ (n_walpole _ _ _) _) => apply poi_walpole; [eassumption|eassumption|poi_arel] : poi.

(** ** Minerals *)
Lemma poi_fraction_is_ratio : forall v v', orel (arel hole) v v' ->
  poi urel (n_fraction_is_ratio v) (n_fraction_is_ratio v').
Proof.
  intros [v|] [v'|] H; cbn in H; try contradiction; [|exact I]. unfold n_fraction_is_ratio. poison_.
Qed.
#[global] Hint Extern 1 (rrel _ _ (n_fraction_is_ratio (Some _)) _) => apply poi_fraction_is_ratio; cbn [orel]; poi_arel : poi.
Lemma holes_sum_given : forall fs fs', Forall2 (orel (arel hole)) fs fs' -> arel hole (n_sum_given fs) (n_sum_given fs').
Proof.
  intros fs fs' H. induction H as [|x y fs fs' H1 H2 IH]; [cbn; apply hole_refl|].
  destruct x as [a|], y as [b|]; cbn [n_sum_given]; cbn in H1; try contradiction; [poi_arel|exact IH].
Qed.
Lemma orel_missing : forall {A B} (P : A -> B -> Prop) fs fs', Forall2 (orel P) fs fs' -> missing fs = missing fs'.
Proof.
  intros A B P fs fs' H. induction H as [|x y fs fs' H1 H2 IH]; [reflexivity|].
  destruct x as [a|], y as [b|]; cbn [missing]; cbn in H1; try contradiction; congruence.
Qed.
Lemma poi_fix_one_fraction : forall fs fs', Forall2 (orel (arel hole)) fs fs' ->
  poi (Forall2 (arel hole)) (n_fix_one_fraction fs) (n_fix_one_fraction fs').
Proof.
  intros fs fs' H. unfold n_fix_one_fraction. cbv zeta.
  pose proof (holes_sum_given _ _ H) as G0. rewrite (orel_missing _ _ _ H).
  assert (G : arel hole (pmap (fun s => nsub (Num 1) s) (n_sum_given fs)) (pmap (fun s => nsub (Num 1) s) (n_sum_given fs')))
    by poi_arel.
  eapply rrel_bind; [poison_|]. intros _ _ _. eapply rrel_bind with (P := urel).
  - destruct (missing fs') as [|[|k]]; [exact I|apply poi_fraction_is_ratio, G|exact I].
  - intros _ _ _. apply rrel_ok. eapply Forall2_maps; [exact H|].
    intros [x|] [y|] E; cbn in E; try contradiction; [exact E|exact G].
Qed.
Lemma holes_sum : forall l l', Forall2 (arel hole) l l' -> arel hole (nsum l) (nsum l').
Proof. intros l l' H. induction H; cbn [nsum]; poi_arel. Qed.
#[global] Hint Extern 1 (arel _ (nsum _) _) => apply holes_sum; eassumption : poi.
(** The fractions of the minerals are the same. *)
Notation part := (prel holes_mat eq).
Lemma same_res : forall {A} (r : res A), poi eq r r.
Proof. intros A [a|e]; [reflexivity|exact I]. Qed.
Lemma poi_minerals : forall cs cs', Forall2 (prel holes_mat eq) cs cs' ->
  poi (Forall2 part) (n_minerals cs) (n_minerals cs').
Proof.
  intros cs cs' H. unfold n_minerals.
  assert (G : map snd cs = map snd cs').
  { induction H as [|x y l l' [_ H1] H2 IH]; [reflexivity|]. cbn [map]. rewrite H1, IH. reflexivity. }
  eapply rrel_bind with (P := urel). { destruct H; [exact I|exact I]. }
  intros _ _ _. eapply rrel_bind with (P := urel).
  { eapply rrel_each; [exact H|]. intros x y [_ ->]. eapply rrel_mono; [apply same_res|]. intros; exact I. }
  intros _ _ _. rewrite <- G. eapply rrel_bind; [apply same_res|]. intros fs ? <-.
  eapply rrel_bind with (P := urel). { eapply rrel_mono; [apply same_res|]. intros; exact I. }
  intros _ _ _. apply rrel_ok. apply Forall2_combine.
  - eapply Forall2_maps; [exact H|]. intros x y [E _]. exact E.
  - clear. induction fs; constructor; [reflexivity|assumption].
Qed.
Lemma poi_mix_minerals : forall c c' n n', part c c' -> part n n' -> poi part (n_mix_minerals c n) (n_mix_minerals c' n').
Proof.
  intros [m f] [m' f'] [n g] [n' g'] [H1 H2] [G1 G2]. cbn [fst snd] in *. subst f' g'. unfold n_mix_minerals. cbn [fst snd]. cbv zeta.
  eapply rrel_bind; [apply same_res|]. intros r ? <-.
  eapply rrel_bind; [apply poi_walpole; [eassumption|eassumption|apply arel_hole_refl]|]. intros w w' W.
  eapply rrel_bind; [apply poi_arbitrary; apply W|]. intros a a' A.
  eapply rrel_bind; [apply same_res|]. intros ? ? <-. apply rrel_ok. split; [exact A|reflexivity].
Qed.
Lemma poi_mix_loop : forall l l' c c', Forall2 part l l' -> part c c' -> poi part (n_mix_loop c l) (n_mix_loop c' l').
Proof.
  intros l l' c c' H. revert c c'. induction H as [|x y l l' H1 H2 IH]; intros c c' G; cbn [n_mix_loop].
  - apply rrel_ok, G.
  - eapply rrel_bind; [apply poi_mix_minerals; eassumption|]. intros a b E. apply IH, E.
Qed.
Lemma poi_minerals_as_mixture : forall l l', Forall2 part l l' ->
  poi holes_mat (n_minerals_as_mixture l) (n_minerals_as_mixture l').
Proof.
  intros l l' H. unfold n_minerals_as_mixture. destruct H as [|x y l l' H1 H2]; [exact I|].
  eapply rrel_bind; [apply poi_mix_loop; eassumption|]. intros a b [E _]. apply rrel_ok, E.
Qed.

(** ** Fluids *)
Lemma poi_fluid : forall k k' d d', arel hole k k' -> arel hole d d' -> poi holes_mat (n_fluid k d) (n_fluid k' d').
Proof. intros. unfold n_fluid. poison_. Qed.
Lemma zip_reuse : forall {A B C D} (f : A -> C) (g : A * B * C -> D) (t : arr A) (s : arr B),
  pmap g (zip (zip t s) (pmap f t)) = pmap (fun x => g (x, f (fst x))) (zip t s).
Proof.
  intros A B C D f g [t|t] [s|s]; cbn; try reflexivity.
  - f_equal. rewrite !map_map. reflexivity.
  - f_equal. induction t as [|x t IH]; cbn; [reflexivity|]. rewrite IH. reflexivity.
  - f_equal. revert s. induction t as [|x t IH]; intros [|y s]; cbn; try reflexivity. rewrite IH. reflexivity.
Qed.
Lemma holes_saturations : forall l l', Forall2 (arel hole) l l' ->
  Forall2 (arel hole) (n_sum_saturations_to_one l) (n_sum_saturations_to_one l').
Proof.
  intros l l' H. unfold n_sum_saturations_to_one. cbv zeta. pose proof (holes_sum _ _ H) as G.
  eapply Forall2_maps; [exact H|]. intros x y E. unfold zip3. rewrite !zip_reuse.
  eapply arel_pmap; [poi_arel|]. intros [t s] [t' s'] [T S]. cbn [fst snd] in *.
  destruct T as [->| ->]; [apply hole_nan|]. destruct (nltb (Num 0) t'); hole_solve.
Qed.
Lemma holes_mix_densities : forall fs fs' s s', Forall2 holes_mat fs fs' -> Forall2 (arel hole) s s' ->
  arel hole (n_mix_densities fs s) (n_mix_densities fs' s').
Proof.
  intros. unfold n_mix_densities. apply holes_sum.
  eapply Forall2_maps; [apply Forall2_combine; eassumption|].
  intros x y [E1 E2]. poi_arel.
Qed.
Lemma poi_sum_res : forall l l', Forall2 (poi (arel hole)) l l' -> poi (arel hole) (nsum_res l) (nsum_res l').
Proof. intros l l' H. induction H; cbn [nsum_res]; poison_; try eassumption. Qed.
Lemma poi_mix_bulk_moduli : forall fs fs' s s', Forall2 holes_mat fs fs' -> Forall2 (arel hole) s s' ->
  poi (arel hole) (n_mix_bulk_moduli fs s) (n_mix_bulk_moduli fs' s').
Proof.
  intros fs fs' s s' H G. unfold n_mix_bulk_moduli. cbv zeta.
  assert (C : Forall2 (prel (arel hole) holes_mat) (combine s fs) (combine s' fs')) by (apply Forall2_combine; assumption).
  eapply rrel_bind with (P := urel). { destruct C; exact I. }
  intros _ _ _. eapply rrel_bind.
  - apply poi_sum_res. eapply Forall2_maps; [exact C|]. intros x y [E1 E2]. poison_.
  - intros t t' T. poison_.
Qed.
Lemma poi_wood : forall fs fs' s s', Forall2 holes_mat fs fs' -> Forall2 (arel hole) s s' ->
  poi holes_mat (n_wood fs s) (n_wood fs' s').
Proof.
  intros fs fs' s s' H G. unfold n_wood. cbv zeta. pose proof (holes_saturations _ _ G) as S0.
  eapply rrel_bind; [apply poi_mix_bulk_moduli; eassumption|]. intros k k' K.
  apply poi_fluid; [exact K|]. apply holes_mix_densities; assumption.
Qed.
Lemma poi_brie : forall fs fs' s s' gs gs' t t' e, Forall2 holes_mat fs fs' -> Forall2 (arel hole) s s' ->
  Forall2 holes_mat gs gs' -> Forall2 (arel hole) t t' ->
  poi holes_mat (n_brie fs s gs t e) (n_brie fs' s' gs' t' e).
Proof.
  intros fs fs' s s' gs gs' t t' e H1 H2 H3 H4. unfold n_brie.
  rewrite (Forall2_len _ _ _ H1), (Forall2_len _ _ _ H2), (Forall2_len _ _ _ H3), (Forall2_len _ _ _ H4).
  eapply rrel_bind; [apply same_res|]. intros _ _ _.
  eapply rrel_bind; [apply same_res|]. intros _ _ _.
  destruct H1 as [|f f' fs fs' H1 H1'], H3 as [|g g' gs gs' H3 H3']; [exact I| | |].
  - apply poi_wood; [constructor|]; assumption.
  - apply poi_wood; [constructor|]; assumption.
  - eapply rrel_bind; [apply poi_wood; [constructor|]; assumption|]. intros l l' L.
    eapply rrel_bind; [apply poi_wood; [constructor|]; assumption|]. intros k k' K. cbv zeta.
    pose proof (holes_sum _ _ H2) as S0.
    eapply rrel_bind; [eapply rrel_amap; [exact S0|]; intros x y E; apply poi_pow; [exact E|apply hole_refl]|]. intros w w' W.
    apply poi_fluid; [poi_arel|]. apply holes_mix_densities.
    + apply Forall2_cons; [exact L|]. apply Forall2_cons; [exact K|]. constructor.
    + apply Forall2_cons; [exact S0|]. apply Forall2_cons; [poi_arel|]. constructor.
Qed.
Lemma poi_gassman : forall a a' b b' c c' d d', hole a a' -> hole b b' -> hole c c' -> hole d d' ->
  poi hole (n_gassman_equation a b c d) (n_gassman_equation a' b' c' d').
Proof.
  intros a a' b b' c c' d d' A B C D. unfold n_gassman_equation.
  destruct (neqb d' (Num 0)) eqn:Z'.
  { destruct (neqb_hole _ _ _ _ D (hole_refl _) Z') as [-> _]. apply rrel_ok, B. }
  destruct (neqb a' b') eqn:E'.
  { destruct (neqb_hole _ _ _ _ A B E') as [E [_ F]]. rewrite E. subst b'.
    destruct (neqb d (Num 0)); apply rrel_ok, hole_refl. }
  destruct (hole_cases _ _ _ _ A B) as [N|[-> ->]].
  { apply poi_lost. assert (F : nsub b' a' = Nan) by (destruct N as [->| ->]; [apply nsub_nan_r|reflexivity]). rewrite F.
    apply lost_bind_nan; [apply lost_div; right; reflexivity|]. apply lost_bind; [apply p_div_zd|]. intro x.
    cbv zeta. cbn [nltb nadd nlift2]. apply lost_bind_nan; [apply lost_div; left; reflexivity|]. right. reflexivity. }
  rewrite E'. destruct (neqb d (Num 0)) eqn:Z.
  { destruct D as [->| ->]; [|congruence].
    apply poi_lost. apply lost_bind; [apply p_div_zd|]. intro x.
    apply lost_bind_nan; [apply lost_div; right; apply nmul_nan_r|]. cbv zeta. rewrite nadd_nan_r.
    cbn [nltb]. apply lost_bind_nan; [apply lost_div; left; reflexivity|]. right. reflexivity. }
  eapply rrel_bind; [poi_leaf|]. intros x x' X. eapply rrel_bind; [poi_leaf|]. intros y y' Y. cbv zeta.
  assert (L : hole (nadd x y) (nadd x' y')) by hole_solve.
  destruct (nltb (nadd x' y') (Num 0)) eqn:G'.
  { rewrite (nltb_hole _ _ _ _ L (hole_refl _) G'). exact I. }
  destruct (nltb (nadd x y) (Num 0)); [destruct (bind _ _); exact I|]. poison_.
Qed.
#[global] Hint Extern 1 (rrel _ _ (n_gassman_equation _ _ _ _) _) => apply poi_gassman; hole_solve : poi.
Lemma poi_substitution : forall a a' b b' c c' p p', holes_mat a a' -> holes_mat b b' -> holes_mat c c' -> arel hole p p' ->
  poi holes_mat (n_fluid_substitution a b c p) (n_fluid_substitution a' b' c' p').
Proof. intros. unfold n_fluid_substitution. poison_. Qed.

(** ** Fluid models *)
Definition phase := prel holes_mat (arel hole).
Section Co2.
Context (co2 : n_equation_of_state) (X : passes_nan_on co2).
Lemma poi_co2 : forall t t' p p' i, hole t t' -> hole p p' -> poi hole_material (co2 t p i) (co2 t' p' i).
Proof.
  intros t t' p p' i T P. destruct (co2 t p i) as [m|e] eqn:E.
  - destruct (X _ _ _ _ _ _ T P E) as [v [-> V]]. exact V.
  - destruct (co2 t' p' i); exact I.
Qed.
Lemma poi_eos : forall t t' p p' i, arel hole t t' -> arel hole p p' -> poi holes_mat (n_eos co2 t p i) (n_eos co2 t' p' i).
Proof.
  intros t t' p p' i H G. unfold n_eos. eapply rrel_bind.
  - eapply rrel_amap; [poi_arel|]. intros x y E. poi_prods. apply poi_co2; assumption.
  - intros a b E. apply rrel_ok, holes_unpack, E.
Qed.
Lemma poi_fluid_as_material : forall p f f' t t' q q', holes_fluid f f' -> arel hole t t' -> arel hole q q' ->
  poi phase (n_fluid_as_material co2 p f t q) (n_fluid_as_material co2 p f' t' q').
Proof.
  intros p f f' t t' q q' F T Q.
  destruct f as [m|r rg g|g|s|r rg g|i], f' as [m'|r' rg' g'|g'|s'|r' rg' g'|i']; try contradiction; cbn [holes_fluid] in F;
    destruct p; cbn [n_fluid_as_material]; try exact I;
    try (apply rrel_ok; split; assumption);
    try (try destruct F as (F1 & F2 & F3);
         eapply rrel_bind; [eapply poi_vectorize; [unfold holes in *; poi_arel|intros; poi_prods; poi_leaf]|];
         intros a b E; apply rrel_ok; split; assumption).
  subst i'. cbv zeta. unfold n_celsius_to_kelvin. eapply rrel_bind; [apply poi_eos; poi_arel|]. intros a b E. apply rrel_ok.
  split; cbn [fst snd]; [exact E|poi_arel].
Qed.
Lemma poi_as_materials : forall cs cs' p t t' q q', Forall2 holes_constituent cs cs' -> arel hole t t' -> arel hole q q' ->
  poi (Forall2 holes_mat) (n_as_materials co2 p t q cs) (n_as_materials co2 p t' q' cs').
Proof.
  intros cs cs' p t t' q q' C T. revert q q'. induction C as [|c c' cs cs' C1 C2 IH]; intros q q' Q; cbn [n_as_materials].
  - apply rrel_ok. constructor.
  - cbv zeta. destruct C1 as (F & _ & M). rewrite M.
    eapply rrel_bind; [apply poi_fluid_as_material; eassumption|]. intros a b [E1 E2].
    eapply rrel_bind; [apply IH; eassumption|]. intros u v E. apply rrel_ok. constructor; assumption.
Qed.
Lemma poi_as_mixture : forall f f' q q', holes_fluids f f' -> arel hole q q' ->
  poi holes_mat (n_as_mixture co2 f q) (n_as_mixture co2 f' q').
Proof.
  intros f f' q q' (T & C & M1 & M2 & M3 & M4) Q. unfold n_as_mixture. rewrite M1, M2, M3, M4.
  eapply rrel_bind; [apply poi_as_materials; eassumption|].
  intros ms ms' M. cbv zeta.
  assert (F : Forall2 (arel hole) (map nc_fraction (nf_constituents f)) (map nc_fraction (nf_constituents f'))).
  { eapply Forall2_maps; [exact C|]. intros x y (_ & E & _). exact E. }
  destruct (nf_mix_method f'); [apply poi_wood; assumption|].
  eapply rrel_bind; [eapply rrel_pop_all, M|]. intros g g' [G1 G2].
  eapply rrel_bind; [eapply rrel_pop_all, F|]. intros s s' [S1 S2].
  apply poi_brie; assumption.
Qed.
End Co2.

(** ** Sandstone models *)
Lemma poi_hertz_mindlin : forall m m' a a' b b' c c' d d', holes_mat m m' -> arel hole a a' -> arel hole b b' ->
  arel hole c c' -> arel hole d d' -> poi holes_mat (n_hertz_mindlin m a b c d) (n_hertz_mindlin m' a' b' c' d').
Proof. intros. unfold n_hertz_mindlin. poison_. Qed.
#[global] Hint Extern 1 (rrel _ _ (n_hertz_mindlin _ _ _ _ _) _) => apply poi_hertz_mindlin; [eassumption|poi_arel..] : poi.
Lemma poi_friable_sand : forall m m' a a' b b' c c' d d' e e', holes_mat m m' -> arel hole a a' -> arel hole b b' ->
  arel hole c c' -> arel hole d d' -> arel hole e e' ->
  poi holes_mat (n_friable_sand m a b c d e) (n_friable_sand m' a' b' c' d' e').
Proof. intros. unfold n_friable_sand. poison_. Qed.
#[global] Hint Extern 1 (rrel _ _ (n_friable_sand _ _ _ _ _ _) _) => apply poi_friable_sand; [eassumption|poi_arel..] : poi.
Lemma poi_shear_stiffness_at : forall a a' b b' c c' d d', hole a a' -> hole b b' -> hole c c' -> hole d d' ->
  poi hole (n_shear_stiffness_at a b c d) (n_shear_stiffness_at a' b' c' d').
Proof. intros. unfold n_shear_stiffness_at. poison_. Qed.
Lemma poi_normal_stiffness_at : forall a a' b b' c c' d d' e e', hole a a' -> hole b b' -> hole c c' -> hole d d' -> hole e e' ->
  poi hole (n_normal_stiffness_at a b c d e) (n_normal_stiffness_at a' b' c' d' e').
Proof. intros. unfold n_normal_stiffness_at. poison_. Qed.
#[global] Hint Extern 1 (rrel _ _ (n_shear_stiffness_at _ _ _ _) _) => apply poi_shear_stiffness_at; hole_solve : poi.
#[global] Hint Extern 1 (rrel _ _ (n_normal_stiffness_at _ _ _ _ _) _) => apply poi_normal_stiffness_at; hole_solve : poi.
Lemma poi_shear_stiffness : forall a a' b b' c c' d d', arel hole a a' -> arel hole b b' ->
  arel hole c c' -> arel hole d d' -> poi (arel hole) (n_shear_stiffness a b c d) (n_shear_stiffness a' b' c' d').
Proof. intros. unfold n_shear_stiffness. poison_. Qed.
Lemma poi_normal_stiffness : forall a a' b b' c c' d d' e e', arel hole a a' -> arel hole b b' ->
  arel hole c c' -> arel hole d d' -> arel hole e e' ->
  poi (arel hole) (n_normal_stiffness a b c d e) (n_normal_stiffness a' b' c' d' e').
Proof. intros. unfold n_normal_stiffness. poison_. Qed.
#[global] Hint Extern 1 (rrel _ _ (n_shear_stiffness _ _ _ _) _) => apply poi_shear_stiffness; poi_arel : poi.
#[global] Hint Extern 1 (rrel _ _ (n_normal_stiffness _ _ _ _ _) _) => apply poi_normal_stiffness; poi_arel : poi.
Lemma poi_check_porosities : forall a a' b b', arel hole a a' -> arel hole b b' ->
  poi urel (n_check_porosities a b) (n_check_porosities a' b').
Proof. intros. unfold n_check_porosities. poison_. Qed.
#[global] Hint Extern 1 (rrel _ _ (n_check_porosities _ _) _) => apply poi_check_porosities; poi_arel : poi.
Lemma poi_radius_ratio : forall a a' b b', arel hole a a' -> arel hole b b' ->
  poi (arel hole) (n_cement_radius_ratio a b) (n_cement_radius_ratio a' b').
Proof. intros. unfold n_cement_radius_ratio. poison_. Qed.
#[global] Hint Extern 1 (rrel _ _ (n_cement_radius_ratio _ _) _) => apply poi_radius_ratio; poi_arel : poi.
Lemma poi_contact_cement : forall m m' n n' a a' b b' c c' d d', holes_mat m m' -> holes_mat n n' -> arel hole a a' ->
  arel hole b b' -> arel hole c c' -> arel hole d d' ->
  poi holes_mat (n_contact_cement m n a b c d) (n_contact_cement m' n' a' b' c' d').
Proof. intros. unfold n_contact_cement. poison_. Qed.
#[global] Hint Extern 1 (rrel _ _ (n_contact_cement _ _ _ _ _ _) _) =>
  apply poi_contact_cement; [eassumption|eassumption|poi_arel..] : poi.
Lemma poi_constant_cement : forall m m' n n' a a' b b' c c' d d' e e', holes_mat m m' -> holes_mat n n' -> arel hole a a' ->
  arel hole b b' -> arel hole c c' -> arel hole d d' -> arel hole e e' ->
  poi holes_mat (n_constant_cement m n a b c d e) (n_constant_cement m' n' a' b' c' d' e').
Proof. intros. unfold n_constant_cement. poison_. Qed.
#[global] Hint Extern 1 (rrel _ _ (n_constant_cement _ _ _ _ _ _ _) _) =>
  apply poi_constant_cement; [eassumption|eassumption|poi_arel..] : poi.
Lemma hole_patchy_weight : forall a a' b b' c c', hole a a' -> hole b b' -> hole c c' ->
  hole (n_patchy_weight_at a b c) (n_patchy_weight_at a' b' c').
Proof.
  intros a a' b b' c c' A B C. unfold n_patchy_weight_at. cbv zeta. destruct (neqb c' b') eqn:E.
  - rewrite (proj1 (neqb_hole _ _ _ _ C B E)). apply hole_refl.
  - destruct (neqb c b) eqn:F; [|hole_solve].
    destruct (hole_cases _ _ _ _ C B) as [[->| ->]|[-> ->]]; [| |congruence].
    + left. destruct a', b'; reflexivity.
    + left. destruct a', c'; reflexivity.
Qed.
#[global] Hint Resolve hole_patchy_weight : poi.
Lemma poi_patchy_weight : forall a a' b b' c c', arel hole a a' -> arel hole b b' -> arel hole c c' ->
  poi (arel hole) (n_patchy_weight a b c) (n_patchy_weight a' b' c').
Proof.
  intros a a' b b' c c' A B C. unfold n_patchy_weight. cbv zeta.
  rewrite (arel_is_vec _ _ _ A), (arel_is_vec _ _ _ B), (arel_is_vec _ _ _ C).
  eapply rrel_bind; [apply same_res|]. intros _ _ _. apply rrel_ok. poi_arel.
Qed.
#[global] Hint Extern 1 (rrel _ _ (n_patchy_weight _ _ _) _) => apply poi_patchy_weight; poi_arel : poi.
Lemma poi_patchy_cement : forall m m' n n' a a' b b' c c' d d' e e' f f' g g' h h' i i', holes_mat m m' -> holes_mat n n' ->
  arel hole a a' -> arel hole b b' -> arel hole c c' -> arel hole d d' -> arel hole e e' -> arel hole f f' -> arel hole g g' ->
  arel hole h h' -> arel hole i i' ->
  poi holes_mat (n_patchy_cement m n a b c d e f g h i) (n_patchy_cement m' n' a' b' c' d' e' f' g' h' i').
Proof. intros. unfold n_patchy_cement. poison_. Qed.

(** ** Fits *)
Lemma poi_fit_property : forall x x' v v' c, hole x x' -> hole v v' -> poi hole (n_fit_property x v c) (n_fit_property x' v' c).
Proof. intros x x' v v' [m|] H G; cbn [n_fit_property]; [apply poi_polyval2d; assumption|exact I]. Qed.
#[global] Hint Extern 1 (rrel _ _ (n_fit_property _ _ _) _) => apply poi_fit_property; hole_solve : poi.
Lemma poi_fit_material : forall c d d' p p' s s' v v', hole d d' -> hole p p' -> hole s s' -> hole v v' ->
  poi hole_material (n_fit_material c (d, p, s, v)) (n_fit_material c (d', p', s', v')).
Proof. intros. unfold n_fit_material. poison_. destruct (uses_moduli c); poison_. Qed.
Lemma poi_polyval_material : forall c v v' m m', arel hole v v' -> holes_mat m m' ->
  poi holes_mat (n_polyval_material v m c) (n_polyval_material v' m' c).
Proof.
  intros. unfold n_polyval_material.
  destruct (uses_moduli c); (eapply poi_vectorize; [poi_arel|intros; poi_prods; apply poi_fit_material; assumption]).
Qed.
Lemma poi_friable_material : forall f f' p p' phi phi' m m', holes_friable f f' -> arel hole p p' -> arel hole phi phi' ->
  holes_mat m m' -> poi holes_mat (n_friable_material f p phi m) (n_friable_material f' p' phi' m').
Proof. intros f f' p p' phi phi' m m' (F1 & F2 & F3) P F M. unfold n_friable_material. apply poi_friable_sand; assumption. Qed.
Lemma poi_patchy_material : forall q q' p p' phi phi' m m', holes_patchy q q' -> arel hole p p' -> arel hole phi phi' ->
  holes_mat m m' -> poi holes_mat (n_patchy_material q p phi m) (n_patchy_material q' p' phi' m').
Proof.
  intros q q' p p' phi phi' m m' (F1 & F2 & F3 & F4 & F5 & F6 & F7) P F M. unfold n_patchy_material.
  apply poi_patchy_cement; try assumption; unfold holes in *; poi_arel.
Qed.
Definition hole3 : num * num * num -> num * num * num -> Prop := prel (prel hole hole) hole.
Lemma poi_three : forall f g rows, (forall r, poi hole (f r) (g r)) -> poi hole3 (n_three f rows) (n_three g rows).
Proof.
  intros f g [[a b] c] H. unfold n_three.
  eapply rrel_bind; [apply H|]. intros x x' E1. eapply rrel_bind; [apply H|]. intros y y' E2.
  eapply rrel_bind; [apply H|]. intros z z' E3. apply rrel_ok. repeat split; assumption.
Qed.
Lemma poi_polyfit_row : forall p p' r, hole p p' -> poi hole (n_polyfit_row p r) (n_polyfit_row p' r).
Proof. intros p p' [|a r] H; [exact I|]. unfold n_polyfit_row. apply rrel_ok, hole_polyval, H. Qed.
Ltac col := eapply rrel_bind; [apply same_res|]; intros ? ? <-.
Lemma poi_expfit_row : forall p p' r, hole p p' -> poi hole (n_expfit_row p r) (n_expfit_row p' r).
Proof. intros p p' r H. unfold n_expfit_row. do 3 col. poison_. Qed.
Lemma poi_logfit_row : forall p p' r, hole p p' -> poi hole (n_logfit_row p r) (n_logfit_row p' r).
Proof. intros p p' r H. unfold n_logfit_row. do 2 col. poison_. Qed.
Lemma poi_powerfit_row : forall p p' r, hole p p' -> poi hole (n_powerfit_row p r) (n_powerfit_row p' r).
Proof. intros p p' r H. unfold n_powerfit_row. do 2 col. poison_. Qed.
Lemma poi_stack : forall m m', holes_mat m m' -> poi (arel hole3) (n_stack_moduli m) (n_stack_moduli m').
Proof.
  intros m m' H. unfold n_stack_moduli. pose proof H as (H1 & H2 & H3 & H4 & H5).
  rewrite (arel_is_vec hole _ _ H1), (arel_is_vec hole _ _ H2), (arel_is_vec hole _ _ H3).
  eapply rrel_bind; [apply same_res|]. intros _ _ _.
  apply rrel_ok. unfold hole3. poi_arel.
Qed.
Ltac fit_rows L :=
  eapply rrel_bind; [apply same_res|]; intros rows ? <-;
  try (eapply rrel_bind with (P := urel);
       [apply poi_guard; intros; erewrite arel_no_rows; eassumption|]; intros _ _ _);
  eapply rrel_amap; [eassumption|]; intros x y E; apply poi_three; intro r; apply L, E.
Lemma poi_eval_model : forall md md' p p' phi phi' m m', holes_dependency md md' -> arel hole p p' -> arel hole phi phi' ->
  holes_mat m m' -> poi (arel hole3) (n_eval_model md p phi m) (n_eval_model md' p' phi' m').
Proof.
  intros md md' p p' phi phi' m m' D P F M.
  destruct md as [c|c|c|d b v|f|q]; cbn [holes_dependency] in D; try subst md'; cbn [n_eval_model].
  - fit_rows poi_polyfit_row.
  - fit_rows poi_expfit_row.
  - fit_rows poi_logfit_row.
  - fit_rows poi_powerfit_row.
  - destruct md' as [| | | |f'|]; try contradiction.
    eapply rrel_bind; [apply poi_friable_material; eassumption|]. intros a b E. apply poi_stack, E.
  - destruct md' as [| | | | |q']; try contradiction.
    eapply rrel_bind; [apply poi_patchy_material; eassumption|]. intros a b E. apply poi_stack, E.
Qed.
Lemma holes_uses_moduli : forall md md', holes_dependency md md' -> n_model_uses_moduli md = n_model_uses_moduli md'.
Proof. intros [c|c|c|d b v|f|q] md' H; cbn [holes_dependency] in H; try subst md'; try reflexivity; destruct md'; try contradiction; reflexivity. Qed.
Lemma tiny_value_hole : forall x x', hole x x' -> n_tiny_value x' = true -> n_tiny_value x = true.
Proof. intros x x' H. unfold n_tiny_value. poi_cmp. Qed.
Lemma tiny_hole : forall x y, hole3 x y -> n_tiny_row y = true -> n_tiny_row x = true.
Proof.
  intros x y H. unfold hole3 in H. poi_prods. unfold n_tiny_row. rewrite !Bool.orb_true_iff.
  intros [T|[T|T]]; [left|right; left|right; right]; (eapply tiny_value_hole; [|exact T]; assumption).
Qed.
Lemma holes_times : forall a a' b b', arel hole a a' -> arel hole b b' -> arel hole (n_times a b) (n_times a' b').
Proof. intros. unfold n_times. poi_arel. Qed.
Lemma holes_plus : forall a a' b b', arel hole a a' -> arel hole b b' -> arel hole (n_plus a b) (n_plus a' b').
Proof. intros. unfold n_plus. poi_arel. Qed.
Lemma holes_triples : forall a a' b b' f g, arel hole3 a a' -> arel hole3 b b' ->
  (forall x y x' y', hole3 x x' -> hole3 y y' -> hole (f (x, y)) (g (x', y'))) ->
  arel hole (pmap f (zip a b)) (pmap g (zip a' b')).
Proof.
  intros a a' b b' f g A B F. eapply arel_pmap; [eapply arel_zip; eassumption|].
  intros [x y] [x' y'] [E1 E2]. apply F; assumption.
Qed.
Ltac trip := apply holes_triples; try assumption;
  (let E1 := fresh in let E2 := fresh in intros ? ? ? ? E1 E2; unfold hole3 in E1, E2; poi_prods; hole_solve).
Lemma holes_factors : forall a a' b b', arel hole3 a a' -> arel hole3 b b' ->
  prel (prel (arel hole) (arel hole)) (arel hole) (n_factors a b) (n_factors a' b').
Proof. intros. unfold n_factors. repeat split; cbn [fst snd]; trip. Qed.
Lemma holes_differences : forall a a' b b', arel hole3 a a' -> arel hole3 b b' ->
  prel (prel (arel hole) (arel hole)) (arel hole) (n_differences a b) (n_differences a' b').
Proof. intros. unfold n_differences. repeat split; cbn [fst snd]; trip. Qed.
#[global] Hint Extern 1 (arel _ (n_times _ _) _) => apply holes_times; poi_arel : poi.
#[global] Hint Extern 1 (arel _ (n_plus _ _) _) => apply holes_plus; poi_arel : poi.
Lemma poi_generic_dependency : forall md md' m m' p p' r r' phi phi' mi mi', holes_dependency md md' -> holes_mat m m' ->
  arel hole p p' -> arel hole r r' -> arel hole phi phi' -> holes_mat mi mi' ->
  poi holes_mat (n_generic_dependency md m p r phi mi) (n_generic_dependency md' m' p' r' phi' mi').
Proof.
  intros md md' m m' p p' r r' phi phi' mi mi' D M P Q F Mi. unfold n_generic_dependency.
  eapply rrel_bind; [apply poi_eval_model; eassumption|]. intros ref ref' E1.
  eapply rrel_bind; [apply poi_eval_model; eassumption|]. intros eff eff' E2.
  eapply rrel_bind. { apply poi_guard. eapply any_mono; [exact E1|exact tiny_hole]. }
  intros _ _ _. cbv zeta. rewrite (holes_uses_moduli _ _ D).
  destruct (holes_factors _ _ _ _ E2 E1) as [[Fd Fp] Fs].
  destruct (n_model_uses_moduli md'); poison_.
Qed.
Lemma poi_powerfit_dependency : forall md md' m m' p p' r r' phi phi' mi mi', holes_dependency md md' -> holes_mat m m' ->
  arel hole p p' -> arel hole r r' -> arel hole phi phi' -> holes_mat mi mi' ->
  poi holes_mat (n_powerfit_dependency md m p r phi mi) (n_powerfit_dependency md' m' p' r' phi' mi').
Proof.
  intros md md' m m' p p' r r' phi phi' mi mi' D M P Q F Mi. unfold n_powerfit_dependency.
  eapply rrel_bind; [apply poi_eval_model; eassumption|]. intros ref ref' E1.
  eapply rrel_bind; [apply poi_eval_model; eassumption|]. intros eff eff' E2. cbv zeta.
  destruct (holes_differences _ _ _ _ E2 E1) as [[Fd Fp] Fs]. poison_.
Qed.
Lemma poi_pressure_dependency : forall md md' m m' p p' r r' phi phi' mi mi', holes_dependency md md' -> holes_mat m m' ->
  arel hole p p' -> arel hole r r' -> arel hole phi phi' -> holes_mat mi mi' ->
  poi holes_mat (n_pressure_dependency md m p r phi mi) (n_pressure_dependency md' m' p' r' phi' mi').
Proof.
  intros md md' m m' p p' r r' phi phi' mi mi' D M P Q F Mi.
  pose proof (poi_generic_dependency _ _ _ _ _ _ _ _ _ _ _ _ D M P Q F Mi) as G.
  pose proof (poi_powerfit_dependency _ _ _ _ _ _ _ _ _ _ _ _ D M P Q F Mi) as H.
  destruct md as [c|c|c|d b v|f|q]; cbn [holes_dependency] in D; try subst md'; try exact G; try exact H;
    destruct md'; try contradiction; exact G.
Qed.

(** ** Dry rock *)
Lemma holes_clip : forall a a' m m', arel hole a a' -> holes_option m m' -> arel hole (n_clip_above a m) (n_clip_above a' m').
Proof. intros a a' [m|] [m'|] H G; try contradiction; cbn [n_clip_above]; [cbn in G; unfold holes in G; poi_arel|exact H]. Qed.
Lemma holes_truncated_reference : forall p p', holes_pressure p p' -> arel hole (n_truncated_reference p) (n_truncated_reference p').
Proof.
  intros p p' (H1 & H2 & _ & H4 & _). unfold n_truncated_reference. apply holes_clip; [|exact H4]. unfold holes in *. poi_arel.
Qed.
Lemma poi_truncated_rock : forall p p', holes_pressure p p' -> poi (arel hole) (n_truncated_rock p) (n_truncated_rock p').
Proof.
  intros p p' (H1 & H2 & _ & H4 & H5). unfold n_truncated_rock.
  destruct (npr_rock p) as [f|], (npr_rock p') as [f'|]; cbn in H5; try contradiction; [|exact I].
  apply rrel_ok, holes_clip; [|exact H4]. unfold holes in *. poi_arel.
Qed.
Lemma poi_effective_depth : forall t t', holes_depth t t' -> poi (arel hole) (n_effective_depth t) (n_effective_depth t').
Proof.
  intros t t' (H1 & _ & H3 & _). unfold n_effective_depth.
  destruct (ndt_reference t) as [r|], (ndt_reference t') as [r'|]; cbn in H3; try contradiction; [|apply rrel_ok, H1].
  rewrite (arel_is_vec hole _ _ H1), (arel_is_vec hole _ _ H3).
  eapply rrel_bind; [apply same_res|]. intros _ _ _. apply rrel_ok. unfold holes in *. poi_arel.
Qed.
Lemma poi_adjust_pressure : forall md md' m m' p p' phi phi' mi mi', holes_dependency md md' -> holes_mat m m' ->
  holes_pressure p p' -> arel hole phi phi' -> holes_mat mi mi' ->
  poi holes_mat (n_adjust_pressure md m p phi mi) (n_adjust_pressure md' m' p' phi' mi').
Proof.
  intros md md' m m' p p' phi phi' mi mi' D M P F Mi. unfold n_adjust_pressure.
  eapply rrel_bind; [apply poi_truncated_rock, P|]. intros e e' E.
  eapply rrel_bind with (P := arel hole).
  - assert (G : poi (arel hole) match npr_rock p with None => Err TypeError | Some x => Ok x end
      match npr_rock p' with None => Err TypeError | Some x => Ok x end).
    { destruct P as (_ & _ & _ & _ & H5). destruct (npr_rock p), (npr_rock p'); cbn in H5; try contradiction; [exact H5|exact I]. }
    destruct md as [c|c|c|d b v|f|q]; cbn [holes_dependency] in D; try subst md'; try exact E; try exact G;
      destruct md'; try contradiction; exact E.
  - intros x x' X. apply poi_pressure_dependency; try assumption. apply holes_truncated_reference, P.
Qed.
Lemma poi_adjust_one : forall a a' m m' p p' phi phi' mi mi', holes_adjustment a a' -> holes_mat m m' -> holes_pressure p p' ->
  arel hole phi phi' -> holes_mat mi mi' -> poi holes_mat (n_adjust_one a m p phi mi) (n_adjust_one a' m' p' phi' mi').
Proof.
  intros [t|md] [t'|md'] m m' p p' phi phi' mi mi' A M P F Mi; cbn in A; try contradiction; cbn [n_adjust_one].
  - eapply rrel_bind; [apply poi_effective_depth, A|]. intros d d' D.
    destruct A as (_ & -> & _). apply poi_polyval_material; assumption.
  - apply poi_adjust_pressure; assumption.
Qed.
Lemma poi_adjust_material : forall l l' m m' p p' phi phi' mi mi', Forall2 holes_adjustment l l' -> holes_mat m m' ->
  holes_pressure p p' -> arel hole phi phi' -> holes_mat mi mi' ->
  poi holes_mat (n_adjust_material l m p phi mi) (n_adjust_material l' m' p' phi' mi').
Proof.
  intros l l' m m' p p' phi phi' mi mi' A M P F Mi. revert m m' M.
  induction A as [|a a' l l' A1 A2 IH]; intros m m' M; cbn [n_adjust_material].
  - apply rrel_ok, M.
  - eapply rrel_bind; [apply poi_adjust_one; eassumption|]. intros x x' X. apply IH; assumption.
Qed.
Lemma poi_material_from_model : forall d d' p p' mi mi', holes_dry_rock d d' -> arel hole p p' -> holes_mat mi mi' ->
  poi holes_mat (n_material_from_model d p mi) (n_material_from_model d' p' mi').
Proof.
  intros [md phi adj] [md' phi' adj'] p p' mi mi' (D1 & D2 & D3) P Mi. unfold n_material_from_model.
  cbn [ndr_model ndr_porosity ndr_adjustments] in *.
  destruct md as [c|f|q], md' as [c'|f'|q']; cbn in D1; try contradiction.
  - subst c'. apply poi_polyval_material; assumption.
  - apply poi_friable_material; assumption.
  - apply poi_patchy_material; assumption.
Qed.
Lemma poi_dry_rock_material : forall d d' p p' mi mi', holes_dry_rock d d' -> holes_pressure p p' -> holes_mat mi mi' ->
  poi holes_mat (n_dry_rock_material d mi p) (n_dry_rock_material d' mi' p').
Proof.
  intros d d' p p' mi mi' D P Mi. unfold n_dry_rock_material.
  eapply rrel_bind; [apply poi_truncated_rock, P|]. intros e e' E.
  eapply rrel_bind; [apply poi_material_from_model; eassumption|]. intros m m' M.
  apply poi_adjust_material; try assumption; apply D.
Qed.
Lemma poi_nonporous : forall d d' mi mi', holes_dry_rock d d' -> holes_mat mi mi' ->
  poi holes_mat (n_nonporous d mi) (n_nonporous d' mi').
Proof.
  intros [md phi adj] [md' phi' adj'] mi mi' (D1 & D2 & D3) Mi. unfold n_nonporous.
  cbn [ndr_model ndr_porosity ndr_adjustments] in *.
  destruct md as [c|f|q], md' as [c'|f'|q']; cbn in D1; try contradiction; try (apply rrel_ok, Mi).
  destruct D1 as (F1 & F2 & F3 & F4 & F5 & F6 & F7). apply poi_walpole; assumption.
Qed.
Lemma poi_check_dry_rock : forall d d', holes_dry_rock d d' -> poi urel (n_check_dry_rock d) (n_check_dry_rock d').
Proof.
  intros [md phi adj] [md' phi' adj'] (D1 & D2 & D3). unfold n_check_dry_rock.
  cbn [ndr_model ndr_porosity ndr_adjustments] in *. change (arel hole phi phi') in D2.
  destruct md as [c|f|q], md' as [c'|f'|q']; cbn in D1; try contradiction; cbv zeta; [exact I| |].
  - destruct D1 as (F1 & F2 & F3). unfold holes in F1. poison_.
  - destruct D1 as (F1 & F2 & F3 & F4 & F5 & F6 & F7). unfold holes in F2, F5. poison_.
Qed.

(** ** The whole calculation *)
Definition holes_output (r s : noutput) : Prop :=
  holes (no_ksat r) (no_ksat s) /\ holes (no_kmin r) (no_kmin s) /\ holes (no_kdry r) (no_kdry s) /\
  holes (no_mysat r) (no_mysat s) /\ holes (no_rsat r) (no_rsat s) /\ holes (no_kmin_fls r) (no_kmin_fls s).
Lemma Forall2_weaken : forall {A B} (P Q : A -> B -> Prop) l m, (forall x y, P x y -> Q x y) -> Forall2 P l m -> Forall2 Q l m.
Proof. intros A B P Q l m H F. induction F; constructor; auto. Qed.
Lemma poi_complete_fluids : forall f f' fs fs', holes_fluids f f' -> Forall2 holes_option fs fs' ->
  poi holes_fluids (n_complete_fluids f fs) (n_complete_fluids f' fs').
Proof.
  intros f f' fs fs' (T & C & M1 & M2 & M3 & M4) H. unfold n_complete_fluids.
  assert (G : Forall2 (orel (arel hole)) fs fs') by (eapply Forall2_weaken; [|exact H]; intros [x|] [y|] E; exact E).
  eapply rrel_bind; [eapply rrel_each; [exact G|exact poi_fraction_is_ratio]|]. intros _ _ _.
  eapply rrel_bind with (P := urel). { destruct G; exact I. }
  intros _ _ _. eapply rrel_bind with (P := urel).
  { apply poi_guard. eapply any_mono; [apply holes_sum_given, G|]. intros x y E. poi_cmp. }
  intros _ _ _. eapply rrel_bind; [apply poi_fix_one_fraction, G|]. intros l l' L. apply rrel_ok.
  unfold holes_fluids. cbn [nf_temperature nf_constituents nf_mix_method nf_brie_constant nf_brie_gases nf_fluid_model].
  repeat (split; try assumption). eapply Forall2_maps; [apply Forall2_combine; [exact C|exact L]|].
  intros [c a] [c' a'] [(E1 & E2 & E3) E4]. cbn [fst snd] in *. repeat (split; try assumption).
Qed.
Theorem poi_calculate : forall co2 i j, passes_nan_on co2 -> holes_input i j ->
  poi holes_output (n_calculate_results co2 i) (n_calculate_results co2 j).
Proof.
  intros co2 i j X (H1 & H2 & H3 & H4 & H5). unfold n_calculate_results.
  eapply rrel_bind; [apply poi_minerals, H1|]. intros ms ms' M.
  eapply rrel_bind; [apply poi_complete_fluids; eassumption|]. intros fl fl' F.
  eapply rrel_bind; [apply poi_check_dry_rock, H4|]. intros _ _ _.
  eapply rrel_bind; [apply poi_minerals_as_mixture, M|]. intros mi mi' Mi.
  eapply rrel_bind with (P := arel hole).
  { destruct H5 as (_ & _ & P & _). destruct (npr_fluid (ni_pressure i)), (npr_fluid (ni_pressure j)); cbn in P; try contradiction;
      [exact P|exact I]. }
  intros p p' P. eapply rrel_bind; [apply poi_as_mixture; eassumption|]. intros a a' A.
  eapply rrel_bind; [apply poi_dry_rock_material; eassumption|]. intros d d' D.
  eapply rrel_bind; [apply poi_nonporous; eassumption|]. intros n n' N.
  eapply rrel_bind; [apply poi_substitution; [exact D|exact N|exact A|apply H4]|]. intros s s' S0.
  apply rrel_ok. repeat split; first [apply S0|apply D|apply Mi|apply N].
Qed.

(** ** The rows written *)
Lemma holes_expand : forall n a b, holes a b -> Forall2 hole (expand n a) (expand n b).
Proof. intros n [x|l] [y|m] H; cbn in *; try contradiction; [|exact H]. induction n; cbn; constructor; assumption. Qed.
Lemma holes_rows : forall n r s, holes_output r s -> Forall2 hole_row (n_result_rows n r) (n_result_rows n s).
Proof.
  intros n r s (H1 & H2 & H3 & H4 & H5 & H6). unfold n_result_rows. eapply Forall2_maps.
  - repeat apply Forall2_combine; apply holes_expand; eassumption.
  - intros x y E. poi_prods. repeat split; assumption.
Qed.
Lemma poisoned_rows : forall co2 n i j rows, passes_nan_on co2 -> holes_input i j -> n_results co2 n i = Ok rows ->
  n_results co2 n j = Err ZeroDivisionError \/
  exists rows', n_results co2 n j = Ok rows' /\ Forall2 hole_row rows rows'.
Proof.
  intros co2 n i j rows X H E. pose proof (poi_calculate co2 i j X H) as P. unfold n_results in *.
  destruct (n_calculate_results co2 i) as [r|e]; [|discriminate]. injection E as <-.
  destruct (n_calculate_results co2 j) as [s|e]; cbn in P |- *.
  - right. eexists. split; [reflexivity|apply holes_rows, P].
  - left. rewrite P. reflexivity.
Qed.
Lemma with_nan_passes : forall co2, passes_nan_on (with_nan co2).
Proof.
  intros co2 t t' p p' i m [->| ->] [->| ->] E.
  - eexists. split; [reflexivity|]. repeat split; apply hole_nan.
  - eexists. split; [reflexivity|]. repeat split; apply hole_nan.
  - destruct t'; (eexists; split; [reflexivity|]; repeat split; apply hole_nan).
  - eexists. split; [exact E|]. repeat split; apply hole_refl.
Qed.
