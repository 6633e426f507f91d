(** The calculation of a table on numbers with nan agrees with the one on real
    numbers wherever the latter does not stop. *)
From Coq Require Import String List ZArith.
From Verif Require Import Base MaterialModel HashinShtrikmanModel MineralsModel FluidModel SandstoneModel ConfigModel
  BatzleWangModel FluidsModel RowModel NumModel NanModel NanSpec RelProofs EmbedProofs.
Import ListNotations.
Open Scope R_scope.

Lemma arel_num : forall a, arel real a (pmap Num a).
Proof. intros [x|l]; cbn; [reflexivity|]. induction l; cbn; constructor; [reflexivity|assumption]. Qed.
Lemma arel_num_eq : forall a b, arel real a b -> b = pmap Num a.
Proof.
  intros [x|l] [y|m] H; cbn in *; try contradiction; [rewrite H; reflexivity|]. f_equal.
  induction H as [|x y l m H1 H2 IH]; cbn; [reflexivity|]. rewrite H1, IH. reflexivity.
Qed.
#[global] Hint Resolve arel_num : sim.
Lemma realb_num : forall m, realb m (num_mat m).
Proof. intro m. unfold realb, num_mat. cbn. repeat split; apply arel_num. Qed.
#[global] Hint Resolve realb_num : sim.
Lemma realb_num_eq : forall m v, realb m v -> v = num_mat m.
Proof.
  intros m [k mu d p s] (H1 & H2 & H3 & H4 & H5). cbn in *. unfold num_mat.
  f_equal; apply arel_num_eq; assumption.
Qed.
Lemma realb_mk : forall k mu d p s k' mu' d' p' s',
  arel real k k' -> arel real mu mu' -> arel real d d' -> arel real p p' -> arel real s s' ->
  sim realb (Ok (mkB k mu d p s)) (Ok (mkNB k' mu' d' p' s')).
Proof. intros. apply rrel_ok. repeat split; assumption. Qed.
Ltac sim_mat := apply realb_mk; sim_arel.

(** ** Materials *)
Lemma sim_check_velocities : forall p p' s s', arel real p p' -> arel real s s' ->
  sim urel (check_velocities p s) (n_check_velocities p' s').
Proof. intros. unfold check_velocities, n_check_velocities. simul. Qed.
Lemma sim_check_moduli : forall k k' mu mu' d d', arel real k k' -> arel real mu mu' -> arel real d d' ->
  sim urel (check_moduli k mu d) (n_check_moduli k' mu' d').
Proof. intros. unfold check_moduli, n_check_moduli. simul. Qed.
#[global] Hint Extern 1 (rrel _ _ (check_velocities _ _) _) => apply sim_check_velocities; sim_arel : sim.
#[global] Hint Extern 1 (rrel _ _ (check_moduli _ _ _) _) => apply sim_check_moduli; sim_arel : sim.

Lemma sim_mat_of_moduli : forall k k' mu mu' d d', arel real k k' -> arel real mu mu' -> arel real d d' ->
  sim realb (bmat_of_moduli k mu d) (nmat_of_moduli k' mu' d').
Proof.
  intros. unfold bmat_of_moduli, nmat_of_moduli. simul.
  - unfold neqb. destruct (Req_EM_T x 0); reflexivity.
  - sim_mat.
Qed.
Lemma sim_mat_of_velocities : forall d d' p p' s s', arel real d d' -> arel real p p' -> arel real s s' ->
  sim realb (bmat_of_velocities d p s) (nmat_of_velocities d' p' s').
Proof. intros. unfold bmat_of_velocities, nmat_of_velocities. simul. sim_mat. Qed.
#[global] Hint Extern 1 (rrel _ _ (bmat_of_moduli _ _ _) _) => apply sim_mat_of_moduli; sim_arel : sim.
#[global] Hint Extern 1 (rrel _ _ (bmat_of_velocities _ _ _) _) => apply sim_mat_of_velocities; sim_arel : sim.

Lemma sim_arbitrary : forall k k' mu mu' d d', arel real k k' -> arel real mu mu' -> arel real d d' ->
  sim realb (barbitrary k mu d) (narbitrary k' mu' d').
Proof. intros. unfold barbitrary, narbitrary. simul. sim_mat. Qed.
#[global] Hint Extern 1 (rrel _ _ (barbitrary _ _ _) _) => apply sim_arbitrary; sim_arel : sim.

Lemma sim_unpack : forall a a', arel realm a a' -> realb (unpack a) (n_unpack a').
Proof.
  intros a a' H. unfold unpack, n_unpack, realb. cbn.
  repeat split; (eapply arel_pmap; [exact H|intros x y ->; reflexivity]).
Qed.

Lemma sim_vectorize : forall X Y (P : X -> Y -> Prop) f g a b, arel P a b ->
  (forall x y, P x y -> sim realm (f x) (g y)) -> sim realb (vectorize_material f a) (n_vectorize_material g b).
Proof.
  intros X Y P f g a b H F. unfold vectorize_material, n_vectorize_material.
  eapply rrel_bind; [eapply rrel_amap; [exact H|exact F]|].
  intros [m|l] [v|l'] G; cbn in G; try contradiction.
  - apply rrel_ok, sim_unpack. exact G.
  - apply sim_mat_of_velocities; (eapply Forall2_maps; [exact G|intros x y ->; reflexivity]).
Qed.

Lemma sim_poisson : forall m m', realb m m' -> sim (arel real) (b_poisson_ratio m) (n_poisson_ratio m').
Proof. intros. unfold b_poisson_ratio, n_poisson_ratio. simul. Qed.
Lemma sim_wave : forall m m', realb m m' -> arel real (b_primary_wave_modulus m) (n_primary_wave_modulus m').
Proof. intros. unfold b_primary_wave_modulus, n_primary_wave_modulus. sim_arel. Qed.
#[global] Hint Extern 1 (rrel _ _ (b_poisson_ratio _) _) => apply sim_poisson; eassumption : sim.
#[global] Hint Extern 1 (arel _ (b_primary_wave_modulus _) _) => apply sim_wave; eassumption : sim.

(** ** Mixing *)
Lemma sim_check_is_ratio : forall r r', arel real r r' -> sim urel (b_check_is_ratio r) (n_check_is_ratio r').
Proof. intros. unfold b_check_is_ratio, n_check_is_ratio. simul. Qed.
#[global] Hint Extern 1 (rrel _ _ (b_check_is_ratio _) _) => apply sim_check_is_ratio; sim_arel : sim.
Lemma real_calc_density : forall a b c d, n_calc_density (Num a) (Num b) (Num c) (Num d) = Num (calc_density a b c d).
Proof. intros. unfold n_calc_density, calc_density, neqb. destruct (Req_EM_T a b); reflexivity. Qed.
Lemma sim_calc_bulk : forall a b c d e,
  sim real (calc_bulk_modulus a b c d e) (n_calc_bulk_modulus (Num a) (Num b) (Num c) (Num d) (Num e)).
Proof. intros. unfold n_calc_bulk_modulus, calc_bulk_modulus, neqb. destruct (Req_EM_T a b); simul. Qed.
Lemma sim_calc_shear : forall a b c d e f,
  sim real (calc_shear_modulus a b c d e f) (n_calc_shear_modulus (Num a) (Num b) (Num c) (Num d) (Num e) (Num f)).
Proof. intros. unfold n_calc_shear_modulus, calc_shear_modulus, neqb. destruct (Req_EM_T a b); simul. Qed.
#[global] Hint Extern 1 (rrel _ _ (calc_bulk_modulus _ _ _ _ _) _) => apply sim_calc_bulk : sim.
#[global] Hint Extern 1 (rrel _ _ (calc_shear_modulus _ _ _ _ _ _) _) => apply sim_calc_shear : sim.
Lemma sim_walpole : forall m m' n n' r r', realb m m' -> realb n n' -> arel real r r' ->
  sim realb (b_walpole m n r) (n_walpole m' n' r').
Proof.
  intros. unfold b_walpole, n_walpole. simul.
  apply sim_mat_of_moduli; sim_arel. apply real_calc_density.
Qed.
#[global] Hint Extern 1 (rrel _ _ (b_walpole _ _ _) _) => apply sim_walpole; [eauto with sim|eauto with sim|sim_arel] : sim.

(** ** Minerals *)
Lemma sim_fraction_is_ratio : forall v v', orel (arel real) v v' ->
  sim urel (b_fraction_is_ratio v) (n_fraction_is_ratio v').
Proof.
  intros [v|] [v'|] H; cbn in H; try contradiction; [|exact I].
  unfold b_fraction_is_ratio, n_fraction_is_ratio. simul.
Qed.
#[global] Hint Extern 1 (rrel _ _ (b_fraction_is_ratio (Some _)) _) => apply sim_fraction_is_ratio; cbn [orel]; sim_arel : sim.
Lemma sim_sum_given : forall fs fs', Forall2 (orel (arel real)) fs fs' -> arel real (b_sum_given fs) (n_sum_given fs').
Proof.
  intros fs fs' H. induction H as [|x y fs fs' H1 H2 IH]; [reflexivity|].
  destruct x as [a|], y as [b|]; cbn [b_sum_given n_sum_given]; cbn in H1; try contradiction; [sim_arel|exact IH].
Qed.
Lemma sim_missing : forall {A B} (P : A -> B -> Prop) fs fs', Forall2 (orel P) fs fs' -> missing fs = missing fs'.
Proof.
  intros A B P fs fs' H. induction H as [|x y fs fs' H1 H2 IH]; [reflexivity|].
  destruct x as [a|], y as [b|]; cbn [missing]; cbn in H1; try contradiction; congruence.
Qed.
Lemma sim_fix_one_fraction : forall fs fs', Forall2 (orel (arel real)) fs fs' ->
  sim (Forall2 (arel real)) (b_fix_one_fraction fs) (n_fix_one_fraction fs').
Proof.
  intros fs fs' H. unfold b_fix_one_fraction, n_fix_one_fraction. cbv zeta.
  pose proof (sim_sum_given _ _ H) as S. rewrite (sim_missing _ _ _ H).
  assert (G : arel real (pmap (fun s => 1 - s) (b_sum_given fs)) (pmap (fun s => nsub (Num 1) s) (n_sum_given fs')))
    by sim_arel.
  eapply rrel_bind; [simul|]. intros _ _ _. eapply rrel_bind with (P := urel).
  - destruct (missing fs') as [|[|k]]; [exact I|apply sim_fraction_is_ratio, G|right; reflexivity].
  - intros _ _ _. apply rrel_ok. eapply Forall2_maps; [exact H|].
    intros [x|] [y|] E; cbn in E; try contradiction; [exact E|exact G].
Qed.
Lemma sim_asum : forall l l', Forall2 (arel real) l l' -> arel real (asum l) (nsum l').
Proof. intros l l' H. induction H; cbn [asum nsum]; sim_arel. Qed.
#[global] Hint Extern 1 (arel _ (asum _) _) => apply sim_asum; eassumption : sim.
Lemma real_isclose : forall x, n_isclose_one (Num x) = isclose_one x.
Proof. intro x. unfold n_isclose_one, isclose_one, nleb. reflexivity. Qed.
Lemma sim_part_of_total : forall a b, sim real (part_of_total a b) (n_part_of_total (Num a) (Num b)).
Proof. intros. unfold part_of_total, n_part_of_total, neqb. destruct (Req_EM_T b 0); simul. Qed.
#[global] Hint Extern 1 (rrel _ _ (part_of_total _ _) _) => apply sim_part_of_total : sim.
Notation realpart := (prel realb (arel real)).
Lemma Forall2_map_fst : forall {A B C D} (P : A -> C -> Prop) (Q : B -> D -> Prop) l l',
  Forall2 (prel P Q) l l' -> Forall2 P (map fst l) (map fst l').
Proof. intros. eapply Forall2_maps; [eassumption|]. intros x y [E _]. exact E. Qed.
Lemma Forall2_map_snd : forall {A B C D} (P : A -> C -> Prop) (Q : B -> D -> Prop) l l',
  Forall2 (prel P Q) l l' -> Forall2 Q (map snd l) (map snd l').
Proof. intros. eapply Forall2_maps; [eassumption|]. intros x y [_ E]. exact E. Qed.
Lemma sim_minerals : forall cs cs', Forall2 (prel realb (orel (arel real))) cs cs' ->
  sim (Forall2 realpart) (b_minerals cs) (n_minerals cs').
Proof.
  intros cs cs' H. unfold b_minerals, n_minerals.
  eapply rrel_bind. { eapply rrel_guard_eq; [destruct H; reflexivity|right; reflexivity]. }
  intros _ _ _. eapply rrel_bind.
  { eapply rrel_each; [exact H|]. intros x y [_ E]. apply sim_fraction_is_ratio, E. }
  intros _ _ _. eapply rrel_bind; [apply sim_fix_one_fraction; eapply Forall2_map_snd; exact H|].
  intros fs fs' F. eapply rrel_bind.
  { apply rrel_guard_eq; [|right; reflexivity]. eapply any_eq; [apply sim_asum, F|].
    intros x y ->. rewrite real_isclose. reflexivity. }
  intros _ _ _. apply rrel_ok, Forall2_combine; [eapply Forall2_map_fst; exact H|exact F].
Qed.
Lemma sim_mix_minerals : forall c c' n n', realpart c c' -> realpart n n' ->
  sim realpart (b_mix_minerals c n) (n_mix_minerals c' n').
Proof.
  intros c c' n n' [H1 H2] [G1 G2]. unfold b_mix_minerals, n_mix_minerals. simul.
  apply rrel_ok. split; cbn [fst snd]; [assumption|sim_arel].
Qed.
Lemma sim_mix_loop : forall l l' c c', Forall2 realpart l l' -> realpart c c' ->
  sim realpart (b_mix_loop c l) (n_mix_loop c' l').
Proof.
  intros l l' c c' H. revert c c'. induction H as [|x y l l' H1 H2 IH]; intros c c' G; cbn [b_mix_loop n_mix_loop].
  - apply rrel_ok, G.
  - eapply rrel_bind; [apply sim_mix_minerals; eassumption|]. intros a b E. apply IH, E.
Qed.
Lemma sim_as_mixture_minerals : forall l l', Forall2 realpart l l' ->
  sim realb (b_minerals_as_mixture l) (n_minerals_as_mixture l').
Proof.
  intros l l' H. unfold b_minerals_as_mixture, n_minerals_as_mixture. destruct H as [|x y l l' H1 H2]; [right; reflexivity|].
  eapply rrel_bind; [apply sim_mix_loop; eassumption|]. intros a b [E _]. apply rrel_ok, E.
Qed.

(** ** Fluids *)
Lemma sim_fluid : forall k k' d d', arel real k k' -> arel real d d' -> sim realb (b_fluid k d) (n_fluid k' d').
Proof. intros. unfold b_fluid, n_fluid. simul. Qed.
Lemma sim_saturations : forall l l', Forall2 (arel real) l l' ->
  Forall2 (arel real) (b_sum_saturations_to_one l) (n_sum_saturations_to_one l').
Proof.
  intros l l' H. unfold b_sum_saturations_to_one, n_sum_saturations_to_one. cbv zeta.
  pose proof (sim_asum _ _ H) as S.
  eapply Forall2_maps; [exact H|]. intros x y E. sim_arel. unfold nltb, ltb. destruct (Rlt_dec 0 r0); reflexivity.
Qed.
Lemma sim_mix_densities : forall fs fs' s s', Forall2 realb fs fs' -> Forall2 (arel real) s s' ->
  arel real (b_mix_densities fs s) (n_mix_densities fs' s').
Proof.
  intros. unfold b_mix_densities, n_mix_densities. apply sim_asum.
  eapply Forall2_maps; [apply Forall2_combine; eassumption|].
  intros x y [E1 E2]. sim_arel.
Qed.
Lemma sim_asum_res : forall l l', Forall2 (sim (arel real)) l l' -> sim (arel real) (asum_res l) (nsum_res l').
Proof. intros l l' H. induction H; cbn [asum_res nsum_res]; simul; try eassumption. Qed.
Lemma sim_mix_bulk_moduli : forall fs fs' s s', Forall2 realb fs fs' -> Forall2 (arel real) s s' ->
  sim (arel real) (b_mix_bulk_moduli fs s) (n_mix_bulk_moduli fs' s').
Proof.
  intros fs fs' s s' H G. unfold b_mix_bulk_moduli, n_mix_bulk_moduli. cbv zeta.
  assert (C : Forall2 (prel (arel real) realb) (combine s fs) (combine s' fs')) by (apply Forall2_combine; assumption).
  eapply rrel_bind. { apply rrel_guard_eq; [destruct C; reflexivity|right; reflexivity]. }
  intros _ _ _. eapply rrel_bind.
  - apply sim_asum_res. eapply Forall2_maps; [exact C|]. intros x y [E1 E2]. simul.
  - intros t t' T. simul.
Qed.
Lemma sim_wood : forall fs fs' s s', Forall2 realb fs fs' -> Forall2 (arel real) s s' ->
  sim realb (b_wood fs s) (n_wood fs' s').
Proof.
  intros fs fs' s s' H G. unfold b_wood, n_wood. cbv zeta. pose proof (sim_saturations _ _ G) as S.
  eapply rrel_bind; [apply sim_mix_bulk_moduli; eassumption|]. intros k k' K.
  apply sim_fluid; [exact K|]. apply sim_mix_densities; assumption.
Qed.
Lemma sim_brie : forall fs fs' s s' gs gs' t t' e, Forall2 realb fs fs' -> Forall2 (arel real) s s' ->
  Forall2 realb gs gs' -> Forall2 (arel real) t t' ->
  sim realb (b_brie fs s gs t e) (n_brie fs' s' gs' t' (Num e)).
Proof.
  intros fs fs' s s' gs gs' t t' e H1 H2 H3 H4. unfold b_brie, n_brie.
  eapply rrel_bind.
  { apply rrel_guard_eq; [|right; reflexivity].
    rewrite (Forall2_len _ _ _ H1), (Forall2_len _ _ _ H2). reflexivity. }
  intros _ _ _. eapply rrel_bind.
  { apply rrel_guard_eq; [|right; reflexivity].
    rewrite (Forall2_len _ _ _ H3), (Forall2_len _ _ _ H4). reflexivity. }
  intros _ _ _.
  destruct H1 as [|f f' fs fs' H1 H1'], H3 as [|g g' gs gs' H3 H3']; [right; reflexivity| | |].
  - apply sim_wood; [constructor|]; assumption.
  - apply sim_wood; [constructor|]; assumption.
  - eapply rrel_bind; [apply sim_wood; [constructor|]; assumption|]. intros l l' L.
    eapply rrel_bind; [apply sim_wood; [constructor|]; assumption|]. intros k k' K. cbv zeta.
    pose proof (sim_asum _ _ H2) as S.
    eapply rrel_bind; [eapply rrel_amap; [exact S|]; intros x y ->; apply sim_pow|]. intros w w' W.
    apply sim_fluid; [sim_arel|]. apply sim_mix_densities.
    + apply Forall2_cons; [exact L|]. apply Forall2_cons; [exact K|]. constructor.
    + apply Forall2_cons; [exact S|]. apply Forall2_cons; [sim_arel|]. constructor.
Qed.
Lemma sim_gassman : forall a b c d,
  sim real (gassman_equation a b c d) (n_gassman_equation (Num a) (Num b) (Num c) (Num d)).
Proof.
  intros. unfold gassman_equation, n_gassman_equation, neqb.
  destruct (Req_EM_T d 0); [reflexivity|]. destruct (Req_EM_T a b); [reflexivity|].
  simul. sim_prods. unfold nltb. cbn [nadd nlift2]. destruct (Rlt_dec (a0 + a1) 0); simul.
Qed.
#[global] Hint Extern 1 (rrel _ _ (gassman_equation _ _ _ _) _) => apply sim_gassman : sim.
Lemma sim_substitution : forall a a' b b' c c' p p', realb a a' -> realb b b' -> realb c c' -> arel real p p' ->
  sim realb (b_fluid_substitution a b c p) (n_fluid_substitution a' b' c' p').
Proof. intros. unfold b_fluid_substitution, n_fluid_substitution. simul. Qed.

(** ** Fluid models *)
Section Co2.
Context (co2 : equation_of_state) (nco2 : n_equation_of_state) (X : extends co2 nco2).
Lemma sim_co2 : forall t p i, sim realm (co2 t p i) (nco2 (Num t) (Num p) i).
Proof.
  intros t p i. destruct (X t p i) as [H G]. destruct (co2 t p i) as [m|e].
  - rewrite (H m eq_refl). reflexivity.
  - destruct (nco2 (Num t) (Num p) i) as [v|e'] eqn:E.
    + cbn. destruct e; try reflexivity; (specialize (G _ eq_refl); discriminate G; discriminate).
    + cbn. destruct e; try (left; reflexivity);
        (specialize (G _ eq_refl ltac:(discriminate)); right; inversion G; reflexivity).
Qed.
Lemma sim_eos : forall t t' p p' i, arel real t t' -> arel real p p' -> sim realb (b_eos co2 t p i) (n_eos nco2 t' p' i).
Proof.
  intros t t' p p' i H G. unfold b_eos, n_eos. eapply rrel_bind.
  - eapply rrel_amap; [sim_arel|]. intros x y E. sim_prods. apply sim_co2.
  - intros a b E. apply rrel_ok, sim_unpack, E.
Qed.
Lemma sim_fluid_as_material : forall p f t t' q q', arel real t t' -> arel real q q' ->
  sim realpart (b_fluid_as_material co2 p f t q) (n_fluid_as_material nco2 p (num_fluid f) t' q').
Proof.
  intros p f t t' q q' T Q.
  destruct f as [m|r rg g|g|s|r rg g|i], p; cbn [b_fluid_as_material n_fluid_as_material num_fluid]; try (right; reflexivity);
    try (apply rrel_ok; split; [apply realb_num|exact Q]);
    try (eapply rrel_bind; [eapply sim_vectorize; [sim_arel|intros; sim_prods; sim_leaf]|];
         intros a b E; apply rrel_ok; split; assumption).
  cbv zeta. eapply rrel_bind; [apply sim_eos; sim_arel|]. intros a b E. apply rrel_ok. split; cbn [fst snd]; [exact E|sim_arel].
Qed.
Lemma sim_as_materials : forall cs p t t' q q', arel real t t' -> arel real q q' ->
  sim (Forall2 realb) (b_as_materials co2 p t q cs) (n_as_materials nco2 p t' q' (map num_constituent cs)).
Proof.
  induction cs as [|c cs IH]; intros p t t' q q' T Q; cbn [b_as_materials n_as_materials map].
  - apply rrel_ok. constructor.
  - cbv zeta. eapply rrel_bind; [apply sim_fluid_as_material; eassumption|]. intros a b [E1 E2].
    eapply rrel_bind; [apply IH; eassumption|]. intros u v E. apply rrel_ok. constructor; assumption.
Qed.
End Co2.


Lemma sim_as_mixture : forall co2 nco2 f q q', extends co2 nco2 -> arel real q q' ->
  sim realb (b_as_mixture co2 f q) (n_as_mixture nco2 (num_fluids f) q').
Proof.
  intros co2 nco2 f q q' X Q. unfold b_as_mixture, n_as_mixture.
  eapply rrel_bind; [apply sim_as_materials; [exact X|apply arel_num|exact Q]|].
  intros ms ms' M. cbv zeta.
  assert (F : Forall2 (arel real) (map bc_fraction (bf_constituents f))
                (map nc_fraction (nf_constituents (num_fluids f)))).
  { cbn [num_fluids nf_constituents]. rewrite map_map. induction (bf_constituents f); cbn [map]; constructor; [apply arel_num|assumption]. }
  cbn [num_fluids nf_mix_method nf_brie_gases nf_brie_constant].
  destruct (bf_mix_method f); [apply sim_wood; assumption|].
  eapply rrel_bind; [eapply rrel_pop_all, M|]. intros g g' [G1 G2].
  eapply rrel_bind; [eapply rrel_pop_all, F|]. intros s s' [S1 S2].
  apply sim_brie; assumption.
Qed.

(** ** Sandstone models *)
#[global] Hint Extern 1 (rrel _ _ (np_div _ _) _) => apply sim_div : sim.
Lemma sim_hertz_mindlin : forall m m' a a' b b' c c' d d', realb m m' -> arel real a a' -> arel real b b' ->
  arel real c c' -> arel real d d' -> sim realb (b_hertz_mindlin m a b c d) (n_hertz_mindlin m' a' b' c' d').
Proof. intros. unfold b_hertz_mindlin, n_hertz_mindlin. simul. Qed.
#[global] Hint Extern 1 (rrel _ _ (b_hertz_mindlin _ _ _ _ _) _) => apply sim_hertz_mindlin; [eassumption|sim_arel..] : sim.
Lemma sim_friable_sand : forall m m' a a' b b' c c' d d' e e', realb m m' -> arel real a a' -> arel real b b' ->
  arel real c c' -> arel real d d' -> arel real e e' ->
  sim realb (b_friable_sand m a b c d e) (n_friable_sand m' a' b' c' d' e').
Proof. intros. unfold b_friable_sand, n_friable_sand. simul. Qed.
#[global] Hint Extern 1 (rrel _ _ (b_friable_sand _ _ _ _ _ _) _) => apply sim_friable_sand; [eassumption|sim_arel..] : sim.
Lemma sim_shear_stiffness_at : forall a b c d,
  sim real (shear_stiffness a b c d) (n_shear_stiffness_at (Num a) (Num b) (Num c) (Num d)).
Proof. intros. unfold shear_stiffness, n_shear_stiffness_at. simul. Qed.
Lemma sim_normal_stiffness_at : forall a b c d e,
  sim real (normal_stiffness a b c d e) (n_normal_stiffness_at (Num a) (Num b) (Num c) (Num d) (Num e)).
Proof. intros. unfold normal_stiffness, n_normal_stiffness_at. simul. Qed.
#[global] Hint Extern 1 (rrel _ _ (shear_stiffness _ _ _ _) _) => apply sim_shear_stiffness_at : sim.
#[global] Hint Extern 1 (rrel _ _ (normal_stiffness _ _ _ _ _) _) => apply sim_normal_stiffness_at : sim.
Lemma sim_shear_stiffness : forall a a' b b' c c' d d', arel real a a' -> arel real b b' ->
  arel real c c' -> arel real d d' -> sim (arel real) (b_shear_stiffness a b c d) (n_shear_stiffness a' b' c' d').
Proof. intros. unfold b_shear_stiffness, n_shear_stiffness. simul. Qed.
Lemma sim_normal_stiffness : forall a a' b b' c c' d d' e e', arel real a a' -> arel real b b' ->
  arel real c c' -> arel real d d' -> arel real e e' ->
  sim (arel real) (b_normal_stiffness a b c d e) (n_normal_stiffness a' b' c' d' e').
Proof. intros. unfold b_normal_stiffness, n_normal_stiffness. simul. Qed.
#[global] Hint Extern 1 (rrel _ _ (b_shear_stiffness _ _ _ _) _) => apply sim_shear_stiffness; sim_arel : sim.
#[global] Hint Extern 1 (rrel _ _ (b_normal_stiffness _ _ _ _ _) _) => apply sim_normal_stiffness; sim_arel : sim.
Lemma sim_check_porosities : forall a a' b b', arel real a a' -> arel real b b' ->
  sim urel (b_check_porosities a b) (n_check_porosities a' b').
Proof. intros. unfold b_check_porosities, n_check_porosities. simul. Qed.
#[global] Hint Extern 1 (rrel _ _ (b_check_porosities _ _) _) => apply sim_check_porosities; sim_arel : sim.
Lemma sim_radius_ratio : forall a a' b b', arel real a a' -> arel real b b' ->
  sim (arel real) (b_cement_radius_ratio a b) (n_cement_radius_ratio a' b').
Proof. intros. unfold b_cement_radius_ratio, n_cement_radius_ratio. simul. Qed.
#[global] Hint Extern 1 (rrel _ _ (b_cement_radius_ratio _ _) _) => apply sim_radius_ratio; sim_arel : sim.
Lemma sim_contact_cement : forall m m' n n' a a' b b' c c' d d', realb m m' -> realb n n' -> arel real a a' -> arel real b b' ->
  arel real c c' -> arel real d d' -> sim realb (b_contact_cement m n a b c d) (n_contact_cement m' n' a' b' c' d').
Proof. intros. unfold b_contact_cement, n_contact_cement. simul. Qed.
#[global] Hint Extern 1 (rrel _ _ (b_contact_cement _ _ _ _ _ _) _) =>
  apply sim_contact_cement; [eassumption|eassumption|sim_arel..] : sim.
Lemma sim_constant_cement : forall m m' n n' a a' b b' c c' d d' e e', realb m m' -> realb n n' -> arel real a a' -> arel real b b' ->
  arel real c c' -> arel real d d' -> arel real e e' ->
  sim realb (b_constant_cement m n a b c d e) (n_constant_cement m' n' a' b' c' d' e').
Proof. intros. unfold b_constant_cement, n_constant_cement. simul. Qed.
#[global] Hint Extern 1 (rrel _ _ (b_constant_cement _ _ _ _ _ _ _) _) =>
  apply sim_constant_cement; [eassumption|eassumption|sim_arel..] : sim.
Lemma real_patchy_weight : forall a b c, n_patchy_weight_at (Num a) (Num b) (Num c) = Num (patchy_weight a b c).
Proof. intros. unfold n_patchy_weight_at, patchy_weight, neqb. destruct (Req_EM_T c b); reflexivity. Qed.
Lemma sim_patchy_weight : forall a a' b b' c c', arel real a a' -> arel real b b' -> arel real c c' ->
  sim (arel real) (b_patchy_weight a b c) (n_patchy_weight a' b' c').
Proof.
  intros a a' b b' c c' A B C. unfold b_patchy_weight, n_patchy_weight. cbv zeta.
  rewrite (arel_is_vec _ _ _ A), (arel_is_vec _ _ _ B), (arel_is_vec _ _ _ C).
  eapply rrel_bind; [apply rrel_guard_eq; [reflexivity|right; reflexivity]|]. intros _ _ _.
  apply rrel_ok. sim_arel. apply real_patchy_weight.
Qed.
#[global] Hint Extern 1 (rrel _ _ (b_patchy_weight _ _ _) _) => apply sim_patchy_weight; sim_arel : sim.
Lemma sim_patchy_cement : forall m m' n n' a a' b b' c c' d d' e e' f f' g g' h h' i i', realb m m' -> realb n n' -> arel real a a' -> arel real b b' ->
  arel real c c' -> arel real d d' -> arel real e e' -> arel real f f' -> arel real g g' -> arel real h h' -> arel real i i' ->
  sim realb (b_patchy_cement m n a b c d e f g h i) (n_patchy_cement m' n' a' b' c' d' e' f' g' h' i').
Proof. intros. unfold b_patchy_cement, n_patchy_cement. simul. Qed.

(** ** Fits *)
Lemma sim_fit_property : forall x v c, sim real (fit_property x v c) (n_fit_property (Num x) (Num v) c).
Proof. intros x v [m|]; cbn [fit_property n_fit_property]; [apply sim_polyval2d|right; reflexivity]. Qed.
#[global] Hint Extern 1 (rrel _ _ (fit_property _ _ _) _) => apply sim_fit_property : sim.
Lemma sim_fit_material : forall c d p s v,
  sim realm (fit_material c (d, p, s, v)) (n_fit_material c (Num d, Num p, Num s, Num v)).
Proof. intros. unfold fit_material, n_fit_material. simul. destruct (uses_moduli c); simul. Qed.
Lemma sim_polyval_material : forall c v v' m m', arel real v v' -> realb m m' ->
  sim realb (b_polyval_material v m c) (n_polyval_material v' m' c).
Proof.
  intros. unfold b_polyval_material, n_polyval_material.
  destruct (uses_moduli c); (eapply sim_vectorize; [sim_arel|intros; sim_prods; apply sim_fit_material]).
Qed.
Lemma real_murphy : forall a, n_murphy_coordination_number (Num a) = Num (murphy_coordination_number a).
Proof. reflexivity. Qed.
Lemma sim_friable_material : forall f p p' phi phi' m m', arel real p p' -> arel real phi phi' -> realb m m' ->
  sim realb (b_friable_material f p phi m) (n_friable_material (num_friable f) p' phi' m').
Proof.
  intros. unfold b_friable_material, n_friable_material. cbn [num_friable nfr_critical nfr_coordination nfr_shear_reduction]. simul.
Qed.
Lemma sim_patchy_material : forall q p p' phi phi' m m', arel real p p' -> arel real phi phi' -> realb m m' ->
  sim realb (b_patchy_material q p phi m) (n_patchy_material (num_patchy q) p' phi' m').
Proof.
  intros. unfold b_patchy_material, n_patchy_material.
  cbn [num_patchy npa_cement npa_critical npa_cement_fraction npa_lower_pressure npa_upper_fraction npa_coordination
       npa_shear_reduction].
  apply sim_patchy_cement; [assumption|apply realb_num|sim_arel..].
Qed.
Definition real3 (x : R * R * R) (y : num * num * num) : Prop := prel (prel real real) real x y.
Lemma sim_three : forall f g rows, (forall r, sim real (f r) (g r)) -> sim real3 (three f rows) (n_three g rows).
Proof.
  intros f g [[a b] c] H. unfold three, n_three.
  eapply rrel_bind; [apply H|]. intros ? ? ->. eapply rrel_bind; [apply H|]. intros ? ? ->.
  eapply rrel_bind; [apply H|]. intros ? ? ->. apply rrel_ok. repeat split; reflexivity.
Qed.
Lemma sim_polyfit_row : forall p r, sim real (polyfit_row p r) (n_polyfit_row (Num p) r).
Proof.
  intros p [|a r]; [right; reflexivity|]. unfold polyfit_row, n_polyfit_row. rewrite real_np_polyval. reflexivity.
Qed.
Lemma sim_column : forall r i, sim eq (column r i) (column r i).
Proof. intros r i. destruct (column r i); [reflexivity|right; reflexivity]. Qed.
#[global] Hint Extern 1 (rrel _ _ (column _ _) _) => apply sim_column : sim.
Ltac col := eapply rrel_bind; [apply sim_column|]; intros ? ? <-.
Lemma sim_expfit_row : forall p r, sim real (expfit_row p r) (n_expfit_row (Num p) r).
Proof. intros p r. unfold expfit_row, n_expfit_row. do 3 col. simul. Qed.
Lemma sim_logfit_row : forall p r, sim real (logfit_row p r) (n_logfit_row (Num p) r).
Proof. intros p r. unfold logfit_row, n_logfit_row. do 2 col. simul. Qed.
Lemma sim_powerfit_row : forall p r, sim real (powerfit_row p r) (n_powerfit_row (Num p) r).
Proof. intros p r. unfold powerfit_row, n_powerfit_row. do 2 col. simul. Qed.
Lemma sim_rows : forall a b c, sim eq (coefficient_rows a b c) (coefficient_rows a b c).
Proof. intros. destruct (coefficient_rows a b c); [reflexivity|right; reflexivity]. Qed.
Lemma sim_stack : forall m m', realb m m' -> sim (arel real3) (stack_moduli m) (n_stack_moduli m').
Proof.
  intros m m' H. unfold stack_moduli, n_stack_moduli. pose proof H as (H1 & H2 & H3 & H4 & H5).
  rewrite (arel_is_vec _ _ _ H1), (arel_is_vec _ _ _ H2), (arel_is_vec _ _ _ H3).
  eapply rrel_bind; [apply rrel_guard_eq; [reflexivity|right; reflexivity]|]. intros _ _ _.
  apply rrel_ok. unfold real3. sim_arel.
Qed.
Lemma sim_no_rows : forall a b, arel real a b -> sim urel (guard (no_rows a) ShapeError) (guard (no_rows b) ShapeError).
Proof. intros a b H. apply rrel_guard_eq; [eapply arel_no_rows, H|right; reflexivity]. Qed.
Ltac fit_rows L :=
  eapply rrel_bind; [apply sim_rows|]; intros rows ? <-;
  try (eapply rrel_bind; [apply sim_no_rows; eassumption|]; intros _ _ _);
  eapply rrel_amap; [eassumption|]; intros x y ->; apply sim_three; intro r; apply L.
Lemma sim_eval_model : forall md p p' phi phi' m m', arel real p p' -> arel real phi phi' -> realb m m' ->
  sim (arel real3) (b_eval_model md p phi m) (n_eval_model (num_dependency md) p' phi' m').
Proof.
  intros md p p' phi phi' m m' P F M. destruct md as [c|c|c|d b v|f|q]; cbn [b_eval_model n_eval_model num_dependency].
  - fit_rows sim_polyfit_row.
  - fit_rows sim_expfit_row.
  - fit_rows sim_logfit_row.
  - fit_rows sim_powerfit_row.
  - eapply rrel_bind; [apply sim_friable_material; eassumption|]. intros a b E. apply sim_stack, E.
  - eapply rrel_bind; [apply sim_patchy_material; eassumption|]. intros a b E. apply sim_stack, E.
Qed.
Lemma num_uses_moduli : forall md, n_model_uses_moduli (num_dependency md) = b_model_uses_moduli md.
Proof. intros []; reflexivity. Qed.
Lemma real_tiny : forall x y, real3 x y -> tiny_row x = n_tiny_row y.
Proof. intros x y H. unfold real3 in H. sim_prods. reflexivity. Qed.
Lemma sim_times : forall a a' b b', arel real a a' -> arel real b b' -> arel real (times a b) (n_times a' b').
Proof. intros. unfold times, n_times. sim_arel. Qed.
Lemma sim_plus : forall a a' b b', arel real a a' -> arel real b b' -> arel real (plus a b) (n_plus a' b').
Proof. intros. unfold plus, n_plus. sim_arel. Qed.
Lemma sim_triples : forall a a' b b' f g, arel real3 a a' -> arel real3 b b' ->
  (forall x y x' y', real3 x x' -> real3 y y' -> real (f (x, y)) (g (x', y'))) ->
  arel real (pmap f (zip a b)) (pmap g (zip a' b')).
Proof.
  intros a a' b b' f g A B F. eapply arel_pmap; [eapply arel_zip; eassumption|].
  intros [x y] [x' y'] [E1 E2]. apply F; assumption.
Qed.
Ltac trip := apply sim_triples; try assumption;
  (let E1 := fresh in let E2 := fresh in intros ? ? ? ? E1 E2; unfold real3 in E1, E2; sim_prods; reflexivity).
Lemma sim_factors : forall a a' b b', arel real3 a a' -> arel real3 b b' ->
  prel (prel (arel real) (arel real)) (arel real) (factors a b) (n_factors a' b').
Proof. intros. unfold factors, n_factors. repeat split; cbn [fst snd]; trip. Qed.
Lemma sim_differences : forall a a' b b', arel real3 a a' -> arel real3 b b' ->
  prel (prel (arel real) (arel real)) (arel real) (differences a b) (n_differences a' b').
Proof. intros. unfold differences, n_differences. repeat split; cbn [fst snd]; trip. Qed.
#[global] Hint Extern 1 (arel _ (times _ _) _) => apply sim_times; sim_arel : sim.
#[global] Hint Extern 1 (arel _ (plus _ _) _) => apply sim_plus; sim_arel : sim.

Lemma sim_generic_dependency : forall md m m' p p' r r' phi phi' mi mi', realb m m' -> arel real p p' -> arel real r r' ->
  arel real phi phi' -> realb mi mi' ->
  sim realb (b_generic_dependency md m p r phi mi) (n_generic_dependency (num_dependency md) m' p' r' phi' mi').
Proof.
  intros md m m' p p' r r' phi phi' mi mi' M P Q F Mi. unfold b_generic_dependency, n_generic_dependency.
  eapply rrel_bind; [apply sim_eval_model; eassumption|]. intros ref ref' E1.
  eapply rrel_bind; [apply sim_eval_model; eassumption|]. intros eff eff' E2.
  eapply rrel_bind. { apply rrel_guard_eq; [eapply any_eq; [exact E1|exact real_tiny]|right; reflexivity]. }
  intros _ _ _. cbv zeta. rewrite num_uses_moduli.
  destruct (sim_factors _ _ _ _ E2 E1) as [[Fd Fp] Fs].
  destruct (b_model_uses_moduli md); simul.
Qed.
Lemma sim_powerfit_dependency : forall md m m' p p' r r' phi phi' mi mi', realb m m' -> arel real p p' -> arel real r r' ->
  arel real phi phi' -> realb mi mi' ->
  sim realb (b_powerfit_dependency md m p r phi mi) (n_powerfit_dependency (num_dependency md) m' p' r' phi' mi').
Proof.
  intros md m m' p p' r r' phi phi' mi mi' M P Q F Mi. unfold b_powerfit_dependency, n_powerfit_dependency.
  eapply rrel_bind; [apply sim_eval_model; eassumption|]. intros ref ref' E1.
  eapply rrel_bind; [apply sim_eval_model; eassumption|]. intros eff eff' E2. cbv zeta.
  destruct (sim_differences _ _ _ _ E2 E1) as [[Fd Fp] Fs]. simul.
Qed.
Lemma sim_pressure_dependency : forall md m m' p p' r r' phi phi' mi mi', realb m m' -> arel real p p' -> arel real r r' ->
  arel real phi phi' -> realb mi mi' ->
  sim realb (b_pressure_dependency md m p r phi mi) (n_pressure_dependency (num_dependency md) m' p' r' phi' mi').
Proof.
  intros md m m' p p' r r' phi phi' mi mi' M P Q F Mi.
  destruct md as [c|c|c|d b v|f|q];
    try (exact (sim_generic_dependency _ _ _ _ _ _ _ _ _ _ _ M P Q F Mi)).
  exact (sim_powerfit_dependency _ _ _ _ _ _ _ _ _ _ _ M P Q F Mi).
Qed.

(** ** Dry rock *)
Lemma sim_clip : forall a a' m, arel real a a' -> arel real (b_clip_above a m) (n_clip_above a' (num_option m)).
Proof. intros a a' [m|] H; cbn [b_clip_above n_clip_above num_option option_map]; [sim_arel|exact H]. Qed.
Lemma sim_truncated_reference : forall p, arel real (b_truncated_reference p) (n_truncated_reference (num_pressure p)).
Proof. intro p. unfold b_truncated_reference, n_truncated_reference. apply sim_clip. cbn [num_pressure npr_overburden npr_reference]. sim_arel. Qed.
Lemma sim_truncated_rock : forall p, sim (arel real) (b_truncated_rock p) (n_truncated_rock (num_pressure p)).
Proof.
  intro p. unfold b_truncated_rock, n_truncated_rock. cbn [num_pressure npr_rock].
  destruct (bp_rock p) as [f|]; cbn [num_option option_map]; [|right; reflexivity].
  apply rrel_ok, sim_clip. cbn [num_pressure npr_overburden]. sim_arel.
Qed.
Lemma sim_effective_depth : forall t, sim (arel real) (b_effective_depth t) (n_effective_depth (num_depth t)).
Proof.
  intro t. unfold b_effective_depth, n_effective_depth. cbn [num_depth ndt_reference ndt_depth].
  destruct (bdt_reference t) as [r|]; cbn [num_option option_map]; [|apply rrel_ok, arel_num].
  rewrite <- (arel_is_vec _ _ _ (arel_num r)), <- (arel_is_vec _ _ _ (arel_num (bdt_depth t))).
  eapply rrel_bind; [apply rrel_guard_eq; [reflexivity|right; reflexivity]|]. intros _ _ _. apply rrel_ok. sim_arel.
Qed.
Lemma sim_adjust_pressure : forall md m m' p phi phi' mi mi', realb m m' -> arel real phi phi' -> realb mi mi' ->
  sim realb (b_adjust_pressure md m p phi mi) (n_adjust_pressure (num_dependency md) m' (num_pressure p) phi' mi').
Proof.
  intros md m m' p phi phi' mi mi' M F Mi. unfold b_adjust_pressure, n_adjust_pressure.
  eapply rrel_bind; [apply sim_truncated_rock|]. intros e e' E.
  eapply rrel_bind with (P := arel real).
  - destruct md; cbn [num_dependency]; try exact E. cbn [num_pressure npr_rock].
    destruct (bp_rock p); cbn [num_option option_map]; [apply rrel_ok, arel_num|right; reflexivity].
  - intros x x' X. apply sim_pressure_dependency; try assumption. apply sim_truncated_reference.
Qed.
Lemma sim_adjust_one : forall a m m' p phi phi' mi mi', realb m m' -> arel real phi phi' -> realb mi mi' ->
  sim realb (b_adjust_one a m p phi mi) (n_adjust_one (num_adjustment a) m' (num_pressure p) phi' mi').
Proof.
  intros [t|md] m m' p phi phi' mi mi' M F Mi; cbn [b_adjust_one n_adjust_one num_adjustment].
  - eapply rrel_bind; [apply sim_effective_depth|]. intros d d' D. apply sim_polyval_material; assumption.
  - apply sim_adjust_pressure; assumption.
Qed.
Lemma sim_adjust_material : forall l m m' p phi phi' mi mi', realb m m' -> arel real phi phi' -> realb mi mi' ->
  sim realb (b_adjust_material l m p phi mi) (n_adjust_material (map num_adjustment l) m' (num_pressure p) phi' mi').
Proof.
  induction l as [|a l IH]; intros m m' p phi phi' mi mi' M F Mi; cbn [b_adjust_material n_adjust_material map].
  - apply rrel_ok, M.
  - eapply rrel_bind; [apply sim_adjust_one; eassumption|]. intros x x' X. apply IH; assumption.
Qed.
Lemma sim_material_from_model : forall d p p' mi mi', arel real p p' -> realb mi mi' ->
  sim realb (b_material_from_model d p mi) (n_material_from_model (num_dry_rock d) p' mi').
Proof.
  intros [[c|f|q] phi adj] p p' mi mi' P Mi;
    cbn [b_material_from_model n_material_from_model num_dry_rock ndr_model num_rock_model bdr_model ndr_porosity bdr_porosity].
  - apply sim_polyval_material; [apply arel_num|assumption].
  - apply sim_friable_material; [assumption|apply arel_num|assumption].
  - apply sim_patchy_material; [assumption|apply arel_num|assumption].
Qed.
Lemma sim_dry_rock_material : forall d p mi mi', realb mi mi' ->
  sim realb (b_dry_rock_material d mi p) (n_dry_rock_material (num_dry_rock d) mi' (num_pressure p)).
Proof.
  intros d p mi mi' Mi. unfold b_dry_rock_material, n_dry_rock_material.
  eapply rrel_bind; [apply sim_truncated_rock|]. intros e e' E.
  eapply rrel_bind; [apply sim_material_from_model; eassumption|]. intros m m' M.
  apply sim_adjust_material; [assumption|apply arel_num|assumption].
Qed.
Lemma sim_nonporous : forall d mi mi', realb mi mi' -> sim realb (b_nonporous d mi) (n_nonporous (num_dry_rock d) mi').
Proof.
  intros [[c|f|q] phi adj] mi mi' Mi; cbn [b_nonporous n_nonporous num_dry_rock ndr_model num_rock_model bdr_model];
    try (apply rrel_ok, Mi).
  apply sim_walpole; [apply realb_num|assumption|apply arel_num].
Qed.
Lemma sim_check_dry_rock : forall d, sim urel (b_check_dry_rock d) (n_check_dry_rock (num_dry_rock d)).
Proof.
  intros [[c|f|q] phi adj]; unfold b_check_dry_rock, n_check_dry_rock; cbn [num_dry_rock ndr_model num_rock_model bdr_model
    ndr_porosity bdr_porosity num_friable nfr_critical num_patchy npa_critical npa_upper_fraction]; cbv zeta; simul.
Qed.

(** ** The whole calculation *)
Lemma option_num : forall a, orel (arel real) a (num_option a).
Proof. intros [a|]; cbn; [apply arel_num|exact I]. Qed.
Lemma sim_complete_fluids : forall f fs,
  sim (fun x y => y = num_fluids x) (b_complete_fluids f fs) (n_complete_fluids (num_fluids f) (map num_option fs)).
Proof.
  intros f fs. unfold b_complete_fluids, n_complete_fluids.
  assert (H : Forall2 (orel (arel real)) fs (map num_option fs)).
  { induction fs; cbn [map]; constructor; [apply option_num|assumption]. }
  eapply rrel_bind; [eapply rrel_each; [exact H|exact sim_fraction_is_ratio]|]. intros _ _ _.
  eapply rrel_bind. { apply rrel_guard_eq; [destruct fs; reflexivity|right; reflexivity]. }
  intros _ _ _. eapply rrel_bind.
  { apply rrel_guard_eq; [|right; reflexivity]. eapply any_eq; [apply sim_sum_given, H|]. intros x y ->. reflexivity. }
  intros _ _ _. eapply rrel_bind; [apply sim_fix_one_fraction, H|]. intros l l' L. apply rrel_ok.
  unfold num_fluids. cbn [nf_temperature nf_constituents nf_mix_method nf_brie_constant nf_brie_gases nf_fluid_model
    bf_temperature bf_constituents bf_mix_method bf_brie_constant bf_brie_gases bf_fluid_model]. f_equal.
  rewrite map_map. revert l l' L. induction (bf_constituents f) as [|c cs IH]; intros l l' L; [reflexivity|].
  destruct L as [|x y l l' L1 L2]; [reflexivity|]. cbn [combine map]. f_equal; [|apply IH, L2].
  unfold num_constituent. cbn [fst snd bc_material bc_fraction bc_fluid_model nc_material nc_fluid_model]. f_equal.
  apply arel_num_eq, L1.
Qed.

Theorem sim_calculate : forall co2 nco2 inp, extends co2 nco2 ->
  sim (fun x y => y = num_output x) (b_calculate_results co2 inp) (n_calculate_results nco2 (num_input inp)).
Proof.
  intros co2 nco2 inp X. unfold b_calculate_results, n_calculate_results.
  cbn [num_input ni_minerals ni_fluids ni_fluid_fractions ni_dry_rock ni_pressure].
  eapply rrel_bind.
  { apply sim_minerals. induction (bi_minerals inp) as [|[m f] l IH]; cbn [map]; constructor; [|exact IH].
    split; [apply realb_num|apply option_num]. }
  intros ms ms' M. eapply rrel_bind; [apply sim_complete_fluids|]. intros fl ? ->.
  eapply rrel_bind; [apply sim_check_dry_rock|]. intros _ _ _.
  eapply rrel_bind; [apply sim_as_mixture_minerals, M|]. intros mi mi' Mi.
  eapply rrel_bind with (P := arel real).
  { cbn [num_pressure npr_fluid]. destruct (bp_fluid (bi_pressure inp)); cbn [num_option option_map];
      [apply rrel_ok, arel_num|right; reflexivity]. }
  intros p p' P. eapply rrel_bind; [apply sim_as_mixture; eassumption|]. intros a a' A.
  eapply rrel_bind; [apply sim_dry_rock_material, Mi|]. intros d d' D.
  eapply rrel_bind; [apply sim_nonporous, Mi|]. intros n n' N.
  eapply rrel_bind; [apply sim_substitution; [exact D|exact N|exact A|apply arel_num]|]. intros s s' S.
  apply rrel_ok. unfold num_output. cbn [bo_ksat bo_kmin bo_kdry bo_mysat bo_rsat bo_kmin_fls].
  destruct Mi as [M1 _], D as [D1 _], N as [N1 _], S as (S1 & S2 & S3 & _).
  f_equal; apply arel_num_eq; assumption.
Qed.

(** ** The rows written *)
Lemma expand_num : forall n (a : arr R), expand n (pmap Num a) = map Num (expand n a).
Proof. intros n [x|l]; cbn [pmap expand]; [|reflexivity]. induction n as [|n IH]; cbn; [reflexivity|]. rewrite IH. reflexivity. Qed.
Lemma combine_nums : forall {A B} (f : A -> B) l (m : list R),
  combine (map f l) (map Num m) = map (fun x => (f (fst x), Num (snd x))) (combine l m).
Proof. intros A B f l. induction l as [|x l IH]; intros [|y m]; cbn; try reflexivity. rewrite IH. reflexivity. Qed.

Lemma rows_num : forall n r, n_result_rows n (num_output r) = map num_row (result_rows n r).
Proof.
  intros n r. unfold n_result_rows, result_rows, num_output.
  cbn [no_ksat no_kmin no_kdry no_mysat no_rsat no_kmin_fls].
  rewrite !expand_num, !combine_nums, !map_map. apply map_ext. intros [[[[[a b] c] d] e] f]. reflexivity.
Qed.

Lemma results_agree : forall co2 nco2 n inp, extends co2 nco2 ->
  (forall rows, b_results co2 n inp = Ok rows -> n_results nco2 n (num_input inp) = Ok (map num_row rows)) /\
  (forall e, b_results co2 n inp = Err e -> e <> NonFinite -> n_results nco2 n (num_input inp) = Err e).
Proof.
  intros co2 nco2 n inp H. pose proof (sim_calculate co2 nco2 inp H) as S. unfold b_results, n_results.
  destruct (b_calculate_results co2 inp) as [r|e], (n_calculate_results nco2 (num_input inp)) as [s|e'];
    cbn in S |- *; split; intros v E; try discriminate.
  - injection E as <-. rewrite S, rows_num. reflexivity.
  - contradiction.
  - injection E as <-. intro N. contradiction.
  - injection E as <-. intro N. destruct S as [S|S]; [contradiction|]. rewrite S. reflexivity.
Qed.

Lemma with_nan_extends : forall co2, extends co2 (with_nan co2).
Proof. intros co2 t p i. split; intros x E; unfold with_nan; rewrite E; reflexivity. Qed.
