(** Lemmas: on constants the whole-table functions are the scalar ones. *)
From Coq Require Import String List ZArith.
From Verif Require Import Base BaseProofs MaterialModel Spec MaterialProofs HashinShtrikmanModel MineralsModel
  FluidModel SandstoneModel ConfigModel BatzleWangModel FluidsModel RowModel RowSpec RowProofs RowConfigProofs.
Import ListNotations.
Open Scope R_scope.

Definition up (m : material) : bmat := mkB (Sc (bulk m)) (Sc (shear m)) (Sc (dens m)) (Sc (vp m)) (Sc (vs m)).
Definition lift {A B} (f : A -> B) (r : res A) : res B := match r with Ok a => Ok (f a) | Err e => Err e end.

Lemma bind_cong : forall {A A' B B'} (f : A -> A') (g : B -> B') (r : res A) (r' : res A') (h : A -> res B) (h' : A' -> res B'),
  r' = lift f r -> (forall a, h' (f a) = lift g (h a)) -> bind r' h' = lift g (bind r h).
Proof. intros A A' B B' f g [a|e] r' h h' -> H; cbn [bind lift]; [apply H|reflexivity]. Qed.

Lemma sc_amap : forall {A B} (f : A -> res B) x, amap f (Sc x) = lift Sc (f x).
Proof. intros A B f x. cbn [amap]. destruct (f x); reflexivity. Qed.

Ltac sc_cbn := unfold zip6, zip5, zip4, zip3, up;
  cbn [zip pmap any guard is_vec negb andb orb fst snd b_bulk b_shear b_dens b_vp b_vs bulk shear dens vp vs].
Ltac inner r k := match r with bind ?r' _ => inner r' k | _ => k r end.
Ltac sc_step := match goal with
  | |- bind ?r _ = _ => inner r ltac:(fun x => lazymatch x with Ok _ => fail | Err _ => fail | _ => destruct x end); cbn [bind lift]; try reflexivity
  | |- (if ?b then _ else _) = _ => destruct b; cbn [bind lift]; try reflexivity
  end.

Lemma guard_if : forall b e {A} (k : res A), (let* _ := guard b e in k) = if b then Err e else k.
Proof. intros [|] e A k; reflexivity. Qed.
Lemma ltb_if : forall a b {A} (x y : A), (if ltb a b then x else y) = if Rlt_dec a b then x else y.
Proof. intros a b A x y. unfold ltb. destruct (Rlt_dec a b); reflexivity. Qed.

Lemma sc_moduli : forall b mu d, bmat_of_moduli (Sc b) (Sc mu) (Sc d) = lift up (mat_of_moduli b mu d).
Proof.
  intros b mu d. unfold bmat_of_moduli, check_moduli, check_velocities, mat_of_moduli, mk_material, fill_moduli, fill_velocities.
  sc_cbn. rewrite !sc_amap. cbn [bind fst snd].
  destruct (Req_EM_T d 0); cbn [guard bind lift]; [reflexivity|].
  unfold ltb. destruct (Rlt_dec d 0); cbn [guard bind lift]; [reflexivity|].
  destruct (Rlt_dec b 0); cbn [guard bind lift]; [reflexivity|].
  destruct (Rlt_dec mu 0); cbn [guard bind lift]; [reflexivity|].
  destruct (calculate_primary_velocity b mu d) as [p|]; cbn [bind lift]; [|reflexivity].
  destruct (calculate_secondary_velocity mu d) as [s|]; cbn [bind lift any zip fst snd]; [|reflexivity].
  destruct (Rlt_dec p 0); cbn [guard bind lift]; [reflexivity|].
  destruct (Rlt_dec s 0); cbn [guard bind lift]; [reflexivity|].
  destruct (Rlt_dec p (sqrt (4 / 3) * s)); reflexivity.
Qed.

Lemma sc_velocities : forall d p s, bmat_of_velocities (Sc d) (Sc p) (Sc s) = lift up (mat_of_velocities d p s).
Proof.
  intros d p s. unfold bmat_of_velocities, check_moduli, check_velocities, mat_of_velocities, mk_material, fill_moduli, fill_velocities.
  sc_cbn. cbn [bind]. unfold ltb.
  destruct (Rlt_dec d 0); cbn [guard bind lift]; [reflexivity|].
  match goal with |- context [Rlt_dec (calculate_bulk_modulus ?a ?b ?c) 0] => destruct (Rlt_dec (calculate_bulk_modulus a b c) 0) end;
    cbn [guard bind lift]; [reflexivity|].
  destruct (Rlt_dec (calculate_shear_modulus s d) 0); cbn [guard bind lift]; [reflexivity|].
  destruct (Rlt_dec p 0); cbn [guard bind lift]; [reflexivity|].
  destruct (Rlt_dec s 0); cbn [guard bind lift]; [reflexivity|].
  destruct (Rlt_dec p (sqrt (4 / 3) * s)); reflexivity.
Qed.

Lemma sc_vectorize : forall {X} (f : X -> res material) x, vectorize_material f (Sc x) = lift up (f x).
Proof. intros X f x. unfold vectorize_material. rewrite sc_amap. destruct (f x); reflexivity. Qed.

Lemma sc_poisson : forall m, b_poisson_ratio (up m) = lift Sc (poisson_ratio m).
Proof. intros m. unfold b_poisson_ratio, poisson_ratio. sc_cbn. rewrite sc_amap. reflexivity. Qed.

Lemma sc_arbitrary : forall b mu d,
  barbitrary (Sc b) (Sc mu) (Sc d) = lift up (arbitrary_material (Some b) (Some mu) d None None).
Proof.
  intros b mu d. unfold barbitrary, arbitrary_material, fill_moduli, fill_velocities. sc_cbn. rewrite !sc_amap. cbn [bind fst snd].
  destruct (calculate_primary_velocity b mu d) as [p|]; cbn [bind lift]; [|reflexivity].
  destruct (calculate_secondary_velocity mu d) as [s|]; reflexivity.
Qed.

Lemma sc_check_is_ratio : forall r, b_check_is_ratio (Sc r) = check_is_ratio r.
Proof.
  intros r. unfold b_check_is_ratio, check_is_ratio. cbn [any]. unfold ltb.
  destruct (Rlt_dec (1 + 1 / 10 ^ 5) r); cbn [guard bind]; [reflexivity|].
  destruct (Rlt_dec r (0 - 1 / 10 ^ 5)); reflexivity.
Qed.

Lemma lift_id : forall {A} (r : res A), r = lift (fun x => x) r.
Proof. intros A [a|e]; reflexivity. Qed.

Lemma sc_walpole : forall a b r, b_walpole (up a) (up b) (Sc r) = lift up (hashin_shtrikman_walpole a b r "lower").
Proof.
  intros a b r. unfold b_walpole, hashin_shtrikman_walpole. rewrite sc_check_is_ratio.
  eapply bind_cong; [apply lift_id|]. intros _. cbn [String.eqb Ascii.eqb Bool.eqb orb negb].
  sc_cbn. rewrite !sc_amap. eapply bind_cong; [reflexivity|]. intros k.
  eapply bind_cong; [reflexivity|]. intros mu. apply sc_moduli.
Qed.

(** ** Minerals *)
Definition opt (o : option R) : option (arr R) := option_map Sc o.

Lemma sc_fraction_is_ratio : forall v, b_fraction_is_ratio (opt v) = lift (fun _ => tt) (fraction_is_ratio v).
Proof.
  intros [v|]; [|reflexivity]. unfold b_fraction_is_ratio, fraction_is_ratio. cbn [opt option_map any]. unfold ltb.
  destruct (Rlt_dec v (- (1 / 10 ^ 5))); cbn [guard bind lift]; [reflexivity|].
  destruct (Rlt_dec (1 + 1 / 10 ^ 5) v); reflexivity.
Qed.

Lemma fraction_is_ratio_id : forall v w, fraction_is_ratio v = Ok w -> w = v.
Proof.
  intros [v|] w H; cbn in H; [|congruence].
  destruct (Rlt_dec v _); [discriminate|]. destruct (Rlt_dec _ v); [discriminate|]. congruence.
Qed.

Lemma sc_each : forall fs, each b_fraction_is_ratio (map opt fs) = lift (fun _ => tt) (sequence (map fraction_is_ratio fs)).
Proof.
  induction fs as [|v fs IH]; [reflexivity|]. cbn [map each sequence]. rewrite sc_fraction_is_ratio, IH.
  destruct (fraction_is_ratio v); [|reflexivity]. cbn [bind lift]. destruct (sequence (map fraction_is_ratio fs)); reflexivity.
Qed.
Lemma fractions_id : forall fs l, sequence (map fraction_is_ratio fs) = Ok l -> l = fs.
Proof.
  induction fs as [|v fs IH]; intros l H; cbn [map sequence] in H; [congruence|].
  destruct (fraction_is_ratio v) as [w|] eqn:E; [|discriminate]. cbn [bind] in H.
  destruct (sequence (map fraction_is_ratio fs)) as [l'|]; [|discriminate]. cbn [bind] in H.
  injection H as <-. rewrite (IH l' eq_refl), (fraction_is_ratio_id _ _ E). reflexivity.
Qed.

Lemma sc_sum_given : forall fs, b_sum_given (map opt fs) = Sc (sum_given fs).
Proof. induction fs as [|[v|] fs IH]; cbn [map opt option_map b_sum_given sum_given]; rewrite ?IH; reflexivity. Qed.
Lemma sc_missing : forall fs, missing (map opt fs) = count_missing fs.
Proof. induction fs as [|[v|] fs IH]; cbn [map opt option_map missing count_missing]; rewrite ?IH; reflexivity. Qed.
Lemma sc_asum : forall l, asum (map Sc l) = Sc (rsum l).
Proof. induction l as [|x l IH]; cbn [map asum]; rewrite ?IH; reflexivity. Qed.

Lemma sc_fix_one_fraction : forall fs, b_fix_one_fraction (map opt fs) = lift (map Sc) (fix_one_fraction fs).
Proof.
  intros fs. unfold b_fix_one_fraction, fix_one_fraction. rewrite sc_sum_given, sc_missing. cbn [any pmap]. unfold ltb.
  destruct (Rlt_dec (1 + 1 / 10 ^ 5) (sum_given fs)); cbn [guard bind lift]; [reflexivity|].
  assert (M : map (completed (Sc (1 - sum_given fs))) (map opt fs) =
    map Sc (map (fun o => match o with Some x => x | None => 1 - sum_given fs end) fs)).
  { rewrite !map_map. apply map_ext. intros [v|]; reflexivity. }
  rewrite M. destruct (count_missing fs) as [|[|k]]; cbn [bind lift]; try reflexivity.
  change (Some (Sc (1 - sum_given fs))) with (opt (Some (1 - sum_given fs))). rewrite sc_fraction_is_ratio.
  destruct (fraction_is_ratio (Some (1 - sum_given fs))); reflexivity.
Qed.

Definition upc (c : material * R) : bmat * arr R := (up (fst c), Sc (snd c)).

Lemma sc_minerals : forall cs,
  b_minerals (map (fun c => (up (fst c), opt (snd c))) cs) = lift (map upc) (minerals cs).
Proof.
  intros [|c cs]; [reflexivity|]. unfold b_minerals, minerals.
  set (l := c :: cs). assert (N : match map (fun c => (up (fst c), opt (snd c))) l with [] => true | _ => false end = false) by reflexivity.
  rewrite N. cbn [guard bind]. clear N.
  assert (E : each (fun c => b_fraction_is_ratio (snd c)) (map (fun c => (up (fst c), opt (snd c))) l) =
              each b_fraction_is_ratio (map opt (map snd l))).
  { induction l as [|x l IH]; [reflexivity|]. cbn [map each snd]. destruct (b_fraction_is_ratio (opt (snd x))); [|reflexivity]. cbn [bind]. exact IH. }
  rewrite E, sc_each, !map_map. clear E.
  rewrite <- (map_map snd fraction_is_ratio).
  destruct (sequence (map fraction_is_ratio (map snd l))) as [fs|] eqn:S; [|reflexivity].
  apply fractions_id in S. subst fs. cbn [bind lift].
  change (map (fun x => snd (up (fst x), opt (snd x))) l) with (map (fun x => opt (snd x)) l).
  rewrite <- (map_map snd opt). rewrite sc_fix_one_fraction.
  destruct (fix_one_fraction (map snd l)) as [fs|]; [|reflexivity]. cbn [bind lift]. rewrite sc_asum. cbn [any].
  destruct (isclose_one (rsum fs)); cbn [negb guard bind lift]; [|reflexivity].
  f_equal. change (map (fun x => fst (up (fst x), opt (snd x))) l) with (map (fun x => up (fst x)) l).
  rewrite <- (map_map fst up). unfold upc. rewrite <- combine_map2. reflexivity.
Qed.

Lemma sc_mix_minerals : forall a b, b_mix_minerals (upc a) (upc b) = lift upc (mix_minerals a b).
Proof.
  intros [a fa] [b fb]. unfold b_mix_minerals, mix_minerals, upc. cbn [fst snd zip pmap]. rewrite !sc_amap. cbn [fst snd].
  eapply bind_cong; [reflexivity|]. intros r. cbv beta.
  eapply bind_cong; [apply sc_walpole|]. intros m. cbv beta.
  eapply bind_cong; [apply sc_arbitrary|]. intros w. cbv beta.
  change (Some (Sc (fa + fb))) with (opt (Some (fa + fb))).
  eapply bind_cong; [apply sc_fraction_is_ratio|]. intros _. reflexivity.
Qed.
Lemma sc_mix_loop : forall l a, b_mix_loop (upc a) (map upc l) = lift upc (mix_loop a l).
Proof.
  induction l as [|b l IH]; intros a; cbn [map b_mix_loop mix_loop]; [reflexivity|].
  eapply bind_cong; [apply sc_mix_minerals|]. intros c. apply IH.
Qed.
Lemma sc_as_mixture : forall cs, b_minerals_as_mixture (map upc cs) = lift up (minerals_as_mixture cs).
Proof.
  intros [|c cs]; [reflexivity|]. cbn [map b_minerals_as_mixture minerals_as_mixture].
  eapply bind_cong; [apply sc_mix_loop|]. intros r. reflexivity.
Qed.

(** ** Fluids *)
Lemma sc_fluid : forall k d, b_fluid (Sc k) (Sc d) = lift up (fluid_of_bulk k d).
Proof. intros k d. apply sc_moduli. Qed.

Lemma sc_saturations : forall l, b_sum_saturations_to_one (map Sc l) = map Sc (sum_saturations_to_one l).
Proof.
  intros l. unfold b_sum_saturations_to_one, sum_saturations_to_one. rewrite sc_asum, !map_map. reflexivity.
Qed.
Lemma combine_up : forall fl l, combine (map up fl) (map (@Sc R) l) = map upc (combine fl l).
Proof. intros fl l. unfold upc. rewrite <- combine_map2. reflexivity. Qed.
Lemma sc_mix_densities : forall fl l, b_mix_densities (map up fl) (map Sc l) = Sc (mix_densities fl l).
Proof.
  intros fl l. unfold b_mix_densities, mix_densities. rewrite combine_up, map_map, <- sc_asum, map_map. reflexivity.
Qed.
Lemma sc_asum_res : forall (l : list (res R)), asum_res (map (lift Sc) l) = lift Sc (rsum_res l).
Proof.
  induction l as [|[x|e] l IH]; cbn [map asum_res rsum_res lift bind]; [reflexivity| |reflexivity].
  rewrite IH. destruct (rsum_res l); reflexivity.
Qed.
Lemma sc_mix_bulk : forall fl l, b_mix_bulk_moduli (map up fl) (map Sc l) = lift Sc (mix_bulk_moduli fl l).
Proof.
  intros fl l. unfold b_mix_bulk_moduli, mix_bulk_moduli.
  assert (C : combine (map (@Sc R) l) (map up fl) = map (fun c => (Sc (fst c), up (snd c))) (combine l fl)).
  { rewrite <- combine_map2. reflexivity. }
  rewrite C. destruct (combine l fl) as [|c cs]; [reflexivity|]. set (cl := c :: cs).
  assert (N : match map (fun c => (Sc (fst c), up (snd c))) cl with [] => true | _ => false end = false) by reflexivity.
  rewrite N. cbn [guard bind]. rewrite map_map. cbn [fst snd].
  rewrite (map_ext _ (fun sf => lift Sc (np_div (fst sf) (bulk (snd sf))))) by (intros x; sc_cbn; rewrite sc_amap; reflexivity).
  rewrite <- (map_map (fun sf => np_div (fst sf) (bulk (snd sf))) (lift Sc)).
  eapply bind_cong; [apply sc_asum_res|]. intros t. cbv beta. apply sc_amap.
Qed.
Lemma sc_wood : forall fl l, b_wood (map up fl) (map Sc l) = lift up (wood_fluid_mixing fl l).
Proof.
  intros fl l. unfold b_wood, wood_fluid_mixing. rewrite sc_saturations.
  eapply bind_cong; [apply sc_mix_bulk|]. intros k. cbv beta. rewrite sc_mix_densities. apply sc_fluid.
Qed.
Lemma sc_brie : forall fl fs gl gs e,
  b_brie (map up fl) (map Sc fs) (map up gl) (map Sc gs) e = lift up (brie_fluid_mixing fl fs gl gs e).
Proof.
  intros fl fs gl gs e. unfold b_brie, brie_fluid_mixing. rewrite !map_length, !guard_if.
  destruct (negb (Nat.eqb (length fl) (length fs))); [reflexivity|].
  destruct (negb (Nat.eqb (length gl) (length gs))); [reflexivity|].
  destruct fl as [|f fl], gl as [|g gl]; [reflexivity|exact (sc_wood (g :: gl) gs)|exact (sc_wood (f :: fl) fs)|].
  cbn [map]. eapply bind_cong; [exact (sc_wood (f :: fl) fs)|]. intros liq. cbv beta.
  eapply bind_cong; [exact (sc_wood (g :: gl) gs)|]. intros ga. cbv beta. rewrite sc_asum, sc_amap.
  eapply bind_cong; [reflexivity|]. intros w. cbv beta.
  change [up liq; up ga] with (map up [liq; ga]). cbn [pmap].
  change [Sc (rsum fs); Sc (1 - rsum fs)] with (map (@Sc R) [rsum fs; 1 - rsum fs]).
  rewrite sc_mix_densities. sc_cbn. apply sc_fluid.
Qed.
Lemma sc_substitution : forall d m f phi,
  b_fluid_substitution (up d) (up m) (up f) (Sc phi) = lift up (fluid_substitution d m f phi).
Proof.
  intros d m f phi. unfold b_fluid_substitution, fluid_substitution. sc_cbn. rewrite sc_amap. cbn [fst snd].
  eapply bind_cong; [reflexivity|]. intros k. cbv beta. apply sc_moduli.
Qed.

(** ** Sandstone *)
Lemma sc_hertz_mindlin : forall m a b c d,
  b_hertz_mindlin (up m) (Sc a) (Sc b) (Sc c) (Sc d) = lift up (hertz_mindlin m a b c d).
Proof.
  intros m a b c d. unfold b_hertz_mindlin, hertz_mindlin.
  eapply bind_cong; [apply sc_poisson|]. intros v. cbv beta. sc_cbn. rewrite sc_amap.
  eapply bind_cong; [reflexivity|]. intros q. cbv beta. rewrite sc_amap.
  eapply bind_cong; [reflexivity|]. intros x. cbv beta. sc_cbn. rewrite sc_amap.
  eapply bind_cong; [reflexivity|]. intros sn. cbv beta. rewrite sc_amap.
  eapply bind_cong; [reflexivity|]. intros st. cbv beta. sc_cbn. apply sc_moduli.
Qed.
Lemma sc_friable_sand : forall m a b c d e,
  b_friable_sand (up m) (Sc a) (Sc b) (Sc c) (Sc d) (Sc e) = lift up (friable_sand m a b c d e).
Proof.
  intros m a b c d e. unfold b_friable_sand, friable_sand.
  eapply bind_cong; [apply sc_hertz_mindlin|]. intros cm. cbv beta. sc_cbn. rewrite sc_amap.
  eapply bind_cong; [reflexivity|]. intros r. cbv beta. cbn [pmap]. apply sc_walpole.
Qed.
Lemma sc_check_porosities : forall a b, b_check_porosities (Sc a) (Sc b) = check_porosities a b.
Proof.
  intros a b. unfold b_check_porosities, check_porosities, ltb. sc_cbn.
  destruct (Rlt_dec 1 a); cbn [guard bind]; [reflexivity|].
  destruct (Rlt_dec a 0); cbn [guard bind]; [reflexivity|].
  destruct (Rlt_dec 1 b); cbn [guard bind]; [reflexivity|].
  destruct (Rlt_dec b 0); cbn [guard bind]; [reflexivity|].
  destruct (Rlt_dec a b); reflexivity.
Qed.
Lemma sc_radius_ratio : forall a b, b_cement_radius_ratio (Sc a) (Sc b) = lift Sc (cement_radius_ratio a b).
Proof.
  intros a b. unfold b_cement_radius_ratio, cement_radius_ratio. rewrite sc_check_porosities.
  eapply bind_cong; [apply lift_id|]. intros _. sc_cbn. rewrite sc_amap.
  eapply bind_cong; [reflexivity|]. intros q. cbv beta. rewrite sc_amap.
  eapply bind_cong; [reflexivity|]. intros v. reflexivity.
Qed.
Lemma sc_contact_cement : forall c m a b d e,
  b_contact_cement (up c) (up m) (Sc a) (Sc b) (Sc d) (Sc e) = lift up (contact_cement c m a b d e).
Proof.
  intros c m a b d e. unfold b_contact_cement, contact_cement. rewrite sc_check_porosities.
  eapply bind_cong; [apply lift_id|]. intros _.
  eapply bind_cong; [apply sc_radius_ratio|]. intros al. cbv beta.
  eapply bind_cong; [apply sc_poisson|]. intros nu. cbv beta.
  unfold b_shear_stiffness, b_normal_stiffness, b_primary_wave_modulus. sc_cbn. rewrite sc_amap.
  eapply bind_cong; [reflexivity|]. intros st. cbv beta.
  eapply bind_cong; [exact (sc_poisson c)|]. intros nuc. cbv beta. sc_cbn. rewrite sc_amap.
  eapply bind_cong; [reflexivity|]. intros sn. cbv beta. sc_cbn. apply sc_moduli.
Qed.
Lemma sc_constant_cement : forall s c a b d e f,
  b_constant_cement (up s) (up c) (Sc a) (Sc b) (Sc d) (Sc e) (Sc f) = lift up (constant_cement s c a b d e f).
Proof.
  intros s c a b d e f. unfold b_constant_cement, constant_cement. cbn [zip pmap].
  eapply bind_cong; [apply sc_walpole|]. intros dp. cbv beta.
  eapply bind_cong; [apply sc_contact_cement|]. intros cc. cbv beta. rewrite sc_amap.
  eapply bind_cong; [reflexivity|]. intros r. cbv beta. cbn [pmap]. apply sc_walpole.
Qed.
Lemma sc_patchy_cement : forall s c a1 a2 a3 a4 a5 a6 a7 a8 a9,
  b_patchy_cement (up s) (up c) (Sc a1) (Sc a2) (Sc a3) (Sc a4) (Sc a5) (Sc a6) (Sc a7) (Sc a8) (Sc a9) =
  lift up (patchy_cement s c a1 a2 a3 a4 a5 a6 a7 a8 a9).
Proof.
  intros s c a1 a2 a3 a4 a5 a6 a7 a8 a9. unfold b_patchy_cement, patchy_cement. cbn [zip pmap].
  eapply bind_cong; [apply sc_walpole|]. intros dp. cbv beta.
  eapply bind_cong; [apply sc_friable_sand|]. intros fr. cbv beta.
  eapply bind_cong; [apply sc_friable_sand|]. intros lo. cbv beta.
  eapply bind_cong; [apply sc_constant_cement|]. intros ub. cbv beta.
  eapply bind_cong; [apply sc_contact_cement|]. intros ct. cbv beta. rewrite sc_amap.
  eapply bind_cong; [reflexivity|]. intros r. cbv beta. cbn [pmap].
  eapply bind_cong; [apply sc_walpole|]. intros cn. cbv beta.
  unfold b_patchy_weight. sc_cbn. cbn [bind]. apply sc_moduli.
Qed.

(** ** Fluids of the configuration *)
Definition up_fluid (f : fluid_type) : bfluid_type :=
  match f with
  | FArbitrary m => BArbitrary (up m)
  | FOil a b c => BOil (Sc a) (Sc b) (Sc c)
  | FGas a => BGas (Sc a)
  | FBrine a => BBrine (Sc a)
  | FCondensate a b c => BCondensate (Sc a) (Sc b) (Sc c)
  | FCarbonDioxide b => BCarbonDioxide b
  end.
Definition up_constituent (c : constituent) : bconstituent :=
  mk_bconstituent (up_fluid (c_material c)) (Sc (c_fraction c)) (c_fluid_model c).
Definition up_fluids (f : fluids) : bfluids :=
  mk_bfluids (Sc (f_temperature f)) (map up_constituent (f_constituents f)) (f_mix_method f)
    (f_brie_constant f) (f_brie_gases f) (f_fluid_model f).

Lemma sc_fluid_as_material : forall co2 pr f t p,
  b_fluid_as_material co2 pr (up_fluid f) (Sc t) (Sc p) =
  lift (fun m => (up m, Sc (snd (fluid_as_material co2 pr f t p)))) (fst (fluid_as_material co2 pr f t p)).
Proof.
  intros co2 pr f t p. destruct f as [m|r rg g|g|s|r rg g|b], pr; cbn [b_fluid_as_material up_fluid fluid_as_material fst snd lift];
    try reflexivity.
  - sc_cbn. rewrite sc_vectorize. cbn [fst snd]. destruct (oil t p r rg g); reflexivity.
  - sc_cbn. rewrite sc_vectorize. cbn [fst snd]. destruct (gas t p g); reflexivity.
  - sc_cbn. rewrite sc_vectorize. cbn [fst snd]. destruct (brine t p s); reflexivity.
  - unfold b_eos, span_wagner_carbon_dioxide. cbn [pmap zip fst snd]. rewrite sc_amap. cbn [fst snd].
    destruct (co2 (celsius_to_kelvin t) (p / 10 ^ 6) b); reflexivity.
Qed.

Lemma sc_as_materials : forall co2 pr cs t p,
  b_as_materials co2 pr (Sc t) (Sc p) (map up_constituent cs) = lift (map up) (fst (as_materials co2 pr t p cs)).
Proof.
  intros co2 pr cs t. induction cs as [|c cs IH]; intros p; cbn [map b_as_materials as_materials]; [reflexivity|].
  cbn [up_constituent bc_material bc_fluid_model]. unfold constituent_as_material. rewrite sc_fluid_as_material.
  destruct (fluid_as_material co2 (match c_fluid_model c with Some q => q | None => pr end) (c_material c) t p) as [[m|e] p'];
    cbn [fst snd lift bind]; [|reflexivity].
  rewrite IH. destruct (as_materials co2 pr t p' cs) as [[ms|e] p'']; reflexivity.
Qed.

Lemma sc_fluids_as_mixture : forall co2 f p,
  b_as_mixture co2 (up_fluids f) (Sc p) = lift up (fst (as_mixture co2 f p)).
Proof.
  intros co2 f p. unfold b_as_mixture, as_mixture.
  cbn [up_fluids bf_fluid_model bf_temperature bf_constituents bf_mix_method bf_brie_constant bf_brie_gases].
  rewrite sc_as_materials. destruct (as_materials co2 (f_fluid_model f) (f_temperature f) p (f_constituents f)) as [[ms|e] p'];
    cbn [fst lift bind]; [|reflexivity].
  rewrite map_map. change (map (fun x => bc_fraction (up_constituent x)) (f_constituents f)) with (map (fun x => Sc (c_fraction x)) (f_constituents f)).
  rewrite <- (map_map c_fraction Sc).
  destruct (f_mix_method f); [apply sc_wood|].
  eapply bind_cong; [rewrite (pop_all_map up); instantiate (1 := fun r => (map up (fst r), map up (snd r)));
    destruct (pop_all _ ms); reflexivity|]. intros g. cbv beta.
  eapply bind_cong; [rewrite (pop_all_map Sc); instantiate (1 := fun r => (map Sc (fst r), map Sc (snd r)));
    destruct (pop_all _ _); reflexivity|]. intros s. cbv beta. cbn [fst snd]. apply sc_brie.
Qed.

Lemma sc_complete_fluids : forall f fs,
  b_complete_fluids (up_fluids f) (map opt fs) = lift up_fluids (complete_fluids f fs).
Proof.
  intros f fs. unfold b_complete_fluids, complete_fluids. rewrite sc_each.
  destruct (sequence (map fraction_is_ratio fs)) as [l|] eqn:S; [|reflexivity].
  apply fractions_id in S. subst l. cbn [bind lift]. destruct fs as [|x fs]; [reflexivity|].
  assert (N : match map opt (x :: fs) with [] => true | _ => false end = false) by reflexivity.
  rewrite N. cbn [guard bind]. rewrite sc_sum_given. cbn [any]. unfold ltb.
  destruct (Rlt_dec (1 + 1 / 10 ^ 5) (sum_given (x :: fs))); cbn [guard bind lift]; [reflexivity|].
  eapply bind_cong; [apply sc_fix_one_fraction|]. intros fs'. cbv beta. cbn [lift]. f_equal. unfold up_fluids.
  cbn [bf_fluid_model bf_temperature bf_constituents bf_mix_method bf_brie_constant bf_brie_gases
       f_fluid_model f_temperature f_constituents f_mix_method f_brie_constant f_brie_gases].
  f_equal. rewrite combine_map2, !map_map. reflexivity.
Qed.

(** ** Dry rock *)
Definition up_pressure (p : pressure) : bpressure :=
  mkBPressure (Sc (p_overburden p)) (Sc (p_reference p)) (opt (p_fluid p)) (opt (p_max_effective p)) (opt (p_rock p)).
Definition up_friable (f : friable_model) : bfriable_model :=
  mkBFriable (Sc (f_critical f)) (Sc (f_shear_reduction f)) (Sc (f_coordination f)).
Definition up_patchy (q : patchy_model) : bpatchy_model :=
  mkBPatchy (up (pa_cement q)) (Sc (pa_critical q)) (Sc (pa_cement_fraction q)) (Sc (pa_lower_pressure q))
    (Sc (pa_upper_fraction q)) (Sc (pa_coordination q)) (Sc (pa_shear_reduction q)).
Definition up_dependency (md : dependency_model) : bdependency_model :=
  match md with
  | Polyfit c => BPolyfit c
  | Expfit c => BExpfit c
  | Logfit c => BLogfit c
  | Powerfit d b v => BPowerfit d b v
  | Friable f => BFriable (up_friable f)
  | Patchy q => BPatchy (up_patchy q)
  end.
Definition up_adjustment (a : adjustment) : badjustment :=
  match a with
  | DepthTrend t => BDepthTrend (mkBDepth (Sc (dt_depth t)) (dt_coefficients t) (opt (dt_reference t)) (opt (dt_max t)))
  | PressureDependency md => BPressureDependency (up_dependency md)
  end.
Definition up_rock_model (m : rock_model) : brock_model :=
  match m with
  | RockPolyfit c => BRockPolyfit c
  | RockFriable f => BRockFriable (up_friable f)
  | RockPatchy q => BRockPatchy (up_patchy q)
  end.
Definition up_dry_rock (d : dry_rock) : bdry_rock :=
  mkBDryRock (up_rock_model (dr_model d)) (Sc (dr_porosity d)) (map up_adjustment (dr_adjustments d)).
Definition up_input (i : row_input) : binput :=
  mkBInput (map (fun c => (up (fst c), opt (snd c))) (i_minerals i)) (up_fluids (i_fluids i))
    (map opt (i_fluid_fractions i)) (up_dry_rock (i_dry_rock i)) (up_pressure (i_pressure i)).

Lemma sc_clip : forall x m, b_clip_above (Sc x) (opt m) = Sc (clip_above x m).
Proof. intros x [m|]; reflexivity. Qed.
Lemma sc_truncated_reference : forall p, b_truncated_reference (up_pressure p) = Sc (truncated_reference p).
Proof. intros p. apply sc_clip. Qed.
Lemma sc_truncated_rock : forall p, b_truncated_rock (up_pressure p) = lift Sc (truncated_rock p).
Proof.
  intros p. unfold b_truncated_rock, truncated_rock. cbn [up_pressure bp_rock].
  destruct (p_rock p) as [f|]; cbn [opt option_map]; [|reflexivity]. cbn [up_pressure bp_overburden bp_max_effective zip pmap lift].
  rewrite sc_clip. reflexivity.
Qed.
Lemma sc_polyval : forall v m c, b_polyval_material (Sc v) (up m) c = lift up (polyval_material v m c).
Proof.
  intros v m c. unfold b_polyval_material, polyval_material. sc_cbn.
  destruct (uses_moduli c) eqn:E; rewrite sc_vectorize; unfold fit_material; rewrite E; reflexivity.
Qed.
Lemma sc_friable_material : forall f p phi m,
  b_friable_material (up_friable f) (Sc p) (Sc phi) (up m) = lift up (friable_material f p phi m).
Proof. intros f p phi m. apply sc_friable_sand. Qed.
Lemma sc_patchy_material : forall q p phi m,
  b_patchy_material (up_patchy q) (Sc p) (Sc phi) (up m) = lift up (patchy_material q p phi m).
Proof. intros q p phi m. unfold b_patchy_material. cbn [up_patchy bpa_cement bpa_critical bpa_cement_fraction bpa_lower_pressure bpa_upper_fraction bpa_coordination bpa_shear_reduction zip pmap]. apply sc_patchy_cement. Qed.

Lemma sc_stack : forall m, stack_moduli (up m) = Ok (Sc (moduli_triple m)).
Proof. intros m. reflexivity. Qed.

Lemma sc_eval : forall md p phi m,
  b_eval_model (up_dependency md) (Sc p) (Sc phi) (up m) = lift Sc (eval_model md p phi m).
Proof.
  intros md p phi m. destruct md as [c|c|c|d b v|f|q]; cbn [b_eval_model up_dependency eval_model].
  1-4: eapply bind_cong; [apply lift_id|]; intros rows; cbn [no_rows guard bind]; rewrite sc_amap; reflexivity.
  - eapply bind_cong; [apply sc_friable_material|]. intros x. reflexivity.
  - eapply bind_cong; [apply sc_patchy_material|]. intros x. reflexivity.
Qed.
Lemma sc_uses : forall md, b_model_uses_moduli (up_dependency md) = model_uses_moduli md.
Proof. intros [c|c|c|d b v|f|q]; reflexivity. Qed.

Lemma sc_generic : forall md m p rp phi mn,
  b_generic_dependency (up_dependency md) (up m) (Sc p) (Sc rp) (Sc phi) (up mn) = lift up (generic_dependency md m p rp phi mn).
Proof.
  intros md m p rp phi mn. unfold b_generic_dependency, generic_dependency.
  eapply bind_cong; [apply sc_eval|]. intros [[rd rpp] rs]. cbv beta.
  eapply bind_cong; [apply sc_eval|]. intros [[ed ep] es]. cbv beta. cbn [any tiny_row].
  destruct (orb (tiny_value rd) (orb (tiny_value rpp) (tiny_value rs))); cbn [guard bind lift]; [reflexivity|].
  rewrite sc_uses. unfold factors, times. sc_cbn.
  destruct (model_uses_moduli md); [apply sc_moduli|apply sc_velocities].
Qed.
Lemma sc_powerfit : forall md m p rp phi mn,
  b_powerfit_dependency (up_dependency md) (up m) (Sc p) (Sc rp) (Sc phi) (up mn) = lift up (powerfit_dependency md m p rp phi mn).
Proof.
  intros md m p rp phi mn. unfold b_powerfit_dependency, powerfit_dependency.
  eapply bind_cong; [apply sc_eval|]. intros [[rd rpp] rs]. cbv beta.
  eapply bind_cong; [apply sc_eval|]. intros [[ed ep] es]. cbv beta. unfold differences, plus. sc_cbn. rewrite sc_amap.
  eapply bind_cong; [reflexivity|]. intros r. cbv beta. sc_cbn. unfold leb.
  destruct (Rle_dec ((r + (es - rs)) ^ 2 - 4 / 3) (1 / 10 ^ 20)); cbn [guard bind lift]; [reflexivity|]. apply sc_moduli.
Qed.
Lemma sc_dependency : forall md m p rp phi mn,
  b_pressure_dependency (up_dependency md) (up m) (Sc p) (Sc rp) (Sc phi) (up mn) = lift up (pressure_dependency md m p rp phi mn).
Proof.
  intros md m p rp phi mn. destruct md as [c|c|c|d b v|f|q]; cbn [b_pressure_dependency up_dependency pressure_dependency].
  - apply (sc_generic (Polyfit c)).
  - apply (sc_generic (Expfit c)).
  - apply (sc_generic (Logfit c)).
  - apply (sc_powerfit (Powerfit d b v)).
  - apply (sc_generic (Friable f)).
  - apply (sc_generic (Patchy q)).
Qed.

Lemma sc_adjust_one : forall a m p phi mn,
  b_adjust_one (up_adjustment a) (up m) (up_pressure p) (Sc phi) (up mn) = lift up (adjust_one a m p phi mn).
Proof.
  intros [t|md] m p phi mn; cbn [b_adjust_one up_adjustment adjust_one].
  - unfold b_effective_depth, effective_depth. cbn [bdt_reference bdt_depth].
    destruct (dt_reference t) as [r|]; cbn [opt option_map bind is_vec andb negb guard zip pmap]; apply sc_polyval.
  - unfold b_adjust_pressure, adjust_pressure. eapply bind_cong; [apply sc_truncated_rock|]. intros eff. cbv beta.
    eapply bind_cong.
    + instantiate (1 := Sc). destruct md as [c|c|c|d b v|f|q]; cbn [up_dependency lift]; try reflexivity.
      cbn [up_pressure bp_rock]. destruct (p_rock p); reflexivity.
    + intros e'. cbv beta. rewrite sc_truncated_reference. apply sc_dependency.
Qed.
Lemma sc_adjust_material : forall l m p phi mn,
  b_adjust_material (map up_adjustment l) (up m) (up_pressure p) (Sc phi) (up mn) = lift up (adjust_material l m p phi mn).
Proof.
  induction l as [|a l IH]; intros m p phi mn; cbn [map b_adjust_material adjust_material]; [reflexivity|].
  eapply bind_cong; [apply sc_adjust_one|]. intros m'. apply IH.
Qed.
Lemma sc_dry_rock : forall d mn p,
  b_dry_rock_material (up_dry_rock d) (up mn) (up_pressure p) = lift up (dry_rock_material d mn p).
Proof.
  intros d mn p. unfold b_dry_rock_material, dry_rock_material.
  eapply bind_cong; [apply sc_truncated_rock|]. intros eff. cbv beta.
  eapply bind_cong.
  - instantiate (1 := up). unfold b_material_from_model, material_from_model. cbn [up_dry_rock bdr_model bdr_porosity].
    destruct (dr_model d) as [c|f|q]; cbn [up_rock_model];
      [apply sc_polyval|apply sc_friable_material|apply sc_patchy_material].
  - intros m. cbv beta. apply sc_adjust_material.
Qed.
Lemma sc_nonporous : forall d mn, b_nonporous (up_dry_rock d) (up mn) = lift up (nonporous d mn).
Proof.
  intros d mn. unfold b_nonporous, nonporous. cbn [up_dry_rock bdr_model].
  destruct (dr_model d) as [c|f|q]; cbn [up_rock_model]; [reflexivity|reflexivity|]. apply sc_walpole.
Qed.
Lemma sc_check_dry_rock : forall d, b_check_dry_rock (up_dry_rock d) = check_dry_rock d.
Proof.
  intros d. unfold b_check_dry_rock, check_dry_rock, check_patchy_bound, check_critical. cbn [up_dry_rock bdr_model bdr_porosity].
  destruct (dr_model d) as [c|f|q]; cbn [up_rock_model]; [reflexivity| |].
  - cbn [up_friable bfr_critical]. sc_cbn. unfold ltb. cbn [bind]. destruct (Rlt_dec _ _); reflexivity.
  - cbn [up_patchy bpa_critical bpa_upper_fraction]. sc_cbn. unfold ltb.
    destruct (Rlt_dec (pa_critical q - pa_upper_fraction q) (dr_porosity d - 1 / 10 ^ 5)); cbn [guard bind]; [reflexivity|].
    destruct (Rlt_dec (pa_critical q) (dr_porosity d + 1 / 10 ^ 5)); reflexivity.
Qed.

Definition up_output (r : output_row) : boutput :=
  mkBOutput (Sc (r_ksat r)) (Sc (r_kmin r)) (Sc (r_kdry r)) (Sc (r_mysat r)) (Sc (r_rsat r)) (Sc (r_kmin_fls r)).

Lemma sc_calculate : forall co2 i, b_calculate_results co2 (up_input i) = lift up_output (calculate_row co2 i).
Proof.
  intros co2 i. unfold b_calculate_results, calculate_row.
  cbn [up_input bi_minerals bi_fluids bi_fluid_fractions bi_dry_rock bi_pressure].
  eapply bind_cong; [apply sc_minerals|]. intros ms. cbv beta.
  eapply bind_cong; [apply sc_complete_fluids|]. intros fl. cbv beta.
  eapply bind_cong; [rewrite sc_check_dry_rock; apply lift_id|]. intros _.
  eapply bind_cong; [apply sc_as_mixture|]. intros mm. cbv beta.
  eapply bind_cong; [instantiate (1 := Sc); cbn [up_pressure bp_fluid]; destruct (p_fluid (i_pressure i)); reflexivity|].
  intros fp. cbv beta.
  eapply bind_cong; [apply sc_fluids_as_mixture|]. intros mf. cbv beta.
  eapply bind_cong; [apply sc_dry_rock|]. intros dr. cbv beta.
  eapply bind_cong; [apply sc_nonporous|]. intros np. cbv beta.
  eapply bind_cong; [apply sc_substitution|]. intros sat. reflexivity.
Qed.

(** ** Rows of the result *)
Lemma obs_pick : forall n i (a : arr R), wfa n a -> (i < n)%nat -> obs false i a = Sc (pick i a).
Proof.
  intros n i [x|l] W Hi; cbn [obs pick]; [reflexivity|]. cbn in W.
  destruct (nth_error l i) as [x|] eqn:E; [|apply nth_error_None in E; lia].
  rewrite (nth_error_nth l i 0 E). reflexivity.
Qed.
Lemma obs_true_pick : forall n i (a : arr R), wfa n a -> (i < n)%nat -> pick 0 (obs true i a) = pick i a.
Proof.
  intros n i [x|l] W Hi; cbn [obs pick]; [reflexivity|]. cbn in W.
  destruct (nth_error l i) as [x|] eqn:E; [|apply nth_error_None in E; lia].
  cbn [nth]. symmetry. apply nth_error_nth, E.
Qed.
Lemma obs_true_wfa : forall n i (a : arr R), wfa n a -> (i < n)%nat -> wfa 1 (obs true i a).
Proof.
  intros n i [x|l] W Hi; cbn [obs wfa]; [exact I|]. cbn in W.
  destruct (nth_error l i) as [x|] eqn:E; [reflexivity|apply nth_error_None in E; lia].
Qed.

Section Picks.
Context (n i : nat) (Hi : (i < n)%nat).
Lemma obs_pick_option : forall a, wfo n a -> obs_option false i a = opt (pick_option i a).
Proof. intros [a|] W; [|reflexivity]. cbn [obs_option opt pick_option option_map]. rewrite (obs_pick n) by assumption. reflexivity. Qed.
Lemma obs_pick_mat : forall m, wfm n m -> obs_mat false i m = up (pick_mat i m).
Proof.
  intros m (W1 & W2 & W3 & W4 & W5). unfold obs_mat, up. cbn [pick_mat bulk shear dens vp vs].
  rewrite !(obs_pick n) by assumption. reflexivity.
Qed.
Lemma obs_pick_fluid : forall f, wf_fluid n f -> obs_fluid false i f = up_fluid (pick_fluid i f).
Proof.
  intros [m|a b c|a|a|a b c|b] W; cbn [obs_fluid up_fluid pick_fluid wf_fluid] in *;
    try destruct W as [W1 [W2 W3]]; rewrite ?(obs_pick n) by assumption; try reflexivity.
  rewrite obs_pick_mat by (repeat split; tauto). reflexivity.
Qed.
Lemma obs_pick_fluids : forall f, wf_fluids n f -> obs_fluids false i f = up_fluids (pick_fluids i f).
Proof.
  intros f [W1 W2]. unfold obs_fluids, up_fluids.
  cbn [pick_fluids f_temperature f_constituents f_mix_method f_brie_constant f_brie_gases f_fluid_model].
  rewrite (obs_pick n) by assumption. f_equal. rewrite map_map. apply map_ext_in. intros c Hc.
  rewrite Forall_forall in W2. destruct (W2 c Hc) as [F1 F2]. unfold obs_constituent, up_constituent.
  cbn [pick_constituent c_material c_fraction c_fluid_model]. rewrite (obs_pick n), obs_pick_fluid by assumption. reflexivity.
Qed.
Lemma obs_pick_pressure : forall p, wf_pressure n p -> obs_pressure false i p = up_pressure (pick_pressure i p).
Proof.
  intros p (W1 & W2 & W3 & W4 & W5). unfold obs_pressure, up_pressure.
  cbn [pick_pressure p_overburden p_reference p_fluid p_max_effective p_rock].
  rewrite !(obs_pick n), !obs_pick_option by assumption. reflexivity.
Qed.
Lemma obs_pick_friable : forall f, wf_friable n f -> obs_friable false i f = up_friable (pick_friable i f).
Proof.
  intros f (W1 & W2 & W3). unfold obs_friable, up_friable. cbn [pick_friable f_critical f_shear_reduction f_coordination].
  rewrite !(obs_pick n) by assumption. reflexivity.
Qed.
Lemma obs_pick_patchy : forall q, wf_patchy n q -> obs_patchy false i q = up_patchy (pick_patchy i q).
Proof.
  intros q (W1 & W2 & W3 & W4 & W5 & W6 & W7). unfold obs_patchy, up_patchy.
  cbn [pick_patchy pa_cement pa_critical pa_cement_fraction pa_lower_pressure pa_upper_fraction pa_coordination pa_shear_reduction].
  rewrite !(obs_pick n), obs_pick_mat by assumption. reflexivity.
Qed.
Lemma obs_pick_dependency : forall md, wf_dependency n md -> obs_dependency false i md = up_dependency (pick_dependency i md).
Proof.
  intros [c|c|c|d b v|f|q] W; cbn [obs_dependency up_dependency pick_dependency wf_dependency] in *; try reflexivity.
  - rewrite obs_pick_friable by assumption. reflexivity.
  - rewrite obs_pick_patchy by assumption. reflexivity.
Qed.
Lemma obs_pick_adjustment : forall a, wf_adjustment n a -> obs_adjustment false i a = up_adjustment (pick_adjustment i a).
Proof.
  intros [t|md] W; cbn [obs_adjustment up_adjustment pick_adjustment wf_adjustment] in *.
  - destruct W as (W1 & W2 & W3). unfold obs_depth. cbn [dt_depth dt_coefficients dt_reference dt_max].
    rewrite (obs_pick n), !obs_pick_option by assumption. reflexivity.
  - rewrite obs_pick_dependency by assumption. reflexivity.
Qed.
Lemma obs_pick_input : forall inp, wf_input n inp -> obs_input false i inp = up_input (pick_input i inp).
Proof.
  intros inp (W1 & W2 & W3 & (W4 & W5 & W6) & W7). unfold obs_input, up_input.
  cbn [pick_input i_minerals i_fluids i_fluid_fractions i_dry_rock i_pressure].
  rewrite obs_pick_fluids, obs_pick_pressure by assumption. f_equal.
  - rewrite map_map. apply map_ext_in. intros [m v] Hm. rewrite Forall_forall in W1. destruct (W1 _ Hm) as [F1 F2].
    cbn [fst snd] in *. rewrite obs_pick_mat, obs_pick_option by assumption. reflexivity.
  - rewrite map_map. apply map_ext_in. intros v Hv. rewrite Forall_forall in W3. apply obs_pick_option, W3, Hv.
  - unfold obs_dry_rock, up_dry_rock. cbn [pick_dry_rock dr_model dr_porosity dr_adjustments].
    rewrite (obs_pick n) by assumption. f_equal.
    + destruct (bdr_model (bi_dry_rock inp)) as [c|f|q]; cbn [obs_rock_model up_rock_model pick_rock_model wf_rock_model] in *;
        [reflexivity|rewrite obs_pick_friable by assumption; reflexivity|rewrite obs_pick_patchy by assumption; reflexivity].
    + rewrite map_map. apply map_ext_in. intros a Ha. rewrite Forall_forall in W6. apply obs_pick_adjustment, W6, Ha.
Qed.
End Picks.

Definition row_at (i : nat) (r : boutput) : output_row :=
  mkRow (pick i (bo_ksat r)) (pick i (bo_kmin r)) (pick i (bo_kdry r)) (pick i (bo_mysat r)) (pick i (bo_rsat r)) (pick i (bo_kmin_fls r)).

Lemma expand_length : forall n (a : arr R), wfa n a -> length (expand n a) = n.
Proof. intros n [x|l] W; cbn [expand]; [apply repeat_length|exact W]. Qed.
Lemma expand_nth : forall n i (a : arr R), wfa n a -> (i < n)%nat -> nth_error (expand n a) i = Some (pick i a).
Proof.
  intros n i [x|l] W Hi; cbn [expand pick].
  - destruct (nth_error (repeat x n) i) as [y|] eqn:E.
    + apply nth_error_In, repeat_spec in E. subst. reflexivity.
    + apply nth_error_None in E. rewrite repeat_length in E. lia.
  - cbn in W. apply nth_error_nth'. lia.
Qed.

Lemma result_rows_length : forall n o, wf_output n o -> length (result_rows n o) = n.
Proof.
  intros n o (W1 & W2 & W3 & W4 & W5 & W6). unfold result_rows.
  rewrite map_length, !combine_length, !expand_length by assumption. lia.
Qed.
Lemma result_rows_nth : forall n o i, wf_output n o -> (i < n)%nat -> nth_error (result_rows n o) i = Some (row_at i o).
Proof.
  intros n o i (W1 & W2 & W3 & W4 & W5 & W6) Hi. unfold result_rows. rewrite nth_error_map.
  rewrite !nth_combine_error, !expand_nth by assumption. reflexivity.
Qed.
Lemma result_rows_one : forall n o i, wf_output n o -> (i < n)%nat -> result_rows 1 (obs_output true i o) = [row_at i o].
Proof.
  intros n o i (W1 & W2 & W3 & W4 & W5 & W6) Hi.
  assert (X : wf_output 1 (obs_output true i o)).
  { repeat split; apply (obs_true_wfa n); assumption. }
  pose proof (result_rows_length _ _ X) as L. pose proof (result_rows_nth _ _ 0%nat X ltac:(lia)) as N.
  destruct (result_rows 1 (obs_output true i o)) as [|r [|r' rs]]; cbn in L; try lia.
  cbn in N. injection N as ->. f_equal. unfold row_at. cbn [obs_output bo_ksat bo_kmin bo_kdry bo_mysat bo_rsat bo_kmin_fls].
  rewrite !(obs_true_pick n) by assumption. reflexivity.
Qed.

Lemma nth_error_ext : forall {A} (l l' : list A), length l = length l' ->
  (forall i, (i < length l)%nat -> nth_error l i = nth_error l' i) -> l = l'.
Proof.
  intros A l. induction l as [|x l IH]; intros [|x' l'] L H; cbn in L; try lia; [reflexivity|].
  pose proof (H 0%nat ltac:(cbn; lia)) as H0. cbn in H0. injection H0 as ->. f_equal. apply IH; [lia|].
  intros i Hi. apply (H (S i)). cbn. lia.
Qed.

Lemma batch_forward : forall co2 n inp, (0 < n)%nat -> wf_input n inp ->
  match b_results co2 n inp with
  | Ok rows => length rows = n /\ forall i, (i < n)%nat ->
      exists r, nth_error rows i = Some r /\ b_results co2 1 (obs_input true i inp) = Ok [r]
  | Err e => exists i, (i < n)%nat /\ b_results co2 1 (obs_input true i inp) = Err e
  end.
Proof.
  intros co2 n inp Hn W. pose proof (row_calculate true true n Hn co2 inp W (or_introl eq_refl)) as A.
  unfold b_results. destruct (b_calculate_results co2 inp) as [o|e]; cbn [bind].
  - destruct A as [Wo A]. split; [apply result_rows_length; exact Wo|]. intros i Hi. exists (row_at i o).
    split; [apply result_rows_nth; assumption|]. rewrite (A i Hi). cbn [bind at_row batch_output].
    rewrite (result_rows_one n) by assumption. reflexivity.
  - destruct A as [[? _]|[i [Hi A]]]; [discriminate|]. exists i. split; [exact Hi|]. rewrite A. reflexivity.
Qed.

Lemma batch_rows : forall co2 n inp rows, (0 < n)%nat -> wf_input n inp ->
  (b_results co2 n inp = Ok rows <->
   length rows = n /\ forall i, (i < n)%nat ->
     exists r, nth_error rows i = Some r /\ b_results co2 1 (obs_input true i inp) = Ok [r]).
Proof.
  intros co2 n inp rows Hn W. pose proof (batch_forward co2 n inp Hn W) as F. split.
  - intros E. rewrite E in F. exact F.
  - intros [L H]. destruct (b_results co2 n inp) as [rows'|e].
    + destruct F as [L' F]. f_equal. apply nth_error_ext; [congruence|]. intros i Hi.
      destruct (H i ltac:(lia)) as [r [N E]], (F i ltac:(lia)) as [r' [N' E']]. congruence.
    + destruct F as [i [Hi F]]. destruct (H i Hi) as [r [_ E]]. congruence.
Qed.

Lemma batch_failure : forall co2 n inp, (0 < n)%nat -> wf_input n inp ->
  (fails (b_results co2 n inp) <-> exists i, (i < n)%nat /\ fails (b_results co2 1 (obs_input true i inp))).
Proof.
  intros co2 n inp Hn W. pose proof (batch_forward co2 n inp Hn W) as F. split.
  - intros [e E]. rewrite E in F. destruct F as [i [Hi F]]. exists i. split; [exact Hi|]. exists e. exact F.
  - intros [i [Hi [e E]]]. destruct (b_results co2 n inp) as [rows|e'].
    + destruct F as [_ F]. destruct (F i Hi) as [r [_ N]]. congruence.
    + exists e'. reflexivity.
Qed.

Lemma batch_selection : forall co2 n inp rows m inp' (s : nat -> nat),
  (0 < n)%nat -> (0 < m)%nat -> wf_input n inp -> wf_input m inp' ->
  (forall i, (i < m)%nat -> (s i < n)%nat /\ obs_input true i inp' = obs_input true (s i) inp) ->
  b_results co2 n inp = Ok rows ->
  exists rows', b_results co2 m inp' = Ok rows' /\ length rows' = m /\
    forall i, (i < m)%nat -> nth_error rows' i = nth_error rows (s i).
Proof.
  intros co2 n inp rows m inp' s Hn Hm W W' S E.
  pose proof (batch_forward co2 n inp Hn W) as F. rewrite E in F. destruct F as [L F].
  pose proof (batch_forward co2 m inp' Hm W') as G.
  destruct (b_results co2 m inp') as [rows'|e].
  - destruct G as [L' G]. exists rows'. split; [reflexivity|]. split; [exact L'|]. intros i Hi.
    destruct (S i Hi) as [Si Oi]. destruct (F _ Si) as [r [N R]], (G i Hi) as [r' [N' R']]. rewrite Oi in R'. congruence.
  - destruct G as [i [Hi G]]. destruct (S i Hi) as [Si Oi]. destruct (F _ Si) as [r [N R]]. rewrite Oi in G. congruence.
Qed.

(** Against the scalar models. *)
Lemma batch_scalar : forall co2 n inp sh, (0 < n)%nat -> wf_input n inp -> sh = true \/ combinable inp ->
  match b_results co2 n inp with
  | Ok rows => length rows = n /\ forall i, (i < n)%nat ->
      exists r, nth_error rows i = Some r /\ calculate_row co2 (pick_input i inp) = Ok r
  | Err e => (sh = true /\ e = ShapeError) \/ exists i, (i < n)%nat /\ calculate_row co2 (pick_input i inp) = Err e
  end.
Proof.
  intros co2 n inp sh Hn W S. pose proof (row_calculate false sh n Hn co2 inp W S) as A.
  unfold b_results. destruct (b_calculate_results co2 inp) as [o|e]; cbn [bind].
  - destruct A as [Wo A]. split; [apply result_rows_length; exact Wo|]. intros i Hi. exists (row_at i o).
    split; [apply result_rows_nth; assumption|]. specialize (A i Hi).
    rewrite (obs_pick_input n i Hi inp W), sc_calculate in A. cbn [at_row batch_output] in A.
    destruct (calculate_row co2 (pick_input i inp)) as [r|]; cbn [lift] in A; [|discriminate].
    injection A as A1 A2 A3 A4 A5 A6. destruct Wo as (W1 & W2 & W3 & W4 & W5 & W6).
    rewrite !(obs_pick n) in A1, A2, A3, A4, A5, A6 by assumption. unfold row_at. destruct r; cbn in *. congruence.
  - destruct A as [[_ [A1 A2]]|[i [Hi A]]]; [left; split; assumption|right]. exists i. split; [exact Hi|].
    rewrite (obs_pick_input n i Hi inp W), sc_calculate in A.
    destruct (calculate_row co2 (pick_input i inp)); cbn [lift] in A; congruence.
Qed.
