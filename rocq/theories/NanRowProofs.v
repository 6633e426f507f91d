(** Each row of a table with nan is calculated as a table of its own.  The
    lemmas of RowProofs and RowConfigProofs once more. *)
From Coq Require Import String List ZArith Lia.
From Verif Require Import Base BaseProofs ConfigModel BatzleWangModel FluidsModel RowModel RowSpec RowProofs RowConfigProofs RowScalarProofs
  NumModel NanModel NanSpec.
Import ListNotations.
Open Scope R_scope.
Open Scope num_scope.

#[global] Instance nbatch_mat : Batch nmat := {| sized := nwfm; at_row := fun _ => nobs_mat |}.
#[global] Instance nbatch_fluids : Batch nfluids := {| sized := nwf_fluids; at_row := fun _ => nobs_fluids |}.
#[global] Instance nbatch_output : Batch noutput := {| sized := nwf_output; at_row := fun _ => nobs_output |}.



Ltac obs_push := cbn [at_row batch_arr batch_unit batch_prod batch_list batch_option nbatch_mat fst snd];
  unfold nobs_mat, zip6, zip5, zip4, zip3; cbn [n_bulk n_shear n_dens n_vp n_vs];
  repeat (rewrite obs_pmap || rewrite obs_zip); try reflexivity.
Ltac wf_split := repeat match goal with
  | H : nwfm _ _ |- _ => destruct H as [? [? [? [? ?]]]]
  | H : sized _ _ |- _ => cbn [sized batch_arr batch_unit batch_prod nbatch_mat fst snd] in H
  | H : _ /\ _ |- _ => destruct H
  end.
Ltac wf_tac := repeat match goal with
  | |- wfa _ (pmap _ _) => apply wf_pmap
  | |- wfa _ (zip _ _) => apply wf_zip
  | |- wfa _ (zip3 _ _ _) => unfold zip3
  | |- wfa _ (zip4 _ _ _ _) => unfold zip4
  | |- wfa _ (zip5 _ _ _ _ _) => unfold zip5
  | |- wfa _ (zip6 _ _ _ _ _ _) => unfold zip6
  | |- wfa _ (Sc _) => exact I
  | |- nwfm _ _ => assumption || (split; [|split; [|split; [|split]]])
  | |- wfa _ (n_bulk (mkNB _ _ _ _ _)) => cbn [n_bulk]
  end; try assumption.
Ltac use L := eapply agree_ext; [eapply L; wf_tac | intros ? ?; obs_push].
Ltac bnd := eapply agree_bind; [| intros ? ?; cbv beta; wf_split].
Ltac ret := eapply agree_ok; [repeat split; cbn [n_bulk n_shear n_dens n_vp n_vs fst snd]; wf_tac | intros ? ?; obs_push].

(** ** material.py *)
Section Rows.
Context (n : nat) (Hn : (0 < n)%nat).
Notation agree_ r rs := (agree true false n r rs).
Notation o i := (obs true i).
Notation om i := (nobs_mat i).

Lemma nrow_check_velocities : forall p s, wfa n p -> wfa n s ->
  agree_ (n_check_velocities p s) (fun i => n_check_velocities (o i p) (o i s)).
Proof. intros p s Hp Hs. unfold n_check_velocities. bnd; [use (@agree_any true false n)|]. bnd; [use (@agree_any true false n)|]. use (@agree_any true false n). Qed.

Lemma nrow_check_moduli : forall b mu d, wfa n b -> wfa n mu -> wfa n d ->
  agree_ (n_check_moduli b mu d) (fun i => n_check_moduli (o i b) (o i mu) (o i d)).
Proof. intros b mu d Hp Hs Hd. unfold n_check_moduli. bnd; [use (@agree_any true false n)|]. bnd; [use (@agree_any true false n)|]. use (@agree_any true false n). Qed.

Lemma nrow_nmat_of_moduli : forall b mu d, wfa n b -> wfa n mu -> wfa n d ->
  agree_ (nmat_of_moduli b mu d) (fun i => nmat_of_moduli (o i b) (o i mu) (o i d)).
Proof.
  intros b mu d Hb Hm Hd. unfold nmat_of_moduli.
  bnd; [use (@agree_any true false n)|]. bnd; [use nrow_check_moduli|]. bnd; [use (@agree_amap true false n)|].
  bnd; [use (@agree_amap true false n)|]. bnd; [use nrow_check_velocities|]. ret.
Qed.

Lemma nrow_nmat_of_velocities : forall d p s, wfa n d -> wfa n p -> wfa n s ->
  agree_ (nmat_of_velocities d p s) (fun i => nmat_of_velocities (o i d) (o i p) (o i s)).
Proof.
  intros d p s Hd Hp Hs. unfold nmat_of_velocities.
  bnd; [use nrow_check_moduli|]. bnd; [use nrow_check_velocities|]. ret.
Qed.

Lemma nrow_unpack : forall (a : arr nmaterial) i, om i (n_unpack a) = n_unpack (o i a).
Proof. intros a i. unfold nobs_mat, n_unpack. cbn [n_bulk n_shear n_dens n_vp n_vs]. rewrite !obs_pmap. reflexivity. Qed.
Lemma nwf_unpack : forall (a : arr nmaterial), wfa n a -> nwfm n (n_unpack a).
Proof. intros a H. repeat split; cbn [n_unpack n_bulk n_shear n_dens n_vp n_vs]; apply wf_pmap, H. Qed.

Lemma nrow_vectorize : forall {X} (f : X -> res nmaterial) a, wfa n a ->
  agree_ (n_vectorize_material f a) (fun i => n_vectorize_material f (o i a)).
Proof.
  intros X f a W. unfold n_vectorize_material. bnd; [use (@agree_amap true false n)|].
  destruct b as [m|l]; cbn [at_row batch_arr obs].
  - apply agree_ok; [repeat split|]. intros i Hi. reflexivity.
  - cbn in H. eapply agree_ext.
    + apply (nrow_nmat_of_velocities (Vec (map v_dens l)) (Vec (map v_vp l)) (Vec (map v_vs l))); cbn; rewrite map_length; exact H.
    + intros i Hi. cbv beta. cbn [obs]. rewrite !nth_error_map. destruct (nth_error l i) eqn:E; [reflexivity|].
      apply nth_error_None in E. lia.
Qed.

Lemma nrow_poisson : forall m, nwfm n m -> agree_ (n_poisson_ratio m) (fun i => n_poisson_ratio (om i m)).
Proof. intros m H. wf_split. unfold n_poisson_ratio. use (@agree_amap true false n). Qed.

Lemma nrow_narbitrary : forall b mu d, wfa n b -> wfa n mu -> wfa n d ->
  agree_ (narbitrary b mu d) (fun i => narbitrary (o i b) (o i mu) (o i d)).
Proof.
  intros b mu d Hb Hm Hd. unfold narbitrary.
  bnd; [use (@agree_amap true false n)|]. bnd; [use (@agree_amap true false n)|]. ret.
Qed.

(** ** hashin_shtrikman.py *)
Lemma nrow_check_is_ratio : forall r, wfa n r ->
  agree_ (n_check_is_ratio r) (fun i => n_check_is_ratio (o i r)).
Proof. intros r H. unfold n_check_is_ratio. bnd; [use (@agree_any true false n)|]. use (@agree_any true false n). Qed.

Lemma nrow_walpole : forall m1 m2 r, nwfm n m1 -> nwfm n m2 -> wfa n r ->
  agree_ (n_walpole m1 m2 r) (fun i => n_walpole (om i m1) (om i m2) (o i r)).
Proof.
  intros m1 m2 r H1 H2 Hr. wf_split. unfold n_walpole.
  bnd; [use nrow_check_is_ratio|]. bnd; [use (@agree_amap true false n)|]. bnd; [use (@agree_amap true false n)|].
  use nrow_nmat_of_moduli.
Qed.

(** ** minerals *)
Lemma nrow_fraction_is_ratio : forall v, sized n v ->
  agree_ (n_fraction_is_ratio v) (fun i => n_fraction_is_ratio (at_row true i v)).
Proof.
  intros [v|] H; cbn [sized batch_option batch_arr] in H; unfold n_fraction_is_ratio; cbn [at_row batch_option batch_arr].
  - bnd; [use (@agree_any true false n)|]. use (@agree_any true false n).
  - apply agree_ok; [exact I|reflexivity].
Qed.

Lemma nrow_sum_given : forall fs i, o i (n_sum_given fs) = n_sum_given (map (at_row true i) fs).
Proof.
  intros fs i. induction fs as [|[a|] fs IH]; cbn [n_sum_given map at_row batch_option batch_arr].
  - reflexivity.
  - rewrite obs_pmap, obs_zip, IH. reflexivity.
  - exact IH.
Qed.
Lemma nwf_sum_given : forall fs, Forall (sized n) fs -> wfa n (n_sum_given fs).
Proof.
  intros fs H. induction H as [|[a|] fs Ha H IH]; cbn [n_sum_given].
  - exact I.
  - apply wf_pmap, wf_zip; [exact Ha|exact IH].
  - exact IH.
Qed.
Lemma nmissing_map : forall fs i, missing (map (at_row true i) fs) = missing (A := arr num) fs.
Proof. intros fs i. induction fs as [|[a|] fs IH]; cbn; [reflexivity|exact IH|f_equal; exact IH]. Qed.

Lemma nrow_fix_one_fraction : forall fs, Forall (sized n) fs ->
  agree_ (n_fix_one_fraction fs) (fun i => n_fix_one_fraction (map (at_row true i) fs)).
Proof.
  intros fs H. unfold n_fix_one_fraction. pose proof (nwf_sum_given fs H) as W.
  bnd.
  - eapply agree_ext; [eapply (@agree_any true false n); assumption|]. intros i Hi. cbv beta. rewrite nrow_sum_given. reflexivity.
  - bnd.
    + eapply agree_ext; [|intros i Hi; rewrite nmissing_map; reflexivity].
      destruct (missing fs) as [|[|q]].
      * apply agree_ok; [exact I|reflexivity].
      * eapply agree_ext; [eapply nrow_fraction_is_ratio|].
        -- cbn [sized batch_option batch_arr]. wf_tac.
        -- intros i Hi. cbn [at_row batch_option batch_arr]. rewrite obs_pmap, nrow_sum_given. reflexivity.
      * apply agree_err, Hn.
    + eapply agree_ok.
      * cbn [sized batch_list]. rewrite Forall_forall in H |- *. intros a Ha. apply in_map_iff in Ha.
        destruct Ha as [[x|] [<- Hx]]; cbn [n_completed]; [apply (H _ Hx)|]. cbn [sized batch_arr]. wf_tac.
      * intros i Hi. cbn [at_row batch_list batch_arr]. rewrite !map_map. apply map_ext.
        intros [x|]; cbn [n_completed at_row batch_option batch_arr]; [reflexivity|].
        rewrite obs_pmap, nrow_sum_given. reflexivity.
Qed.

Lemma nrow_asum : forall l i, o i (nsum l) = nsum (map (o i) l).
Proof.
  intros l i. induction l as [|a l IH]; cbn [nsum map]; [reflexivity|].
  rewrite obs_pmap, obs_zip, IH. reflexivity.
Qed.
Lemma nwf_asum : forall l, Forall (wfa n) l -> wfa n (nsum l).
Proof. intros l H. induction H as [|a l Ha H IH]; cbn [nsum]; [exact I|]. apply wf_pmap, wf_zip; assumption. Qed.

Lemma nrow_minerals : forall cs, Forall (sized n) cs ->
  agree_ (n_minerals cs) (fun i => n_minerals (map (at_row true i) cs)).
Proof.
  intros cs H. unfold n_minerals.
  bnd; [apply (@agree_static true false n Hn (arr num) _); intros i Hi; destruct cs; reflexivity|].
  bnd.
  - apply (row_each true false n (fun c => n_fraction_is_ratio (snd c)) cs); [|exact H].
    intros [m v] [W1 W2]. cbn [snd at_row batch_prod fst] in *. apply nrow_fraction_is_ratio. exact W2.
  - bnd.
    + eapply agree_ext; [eapply nrow_fix_one_fraction|].
      * rewrite Forall_forall in *. intros x Hx. apply in_map_iff in Hx. destruct Hx as [c [<- Hc]]. apply (H c Hc).
      * intros i Hi. cbv beta. rewrite !map_map. reflexivity.
    + bnd.
      * eapply agree_ext; [eapply (@agree_any true false n); [exact Hn|apply nwf_asum; assumption]|].
        intros i Hi. cbv beta. rewrite nrow_asum. reflexivity.
      * eapply agree_ok.
        -- cbn [sized batch_list batch_prod]. apply forall_combine; [|assumption].
           rewrite Forall_forall in *. intros x Hx. apply in_map_iff in Hx. destruct Hx as [c [<- Hc]]. apply (H c Hc).
        -- intros i Hi. cbn [at_row batch_list batch_prod]. rewrite map_map.
           rewrite <- combine_map2. rewrite map_map. reflexivity.
Qed.

Lemma nrow_mix_minerals : forall a b, sized n a -> sized n b ->
  agree_ (n_mix_minerals a b) (fun i => n_mix_minerals (at_row true i a) (at_row true i b)).
Proof.
  intros [m1 f1] [m2 f2] [W1 W2] [W3 W4]. cbn [fst snd] in *. cbn [sized batch_arr nbatch_mat] in *. unfold n_mix_minerals. cbn [at_row batch_prod batch_arr nbatch_mat fst snd].
  bnd; [use (@agree_amap true false n)|]. bnd; [use nrow_walpole|]. bnd; [use nrow_narbitrary|].
  bnd.
  - eapply agree_ext; [eapply nrow_fraction_is_ratio|].
    + cbn [sized batch_option batch_arr]. wf_tac.
    + intros i Hi. cbn [at_row batch_option batch_arr]. rewrite obs_pmap, obs_zip. reflexivity.
  - eapply agree_ok.
    + split; cbn [fst snd]; [cbn [sized nbatch_mat]; repeat split; assumption|]. cbn [sized batch_arr]. wf_tac.
    + intros i Hi. cbn [at_row batch_prod batch_arr nbatch_mat fst snd]. rewrite obs_pmap, obs_zip. reflexivity.
Qed.

Lemma nrow_mix_loop : forall rest cur, sized n cur -> Forall (sized n) rest ->
  agree_ (n_mix_loop cur rest) (fun i => n_mix_loop (at_row true i cur) (map (at_row true i) rest)).
Proof.
  induction rest as [|c rest IH]; intros cur Hc H; cbn [n_mix_loop map].
  - apply agree_ok; [exact Hc|reflexivity].
  - inversion H as [|x l Hx Hl]; subst. eapply agree_bind; [apply nrow_mix_minerals; assumption|].
    intros b Hb. cbv beta. apply IH; assumption.
Qed.

Lemma nrow_minerals_as_mixture : forall cs, Forall (sized n) cs ->
  agree_ (n_minerals_as_mixture cs) (fun i => n_minerals_as_mixture (map (at_row true i) cs)).
Proof.
  intros [|c cs] H; cbn [n_minerals_as_mixture map].
  - apply agree_err, Hn.
  - inversion H; subst. eapply agree_bind; [apply nrow_mix_loop; assumption|].
    intros [m f] [W1 W2]. cbv beta. apply agree_ok; [exact W1|reflexivity].
Qed.

(** ** fluid.py *)
Lemma nrow_fluid : forall b d, wfa n b -> wfa n d -> agree_ (n_fluid b d) (fun i => n_fluid (o i b) (o i d)).
Proof. intros b d Hb Hd. unfold n_fluid. use nrow_nmat_of_moduli. Qed.

Lemma nrow_saturations : forall l i,
  map (o i) (n_sum_saturations_to_one l) = n_sum_saturations_to_one (map (o i) l).
Proof.
  intros l i. unfold n_sum_saturations_to_one. rewrite !map_map. apply map_ext. intros s.
  unfold zip3. repeat (rewrite obs_pmap || rewrite obs_zip). rewrite nrow_asum. reflexivity.
Qed.
Lemma nwf_saturations : forall l, Forall (wfa n) l -> Forall (wfa n) (n_sum_saturations_to_one l).
Proof.
  intros l H. pose proof (nwf_asum l H) as W. unfold n_sum_saturations_to_one. rewrite Forall_forall in *.
  intros x Hx. apply in_map_iff in Hx. destruct Hx as [s [<- Hs]]. specialize (H s Hs). wf_tac.
Qed.

Lemma nrow_mix_densities : forall fl sat i,
  o i (n_mix_densities fl sat) = n_mix_densities (map (om i) fl) (map (o i) sat).
Proof.
  intros fl sat i. unfold n_mix_densities. rewrite nrow_asum, combine_map2, !map_map. f_equal.
  apply map_ext. intros [f s]. cbn [fst snd]. rewrite obs_pmap, obs_zip. reflexivity.
Qed.
Lemma nwf_mix_densities : forall fl sat, Forall (nwfm n) fl -> Forall (wfa n) sat -> wfa n (n_mix_densities fl sat).
Proof.
  intros fl sat H H'. apply nwf_asum. pose proof (forall_combine _ _ _ _ H H') as F.
  rewrite Forall_forall in *. intros x Hx. apply in_map_iff in Hx. destruct Hx as [y [<- Hy]].
  destruct (F y Hy) as [[? [? [? [? ?]]]] ?]. wf_tac.
Qed.

Lemma nrow_mix_bulk : forall fl sat, Forall (nwfm n) fl -> Forall (wfa n) sat ->
  agree_ (n_mix_bulk_moduli fl sat) (fun i => n_mix_bulk_moduli (map (om i) fl) (map (o i) sat)).
Proof.
  intros fl sat H H'. unfold n_mix_bulk_moduli.
  eapply agree_ext; [|intros i Hi; rewrite combine_map2; reflexivity].
  pose proof (forall_combine _ _ _ _ H' H) as F. revert F. generalize (combine sat fl). intros l F.
  bnd; [apply (@agree_static true false n Hn (arr num) _); intros i Hi; destruct l; reflexivity|].
  bnd; [|use (@agree_amap true false n)].
  induction F as [|[s f] l [Ws Wf] F IH]; cbn [map nsum_res fst snd].
  - apply agree_ok; [exact I|reflexivity].
  - cbn [fst snd] in Ws, Wf. destruct Wf as [? [? [? [? ?]]]]. bnd; [use (@agree_amap true false n)|]. bnd; [exact IH|]. eapply agree_ok.
    + cbn [sized batch_arr]. wf_tac.
    + intros i Hi. obs_push.
Qed.

Lemma nrow_wood : forall fl sat, Forall (nwfm n) fl -> Forall (wfa n) sat ->
  agree_ (n_wood fl sat) (fun i => n_wood (map (om i) fl) (map (o i) sat)).
Proof.
  intros fl sat H H'. unfold n_wood. pose proof (nwf_saturations sat H') as W.
  bnd.
  - eapply agree_ext; [eapply nrow_mix_bulk; assumption|]. intros i Hi. cbv beta. rewrite nrow_saturations. reflexivity.
  - eapply agree_ext; [eapply nrow_fluid; [assumption|apply nwf_mix_densities; assumption]|].
    intros i Hi. cbv beta. rewrite nrow_mix_densities, nrow_saturations. reflexivity.
Qed.

Lemma nrow_brie : forall fl fs gl gs e, Forall (nwfm n) fl -> Forall (wfa n) fs -> Forall (nwfm n) gl -> Forall (wfa n) gs ->
  agree_ (n_brie fl fs gl gs e) (fun i => n_brie (map (om i) fl) (map (o i) fs) (map (om i) gl) (map (o i) gs) e).
Proof.
  intros fl fs gl gs e Hf Hfs Hg Hgs. unfold n_brie.
  bnd; [apply (@agree_static true false n Hn (arr num) _); intros i Hi; rewrite !map_length; reflexivity|].
  bnd; [apply (@agree_static true false n Hn (arr num) _); intros i Hi; rewrite !map_length; reflexivity|].
  destruct fl as [|f fl]; destruct gl as [|g gl]; cbn [map].
  - apply agree_err, Hn.
  - exact (nrow_wood (g :: gl) gs Hg Hgs).
  - exact (nrow_wood (f :: fl) fs Hf Hfs).
  - pose proof (nwf_asum fs Hfs) as W.
    eapply agree_bind; [exact (nrow_wood (f :: fl) fs Hf Hfs)|]. intros liquid Wl. cbv beta.
    eapply agree_bind; [exact (nrow_wood (g :: gl) gs Hg Hgs)|]. intros n_gas Wg. cbv beta.
    cbn [sized nbatch_mat] in Wl, Wg.
    bnd.
    + eapply agree_ext; [eapply (@agree_amap true false n); assumption|]. intros i Hi. cbv beta. rewrite nrow_asum. reflexivity.
    + assert (Forall (nwfm n) [liquid; n_gas]) by (constructor; [wf_tac|constructor; [wf_tac|constructor]]).
      eapply agree_ext; [eapply nrow_fluid|].
      * wf_tac.
      * apply nwf_mix_densities; [assumption|]. constructor; [assumption|]. constructor; [wf_tac|constructor].
      * intros i Hi. cbv beta. rewrite nrow_mix_densities. cbn [map]. rewrite <- nrow_asum. obs_push.
Qed.

Lemma nrow_fluid_substitution : forall d m f phi, nwfm n d -> nwfm n m -> nwfm n f -> wfa n phi ->
  agree_ (n_fluid_substitution d m f phi) (fun i => n_fluid_substitution (om i d) (om i m) (om i f) (o i phi)).
Proof.
  intros d m f phi Hd Hm Hf Hp. wf_split. unfold n_fluid_substitution.
  bnd; [use (@agree_amap true false n)|]. use nrow_nmat_of_moduli.
Qed.

(** ** Sandstone models *)
Lemma nrow_hertz_mindlin : forall m a b c d, nwfm n m -> wfa n a -> wfa n b -> wfa n c -> wfa n d ->
  agree_ (n_hertz_mindlin m a b c d) (fun i => n_hertz_mindlin (om i m) (o i a) (o i b) (o i c) (o i d)).
Proof.
  intros m a b c d Hm Ha Hb Hc Hd. unfold n_hertz_mindlin.
  bnd; [use nrow_poisson|]. bnd; [use (@agree_amap true false n)|]. bnd; [use (@agree_amap true false n)|].
  bnd; [use (@agree_amap true false n)|]. bnd; [use (@agree_amap true false n)|]. use nrow_nmat_of_moduli.
Qed.

Lemma nrow_friable_sand : forall m a b c d e, nwfm n m -> wfa n a -> wfa n b -> wfa n c -> wfa n d -> wfa n e ->
  agree_ (n_friable_sand m a b c d e) (fun i => n_friable_sand (om i m) (o i a) (o i b) (o i c) (o i d) (o i e)).
Proof.
  intros m a b c d e Hm Ha Hb Hc Hd He. unfold n_friable_sand.
  bnd; [use nrow_hertz_mindlin|]. bnd; [use (@agree_amap true false n)|]. use nrow_walpole.
Qed.

Lemma nrow_shear_stiffness : forall a b c d, wfa n a -> wfa n b -> wfa n c -> wfa n d ->
  agree_ (n_shear_stiffness a b c d) (fun i => n_shear_stiffness (o i a) (o i b) (o i c) (o i d)).
Proof. intros. unfold n_shear_stiffness. use (@agree_amap true false n). Qed.
Lemma nrow_normal_stiffness : forall a b c d e, wfa n a -> wfa n b -> wfa n c -> wfa n d -> wfa n e ->
  agree_ (n_normal_stiffness a b c d e) (fun i => n_normal_stiffness (o i a) (o i b) (o i c) (o i d) (o i e)).
Proof. intros. unfold n_normal_stiffness. use (@agree_amap true false n). Qed.

Lemma nrow_check_porosities : forall a b, wfa n a -> wfa n b ->
  agree_ (n_check_porosities a b) (fun i => n_check_porosities (o i a) (o i b)).
Proof.
  intros a b Ha Hb. unfold n_check_porosities.
  do 4 (bnd; [use (@agree_any true false n)|]). use (@agree_any true false n).
Qed.

Lemma nrow_radius_ratio : forall a b, wfa n a -> wfa n b ->
  agree_ (n_cement_radius_ratio a b) (fun i => n_cement_radius_ratio (o i a) (o i b)).
Proof.
  intros a b Ha Hb. unfold n_cement_radius_ratio.
  bnd; [use nrow_check_porosities|]. bnd; [use (@agree_amap true false n)|]. bnd; [use (@agree_amap true false n)|].
  eapply agree_ok; [cbn [sized batch_arr]; wf_tac|]. intros i Hi. obs_push.
Qed.

Lemma nrow_contact_cement : forall c m a b d e, nwfm n c -> nwfm n m -> wfa n a -> wfa n b -> wfa n d -> wfa n e ->
  agree_ (n_contact_cement c m a b d e) (fun i => n_contact_cement (om i c) (om i m) (o i a) (o i b) (o i d) (o i e)).
Proof.
  intros c m a b d e Hc Hm Ha Hb Hd He. unfold n_contact_cement.
  bnd; [use nrow_check_porosities|]. bnd; [use nrow_radius_ratio|]. bnd; [use nrow_poisson|].
  bnd; [use nrow_shear_stiffness|]. bnd; [use nrow_poisson|]. bnd; [use nrow_normal_stiffness|].
  unfold n_primary_wave_modulus. use nrow_nmat_of_moduli.
Qed.

Lemma nrow_constant_cement : forall s c a b d e f, nwfm n s -> nwfm n c -> wfa n a -> wfa n b -> wfa n d -> wfa n e -> wfa n f ->
  agree_ (n_constant_cement s c a b d e f)
    (fun i => n_constant_cement (om i s) (om i c) (o i a) (o i b) (o i d) (o i e) (o i f)).
Proof.
  intros s c a b d e f Hs Hc Ha Hb Hd He Hf. unfold n_constant_cement.
  bnd; [use nrow_walpole|]. bnd; [use nrow_contact_cement|]. bnd; [use (@agree_amap true false n)|]. use nrow_walpole.
Qed.

Lemma agree_shapes : forall (b : bool) (bs : nat -> bool), (forall i, (i < n)%nat -> bs i = b) ->
  agree_ (guard b ShapeError) (fun i => guard (bs i) ShapeError).
Proof. intros b bs E. apply agree_shape; [exact Hn|auto|discriminate|discriminate]. Qed.

Lemma nrow_patchy_weight : forall a b c, wfa n a -> wfa n b -> wfa n c ->
  agree_ (n_patchy_weight a b c) (fun i => n_patchy_weight (o i a) (o i b) (o i c)).
Proof.
  intros a b c Ha Hb Hc. unfold n_patchy_weight. bnd.
  - apply (agree_shapes (orb (is_vec c) (is_vec b) && negb (is_vec a && (is_vec b && is_vec c)))%bool
             (fun i => orb (is_vec (o i c)) (is_vec (o i b)) && negb (is_vec (o i a) && (is_vec (o i b) && is_vec (o i c))))%bool).
    intros i Hi. rewrite !(is_vec_obs i n) by assumption. reflexivity.
  - eapply agree_ok; [cbn [sized batch_arr]; wf_tac|]. intros i Hi. obs_push.
Qed.

Lemma nrow_patchy_cement : forall s c a1 a2 a3 a4 a5 a6 a7 a8 a9, nwfm n s -> nwfm n c ->
  wfa n a1 -> wfa n a2 -> wfa n a3 -> wfa n a4 -> wfa n a5 -> wfa n a6 -> wfa n a7 -> wfa n a8 -> wfa n a9 ->
  agree_ (n_patchy_cement s c a1 a2 a3 a4 a5 a6 a7 a8 a9)
    (fun i => n_patchy_cement (om i s) (om i c) (o i a1) (o i a2) (o i a3) (o i a4) (o i a5) (o i a6) (o i a7) (o i a8) (o i a9)).
Proof.
  intros s c a1 a2 a3 a4 a5 a6 a7 a8 a9 ? ? ? ? ? ? ? ? ? ? ?. unfold n_patchy_cement.
  bnd; [use nrow_walpole|]. bnd; [use nrow_friable_sand|]. bnd; [use nrow_friable_sand|]. bnd; [use nrow_constant_cement|].
  bnd; [use nrow_contact_cement|]. bnd; [use (@agree_amap true false n)|]. bnd; [use nrow_walpole|].
  bnd; [use nrow_patchy_weight|]. bnd; [use nrow_patchy_weight|].
  use nrow_nmat_of_moduli.
Qed.

Lemma nrow_eos : forall co2 t p b, wfa n t -> wfa n p ->
  agree_ (n_eos co2 t p b) (fun i => n_eos co2 (o i t) (o i p) b).
Proof.
  intros co2 t p b Ht Hp. unfold n_eos. bnd; [use (@agree_amap true false n)|].
  eapply agree_ok; [apply nwf_unpack; assumption|]. intros i Hi. cbn [at_row nbatch_mat batch_arr]. symmetry. apply nrow_unpack.
Qed.

Lemma nrow_fluid_as_material : forall co2 pr f t p, nwf_fluid n f -> wfa n t -> wfa n p ->
  agree_ (n_fluid_as_material co2 pr f t p) (fun i => n_fluid_as_material co2 pr (nobs_fluid i f) (o i t) (o i p)).
Proof.
  intros co2 pr f t p Hf Ht Hp.
  assert (R : forall X (g : X -> res nmaterial) a, wfa n a ->
    agree_ (let* m := n_vectorize_material g a in Ok (m, p)) (fun i => let* m := n_vectorize_material g (o i a) in Ok (m, o i p))).
  { intros X g a Ha. bnd; [apply nrow_vectorize; assumption|]. eapply agree_ok.
    - split; cbn [fst snd]; [cbn [sized nbatch_mat]; wf_tac|exact Hp].
    - intros i Hi. reflexivity. }
  destruct f as [m|r rg g|g|s|r rg g|b], pr; cbn [nwf_fluid] in Hf; cbn [n_fluid_as_material nobs_fluid];
    try (apply agree_err, Hn).
  - apply agree_ok; [split; assumption|reflexivity].
  - apply agree_ok; [split; assumption|reflexivity].
  - destruct Hf as [? [? ?]]. eapply agree_ext; [eapply R; wf_tac|].
    intros i Hi. obs_push.
  - eapply agree_ext; [eapply R; wf_tac|].
    intros i Hi. obs_push.
  - eapply agree_ext; [eapply R; wf_tac|].
    intros i Hi. obs_push.
  - bnd; [use nrow_eos|]. eapply agree_ok.
    + split; cbn [fst snd]; cbn [sized nbatch_mat batch_arr]; wf_tac.
    + intros i Hi. obs_push.
Qed.

Lemma nrow_as_materials : forall co2 pr cs t p, Forall (nwf_constituent n) cs -> wfa n t -> wfa n p ->
  agree_ (n_as_materials co2 pr t p cs) (fun i => n_as_materials co2 pr (o i t) (o i p) (map (nobs_constituent i) cs)).
Proof.
  intros co2 pr cs t p H Ht. revert p. induction H as [|c cs [Hm Hc] H IH]; intros p Hp; cbn [n_as_materials map].
  - apply agree_ok; [constructor|reflexivity].
  - cbn [nobs_constituent nc_material nc_fluid_model].
    eapply agree_bind; [apply nrow_fluid_as_material; assumption|]. intros [m p'] [W1 W2]. cbv beta.
    cbn [fst snd at_row batch_prod batch_arr nbatch_mat] in *.
    eapply agree_bind; [apply IH; exact W2|]. intros ms Wms. cbv beta.
    apply agree_ok; [constructor; assumption|reflexivity].
Qed.

Lemma nrow_as_mixture : forall co2 f p, nwf_fluids n f -> wfa n p ->
  agree_ (n_as_mixture co2 f p) (fun i => n_as_mixture co2 (nobs_fluids i f) (o i p)).
Proof.
  intros co2 f p [Ht Hc] Hp. unfold n_as_mixture.
  cbn [nobs_fluids nf_fluid_model nf_temperature nf_constituents nf_mix_method nf_brie_constant nf_brie_gases].
  eapply agree_bind; [apply nrow_as_materials; assumption|]. intros ms Wms. cbv beta.
  cbn [at_row batch_list nbatch_mat].
  assert (F : forall i, map nc_fraction (map (nobs_constituent i) (nf_constituents f)) = map (o i) (map nc_fraction (nf_constituents f))).
  { intros i. rewrite !map_map. reflexivity. }
  assert (Wf : Forall (wfa n) (map nc_fraction (nf_constituents f))).
  { rewrite Forall_forall in *. intros x Hx. apply in_map_iff in Hx. destruct Hx as [c [<- Hx]]. apply (Hc c Hx). }
  eapply agree_ext; [|intros i Hi; rewrite F; reflexivity].
  revert Wf. generalize (map nc_fraction (nf_constituents f)). intros fr Wf.
  destruct (nf_mix_method f).
  - apply nrow_wood; assumption.
  - eapply agree_bind; [exact (row_pop_all true false n Hn (A := nmat) _ ms Wms)|]. intros [g1 g2] [W1 W2]. cbv beta.
    eapply agree_bind; [exact (row_pop_all true false n Hn (A := arr num) _ fr Wf)|]. intros [s1 s2] [W3 W4]. cbv beta.
    cbn [fst snd at_row batch_prod batch_list] in *. apply nrow_brie; assumption.
Qed.

(** ** Pressure and dry rock *)
Lemma nrow_clip : forall x m i, o i (n_clip_above x m) = n_clip_above (o i x) (nobs_option i m).
Proof. intros x [m|] i; cbn [n_clip_above nobs_option option_map]; [|reflexivity]. rewrite obs_pmap, obs_zip. reflexivity. Qed.
Lemma nwf_clip : forall x m, wfa n x -> nwfo n m -> wfa n (n_clip_above x m).
Proof. intros x [m|] Hx Hm; cbn [n_clip_above nwfo] in *; [wf_tac|exact Hx]. Qed.

Lemma nrow_truncated_reference : forall p i, o i (n_truncated_reference p) = n_truncated_reference (nobs_pressure i p).
Proof. intros p i. unfold n_truncated_reference. rewrite nrow_clip, obs_pmap, obs_zip. reflexivity. Qed.
Lemma nwf_truncated_reference : forall p, nwf_pressure n p -> wfa n (n_truncated_reference p).
Proof. intros p [H1 [H2 [_ [H3 _]]]]. apply nwf_clip; [wf_tac|exact H3]. Qed.

Lemma nrow_truncated_rock : forall p, nwf_pressure n p ->
  agree_ (n_truncated_rock p) (fun i => n_truncated_rock (nobs_pressure i p)).
Proof.
  intros p [H1 [H2 [H3 [H4 H5]]]]. unfold n_truncated_rock. cbn [nobs_pressure npr_rock].
  destruct (npr_rock p) as [f|]; cbn [nobs_option option_map nwfo] in *.
  - eapply agree_ok; [cbn [sized batch_arr]; apply nwf_clip; [wf_tac|exact H4]|].
    intros i Hi. cbn [at_row batch_arr nobs_pressure npr_overburden npr_max_effective]. rewrite nrow_clip, obs_pmap, obs_zip. reflexivity.
  - apply agree_err, Hn.
Qed.

Lemma nrow_polyval : forall v m c, wfa n v -> nwfm n m ->
  agree_ (n_polyval_material v m c) (fun i => n_polyval_material (o i v) (om i m) c).
Proof.
  intros v m c Hv Hm. wf_split. unfold n_polyval_material.
  destruct (uses_moduli c).
  - eapply agree_ext; [eapply nrow_vectorize; wf_tac|]. intros i Hi. obs_push.
  - eapply agree_ext; [eapply nrow_vectorize; wf_tac|]. intros i Hi. obs_push.
Qed.

Lemma nrow_friable_material : forall f p phi m, nwf_friable n f -> wfa n p -> wfa n phi -> nwfm n m ->
  agree_ (n_friable_material f p phi m) (fun i => n_friable_material (nobs_friable i f) (o i p) (o i phi) (om i m)).
Proof. intros f p phi m [? [? ?]] Hp Hphi Hm. unfold n_friable_material. use nrow_friable_sand. Qed.

Lemma nrow_patchy_material : forall q p phi m, nwf_patchy n q -> wfa n p -> wfa n phi -> nwfm n m ->
  agree_ (n_patchy_material q p phi m) (fun i => n_patchy_material (nobs_patchy i q) (o i p) (o i phi) (om i m)).
Proof.
  intros q p phi m [? [? [? [? [? [? ?]]]]]] Hp Hphi Hm. unfold n_patchy_material.
  cbn [nobs_patchy npa_cement npa_critical npa_cement_fraction npa_lower_pressure npa_upper_fraction npa_coordination npa_shear_reduction].
  eapply agree_ext; [eapply nrow_patchy_cement; wf_tac|intros ? ?; obs_push].
Qed.

Lemma nrow_stack : forall m, nwfm n m -> agree_ (n_stack_moduli m) (fun i => n_stack_moduli (om i m)).
Proof.
  intros m Hm. wf_split. unfold n_stack_moduli. cbn [nobs_mat n_dens n_bulk n_shear]. bnd.
  - apply (agree_shapes
      (negb (Bool.eqb (is_vec (n_dens m)) (is_vec (n_bulk m)) && Bool.eqb (is_vec (n_bulk m)) (is_vec (n_shear m)))%bool)
      (fun i => negb (Bool.eqb (is_vec (o i (n_dens m))) (is_vec (o i (n_bulk m))) &&
                 Bool.eqb (is_vec (o i (n_bulk m))) (is_vec (o i (n_shear m))))%bool)).
    intros i Hi. rewrite !(is_vec_obs i n) by assumption. reflexivity.
  - eapply agree_ok; [cbn [sized batch_arr]; wf_tac|]. intros i Hi. obs_push.
Qed.

Lemma nrow_eval_model : forall md p phi m, nwf_dependency n md -> wfa n p -> wfa n phi -> nwfm n m ->
  agree_ (n_eval_model md p phi m) (fun i => n_eval_model (nobs_dependency i md) (o i p) (o i phi) (om i m)).
Proof.
  assert (C : forall (r : res (list R * list R * list R)) (g : list R * list R * list R -> res (arr (num * num * num))) gs,
    (forall rows, r = Ok rows -> agree_ (g rows) (fun i => gs i rows)) ->
    agree_ (bind r g) (fun i => bind r (gs i))).
  { intros [rows|e] g gs H; cbn [bind]; [apply H; reflexivity|apply agree_err, Hn]. }
  intros md p phi m Hd Hp Hphi Hm.
  destruct md as [c|c|c|d b v|f|q]; cbn [n_eval_model nobs_dependency nwf_dependency ] in *.
  - apply (C _ (fun rows => amap (fun p0 => n_three (n_polyfit_row p0) rows) p) (fun i rows => amap (fun p0 => n_three (n_polyfit_row p0) rows) (o i p))).
    intros rows _. use (@agree_amap true false n).
  - apply (C _ (fun rows => let* _ := guard (no_rows p) ShapeError in amap (fun p0 => n_three (n_expfit_row p0) rows) p)
             (fun i rows => let* _ := guard (no_rows (o i p)) ShapeError in amap (fun p0 => n_three (n_expfit_row p0) rows) (o i p))).
    intros rows _. bnd; [use @row_no_rows|use (@agree_amap true false n)].
  - apply (C _ (fun rows => let* _ := guard (no_rows p) ShapeError in amap (fun p0 => n_three (n_logfit_row p0) rows) p)
             (fun i rows => let* _ := guard (no_rows (o i p)) ShapeError in amap (fun p0 => n_three (n_logfit_row p0) rows) (o i p))).
    intros rows _. bnd; [use @row_no_rows|use (@agree_amap true false n)].
  - apply (C _ (fun rows => let* _ := guard (no_rows p) ShapeError in amap (fun p0 => n_three (n_powerfit_row p0) rows) p)
             (fun i rows => let* _ := guard (no_rows (o i p)) ShapeError in amap (fun p0 => n_three (n_powerfit_row p0) rows) (o i p))).
    intros rows _. bnd; [use @row_no_rows|use (@agree_amap true false n)].
  - eapply agree_bind_eq; [apply nrow_friable_material; assumption|]. intros r E W. cbv beta. apply nrow_stack; exact W.
  - eapply agree_bind_eq; [apply nrow_patchy_material; assumption|]. intros r E W. cbv beta. apply nrow_stack; exact W.
Qed.

Lemma nuses_obs : forall md i, n_model_uses_moduli (nobs_dependency i md) = n_model_uses_moduli md.
Proof. intros [c|c|c|d b v|f|q] i; reflexivity. Qed.

Lemma nrow_generic : forall md m p rp phi mn, nwf_dependency n md -> nwfm n m -> wfa n p -> wfa n rp -> wfa n phi -> nwfm n mn ->
  agree_ (n_generic_dependency md m p rp phi mn)
    (fun i => n_generic_dependency (nobs_dependency i md) (om i m) (o i p) (o i rp) (o i phi) (om i mn)).
Proof.
  intros md m p rp phi mn Hd Hm Hp Hrp Hphi Hmn. unfold n_generic_dependency.
  eapply agree_bind; [apply nrow_eval_model; assumption|]. intros ref Wref. cbv beta.
  eapply agree_bind; [apply nrow_eval_model; assumption|]. intros eff Weff. cbv beta.
  cbn [sized batch_arr at_row] in *. bnd; [use (@agree_any true false n)|].
  eapply agree_ext; [|intros i Hi; rewrite nuses_obs; reflexivity].
  unfold n_times, n_factors. cbn [fst snd].
  destruct (n_model_uses_moduli md); [use nrow_nmat_of_moduli|use nrow_nmat_of_velocities].
Qed.

Lemma nrow_powerfit : forall md m p rp phi mn, nwf_dependency n md -> nwfm n m -> wfa n p -> wfa n rp -> wfa n phi -> nwfm n mn ->
  agree_ (n_powerfit_dependency md m p rp phi mn)
    (fun i => n_powerfit_dependency (nobs_dependency i md) (om i m) (o i p) (o i rp) (o i phi) (om i mn)).
Proof.
  intros md m p rp phi mn Hd Hm Hp Hrp Hphi Hmn. unfold n_powerfit_dependency.
  eapply agree_bind; [apply nrow_eval_model; assumption|]. intros ref Wref. cbv beta.
  eapply agree_bind; [apply nrow_eval_model; assumption|]. intros eff Weff. cbv beta.
  cbn [sized batch_arr at_row] in *. unfold n_plus, n_differences. cbn [fst snd].
  bnd; [wf_split; use (@agree_amap true false n)|]. bnd; [wf_split; use (@agree_any true false n)|]. use nrow_nmat_of_moduli.
Qed.

Lemma nrow_pressure_dependency : forall md m p rp phi mn, nwf_dependency n md -> nwfm n m -> wfa n p -> wfa n rp -> wfa n phi -> nwfm n mn ->
  agree_ (n_pressure_dependency md m p rp phi mn)
    (fun i => n_pressure_dependency (nobs_dependency i md) (om i m) (o i p) (o i rp) (o i phi) (om i mn)).
Proof.
  intros md m p rp phi mn Hd Hm Hp Hrp Hphi Hmn.
  destruct md as [c|c|c|d b v|f|q]; cbn [n_pressure_dependency nobs_dependency].
  - exact (nrow_generic (NPolyfit c) m p rp phi mn Hd Hm Hp Hrp Hphi Hmn).
  - exact (nrow_generic (NExpfit c) m p rp phi mn Hd Hm Hp Hrp Hphi Hmn).
  - exact (nrow_generic (NLogfit c) m p rp phi mn Hd Hm Hp Hrp Hphi Hmn).
  - exact (nrow_powerfit (NPowerfit d b v) m p rp phi mn Hd Hm Hp Hrp Hphi Hmn).
  - exact (nrow_generic (NFriable f) m p rp phi mn Hd Hm Hp Hrp Hphi Hmn).
  - exact (nrow_generic (NPatchy q) m p rp phi mn Hd Hm Hp Hrp Hphi Hmn).
Qed.

Lemma nrow_effective_depth : forall t, nwf_depth n t ->
  agree_ (n_effective_depth t) (fun i => n_effective_depth (nobs_depth i t)).
Proof.
  intros t [H1 [H2 H3]]. unfold n_effective_depth. cbn [nobs_depth ndt_reference ndt_depth].
  destruct (ndt_reference t) as [r|]; cbn [nobs_option option_map nwfo] in *.
  - bnd.
    + apply (agree_shapes (is_vec r && negb (is_vec (ndt_depth t)))%bool
               (fun i => is_vec (o i r) && negb (is_vec (o i (ndt_depth t))))%bool).
      intros i Hi. rewrite !(is_vec_obs i n) by assumption. reflexivity.
    + eapply agree_ok; [cbn [sized batch_arr]; wf_tac|]. intros i Hi. obs_push.
  - apply agree_ok; [exact H1|reflexivity].
Qed.

Lemma nrow_adjust_pressure : forall md m p phi mn, nwf_dependency n md -> nwfm n m -> nwf_pressure n p -> wfa n phi -> nwfm n mn ->
  agree_ (n_adjust_pressure md m p phi mn)
    (fun i => n_adjust_pressure (nobs_dependency i md) (om i m) (nobs_pressure i p) (o i phi) (om i mn)).
Proof.
  intros md m p phi mn Hd Hm Hp Hphi Hmn. unfold n_adjust_pressure.
  eapply agree_bind; [apply nrow_truncated_rock; exact Hp|]. intros eff Weff. cbv beta.
  eapply agree_bind.
  - destruct Hp as [_ [_ [_ [_ H5]]]].
    destruct md as [c|c|c|d b v|f|q]; cbn [nobs_dependency];
      try (apply agree_ok; [exact Weff|reflexivity]).
    cbn [nobs_pressure npr_rock]. destruct (npr_rock p) as [x|]; cbn [nobs_option option_map nwfo] in *.
    + apply agree_ok; [exact H5|reflexivity].
    + apply agree_err, Hn.
  - intros eff' W'. cbv beta.
    eapply agree_ext; [eapply nrow_pressure_dependency; try eassumption|].
    + apply nwf_truncated_reference. exact Hp.
    + intros i Hi. cbv beta. rewrite nrow_truncated_reference. reflexivity.
Qed.

Lemma nrow_adjust_one : forall a m p phi mn, nwf_adjustment n a -> nwfm n m -> nwf_pressure n p -> wfa n phi -> nwfm n mn ->
  agree_ (n_adjust_one a m p phi mn)
    (fun i => n_adjust_one (nobs_adjustment i a) (om i m) (nobs_pressure i p) (o i phi) (om i mn)).
Proof.
  intros [t|md] m p phi mn Ha Hm Hp Hphi Hmn; cbn [n_adjust_one nobs_adjustment nwf_adjustment ] in *.
  - eapply agree_bind; [apply nrow_effective_depth; assumption|]. intros d Wd. cbv beta.
    apply nrow_polyval; assumption.
  - apply nrow_adjust_pressure; assumption.
Qed.

Lemma nrow_adjust_material : forall l m p phi mn, Forall (nwf_adjustment n) l -> nwfm n m -> nwf_pressure n p -> wfa n phi -> nwfm n mn ->
  agree_ (n_adjust_material l m p phi mn)
    (fun i => n_adjust_material (map (nobs_adjustment i) l) (om i m) (nobs_pressure i p) (o i phi) (om i mn)).
Proof.
  intros l m p phi mn Hl. revert m. induction Hl as [|a l Ha Hl IH]; intros m Hm Hp Hphi Hmn; cbn [n_adjust_material map].
  - apply agree_ok; [exact Hm|reflexivity].
  - eapply agree_bind; [apply nrow_adjust_one; assumption|]. intros m' Wm'. cbv beta.
    apply IH; assumption.
Qed.

Lemma nrow_dry_rock_material : forall d mn p, nwf_dry_rock n d -> nwfm n mn -> nwf_pressure n p ->
  agree_ (n_dry_rock_material d mn p) (fun i => n_dry_rock_material (nobs_dry_rock i d) (om i mn) (nobs_pressure i p)).
Proof.
  intros d mn p [H1 [H2 H3]] Hmn Hp. unfold n_dry_rock_material.
  eapply agree_bind; [apply nrow_truncated_rock; exact Hp|]. intros eff Weff. cbv beta.
  eapply agree_bind.
  - unfold n_material_from_model. cbn [nobs_dry_rock ndr_model ndr_porosity].
    destruct (ndr_model d) as [c|f|q]; cbn [nobs_rock_model nwf_rock_model] in *.
    + apply nrow_polyval; assumption.
    + apply nrow_friable_material; assumption.
    + apply nrow_patchy_material; assumption.
  - intros m Wm. cbv beta. cbn [nobs_dry_rock ndr_adjustments ndr_porosity]. apply nrow_adjust_material; assumption.
Qed.

Lemma nrow_nonporous : forall d mn, nwf_dry_rock n d -> nwfm n mn ->
  agree_ (n_nonporous d mn) (fun i => n_nonporous (nobs_dry_rock i d) (om i mn)).
Proof.
  intros d mn [H1 [H2 H3]] Hmn. unfold n_nonporous. cbn [nobs_dry_rock ndr_model].
  destruct (ndr_model d) as [c|f|q]; cbn [nobs_rock_model nwf_rock_model] in *.
  - apply agree_ok; [exact Hmn|reflexivity].
  - apply agree_ok; [exact Hmn|reflexivity].
  - destruct H1 as [? [? [? [? [? [? ?]]]]]]. use nrow_walpole.
Qed.

Lemma nrow_check_dry_rock : forall d, nwf_dry_rock n d ->
  agree_ (n_check_dry_rock d) (fun i => n_check_dry_rock (nobs_dry_rock i d)).
Proof.
  intros d [H1 [H2 H3]]. unfold n_check_dry_rock. cbn [nobs_dry_rock ndr_model ndr_porosity].
  destruct (ndr_model d) as [c|f|q]; cbn [nobs_rock_model nwf_rock_model] in *.
  - apply agree_ok; [exact I|reflexivity].
  - destruct H1 as [? [? ?]]. use (@agree_any true false n).
  - destruct H1 as [? [? [? [? [? [? ?]]]]]]. bnd; [use (@agree_any true false n)|use (@agree_any true false n)].
Qed.

Lemma nrow_complete_fluids : forall f fs, nwf_fluids n f -> Forall (nwfo n) fs ->
  agree_ (n_complete_fluids f fs) (fun i => n_complete_fluids (nobs_fluids i f) (map (nobs_option i) fs)).
Proof.
  intros f fs [Ht Hc] Hf. unfold n_complete_fluids.
  assert (O : forall i, map (nobs_option i) fs = map (at_row true i) fs).
  { intros i. apply map_ext. intros [a|]; reflexivity. }
  assert (W : Forall (sized n) fs) by exact Hf.
  eapply agree_ext; [|intros i Hi; rewrite O; reflexivity].
  bnd; [apply (row_each true false n n_fraction_is_ratio fs); [intros a Ha; apply nrow_fraction_is_ratio; assumption|exact W]|].
  bnd; [apply (@agree_static true false n Hn (arr num) _); intros i Hi; destruct fs; reflexivity|].
  bnd.
  - eapply agree_ext; [eapply (@agree_any true false n); [exact Hn|apply nwf_sum_given; exact W]|].
    intros i Hi. cbv beta. rewrite nrow_sum_given. reflexivity.
  - eapply agree_bind; [apply nrow_fix_one_fraction; exact W|]. intros fs' Wfs'. cbv beta.
    eapply agree_ok.
    + split; cbn [nf_temperature nf_constituents]; [exact Ht|].
      pose proof (forall_combine _ _ _ _ Hc Wfs') as F. rewrite Forall_forall in *.
      intros x Hx. apply in_map_iff in Hx. destruct Hx as [y [<- Hy]]. destruct (F y Hy) as [[F1 F2] F3]. split; assumption.
    + intros i Hi. cbn [at_row nbatch_fluids batch_list]. unfold nobs_fluids.
      cbn [nf_fluid_model nf_temperature nf_constituents nf_mix_method nf_brie_constant nf_brie_gases].
      f_equal. rewrite combine_map2, !map_map. reflexivity.
Qed.

Lemma nrow_calculate : forall co2 inp, nwf_input n inp ->
  agree_ (n_calculate_results co2 inp) (fun i => n_calculate_results co2 (nobs_input i inp)).
Proof.
  intros co2 inp (Hm & Hf & Hff & Hd & Hp). unfold n_calculate_results.
  cbn [nobs_input ni_minerals ni_fluids ni_fluid_fractions ni_dry_rock ni_pressure].
  eapply agree_bind.
  { eapply agree_ext; [eapply nrow_minerals; exact Hm|].
    intros i Hi. cbv beta. reflexivity. }
  intros ms Wms. cbv beta.
  eapply agree_bind; [apply nrow_complete_fluids; assumption|]. intros fl Wfl. cbv beta.
  eapply agree_bind; [apply nrow_check_dry_rock; assumption|]. intros u _. cbv beta.
  eapply agree_bind; [apply nrow_minerals_as_mixture; exact Wms|]. intros mm Wmm. cbv beta.
  eapply agree_bind.
  { destruct Hp as [_ [_ [H3 _]]]. cbn [nobs_pressure npr_fluid].
    destruct (npr_fluid (ni_pressure inp)) as [p|]; cbn [nobs_option option_map nwfo] in *.
    - apply agree_ok; [exact H3|reflexivity].
    - apply agree_err, Hn. }
  intros p Wp. cbv beta.
  eapply agree_bind; [apply nrow_as_mixture; assumption|]. intros mf Wmf. cbv beta.
  eapply agree_bind; [apply nrow_dry_rock_material; assumption|]. intros dr Wdr. cbv beta.
  eapply agree_bind; [apply nrow_nonporous; assumption|]. intros np Wnp. cbv beta.
  eapply agree_bind; [apply nrow_fluid_substitution; try assumption; apply Hd|]. intros sat Wsat. cbv beta.
  cbn [sized nbatch_mat] in *. destruct Wmm as [? _], Wdr as [? _], Wnp as [? _], Wsat as [? [? [? _]]].
  eapply agree_ok; [repeat split; assumption|]. intros i Hi. reflexivity.
Qed.
End Rows.

(** ** The rows written *)
Definition npick (i : nat) (a : arr num) : num := match a with Sc x => x | Vec l => nth i l Nan end.
Definition nrow_at (i : nat) (r : noutput) : nrow :=
  mkNRow (npick i (no_ksat r)) (npick i (no_kmin r)) (npick i (no_kdry r)) (npick i (no_mysat r)) (npick i (no_rsat r))
    (npick i (no_kmin_fls r)).

Lemma nexpand_length : forall n (a : arr num), wfa n a -> length (expand n a) = n.
Proof. intros n [x|l] W; cbn [expand]; [apply repeat_length|exact W]. Qed.
Lemma nexpand_nth : forall n i (a : arr num), wfa n a -> (i < n)%nat -> nth_error (expand n a) i = Some (npick i a).
Proof.
  intros n i [x|l] W Hi; cbn [expand npick].
  - destruct (nth_error (repeat x n) i) as [y|] eqn:E.
    + apply nth_error_In, repeat_spec in E. subst. reflexivity.
    + apply nth_error_None in E. rewrite repeat_length in E. lia.
  - cbn in W. apply nth_error_nth'. lia.
Qed.
Lemma npick_obs : forall n i (a : arr num), wfa n a -> (i < n)%nat -> wfa 1 (obs true i a) /\ npick 0 (obs true i a) = npick i a.
Proof.
  intros n i [x|l] W Hi; cbn [obs]; [split; [exact I|reflexivity]|]. cbn in W.
  destruct (nth_error l i) as [x|] eqn:E.
  - split; [reflexivity|]. cbn [npick nth]. symmetry. apply nth_error_nth with (d := Nan) in E. exact E.
  - apply nth_error_None in E. lia.
Qed.

Lemma nresult_rows_length : forall n o, nwf_output n o -> length (n_result_rows n o) = n.
Proof.
  intros n o (W1 & W2 & W3 & W4 & W5 & W6). unfold n_result_rows.
  rewrite map_length, !combine_length, !nexpand_length by assumption. lia.
Qed.
Lemma nresult_rows_nth : forall n o i, nwf_output n o -> (i < n)%nat -> nth_error (n_result_rows n o) i = Some (nrow_at i o).
Proof.
  intros n o i (W1 & W2 & W3 & W4 & W5 & W6) Hi. unfold n_result_rows. rewrite nth_error_map.
  rewrite !nth_combine_error, !nexpand_nth by assumption. reflexivity.
Qed.
Lemma nresult_rows_one : forall n o i, nwf_output n o -> (i < n)%nat -> n_result_rows 1 (nobs_output i o) = [nrow_at i o].
Proof.
  intros n o i (W1 & W2 & W3 & W4 & W5 & W6) Hi.
  assert (X : nwf_output 1 (nobs_output i o)).
  { repeat split; apply (npick_obs n); assumption. }
  pose proof (nresult_rows_length _ _ X) as L. pose proof (nresult_rows_nth _ _ 0%nat X ltac:(lia)) as N.
  destruct (n_result_rows 1 (nobs_output i o)) as [|r [|r' rs]]; cbn in L; try lia.
  cbn in N. injection N as ->. f_equal. unfold nrow_at. cbn [nobs_output no_ksat no_kmin no_kdry no_mysat no_rsat no_kmin_fls].
  f_equal; apply (npick_obs n); assumption.
Qed.

Lemma nan_forward : forall co2 n inp, (0 < n)%nat -> nwf_input n inp ->
  match n_results co2 n inp with
  | Ok rows => length rows = n /\ forall i, (i < n)%nat ->
      exists r, nth_error rows i = Some r /\ n_results co2 1 (nobs_input i inp) = Ok [r]
  | Err e => exists i, (i < n)%nat /\ n_results co2 1 (nobs_input i inp) = Err e
  end.
Proof.
  intros co2 n inp Hn W. pose proof (nrow_calculate n Hn co2 inp W) as A.
  unfold n_results. destruct (n_calculate_results co2 inp) as [o|e]; cbn [bind].
  - destruct A as [Wo A]. split; [apply nresult_rows_length; exact Wo|]. intros i Hi. exists (nrow_at i o).
    split; [apply nresult_rows_nth; assumption|]. rewrite (A i Hi). cbn [bind at_row nbatch_output].
    rewrite (nresult_rows_one n) by assumption. reflexivity.
  - destruct A as [[? _]|[i [Hi A]]]; [discriminate|]. exists i. split; [exact Hi|]. rewrite A. reflexivity.
Qed.

Lemma nan_rows : forall co2 n inp rows, (0 < n)%nat -> nwf_input n inp ->
  (n_results co2 n inp = Ok rows <->
   length rows = n /\ forall i, (i < n)%nat ->
     exists r, nth_error rows i = Some r /\ n_results co2 1 (nobs_input i inp) = Ok [r]).
Proof.
  intros co2 n inp rows Hn W. pose proof (nan_forward co2 n inp Hn W) as F. split.
  - intros E. rewrite E in F. exact F.
  - intros [L H]. destruct (n_results co2 n inp) as [rows'|e].
    + destruct F as [L' F]. f_equal. apply nth_error_ext; [congruence|]. intros i Hi.
      destruct (H i ltac:(lia)) as [r [N E]], (F i ltac:(lia)) as [r' [N' E']]. congruence.
    + destruct F as [i [Hi F]]. destruct (H i Hi) as [r [_ E]]. congruence.
Qed.

Lemma nan_failure : forall co2 n inp, (0 < n)%nat -> nwf_input n inp ->
  (fails (n_results co2 n inp) <-> exists i, (i < n)%nat /\ fails (n_results co2 1 (nobs_input i inp))).
Proof.
  intros co2 n inp Hn W. pose proof (nan_forward co2 n inp Hn W) as F. split.
  - intros [e E]. rewrite E in F. destruct F as [i [Hi F]]. exists i. split; [exact Hi|]. exists e. exact F.
  - intros [i [Hi [e E]]]. destruct (n_results co2 n inp) as [rows|e'].
    + destruct F as [_ F]. destruct (F i Hi) as [r [_ N]]. congruence.
    + exists e'. reflexivity.
Qed.
