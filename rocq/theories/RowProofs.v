(** Lemmas about whole-table calculations. *)
From Coq Require Import String List ZArith.
From Verif Require Import Base BaseProofs MaterialModel Spec MaterialProofs HashinShtrikmanModel MineralsModel
  FluidModel SandstoneModel ConfigModel BatzleWangModel FluidsModel RowModel RowSpec.
Import ListNotations.
Open Scope R_scope.

Class Batch (B : Type) := { sized : nat -> B -> Prop; at_row : bool -> nat -> B -> B }.
#[global] Instance batch_arr A : Batch (arr A) := {| sized := fun n a => wfa n a; at_row := fun k i a => obs k i a |}.
#[global] Instance batch_unit : Batch unit := {| sized := fun _ _ => True; at_row := fun _ _ a => a |}.
#[global] Instance batch_prod A B `{Batch A} `{Batch B} : Batch (A * B) :=
  {| sized := fun n x => sized n (fst x) /\ sized n (snd x);
     at_row := fun k i x => (at_row k i (fst x), at_row k i (snd x)) |}.
#[global] Instance batch_list A `{Batch A} : Batch (list A) :=
  {| sized := fun n l => Forall (sized n) l; at_row := fun k i l => map (at_row k i) l |}.
#[global] Instance batch_option A `{Batch A} : Batch (option A) :=
  {| sized := fun n o => match o with None => True | Some a => sized n a end;
     at_row := fun k i o => match o with None => None | Some a => Some (at_row k i a) end |}.

#[global] Instance batch_mat : Batch bmat := {| sized := wfm; at_row := obs_mat |}.

(** A calculation on the table and the same on its rows. *)
Definition agree {B} `{Batch B} (keep shape : bool) (n : nat) (r : res B) (rs : nat -> res B) : Prop :=
  match r with
  | Ok b => sized n b /\ forall i, (i < n)%nat -> rs i = Ok (at_row keep i b)
  | Err e => (keep = false /\ shape = true /\ e = ShapeError) \/ exists i, (i < n)%nat /\ rs i = Err e
  end.

Lemma agree_ext : forall {B} `{Batch B} k sh n r (rs rs' : nat -> res B),
  agree k sh n r rs -> (forall i, (i < n)%nat -> rs i = rs' i) -> agree k sh n r rs'.
Proof.
  intros B HB k sh n r rs rs' H E. unfold agree in *. destruct r as [b|e].
  - destruct H as [W H]. split; [exact W|]. intros i Hi. rewrite <- E by exact Hi. apply H, Hi.
  - destruct H as [H|[i [Hi H]]]; [left; exact H|right]. exists i. split; [exact Hi|]. rewrite <- E by exact Hi. exact H.
Qed.

Lemma agree_bind : forall {B C} `{Batch B} `{Batch C} k sh n (r : res B) rs (g : B -> res C) gs,
  agree k sh n r rs -> (forall b, sized n b -> agree k sh n (g b) (fun i => gs i (at_row k i b))) ->
  agree k sh n (bind r g) (fun i => bind (rs i) (gs i)).
Proof.
  intros B C HB HC k sh n r rs g gs H G. destruct r as [b|e]; cbn [bind].
  - destruct H as [W H]. specialize (G b W).
    eapply agree_ext; [exact G|]. intros i Hi. cbv beta. rewrite (H i Hi). reflexivity.
  - destruct H as [H|[i [Hi H]]]; [left; exact H|right]. exists i. split; [exact Hi|]. rewrite H. reflexivity.
Qed.

Lemma agree_bind_eq : forall {B C} `{Batch B} `{Batch C} k sh n (r : res B) rs (g : B -> res C) gs,
  agree k sh n r rs -> (forall b, r = Ok b -> sized n b -> agree k sh n (g b) (fun i => gs i (at_row k i b))) ->
  agree k sh n (bind r g) (fun i => bind (rs i) (gs i)).
Proof.
  intros B C HB HC k sh n r rs g gs H G. destruct r as [b|e]; cbn [bind].
  - destruct H as [W H]. specialize (G b eq_refl W).
    eapply agree_ext; [exact G|]. intros i Hi. cbv beta. rewrite (H i Hi). reflexivity.
  - destruct H as [H|[i [Hi H]]]; [left; exact H|right]. exists i. split; [exact Hi|]. rewrite H. reflexivity.
Qed.

Lemma agree_ok : forall {B} `{Batch B} k sh n (b : B) bs,
  sized n b -> (forall i, (i < n)%nat -> bs i = at_row k i b) -> agree k sh n (Ok b) (fun i => Ok (bs i)).
Proof. intros B HB k sh n b bs W E. split; [exact W|]. intros i Hi. rewrite E by exact Hi. reflexivity. Qed.

Lemma agree_err : forall {B} `{Batch B} k sh n e, (0 < n)%nat -> agree k sh n (@Err B e) (fun _ => Err e).
Proof. intros B HB k sh n e Hn. right. exists 0%nat. split; [exact Hn|reflexivity]. Qed.

(** ** Building blocks *)

Lemma nth_combine_error : forall {A B} (l : list A) (l' : list B) i,
  nth_error (combine l l') i =
  match nth_error l i, nth_error l' i with Some x, Some y => Some (x, y) | _, _ => None end.
Proof.
  intros A B l. induction l as [|x l IH]; intros [|y l'] [|i]; cbn; try reflexivity.
  - destruct (nth_error l i); reflexivity.
  - apply IH.
Qed.

Lemma obs_zip : forall k i {A B} (a : arr A) (b : arr B), obs k i (zip a b) = zip (obs k i a) (obs k i b).
Proof.
  intros k i A B [x|l] [y|l']; cbn [zip obs]; try reflexivity.
  - rewrite nth_error_map. destruct (nth_error l' i); [destruct k; reflexivity|reflexivity].
  - rewrite nth_error_map. destruct (nth_error l i); [destruct k; reflexivity|reflexivity].
  - rewrite nth_combine_error. destruct (nth_error l i), (nth_error l' i); destruct k; reflexivity.
Qed.

Lemma obs_pmap : forall k i {A B} (f : A -> B) (a : arr A), obs k i (pmap f a) = pmap f (obs k i a).
Proof.
  intros k i A B f [x|l]; cbn [pmap obs]; [reflexivity|].
  rewrite nth_error_map. destruct (nth_error l i); [destruct k; reflexivity|reflexivity].
Qed.

Lemma wf_zip : forall n {A B} (a : arr A) (b : arr B), wfa n a -> wfa n b -> wfa n (zip a b).
Proof.
  intros n A B [x|l] [y|l'] Ha Hb; cbn in *; try rewrite map_length; try assumption; try exact I.
  rewrite combine_length, Ha, Hb. apply Nat.min_id.
Qed.
Lemma wf_pmap : forall n {A B} (f : A -> B) (a : arr A), wfa n a -> wfa n (pmap f a).
Proof. intros n A B f [x|l] H; cbn in *; [exact I|]. rewrite map_length. exact H. Qed.

Lemma sequence_spec : forall {A B} (f : A -> res B) l,
  match sequence (map f l) with
  | Ok l' => length l' = length l /\ forall i x, nth_error l i = Some x -> exists y, nth_error l' i = Some y /\ f x = Ok y
  | Err e => exists i x, nth_error l i = Some x /\ f x = Err e
  end.
Proof.
  intros A B f l. induction l as [|x l IH]; cbn [map sequence].
  - split; [reflexivity|]. intros [|i] x H; discriminate.
  - destruct (f x) as [y|e] eqn:E; cbn [bind].
    + destruct (sequence (map f l)) as [l'|e]; cbn [bind].
      * destruct IH as [L IH]. split; [cbn; lia|].
        intros [|i] z H; cbn in *; [inversion H; subst; exists y; split; [reflexivity|exact E]|apply IH, H].
      * destruct IH as [i [z [Hi Hz]]]. exists (S i), z. split; assumption.
    + exists 0%nat, x. split; [reflexivity|exact E].
Qed.

Lemma agree_amap : forall k sh n {A B} (f : A -> res B) (a : arr A), (0 < n)%nat -> wfa n a ->
  agree k sh n (amap f a) (fun i => amap f (obs k i a)).
Proof.
  intros k sh n A B f [x|l] Hn H; cbn [amap obs].
  - destruct (f x) as [y|e] eqn:E; cbn [bind].
    + split; [exact I|]. intros i Hi. cbn. reflexivity.
    + apply agree_err, Hn.
  - cbn in H. pose proof (sequence_spec f l) as S. destruct (sequence (map f l)) as [l'|e]; cbn [bind].
    + destruct S as [L S]. split; [cbn; lia|]. intros i Hi. cbn [at_row batch_arr obs].
      destruct (nth_error l i) as [x|] eqn:E.
      * destruct (S i x E) as [y [E' F]]. rewrite E'. destruct k; cbn [amap map sequence]; rewrite F; reflexivity.
      * apply nth_error_None in E. lia.
    + destruct S as [i [x [E F]]]. right. exists i. split.
      * rewrite <- H. apply nth_error_Some. rewrite E. discriminate.
      * rewrite E. destruct k; cbn [amap map sequence]; rewrite F; reflexivity.
Qed.

Lemma agree_any : forall k sh n {A} (p : A -> bool) (a : arr A) e, (0 < n)%nat -> wfa n a ->
  agree k sh n (guard (any p a) e) (fun i => guard (any p (obs k i a)) e).
Proof.
  intros k sh n A p [x|l] e Hn H; cbn [any obs].
  - destruct (p x); cbn [guard]; [apply agree_err, Hn|]. split; [exact I|reflexivity].
  - cbn in H. destruct (existsb p l) eqn:E; cbn [guard].
    + apply existsb_exists in E. destruct E as [x [Hx Px]]. apply In_nth_error in Hx. destruct Hx as [i Hi].
      right. exists i. split.
      * rewrite <- H. apply nth_error_Some. rewrite Hi. discriminate.
      * rewrite Hi. destruct k; cbn [any existsb]; rewrite Px; reflexivity.
    + split; [exact I|]. intros i Hi. destruct (nth_error l i) as [x|] eqn:F.
      * assert (P : p x = false).
        { destruct (p x) eqn:P; [|reflexivity].
          assert (existsb p l = true) by (apply existsb_exists; exists x; split; [eapply nth_error_In, F|exact P]). congruence. }
        destruct k; cbn [any existsb]; rewrite P; reflexivity.
      * reflexivity.
Qed.

Lemma is_vec_obs : forall i n {A} (a : arr A), (i < n)%nat -> wfa n a -> is_vec (obs true i a) = is_vec a.
Proof.
  intros i n A [x|l] Hi H; cbn [obs]; [reflexivity|]. cbn in H.
  destruct (nth_error l i) eqn:E; [reflexivity|]. reflexivity.
Qed.
Lemma is_vec_const : forall i n {A} (a : arr A), (i < n)%nat -> wfa n a -> is_vec (obs false i a) = false.
Proof.
  intros i n A [x|l] Hi H; cbn [obs]; [reflexivity|]. cbn in H.
  destruct (nth_error l i) eqn:E; [reflexivity|]. apply nth_error_None in E. lia.
Qed.

Lemma is_vec_zip : forall {A B} (a : arr A) (b : arr B), is_vec (zip a b) = orb (is_vec a) (is_vec b).
Proof. intros A B [x|l] [y|l']; reflexivity. Qed.
Lemma is_vec_pmap : forall {A B} (f : A -> B) (a : arr A), is_vec (pmap f a) = is_vec a.
Proof. intros A B f [x|l]; reflexivity. Qed.
Lemma is_vec_amap : forall {A B} (f : A -> res B) (a : arr A) b, amap f a = Ok b -> is_vec b = is_vec a.
Proof.
  intros A B f [x|l] b H; cbn [amap] in H; ok_inv H; injection H as <-; reflexivity.
Qed.

(** Bulk modulus, shear modulus and density are columns. *)
Definition columns (m : bmat) : Prop := is_vec (b_bulk m) = true /\ is_vec (b_shear m) = true /\ is_vec (b_dens m) = true.

Lemma bmat_of_moduli_keeps : forall k mu d m, bmat_of_moduli k mu d = Ok m -> b_bulk m = k /\ b_shear m = mu /\ b_dens m = d.
Proof. intros k mu d m H. unfold bmat_of_moduli in H. ok_inv H. injection H as <-. repeat split. Qed.

Lemma walpole_columns : forall m1 m2 r m, b_walpole m1 m2 r = Ok m -> is_vec r = true -> columns m.
Proof.
  intros m1 m2 r m H V. unfold b_walpole, zip6, zip5, zip4, zip3 in H.
  destruct (b_check_is_ratio r); [|discriminate]. cbn [bind] in H.
  match type of H with bind ?x _ = _ => destruct x as [k|] eqn:K; [|discriminate] end. cbn [bind] in H.
  match type of H with bind ?x _ = _ => destruct x as [mu|] eqn:M; [|discriminate] end. cbn [bind] in H.
  apply bmat_of_moduli_keeps in H. destruct H as [H1 [H2 H3]].
  apply is_vec_amap in K, M. unfold columns. rewrite H1, H2, H3, K, M, ?is_vec_pmap, ?is_vec_zip, ?is_vec_pmap, V.
  rewrite ?Bool.orb_true_r. repeat split.
Qed.

Lemma friable_columns : forall m phi c p n sr m', b_friable_sand m phi c p n sr = Ok m' -> is_vec phi = true -> columns m'.
Proof.
  intros m phi c p n sr m' H V. unfold b_friable_sand in H.
  destruct (b_hertz_mindlin _ _ _ _ _); [|discriminate]. cbn [bind] in H.
  match type of H with bind ?x _ = _ => destruct x as [r|] eqn:E; [|discriminate] end. cbn [bind] in H.
  apply walpole_columns in H; [exact H|]. rewrite is_vec_pmap, (is_vec_amap _ _ _ E), is_vec_zip, V. reflexivity.
Qed.
Lemma constant_columns : forall s c phi a b d e m', b_constant_cement s c phi a b d e = Ok m' -> is_vec phi = true -> columns m'.
Proof.
  intros s c phi a b d e m' H V. unfold b_constant_cement in H.
  destruct (b_walpole c s _); [|discriminate]. cbn [bind] in H.
  destruct (b_contact_cement _ _ _ _ _ _); [|discriminate]. cbn [bind] in H.
  match type of H with bind ?x _ = _ => destruct x as [r|] eqn:E; [|discriminate] end. cbn [bind] in H.
  apply walpole_columns in H; [exact H|]. rewrite is_vec_pmap, (is_vec_amap _ _ _ E), is_vec_zip, V. reflexivity.
Qed.
Lemma patchy_columns : forall s c phi a2 a3 a4 a5 a6 a7 a8 a9 m',
  b_patchy_cement s c phi a2 a3 a4 a5 a6 a7 a8 a9 = Ok m' -> is_vec phi = true -> columns m'.
Proof.
  intros s c phi a2 a3 a4 a5 a6 a7 a8 a9 m' H V. unfold b_patchy_cement in H.
  destruct (b_walpole c s _) as [dp|]; [|discriminate]. cbn [bind] in H.
  destruct (b_friable_sand dp phi a6 a4 a8 a7) as [fr|] eqn:F; [|discriminate]. cbn [bind] in H.
  destruct (b_friable_sand dp phi a6 a5 a8 a7) as [lo|] eqn:L; [|discriminate]. cbn [bind] in H.
  destruct (b_constant_cement _ _ _ _ _ _ _) as [ub|] eqn:U; [|discriminate]. cbn [bind] in H.
  destruct (b_contact_cement _ _ _ _ _ _) as [ct|]; [|discriminate]. cbn [bind] in H.
  match type of H with bind ?x _ = _ => destruct x as [r|] eqn:E; [|discriminate] end. cbn [bind] in H.
  destruct (b_walpole dp ct _) as [cn|]; [|discriminate]. cbn [bind] in H.
  destruct (b_patchy_weight (b_bulk cn) _ _) as [wk|]; [|discriminate]. cbn [bind] in H.
  destruct (b_patchy_weight (b_shear cn) _ _) as [wm|]; [|discriminate]. cbn [bind] in H.
  apply bmat_of_moduli_keeps in H. destruct H as [H1 [H2 H3]].
  destruct (friable_columns _ _ _ _ _ _ _ F V) as [F1 [F2 F3]].
  unfold columns. rewrite H1, H2, H3. unfold zip4, zip3. rewrite !is_vec_pmap, !is_vec_zip, F1, F2, V. repeat split.
Qed.

(** A test of shapes: the same on every row; for constants it must pass. *)
Lemma agree_shape : forall k sh n (b : bool) (bs : nat -> bool), (0 < n)%nat ->
  (k = true -> forall i, (i < n)%nat -> bs i = b) ->
  (k = false -> forall i, (i < n)%nat -> bs i = false) ->
  (k = false -> sh = true \/ b = false) ->
  agree k sh n (guard b ShapeError) (fun i => guard (bs i) ShapeError).
Proof.
  intros k sh n b bs Hn Ht Hf Hs. destruct k.
  - destruct b; cbn [guard].
    + right. exists 0%nat. split; [exact Hn|]. rewrite (Ht eq_refl 0%nat Hn). reflexivity.
    + split; [exact I|]. intros i Hi. rewrite (Ht eq_refl i Hi). reflexivity.
  - destruct b; cbn [guard].
    + left. destruct (Hs eq_refl) as [E|E]; [|discriminate]. repeat split. exact E.
    + split; [exact I|]. intros i Hi. rewrite (Hf eq_refl i Hi). reflexivity.
Qed.

(** ** Tactics *)
Create HintDb rows.
#[global] Hint Resolve wf_zip wf_pmap : rows.
Ltac obs_push := cbn [at_row batch_arr batch_unit batch_prod batch_list batch_option batch_mat fst snd];
  unfold obs_mat, zip6, zip5, zip4, zip3; cbn [b_bulk b_shear b_dens b_vp b_vs];
  repeat (rewrite obs_pmap || rewrite obs_zip); try reflexivity.
Ltac wf_split := repeat match goal with
  | H : wfm _ _ |- _ => destruct H as [? [? [? [? ?]]]]
  | H : sized _ _ |- _ => cbn [sized batch_arr batch_unit batch_prod batch_mat fst snd] in H
  | H : _ /\ _ |- _ => destruct H
  end.
Ltac wf_tac := repeat match goal with
  | |- wfa _ (pmap _ _) => apply wf_pmap
  | |- wfa _ (zip _ _) => apply wf_zip
  | |- wfa _ (zip3 _ _ _) => unfold zip3
  | |- wfa _ (zip4 _ _ _ _) => unfold zip4
  | |- wfa _ (zip5 _ _ _ _ _) => unfold zip5
  | |- wfa _ (zip6 _ _ _ _ _ _) => unfold zip6
  | |- wfa _ (Sc _) => exact I
  | |- wfm _ _ => assumption || (split; [|split; [|split; [|split]]])
  | |- wfa _ (b_bulk (mkB _ _ _ _ _)) => cbn [b_bulk]
  end; try assumption.
Ltac use L := eapply agree_ext; [eapply L; wf_tac | intros ? ?; obs_push].
Ltac bnd := eapply agree_bind; [| intros ? ?; cbv beta; wf_split].
Ltac ret := eapply agree_ok; [repeat split; cbn [b_bulk b_shear b_dens b_vp b_vs fst snd]; wf_tac | intros ? ?; obs_push].

(** ** material.py *)
Section Rows.
Context (k sh : bool) (n : nat) (Hn : (0 < n)%nat).
Notation agree_ r rs := (agree k sh n r rs).
Notation o i := (obs k i).
Notation om i := (obs_mat k i).

Lemma row_check_velocities : forall p s, wfa n p -> wfa n s ->
  agree_ (check_velocities p s) (fun i => check_velocities (o i p) (o i s)).
Proof. intros p s Hp Hs. unfold check_velocities. bnd; [use (@agree_any k sh n)|]. bnd; [use (@agree_any k sh n)|]. use (@agree_any k sh n). Qed.

Lemma row_check_moduli : forall b mu d, wfa n b -> wfa n mu -> wfa n d ->
  agree_ (check_moduli b mu d) (fun i => check_moduli (o i b) (o i mu) (o i d)).
Proof. intros b mu d Hp Hs Hd. unfold check_moduli. bnd; [use (@agree_any k sh n)|]. bnd; [use (@agree_any k sh n)|]. use (@agree_any k sh n). Qed.

Lemma row_bmat_of_moduli : forall b mu d, wfa n b -> wfa n mu -> wfa n d ->
  agree_ (bmat_of_moduli b mu d) (fun i => bmat_of_moduli (o i b) (o i mu) (o i d)).
Proof.
  intros b mu d Hb Hm Hd. unfold bmat_of_moduli.
  bnd; [use (@agree_any k sh n)|]. bnd; [use row_check_moduli|]. bnd; [use (@agree_amap k sh n)|].
  bnd; [use (@agree_amap k sh n)|]. bnd; [use row_check_velocities|]. ret.
Qed.

Lemma row_bmat_of_velocities : forall d p s, wfa n d -> wfa n p -> wfa n s ->
  agree_ (bmat_of_velocities d p s) (fun i => bmat_of_velocities (o i d) (o i p) (o i s)).
Proof.
  intros d p s Hd Hp Hs. unfold bmat_of_velocities.
  bnd; [use row_check_moduli|]. bnd; [use row_check_velocities|]. ret.
Qed.

Lemma row_unpack : forall (a : arr material) i, om i (unpack a) = unpack (o i a).
Proof. intros a i. unfold obs_mat, unpack. cbn [b_bulk b_shear b_dens b_vp b_vs]. rewrite !obs_pmap. reflexivity. Qed.
Lemma wf_unpack : forall (a : arr material), wfa n a -> wfm n (unpack a).
Proof. intros a H. repeat split; cbn [unpack b_bulk b_shear b_dens b_vp b_vs]; apply wf_pmap, H. Qed.

(** Putting a vector of usable materials together again changes nothing. *)
Definition rebuilds (m : material) : Prop := mat_of_velocities (dens m) (vp m) (vs m) = Ok m.

Lemma rebuilds_inv : forall m, rebuilds m ->
  calculate_shear_modulus (vs m) (dens m) = shear m /\
  calculate_bulk_modulus (vp m) (shear m) (dens m) = bulk m /\
  0 <= dens m /\ 0 <= bulk m /\ 0 <= shear m /\ 0 <= vp m /\ 0 <= vs m /\ sqrt (4 / 3) * vs m <= vp m.
Proof.
  intros m H. unfold rebuilds, mat_of_velocities, mk_material in H. cbn [fill_moduli bind fill_velocities] in H.
  destruct (Rlt_dec (dens m) 0) as [|D]; [discriminate|].
  destruct (Rlt_dec (calculate_bulk_modulus (vp m) (calculate_shear_modulus (vs m) (dens m)) (dens m)) 0) as [|K]; [discriminate|].
  destruct (Rlt_dec (calculate_shear_modulus (vs m) (dens m)) 0) as [|M]; [discriminate|].
  destruct (Rlt_dec (vp m) 0) as [|P]; [discriminate|].
  destruct (Rlt_dec (vs m) 0) as [|S]; [discriminate|].
  destruct (Rlt_dec (vp m) (sqrt (4 / 3) * vs m)) as [|V]; [discriminate|].
  destruct m as [b mu d p s]. cbn [bulk shear dens vp vs] in *. injection H as Hb Hm.
  rewrite Hm in *. repeat split; lra || assumption.
Qed.

Lemma existsb_false : forall {A} (p : A -> bool) l, (forall x, In x l -> p x = false) -> existsb p l = false.
Proof.
  intros A p l H. destruct (existsb p l) eqn:E; [|reflexivity].
  apply existsb_exists in E. destruct E as [x [Hx Px]]. rewrite (H x Hx) in Px. discriminate.
Qed.

Lemma ltb_false : forall a b, b <= a -> ltb a b = false.
Proof. intros a b H. unfold ltb. destruct (Rlt_dec a b); [lra|reflexivity]. Qed.
Lemma ltb_true : forall a b, a < b -> ltb a b = true.
Proof. intros a b H. unfold ltb. destruct (Rlt_dec a b); [reflexivity|lra]. Qed.

Lemma combine_map_map : forall {A B C} (f : A -> B) (g : A -> C) l,
  combine (map f l) (map g l) = map (fun x => (f x, g x)) l.
Proof. intros A B C f g l. induction l as [|x l IH]; cbn; [reflexivity|]. rewrite IH. reflexivity. Qed.

Lemma rebuild_vector : forall l, Forall rebuilds l ->
  bmat_of_velocities (Vec (map dens l)) (Vec (map vp l)) (Vec (map vs l)) = Ok (unpack (Vec l)).
Proof.
  intros l H. rewrite Forall_forall in H. unfold bmat_of_velocities. unfold zip3. cbn [zip pmap].
  rewrite combine_map_map, map_map. cbn [fst snd].
  rewrite (map_ext_in (fun m => calculate_shear_modulus (vs m) (dens m)) shear l) by (intros m Hm; apply (rebuilds_inv m (H m Hm))).
  cbn [zip]. rewrite !combine_map_map. cbn [pmap]. rewrite map_map. cbn [fst snd].
  rewrite (map_ext_in (fun m => calculate_bulk_modulus (vp m) (shear m) (dens m)) bulk l) by (intros m Hm; apply (rebuilds_inv m (H m Hm))).
  unfold check_moduli, check_velocities. cbn [any zip]. rewrite combine_map_map.
  assert (E : forall (f : material -> R) p, (forall m, In m l -> p (f m) = false) -> existsb p (map f l) = false).
  { intros f p Hp. apply existsb_false. intros x Hx. apply in_map_iff in Hx. destruct Hx as [m [<- Hm]]. apply Hp, Hm. }
  rewrite !E by (intros m Hm; apply ltb_false; apply (rebuilds_inv m (H m Hm))).
  cbn [guard bind]. rewrite existsb_false.
  - reflexivity.
  - intros x Hx. apply in_map_iff in Hx. destruct Hx as [m [<- Hm]]. cbn [fst snd]. apply ltb_false. apply (rebuilds_inv m (H m Hm)).
Qed.

Lemma sequence_forall : forall {A B} (f : A -> res B) (P : B -> Prop), (forall x y, f x = Ok y -> P y) ->
  forall l l', sequence (map f l) = Ok l' -> Forall P l'.
Proof.
  intros A B f P HP l. induction l as [|x l IH]; cbn [map sequence]; intros l' H.
  - injection H as <-. constructor.
  - destruct (f x) as [y|e] eqn:E; cbn [bind] in H; [|discriminate].
    destruct (sequence (map f l)) as [l''|e]; cbn [bind] in H; [|discriminate].
    injection H as <-. constructor; [eapply HP, E|apply IH; reflexivity].
Qed.

Lemma vectorize_unpack : forall {X} (f : X -> res material) a, (forall x m, f x = Ok m -> rebuilds m) ->
  vectorize_material f a = (let* ms := amap f a in Ok (unpack ms)).
Proof.
  intros X f [x|l] H; unfold vectorize_material; cbn [amap].
  - destruct (f x); reflexivity.
  - destruct (sequence (map f l)) as [l'|e] eqn:E; cbn [bind]; [|reflexivity].
    apply rebuild_vector. eapply sequence_forall; [exact H|exact E].
Qed.

Lemma row_vectorize : forall {X} (f : X -> res material) a, (forall x m, f x = Ok m -> rebuilds m) -> wfa n a ->
  agree_ (vectorize_material f a) (fun i => vectorize_material f (o i a)).
Proof.
  intros X f a H W. rewrite vectorize_unpack by exact H.
  eapply agree_ext; [|intros i Hi; symmetry; apply vectorize_unpack, H].
  bnd; [use (@agree_amap k sh n)|]. eapply agree_ok; [apply wf_unpack; assumption|].
  intros i Hi. cbn [at_row batch_mat batch_arr]. symmetry. apply row_unpack.
Qed.

Lemma row_poisson : forall m, wfm n m -> agree_ (b_poisson_ratio m) (fun i => b_poisson_ratio (om i m)).
Proof. intros m H. wf_split. unfold b_poisson_ratio. use (@agree_amap k sh n). Qed.

Lemma row_barbitrary : forall b mu d, wfa n b -> wfa n mu -> wfa n d ->
  agree_ (barbitrary b mu d) (fun i => barbitrary (o i b) (o i mu) (o i d)).
Proof.
  intros b mu d Hb Hm Hd. unfold barbitrary.
  bnd; [use (@agree_amap k sh n)|]. bnd; [use (@agree_amap k sh n)|]. ret.
Qed.

(** ** hashin_shtrikman.py *)
Lemma row_check_is_ratio : forall r, wfa n r ->
  agree_ (b_check_is_ratio r) (fun i => b_check_is_ratio (o i r)).
Proof. intros r H. unfold b_check_is_ratio. bnd; [use (@agree_any k sh n)|]. use (@agree_any k sh n). Qed.

Lemma row_walpole : forall m1 m2 r, wfm n m1 -> wfm n m2 -> wfa n r ->
  agree_ (b_walpole m1 m2 r) (fun i => b_walpole (om i m1) (om i m2) (o i r)).
Proof.
  intros m1 m2 r H1 H2 Hr. wf_split. unfold b_walpole.
  bnd; [use row_check_is_ratio|]. bnd; [use (@agree_amap k sh n)|]. bnd; [use (@agree_amap k sh n)|].
  use row_bmat_of_moduli.
Qed.

(** ** minerals *)
Lemma row_fraction_is_ratio : forall v, sized n v ->
  agree_ (b_fraction_is_ratio v) (fun i => b_fraction_is_ratio (at_row k i v)).
Proof.
  intros [v|] H; cbn [sized batch_option batch_arr] in H; unfold b_fraction_is_ratio; cbn [at_row batch_option batch_arr].
  - bnd; [use (@agree_any k sh n)|]. use (@agree_any k sh n).
  - apply agree_ok; [exact I|reflexivity].
Qed.

Lemma row_sum_given : forall fs i, o i (b_sum_given fs) = b_sum_given (map (at_row k i) fs).
Proof.
  intros fs i. induction fs as [|[a|] fs IH]; cbn [b_sum_given map at_row batch_option batch_arr].
  - reflexivity.
  - rewrite obs_pmap, obs_zip, IH. reflexivity.
  - exact IH.
Qed.
Lemma wf_sum_given : forall fs, Forall (sized n) fs -> wfa n (b_sum_given fs).
Proof.
  intros fs H. induction H as [|[a|] fs Ha H IH]; cbn [b_sum_given].
  - exact I.
  - apply wf_pmap, wf_zip; [exact Ha|exact IH].
  - exact IH.
Qed.
Lemma missing_map : forall fs i, missing (map (at_row k i) fs) = missing (A := arr R) fs.
Proof. intros fs i. induction fs as [|[a|] fs IH]; cbn; [reflexivity|exact IH|f_equal; exact IH]. Qed.

Lemma row_fix_one_fraction : forall fs, Forall (sized n) fs ->
  agree_ (b_fix_one_fraction fs) (fun i => b_fix_one_fraction (map (at_row k i) fs)).
Proof.
  intros fs H. unfold b_fix_one_fraction. pose proof (wf_sum_given fs H) as W.
  bnd.
  - eapply agree_ext; [eapply (@agree_any k sh n); assumption|]. intros i Hi. cbv beta. rewrite row_sum_given. reflexivity.
  - bnd.
    + eapply agree_ext; [|intros i Hi; rewrite missing_map; reflexivity].
      destruct (missing fs) as [|[|q]].
      * apply agree_ok; [exact I|reflexivity].
      * eapply agree_ext; [eapply row_fraction_is_ratio|].
        -- cbn [sized batch_option batch_arr]. wf_tac.
        -- intros i Hi. cbn [at_row batch_option batch_arr]. rewrite obs_pmap, row_sum_given. reflexivity.
      * apply agree_err, Hn.
    + eapply agree_ok.
      * cbn [sized batch_list]. rewrite Forall_forall in H |- *. intros a Ha. apply in_map_iff in Ha.
        destruct Ha as [[x|] [<- Hx]]; cbn [completed]; [apply (H _ Hx)|]. cbn [sized batch_arr]. wf_tac.
      * intros i Hi. cbn [at_row batch_list batch_arr]. rewrite !map_map. apply map_ext.
        intros [x|]; cbn [completed at_row batch_option batch_arr]; [reflexivity|].
        rewrite obs_pmap, row_sum_given. reflexivity.
Qed.

Lemma row_each : forall {A} `{Batch A} (f : A -> res unit) l,
  (forall a, sized n a -> agree_ (f a) (fun i => f (at_row k i a))) -> Forall (sized n) l ->
  agree_ (each f l) (fun i => each f (map (at_row k i) l)).
Proof.
  intros A HA f l Hf H. induction H as [|a l Ha H IH]; cbn [each map].
  - apply agree_ok; [exact I|reflexivity].
  - bnd; [apply Hf, Ha|exact IH].
Qed.

Lemma row_asum : forall l i, o i (asum l) = asum (map (o i) l).
Proof.
  intros l i. induction l as [|a l IH]; cbn [asum map]; [reflexivity|].
  rewrite obs_pmap, obs_zip, IH. reflexivity.
Qed.
Lemma wf_asum : forall l, Forall (wfa n) l -> wfa n (asum l).
Proof. intros l H. induction H as [|a l Ha H IH]; cbn [asum]; [exact I|]. apply wf_pmap, wf_zip; assumption. Qed.

Lemma combine_map2 : forall {A B C D} (f : A -> C) (g : B -> D) l l',
  combine (map f l) (map g l') = map (fun x => (f (fst x), g (snd x))) (combine l l').
Proof. intros A B C D f g l. induction l as [|x l IH]; intros [|y l']; cbn; try reflexivity. rewrite IH. reflexivity. Qed.

Lemma forall_combine : forall {A B} (P : A -> Prop) (Q : B -> Prop) l l',
  Forall P l -> Forall Q l' -> Forall (fun x => P (fst x) /\ Q (snd x)) (combine l l').
Proof.
  intros A B P Q l l' H. revert l'. induction H as [|a l Ha H IH]; intros l' H'; cbn; [constructor|].
  destruct H' as [|b l' Hb H']; constructor; [split; assumption|apply IH, H'].
Qed.

Lemma agree_static : forall {B} `{Batch B} (b : bool) e (bs : nat -> bool), (forall i, (i < n)%nat -> bs i = b) ->
  agree_ (guard b e) (fun i => guard (bs i) e).
Proof.
  intros B HB b e bs E. destruct b.
  - right. exists 0%nat. split; [exact Hn|]. rewrite (E 0%nat Hn). reflexivity.
  - split; [exact I|]. intros i Hi. rewrite (E i Hi). reflexivity.
Qed.

Lemma row_minerals : forall cs, Forall (sized n) cs ->
  agree_ (b_minerals cs) (fun i => b_minerals (map (at_row k i) cs)).
Proof.
  intros cs H. unfold b_minerals.
  bnd; [apply (@agree_static (arr R) _); intros i Hi; destruct cs; reflexivity|].
  bnd.
  - apply (@row_each _ _ (fun c => b_fraction_is_ratio (snd c)) cs); [|exact H].
    intros [m v] [W1 W2]. cbn [snd at_row batch_prod fst] in *. apply row_fraction_is_ratio. exact W2.
  - bnd.
    + eapply agree_ext; [eapply row_fix_one_fraction|].
      * rewrite Forall_forall in *. intros x Hx. apply in_map_iff in Hx. destruct Hx as [c [<- Hc]]. apply (H c Hc).
      * intros i Hi. cbv beta. rewrite !map_map. reflexivity.
    + bnd.
      * eapply agree_ext; [eapply (@agree_any k sh n); [exact Hn|apply wf_asum; assumption]|].
        intros i Hi. cbv beta. rewrite row_asum. reflexivity.
      * eapply agree_ok.
        -- cbn [sized batch_list batch_prod]. apply forall_combine; [|assumption].
           rewrite Forall_forall in *. intros x Hx. apply in_map_iff in Hx. destruct Hx as [c [<- Hc]]. apply (H c Hc).
        -- intros i Hi. cbn [at_row batch_list batch_prod]. rewrite map_map.
           rewrite <- combine_map2. rewrite map_map. reflexivity.
Qed.

Lemma row_mix_minerals : forall a b, sized n a -> sized n b ->
  agree_ (b_mix_minerals a b) (fun i => b_mix_minerals (at_row k i a) (at_row k i b)).
Proof.
  intros [m1 f1] [m2 f2] [W1 W2] [W3 W4]. cbn [fst snd] in *. cbn [sized batch_arr batch_mat] in *. unfold b_mix_minerals. cbn [at_row batch_prod batch_arr batch_mat fst snd].
  bnd; [use (@agree_amap k sh n)|]. bnd; [use row_walpole|]. bnd; [use row_barbitrary|].
  bnd.
  - eapply agree_ext; [eapply row_fraction_is_ratio|].
    + cbn [sized batch_option batch_arr]. wf_tac.
    + intros i Hi. cbn [at_row batch_option batch_arr]. rewrite obs_pmap, obs_zip. reflexivity.
  - eapply agree_ok.
    + split; cbn [fst snd]; [cbn [sized batch_mat]; repeat split; assumption|]. cbn [sized batch_arr]. wf_tac.
    + intros i Hi. cbn [at_row batch_prod batch_arr batch_mat fst snd]. rewrite obs_pmap, obs_zip. reflexivity.
Qed.

Lemma row_mix_loop : forall rest cur, sized n cur -> Forall (sized n) rest ->
  agree_ (b_mix_loop cur rest) (fun i => b_mix_loop (at_row k i cur) (map (at_row k i) rest)).
Proof.
  induction rest as [|c rest IH]; intros cur Hc H; cbn [b_mix_loop map].
  - apply agree_ok; [exact Hc|reflexivity].
  - inversion H as [|x l Hx Hl]; subst. eapply agree_bind; [apply row_mix_minerals; assumption|].
    intros b Hb. cbv beta. apply IH; assumption.
Qed.

Lemma row_minerals_as_mixture : forall cs, Forall (sized n) cs ->
  agree_ (b_minerals_as_mixture cs) (fun i => b_minerals_as_mixture (map (at_row k i) cs)).
Proof.
  intros [|c cs] H; cbn [b_minerals_as_mixture map].
  - apply agree_err, Hn.
  - inversion H; subst. eapply agree_bind; [apply row_mix_loop; assumption|].
    intros [m f] [W1 W2]. cbv beta. apply agree_ok; [exact W1|reflexivity].
Qed.

(** ** fluid.py *)
Lemma row_fluid : forall b d, wfa n b -> wfa n d -> agree_ (b_fluid b d) (fun i => b_fluid (o i b) (o i d)).
Proof. intros b d Hb Hd. unfold b_fluid. use row_bmat_of_moduli. Qed.

Lemma row_saturations : forall l i,
  map (o i) (b_sum_saturations_to_one l) = b_sum_saturations_to_one (map (o i) l).
Proof.
  intros l i. unfold b_sum_saturations_to_one. rewrite !map_map. apply map_ext. intros s.
  unfold zip3. repeat (rewrite obs_pmap || rewrite obs_zip). rewrite row_asum. reflexivity.
Qed.
Lemma wf_saturations : forall l, Forall (wfa n) l -> Forall (wfa n) (b_sum_saturations_to_one l).
Proof.
  intros l H. pose proof (wf_asum l H) as W. unfold b_sum_saturations_to_one. rewrite Forall_forall in *.
  intros x Hx. apply in_map_iff in Hx. destruct Hx as [s [<- Hs]]. specialize (H s Hs). wf_tac.
Qed.

Lemma row_mix_densities : forall fl sat i,
  o i (b_mix_densities fl sat) = b_mix_densities (map (om i) fl) (map (o i) sat).
Proof.
  intros fl sat i. unfold b_mix_densities. rewrite row_asum, combine_map2, !map_map. f_equal.
  apply map_ext. intros [f s]. cbn [fst snd]. rewrite obs_pmap, obs_zip. reflexivity.
Qed.
Lemma wf_mix_densities : forall fl sat, Forall (wfm n) fl -> Forall (wfa n) sat -> wfa n (b_mix_densities fl sat).
Proof.
  intros fl sat H H'. apply wf_asum. pose proof (forall_combine _ _ _ _ H H') as F.
  rewrite Forall_forall in *. intros x Hx. apply in_map_iff in Hx. destruct Hx as [y [<- Hy]].
  destruct (F y Hy) as [[? [? [? [? ?]]]] ?]. wf_tac.
Qed.

Lemma row_mix_bulk : forall fl sat, Forall (wfm n) fl -> Forall (wfa n) sat ->
  agree_ (b_mix_bulk_moduli fl sat) (fun i => b_mix_bulk_moduli (map (om i) fl) (map (o i) sat)).
Proof.
  intros fl sat H H'. unfold b_mix_bulk_moduli.
  eapply agree_ext; [|intros i Hi; rewrite combine_map2; reflexivity].
  pose proof (forall_combine _ _ _ _ H' H) as F. revert F. generalize (combine sat fl). intros l F.
  bnd; [apply (@agree_static (arr R) _); intros i Hi; destruct l; reflexivity|].
  bnd; [|use (@agree_amap k sh n)].
  induction F as [|[s f] l [Ws Wf] F IH]; cbn [map asum_res fst snd].
  - apply agree_ok; [exact I|reflexivity].
  - cbn [fst snd] in Ws, Wf. destruct Wf as [? [? [? [? ?]]]]. bnd; [use (@agree_amap k sh n)|]. bnd; [exact IH|]. eapply agree_ok.
    + cbn [sized batch_arr]. wf_tac.
    + intros i Hi. obs_push.
Qed.

Lemma row_wood : forall fl sat, Forall (wfm n) fl -> Forall (wfa n) sat ->
  agree_ (b_wood fl sat) (fun i => b_wood (map (om i) fl) (map (o i) sat)).
Proof.
  intros fl sat H H'. unfold b_wood. pose proof (wf_saturations sat H') as W.
  bnd.
  - eapply agree_ext; [eapply row_mix_bulk; assumption|]. intros i Hi. cbv beta. rewrite row_saturations. reflexivity.
  - eapply agree_ext; [eapply row_fluid; [assumption|apply wf_mix_densities; assumption]|].
    intros i Hi. cbv beta. rewrite row_mix_densities, row_saturations. reflexivity.
Qed.

Lemma row_brie : forall fl fs gl gs e, Forall (wfm n) fl -> Forall (wfa n) fs -> Forall (wfm n) gl -> Forall (wfa n) gs ->
  agree_ (b_brie fl fs gl gs e) (fun i => b_brie (map (om i) fl) (map (o i) fs) (map (om i) gl) (map (o i) gs) e).
Proof.
  intros fl fs gl gs e Hf Hfs Hg Hgs. unfold b_brie.
  bnd; [apply (@agree_static (arr R) _); intros i Hi; rewrite !map_length; reflexivity|].
  bnd; [apply (@agree_static (arr R) _); intros i Hi; rewrite !map_length; reflexivity|].
  destruct fl as [|f fl]; destruct gl as [|g gl]; cbn [map].
  - apply agree_err, Hn.
  - exact (row_wood (g :: gl) gs Hg Hgs).
  - exact (row_wood (f :: fl) fs Hf Hfs).
  - pose proof (wf_asum fs Hfs) as W.
    eapply agree_bind; [exact (row_wood (f :: fl) fs Hf Hfs)|]. intros liquid Wl. cbv beta.
    eapply agree_bind; [exact (row_wood (g :: gl) gs Hg Hgs)|]. intros gas Wg. cbv beta.
    cbn [sized batch_mat] in Wl, Wg.
    bnd.
    + eapply agree_ext; [eapply (@agree_amap k sh n); assumption|]. intros i Hi. cbv beta. rewrite row_asum. reflexivity.
    + assert (Forall (wfm n) [liquid; gas]) by (constructor; [wf_tac|constructor; [wf_tac|constructor]]).
      eapply agree_ext; [eapply row_fluid|].
      * wf_tac.
      * apply wf_mix_densities; [assumption|]. constructor; [assumption|]. constructor; [wf_tac|constructor].
      * intros i Hi. cbv beta. rewrite row_mix_densities. cbn [map]. rewrite <- row_asum. obs_push.
Qed.

Lemma row_fluid_substitution : forall d m f phi, wfm n d -> wfm n m -> wfm n f -> wfa n phi ->
  agree_ (b_fluid_substitution d m f phi) (fun i => b_fluid_substitution (om i d) (om i m) (om i f) (o i phi)).
Proof.
  intros d m f phi Hd Hm Hf Hp. wf_split. unfold b_fluid_substitution.
  bnd; [use (@agree_amap k sh n)|]. use row_bmat_of_moduli.
Qed.

(** ** Sandstone models *)
Lemma row_hertz_mindlin : forall m a b c d, wfm n m -> wfa n a -> wfa n b -> wfa n c -> wfa n d ->
  agree_ (b_hertz_mindlin m a b c d) (fun i => b_hertz_mindlin (om i m) (o i a) (o i b) (o i c) (o i d)).
Proof.
  intros m a b c d Hm Ha Hb Hc Hd. unfold b_hertz_mindlin.
  bnd; [use row_poisson|]. bnd; [use (@agree_amap k sh n)|]. bnd; [use (@agree_amap k sh n)|].
  bnd; [use (@agree_amap k sh n)|]. bnd; [use (@agree_amap k sh n)|]. use row_bmat_of_moduli.
Qed.

Lemma row_friable_sand : forall m a b c d e, wfm n m -> wfa n a -> wfa n b -> wfa n c -> wfa n d -> wfa n e ->
  agree_ (b_friable_sand m a b c d e) (fun i => b_friable_sand (om i m) (o i a) (o i b) (o i c) (o i d) (o i e)).
Proof.
  intros m a b c d e Hm Ha Hb Hc Hd He. unfold b_friable_sand.
  bnd; [use row_hertz_mindlin|]. bnd; [use (@agree_amap k sh n)|]. use row_walpole.
Qed.

Lemma row_shear_stiffness : forall a b c d, wfa n a -> wfa n b -> wfa n c -> wfa n d ->
  agree_ (b_shear_stiffness a b c d) (fun i => b_shear_stiffness (o i a) (o i b) (o i c) (o i d)).
Proof. intros. unfold b_shear_stiffness. use (@agree_amap k sh n). Qed.
Lemma row_normal_stiffness : forall a b c d e, wfa n a -> wfa n b -> wfa n c -> wfa n d -> wfa n e ->
  agree_ (b_normal_stiffness a b c d e) (fun i => b_normal_stiffness (o i a) (o i b) (o i c) (o i d) (o i e)).
Proof. intros. unfold b_normal_stiffness. use (@agree_amap k sh n). Qed.

Lemma row_check_porosities : forall a b, wfa n a -> wfa n b ->
  agree_ (b_check_porosities a b) (fun i => b_check_porosities (o i a) (o i b)).
Proof.
  intros a b Ha Hb. unfold b_check_porosities.
  do 4 (bnd; [use (@agree_any k sh n)|]). use (@agree_any k sh n).
Qed.

Lemma row_radius_ratio : forall a b, wfa n a -> wfa n b ->
  agree_ (b_cement_radius_ratio a b) (fun i => b_cement_radius_ratio (o i a) (o i b)).
Proof.
  intros a b Ha Hb. unfold b_cement_radius_ratio.
  bnd; [use row_check_porosities|]. bnd; [use (@agree_amap k sh n)|]. bnd; [use (@agree_amap k sh n)|].
  eapply agree_ok; [cbn [sized batch_arr]; wf_tac|]. intros i Hi. obs_push.
Qed.

Lemma row_contact_cement : forall c m a b d e, wfm n c -> wfm n m -> wfa n a -> wfa n b -> wfa n d -> wfa n e ->
  agree_ (b_contact_cement c m a b d e) (fun i => b_contact_cement (om i c) (om i m) (o i a) (o i b) (o i d) (o i e)).
Proof.
  intros c m a b d e Hc Hm Ha Hb Hd He. unfold b_contact_cement.
  bnd; [use row_check_porosities|]. bnd; [use row_radius_ratio|]. bnd; [use row_poisson|].
  bnd; [use row_shear_stiffness|]. bnd; [use row_poisson|]. bnd; [use row_normal_stiffness|].
  unfold b_primary_wave_modulus. use row_bmat_of_moduli.
Qed.

Lemma row_constant_cement : forall s c a b d e f, wfm n s -> wfm n c -> wfa n a -> wfa n b -> wfa n d -> wfa n e -> wfa n f ->
  agree_ (b_constant_cement s c a b d e f)
    (fun i => b_constant_cement (om i s) (om i c) (o i a) (o i b) (o i d) (o i e) (o i f)).
Proof.
  intros s c a b d e f Hs Hc Ha Hb Hd He Hf. unfold b_constant_cement.
  bnd; [use row_walpole|]. bnd; [use row_contact_cement|]. bnd; [use (@agree_amap k sh n)|]. use row_walpole.
Qed.

Lemma shape_same : forall {A} (a : arr A) i, k = true -> is_vec (o i a) = is_vec a.
Proof. intros A a i ->. destruct a as [x|l]; cbn [obs]; [reflexivity|]. destruct (nth_error l i); reflexivity. Qed.
Lemma shape_const : forall {A} (a : arr A) i, k = false -> (i < n)%nat -> wfa n a -> is_vec (o i a) = false.
Proof. intros A a i -> Hi W. eapply is_vec_const; [exact Hi|exact W]. Qed.

Lemma row_patchy_weight : forall a b c, wfa n a -> wfa n b -> wfa n c ->
  sh = true \/ (is_vec a = true /\ is_vec b = true /\ is_vec c = true) ->
  agree_ (b_patchy_weight a b c) (fun i => b_patchy_weight (o i a) (o i b) (o i c)).
Proof.
  intros a b c Ha Hb Hc Hs. unfold b_patchy_weight. bnd.
  - apply (agree_shape k sh n (orb (is_vec c) (is_vec b) && negb (is_vec a && (is_vec b && is_vec c)))%bool
             (fun i => orb (is_vec (o i c)) (is_vec (o i b)) && negb (is_vec (o i a) && (is_vec (o i b) && is_vec (o i c))))%bool Hn).
    + intros K i Hi. rewrite !(fun A (x : arr A) => shape_same x i K). reflexivity.
    + intros K i Hi. rewrite (shape_const c i K Hi Hc), (shape_const b i K Hi Hb). reflexivity.
    + intros _. destruct Hs as [Hs|[-> [-> ->]]]; [left; exact Hs|right; reflexivity].
  - eapply agree_ok; [cbn [sized batch_arr]; wf_tac|]. intros i Hi. obs_push.
Qed.

Lemma row_patchy_cement : forall s c a1 a2 a3 a4 a5 a6 a7 a8 a9, wfm n s -> wfm n c ->
  wfa n a1 -> wfa n a2 -> wfa n a3 -> wfa n a4 -> wfa n a5 -> wfa n a6 -> wfa n a7 -> wfa n a8 -> wfa n a9 ->
  sh = true \/ is_vec a1 = true ->
  agree_ (b_patchy_cement s c a1 a2 a3 a4 a5 a6 a7 a8 a9)
    (fun i => b_patchy_cement (om i s) (om i c) (o i a1) (o i a2) (o i a3) (o i a4) (o i a5) (o i a6) (o i a7) (o i a8) (o i a9)).
Proof.
  intros s c a1 a2 a3 a4 a5 a6 a7 a8 a9 ? ? ? ? ? ? ? ? ? ? ? Hs. unfold b_patchy_cement.
  bnd; [use row_walpole|]. bnd; [use row_friable_sand|].
  eapply agree_bind_eq; [use row_friable_sand|]. intros lo L ?. cbv beta. wf_split.
  eapply agree_bind_eq; [use row_constant_cement|]. intros ub U ?. cbv beta. wf_split.
  bnd; [use row_contact_cement|].
  eapply agree_bind_eq; [use (@agree_amap k sh n)|]. intros r E ?. cbv beta. wf_split.
  eapply agree_bind_eq; [use row_walpole|]. intros cn C ?. cbv beta. wf_split.
  assert (S : sh = true \/ (columns cn /\ columns lo /\ columns ub)).
  { destruct Hs as [Hs|Hs]; [left; exact Hs|right]. repeat split; try (eapply friable_columns; eassumption);
      try (eapply constant_columns; eassumption); (eapply walpole_columns; [eassumption|]);
      rewrite is_vec_pmap, (is_vec_amap _ _ _ E), is_vec_zip, Hs; reflexivity. }
  bnd.
  { eapply agree_ext; [apply row_patchy_weight; wf_tac|intros ? ?; obs_push].
    destruct S as [S|[[? [? ?]] [[? [? ?]] [? [? ?]]]]]; [left; exact S|right; repeat split; assumption]. }
  bnd.
  { eapply agree_ext; [apply row_patchy_weight; wf_tac|intros ? ?; obs_push].
    destruct S as [S|[[? [? ?]] [[? [? ?]] [? [? ?]]]]]; [left; exact S|right; repeat split; assumption]. }
  use row_bmat_of_moduli.
Qed.
End Rows.
