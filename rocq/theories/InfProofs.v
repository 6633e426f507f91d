(** The calculation with infinities agrees with the one on real numbers wherever
    the latter does not stop. *)
From Coq Require Import String List ZArith Lra Lia.
From Verif Require Import Base BaseProofs MaterialModel MaterialProofs FluidModel ConfigModel RowModel InfModel InfSpec RelProofs EmbedProofs.
Import ListNotations.
Open Scope R_scope.

Lemma reads_val : forall x a, reads x a <-> xval a = Some x.
Proof.
  intros x a. unfold reads. split.
  - intros [->|[-> ->]]; reflexivity.
  - destruct a; cbn; intros H; try discriminate; injection H as <-; auto.
Qed.
Lemma reads_fin : forall x, reads x (XFin x).
Proof. intros. left. reflexivity. Qed.
Lemma reads_signed : forall s x, reads x (signed s x).
Proof. intros s x. unfold signed. destruct (Req_EM_T x 0) as [->|]; [destruct s|]; unfold reads; auto. Qed.
Lemma reads_fun : forall a x y, reads x a -> reads y a -> x = y.
Proof. intros a x y [->|[-> ->]] [H|[H ?]]; congruence. Qed.
Lemma reads_add : forall x y a b, reads x a -> reads y b -> reads (x + y) (a + b)%xnum.
Proof.
  intros x y a b [->|[-> ->]] [->|[-> ->]]; cbn [xadd]; rewrite ?Rplus_0_l, ?Rplus_0_r; unfold reads; auto.
Qed.
Lemma reads_opp : forall x a, reads x a -> reads (- x) (xopp a).
Proof.
  intros x a [->|[-> ->]]; cbn [xopp]; [apply reads_signed|rewrite Ropp_0; left; reflexivity].
Qed.
Lemma reads_sub : forall x y a b, reads x a -> reads y b -> reads (x - y) (a - b)%xnum.
Proof. intros. unfold xsub, Rminus. apply reads_add; [assumption|apply reads_opp; assumption]. Qed.
Lemma reads_mul : forall x y a b, reads x a -> reads y b -> reads (x * y) (a * b)%xnum.
Proof. intros x y a b [->|[-> ->]] [->|[-> ->]]; cbn [xmul xval]; apply reads_signed. Qed.
Lemma reads_div : forall x y a b, reads x a -> reads y b -> y <> 0 -> reads (x / y) (a / b)%xnum.
Proof.
  intros x y a b [->|[-> ->]] [->|[-> ->]] N; try contradiction; cbn [xdiv xval];
    (destruct (Req_EM_T y 0); [contradiction|]); apply reads_signed.
Qed.
Lemma reads_square : forall x a, reads x a -> reads (x ^ 2) (xsquare a).
Proof. intros x a H. replace (x ^ 2) with (x * x) by ring. apply reads_mul; assumption. Qed.
Lemma reads_ltb : forall x y a b, reads x a -> reads y b -> xltb a b = if Rlt_dec x y then true else false.
Proof. intros x y a b [->|[-> ->]] [->|[-> ->]]; reflexivity. Qed.
Lemma reads_eqb : forall x y a b, reads x a -> reads y b -> xeqb a b = if Req_EM_T x y then true else false.
Proof. intros x y a b [->|[-> ->]] [->|[-> ->]]; reflexivity. Qed.
Lemma reads_zero : forall x a, reads x a -> xzero a = if Req_EM_T x 0 then true else false.
Proof. intros x a H. apply reads_val in H. unfold xzero. rewrite H. reflexivity. Qed.
Lemma reads_abs : forall x a, reads x a -> reads (Rabs x) (xabs a).
Proof. intros x a [->|[-> ->]]; cbn [xabs]; rewrite ?Rabs_R0; left; reflexivity. Qed.
Lemma reads_max : forall x y a b, reads x a -> reads y b -> reads (Rmax x y) (xmax a b).
Proof.
  intros x y a b Ha Hb. assert (E : xmax a b = if xltb a b then b else a).
  { destruct Ha as [->|[-> _]], Hb as [->|[-> _]]; reflexivity. }
  rewrite E, (reads_ltb x y) by assumption. destruct (Rlt_dec x y); [rewrite Rmax_right by lra|rewrite Rmax_left by lra]; assumption.
Qed.
Lemma reads_exp : forall x a, reads x a -> reads (exp x) (x_exp a).
Proof. intros x a [->|[-> ->]]; cbn [x_exp]; rewrite ?exp_0; left; reflexivity. Qed.
Create HintDb xr.
#[global] Hint Resolve reads_fin reads_add reads_sub reads_mul reads_square reads_max reads_abs reads_exp : xr.

(** Steps that may fail. *)
Lemma xs_np_div : forall kd x y a b, reads x a -> reads y b -> sim reads (np_div x y) (x_div kd a b).
Proof.
  intros kd x y a b Ha Hb. unfold np_div, x_div. pose proof (reads_zero y b Hb) as Z. destruct (Req_EM_T y 0) as [->|N].
  - destruct kd; [rewrite Z; left; reflexivity|reflexivity|reflexivity].
  - pose proof (reads_div x y a b Ha Hb N). destruct kd; [rewrite Z; assumption|assumption|assumption].
Qed.
Lemma xs_py_div : forall x y a b, reads x a -> reads y b -> sim reads (py_div x y) (x_div Python a b).
Proof.
  intros x y a b Ha Hb. unfold py_div, x_div. rewrite (reads_zero y b Hb). destruct (Req_EM_T y 0) as [->|N].
  - right. reflexivity.
  - apply rrel_ok, reads_div; assumption.
Qed.
Lemma xs_sqrt : forall kd x a, reads x a -> sim reads (np_sqrt x) (x_root kd a).
Proof.
  intros kd x a Ha. unfold np_sqrt. destruct Ha as [->|[-> ->]]; cbn [x_root].
  - destruct (Rlt_dec x 0); [destruct kd; [left|..]; reflexivity|apply rrel_ok, reads_fin].
  - destruct (Rlt_dec 0 0); [lra|]. apply rrel_ok. rewrite sqrt_0. destruct kd; unfold reads; auto.
Qed.
Lemma xs_pow : forall kd x a y, reads x a -> sim reads (np_pow x y) (x_power kd a y).
Proof.
  intros kd x a y Ha.
  assert (Q : match np_pow x y with Ok z => reads z (x_pow a y) | Err e => e = NonFinite end).
  { unfold np_pow, x_pow.
    pose proof (reads_zero x a Ha) as Z. pose proof Ha as V. apply reads_val in V.
    destruct (Rlt_dec 0 x) as [P|P].
    - destruct (Req_EM_T y 0) as [->|N]; [rewrite Rpower_O by assumption; apply reads_fin|].
      destruct Ha as [->|[-> ->]]; [|lra]. rewrite Z. destruct (Req_EM_T x 0); [lra|]. cbn [xval].
      destruct (Rlt_dec 0 x); [apply reads_fin|contradiction].
    - destruct (Req_EM_T x 0) as [->|N].
      + destruct (Rlt_dec 0 y) as [Y|Y].
        * destruct (Req_EM_T y 0); [lra|]. destruct Ha as [->|[-> _]]; rewrite Z; destruct (andb _ _); unfold reads; auto.
        * destruct (Req_EM_T y 0); [apply reads_fin|reflexivity].
      + destruct (Req_EM_T y (IZR (Int_part y))) as [W|W]; [|reflexivity].
        destruct Ha as [->|[-> ->]]; [|contradiction]. destruct (Req_EM_T y 0) as [->|Y].
        * replace (Int_part 0) with 0%Z in *; [cbn; apply reads_fin|]. apply eq_IZR. rewrite <- W. reflexivity.
        * rewrite Z. cbn [xval]. destruct (Rlt_dec 0 x); [lra|]. unfold whole. destruct (Req_EM_T y (IZR (Int_part y))); [|contradiction].
          apply reads_fin. }
  destruct kd; cbn [x_power]; [|destruct (np_pow x y); [exact Q|exact Q]..].
  destruct (np_pow x y) as [z|e] eqn:E.
  - rewrite (reads_zero x a Ha).
    assert (H0 : andb (if Req_EM_T x 0 then true else false) (if Rlt_dec y 0 then true else false) = false).
    { destruct (Req_EM_T x 0) as [->|]; [|reflexivity]. destruct (Rlt_dec y 0); [|reflexivity]. unfold np_pow in E.
      destruct (Rlt_dec 0 0); [lra|]. destruct (Req_EM_T 0 0); [|contradiction]. destruct (Rlt_dec 0 y); [lra|].
      destruct (Req_EM_T y 0); [lra|discriminate]. }
    rewrite H0. rewrite (reads_ltb x 0 a (XFin 0) Ha (reads_fin 0)).
    assert (H1 : andb (if Rlt_dec x 0 then true else false) (negb (whole y)) = false).
    { destruct (Rlt_dec x 0); [|reflexivity]. unfold whole. destruct (Req_EM_T y (IZR (Int_part y))) eqn:W; [reflexivity|].
      unfold np_pow in E. destruct (Rlt_dec 0 x); [lra|]. destruct (Req_EM_T x 0); [lra|]. rewrite W in E. discriminate. }
    rewrite Bool.andb_assoc, H1. cbn [andb]. exact Q.
  - cbn in Q. rewrite Q. destruct (andb _ _); [left; reflexivity|]. destruct (andb _ _); [left; reflexivity|]. reflexivity.
Qed.

(** Guards. *)
Lemma xs_guard : forall x y a b (A B : Type) (Q : A -> B -> Prop) e r (s : res B), reads x a -> reads y b ->
  sim Q r s -> sim Q (if Rlt_dec x y then Err e else r) (let* _ := guard (xltb a b) e in s).
Proof.
  intros x y a b A B Q e r s Ha Hb H. rewrite (reads_ltb x y a b Ha Hb). destruct (Rlt_dec x y); cbn [guard bind]; [right; reflexivity|exact H].
Qed.

(** ** Materials *)
Lemma xs_of_moduli : forall kd k mu d a b c, reads k a -> reads mu b -> reads d c ->
  sim reads_material (mat_of_moduli k mu d) (x_material_of_moduli kd a b c).
Proof.
  intros kd k mu d a b c Ha Hb Hc. unfold mat_of_moduli, mk_material, x_material_of_moduli, x_moduli_guards, x_velocity_guards,
    fill_moduli, fill_velocities. cbn [bind].
  destruct (Req_EM_T d 0) as [E|E].
  { match goal with |- sim _ _ ?s => destruct s; [reflexivity|left; reflexivity] end. }
  assert (G : (match kd with Python => xzero c | _ => false end) = false).
  { destruct kd; [|reflexivity..]. rewrite (reads_zero d c Hc). destruct (Req_EM_T d 0); [contradiction|reflexivity]. }
  rewrite G. cbn [guard bind].
  rewrite ?bind_bind. apply xs_guard; [assumption|apply reads_fin|]. rewrite ?bind_bind. apply xs_guard; [assumption|apply reads_fin|].
  apply xs_guard; [assumption|apply reads_fin|].
  unfold calculate_primary_velocity, x_primary_velocity, calculate_secondary_velocity, x_secondary_velocity.
  rewrite ?bind_bind. eapply rrel_bind; [apply xs_np_div; [auto with xr|exact Hc]|]. intros q q' Hq.
  eapply rrel_bind; [apply xs_sqrt, Hq|]. intros p p' Hp.
  rewrite ?bind_bind. eapply rrel_bind; [apply xs_np_div; [exact Hb|exact Hc]|]. intros r r' Hr.
  rewrite ?bind_bind. eapply rrel_bind; [apply xs_sqrt, Hr|]. intros s s' Hs. cbn [bind].
  rewrite ?bind_bind. apply xs_guard; [assumption|apply reads_fin|]. rewrite ?bind_bind. apply xs_guard; [assumption|apply reads_fin|].
  apply xs_guard; [assumption|auto with xr|]. apply rrel_ok. repeat split; assumption.
Qed.

Lemma xs_of_velocities : forall d p s a b c, reads d a -> reads p b -> reads s c ->
  sim reads_material (mat_of_velocities d p s) (x_material_of_velocities a b c).
Proof.
  intros d p s a b c Ha Hb Hc. unfold mat_of_velocities, mk_material, x_material_of_velocities, x_moduli_guards, x_velocity_guards,
    fill_moduli, fill_velocities. cbn [bind]. cbv zeta.
  assert (Hm : reads (calculate_shear_modulus s d) (x_shear_modulus c a)) by (unfold calculate_shear_modulus, x_shear_modulus; auto with xr).
  assert (Hk : reads (calculate_bulk_modulus p (calculate_shear_modulus s d) d) (x_bulk_modulus b (x_shear_modulus c a) a))
    by (unfold calculate_bulk_modulus, x_bulk_modulus; auto with xr).
  rewrite ?bind_bind. apply xs_guard; [assumption|apply reads_fin|]. rewrite ?bind_bind. apply xs_guard; [assumption|apply reads_fin|].
  apply xs_guard; [assumption|apply reads_fin|].
  rewrite ?bind_bind. apply xs_guard; [assumption|apply reads_fin|]. rewrite ?bind_bind. apply xs_guard; [assumption|apply reads_fin|].
  apply xs_guard; [assumption|auto with xr|]. apply rrel_ok. repeat split; assumption.
Qed.

(** ** Fluids *)
Lemma reads_sum : forall l l', Forall2 reads l l' -> reads (rsum l) (xsum l').
Proof. intros l l' H. induction H; cbn [rsum xsum]; auto with xr. Qed.
Lemma forall2_map : forall {A B C D} (P : A -> C -> Prop) (Q : B -> D -> Prop) f g l l',
  Forall2 P l l' -> (forall x y, P x y -> Q (f x) (g y)) -> Forall2 Q (map f l) (map g l').
Proof. intros A B C D P Q f g l l' H F. induction H; cbn [map]; constructor; auto. Qed.
Lemma forall2_combine : forall {A B C D} (P : A -> C -> Prop) (Q : B -> D -> Prop) l l' m m',
  Forall2 P l l' -> Forall2 Q m m' -> Forall2 (prel P Q) (combine l m) (combine l' m').
Proof.
  intros A B C D P Q l l' m m' H. revert m m'. induction H as [|x y l l' Hx H IH]; intros m m' G; cbn [combine]; [constructor|].
  destruct G as [|u v m m' Hu G]; constructor; [split; assumption|apply IH, G].
Qed.
Lemma reads_saturations : forall l l', Forall2 reads l l' ->
  Forall2 reads (sum_saturations_to_one l) (x_sum_saturations_to_one l').
Proof.
  intros l l' H. unfold sum_saturations_to_one, x_sum_saturations_to_one.
  pose proof (reads_sum _ _ H) as T. rewrite (reads_ltb 0 (rsum l)) by auto with xr.
  assert (M : reads (Rmax (rsum l) (1 / 10 ^ 15)) (xmax (xsum l') (XFin (1 / 10 ^ 15)))) by auto with xr.
  assert (N : Rmax (rsum l) (1 / 10 ^ 15) <> 0) by (pose proof (Rmax_r (rsum l) (1 / 10 ^ 15)); lra).
  eapply forall2_map; [exact H|]. intros x a Ha. apply reads_div; [|exact M|exact N].
  destruct (Rlt_dec 0 (rsum l)); [exact Ha|apply reads_fin].
Qed.
Lemma reads_densities : forall fs fs' l l', Forall2 reads_material fs fs' -> Forall2 reads l l' ->
  reads (mix_densities fs l) (x_mix_densities fs' l').
Proof.
  intros fs fs' l l' F H. apply reads_sum. eapply forall2_map; [eapply forall2_combine; eassumption|].
  intros [m x] [m' a] [Hm Hx]. cbn [fst snd] in *. apply reads_mul; [apply Hm|exact Hx].
Qed.
Lemma xs_bulk_moduli : forall fs fs' l l', Forall2 reads_material fs fs' -> Forall2 reads l l' ->
  sim reads (mix_bulk_moduli fs l) (x_mix_bulk_moduli fs' l').
Proof.
  intros fs fs' l l' F H. unfold mix_bulk_moduli, x_mix_bulk_moduli.
  pose proof (forall2_combine _ _ _ _ _ _ H F) as C. destruct C as [|[x m] [a m'] c c' Hc C]; [right; reflexivity|].
  assert (S : sim reads (rsum_res (map (fun sf => np_div (fst sf) (bulk (snd sf))) ((x, m) :: c)))
                (Ok (xsum (map (fun sf => (fst sf / x_bulk (snd sf))%xnum) ((a, m') :: c'))))).
  { assert (G : Forall2 (prel reads reads_material) ((x, m) :: c) ((a, m') :: c')) by (constructor; assumption).
    revert G. generalize ((x, m) :: c) ((a, m') :: c'). clear. intros c c' G.
    induction G as [|[x m] [a m'] c c' [Hx Hm] G IH]; cbn [map rsum_res xsum fst snd] in *; [apply rrel_ok, reads_fin|].
    unfold np_div at 1. destruct (Req_EM_T (bulk m) 0) as [E|N]; [reflexivity|]. cbn [bind].
    destruct (rsum_res _) as [t|e]; cbn [bind]; cbn in IH; [|exact IH].
    apply rrel_ok, reads_add; [apply reads_div; [exact Hx|apply Hm|exact N]|exact IH]. }
  revert S. generalize (xsum (map (fun sf => (fst sf / x_bulk (snd sf))%xnum) ((a, m') :: c'))).
  generalize (rsum_res (map (fun sf => np_div (fst sf) (bulk (snd sf))) ((x, m) :: c))).
  intros [t|e] u S; cbn [bind]; cbn in S; [|exact S].
  unfold np_div. destruct (Req_EM_T t 0); [reflexivity|]. apply rrel_ok, reads_div; auto with xr.
Qed.
Lemma xs_wood : forall kd fs fs' l l', Forall2 reads_material fs fs' -> Forall2 reads l l' ->
  sim reads_material (wood_fluid_mixing fs l) (x_wood_fluid_mixing kd fs' l').
Proof.
  intros kd fs fs' l l' F H. unfold wood_fluid_mixing, x_wood_fluid_mixing. cbv zeta. apply reads_saturations in H.
  eapply rrel_bind; [apply xs_bulk_moduli; eassumption|]. intros k a Hk.
  apply xs_of_moduli; [exact Hk|apply reads_fin|apply reads_densities; assumption].
Qed.
Lemma forall2_length : forall {A B} (P : A -> B -> Prop) l l', Forall2 P l l' -> length l = length l'.
Proof. intros A B P l l' H. induction H; cbn; congruence. Qed.
Lemma xs_brie : forall kd ks fs fs' l l' gs gs' g g' e, Forall2 reads_material fs fs' -> Forall2 reads l l' ->
  Forall2 reads_material gs gs' -> Forall2 reads g g' ->
  sim reads_material (brie_fluid_mixing fs l gs g e) (x_brie_fluid_mixing kd ks fs' l' gs' g' e).
Proof.
  intros kd ks fs fs' l l' gs gs' g g' e F H G S. unfold brie_fluid_mixing, x_brie_fluid_mixing.
  rewrite <- (forall2_length _ _ _ F), <- (forall2_length _ _ _ H), <- (forall2_length _ _ _ G), <- (forall2_length _ _ _ S).
  destruct (negb _); [right; reflexivity|]. destruct (negb _); [right; reflexivity|].
  pose proof (xs_wood kd _ _ _ _ F H) as W1. pose proof (xs_wood kd _ _ _ _ G S) as W2. pose proof (reads_sum _ _ H) as T.
  destruct F as [|f f' fs fs' Hf F], G as [|u u' gs gs' Hu G]; [right; reflexivity|exact W2|exact W1|].
  eapply rrel_bind; [exact W1|]. intros liq liq' Hl. eapply rrel_bind; [exact W2|]. intros gas gas' Hg. cbv zeta.
  eapply rrel_bind; [apply xs_pow, T|]. intros w w' Hw.
  apply xs_of_moduli; [|apply reads_fin|].
  - destruct Hl as (B1 & _), Hg as (B2 & _). auto with xr.
  - apply reads_densities; (apply Forall2_cons; [|apply Forall2_cons; [|apply Forall2_nil]]); auto with xr.
Qed.
Lemma xs_gassman : forall kd km kf phi a b c p, reads kd a -> reads km b -> reads kf c -> reads phi p ->
  sim reads (gassman_equation kd km kf phi) (x_gassman_equation a b c p).
Proof.
  intros kd km kf phi a b c p Ha Hb Hc Hp. unfold gassman_equation, x_gassman_equation.
  rewrite (reads_eqb phi 0 p (XFin 0) Hp (reads_fin 0)). destruct (Req_EM_T phi 0); [apply rrel_ok, Hb|].
  rewrite (reads_eqb kd km a b Ha Hb). destruct (Req_EM_T kd km); [apply rrel_ok, Hb|].
  eapply rrel_bind; [apply xs_py_div; auto with xr|]. intros x x' Hx.
  eapply rrel_bind; [apply xs_py_div; auto with xr|]. intros y y' Hy. cbv zeta.
  assert (D : reads (x + y) (x' + y')%xnum) by auto with xr.
  rewrite (reads_ltb (x + y) 0 _ (XFin 0) D (reads_fin 0)). destruct (Rlt_dec (x + y) 0); [right; reflexivity|].
  eapply rrel_bind; [apply xs_py_div; auto with xr|]. intros q q' Hq. apply rrel_ok. auto with xr.
Qed.
Lemma xs_substitution : forall kd d m f phi d' m' f' p, reads_material d d' -> reads_material m m' -> reads_material f f' -> reads phi p ->
  sim reads_material (fluid_substitution d m f phi) (x_fluid_substitution kd d' m' f' p).
Proof.
  intros kd d m f phi d' m' f' p Hd Hm Hf Hp. unfold fluid_substitution, x_fluid_substitution.
  destruct Hd as (D1 & D2 & D3 & _), Hm as (M1 & _), Hf as (F1 & _ & F3 & _).
  eapply rrel_bind; [apply xs_gassman; eassumption|]. intros k k' Hk. apply xs_of_moduli; auto with xr.
Qed.

(** ** Polynomials *)
Lemma reads_np_polyval : forall p x a, reads x a -> reads (np_polyval p x) (x_np_polyval p a).
Proof.
  intros p x a Ha. unfold np_polyval, x_np_polyval. assert (H : reads 0 (XFin 0)) by apply reads_fin. revert H.
  generalize (XFin 0). generalize 0. induction p as [|c p IH]; intros y b Hb; cbn [fold_left]; [exact Hb|]. apply IH. auto with xr.
Qed.
Lemma reads_poly_eval : forall x a l l', reads x a -> Forall2 reads l l' -> reads (poly_eval x l) (x_poly_eval a l').
Proof.
  intros x a l l' Ha H. unfold poly_eval. induction H as [|c c' l l' Hc H IH]; cbn [fold_right x_poly_eval]; [apply reads_fin|].
  destruct H as [|d d' l l' Hd H].
  - cbn [fold_right]. replace (c + 0 * x) with (c + x * 0) by ring. auto with xr.
  - auto with xr.
Qed.
Lemma reads_map2 : forall f g l m l' m', Forall2 reads l l' -> Forall2 reads m m' ->
  (forall x y a b, reads x a -> reads y b -> reads (f x y) (g a b)) -> Forall2 reads (map2 f l m) (xmap2 g l' m').
Proof.
  intros f g l m l' m' H. revert m m'. induction H as [|x a l l' Hx H IH]; intros m m' G F; [constructor|].
  destruct G as [|y b m m' Hy G]; constructor; [apply F; assumption|apply IH; assumption].
Qed.
Lemma reads_poly_rows : forall x a c, reads x a -> Forall2 reads (poly_rows x c) (x_poly_rows a (map (map XFin) c)).
Proof.
  assert (I : forall l, Forall2 reads l (map XFin l)) by (induction l; constructor; auto with xr).
  intros x a c Ha. induction c as [|row c IH]; [constructor|]. destruct c as [|row' c].
  - cbn [poly_rows map x_poly_rows]. rewrite map_map. induction row as [|y row IHr]; cbn [map]; constructor; [|exact IHr].
    replace y with (y + x * 0) at 1 by ring. auto with xr.
  - change (poly_rows x (row :: row' :: c)) with (map2 (fun a acc => a + acc * x) row (poly_rows x (row' :: c))).
    change (x_poly_rows a (map (map XFin) (row :: row' :: c))) with
      (xmap2 (fun u acc => (u + acc * a)%xnum) (map XFin row) (x_poly_rows a (map (map XFin) (row' :: c)))).
    apply reads_map2; [apply I|exact IH|]. intros. auto with xr.
Qed.
Lemma xs_fit_property : forall x v a b c, reads x a -> reads v b -> sim reads (fit_property x v c) (x_fit_property a b c).
Proof.
  intros x v a b [m|] Ha Hb; cbn [fit_property x_fit_property]; [|right; reflexivity]. unfold polyval2d, x_polyval2d.
  pose proof (reads_poly_rows x a m Ha) as H. destruct H as [|y d l l' Hy H]; [right; reflexivity|].
  apply rrel_ok, reads_poly_eval; [exact Hb|constructor; assumption].
Qed.
Lemma xs_polyval_material : forall v m c v' m', reads v v' -> reads_material m m' ->
  sim reads_material (polyval_material v m c) (x_polyval_material v' m' c).
Proof.
  intros v m c v' m' Hv (M1 & M2 & M3 & M4 & M5). unfold polyval_material, x_polyval_material.
  destruct (uses_moduli c); (eapply rrel_bind; [apply xs_fit_property; eassumption|]); intros a a' Ha;
    (eapply rrel_bind; [apply xs_fit_property; eassumption|]); intros b b' Hb;
    (eapply rrel_bind; [apply xs_fit_property; eassumption|]); intros d d' Hd;
    [apply xs_of_moduli|apply xs_of_velocities]; assumption.
Qed.

(** ** Fits *)
Lemma xs_column : forall r i, sim eq (column r i) (column r i).
Proof. intros r i. destruct (column r i); [reflexivity|right; reflexivity]. Qed.
Ltac xcol := eapply rrel_bind; [apply xs_column|]; intros ? ? <-.
Lemma xs_polyfit_row : forall p a r, reads p a -> sim reads (polyfit_row p r) (x_polyfit_row a r).
Proof. intros p a [|c r] H; [right; reflexivity|]. apply rrel_ok, reads_np_polyval, H. Qed.
Lemma xs_expfit_row : forall p a r, reads p a -> sim reads (expfit_row p r) (x_expfit_row a r).
Proof.
  intros p a r H. unfold expfit_row, x_expfit_row. do 3 xcol. unfold np_div.
  destruct (Req_EM_T _ 0) as [E|N]; [reflexivity|]. cbn [bind]. apply rrel_ok.
  apply reads_add; [apply reads_fin|]. apply reads_mul; [apply reads_fin|]. apply reads_exp, reads_div; auto with xr.
Qed.
Lemma xs_logfit_row : forall p a r, reads p a -> sim reads (logfit_row p r) (x_logfit_row a r).
Proof.
  intros p a r H. unfold logfit_row, x_logfit_row. do 2 xcol. unfold np_log.
  destruct (Rlt_dec 0 p) as [P|P]; [|reflexivity]. cbn [bind]. destruct H as [->|[-> ->]]; [|lra]. cbn [x_log10].
  destruct (Rlt_dec 0 p); [|contradiction]. apply rrel_ok. auto with xr.
Qed.
Lemma xs_powerfit_row : forall p a r, reads p a -> sim reads (powerfit_row p r) (x_powerfit_row a r).
Proof.
  intros p a r H. unfold powerfit_row, x_powerfit_row. xcol. eapply rrel_bind; [apply xs_column|]. intros c ? <-.
  pose proof (xs_pow Scalar p a c H) as S. cbn [x_power] in S.
  destruct (np_pow p c) as [z|e]; cbn [bind]; cbn in S; [|exact S]. apply rrel_ok. auto with xr.
Qed.
Definition reads3 : R * R * R -> xnum * xnum * xnum -> Prop := prel (prel reads reads) reads.
Lemma xs_three : forall f g rows, (forall r, sim reads (f r) (g r)) -> sim reads3 (three f rows) (x_three g rows).
Proof.
  intros f g [[a b] c] H. unfold three, x_three.
  eapply rrel_bind; [apply H|]. intros. eapply rrel_bind; [apply H|]. intros.
  eapply rrel_bind; [apply H|]. intros. apply rrel_ok. repeat split; assumption.
Qed.
Lemma xs_rows : forall a b c, sim eq (coefficient_rows a b c) (coefficient_rows a b c).
Proof. intros a b c. destruct (coefficient_rows a b c); [reflexivity|right; reflexivity]. Qed.
Lemma xs_eval : forall md p porosity mineral a, is_fit md -> reads p a ->
  sim reads3 (eval_model md p porosity mineral) (x_eval_model md a).
Proof.
  intros md p porosity mineral a F H. destruct md; try contradiction; cbn [eval_model x_eval_model];
    (eapply rrel_bind; [apply xs_rows|]; intros rows ? <-); apply xs_three; intros r.
  - apply xs_polyfit_row, H. - apply xs_expfit_row, H. - apply xs_logfit_row, H. - apply xs_powerfit_row, H.
Qed.
Lemma reads_tiny : forall x a, reads x a -> x_tiny a = tiny_value x.
Proof.
  intros x a H. unfold x_tiny, tiny_value. apply reads_abs in H.
  rewrite (reads_ltb _ _ _ _ H (reads_fin _)), (reads_eqb _ _ _ _ H (reads_fin _)).
  destruct (Rlt_dec (Rabs x) (1 / 10 ^ 20)), (Req_EM_T (Rabs x) (1 / 10 ^ 20)), (Rle_dec (Rabs x) (1 / 10 ^ 20)); cbn; lra || reflexivity.
Qed.
Lemma tiny_value_0 : forall x, tiny_value x = false -> x <> 0.
Proof.
  intros x H ->. unfold tiny_value in H. rewrite Rabs_R0 in H. destruct (Rle_dec 0 (1 / 10 ^ 20)); [discriminate|lra].
Qed.
Lemma xs_dependency : forall kd md m p ref porosity mineral m' a b, is_fit md -> reads_material m m' -> reads p a -> reads ref b ->
  sim reads_material (pressure_dependency md m p ref porosity mineral) (x_pressure_dependency kd md m' a b).
Proof.
  intros kd md m p ref porosity mineral m' a b F (M1 & M2 & M3 & M4 & M5) Ha Hb.
  assert (G : sim reads_material (generic_dependency md m p ref porosity mineral) (x_generic_dependency kd md m' a b)).
  { unfold generic_dependency, x_generic_dependency.
    eapply rrel_bind; [apply xs_eval; eassumption|]. intros [[rd rp] rs] [[rd' rp'] rs'] [[R1 R2] R3].
    eapply rrel_bind; [apply xs_eval; eassumption|]. intros [[ed ep] es] [[ed' ep'] es'] [[E1 E2] E3]. cbn [fst snd] in *.
    rewrite (reads_tiny rd), (reads_tiny rp), (reads_tiny rs) by assumption.
    destruct (tiny_value rd) eqn:T1; [right; reflexivity|]. destruct (tiny_value rp) eqn:T2; [right; reflexivity|].
    destruct (tiny_value rs) eqn:T3; [right; reflexivity|]. cbn [orb].
    apply tiny_value_0 in T1, T2, T3.
    assert (Q1 : reads (ed / rd) (ed' / rd')%xnum) by (apply reads_div; assumption).
    assert (Q2 : reads (ep / rp) (ep' / rp')%xnum) by (apply reads_div; assumption).
    assert (Q3 : reads (es / rs) (es' / rs')%xnum) by (apply reads_div; assumption).
    destruct (model_uses_moduli md); [apply xs_of_moduli|apply xs_of_velocities]; auto with xr. }
  destruct md; try contradiction; try exact G. clear G. cbn [pressure_dependency x_pressure_dependency].
  unfold powerfit_dependency, x_powerfit_dependency.
  eapply rrel_bind; [apply xs_eval; eassumption|]. intros [[rd rp] rs] [[rd' rp'] rs'] [[R1 R2] R3].
  eapply rrel_bind; [apply xs_eval; eassumption|]. intros [[ed ep] es] [[ed' ep'] es'] [[E1 E2] E3]. cbn [fst snd] in *.
  unfold np_div. destruct (Req_EM_T (vs m) 0) as [Z|Z].
  { cbn [bind]. match goal with |- sim _ _ ?s => destruct s; [reflexivity|left; reflexivity] end. }
  cbn [bind]. cbv zeta.
  assert (Q : reads ((vp m / vs m + (es - rs)) ^ 2 - 4 / 3) (xsquare (x_vp m' / x_vs m' + (es' - rs')) - XFin (4 / 3))%xnum).
  { apply reads_sub; [|apply reads_fin]. apply reads_square, reads_add; [apply reads_div; assumption|auto with xr]. }
  set (t := (vp m / vs m + (es - rs)) ^ 2 - 4 / 3) in *.
  set (t' := (xsquare (x_vp m' / x_vs m' + (es' - rs')) - XFin (4 / 3))%xnum) in *.
  rewrite (reads_ltb _ _ _ _ Q (reads_fin _)), (reads_eqb _ _ _ _ Q (reads_fin _)).
  destruct (Rle_dec t (1 / 10 ^ 20)) as [L|L].
  - destruct (Rlt_dec t (1 / 10 ^ 20)); [right; reflexivity|]. destruct (Req_EM_T t (1 / 10 ^ 20)); [right; reflexivity|lra].
  - destruct (Rlt_dec t (1 / 10 ^ 20)); [lra|]. destruct (Req_EM_T t (1 / 10 ^ 20)); [lra|]. cbn [orb].
    assert (reads (bulk m + (ep - rp)) (x_bulk m' + (ep' - rp'))%xnum) by auto with xr.
    apply xs_of_moduli; [assumption| |auto with xr]. apply reads_div; [assumption|exact Q|lra].
Qed.

Lemma sim_agrees : forall {A B} (P : A -> B -> Prop) r s, sim P r s -> agrees P r s.
Proof.
  intros A B P [a|e] [b|e'] H; cbn in H; split; intros x E; try discriminate; injection E as <-; try contradiction.
  - eauto.
  - intros N. destruct H; congruence.
Qed.

(* ------------------------------------------------------------------ *)
(** ** Which materials are accepted *)

Ltac dec := repeat match goal with
  | |- context [if Req_EM_T ?a ?b then _ else _] => destruct (Req_EM_T a b); try lra; try (exfalso; congruence)
  | |- context [if Rlt_dec ?a ?b then _ else _] => destruct (Rlt_dec a b); try lra
  | |- context [if Rle_dec ?a ?b then _ else _] => destruct (Rle_dec a b); try lra
  end.
Lemma xltb_below : forall a, xltb a (XFin 0) = true <-> below_zero a.
Proof.
  intros [x| |[]|]; cbn; split; intros H; try contradiction; try discriminate; try reflexivity; try exact H.
  - destruct (Rlt_dec x 0); [assumption|discriminate]. - destruct (Rlt_dec x 0); [reflexivity|contradiction].
  - destruct (Rlt_dec 0 0); [lra|discriminate].
Qed.
Lemma xltb_not_below : forall a, ~ below_zero a -> xltb a (XFin 0) = false.
Proof. intros a H. destruct (xltb a (XFin 0)) eqn:E; [|reflexivity]. apply xltb_below in E. contradiction. Qed.

(** Not below zero: zero, a positive number, infinity or nan. *)
Inductive up : xnum -> Prop :=
  | up_zero : up (XFin 0)
  | up_negzero : up XNegZero
  | up_fin : forall x, 0 < x -> up (XFin x)
  | up_inf : up (XInf false)
  | up_nan : up XNan.
Lemma up_iff : forall a, up a <-> ~ below_zero a.
Proof.
  intros a. split.
  - intros [| |x H| |]; cbn; try tauto; lra.
  - destruct a as [x| |[]|]; cbn; intros H; [|apply up_negzero|exfalso; apply H; reflexivity|apply up_inf|apply up_nan].
    destruct (Req_dec x 0) as [->|N]; [apply up_zero|]. apply up_fin. lra.
Qed.
Lemma signed_pos : forall s x, 0 < x -> signed s x = XFin x.
Proof. intros s x H. unfold signed. dec. reflexivity. Qed.
Lemma xfin_div_pos : forall x y, 0 < x -> 0 < y -> (XFin x / XFin y)%xnum = XFin (x / y).
Proof.
  intros x y Hx Hy. cbn. dec. cbn. apply signed_pos. unfold Rdiv. apply Rmult_lt_0_compat; [assumption|apply Rinv_0_lt_compat; assumption].
Qed.

Lemma root_up : forall kd a, kd <> Python -> exists b, x_root kd a = Ok b /\ up b.
Proof.
  intros kd [x| |[]|] N; destruct kd; try contradiction; cbn; dec; eexists; (split; [reflexivity|]);
    apply up_iff; cbn; first [pose proof (sqrt_pos x); lra | lra | tauto | discriminate].
Qed.

(** What is not less than a positive number. *)
Definition from (x : R) (a : xnum) : Prop := a = XNan \/ a = XInf false \/ exists y, a = XFin y /\ x <= y.
Lemma modulus_up : forall k mu, up k -> up mu -> up (k + XFin (4 / 3) * mu)%xnum.
Proof.
  intros k mu Hk Hm. apply up_iff.
  destruct Hm as [| |mu Hm| |]; destruct Hk as [| |k Hk| |]; unfold xmul, signed; cbn; dec; cbn; try tauto; try lra; try discriminate.
Qed.
Lemma modulus_from : forall k mu, up k -> 0 < mu -> from (4 / 3 * mu) (k + XFin (4 / 3) * XFin mu)%xnum.
Proof.
  intros k mu Hk Hm. unfold from, xmul. cbn [xval xsign xorb]. dec. cbn [xorb]. rewrite signed_pos by nra.
  destruct Hk as [| |k Hk| |]; cbn; auto; right; right; eexists; (split; [reflexivity|]); lra.
Qed.
Lemma modulus_inf : forall k, up k -> forall x, from x (k + XFin (4 / 3) * XInf false)%xnum.
Proof.
  intros k Hk x. unfold from. unfold xmul. cbn [xzero xval xsign]. dec. destruct Hk as [| |k Hk| |]; cbn; auto.
Qed.
Lemma vel_up : forall kd k mu d, up k -> up mu -> up d -> kd <> Python \/ xzero d = false ->
  exists p s, x_primary_velocity kd k mu d = Ok p /\ x_secondary_velocity kd mu d = Ok s /\ up p /\ up s /\
    xltb p (XFin (sqrt (4 / 3)) * s) = false.
Proof.
  assert (S : 0 < sqrt (4 / 3)) by (apply sqrt_lt_R0; lra).
  assert (G : forall p s, up p -> up s -> s = XNan \/ s = XFin 0 \/ s = XNegZero -> xltb p (XFin (sqrt (4 / 3)) * s) = false).
  { intros p s Hp _ [->|[->| ->]]; destruct Hp as [| |p Hp| |]; cbn; unfold signed; dec; cbn; dec; reflexivity. }
  intros kd k mu d Hk Hm Hd N. pose proof (modulus_up k mu Hk Hm) as Ha.
  assert (F : (exists x, mu = XFin x /\ 0 < x /\ from (4 / 3 * x) (k + XFin (4 / 3) * mu)%xnum) \/
              (mu = XInf false /\ forall x, from x (k + XFin (4 / 3) * mu)%xnum) \/ (mu = XFin 0 \/ mu = XNegZero \/ mu = XNan)).
  { destruct Hm as [| |mu Hm| |]; eauto 6.
    - left. exists mu. split; [reflexivity|]. split; [assumption|]. apply modulus_from; assumption.
    - right; left. split; [reflexivity|]. apply modulus_inf. assumption. }
  unfold x_primary_velocity, x_secondary_velocity. revert Ha F. generalize (k + XFin (4 / 3) * mu)%xnum. intros a Ha F.
  clear k Hk.
  assert (R : forall b c, up b -> up c -> (xzero c = false \/ kd <> Python) -> exists q, x_div kd b c = Ok q /\ exists r, x_root kd q = Ok r /\ up r).
  { intros b c Hb Hc Hn. destruct (x_div kd b c) as [q|e] eqn:E.
    - exists q. split; [reflexivity|]. destruct kd; [|apply root_up; discriminate..].
      destruct Hn as [Hn|Hn]; [|congruence]. cbn in E. rewrite Hn in E. injection E as <-.
      destruct Hc as [| |c Hc| |]; try (cbn in Hn; revert Hn; dec; discriminate); destruct Hb as [| |b Hb| |];
        unfold xdiv; cbn [xval xsign xorb]; dec; unfold signed; dec; cbn [xorb];
        try (cbn; dec; eexists; split; [reflexivity|]; rewrite ?sqrt_0; first [apply up_nan|apply up_inf|apply up_zero]).
      assert (0 < b / c) by (unfold Rdiv; apply Rmult_lt_0_compat; [assumption|apply Rinv_0_lt_compat; assumption]).
      cbn. dec. eexists; split; [reflexivity|]. apply up_fin, sqrt_lt_R0. assumption.
    - exfalso. destruct kd; cbn in E; [|discriminate..]. destruct (xzero c); [|discriminate]. intuition congruence. }
  destruct (R a d Ha Hd ltac:(tauto)) as (q & Eq & p & Ep & Up). destruct (R mu d Hm Hd ltac:(tauto)) as (q' & Eq' & s & Es & Us).
  exists p, s. rewrite Eq, Eq'. cbn [bind]. repeat (split; [assumption|]).
  assert (Q : q = (a / d)%xnum /\ q' = (mu / d)%xnum).
  { unfold x_div in Eq, Eq'. destruct kd; try (split; congruence). destruct (xzero d); [discriminate|]. split; congruence. }
  destruct Q as [-> ->]. clear R Eq Eq'.
  assert (P : forall x, x <> 0 -> xzero (XFin x) = false) by (intros; cbn; dec; reflexivity).
  destruct F as [(x & -> & Hx & F)|[[-> F]|F]].
  - destruct Hd as [| |d Hd| |].
    + assert (E : (XFin x / XFin 0)%xnum = XInf false) by (cbn; dec; reflexivity). rewrite E in Es. injection Es as <-.
      destruct F as [->|[->|(y & -> & Hy)]].
      * injection Ep as <-. reflexivity.
      * cbn in Ep. revert Ep. dec. cbn. intros Ep. injection Ep as <-. cbn; dec; reflexivity.
      * assert (E' : (XFin y / XFin 0)%xnum = XInf false) by (cbn; dec; reflexivity). rewrite E' in Ep. injection Ep as <-. cbn; dec; reflexivity.
    + assert (E : (XFin x / XNegZero)%xnum = XInf true) by (cbn; dec; reflexivity). rewrite E in Es.
      destruct kd; [exfalso; destruct N as [N|N]; [congruence|cbn in N; revert N; dec; discriminate]|injection Es as <-..];
        [|apply G; auto].
      destruct F as [->|[->|(y & -> & Hy)]].
      * injection Ep as <-. reflexivity.
      * injection Ep as <-. cbn; dec; reflexivity.
      * assert (E' : (XFin y / XNegZero)%xnum = XInf true) by (cbn; dec; reflexivity). rewrite E' in Ep. injection Ep as <-. cbn; dec; reflexivity.
    + rewrite xfin_div_pos in Es by assumption.
      assert (0 < x / d) by (unfold Rdiv; apply Rmult_lt_0_compat; [assumption|apply Rinv_0_lt_compat; assumption]).
      cbn in Es. revert Es. dec. intros Es. injection Es as <-.
      destruct F as [->|[->|(y & -> & Hy)]].
      * injection Ep as <-. reflexivity.
      * cbn in Ep. revert Ep. dec. cbn. intros Ep. injection Ep as <-. cbn; dec; unfold signed; dec; reflexivity.
      * rewrite xfin_div_pos in Ep by lra.
        assert (0 < y / d) by (unfold Rdiv; apply Rmult_lt_0_compat; [lra|apply Rinv_0_lt_compat; assumption]).
        cbn in Ep. revert Ep. dec. intros Ep. injection Ep as <-.
        pose proof (sqrt_lt_R0 (x / d) ltac:(assumption)).
        unfold xmul. cbn [xval]. rewrite signed_pos by (apply Rmult_lt_0_compat; assumption). cbn.
        rewrite <- sqrt_mult by lra.
        assert (sqrt (4 / 3 * (x / d)) <= sqrt (y / d)).
        { apply sqrt_le_1_alt. replace (4 / 3 * (x / d)) with ((4 / 3 * x) * / d) by (field; lra). unfold Rdiv at 1.
          apply Rmult_le_compat_r; [left; apply Rinv_0_lt_compat; assumption|exact Hy]. }
        dec; reflexivity.
    + apply G; auto. cbn in Es. revert Es. dec. cbn. unfold signed. dec. cbn. dec. rewrite sqrt_0. intros Es. injection Es as <-. auto.
    + injection Es as <-. apply G; auto.
  - assert (F' : a = XNan \/ a = XInf false).
    { destruct a as [y| |b|].
      - exfalso. destruct (F (y + 1)) as [E|[E|(z & E & L)]]; try discriminate. injection E as ->. lra.
      - exfalso. destruct (F 0) as [E|[E|(z & E & L)]]; discriminate.
      - destruct (F 0) as [E|[E|(z & E & L)]]; try discriminate. auto.
      - auto. }
    destruct F' as [->| ->]; [injection Ep as <-; reflexivity|].
    rewrite Ep in Es. injection Es as ->. destruct Us as [| |s Us| |]; try reflexivity; try (apply G; auto; fail).
    + exfalso. destruct Hd as [| |d Hd| |]; cbn in Ep; revert Ep; dec; cbn; destruct kd; discriminate.
    + cbn; dec; reflexivity.
  - apply G; auto. destruct F as [->|[->| ->]]; [| |injection Es as <-; auto];
      destruct Hd as [| |d Hd| |]; cbn in Es; revert Es; unfold signed; dec; cbn; dec; rewrite ?sqrt_0; destruct kd; intros Es;
      try (injection Es as <-; auto).
Qed.
Lemma is_zero_xzero : forall a, xzero a = true <-> is_zero a.
Proof.
  intros a. unfold xzero, is_zero. split; intros H.
  - destruct a as [x| |b|]; cbn in H; try discriminate; [|right; auto]. destruct (Req_EM_T x 0) as [->|]; [left; reflexivity|discriminate].
  - destruct H as [->|[-> _]]; cbn; destruct (Req_EM_T 0 0); congruence.
Qed.
Lemma inf_accepted : forall kd k mu d, kd <> Python \/ ~ is_zero d ->
  (~ below_zero k /\ ~ below_zero mu /\ ~ below_zero d -> exists m, x_material_of_moduli kd k mu d = Ok m /\
     x_bulk m = k /\ x_shear m = mu /\ x_dens m = d) /\
  (below_zero k \/ below_zero mu \/ below_zero d -> x_material_of_moduli kd k mu d = Err ValueError).
Proof.
  intros kd k mu d N.
  assert (Z : match kd with Python => xzero d | _ => false end = false).
  { destruct kd; [|reflexivity..]. destruct (xzero d) eqn:E; [|reflexivity]. apply is_zero_xzero in E. tauto. }
  unfold x_material_of_moduli, x_moduli_guards, x_velocity_guards. rewrite Z. cbn [guard bind]. split.
  - intros (Hk & Hm & Hd). rewrite !xltb_not_below by assumption. cbn [guard bind].
    apply up_iff in Hk, Hm, Hd. destruct (vel_up kd k mu d Hk Hm Hd) as (p & s & -> & -> & Up & Us & L).
    { destruct kd; [right; exact Z|left; discriminate..]. }
    apply up_iff in Up, Us. cbn [bind]. rewrite !xltb_not_below by assumption. rewrite L. cbn [guard bind]. eexists. split; [reflexivity|]. auto.
  - intros H. destruct (xltb d (XFin 0)) eqn:E1; [reflexivity|]. cbn [guard bind].
    destruct (xltb k (XFin 0)) eqn:E2; [reflexivity|]. cbn [guard bind].
    destruct H as [H|[H|H]]; apply xltb_below in H; try congruence. rewrite H. reflexivity.
Qed.
Lemma x_material_inv : forall kd k mu d m, x_material_of_moduli kd k mu d = Ok m ->
  x_primary_velocity kd k mu d = Ok (x_vp m) /\ x_secondary_velocity kd mu d = Ok (x_vs m).
Proof.
  intros kd k mu d m E. unfold x_material_of_moduli in E.
  apply bind_ok in E; destruct E as (? & _ & E). apply bind_ok in E; destruct E as (? & _ & E).
  apply bind_ok in E; destruct E as (p & Ep & E). apply bind_ok in E; destruct E as (s & Es & E). apply bind_ok in E; destruct E as (? & _ & E).
  injection E as <-. auto.
Qed.
Lemma inf_python : forall k mu d, is_zero d -> x_material_of_moduli Python k mu d = Err ZeroDivisionError.
Proof. intros k mu d H. apply is_zero_xzero in H. unfold x_material_of_moduli. rewrite H. reflexivity. Qed.

Lemma weight_pos : forall k mu, 0 <= k -> 0 <= mu ->
  (XFin k + XFin (4 / 3) * XFin mu)%xnum = XFin (k + 4 / 3 * mu).
Proof.
  intros k mu Hk Hm. unfold xmul. cbn [xval xsign]. dec. cbn [xorb]. unfold signed. destruct (Req_EM_T (4 / 3 * mu) 0) as [E|E]; cbn; [|reflexivity].
  f_equal. lra.
Qed.
Lemma inf_zero_density : forall kd k mu, kd <> Python -> 0 <= k -> 0 <= mu ->
  exists m, x_material_of_moduli kd (XFin k) (XFin mu) (XFin 0) = Ok m /\
    x_bulk m = XFin k /\ x_shear m = XFin mu /\ x_dens m = XFin 0 /\
    x_vp m = (if Rlt_dec 0 (k + mu) then XInf false else XNan) /\
    x_vs m = (if Rlt_dec 0 mu then XInf false else XNan).
Proof.
  intros kd k mu N Hk Hm.
  assert (U : forall x, 0 <= x -> xltb (XFin x) (XFin 0) = false) by (intros; cbn; dec; reflexivity).
  unfold x_material_of_moduli, x_moduli_guards, x_velocity_guards, x_primary_velocity, x_secondary_velocity.
  replace (match kd with Python => xzero (XFin 0) | _ => false end) with false by (destruct kd; congruence).
  rewrite !U by lra. cbn [guard bind]. rewrite weight_pos by assumption.
  assert (D : forall x, 0 <= x -> x_div kd (XFin x) (XFin 0) = Ok (if Rlt_dec 0 x then XInf false else XNan)).
  { intros x Hx. destruct kd; [congruence|..]; cbn; dec; reflexivity. }
  rewrite !D by lra. cbn [bind].
  assert (S : 0 < sqrt (4 / 3)) by (apply sqrt_lt_R0; lra).
  destruct (Rlt_dec 0 mu); [destruct (Rlt_dec 0 (k + 4 / 3 * mu)); [|lra]; destruct (Rlt_dec 0 (k + mu)); [|lra]|
    destruct (Rlt_dec 0 (k + 4 / 3 * mu)), (Rlt_dec 0 (k + mu)); try lra]; destruct kd; try congruence; cbn; dec; cbn;
    eexists; (split; [reflexivity|]); repeat split.
Qed.

(** ** The default dry rock of pure pore *)
Lemma default_fits : forall m, 0 < dens m ->
  x_fit_property (XFin (dens m)) (XFin 1) (c_density default_rock) = Ok (XFin 0) /\
  x_fit_property (XFin (bulk m)) (XFin 1) (c_primary default_rock) = Ok (XFin 1600) /\
  x_fit_property (XFin (shear m)) (XFin 1) (c_secondary default_rock) = Ok (XFin 900).
Proof.
  intros m D.
  assert (H : forall x c y, y <> 0 -> fit_property x 1 c = Ok y -> x_fit_property (XFin x) (XFin 1) c = Ok (XFin y)).
  { intros x c y N E. pose proof (xs_fit_property x 1 _ _ c (reads_fin x) (reads_fin 1)) as S. rewrite E in S.
    destruct (x_fit_property (XFin x) (XFin 1) c) as [z|e]; cbn in S; [|contradiction]. destruct S as [->|[_ S]]; [reflexivity|contradiction]. }
  repeat split; [|apply H; [lra|]; cbn; unfold polyval2d; cbn; unfold poly_eval; cbn; f_equal; ring..].
  cbn. unfold x_polyval2d. cbn. unfold signed. dec. all: cbn; dec; cbn; unfold signed; dec; cbn; f_equal; f_equal; try lra.
  unfold signed. dec. f_equal. lra.
Qed.

Lemma inf_default_constant : forall m, 0 < dens m ->
  x_polyval Scalar (XFin 1) (x_of m) default_rock = Ok (mkX (XFin 1600) (XFin 900) (XFin 0) (XInf false) (XInf false)).
Proof.
  intros m D. destruct (default_fits m D) as (E1 & E2 & E3). cbn [x_polyval]. unfold x_polyval_material.
  change (uses_moduli default_rock) with true. cbv iota. unfold x_of. cbn [x_bulk x_shear x_dens].
  rewrite E1, E2, E3. cbn [bind].
  destruct (inf_zero_density Scalar 1600 900 ltac:(discriminate) ltac:(lra) ltac:(lra)) as (r & -> & R1 & R2 & R3 & R4 & R5).
  revert R4 R5. dec. intros R4 R5. destruct r. cbn in *. subst. reflexivity.
Qed.
Lemma inf_default_column : forall m, 0 < dens m ->
  x_polyval Array (XFin 1) (x_of m) default_rock = Ok (mkX XNan XNan (XFin 0) (XInf false) (XInf false)).
Proof.
  intros m D. pose proof (inf_default_constant m D) as E. cbn [x_polyval] in *. unfold x_polyval_row. rewrite E. cbn [bind x_dens x_vp x_vs].
  unfold x_material_of_velocities, x_moduli_guards, x_velocity_guards, x_shear_modulus, x_bulk_modulus, xsquare.
  assert (S : 0 < sqrt (4 / 3)) by (apply sqrt_lt_R0; lra).
  cbn; dec; cbn; dec; reflexivity.
Qed.
Lemma inf_saturated_constant : forall kd m f, 0 < dens m -> 1600 < bulk m -> 0 < bulk f < bulk m -> 0 < dens f ->
  exists s, x_fluid_substitution kd (mkX (XFin 1600) (XFin 900) (XFin 0) (XInf false) (XInf false)) (x_of m) (x_of f) (XFin 1) = Ok s /\
    x_dens s = XFin (dens f) /\ x_shear s = XFin 900 /\
    finite (x_vp s) /\ finite (x_vs s) /\ exists k, x_bulk s = XFin k /\ 1600 < k < bulk m.
Proof.
  intros kd m f D Km Kf Df. unfold x_fluid_substitution. cbn [x_bulk x_shear x_dens x_of].
  assert (G : exists k, gassman_equation 1600 (bulk m) (bulk f) 1 = Ok k /\ 1600 < k < bulk m).
  { set (a := 1600 / (bulk m - 1600)). set (b := bulk f / ((bulk m - bulk f) * 1)).
    assert (0 < a) by (apply Rdiv_lt_0_compat; lra). assert (0 < b) by (apply Rdiv_lt_0_compat; lra).
    exists ((a + b) / (1 + (a + b)) * bulk m). unfold gassman_equation. destruct (Req_EM_T 1 0); [lra|]. destruct (Req_EM_T 1600 (bulk m)); [lra|].
    rewrite !py_div_ok by lra. cbn [bind]. fold a b. destruct (Rlt_dec (a + b) 0); [lra|]. rewrite py_div_ok by lra. cbn [bind]. split; [reflexivity|].
    assert (A : a * (bulk m - 1600) = 1600) by (unfold a; field; lra). split.
    - apply (Rmult_lt_reg_r (1 + (a + b))); [lra|]. replace ((a + b) / (1 + (a + b)) * bulk m * (1 + (a + b))) with ((a + b) * bulk m) by (field; lra). nra.
    - apply (Rmult_lt_reg_r (1 + (a + b))); [lra|]. replace ((a + b) / (1 + (a + b)) * bulk m * (1 + (a + b))) with ((a + b) * bulk m) by (field; lra). nra. }
  destruct G as (k & Ek & Hk).
  pose proof (xs_gassman _ _ _ _ _ _ _ _ (reads_fin 1600) (reads_fin (bulk m)) (reads_fin (bulk f)) (reads_fin 1)) as S.
  rewrite Ek in S. destruct (x_gassman_equation _ _ _ _) as [k'|e]; cbn in S; [|contradiction]. destruct S as [->|[_ S]]; [|lra]. cbn [bind].
  replace (XFin 0 + XFin 1 * XFin (dens f))%xnum with (XFin (dens f)).
  2:{ cbn. unfold signed. dec. cbn. f_equal. lra. }
  assert (Z : ~ is_zero (XFin (dens f))) by (intros [Z|[Z _]]; [injection Z; lra|discriminate]).
  destruct (inf_accepted kd (XFin k) (XFin 900) (XFin (dens f)) (or_intror Z)) as [A _].
  destruct A as (s & Es & R1 & R2 & R3); [cbn; lra|].
  pose proof (xs_of_moduli kd _ _ _ _ _ _ (reads_fin k) (reads_fin 900) (reads_fin (dens f))) as S. rewrite Es in S.
  rewrite mat_of_moduli_ok in S by lra. cbn in S. destruct S as (_ & _ & _ & S4 & S5).
  exists s. split; [exact Es|]. repeat split; try assumption; [eexists; exact S4|eexists; exact S5|]. exists k. auto.
Qed.
Lemma inf_saturated_column : forall kd m f, 0 < dens m -> 0 < bulk f < bulk m -> 0 < dens f ->
  exists s, x_fluid_substitution kd (mkX XNan XNan (XFin 0) (XInf false) (XInf false)) (x_of m) (x_of f) (XFin 1) = Ok s /\
    x_dens s = XFin (dens f) /\ x_bulk s = XNan /\ x_shear s = XNan.
Proof.
  intros kd m f D Kf Df. unfold x_fluid_substitution. cbn [x_bulk x_shear x_dens x_of].
  replace (XFin 0 + XFin 1 * XFin (dens f))%xnum with (XFin (dens f)).
  2:{ cbn. unfold signed. dec. cbn. f_equal. lra. }
  assert (E : x_gassman_equation XNan (XFin (bulk m)) (XFin (bulk f)) (XFin 1) = Ok XNan).
  { unfold x_gassman_equation. cbn. unfold signed. dec. cbn. dec. cbn. rewrite signed_pos by lra. cbn; dec; reflexivity. }
  rewrite E. cbn [bind].
  assert (Z : ~ is_zero (XFin (dens f))) by (intros [Z|[Z _]]; [injection Z; lra|discriminate]).
  destruct (inf_accepted kd XNan XNan (XFin (dens f)) (or_intror Z)) as [A _].
  destruct A as (s & Es & R1 & R2 & R3); [cbn; tauto || lra|]. exists s. auto.
Qed.

(** ** Wood's mixture with a fluid without bulk modulus *)

(** What sums of nonnegative terms are made of. *)
Inductive term : xnum -> Prop :=
  | term_fin : forall x, 0 <= x -> term (XFin x)
  | term_inf : term (XInf false)
  | term_nan : term XNan.
Lemma xsum_nan : forall l, Forall term l -> In XNan l -> xsum l = XNan.
Proof.
  intros l H. induction H as [|a l Ha H IH]; intros I; [destruct I|]. cbn [xsum]. destruct I as [->|I]; [reflexivity|].
  rewrite (IH I). destruct Ha; reflexivity.
Qed.
Lemma xsum_inf : forall l, Forall term l -> ~ In XNan l -> In (XInf false) l -> xsum l = XInf false.
Proof.
  intros l H N I.
  assert (G : (exists x, xsum l = XFin x /\ ~ In (XInf false) l) \/ xsum l = XInf false).
  { clear I. induction H as [|a l Ha H IH]; [left; exists 0; split; [reflexivity|intros []]|]. cbn [xsum].
    destruct IH as [(x & E & F)|E]; [intros Q; apply N; right; exact Q| |].
    - rewrite E. destruct Ha as [y Hy| |]; [|right; reflexivity|exfalso; apply N; left; reflexivity].
      left. exists (y + x). split; [reflexivity|]. intros [Q|Q]; [discriminate|contradiction].
    - rewrite E. right. destruct Ha; [reflexivity..|exfalso; apply N; left; reflexivity]. }
  destruct G as [(x & _ & F)|G]; [contradiction|exact G].
Qed.
Lemma share_term : forall s k, 0 <= s -> 0 <= k -> 
  (XFin s / XFin k)%xnum = (if Req_EM_T k 0 then if Req_EM_T s 0 then XNan else XInf false else XFin (s / k)).
Proof.
  intros s k Hs Hk. cbn. dec; try reflexivity. unfold signed. cbn [xorb]. destruct (Req_EM_T (s / k) 0) as [E|E]; [rewrite E|]; reflexivity.
Qed.
Lemma xsum_fin : forall l, xsum (map XFin l) = XFin (rsum l).
Proof. induction l as [|x l IH]; cbn [map xsum rsum]; [reflexivity|]. rewrite IH. reflexivity. Qed.
Lemma xmul_fin : forall x y, 0 <= x -> 0 <= y -> (XFin x * XFin y)%xnum = XFin (x * y).
Proof.
  intros x y Hx Hy. unfold xmul. cbn [xval xsign]. dec. cbn [xorb]. unfold signed. destruct (Req_EM_T (x * y) 0) as [E|E]; [rewrite E|]; reflexivity.
Qed.
Lemma x_saturations_fin : forall l, Forall (fun s => 0 <= s) l ->
  x_sum_saturations_to_one (map XFin l) = map XFin (sum_saturations_to_one l).
Proof.
  intros l H. unfold x_sum_saturations_to_one, sum_saturations_to_one. rewrite xsum_fin, !map_map. apply map_ext_in. intros s I.
  rewrite Forall_forall in H. specialize (H s I).
  assert (M : xmax (XFin (rsum l)) (XFin (1 / 10 ^ 15)) = XFin (Rmax (rsum l) (1 / 10 ^ 15))).
  { cbn [xmax xltb xval]. unfold Rmax. destruct (Rlt_dec (rsum l) (1 / 10 ^ 15)), (Rle_dec (rsum l) (1 / 10 ^ 15)); try reflexivity; try lra.
    f_equal. lra. }
  rewrite M. pose proof (Rmax_r (rsum l) (1 / 10 ^ 15)) as P. cbn [xltb xval].
  destruct (Rlt_dec 0 (rsum l)); rewrite share_term by lra; destruct (Req_EM_T (Rmax (rsum l) (1 / 10 ^ 15)) 0); try lra; reflexivity.
Qed.
Lemma x_densities_fin : forall fs l, Forall (fun f => 0 <= dens f) fs -> Forall (fun s => 0 <= s) l ->
  x_mix_densities (map x_of fs) (map XFin l) = XFin (mix_densities fs l).
Proof.
  intros fs l F. unfold x_mix_densities, mix_densities. revert l. induction F as [|f fs Hf F IH]; intros l H; [reflexivity|].
  destruct H as [|s l Hs H]; [reflexivity|]. cbn [map combine xsum rsum fst snd x_of x_dens]. rewrite xmul_fin by assumption.
  rewrite (IH l H). reflexivity.
Qed.
Lemma x_shares_fin : forall fs l, Forall (fun f => 0 <= bulk f) fs -> Forall (fun s => 0 <= s) l ->
  map (fun sf => (fst sf / x_bulk (snd sf))%xnum) (combine (map XFin l) (map x_of fs)) =
  map (fun sf => if Req_EM_T (bulk (snd sf)) 0 then if Req_EM_T (fst sf) 0 then XNan else XInf false else XFin (fst sf / bulk (snd sf))) (combine l fs).
Proof.
  intros fs l F. revert l. induction F as [|f fs Hf F IH]; intros l H; [destruct l; reflexivity|].
  destruct H as [|s l Hs H]; [reflexivity|]. cbn [map combine fst snd x_of x_bulk]. rewrite share_term by assumption. rewrite (IH l H). reflexivity.
Qed.
Lemma saturations_map : forall l, 0 < rsum l ->
  sum_saturations_to_one l = map (fun s => s / Rmax (rsum l) (1 / 10 ^ 15)) l.
Proof. intros l H. unfold sum_saturations_to_one. apply map_ext. intros s. destruct (Rlt_dec 0 (rsum l)); [reflexivity|contradiction]. Qed.
Lemma combine_map_l : forall {A B C} (f : A -> B) (l : list A) (m : list C),
  combine (map f l) m = map (fun p => (f (fst p), snd p)) (combine l m).
Proof. intros A B C f l. induction l as [|x l IH]; intros [|y m]; cbn; [reflexivity..|]. rewrite IH. reflexivity. Qed.
Lemma densities_pos : forall fs l s f, Forall (fun f => 0 < dens f) fs -> Forall (fun s => 0 <= s) l -> In (s, f) (combine l fs) -> 0 < s ->
  0 < mix_densities fs l.
Proof.
  intros fs l s f F. unfold mix_densities. revert l. induction F as [|g fs Hg F IH]; intros l H I P; [destruct l; destruct I|].
  destruct H as [|t l Ht H]; [destruct I|]. cbn [combine map rsum fst snd] in *.
  assert (0 <= rsum (map (fun fs => dens (fst fs) * snd fs) (combine fs l))).
  { apply rsum_nonneg. clear -F H. revert l H. induction F as [|g fs Hg F IH]; intros l H; [constructor|].
    destruct H as [|t l Ht H]; cbn [combine map]; constructor; [cbn; nra|apply IH, H]. }
  destruct I as [E|I]; [injection E as -> ->; nra|]. pose proof (IH l H I P). nra.
Qed.
Lemma xs_share : forall fs l, Forall (fun f => 0 <= bulk f) fs -> Forall (fun s => 0 <= s) l -> combine l fs <> [] ->
  x_mix_bulk_moduli (map x_of fs) (map XFin l) = Ok (XFin 1 / xsum (map (fun sf => if Req_EM_T (bulk (snd sf)) 0 then
    if Req_EM_T (fst sf) 0 then XNan else XInf false else XFin (fst sf / bulk (snd sf))) (combine l fs)))%xnum.
Proof.
  intros fs l F H N. unfold x_mix_bulk_moduli. rewrite <- x_shares_fin by assumption.
  destruct fs, l; try (exfalso; apply N; reflexivity). reflexivity.
Qed.
Lemma shares_terms : forall fs l, Forall (fun f => 0 <= bulk f) fs -> Forall (fun s => 0 <= s) l ->
  Forall term (map (fun sf => if Req_EM_T (bulk (snd sf)) 0 then
    if Req_EM_T (fst sf) 0 then XNan else XInf false else XFin (fst sf / bulk (snd sf))) (combine l fs)).
Proof.
  intros fs l F. revert l. induction F as [|f fs Hf F IH]; intros l H; [destruct l; constructor|].
  destruct H as [|s l Hs H]; cbn [combine map fst snd]; constructor; [|apply IH, H].
  destruct (Req_EM_T (bulk f) 0); [destruct (Req_EM_T s 0); constructor|]. constructor.
  unfold Rdiv. apply Rmult_le_pos; [assumption|]. left. apply Rinv_0_lt_compat. lra.
Qed.
Lemma inf_wood_gen : forall kd fs l, kd <> Python -> Forall (fun f => 0 <= bulk f /\ 0 < dens f) fs -> Forall (fun s => 0 <= s) l ->
  0 < rsum l -> (exists s f, In (s, f) (combine l fs) /\ 0 < s) ->
  ((exists s f, In (s, f) (combine l fs) /\ bulk f = 0 /\ s = 0) ->
   exists m, x_wood_fluid_mixing kd (map x_of fs) (map XFin l) = Ok m /\ x_bulk m = XNan /\ x_vp m = XNan /\ finite (x_dens m)) /\
  ((exists s f, In (s, f) (combine l fs) /\ bulk f = 0 /\ 0 < s) ->
   (forall s f, In (s, f) (combine l fs) -> bulk f = 0 -> 0 < s) ->
   exists m, x_wood_fluid_mixing kd (map x_of fs) (map XFin l) = Ok m /\ x_bulk m = XFin 0 /\ x_vp m = XFin 0 /\ finite (x_dens m)).
Proof.
  intros kd fs l K F H T (s0 & f0 & I0 & P0).
  assert (Fb : Forall (fun f => 0 <= bulk f) fs) by (eapply Forall_impl; [|exact F]; cbn; tauto).
  assert (Fd : Forall (fun f => 0 < dens f) fs) by (eapply Forall_impl; [|exact F]; cbn; tauto).
  assert (Fd' : Forall (fun f => 0 <= dens f) fs) by (eapply Forall_impl; [|exact F]; cbn; intros; lra).
  pose (a := Rmax (rsum l) (1 / 10 ^ 15)). pose proof (Rmax_r (rsum l) (1 / 10 ^ 15)) as Pa. fold a in Pa.
  assert (A : 0 < a) by lra.
  assert (E : sum_saturations_to_one l = map (fun s => s / a) l) by (apply saturations_map, T).
  assert (H' : Forall (fun s => 0 <= s) (sum_saturations_to_one l)).
  { rewrite E. apply Forall_map. eapply Forall_impl; [|exact H]. cbn. intros s Hs. unfold Rdiv. apply Rmult_le_pos; [exact Hs|].
    left. apply Rinv_0_lt_compat, A. }
  assert (C : combine (sum_saturations_to_one l) fs = map (fun p => (fst p / a, snd p)) (combine l fs)) by (rewrite E; exact (combine_map_l (fun s => s / a) l fs)).
  assert (I : forall s f, In (s, f) (combine l fs) -> In (s / a, f) (combine (sum_saturations_to_one l) fs)).
  { intros s f Q. rewrite C. apply in_map_iff. exists (s, f). auto. }
  assert (Dp : 0 < mix_densities fs (sum_saturations_to_one l)).
  { eapply densities_pos; [exact Fd|exact H'|apply I, I0|]. apply Rdiv_lt_0_compat; assumption. }
  assert (N : combine (sum_saturations_to_one l) fs <> []) by (intros Q; apply (I s0 f0) in I0; rewrite Q in I0; destruct I0).
  unfold x_wood_fluid_mixing. cbv zeta. rewrite x_saturations_fin by exact H. rewrite x_densities_fin by assumption.
  rewrite xs_share by assumption. cbn [bind]. unfold x_fluid_of_bulk.
  pose proof (shares_terms fs _ Fb H') as Tm. rewrite C, map_map in *. cbn [fst snd] in *.
  set (d := mix_densities fs (sum_saturations_to_one l)) in *.
  assert (G : forall k, up k -> k = XNan \/ k = XFin 0 -> exists m, x_material_of_moduli kd k (XFin 0) (XFin d) = Ok m /\ x_bulk m = k /\ x_vp m = k /\
    finite (x_dens m)).
  { intros k _ [->| ->].
    - destruct (inf_accepted kd XNan (XFin 0) (XFin d) (or_introl K)) as [Q _]. destruct Q as (m & Em & R1 & R2 & R3); [cbn; lra|].
      exists m. repeat split; try assumption; [|rewrite R3; exists d; left; reflexivity].
      unfold x_material_of_moduli in Em. apply bind_ok in Em; destruct Em as (? & _ & Em). apply bind_ok in Em; destruct Em as (? & _ & Em).
      apply bind_ok in Em; destruct Em as (p & Ep & Em). apply bind_ok in Em; destruct Em as (s & _ & Em). apply bind_ok in Em; destruct Em as (? & _ & Em).
      injection Em as <-. cbn [x_vp]. unfold x_primary_velocity, x_div in Ep. destruct kd; [congruence|..]; cbn in Ep; congruence.
    - pose proof (xs_of_moduli kd _ _ _ _ _ _ (reads_fin 0) (reads_fin 0) (reads_fin d)) as Q. rewrite mat_of_moduli_ok in Q by lra.
      destruct (inf_accepted kd (XFin 0) (XFin 0) (XFin d) (or_introl K)) as [W _]. destruct W as (m & Em & R1 & R2 & R3); [cbn; lra|].
      exists m. split; [exact Em|]. split; [exact R1|]. split; [|rewrite R3; exists d; left; reflexivity].
      clear Q. unfold x_material_of_moduli in Em. apply bind_ok in Em; destruct Em as (? & _ & Em). apply bind_ok in Em; destruct Em as (? & _ & Em).
      apply bind_ok in Em; destruct Em as (p & Ep & Em). apply bind_ok in Em; destruct Em as (s & _ & Em). apply bind_ok in Em; destruct Em as (? & _ & Em).
      injection Em as <-. cbn [x_vp]. unfold x_primary_velocity in Ep. rewrite weight_pos in Ep by lra.
      replace (0 + 4 / 3 * 0) with 0 in Ep by ring.
      assert (Q : (XFin 0 / XFin d)%xnum = XFin 0) by (rewrite share_term by lra; destruct (Req_EM_T d 0); [lra|]; f_equal; field; lra).
      unfold x_div in Ep. rewrite Q in Ep. destruct kd; [congruence|..]; cbn [bind x_root] in Ep; destruct (Rlt_dec 0 0); try lra; rewrite sqrt_0 in Ep;
        injection Ep as <-; reflexivity. }
  split.
  - intros (s & f & J & Bf & Zs). rewrite xsum_nan; [apply G; [constructor|auto]|exact Tm|].
    apply in_map_iff. exists (s, f). split; [|exact J]. cbn [fst snd]. rewrite Zs, Bf.
    replace (0 / a) with 0 by (field; lra). destruct (Req_EM_T 0 0); congruence.
  - intros (s & f & J & Bf & Ps) Q. rewrite xsum_inf; [|exact Tm| |].
    + replace (XFin 1 / XInf false)%xnum with (XFin 0); [apply G; [constructor|auto]|]. cbn. unfold signed. dec. reflexivity.
    + intros W. apply in_map_iff in W. destruct W as ([s' f'] & W & J'). cbn [fst snd] in W.
      destruct (Req_EM_T (bulk f') 0) as [B|B]; [|discriminate]. specialize (Q s' f' J' B).
      assert (0 < s' / a) by (apply Rdiv_lt_0_compat; assumption). destruct (Req_EM_T (s' / a) 0); [lra|discriminate].
    + apply in_map_iff. exists (s, f). split; [|exact J]. cbn [fst snd]. rewrite Bf. destruct (Req_EM_T 0 0); [|congruence].
      assert (0 < s / a) by (apply Rdiv_lt_0_compat; assumption). destruct (Req_EM_T (s / a) 0); [lra|reflexivity].
Qed.

(** ** Fits by logarithm where a pressure is zero *)
(** a + b * -inf *)
Definition at_zero (b : R) : xnum := if Req_EM_T b 0 then XNan else XInf (if Rlt_dec b 0 then false else true).
Lemma logfit_zero : forall a b, x_logfit_row (XFin 0) [a; b] = Ok (at_zero b).
Proof.
  intros a b. unfold x_logfit_row, at_zero. cbn [column nth_error bind].
  replace (x_log10 (XFin 0)) with (XInf true) by (cbn; dec; reflexivity).
  unfold xmul. cbn [xzero xval xsign]. destruct (Req_EM_T b 0); [reflexivity|]. destruct (Rlt_dec b 0); reflexivity.
Qed.
Lemma logfit_pos : forall a b p, 0 < p -> exists z, x_logfit_row (XFin p) [a; b] = Ok z /\ reads (a + b * log10 p) z.
Proof.
  intros a b p P. unfold x_logfit_row. cbn [column nth_error bind]. cbn [x_log10]. destruct (Rlt_dec 0 p); [|contradiction].
  eexists. split; [reflexivity|]. unfold log10. auto with xr.
Qed.
Lemma log_eval_zero : forall fl a0 a1 b0 b1 c0 c1,
  x_eval_model (log_fit fl a0 a1 b0 b1 c0 c1) (XFin 0) = Ok (at_zero a1, at_zero b1, at_zero c1).
Proof. intros. unfold log_fit. cbn [x_eval_model c_density c_primary c_secondary coefficient_rows length Nat.eqb andb bind]. unfold x_three. rewrite !logfit_zero. reflexivity. Qed.
Lemma log_eval_pos : forall fl a0 a1 b0 b1 c0 c1 p, 0 < p -> exists d k mu,
  x_eval_model (log_fit fl a0 a1 b0 b1 c0 c1) (XFin p) = Ok (d, k, mu) /\
  reads (a0 + a1 * log10 p) d /\ reads (b0 + b1 * log10 p) k /\ reads (c0 + c1 * log10 p) mu.
Proof.
  intros fl a0 a1 b0 b1 c0 c1 p P. unfold log_fit. cbn [x_eval_model c_density c_primary c_secondary coefficient_rows length Nat.eqb andb bind]. unfold x_three.
  destruct (logfit_pos a0 a1 p P) as (d & -> & D). destruct (logfit_pos b0 b1 p P) as (k & -> & K). destruct (logfit_pos c0 c1 p P) as (mu & -> & M).
  cbn [bind]. eauto 8.
Qed.
Lemma not_tiny : forall x a, reads x a -> 1 / 10 ^ 20 < Rabs x -> x_tiny a = false.
Proof. intros x a H L. rewrite (reads_tiny x a H). unfold tiny_value. destruct (Rle_dec (Rabs x) (1 / 10 ^ 20)); [lra|reflexivity]. Qed.
Lemma zero_not_tiny : forall b, x_tiny (at_zero b) = false.
Proof. intros b. unfold at_zero, x_tiny. dec; reflexivity. Qed.
Lemma reads_nonzero : forall x a, reads x a -> x <> 0 -> a = XFin x.
Proof. intros x a [->|[_ ->]] N; [reflexivity|congruence]. Qed.

Lemma inf_logfit_zero : forall kd fl a0 a1 b0 b1 c0 c1 m ref, 0 < bulk m -> 0 < vp m -> 0 < ref -> 0 < b1 ->
  1 / 10 ^ 20 < Rabs (a0 + a1 * log10 ref) -> 1 / 10 ^ 20 < b0 + b1 * log10 ref -> 1 / 10 ^ 20 < Rabs (c0 + c1 * log10 ref) ->
  0 < dens m ->
  x_pressure_dependency kd (log_fit fl a0 a1 b0 b1 c0 c1) (x_of m) (XFin 0) (XFin ref) = Err ValueError.
Proof.
  intros kd fl a0 a1 b0 b1 c0 c1 m ref K V P B D1 D2 D3 D.
  cbn [x_pressure_dependency log_fit]. change (Logfit _) with (log_fit fl a0 a1 b0 b1 c0 c1). unfold x_generic_dependency.
  destruct (log_eval_pos fl a0 a1 b0 b1 c0 c1 ref P) as (rd & rp & rs & -> & Rd & Rp & Rs). rewrite log_eval_zero. cbn [bind].
  rewrite (not_tiny _ _ Rd D1), (not_tiny _ _ Rs D3), (not_tiny _ _ Rp) by (rewrite Rabs_pos_eq; lra). cbn [orb].
  apply reads_nonzero in Rp; [|lra]. subst rp.
  assert (Q : (at_zero b1 / XFin (b0 + b1 * log10 ref))%xnum = XInf true) by (unfold at_zero; dec; cbn; dec; reflexivity).
  rewrite Q. cbn [x_of x_bulk x_vp x_dens].
  assert (Q' : forall x, 0 < x -> (XFin x * XInf true)%xnum = XInf true) by (intros; cbn; dec; reflexivity).
  rewrite !Q' by assumption.
  destruct (model_uses_moduli _).
  - apply inf_accepted.
    + right. intros Z. apply is_zero_xzero in Z. revert Z. unfold at_zero.
      apply reads_nonzero in Rd; [|intros E; rewrite E, Rabs_R0 in D1; lra]. subst rd. dec; cbn; dec; cbn; dec; discriminate.
    + left. reflexivity.
  - unfold x_material_of_velocities, x_moduli_guards, x_velocity_guards. cbv zeta.
    destruct (xltb _ _); [reflexivity|]. destruct (xltb _ _); [reflexivity|]. destruct (xltb _ _); [reflexivity|]. reflexivity.
Qed.
Lemma inf_logfit_flat : forall kd fl a0 b0 c0 m ref, 0 < ref ->
  1 / 10 ^ 20 < Rabs a0 -> 1 / 10 ^ 20 < Rabs b0 -> 1 / 10 ^ 20 < Rabs c0 ->
  exists m', x_pressure_dependency kd (log_fit fl a0 0 b0 0 c0 0) (x_of m) (XFin 0) (XFin ref) = Ok m' /\
    x_bulk m' = XNan /\ x_shear m' = XNan /\ x_dens m' = XNan /\ x_vp m' = XNan /\ x_vs m' = XNan.
Proof.
  intros kd fl a0 b0 c0 m ref P D1 D2 D3.
  cbn [x_pressure_dependency log_fit]. change (Logfit _) with (log_fit fl a0 0 b0 0 c0 0). unfold x_generic_dependency.
  destruct (log_eval_pos fl a0 0 b0 0 c0 0 ref P) as (rd & rp & rs & -> & Rd & Rp & Rs). rewrite log_eval_zero. cbn [bind].
  rewrite (not_tiny _ _ Rd), (not_tiny _ _ Rp), (not_tiny _ _ Rs) by (rewrite Rmult_0_l, Rplus_0_r; assumption). cbn [orb].
  replace (at_zero 0) with XNan by (unfold at_zero; dec; reflexivity). cbn [x_of x_bulk x_vp x_dens x_shear x_vs].
  destruct (model_uses_moduli _); eexists.
  - destruct kd; (split; [cbn; reflexivity|]); repeat split.
  - split; [cbn; reflexivity|]; repeat split.
Qed.
Lemma inf_logfit_reference : forall kd fl a0 b0 b1 c0 c1 m p, 0 < bulk m -> 0 < shear m -> 0 < vp m -> 0 < vs m -> 0 < p -> 0 < b1 -> 0 < c1 ->
  0 < b0 + b1 * log10 p -> 0 < c0 + c1 * log10 p ->
  exists m', x_pressure_dependency kd (log_fit fl a0 0 b0 b1 c0 c1) (x_of m) (XFin p) (XFin 0) = Ok m' /\ x_dens m' = XNan /\
    match fl with
    | Moduli => is_zero (x_bulk m') /\ is_zero (x_shear m') /\ x_vp m' = XNan /\ x_vs m' = XNan
    | Velocity => is_zero (x_vp m') /\ is_zero (x_vs m') /\ x_bulk m' = XNan /\ x_shear m' = XNan
    end.
Proof.
  intros kd fl a0 b0 b1 c0 c1 m p K S V W P B C Fb Fc.
  cbn [x_pressure_dependency log_fit]. change (Logfit _) with (log_fit fl a0 0 b0 b1 c0 c1). unfold x_generic_dependency.
  destruct (log_eval_pos fl a0 0 b0 b1 c0 c1 p P) as (rd & rp & rs & -> & Rd & Rp & Rs). rewrite log_eval_zero. cbn [bind].
  rewrite !zero_not_tiny. cbn [orb]. apply reads_nonzero in Rp, Rs; [|lra..]. subst rp rs.
  assert (Q : forall x b, 0 < x -> 0 < b -> (XFin x / at_zero b)%xnum = XNegZero).
  { intros x b Hx Hb. unfold at_zero; dec; cbn; dec; cbn; unfold signed; dec; reflexivity. }
  rewrite !Q by assumption.
  assert (Q' : forall x, 0 < x -> (XFin x * XNegZero)%xnum = XNegZero) by (intros; cbn; unfold signed; rewrite Rmult_0_r; dec; reflexivity).
  cbn [x_of x_bulk x_vp x_dens x_shear x_vs]. rewrite !Q' by assumption.
  replace (at_zero 0) with XNan by (unfold at_zero; dec; reflexivity).
  assert (Q2 : forall a, (a / XNan)%xnum = XNan) by (intros []; reflexivity). rewrite Q2.
  assert (Z : is_zero XNegZero) by (right; auto).
  assert (Sq : 0 < sqrt (4 / 3)) by (apply sqrt_lt_R0; lra).
  destruct fl; cbn [model_uses_moduli log_fit uses_moduli c_flavour].
  - assert (N : kd <> Python \/ ~ is_zero XNan) by (right; intros [H|[H _]]; discriminate).
    destruct (inf_accepted kd XNegZero XNegZero XNan N) as [A _]. destruct A as (m' & E & R1 & R2 & R3); [cbn; tauto|].
    exists m'. split; [exact E|]. rewrite R1, R2, R3. apply x_material_inv in E. destruct E as [E1 E2].
    unfold x_primary_velocity, x_secondary_velocity, x_div in E1, E2. rewrite Q2 in E1, E2. cbn [xzero xval] in E1, E2.
    repeat split; try exact Z; destruct kd; cbn [bind x_root] in E1, E2; congruence.
  - eexists. split; [|repeat split].
    + unfold x_material_of_velocities, x_moduli_guards, x_velocity_guards, x_shear_modulus, x_bulk_modulus, xsquare. cbv zeta.
      replace (XNegZero * XNegZero)%xnum with (XFin 0) by (cbn; unfold signed; dec; reflexivity).
      replace (XFin (sqrt (4 / 3)) * XNegZero)%xnum with XNegZero by (symmetry; apply Q'; exact Sq). cbn. dec. cbn. reflexivity.
    + reflexivity.
    + exact Z.
    + exact Z.
    + reflexivity.
    + reflexivity.
Qed.

(** ** Fits by powers for rocks without shear velocity *)
Lemma powerfit_pos : forall a b p, 0 < p -> exists z, x_powerfit_row (XFin p) [a; b] = Ok z /\ reads (a * Rpower p b) z.
Proof.
  intros a b p P. unfold x_powerfit_row. cbn [column nth_error bind].
  assert (E : x_pow (XFin p) b = XFin (Rpower p b)).
  { unfold x_pow. destruct (Req_EM_T b 0) as [->|N]; [rewrite Rpower_O by assumption; reflexivity|]. cbn [xzero xval]. dec. reflexivity. }
  rewrite E. eexists. split; [reflexivity|]. auto with xr.
Qed.
Lemma power_eval : forall d0 d1 b0 b1 v0 v1 p, 0 < p -> exists d k v,
  x_eval_model (power_fit d0 d1 b0 b1 v0 v1) (XFin p) = Ok (d, k, v) /\
  reads (d0 * Rpower p d1) d /\ reads (b0 * Rpower p b1) k /\ reads (v0 * Rpower p v1) v.
Proof.
  intros d0 d1 b0 b1 v0 v1 p P. unfold power_fit. cbn [x_eval_model coefficient_rows length Nat.eqb andb bind]. unfold x_three.
  destruct (powerfit_pos d0 d1 p P) as (d & -> & D). destruct (powerfit_pos b0 b1 p P) as (k & -> & K). destruct (powerfit_pos v0 v1 p P) as (v & -> & V).
  cbn [bind]. eauto 8.
Qed.
Lemma inf_powerfit : forall kd d0 d1 b0 b1 v0 v1 m p ref, 0 < p -> 0 < ref -> vs m = 0 -> 0 <= vp m ->
  0 < bulk m + (b0 * Rpower p b1 - b0 * Rpower ref b1) -> 0 < dens m + (d0 * Rpower p d1 - d0 * Rpower ref d1) ->
  exists m', x_pressure_dependency kd (power_fit d0 d1 b0 b1 v0 v1) (x_of m) (XFin p) (XFin ref) = Ok m' /\
    x_bulk m' = XFin (bulk m + (b0 * Rpower p b1 - b0 * Rpower ref b1)) /\
    x_dens m' = XFin (dens m + (d0 * Rpower p d1 - d0 * Rpower ref d1)) /\
    x_shear m' = (if Rlt_dec 0 (vp m) then XFin 0 else XNan).
Proof.
  intros kd d0 d1 b0 b1 v0 v1 m p ref P Pr Z V B D.
  cbn [x_pressure_dependency power_fit]. change (Powerfit _ _ _) with (power_fit d0 d1 b0 b1 v0 v1). unfold x_powerfit_dependency.
  destruct (power_eval d0 d1 b0 b1 v0 v1 ref Pr) as (rd & rp & rs & -> & Rd & Rp & Rs).
  destruct (power_eval d0 d1 b0 b1 v0 v1 p P) as (ed & ep & es & -> & Ed & Ep & Es). cbn [bind x_of x_bulk x_vp x_dens x_shear x_vs].
  set (k := bulk m + (b0 * Rpower p b1 - b0 * Rpower ref b1)) in *. set (d := dens m + (d0 * Rpower p d1 - d0 * Rpower ref d1)) in *.
  assert (Hk : (XFin (bulk m) + (ep - rp))%xnum = XFin k) by (apply reads_nonzero; [unfold k; auto with xr|lra]).
  assert (Hd : (XFin (dens m) + (ed - rd))%xnum = XFin d) by (apply reads_nonzero; [unfold d; auto with xr|lra]).
  assert (Hv : reads (v0 * Rpower p v1 - v0 * Rpower ref v1) (es - rs)%xnum) by auto with xr.
  cbv zeta. rewrite Hk, Hd, Z. rewrite share_term by lra. destruct (Req_EM_T 0 0) as [_|N]; [|congruence].
  assert (Zd : ~ is_zero (XFin d)) by (intros [Q|[Q _]]; [injection Q; lra|discriminate]).
  destruct (Rlt_dec 0 (vp m)) as [Vp|Vp].
  - destruct (Req_EM_T (vp m) 0); [lra|].
    assert (E : (xsquare (XInf false + (es - rs)) - XFin (4 / 3))%xnum = XInf false).
    { destruct Hv as [->|[-> _]]; cbn; unfold signed; dec; reflexivity. }
    rewrite E. cbn [xltb xeqb orb negb].
    assert (E' : (XFin k / XInf false)%xnum = XFin 0) by (cbn; unfold signed; dec; reflexivity). rewrite E'.
    destruct (inf_accepted kd (XFin k) (XFin 0) (XFin d) (or_intror Zd)) as [A _]. destruct A as (m' & R & R1 & R2 & R3); [cbn; lra|]. eauto 6.
  - destruct (Req_EM_T (vp m) 0); [|lra].
    assert (E : (xsquare (XNan + (es - rs)) - XFin (4 / 3))%xnum = XNan) by reflexivity.
    rewrite E. cbn [xltb xeqb orb negb].
    assert (E' : (XFin k / XNan)%xnum = XNan) by reflexivity. rewrite E'.
    destruct (inf_accepted kd (XFin k) XNan (XFin d) (or_intror Zd)) as [A _]. destruct A as (m' & R & R1 & R2 & R3); [cbn; tauto || lra|]. eauto 6.
Qed.

Lemma inf_default_rock : fill_coefficients (mkCoef Moduli None None None) = default_rock.
Proof. reflexivity. Qed.
Lemma inf_dry_rock : forall kd v m c v' m', reads v v' -> reads_material m m' ->
  agrees reads_material
    (let* r := polyval_material v m c in match kd with Array => mat_of_velocities (dens r) (vp r) (vs r) | _ => Ok r end)
    (x_polyval kd v' m' c).
Proof.
  intros kd v m c v' m' Hv Hm. apply sim_agrees. pose proof (xs_polyval_material v m c v' m' Hv Hm) as S.
  destruct kd; cbn [x_polyval].
  1-2: destruct (polyval_material v m c); exact S.
  unfold x_polyval_row. eapply rrel_bind; [exact S|]. intros r r' (_ & _ & A & B & C). apply xs_of_velocities; assumption.
Qed.
Lemma combine_total : forall (l : list R) (fs : list material) s f, Forall (fun s => 0 <= s) l -> In (s, f) (combine l fs) -> 0 < s -> 0 < rsum l.
Proof.
  intros l fs s f H I P. apply in_combine_l in I. induction H as [|t l Ht H IH]; [destruct I|]. cbn [rsum]. pose proof (rsum_nonneg _ H).
  destruct I as [->|I]; [lra|]. pose proof (IH I). lra.
Qed.
Lemma inf_wood_present : forall kd fs l, kd <> Python -> Forall (fun f => 0 <= bulk f /\ 0 < dens f) fs -> Forall (fun s => 0 <= s) l ->
  (exists s f, In (s, f) (combine l fs) /\ bulk f = 0 /\ 0 < s) ->
  (forall s f, In (s, f) (combine l fs) -> bulk f = 0 -> 0 < s) ->
  exists m, x_wood_fluid_mixing kd (map x_of fs) (map XFin l) = Ok m /\ x_bulk m = XFin 0 /\ x_vp m = XFin 0 /\ finite (x_dens m).
Proof.
  intros kd fs l K F H (s & f & I & B & P) Q.
  destruct (inf_wood_gen kd fs l K F H (combine_total l fs s f H I P)) as [_ G]; [exists s, f; auto|]. apply G; [exists s, f; auto|exact Q].
Qed.
Lemma inf_wood_absent : forall kd fs l, kd <> Python -> Forall (fun f => 0 <= bulk f /\ 0 < dens f) fs -> Forall (fun s => 0 <= s) l ->
  (exists s f, In (s, f) (combine l fs) /\ bulk f = 0 /\ s = 0) -> (exists s f, In (s, f) (combine l fs) /\ 0 < s) ->
  exists m, x_wood_fluid_mixing kd (map x_of fs) (map XFin l) = Ok m /\ x_bulk m = XNan /\ x_vp m = XNan /\ finite (x_dens m).
Proof.
  intros kd fs l K F H Z (s & f & I & P).
  destruct (inf_wood_gen kd fs l K F H (combine_total l fs s f H I P)) as [G _]; [exists s, f; auto|]. apply G, Z.
Qed.
Lemma inf_wood_unused : exists f g m m', 
  x_wood_fluid_mixing Scalar [x_of f] [XFin 1] = Ok m /\ x_wood_fluid_mixing Scalar [x_of f; x_of g] [XFin 1; XFin 0] = Ok m' /\
  finite (x_bulk m) /\ x_bulk m' = XNan.
Proof.
  pose (f := mkMat 2 0 1 1 0). pose (g := mkMat 0 0 1 0 0).
  destruct (inf_wood_absent Scalar [f; g] [1; 0]) as (m' & E' & B' & _).
  - discriminate.
  - repeat constructor; cbn; lra.
  - repeat constructor; lra.
  - exists 0, g. split; [right; left; reflexivity|]. cbn. lra.
  - exists 1, f. split; [left; reflexivity|lra].
  - assert (W : exists r, wood_fluid_mixing [f] [1] = Ok r).
    { unfold wood_fluid_mixing. cbv zeta.
      assert (E : sum_saturations_to_one [1] = [1]).
      { rewrite saturations_map by (cbn; lra). cbn [map rsum]. rewrite Rmax_left by lra. f_equal. field. }
      rewrite E. unfold mix_bulk_moduli, mix_densities. cbn [combine map rsum_res rsum fst snd f dens bulk]. rewrite np_div_ok by lra. cbn [bind].
      rewrite np_div_ok by lra. cbn [bind]. unfold fluid_of_bulk. rewrite mat_of_moduli_ok by lra. eauto. }
    destruct W as (r & W).
    assert (R : forall h, reads_material h (x_of h)) by (intros; repeat split; left; reflexivity).
    pose proof (xs_wood Scalar [f] [x_of f] [1] [XFin 1] ltac:(repeat constructor; apply R) ltac:(repeat constructor; apply reads_fin)) as S.
    rewrite W in S. destruct (x_wood_fluid_mixing Scalar [x_of f] [XFin 1]) as [m|e] eqn:E; cbn in S; [|contradiction].
    exists f, g, m, m'. split; [exact E|]. split; [exact E'|]. split; [exists (bulk r); apply S|exact B'].
Qed.
Lemma ln_lt_0_10 : 0 < ln 10.
Proof. rewrite <- ln_1. apply ln_increasing; lra. Qed.
