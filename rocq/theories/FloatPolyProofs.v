(** Polynomials in double precision.  [noisy n M x y]: [x] is at most [M], and
    [y] is [x] up to what [n] roundings of numbers as large as [M] do. *)
From Coq Require Import Reals Lra Lia List ZArith Psatz.
From Flocq Require Import Core Relative Plus_error.
From Verif Require Import Base BaseProofs MaterialModel MainModel MainProofs ConfigModel BatzleWangModel FloatModel FloatSpec FloatProofs FloatPolyModel.
Import ListNotations.
Open Scope R_scope.

Definition noisy (n : nat) (M x y : R) : Prop := Rabs x <= M /\ Rabs (y - x) <= ((1 + u) ^ n - 1) * M.

Lemma noisy_bound n M x y : noisy n M x y -> 0 <= M /\ Rabs y <= (1 + u) ^ n * M.
Proof.
  intros (A & B). split; [pose proof (Rabs_pos x); lra|].
  replace y with (x + (y - x)) by ring. eapply Rle_trans; [apply Rabs_triang|]. lra.
Qed.
Lemma noisy_refl n M x : Rabs x <= M -> noisy n M x x.
Proof.
  intros H. split; [exact H|]. unfold Rminus at 1. rewrite Rplus_opp_r, Rabs_R0. pose proof (un n). pose proof (Rabs_pos x). nra.
Qed.
Lemma noisy_weaken n m M x y : (n <= m)%nat -> noisy n M x y -> noisy m M x y.
Proof.
  intros L H. destruct (noisy_bound _ _ _ _ H) as (P & _). destruct H as (A & B). split; [exact A|].
  eapply Rle_trans; [exact B|]. apply Rmult_le_compat_r; [exact P|].
  assert ((1 + u) ^ n <= (1 + u) ^ m) by (apply Rle_pow; [exact u1|exact L]). lra.
Qed.
Lemma noisy_mult a b M N x x' y y' : noisy a M x x' -> noisy b N y y' -> noisy (a + b) (M * N) (x * y) (x' * y').
Proof.
  intros A B. destruct (noisy_bound _ _ _ _ A) as (PM & _). destruct (noisy_bound _ _ _ _ B) as (PN & BN).
  destruct A as (A1 & A2). destruct B as (B1 & B2). split.
  - rewrite Rabs_mult. apply Rmult_le_compat; try apply Rabs_pos; assumption.
  - replace (x' * y' - x * y) with ((x' - x) * y' + x * (y' - y)) by ring.
    eapply Rle_trans; [apply Rabs_triang|]. rewrite !Rabs_mult. rewrite pow_add.
    pose proof (un a) as Ua. pose proof (un b) as Ub.
    assert (Q1 : Rabs (x' - x) * Rabs y' <= (((1 + u) ^ a - 1) * M) * ((1 + u) ^ b * N)).
    { apply Rmult_le_compat; try apply Rabs_pos; assumption. }
    assert (Q2 : Rabs x * Rabs (y' - y) <= M * (((1 + u) ^ b - 1) * N)).
    { apply Rmult_le_compat; try apply Rabs_pos; assumption. }
    lra.
Qed.
Lemma noisy_plus n M N x x' y y' : noisy n M x x' -> noisy n N y y' -> noisy n (M + N) (x + y) (x' + y').
Proof.
  intros (A1 & A2) (B1 & B2). split.
  - eapply Rle_trans; [apply Rabs_triang|]. lra.
  - replace (x' + y' - (x + y)) with ((x' - x) + (y' - y)) by ring. eapply Rle_trans; [apply Rabs_triang|]. lra.
Qed.

(** One rounding. *)
Lemma fl_error x : Rabs (fl x - x) <= u * Rabs x + / 2 ^ 1075.
Proof.
  unfold fl.
  destruct (error_N_FLT radix2 (-1074) 53 ltac:(lia) (fun n => negb (Z.even n)) x) as (eps & eta & He & Hn & _ & E).
  rewrite E. replace (x * (1 + eps) + eta - x) with (eps * x + eta) by ring.
  eapply Rle_trans; [apply Rabs_triang|]. rewrite Rabs_mult. apply Rplus_le_compat.
  - apply Rmult_le_compat_r; [apply Rabs_pos|]. rewrite <- u_ro_u. exact He.
  - eapply Rle_trans; [exact Hn|]. right.
    change (bpow radix2 (-1074)) with (bpow radix2 (- Z.of_nat 1074)). rewrite bpow_half.
    replace (2 ^ 1075) with (2 * 2 ^ 1074) by (symmetry; apply (tech_pow_Rmult 2 1074)). rewrite Rinv_mult. reflexivity.
Qed.

Lemma tiny_absorbed a M : sized a M -> (a <= 1000)%nat -> M <> 0 -> / 2 ^ 1075 <= u * M.
Proof.
  intros [->|(H & _)] L N; [contradiction|].
  apply Rle_trans with (u * / 2 ^ 1000).
  - unfold u. rewrite <- Rinv_mult, <- pow_add. apply half_le. lia.
  - apply Rmult_le_compat_l; [left; exact u_pos|]. eapply Rle_trans; [apply half_le; exact L|exact H].
Qed.

Lemma rnd_noisy n a M x y : noisy n M x y -> sized a M -> (a <= 1000)%nat -> (Z.of_nat n + 2 <= 2 ^ 50)%Z ->
  exists z, rnd y = Ok z /\ noisy (n + 2) M x z.
Proof.
  intros Ny Sz La Ln. destruct (noisy_bound _ _ _ _ Ny) as (PM & BM). exists (fl y).
  assert (Q : noisy (n + 2) M x (fl y)).
  { destruct (Req_EM_T M 0) as [Z|Z].
    - subst M. rewrite Rmult_0_r in BM. assert (y = 0) by (apply Rabs_eq_R0; pose proof (Rabs_pos y); lra).
      subst y. rewrite fl0. destruct Ny as (A & B). split; [exact A|]. rewrite Rmult_0_r in *. exact B.
    - pose proof (tiny_absorbed a M Sz La Z) as T. pose proof (fl_error y) as E. pose proof u_pos as U. destruct Ny as (A & B).
      split; [exact A|]. replace (fl y - x) with ((y - x) + (fl y - y)) by ring. eapply Rle_trans; [apply Rabs_triang|].
      rewrite pow_add. pose proof (un n) as Un.
      assert (u * Rabs y <= u * ((1 + u) ^ n * M)) by (apply Rmult_le_compat_l; lra).
      replace (((1 + u) ^ n * (1 + u) ^ 2 - 1) * M)
        with (((1 + u) ^ n - 1) * M + u * ((1 + u) ^ n * M) + u * M * ((1 + u) ^ n + u * (1 + u) ^ n)) by ring.
      assert (1 <= (1 + u) ^ n + u * (1 + u) ^ n) by nra. assert (0 <= u * M) by nra. nra. }
  split; [|exact Q]. unfold rnd. destruct (Rlt_dec _ _) as [|C]; [reflexivity|]. exfalso. apply C.
  destruct (noisy_bound _ _ _ _ Q) as (_ & Bz). pose proof (factor_two (n + 2) ltac:(lia)) as F2. pose proof (un (n + 2)).
  assert (M <= 2 ^ a) by (destruct Sz as [->|]; [left; apply two_pos|tauto]).
  apply Rle_lt_trans with (2 ^ S a); [|apply Rlt_pow; [lra|lia]]. cbn [pow].
  eapply Rle_trans; [exact Bz|]. apply Rmult_le_compat; lra.
Qed.

(** Literals. *)
Lemma fl_literal a x : sized a (Rabs x) -> (a <= 1000)%nat -> noisy 2 (Rabs x) x (fl x).
Proof.
  intros Sz L. pose proof (noisy_refl 0 (Rabs x) x (Rle_refl _)) as R0.
  destruct (rnd_noisy 0 a _ _ _ R0 Sz L ltac:(lia)) as (z & E & Q). apply rnd_fl in E. subst z. exact Q.
Qed.

(** Lists of coefficients. *)
Inductive noisy_list (n : nat) : list R -> list R -> list R -> Prop :=
  | noisy_nil : noisy_list n [] [] []
  | noisy_cons : forall M x y Ms xs ys, noisy n M x y -> noisy_list n Ms xs ys -> noisy_list n (M :: Ms) (x :: xs) (y :: ys).

Lemma step_noisy n b a s M m m' A c c' X x x' :
  noisy n M m m' -> noisy n A c c' -> noisy b X x x' -> sized a M -> sized a A -> sized s X -> (a + s + 1 <= 1000)%nat ->
  (Z.of_nat (n + b + 4) <= 2 ^ 50)%Z ->
  exists z, f_step x' c' m' = Ok z /\ noisy (n + b + 4) (A + M * X) (c + m * x) z /\ sized (a + s + 1) (A + M * X).
Proof.
  intros Nm Nc Nx Sm Sc Sx L Ln. unfold f_step.
  pose proof (sized_mult _ _ _ _ Sm Sx) as Sp.
  destruct (rnd_noisy _ (a + s) _ _ _ (noisy_mult _ _ _ _ _ _ _ _ Nm Nx) Sp ltac:(lia) ltac:(lia)) as (p & Ep & Np).
  assert (Ss : sized (S (a + s)) (A + M * X)) by (apply sized_plus; [eapply sized_weaken; [|exact Sc]; lia|exact Sp]).
  assert (Nc' : noisy (n + b + 2) A c c') by (eapply noisy_weaken; [|exact Nc]; lia).
  destruct (rnd_noisy _ (S (a + s)) _ _ _ (noisy_plus _ _ _ _ _ _ _ Nc' Np) Ss ltac:(lia) ltac:(lia)) as (z & Ez & Nz).
  exists z. rewrite Ep. cbn [bind]. rewrite Ez. split; [reflexivity|]. split.
  - replace (n + b + 4)%nat with (n + b + 2 + 2)%nat by lia. exact Nz.
  - replace (a + s + 1)%nat with (S (a + s)) by lia. exact Ss.
Qed.

Lemma poly_eval_cons x a c : poly_eval x (a :: c) = a + poly_eval x c * x.
Proof. reflexivity. Qed.

Lemma eval_noisy n b a s X x x' : noisy b X x x' -> sized s X ->
  forall Ms cs ds, noisy_list n Ms cs ds -> Forall (sized a) Ms -> ds <> [] ->
  (a + length ds * (s + 1) <= 1000)%nat -> (Z.of_nat (n + length ds * (b + 4)) <= 2 ^ 50)%Z ->
  exists z, f_poly_eval x' ds = Ok z /\ noisy (n + length ds * (b + 4)) (poly_eval X Ms) (poly_eval x cs) z /\
    sized (a + length ds * (s + 1)) (poly_eval X Ms).
Proof.
  intros Nx Sx Ms cs ds NL. induction NL as [|M c d Ms cs ds N0 NL IH]; intros F Ne L Ln; [contradiction|].
  inversion F as [|? ? FM FMs]; subst.
  destruct ds as [|d2 ds].
  - inversion NL; subst. exists d. split; [reflexivity|]. rewrite !poly_eval_cons. cbn [poly_eval fold_right].
    rewrite !Rmult_0_l, !Rplus_0_r. split; [eapply noisy_weaken; [|exact N0]; lia|eapply sized_weaken; [|exact FM]; lia].
  - cbn [length] in L, Ln. assert (Q := IH FMs ltac:(discriminate)). cbn [length] in Q.
    destruct Q as (acc & Ea & Na & Sa); [lia|lia|].
    destruct (step_noisy (n + S (length ds) * (b + 4)) b (a + S (length ds) * (s + 1)) s _ _ _ M c d X x x' Na
                (noisy_weaken n (n + S (length ds) * (b + 4)) _ _ _ ltac:(lia) N0) Nx Sa (sized_weaken a (a + S (length ds) * (s + 1)) _ ltac:(lia) FM) Sx ltac:(lia) ltac:(lia))
      as (z & Ez & Nz & Sz).
    exists z. cbn [f_poly_eval]. cbn [f_poly_eval] in Ea. rewrite Ea. cbn [bind]. split; [exact Ez|].
    rewrite (poly_eval_cons X M Ms), (poly_eval_cons x c cs).
    cbn [length]. split.
    + replace (n + S (S (length ds)) * (b + 4))%nat with (n + S (length ds) * (b + 4) + b + 4)%nat by lia. exact Nz.
    + replace (a + S (S (length ds)) * (s + 1))%nat with (a + S (length ds) * (s + 1) + s + 1)%nat by lia. exact Sz.
Qed.

Lemma noisy_grow n M N x y : M <= N -> noisy n M x y -> noisy n N x y.
Proof.
  intros L (A & B). split; [lra|]. eapply Rle_trans; [exact B|]. apply Rmult_le_compat_l; [pose proof (un n); lra|exact L].
Qed.
Lemma approx_noisy n M x y : approx n x y -> 0 <= x <= M -> noisy n M x y.
Proof.
  intros (A & B & C) H. pose proof (un n) as Un. apply noisy_grow with x; [tauto|]. split; [rewrite Rabs_pos_eq; lra|].
  apply Rabs_le. split; [|lra]. destruct (Rle_lt_dec x y) as [L|L]; [assert (0 <= ((1 + u) ^ n - 1) * x) by nra; lra|].
  assert (0 <= ((1 + u) ^ n - 1) * (x - y)) by nra. lra.
Qed.

(** One value per column. *)
Definition horner (x : R) : R -> R -> R := fun a acc => a + acc * x.
Lemma map2_noisy n m b a a' s X x x' : noisy b X x x' -> sized s X -> (n <= m)%nat -> (a <= a')%nat -> (a' + s + 1 <= 1000)%nat ->
  (Z.of_nat (m + b + 4) <= 2 ^ 50)%Z ->
  forall Ms cs ds, noisy_list n Ms cs ds -> Forall (sized a) Ms ->
  forall Ns es fs, noisy_list m Ns es fs -> Forall (sized a') Ns ->
  exists zs, f_map2 (f_step x') ds fs = Ok zs /\
    noisy_list (m + b + 4) (map2 (fun a acc => a + acc * X) Ms Ns) (map2 (fun a acc => a + acc * x) cs es) zs /\
    Forall (sized (a' + s + 1)) (map2 (fun a acc => a + acc * X) Ms Ns).
Proof.
  intros Nx Sx L La Lb Ln Ms cs ds NL. induction NL as [|M c d Ms cs ds N0 NL IH]; intros F Ns es fs NK G.
  - exists []. split; [reflexivity|]. split; [|apply Forall_nil]. cbn [map2]. apply noisy_nil.
  - inversion NK as [|N e f Ns' es' fs' K0 NK']; subst.
    + exists []. split; [reflexivity|]. split; [|apply Forall_nil]. cbn [map2]. apply noisy_nil.
    + inversion F as [|? ? FM FMs]; subst. inversion G as [|? ? GN GNs]; subst.
      destruct (IH FMs _ _ _ NK' GNs) as (zs & E & Q & S1).
      destruct (step_noisy m b a' s N e f M c d X x x' K0 (noisy_weaken n m _ _ _ L N0) Nx GN (sized_weaken a a' _ La FM) Sx Lb Ln)
        as (z & Ez & Nz & Sz).
      exists (z :: zs). cbn [f_map2]. rewrite Ez. cbn [bind]. rewrite E. cbn [bind]. split; [reflexivity|]. cbn [map2]. split.
      * apply noisy_cons; assumption.
      * apply Forall_cons; assumption.
Qed.

Inductive noisy_rows (n : nat) : list (list R) -> list (list R) -> list (list R) -> Prop :=
  | rows_nil : noisy_rows n [] [] []
  | rows_cons : forall M x y Ms xs ys, noisy_list n M x y -> noisy_rows n Ms xs ys -> noisy_rows n (M :: Ms) (x :: xs) (y :: ys).

Lemma poly_rows_cons x a b c : poly_rows x (a :: b :: c) = map2 (fun a acc => a + acc * x) a (poly_rows x (b :: c)).
Proof. reflexivity. Qed.

Lemma noisy_list_weaken n m Ms cs ds : (n <= m)%nat -> noisy_list n Ms cs ds -> noisy_list m Ms cs ds.
Proof. intros L H. induction H; [apply noisy_nil|apply noisy_cons; [eapply noisy_weaken; eassumption|assumption]]. Qed.
Lemma sized_list_weaken a b l : (a <= b)%nat -> Forall (sized a) l -> Forall (sized b) l.
Proof. intros L. apply Forall_impl. intros x. apply sized_weaken. exact L. Qed.

Lemma rows_noisy n b a s X x x' : noisy b X x x' -> sized s X ->
  forall Ms cs ds, noisy_rows n Ms cs ds -> Forall (Forall (sized a)) Ms ->
  (a + length ds * (s + 1) <= 1000)%nat -> (Z.of_nat (n + length ds * (b + 4)) <= 2 ^ 50)%Z ->
  exists zs, f_poly_rows x' ds = Ok zs /\ noisy_list (n + length ds * (b + 4)) (poly_rows X Ms) (poly_rows x cs) zs /\
    Forall (sized (a + length ds * (s + 1))) (poly_rows X Ms).
Proof.
  intros Nx Sx Ms cs ds NL. induction NL as [|M c d Ms cs ds N0 NL IH]; intros F L Ln.
  { exists []. split; [reflexivity|]. split; [apply noisy_nil|apply Forall_nil]. }
  inversion F as [|? ? FM FMs]; subst.
  destruct NL as [|M2 c2 d2 Ms cs ds N2 NL].
  - exists d. split; [reflexivity|]. cbn [poly_rows]. split; [eapply noisy_list_weaken; [|exact N0]; lia|eapply sized_list_weaken; [|exact FM]; lia].
  - cbn [length] in L, Ln. assert (Q := IH FMs). cbn [length] in Q. clear IH.
    destruct Q as (acc & Ea & Na & Sa); [lia|lia|].
    destruct (map2_noisy n (n + S (length ds) * (b + 4)) b a (a + S (length ds) * (s + 1)) s X x x' Nx Sx ltac:(lia) ltac:(lia) ltac:(lia) ltac:(lia)
      M c d N0 FM _ _ _ Na Sa) as (zs & E & Q & SZ).
    exists zs. rewrite !poly_rows_cons. cbn [f_poly_rows]. cbn [f_poly_rows] in Ea. rewrite Ea. cbn [bind]. split; [exact E|]. cbn [length]. split.
    + replace (n + S (S (length ds)) * (b + 4))%nat with (n + S (length ds) * (b + 4) + b + 4)%nat by lia. exact Q.
    + replace (a + S (S (length ds)) * (s + 1))%nat with (a + S (length ds) * (s + 1) + s + 1)%nat by lia. exact SZ.
Qed.

(** polyval2d; [k] bounds the number of columns, which is not zero. *)
Lemma noisy_list_length n Ms cs ds : noisy_list n Ms cs ds -> length Ms = length ds /\ length cs = length ds.
Proof. intros H. induction H; cbn [length]; intuition congruence. Qed.

Lemma polyval2d_noisy n a b s X x x' c r Y y y' Ms cs ds k Z0 z0 :
  noisy b X x x' -> sized s X -> noisy c Y y y' -> sized r Y -> noisy_rows n Ms cs ds -> Forall (Forall (sized a)) Ms ->
  length (poly_rows x cs) = k -> k <> 0%nat ->
  (a + length ds * (s + 1) + k * (r + 1) <= 1000)%nat -> (Z.of_nat (n + length ds * (b + 4) + k * (c + 4)) <= 2 ^ 50)%Z ->
  polyval2d X Y Ms = Ok Z0 -> polyval2d x y cs = Ok z0 ->
  exists z, f_polyval2d x' y' ds = Ok z /\ noisy (n + length ds * (b + 4) + k * (c + 4)) Z0 z0 z /\
    sized (a + length ds * (s + 1) + k * (r + 1)) Z0.
Proof.
  intros Nx Sx Ny Sy NR F Lk Nk L Ln E0 e0.
  destruct (rows_noisy n b a s X x x' Nx Sx _ _ _ NR F ltac:(lia) ltac:(lia)) as (l & El & Nl & Sl).
  destruct (noisy_list_length _ _ _ _ Nl) as (L1 & L2).
  assert (Ne : l <> []) by (intros ->; cbn [length] in *; lia).
  destruct (eval_noisy (n + length ds * (b + 4)) c (a + length ds * (s + 1)) r Y y y' Ny Sy _ _ _ Nl Sl Ne) as (z & Ez & Nz & Sz); [lia|lia|].
  exists z. unfold f_polyval2d. rewrite El. cbn [bind]. split; [exact Ez|].
  rewrite <- L2, Lk in Nz. rewrite <- L2, Lk in Sz.
  unfold polyval2d in E0, e0.
  destruct (poly_rows X Ms) as [|A1 A2]; [discriminate|]. destruct (poly_rows x cs) as [|B1 B2]; [discriminate|].
  assert (I : forall p q : R, Ok p = Ok q -> p = q) by (intros p q H; congruence).
  apply I in E0. apply I in e0. rewrite <- E0, <- e0. split; assumption.
Qed.

Definition rows_times (x : R) (m1 m2 : list (list R)) : list (list R) :=
  map (fun rr => map2 (fun a acc => a + acc * x) (fst rr) (snd rr)) (combine m1 m2).

Lemma map_rows_noisy n m b a a' s X x x' : noisy b X x x' -> sized s X -> (n <= m)%nat -> (a <= a')%nat -> (a' + s + 1 <= 1000)%nat ->
  (Z.of_nat (m + b + 4) <= 2 ^ 50)%Z ->
  forall Ms cs ds, noisy_rows n Ms cs ds -> Forall (Forall (sized a)) Ms ->
  forall Ns es fs, noisy_rows m Ns es fs -> Forall (Forall (sized a')) Ns ->
  exists zs, f_map_rows (f_step x') ds fs = Ok zs /\ noisy_rows (m + b + 4) (rows_times X Ms Ns) (rows_times x cs es) zs /\
    Forall (Forall (sized (a' + s + 1))) (rows_times X Ms Ns).
Proof.
  intros Nx Sx L La Lb Ln Ms cs ds NL. induction NL as [|M c d Ms cs ds N0 NL IH]; intros F Ns es fs NK G.
  - exists []. split; [reflexivity|]. split; [|apply Forall_nil]. apply rows_nil.
  - inversion NK as [|N e f Ns' es' fs' K0 NK']; subst.
    + exists []. split; [reflexivity|]. split; [|apply Forall_nil]. apply rows_nil.
    + inversion F as [|? ? FM FMs]; subst. inversion G as [|? ? GN GNs]; subst.
      destruct (IH FMs _ _ _ NK' GNs) as (zs & E & Q & S1).
      destruct (map2_noisy n m b a a' s X x x' Nx Sx L La Lb Ln M c d N0 FM N e f K0 GN) as (z & Ez & Nz & Sz).
      exists (z :: zs). cbn [f_map_rows]. rewrite Ez. cbn [bind]. rewrite E. cbn [bind]. split; [reflexivity|].
      unfold rows_times. cbn [combine map fst snd]. split.
      * apply rows_cons; assumption.
      * apply Forall_cons; assumption.
Qed.

Inductive noisy_matrices (n : nat) : list (list (list R)) -> list (list (list R)) -> list (list (list R)) -> Prop :=
  | matrices_nil : noisy_matrices n [] [] []
  | matrices_cons : forall M x y Ms xs ys, noisy_rows n M x y -> noisy_matrices n Ms xs ys -> noisy_matrices n (M :: Ms) (x :: xs) (y :: ys).

Lemma noisy_rows_weaken n m Ms cs ds : (n <= m)%nat -> noisy_rows n Ms cs ds -> noisy_rows m Ms cs ds.
Proof. intros L H. induction H; [apply rows_nil|apply rows_cons; [eapply noisy_list_weaken; eassumption|assumption]]. Qed.
Lemma sized_rows_weaken a b l : (a <= b)%nat -> Forall (Forall (sized a)) l -> Forall (Forall (sized b)) l.
Proof. intros L. apply Forall_impl. intros x. apply sized_list_weaken. exact L. Qed.
Lemma poly_matrices_cons x a b c : poly_matrices x (a :: b :: c) = rows_times x a (poly_matrices x (b :: c)).
Proof. reflexivity. Qed.

Lemma matrices_noisy n b a s X x x' : noisy b X x x' -> sized s X ->
  forall Ms cs ds, noisy_matrices n Ms cs ds -> Forall (Forall (Forall (sized a))) Ms ->
  (a + length ds * (s + 1) <= 1000)%nat -> (Z.of_nat (n + length ds * (b + 4)) <= 2 ^ 50)%Z ->
  exists zs, f_poly_matrices x' ds = Ok zs /\ noisy_rows (n + length ds * (b + 4)) (poly_matrices X Ms) (poly_matrices x cs) zs /\
    Forall (Forall (sized (a + length ds * (s + 1)))) (poly_matrices X Ms).
Proof.
  intros Nx Sx Ms cs ds NL. induction NL as [|M c d Ms cs ds N0 NL IH]; intros F L Ln.
  { exists []. split; [reflexivity|]. split; [apply rows_nil|apply Forall_nil]. }
  inversion F as [|? ? FM FMs]; subst.
  destruct NL as [|M2 c2 d2 Ms cs ds N2 NL].
  - exists d. split; [reflexivity|]. cbn [poly_matrices]. split; [eapply noisy_rows_weaken; [|exact N0]; lia|eapply sized_rows_weaken; [|exact FM]; lia].
  - cbn [length] in L, Ln. assert (Q := IH FMs). cbn [length] in Q. clear IH.
    destruct Q as (acc & Ea & Na & Sa); [lia|lia|].
    destruct (map_rows_noisy n (n + S (length ds) * (b + 4)) b a (a + S (length ds) * (s + 1)) s X x x' Nx Sx ltac:(lia) ltac:(lia) ltac:(lia) ltac:(lia)
      M c d N0 FM _ _ _ Na Sa) as (zs & E & Q & SZ).
    exists zs. rewrite !poly_matrices_cons. cbn [f_poly_matrices]. cbn [f_poly_matrices] in Ea. rewrite Ea. cbn [bind]. split; [exact E|]. cbn [length]. split.
    + replace (n + S (S (length ds)) * (b + 4))%nat with (n + S (length ds) * (b + 4) + b + 4)%nat by lia. exact Q.
    + replace (a + S (S (length ds)) * (s + 1))%nat with (a + S (length ds) * (s + 1) + s + 1)%nat by lia. exact SZ.
Qed.

Lemma noisy_rows_length n Ms cs ds : noisy_rows n Ms cs ds -> length cs = length ds.
Proof. intros H. induction H; cbn [length]; intuition congruence. Qed.

(** polyval3d, when the sizes are at most [a], [s], [r], [q] and the counts at most [n], [b], [c], [e]. *)
Lemma polyval3d_noisy n a b s X x x' c r Y y y' e q Z z z' Ms cs ds j k V0 v0 :
  noisy b X x x' -> sized s X -> noisy c Y y y' -> sized r Y -> noisy e Z z z' -> sized q Z ->
  noisy_matrices n Ms cs ds -> Forall (Forall (Forall (sized a))) Ms ->
  length (poly_matrices x cs) = j -> length (poly_rows y (poly_matrices x cs)) = k -> k <> 0%nat ->
  (a + length ds * (s + 1) + j * (r + 1) + k * (q + 1) <= 1000)%nat ->
  (Z.of_nat (n + length ds * (b + 4) + j * (c + 4) + k * (e + 4)) <= 2 ^ 50)%Z ->
  polyval3d X Y Z Ms = Ok V0 -> polyval3d x y z cs = Ok v0 ->
  exists v, f_polyval3d x' y' z' ds = Ok v /\ noisy (n + length ds * (b + 4) + j * (c + 4) + k * (e + 4)) V0 v0 v /\
    sized (a + length ds * (s + 1) + j * (r + 1) + k * (q + 1)) V0.
Proof.
  intros Nx Sx Ny Sy Nz Sz NM F Lj Lk Nk L Ln E0 e0.
  destruct (matrices_noisy n b a s X x x' Nx Sx _ _ _ NM F ltac:(lia) ltac:(lia)) as (m & Em & Nm & Sm).
  pose proof (noisy_rows_length _ _ _ _ Nm) as Lm. rewrite Lj in Lm.
  unfold f_polyval3d. rewrite Em. cbn [bind]. unfold polyval3d in E0, e0. subst j.
  rewrite Lm. eapply polyval2d_noisy; try eassumption; rewrite <- Lm; assumption.
Qed.

(** Literals, by their magnitude. *)
Lemma literal a M c : c = M \/ c = - M -> sized a M -> (a <= 1000)%nat -> noisy 2 M c (fl c).
Proof.
  intros H Sz L. assert (Rabs c = M).
  { pose proof (sized_nonneg _ _ Sz). destruct H as [->| ->]; [|rewrite Rabs_Ropp]; apply Rabs_pos_eq; assumption. }
  rewrite <- H0. apply fl_literal with a; [rewrite H0; exact Sz|exact L].
Qed.
