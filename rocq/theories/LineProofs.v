(** Arithmetic of InfModel and the extended real line. *)
From Coq Require Import Reals ZArith Lra.
From Coquelicot Require Import Coquelicot.
From Verif Require Import Base InfModel InfSpec InfProofs LineSpec.
Open Scope R_scope.

Lemma line_signed : forall s x, line (signed s x) = Some (Finite x).
Proof. intros s x. unfold signed. destruct (Req_EM_T x 0) as [->|]; [destruct s|]; reflexivity. Qed.
Lemma line_sum : forall a b, line (a + b)%xnum = on_line Rbar_plus' a b.
Proof.
  intros [x| |[]|] [y| |[]|]; cbn; try reflexivity; rewrite ?Rplus_0_l, ?Rplus_0_r; reflexivity.
Qed.
Lemma line_opp : forall a, line (xopp a) = option_map Rbar_opp (line a).
Proof.
  intros [x| |[]|]; cbn -[signed]; rewrite ?line_signed; try reflexivity. cbn. rewrite Ropp_0. reflexivity.
Qed.
Lemma line_sub : forall a b, line (a - b)%xnum = on_line (fun x y => Rbar_plus' x (Rbar_opp y)) a b.
Proof.
  intros a b. unfold xsub. rewrite line_sum. unfold on_line. rewrite line_opp. destruct (line a), (line b); reflexivity.
Qed.
Lemma line_product : forall a b, line (a * b)%xnum = on_line Rbar_mult' a b.
Proof.
  assert (Z : xzero XNegZero = true) by (cbn; destruct (Req_EM_T 0 0); congruence).
  assert (F : forall x s, line (if xzero (XFin x) then XNan else XInf (xorb (xsign (XFin x)) s)) = Rbar_mult' (Finite x) (infinity s)).
  { intros x s. cbn. destruct (Req_EM_T x 0) as [->|N].
    - destruct s; cbn; destruct (Rle_dec 0 0) as [L|L]; try lra; destruct (Rle_lt_or_eq_dec 0 0 L); try lra; reflexivity.
    - destruct (Rlt_dec x 0), s; cbn; destruct (Rle_dec 0 x) as [L|L]; try lra; try reflexivity;
      destruct (Rle_lt_or_eq_dec 0 x L); try lra; reflexivity. }
  assert (F' : forall x s, line (if xzero (XFin x) then XNan else XInf (xorb s (xsign (XFin x)))) = Rbar_mult' (infinity s) (Finite x)).
  { intros x s. rewrite (Bool.xorb_comm s), F. destruct s; reflexivity. }
  assert (N : forall s, Rbar_mult' (Finite 0) (infinity s) = None).
  { intros s. rewrite <- F. cbn. destruct (Req_EM_T 0 0); [reflexivity|congruence]. }
  intros [x| |s|] [y| |t|]; unfold on_line; cbn [line]; try reflexivity;
    try (unfold xmul; cbn [xval]; rewrite line_signed; cbn; f_equal; f_equal; ring).
  - exact (F x t).
  - unfold xmul. rewrite Z. symmetry. exact (N t).
  - exact (F' y s).
  - unfold xmul. rewrite Z. symmetry. change (if s then m_infty else p_infty) with (infinity s).
    destruct s; cbn; destruct (Rle_dec 0 0) as [L|L]; try lra; destruct (Rle_lt_or_eq_dec 0 0 L); try lra; reflexivity.
  - destruct s, t; reflexivity.
Qed.
Lemma line_quotient : forall a b, ~ is_zero b -> line (a / b)%xnum = on_line (fun x y => Rbar_mult' x (Rbar_inv y)) a b.
Proof.
  intros a b N. assert (M : forall x s, Rbar_mult' (Finite x) (Finite 0) = Some (Finite 0) /\ Rbar_mult' (infinity s) (Finite 0) = None).
  { intros x s. split; [cbn; f_equal; f_equal; ring|].
    destruct s; cbn; destruct (Rle_dec 0 0) as [L|L]; try lra; destruct (Rle_lt_or_eq_dec 0 0 L); try lra; reflexivity. }
  destruct b as [y| |t|]; [|exfalso; apply N; right; auto| |destruct a; reflexivity].
  - assert (Y : y <> 0) by (intros ->; apply N; left; reflexivity).
    destruct a as [x| |s|]; unfold on_line; cbn [line]; try reflexivity.
    + unfold xdiv. cbn [xval]. destruct (Req_EM_T y 0); [contradiction|]. rewrite line_signed. cbn. destruct (Req_EM_T y 0); [contradiction|]. reflexivity.
    + unfold xdiv. cbn [xval]. destruct (Req_EM_T y 0); [contradiction|]. rewrite line_signed. cbn. destruct (Req_EM_T y 0); [contradiction|].
      f_equal; f_equal; field; assumption.
    + change (if s then m_infty else p_infty) with (infinity s). unfold xdiv. cbn [Rbar_inv].
      assert (I : (0 < y -> 0 < / y) /\ (y < 0 -> / y < 0)) by (split; [apply Rinv_0_lt_compat|apply Rinv_lt_0_compat]).
      destruct (Rdichotomy _ _ Y) as [L|L]; cbn [xsign]; destruct (Rlt_dec y 0); try lra; destruct s; cbn;
        destruct (Req_EM_T y 0); try contradiction; destruct (Rle_dec 0 (/ y)) as [Q|Q]; try lra; try reflexivity;
        destruct (Rle_lt_or_eq_dec 0 (/ y) Q); try lra; reflexivity.
  - destruct a as [x| |s|]; unfold on_line; cbn [line]; try reflexivity.
    + unfold xdiv. rewrite line_signed. destruct t; cbn; f_equal; f_equal; ring.
    + unfold xdiv. rewrite line_signed. destruct t; cbn; f_equal; f_equal; ring.
    + destruct (M 0 s) as [_ Q]. destruct t; cbn [Rbar_inv]; symmetry; exact Q.
Qed.
Lemma line_by_zero : forall a b, is_zero b ->
  (a = XNan \/ is_zero a -> (a / b)%xnum = XNan) /\
  (a <> XNan -> ~ is_zero a -> (a / b)%xnum = XInf (xorb (xsign a) (xsign b))).
Proof.
  intros a b Z. split.
  - intros [->|Q]; [reflexivity|]. destruct Z as [->|[-> _]], Q as [->|[-> _]]; cbn; destruct (Req_EM_T 0 0); congruence.
  - intros N Q. destruct a as [x| |s|]; [|exfalso; apply Q; right; auto| |congruence].
    + assert (X : x <> 0) by (intros ->; apply Q; left; reflexivity). destruct Z as [->|[-> _]]; unfold xdiv; cbn [xval];
        (destruct (Req_EM_T 0 0); [|congruence]); destruct (Req_EM_T x 0); congruence.
    + destruct Z as [->|[-> _]]; reflexivity.
Qed.
(** The sign bit of products and quotients. *)
Lemma signed_sign : forall s x, (x <> 0 -> s = if Rlt_dec x 0 then true else false) -> xsign (signed s x) = s.
Proof.
  intros s x H. unfold signed. destruct (Req_EM_T x 0) as [->|N]; [|symmetry; exact (H N)]. destruct s; cbn; [reflexivity|]. destruct (Rlt_dec 0 0); [lra|reflexivity].
Qed.
Lemma sign_product : forall a b, (a * b)%xnum <> XNan -> xsign (a * b)%xnum = xorb (xsign a) (xsign b).
Proof.
  intros a b N.
  assert (F : forall x y, x * y <> 0 -> xorb (if Rlt_dec x 0 then true else false) (if Rlt_dec y 0 then true else false) = if Rlt_dec (x * y) 0 then true else false).
  { intros x y Q. destruct (Rlt_dec x 0), (Rlt_dec y 0), (Rlt_dec (x * y) 0); try reflexivity; exfalso; nra. }
  destruct a as [x| |s|], b as [y| |t|]; try (exfalso; apply N; reflexivity); revert N; unfold xmul; cbn [xval]; intros N;
    try (apply signed_sign; intros Q; try (exfalso; apply Q; ring); apply F; exact Q);
    try (match goal with |- xsign (if ?c then _ else _) = _ => destruct c; [exfalso; apply N; reflexivity|reflexivity] end); reflexivity.
Qed.
Lemma sign_quotient : forall a b, (a / b)%xnum <> XNan -> xsign (a / b)%xnum = xorb (xsign a) (xsign b).
Proof.
  intros a b N.
  assert (F : forall x y, y <> 0 -> x / y <> 0 -> xorb (if Rlt_dec x 0 then true else false) (if Rlt_dec y 0 then true else false) = if Rlt_dec (x / y) 0 then true else false).
  { intros x y Y Q. assert (E : x = x / y * y) by (field; exact Y). set (z := x / y) in *. clearbody z. subst x.
    destruct (Rlt_dec (z * y) 0), (Rlt_dec y 0), (Rlt_dec z 0); try reflexivity; exfalso; nra. }
  destruct a as [x| |s|], b as [y| |t|]; try (exfalso; apply N; reflexivity); revert N; unfold xdiv; cbn [xval]; intros N;
    try (apply signed_sign; intros Q; exfalso; apply Q; reflexivity);
    try (destruct (Req_EM_T 0 0) as [_|C]; [|congruence]);
    try (destruct (Req_EM_T y 0) as [Y|Y]);
    try (match goal with |- xsign (if Req_EM_T ?c 0 then _ else _) = _ => destruct (Req_EM_T c 0); [exfalso; apply N; reflexivity|] end);
    try reflexivity;
    try (apply signed_sign; intros Q; apply F; assumption).
  all: try (exfalso; apply N; destruct (Req_EM_T 0 0); [reflexivity|congruence]).
  all: try (apply signed_sign; intros Q; exfalso; apply Q; unfold Rdiv; ring).
Qed.
Lemma sign_sum : forall a b, is_zero (a + b)%xnum -> (xsign (a + b)%xnum = true <-> a = XNegZero /\ b = XNegZero).
Proof.
  intros a b Z. split.
  - intros E. destruct a as [x| |[]|], b as [y| |[]|]; cbn in *; try (destruct Z as [Z|[Z _]]; discriminate); auto;
      (destruct Z as [Z|[Z _]]; [|discriminate]); try (injection Z as Z; rewrite ?Z in E; destruct (Rlt_dec 0 0); [lra|discriminate]).
  - intros [-> ->]. reflexivity.
Qed.

Lemma line_less : forall a b, xltb a b = true <-> exists x y, line a = Some x /\ line b = Some y /\ Rbar_lt x y.
Proof.
  intros a b. split.
  - intros H. destruct a as [x| |[]|], b as [y| |[]|]; cbn in H; try discriminate; cbn [line]; eexists; eexists; (split; [reflexivity|]); (split; [reflexivity|]); cbn; try exact I;
      match type of H with (if Rlt_dec ?u ?v then _ else _) = _ => destruct (Rlt_dec u v); [assumption|discriminate] end.
  - intros (x & y & Ex & Ey & H). destruct a as [u| |[]|], b as [v| |[]|]; cbn in Ex, Ey; try discriminate;
      injection Ex as <-; injection Ey as <-; cbn in H; try contradiction; cbn; try reflexivity;
      match goal with |- (if Rlt_dec ?u ?v then _ else _) = _ => destruct (Rlt_dec u v); [reflexivity|contradiction] end.
Qed.
Lemma line_equal : forall a b, xeqb a b = true <-> exists x, line a = Some x /\ line b = Some x.
Proof.
  intros a b. split.
  - intros H. destruct a as [x| |[]|], b as [y| |[]|]; cbn in H; try discriminate; cbn [line]; eexists; (split; [reflexivity|]); try reflexivity;
      match type of H with (if Req_EM_T ?u ?v then _ else _) = _ => destruct (Req_EM_T u v); [subst; reflexivity|discriminate] end.
  - intros (x & Ex & Ey). destruct a as [u| |[]|], b as [v| |[]|]; cbn in Ex, Ey; try discriminate;
      rewrite <- Ex in Ey; try discriminate; cbn; try reflexivity; try injection Ey as Ey; subst;
      match goal with |- (if Req_EM_T ?u ?v then _ else _) = _ => destruct (Req_EM_T u v); [reflexivity|congruence] end.
Qed.
Lemma line_max : forall a b, (a = XNan \/ b = XNan -> xmax a b = XNan) /\
  (a <> XNan -> b <> XNan -> (xmax a b = a \/ xmax a b = b) /\ xltb (xmax a b) a = false /\ xltb (xmax a b) b = false).
Proof.
  assert (R : forall a, xltb a a = false).
  { intros a. destruct (xltb a a) eqn:E; [|reflexivity]. apply line_less in E. destruct E as (x & y & E1 & E2 & L).
    rewrite E1 in E2. injection E2 as <-. destruct x; cbn in L; try contradiction. lra. }
  assert (T : forall a b, xltb a b = true -> xltb b a = false).
  { intros a b E. destruct (xltb b a) eqn:E'; [|reflexivity]. apply line_less in E, E'.
    destruct E as (x & y & E1 & E2 & L), E' as (u & v & E3 & E4 & L'). rewrite E1 in E4. rewrite E2 in E3. injection E4 as <-. injection E3 as <-.
    destruct x, y; cbn in L, L'; try contradiction. lra. }
  intros a b. split.
  - intros [->| ->]; [reflexivity|destruct a; reflexivity].
  - intros Ha Hb. assert (E : xmax a b = if xltb a b then b else a) by (destruct a, b; try congruence; reflexivity). rewrite E.
    destruct (xltb a b) eqn:L; [split; [auto|]; split; [apply T, L|apply R]|split; [auto|]; split; [apply R|exact L]].
Qed.
Lemma line_abs : forall a, line (xabs a) = option_map Rbar_abs (line a).
Proof. intros [x| |[]|]; cbn; try reflexivity. rewrite Rabs_R0. reflexivity. Qed.

(** ** Functions *)
Lemma line_exp : forall a x, line a = Some x -> exists y, line (x_exp a) = Some y /\ is_lim exp x y.
Proof.
  intros [x| |[]|] y E; cbn in E; try discriminate; injection E as <-; cbn [x_exp line]; eexists; (split; [reflexivity|]).
  - apply is_lim_continuity. apply derivable_continuous, derivable_exp.
  - rewrite <- exp_0. apply is_lim_continuity. apply derivable_continuous, derivable_exp.
  - apply is_lim_exp_m.
  - apply is_lim_exp_p.
Qed.
Lemma mult_infty : forall y s, y <> 0 -> Rbar_mult y (infinity s) = infinity (xorb (if Rlt_dec y 0 then true else false) s).
Proof.
  intros y s N. unfold Rbar_mult, infinity. destruct s, (Rlt_dec y 0); cbn; destruct (Rle_dec 0 y) as [L|L]; try lra; try reflexivity;
    destruct (Rle_lt_or_eq_dec 0 y L); try lra; reflexivity.
Qed.
Lemma log_limits : filterlim log10 (at_right 0) (Rbar_locally m_infty) /\ is_lim log10 p_infty p_infty.
Proof.
  assert (L : 0 < ln 10) by apply ln_lt_0_10.
  assert (E : forall x, log10 x = / ln 10 * ln x) by (intros; unfold log10; field; lra).
  assert (Q : 0 < / ln 10) by (apply Rinv_0_lt_compat, L).
  split.
  - apply (filterlim_ext (fun x => / ln 10 * ln x)); [intros; symmetry; apply E|].
    eapply filterlim_comp; [exact is_lim_ln_0|].
    pose proof (filterlim_Rbar_mult_l (/ ln 10) m_infty) as H.
    pose proof (mult_infty (/ ln 10) true ltac:(lra)) as M. destruct (Rlt_dec (/ ln 10) 0); [lra|]. cbn [infinity xorb] in M. rewrite M in H. exact H.
  - apply (is_lim_ext (fun x => / ln 10 * ln x)); [intros; symmetry; apply E|].
    pose proof (is_lim_scal_l ln (/ ln 10) p_infty p_infty is_lim_ln_p) as H.
    pose proof (mult_infty (/ ln 10) false ltac:(lra)) as M. destruct (Rlt_dec (/ ln 10) 0); [lra|]. cbn [infinity xorb] in M. rewrite M in H. exact H.
Qed.
Lemma line_log : forall a,
  (forall x, 0 < x -> a = XFin x -> x_log10 a = XFin (log10 x)) /\ (is_zero a -> x_log10 a = XInf true) /\
  (a = XInf false -> x_log10 a = XInf false) /\ (below_zero a \/ a = XNan -> x_log10 a = XNan).
Proof.
  intros a. repeat split.
  - intros x P ->. cbn. destruct (Rlt_dec 0 x); [reflexivity|contradiction].
  - intros [->|[-> _]]; cbn; [|reflexivity]. destruct (Rlt_dec 0 0); [lra|]. destruct (Req_EM_T 0 0); [reflexivity|congruence].
  - intros ->. reflexivity.
  - intros [H| ->]; [|reflexivity]. destruct a as [x| |[]|]; cbn in H; try contradiction; try discriminate; [|reflexivity].
    cbn. destruct (Rlt_dec 0 x); [lra|]. destruct (Req_EM_T x 0); [lra|reflexivity].
Qed.
Lemma line_root : forall kd a,
  (~ below_zero a -> exists r, x_root kd a = Ok r /\ line r = option_map root_of (line a)) /\
  (below_zero a -> x_root kd a = match kd, a with
     | Array, _ => Ok XNan
     | _, XInf _ => Ok (XInf false)
     | Scalar, _ => Ok XNan
     | Python, _ => Err NonFinite
     end).
Proof.
  intros kd a. split; intros H.
  - destruct a as [x| |[]|]; cbn in H; cbn.
    + destruct (Rlt_dec x 0); [contradiction|]. eexists; split; [reflexivity|]. reflexivity.
    + rewrite sqrt_0. destruct kd; eexists; (split; [reflexivity|]); reflexivity.
    + exfalso. apply H. reflexivity.
    + eexists; split; [reflexivity|]. reflexivity.
    + eexists; split; [reflexivity|]. reflexivity.
  - destruct a as [x| |[]|]; cbn in H; try contradiction; try discriminate; cbn.
    + destruct (Rlt_dec x 0); [|contradiction]. destruct kd; reflexivity.
    + destruct kd; reflexivity.
Qed.

(** ** Powers *)
Lemma int_part_IZR : forall n, Int_part (IZR n) = n.
Proof.
  intros n. destruct (base_Int_part (IZR n)) as [A B]. apply le_IZR in A.
  assert (IZR n < IZR (Int_part (IZR n) + 1)) as C by (rewrite plus_IZR; lra). apply lt_IZR in C.
  apply Z.le_antisymm; [exact A|]. apply Z.lt_succ_r. exact C.
Qed.
Lemma whole_iff : forall y, whole y = true <-> exists n, y = IZR n.
Proof.
  intros y. unfold whole. split.
  - destruct (Req_EM_T y (IZR (Int_part y))) as [E|]; [|discriminate]. eauto.
  - intros (n & ->). rewrite int_part_IZR. destruct (Req_EM_T (IZR n) (IZR n)); congruence.
Qed.
Lemma odd_IZR : forall n, odd (IZR n) = Z.odd n.
Proof.
  intros n. unfold odd. rewrite int_part_IZR. assert (W : whole (IZR n) = true) by (apply whole_iff; eauto). rewrite W. reflexivity.
Qed.
Lemma powerRZ_opp : forall x n, x <> 0 -> powerRZ (- x) n = if Z.odd n then - powerRZ x n else powerRZ x n.
Proof.
  intros x n N.
  assert (P : forall k, (- x) ^ k = if Nat.odd k then - x ^ k else x ^ k).
  { induction k as [|k IH]; [reflexivity|]. rewrite Nat.odd_succ, <- Nat.negb_odd. cbn [pow]. rewrite IH. destruct (Nat.odd k); cbn [negb]; ring. }
  assert (O : forall p, Z.odd (Zpos p) = Nat.odd (Pos.to_nat p) /\ Z.odd (Zneg p) = Nat.odd (Pos.to_nat p)).
  { intros p. assert (Q : Z.odd (Zpos p) = Nat.odd (Pos.to_nat p)).
    { rewrite <- (Nat2Z.id (Pos.to_nat p)), positive_nat_Z. rewrite Z2Nat.inj_pos. symmetry. 
      destruct (Nat.Even_or_Odd (Pos.to_nat p)) as [[k E]|[k E]].
      - assert (Zpos p = 2 * Z.of_nat k)%Z by lia. rewrite H, Z.odd_mul. rewrite E, Nat.odd_mul. reflexivity.
      - assert (Zpos p = 2 * Z.of_nat k + 1)%Z by lia. rewrite H, Z.add_1_r, Z.odd_succ, Z.even_mul. rewrite E, Nat.add_1_r, Nat.odd_succ, Nat.even_mul. reflexivity. }
    split; [exact Q|]. rewrite <- Q. reflexivity. }
  destruct n as [|p|p]; cbn [powerRZ]; [reflexivity|..]; rewrite P.
  - destruct (O p) as [-> _]. reflexivity.
  - destruct (O p) as [_ ->]. destruct (Nat.odd (Pos.to_nat p)); [|reflexivity]. field. apply pow_nonzero, N.
Qed.
Lemma pow_zero_exponent : forall a, x_pow a 0 = XFin 1.
Proof. intros a. unfold x_pow. destruct (Req_EM_T 0 0); congruence. Qed.
Lemma pow_positive : forall x y, 0 < x -> x_pow (XFin x) y = XFin (Rpower x y).
Proof.
  intros x y P. unfold x_pow. destruct (Req_EM_T y 0) as [->|N]; [rewrite Rpower_O by assumption; reflexivity|].
  cbn [xzero xval]. destruct (Req_EM_T x 0); [lra|]. destruct (Rlt_dec 0 x); [reflexivity|contradiction].
Qed.
Lemma pow_ends : forall y, y <> 0 ->
  x_pow (XFin 0) y = (if Rlt_dec 0 y then XFin 0 else XInf false) /\ x_pow (XInf false) y = (if Rlt_dec 0 y then XInf false else XFin 0).
Proof.
  intros y N. unfold x_pow. destruct (Req_EM_T y 0); [contradiction|]. cbn [xzero xval xsign andb]. destruct (Req_EM_T 0 0); [|congruence].
  destruct (Rlt_dec 0 0); [lra|]. cbn [andb]. split; reflexivity.
Qed.
Lemma pow_limits : forall y, y <> 0 ->
  filterlim (fun x => Rpower x y) (at_right 0) (Rbar_locally (if Rlt_dec 0 y then Finite 0 else p_infty)) /\
  is_lim (fun x => Rpower x y) p_infty (if Rlt_dec 0 y then p_infty else Finite 0).
Proof.
  intros y N. unfold Rpower.
  pose proof (mult_infty y true N) as M. pose proof (mult_infty y false N) as M'. cbn [infinity] in M, M'. split.
  - pose proof (filterlim_Rbar_mult_l y m_infty) as H. rewrite M in H.
    pose proof (filterlim_comp _ _ _ ln (Rmult y) _ _ _ is_lim_ln_0 H) as G.
    apply (filterlim_comp _ _ _ (fun x => y * ln x) exp _ _ _ G).
    destruct (Rlt_dec 0 y), (Rlt_dec y 0); try lra; cbn [xorb infinity]; [exact is_lim_exp_m|exact is_lim_exp_p].
  - pose proof (is_lim_scal_l ln y p_infty p_infty is_lim_ln_p) as H. rewrite M' in H.
    unfold is_lim in *. apply (filterlim_comp _ _ _ (fun x => y * ln x) exp _ _ _ H).
    destruct (Rlt_dec 0 y), (Rlt_dec y 0); try lra; cbn [xorb infinity]; [exact is_lim_exp_p|exact is_lim_exp_m].
Qed.
Lemma pow_negated : forall a n, a <> XNan ->
  x_pow (xopp a) (IZR n) = if Z.odd n then xopp (x_pow a (IZR n)) else x_pow a (IZR n).
Proof.
  intros a n N. destruct (Z.eq_dec n 0) as [->|Nz]; [rewrite !pow_zero_exponent; reflexivity|].
  assert (Y : IZR n <> 0) by (apply not_0_IZR, Nz).
  assert (W : whole (IZR n) = true) by (apply whole_iff; eauto).
  assert (Z0 : forall P : Prop, (0 <> 0 -> P)) by (intros; exfalso; congruence).
  destruct a as [x| |s|]; [| | |congruence].
  - destruct (Req_dec x 0) as [->|X].
    + replace (xopp (XFin 0)) with XNegZero by (cbn; unfold signed; destruct (Req_EM_T (- 0) 0); [reflexivity|lra]).
      destruct (pow_ends (IZR n) Y) as [-> _]. unfold x_pow. destruct (Req_EM_T (IZR n) 0); [contradiction|].
      cbn [xzero xval xsign]. destruct (Req_EM_T 0 0); [|congruence]. rewrite odd_IZR. cbn [andb].
      destruct (Z.odd n), (Rlt_dec 0 (IZR n)); try reflexivity. cbn. unfold signed. destruct (Req_EM_T (- 0) 0); [reflexivity|lra].
    + replace (xopp (XFin x)) with (XFin (- x)) by (cbn; unfold signed; destruct (Req_EM_T (- x) 0); [lra|reflexivity]).
      assert (V : forall z, z <> 0 -> x_pow (XFin z) (IZR n) = XFin (powerRZ z n)).
      { intros z Hz. destruct (Rlt_dec 0 z) as [L|L]; [rewrite pow_positive, powerRZ_Rpower by assumption; reflexivity|].
        unfold x_pow. destruct (Req_EM_T (IZR n) 0); [contradiction|]. cbn [xzero xval]. destruct (Req_EM_T z 0); [contradiction|].
        destruct (Rlt_dec 0 z); [contradiction|]. rewrite W, int_part_IZR. reflexivity. }
      rewrite !V by lra. rewrite powerRZ_opp by assumption. destruct (Z.odd n); [|reflexivity].
      cbn. unfold signed. destruct (Req_EM_T (- powerRZ x n) 0) as [E|]; [|reflexivity]. pose proof (powerRZ_NOR x n X). lra.
  - cbn [xopp]. destruct (pow_ends (IZR n) Y) as [-> _]. unfold x_pow. destruct (Req_EM_T (IZR n) 0); [contradiction|].
    cbn [xzero xval xsign]. destruct (Req_EM_T 0 0); [|congruence]. rewrite odd_IZR. cbn [andb].
    destruct (Z.odd n), (Rlt_dec 0 (IZR n)); reflexivity.
  - cbn [xopp]. unfold x_pow. destruct (Req_EM_T (IZR n) 0); [contradiction|]. rewrite odd_IZR.
    destruct s, (Z.odd n), (Rlt_dec 0 (IZR n)); cbn; try reflexivity; unfold signed; destruct (Req_EM_T (- 0) 0); try reflexivity; lra.
Qed.
Lemma pow_fraction : forall a y, (forall n, y <> IZR n) ->
  x_pow a y = match a with
              | XNegZero => x_pow (XFin 0) y
              | XInf _ => x_pow (XInf false) y
              | XFin x => if Rlt_dec x 0 then XNan else x_pow a y
              | XNan => XNan
              end.
Proof.
  intros a y F. assert (W : whole y = false) by (destruct (whole y) eqn:E; [apply whole_iff in E; destruct E as (n & E); destruct (F n E)|reflexivity]).
  assert (Y : y <> 0) by (apply (F 0%Z)).
  assert (O : odd y = false) by (unfold odd; rewrite W; reflexivity).
  destruct a as [x| |s|].
  - destruct (Rlt_dec x 0); [|reflexivity]. unfold x_pow. destruct (Req_EM_T y 0); [contradiction|]. cbn [xzero xval].
    destruct (Req_EM_T x 0); [lra|]. destruct (Rlt_dec 0 x); [lra|]. rewrite W. reflexivity.
  - destruct (pow_ends y Y) as [-> _]. unfold x_pow. destruct (Req_EM_T y 0); [contradiction|]. cbn [xzero xval xsign]. destruct (Req_EM_T 0 0); [|congruence].
    rewrite O. reflexivity.
  - destruct (pow_ends y Y) as [_ ->]. unfold x_pow. destruct (Req_EM_T y 0); [contradiction|]. rewrite O. destruct s; reflexivity.
  - unfold x_pow. destruct (Req_EM_T y 0); [contradiction|reflexivity].
Qed.
Lemma pow_nan : forall y, y <> 0 -> x_pow XNan y = XNan.
Proof. intros y Y. unfold x_pow. destruct (Req_EM_T y 0); [contradiction|reflexivity]. Qed.
Lemma power_python : forall a y,
  (is_zero a -> y < 0 -> x_power Python a y = Err ZeroDivisionError) /\
  (forall x, a = XFin x -> x < 0 -> (forall n, y <> IZR n) -> x_power Python a y = Err NonFinite) /\
  (~ (is_zero a /\ y < 0) -> (forall x, a = XFin x -> 0 <= x \/ exists n, y = IZR n) -> x_power Python a y = Ok (x_pow a y)) /\
  x_power Scalar a y = Ok (x_pow a y) /\ x_power Array a y = Ok (x_pow a y).
Proof.
  intros a y. repeat split; cbn [x_power].
  - intros Z L. apply is_zero_xzero in Z. rewrite Z. destruct (Rlt_dec y 0); [reflexivity|contradiction].
  - intros x -> L F. assert (W : whole y = false) by (destruct (whole y) eqn:E; [apply whole_iff in E; destruct E as (n & E); destruct (F n E)|reflexivity]).
    cbn. destruct (Req_EM_T x 0); [lra|]. cbn. destruct (Rlt_dec x 0); [|contradiction]. rewrite W. reflexivity.
  - intros N F. destruct (xzero a) eqn:Z.
    + apply is_zero_xzero in Z. destruct (Rlt_dec y 0); [tauto|]. cbn [andb].
      destruct Z as [->|[-> _]]; cbn; destruct (Rlt_dec 0 0); try lra; reflexivity.
    + cbn [andb]. destruct a as [x| |[]|]; cbn [xltb xval]; try (destruct (Rlt_dec 0 0); [lra|]); try reflexivity.
      * destruct (Rlt_dec x 0); [|reflexivity]. destruct (F x eq_refl) as [L|(k & ->)]; [lra|].
        assert (W : whole (IZR k) = true) by (apply whole_iff; eauto). rewrite W. reflexivity.
      * rewrite !Bool.andb_false_r. reflexivity.
Qed.

(** ** Polynomials *)
Lemma times_zero : forall x, ~ finite x -> (x * XFin 0)%xnum = XNan.
Proof.
  intros [x| |s|] N; [exfalso; apply N; exists x; left; reflexivity|exfalso; apply N; exists 0; right; auto| |reflexivity].
  cbn. destruct (Req_EM_T 0 0); [reflexivity|congruence].
Qed.
Lemma add_nan : forall a, (a + XNan)%xnum = XNan.
Proof. intros []; reflexivity. Qed.
Lemma eval_nan : forall x l, ~ finite x -> l <> nil -> x_poly_eval x l = XNan.
Proof.
  intros x l N. induction l as [|a l IH]; intros E; [congruence|]. destruct l as [|b l].
  - cbn [x_poly_eval]. rewrite times_zero by exact N. apply add_nan.
  - change (x_poly_eval x (a :: b :: l)) with (a + x_poly_eval x (b :: l) * x)%xnum. rewrite IH by discriminate. apply add_nan.
Qed.
Lemma rows_nan : forall x c, ~ finite x -> List.Forall (eq XNan) (x_poly_rows x c).
Proof.
  intros x c N. induction c as [|row c IH]; [constructor|]. destruct c as [|row' c].
  - cbn [x_poly_rows]. induction row; cbn [List.map]; constructor; [rewrite times_zero by exact N; symmetry; apply add_nan|assumption].
  - change (x_poly_rows x (row :: row' :: c)) with (xmap2 (fun a acc => a + acc * x)%xnum row (x_poly_rows x (row' :: c))).
    revert IH. generalize (x_poly_rows x (row' :: c)). intros l H. revert row. induction H as [|a l Ha H IH]; intros [|b row]; cbn [xmap2]; constructor.
    + subst a. symmetry. apply add_nan.
    + apply IH.
Qed.
Lemma eval_of_nan : forall v l, l <> nil -> List.Forall (eq XNan) l -> x_poly_eval v l = XNan.
Proof. intros v l N H. destruct H as [|a l Ha H]; [congruence|]. subst a. destruct l; reflexivity. Qed.
Lemma poly_not_finite : forall x v c z, ~ finite x \/ ~ finite v -> x_fit_property x v (Some c) = Ok z -> z = XNan.
Proof.
  intros x v c z N E. cbn [x_fit_property] in E. unfold x_polyval2d in E.
  assert (R : ~ finite x -> List.Forall (eq XNan) (x_poly_rows x (List.map (List.map XFin) c))) by (apply rows_nan).
  destruct (x_poly_rows x (List.map (List.map XFin) c)) as [|a l]; [discriminate|].
  assert (E' : z = x_poly_eval v (a :: l)) by congruence. rewrite E'. clear E E'.
  destruct N as [N|N]; [apply eval_of_nan; [discriminate|exact (R N)]|apply eval_nan; [exact N|discriminate]].
Qed.
