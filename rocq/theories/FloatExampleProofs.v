(** Rounding errors with numbers: the examples behind the refuted claims. *)
From Coq Require Import Reals Lra Lia List ZArith Psatz.
From Flocq Require Import Core.
From Verif Require Import Base BaseProofs MaterialModel MainModel MainProofs FloatModel FloatSpec FloatProofs.
Import ListNotations.
Open Scope R_scope.

(** The dyadic number m / 2^j. *)
Definition dy (m : Z) (j : nat) : R := IZR m / IZR (2 ^ Z.of_nat j).
Lemma dy_pos j : 0 < IZR (2 ^ Z.of_nat j).
Proof. apply IZR_lt. apply Z.pow_pos_nonneg; lia. Qed.
Lemma dy_bpow m j : dy m j = IZR m * bpow radix2 (- Z.of_nat j).
Proof.
  unfold dy, Rdiv. f_equal. rewrite bpow_opp. f_equal. rewrite <- (IZR_Zpower radix2) by lia. reflexivity.
Qed.
Lemma znearest_tie x m : Rabs (x - IZR m) = / 2 -> Z.even m = true -> ZnearestE x = m.
Proof.
  intros H E. unfold Rabs in H. destruct (Rcase_abs (x - IZR m)) as [C|C].
  - assert (F : Zfloor x = (m - 1)%Z). { apply Zfloor_imp. rewrite plus_IZR, minus_IZR. lra. }
    assert (G : Zceil x = m). { apply Zceil_imp. rewrite minus_IZR. lra. }
    unfold Znearest. rewrite F, G. rewrite Rcompare_Eq by (rewrite minus_IZR; lra).
    rewrite Z.even_sub, E. reflexivity.
  - assert (F : Zfloor x = m). { apply Zfloor_imp. rewrite plus_IZR. lra. }
    unfold Znearest. rewrite F. rewrite Rcompare_Eq by lra. rewrite E. reflexivity.
Qed.
(** Rounding of x = a / b, checked on whole numbers. *)
Lemma fl_dy x a b m j : x * IZR b = IZR a -> (0 < b)%Z -> (j <= 1000)%nat ->
  ((2 ^ 52 * b <=? a * 2 ^ Z.of_nat j) && (a * 2 ^ Z.of_nat j <? 2 ^ 53 * b) &&
   ((Z.abs (2 * (a * 2 ^ Z.of_nat j - m * b)) <? b) ||
    (Z.abs (2 * (a * 2 ^ Z.of_nat j - m * b)) =? b) && Z.even m) = true)%Z%bool ->
  fl x = dy m j.
Proof.
  intros X B J C. apply Bool.andb_true_iff in C. destruct C as [C C3]. apply Bool.andb_true_iff in C. destruct C as [C1 C2].
  apply Z.leb_le in C1. apply Z.ltb_lt in C2. apply IZR_le in C1. apply IZR_lt in C2. apply IZR_lt in B.
  rewrite !mult_IZR in C1, C2. rewrite <- X in C1, C2.
  set (P := IZR (2 ^ Z.of_nat j)) in *. assert (P0 : 0 < P) by apply dy_pos.
  assert (L1 : IZR (2 ^ 52) <= x * P) by (apply Rmult_le_reg_r with (IZR b); [exact B|]; lra).
  assert (L2 : x * P < IZR (2 ^ 53)) by (apply Rmult_lt_reg_r with (IZR b); [exact B|]; lra).
  assert (EP : P = bpow radix2 (Z.of_nat j)). { unfold P. rewrite <- (IZR_Zpower radix2) by lia. reflexivity. }
  assert (NR : ZnearestE (x * P) = m).
  { assert (D : forall y : Z, y = (2 * (a * 2 ^ Z.of_nat j - m * b))%Z -> x * P - IZR m = IZR y / (2 * IZR b)).
    { intros y ->. rewrite mult_IZR, minus_IZR, !mult_IZR. fold P. rewrite <- X. field. lra. }
    specialize (D _ eq_refl). set (y := (2 * (a * 2 ^ Z.of_nat j - m * b))%Z) in *.
    apply Bool.orb_true_iff in C3. destruct C3 as [C3|C3].
    - apply Z.ltb_lt in C3. apply IZR_lt in C3. rewrite abs_IZR in C3. apply Znearest_imp. rewrite D.
      unfold Rdiv. rewrite Rabs_mult. rewrite (Rabs_pos_eq (/ _)) by (left; apply Rinv_0_lt_compat; lra).
      apply Rmult_lt_reg_r with (2 * IZR b); [lra|]. rewrite Rmult_assoc, Rinv_l by lra. lra.
    - apply Bool.andb_true_iff in C3. destruct C3 as [C3 C4]. apply Z.eqb_eq in C3. apply znearest_tie; [|exact C4]. rewrite D.
      unfold Rdiv. rewrite Rabs_mult. rewrite (Rabs_pos_eq (/ _)) by (left; apply Rinv_0_lt_compat; lra).
      rewrite <- abs_IZR, C3. field. lra. }
  unfold fl, round, scaled_mantissa, cexp, F2R. cbn [Fnum Fexp].
  assert (M : mag radix2 x = (53 - Z.of_nat j)%Z :> Z).
  { apply mag_unique. rewrite Rabs_pos_eq.
    - replace (53 - Z.of_nat j - 1)%Z with (52 - Z.of_nat j)%Z by lia.
      rewrite !(bpow_plus radix2 _ (- Z.of_nat j)) || idtac. unfold Z.sub. rewrite !bpow_plus, !bpow_opp, <- EP.
      change (bpow radix2 52) with (IZR (2 ^ 52)). change (bpow radix2 53) with (IZR (2 ^ 53)). split.
      + apply Rmult_le_reg_r with P; [exact P0|]. rewrite Rmult_assoc, Rinv_l by lra. lra.
      + apply Rmult_lt_reg_r with P; [exact P0|]. rewrite Rmult_assoc, Rinv_l by lra. lra.
    - apply Rmult_le_reg_r with P; [exact P0|]. rewrite Rmult_0_l. eapply Rle_trans; [|exact L1]. apply IZR_le. lia. }
  rewrite M. unfold FLT_exp. rewrite Z.max_l by lia.
  replace (- (53 - Z.of_nat j - 53))%Z with (Z.of_nat j) by lia. rewrite <- EP, NR, dy_bpow. f_equal. f_equal. lia.
Qed.
(** Rounding of the root of x = a / b. *)
Lemma fl_root_dy x a b m j : x * IZR b = IZR a -> (0 < b)%Z -> (j <= 1000)%nat -> (2 ^ 52 <= m < 2 ^ 53)%Z ->
  (((2 * m - 1) ^ 2 * b <? 4 * a * 2 ^ (2 * Z.of_nat j)) && (4 * a * 2 ^ (2 * Z.of_nat j) <? (2 * m + 1) ^ 2 * b) &&
   (2 ^ 104 * b <=? a * 2 ^ (2 * Z.of_nat j)) && (a * 2 ^ (2 * Z.of_nat j) <? 2 ^ 106 * b) = true)%Z%bool ->
  fl_sqrt x = dy m j.
Proof.
  intros X B J Hm C. repeat (apply Bool.andb_true_iff in C; destruct C as [C ?C']).
  apply Z.ltb_lt in C, C'1, C'. apply Z.leb_le in C'0. apply IZR_lt in C, C'1, C', B. apply IZR_le in C'0.
  replace (2 ^ (2 * Z.of_nat j))%Z with (2 ^ Z.of_nat j * 2 ^ Z.of_nat j)%Z in * by (rewrite <- Z.pow_add_r by lia; f_equal; lia).
  rewrite !mult_IZR in *. set (P := IZR (2 ^ Z.of_nat j)) in *. assert (P0 : 0 < P) by apply dy_pos.
  rewrite <- X in *.
  assert (EP : P = bpow radix2 (Z.of_nat j)). { unfold P. rewrite <- (IZR_Zpower radix2) by lia. reflexivity. }
  assert (X0 : 0 <= x).
  { apply Rmult_le_reg_r with (IZR b * (P * P)); [repeat apply Rmult_lt_0_compat; assumption|]. rewrite Rmult_0_l.
    apply Rle_trans with (IZR (2 ^ 104) * IZR b); [apply Rmult_le_pos; [apply IZR_le; lia|lra]|]. lra. }
  set (s := sqrt x * P). assert (S0 : 0 <= s) by (apply Rmult_le_pos; [apply sqrt_pos|lra]).
  assert (SS : s * s = x * (P * P)). { unfold s. rewrite <- (sqrt_sqrt x X0) at 3. ring. }
  assert (H1 : IZR (2 ^ 104) <= s * s) by (rewrite SS; apply Rmult_le_reg_r with (IZR b); [exact B|]; lra).
  assert (H2 : s * s < IZR (2 ^ 106)) by (rewrite SS; apply Rmult_lt_reg_r with (IZR b); [exact B|]; lra).
  replace ((2 * m - 1) ^ 2)%Z with ((2 * m - 1) * (2 * m - 1))%Z in * by ring.
  replace ((2 * m + 1) ^ 2)%Z with ((2 * m + 1) * (2 * m + 1))%Z in * by ring.
  rewrite !mult_IZR in *.
  rewrite !minus_IZR, !mult_IZR in C. rewrite !plus_IZR, !mult_IZR in C'1.
  assert (H3 : (2 * IZR m - 1) * (2 * IZR m - 1) < (2 * s) * (2 * s)).
  { replace (2 * s * (2 * s)) with (4 * (s * s)) by ring. rewrite SS. apply Rmult_lt_reg_r with (IZR b); [exact B|]; lra. }
  assert (H4 : (2 * s) * (2 * s) < (2 * IZR m + 1) * (2 * IZR m + 1)).
  { replace (2 * s * (2 * s)) with (4 * (s * s)) by ring. rewrite SS. apply Rmult_lt_reg_r with (IZR b); [exact B|]; lra. }
  assert (M0 : 1 <= IZR m) by (apply IZR_le; lia).
  assert (K1 : IZR (2 ^ 52) <= s).
  { destruct (Rle_dec (IZR (2 ^ 52)) s) as [|N]; [assumption|]. exfalso.
    replace (IZR (2 ^ 104)) with (IZR (2 ^ 52) * IZR (2 ^ 52)) in H1 by (rewrite <- mult_IZR; f_equal). 
    assert (0 < IZR (2 ^ 52)) by (apply IZR_lt; lia). nra. }
  assert (K2 : s < IZR (2 ^ 53)).
  { destruct (Rlt_dec s (IZR (2 ^ 53))) as [|N]; [assumption|]. exfalso.
    replace (IZR (2 ^ 106)) with (IZR (2 ^ 53) * IZR (2 ^ 53)) in H2 by (rewrite <- mult_IZR; f_equal). 
    assert (0 < IZR (2 ^ 53)) by (apply IZR_lt; lia). nra. }
  assert (K3 : Rabs (s - IZR m) < / 2) by (apply Rabs_def1; nra).
  unfold fl_sqrt, fl, round, scaled_mantissa, cexp, F2R. cbn [Fnum Fexp].
  assert (M : mag radix2 (sqrt x) = (53 - Z.of_nat j)%Z :> Z).
  { apply mag_unique. rewrite Rabs_pos_eq by apply sqrt_pos.
    replace (53 - Z.of_nat j - 1)%Z with (52 - Z.of_nat j)%Z by lia.
    unfold Z.sub. rewrite !bpow_plus, !bpow_opp, <- EP.
    change (bpow radix2 52) with (IZR (2 ^ 52)). change (bpow radix2 53) with (IZR (2 ^ 53)). split.
    + apply Rmult_le_reg_r with P; [exact P0|]. rewrite Rmult_assoc, Rinv_l by lra. unfold s in *. lra.
    + apply Rmult_lt_reg_r with P; [exact P0|]. rewrite Rmult_assoc, Rinv_l by lra. unfold s in *. lra. }
  rewrite M. unfold FLT_exp. rewrite Z.max_l by lia.
  replace (- (53 - Z.of_nat j - 53))%Z with (Z.of_nat j) by lia. rewrite <- EP. fold s. rewrite (Znearest_imp _ _ m K3), dy_bpow. f_equal. f_equal. lia.
Qed.

Ltac dyadic_values := unfold dy; repeat match goal with
  |- context [(2 ^ Z.of_nat ?j)%Z] => let v := eval vm_compute in (2 ^ Z.of_nat j)%Z in change (2 ^ Z.of_nat j)%Z with v end.
Ltac dyadic := dyadic_values; field_simplify; lra.
Ltac dyadic_small := dyadic_values; lra.
Lemma rnd_small x y : fl x = y -> - 1024 <= y <= 1024 -> rnd x = Ok y.
Proof.
  intros E H. unfold rnd. rewrite E. destruct (Rlt_dec (Rabs y) (2 ^ 1024)) as [|N]; [reflexivity|].
  exfalso. apply N. apply Rle_lt_trans with (2 ^ 10); [|exact big_pow]. apply Rabs_le. simpl. lra.
Qed.
Lemma four_thirds_value : four_thirds = dy 6004799503160661 52.
Proof.
  assert (H43 : fl (4 / 3) = dy 6004799503160661 52) by (apply (fl_dy _ 4 3 6004799503160661 52); [dyadic|lia|lia|vm_compute; reflexivity]).
  exact H43.
Qed.
Lemma root_four_thirds_value : fl_sqrt four_thirds = dy 5200308914369308 52.
Proof.
  rewrite four_thirds_value.
  assert (H : fl_sqrt (dy 6004799503160661 52) = dy 5200308914369308 52) by (apply (fl_root_dy _ 6004799503160661 4503599627370496 5200308914369308 52); [dyadic|lia|lia|lia|vm_compute; reflexivity]).
  exact H.
Qed.
(** Bulk modulus 0, shear modulus 7, density 1: the primary velocity comes out
    one unit below the limit, and the material is refused. *)
Lemma moduli_rejected : f_mat_of_moduli fl_sqrt 0 7 1 = Err ValueError.
Proof.
  assert (Hc : fl (dy 6004799503160661 52 * 7) = dy 5254199565265578 49) by (apply (fl_dy _ 42033596522124627 4503599627370496 5254199565265578 49); [dyadic|lia|lia|vm_compute; reflexivity]).
  assert (Hb : fl (0 + dy 5254199565265578 49) = dy 5254199565265578 49) by (apply (fl_dy _ 2627099782632789 281474976710656 5254199565265578 49); [dyadic|lia|lia|vm_compute; reflexivity]).
  assert (Hq : fl (dy 5254199565265578 49 / 1) = dy 5254199565265578 49) by (apply (fl_dy _ 2627099782632789 281474976710656 5254199565265578 49); [dyadic|lia|lia|vm_compute; reflexivity]).
  assert (Hp : fl_sqrt (dy 5254199565265578 49) = dy 6879362064066737 51) by (apply (fl_root_dy _ 2627099782632789 281474976710656 6879362064066737 51); [dyadic|lia|lia|lia|vm_compute; reflexivity]).
  assert (Hr : fl (7 / 1) = dy 7881299347898368 50) by (apply (fl_dy _ 7 1 7881299347898368 50); [dyadic|lia|lia|vm_compute; reflexivity]).
  assert (Hs : fl_sqrt (dy 7881299347898368 50) = dy 5957702309312746 51) by (apply (fl_root_dy _ 7 1 5957702309312746 51); [dyadic|lia|lia|lia|vm_compute; reflexivity]).
  assert (Hl : fl (dy 5200308914369308 52 * dy 5957702309312746 51) = dy 6879362064066738 51) by (apply (fl_dy _ 3872736553534710670258189449971 1267650600228229401496703205376 6879362064066738 51); [dyadic|lia|lia|vm_compute; reflexivity]).
  unfold f_mat_of_moduli, f_primary_velocity. rewrite four_thirds_value.
  rewrite (rnd_small _ _ Hc) by dyadic_small. cbn [bind].
  rewrite (rnd_small _ _ Hb) by dyadic_small. cbn [bind].
  unfold f_np_div at 1. destruct (Req_EM_T _ 0) as [Z|_]; [exfalso; lra|].
  rewrite (rnd_small _ _ Hq) by dyadic_small. cbn [bind].
  unfold f_root at 1. destruct (Rlt_dec _ 0) as [Z|_]; [exfalso; revert Z; apply Rle_not_lt; dyadic_small|]. cbn [bind]. rewrite Hp.
  unfold f_secondary_velocity, f_np_div. destruct (Req_EM_T _ 0) as [Z|_]; [exfalso; lra|].
  rewrite (rnd_small _ _ Hr) by dyadic_small. cbn [bind].
  unfold f_root. destruct (Rlt_dec _ 0) as [Z|_]; [exfalso; revert Z; apply Rle_not_lt; dyadic_small|]. cbn [bind]. rewrite Hs.
  unfold f_guards. repeat (destruct (Rlt_dec _ 0) as [Z|_]; [exfalso; revert Z; apply Rle_not_lt; dyadic_small|]).
  rewrite root_four_thirds_value.
  rewrite (rnd_small _ _ Hl) by dyadic_small. cbn [bind].
  destruct (Rlt_dec _ _) as [_|Z]; [reflexivity|]. exfalso. apply Z. dyadic_small.
Qed.
(** Bulk modulus 0, shear modulus 1, density 2 is accepted, but the bulk modulus
    recomputed from the velocities is negative. *)
Lemma moduli_accepted : f_mat_of_moduli fl_sqrt 0 1 2 = Ok (mkMat 0 1 2 (dy 7354347395230782 53) (dy 6369051672525773 53)).
Proof.
  assert (Hc : fl (dy 6004799503160661 52 * 1) = dy 6004799503160661 52) by (apply (fl_dy _ 6004799503160661 4503599627370496 6004799503160661 52); [dyadic|lia|lia|vm_compute; reflexivity]).
  assert (Hb : fl (0 + dy 6004799503160661 52) = dy 6004799503160661 52) by (apply (fl_dy _ 6004799503160661 4503599627370496 6004799503160661 52); [dyadic|lia|lia|vm_compute; reflexivity]).
  assert (Hq : fl (dy 6004799503160661 52 / 2) = dy 6004799503160661 53) by (apply (fl_dy _ 6004799503160661 9007199254740992 6004799503160661 53); [dyadic|lia|lia|vm_compute; reflexivity]).
  assert (Hp : fl_sqrt (dy 6004799503160661 53) = dy 7354347395230782 53) by (apply (fl_root_dy _ 6004799503160661 9007199254740992 7354347395230782 53); [dyadic|lia|lia|lia|vm_compute; reflexivity]).
  assert (Hr : fl (1 / 2) = dy 4503599627370496 53) by (apply (fl_dy _ 1 2 4503599627370496 53); [dyadic|lia|lia|vm_compute; reflexivity]).
  assert (Hs : fl_sqrt (dy 4503599627370496 53) = dy 6369051672525773 53) by (apply (fl_root_dy _ 1 2 6369051672525773 53); [dyadic|lia|lia|lia|vm_compute; reflexivity]).
  assert (Hl : fl (dy 5200308914369308 52 * dy 6369051672525773 53) = dy 7354347395230782 53) by (apply (fl_dy _ 8280259047178631990429417543771 10141204801825835211973625643008 7354347395230782 53); [dyadic|lia|lia|vm_compute; reflexivity]).
  unfold f_mat_of_moduli, f_primary_velocity. rewrite four_thirds_value.
  rewrite (rnd_small _ _ Hc) by dyadic_small. cbn [bind].
  rewrite (rnd_small _ _ Hb) by dyadic_small. cbn [bind].
  unfold f_np_div at 1. destruct (Req_EM_T _ 0) as [Z|_]; [exfalso; lra|].
  rewrite (rnd_small _ _ Hq) by dyadic_small. cbn [bind].
  unfold f_root at 1. destruct (Rlt_dec _ 0) as [Z|_]; [exfalso; revert Z; apply Rle_not_lt; dyadic_small|]. cbn [bind]. rewrite Hp.
  unfold f_secondary_velocity, f_np_div. destruct (Req_EM_T _ 0) as [Z|_]; [exfalso; lra|].
  rewrite (rnd_small _ _ Hr) by dyadic_small. cbn [bind].
  unfold f_root. destruct (Rlt_dec _ 0) as [Z|_]; [exfalso; revert Z; apply Rle_not_lt; dyadic_small|]. cbn [bind]. rewrite Hs.
  unfold f_guards. repeat (destruct (Rlt_dec _ 0) as [Z|_]; [exfalso; revert Z; apply Rle_not_lt; dyadic_small|]).
  rewrite root_four_thirds_value.
  rewrite (rnd_small _ _ Hl) by dyadic_small. cbn [bind].
  destruct (Rlt_dec _ _) as [Z|_]; [exfalso; revert Z; apply Rle_not_lt; dyadic_small|reflexivity].
Qed.
Lemma repack_rejected : f_repack fl_sqrt (mkMat 0 1 2 (dy 7354347395230782 53) (dy 6369051672525773 53)) = Err ValueError.
Proof.
  assert (Hx : fl (dy 6369051672525773 53 * dy 6369051672525773 53) = dy 4503599627370497 53) by (apply (fl_dy _ 40564819207303346393761349247529 81129638414606681695789005144064 4503599627370497 53); [dyadic|lia|lia|vm_compute; reflexivity]).
  assert (Hm : fl (dy 4503599627370497 53 * 2) = dy 4503599627370497 52) by (apply (fl_dy _ 4503599627370497 4503599627370496 4503599627370497 52); [dyadic|lia|lia|vm_compute; reflexivity]).
  assert (Hy : fl (dy 7354347395230782 53 * dy 7354347395230782 53) = dy 6004799503160661 53) by (apply (fl_dy _ 13521606402434447006519760082881 20282409603651670423947251286016 6004799503160661 53); [dyadic|lia|lia|vm_compute; reflexivity]).
  assert (Hb : fl (dy 6004799503160661 53 * 2) = dy 6004799503160661 52) by (apply (fl_dy _ 6004799503160661 4503599627370496 6004799503160661 52); [dyadic|lia|lia|vm_compute; reflexivity]).
  assert (Hc : fl (dy 6004799503160661 52 * dy 4503599627370497 52) = dy 6004799503160662 52) by (apply (fl_dy _ 27043212804868898402195962418517 20282409603651670423947251286016 6004799503160662 52); [dyadic|lia|lia|vm_compute; reflexivity]).
  assert (Hk : fl (dy 6004799503160661 52 - dy 6004799503160662 52) = - dy 1 52).
  { replace (dy 6004799503160661 52 - dy 6004799503160662 52) with (- dy 1 52) by (dyadic_values; lra). apply double_rounds.
    exists (-1)%Z, (-52)%Z. split; [reflexivity|]. split; [lia|]. dyadic_values. simpl powerRZ. lra. }
  unfold f_repack, f_mat_of_velocities, f_shear_modulus. cbn [dens vp vs].
  rewrite (rnd_small _ _ Hx) by dyadic_small. cbn [bind].
  rewrite (rnd_small _ _ Hm) by dyadic_small. cbn [bind].
  unfold f_bulk_modulus. rewrite four_thirds_value.
  rewrite (rnd_small _ _ Hy) by dyadic_small. cbn [bind].
  rewrite (rnd_small _ _ Hb) by dyadic_small. cbn [bind].
  rewrite (rnd_small _ _ Hc) by dyadic_small. cbn [bind].
  rewrite (rnd_small _ _ Hk) by dyadic_small. cbn [bind].
  unfold f_guards. destruct (Rlt_dec 2 0) as [Z|_]; [exfalso; lra|]. destruct (Rlt_dec _ 0) as [_|Z]; [reflexivity|]. exfalso. apply Z. dyadic_small.
Qed.
(** Gassmann's equation for an empty pore: the saturated rock comes out softer
    than the dry rock. *)
Lemma gassman_softer : f_gassman_equation 1 10 0 (1 / 4) = Ok (dy 9007199254740991 53) /\ dy 9007199254740991 53 < 1.
Proof.
  split; [|dyadic_small].
  assert (Hx : fl (10 - 1) = dy 5066549580791808 49) by (apply (fl_dy _ 9 1 5066549580791808 49); [dyadic|lia|lia|vm_compute; reflexivity]).
  assert (Ha : fl (1 / dy 5066549580791808 49) = dy 8006399337547548 56) by (apply (fl_dy _ 1 9 8006399337547548 56); [dyadic|lia|lia|vm_compute; reflexivity]).
  assert (Hy : fl (10 - 0) = dy 5629499534213120 49) by (apply (fl_dy _ 10 1 5629499534213120 49); [dyadic|lia|lia|vm_compute; reflexivity]).
  assert (Hz : fl (dy 5629499534213120 49 * (1 / 4)) = dy 5629499534213120 51) by (apply (fl_dy _ 5 2 5629499534213120 51); [dyadic|lia|lia|vm_compute; reflexivity]).
  assert (Hf : fl (dy 8006399337547548 56 + 0) = dy 8006399337547548 56) by (apply (fl_dy _ 2001599834386887 18014398509481984 8006399337547548 56); [dyadic|lia|lia|vm_compute; reflexivity]).
  assert (Ht : fl (1 + dy 8006399337547548 56) = dy 5003999585967218 52) by (apply (fl_dy _ 20015998343868871 18014398509481984 5003999585967218 52); [dyadic|lia|lia|vm_compute; reflexivity]).
  assert (Hq : fl (dy 8006399337547548 56 / dy 5003999585967218 52) = dy 7205759403792793 56) by (apply (fl_dy _ 2001599834386887 20015998343868872 7205759403792793 56); [dyadic|lia|lia|vm_compute; reflexivity]).
  assert (Hk : fl (dy 7205759403792793 56 * 10) = dy 9007199254740991 53) by (apply (fl_dy _ 36028797018963965 36028797018963968 9007199254740991 53); [dyadic|lia|lia|vm_compute; reflexivity]).
  unfold f_gassman_equation. destruct (Req_EM_T (1 / 4) 0) as [Z|_]; [exfalso; lra|]. destruct (Req_EM_T 1 10) as [Z|_]; [exfalso; lra|].
  rewrite (rnd_small _ _ Hx) by dyadic_small. cbn [bind].
  unfold f_py_div at 1. destruct (Req_EM_T _ 0) as [Z|_]; [exfalso; revert Z; apply Rgt_not_eq; dyadic_small|].
  rewrite (rnd_small _ _ Ha) by dyadic_small. cbn [bind].
  rewrite (rnd_small _ _ Hy) by dyadic_small. cbn [bind].
  rewrite (rnd_small _ _ Hz) by dyadic_small. cbn [bind].
  unfold f_py_div at 1. destruct (Req_EM_T _ 0) as [Z|_]; [exfalso; revert Z; apply Rgt_not_eq; dyadic_small|].
  replace (0 / dy 5629499534213120 51) with 0 by (unfold Rdiv; ring). rewrite (rnd_small _ _ fl0) by lra. cbn [bind].
  rewrite (rnd_small _ _ Hf) by dyadic_small. cbn [bind].
  destruct (Rlt_dec _ 0) as [Z|_]; [exfalso; revert Z; apply Rle_not_lt; dyadic_small|].
  rewrite (rnd_small _ _ Ht) by dyadic_small. cbn [bind].
  unfold f_py_div. destruct (Req_EM_T _ 0) as [Z|_]; [exfalso; revert Z; apply Rgt_not_eq; dyadic_small|].
  rewrite (rnd_small _ _ Hq) by dyadic_small. cbn [bind].
  apply rnd_small; [exact Hk|dyadic_small].
Qed.
(** The fractions 0.2, 0.4, 0.3 and 0.1 leave a negative rest. *)
Definition decimals : list R := [2 / 10; 4 / 10; 3 / 10; 1 / 10].
Lemma rest_negative : f_rest (map fl decimals) = Ok (- dy 1 52).
Proof.
  assert (D0 : fl (2 / 10) = dy 7205759403792794 55) by (apply (fl_dy _ 1 5 7205759403792794 55); [dyadic|lia|lia|vm_compute; reflexivity]).
  assert (D1 : fl (4 / 10) = dy 7205759403792794 54) by (apply (fl_dy _ 2 5 7205759403792794 54); [dyadic|lia|lia|vm_compute; reflexivity]).
  assert (D2 : fl (3 / 10) = dy 5404319552844595 54) by (apply (fl_dy _ 3 10 5404319552844595 54); [dyadic|lia|lia|vm_compute; reflexivity]).
  assert (D3 : fl (1 / 10) = dy 7205759403792794 56) by (apply (fl_dy _ 1 10 7205759403792794 56); [dyadic|lia|lia|vm_compute; reflexivity]).
  assert (S0 : fl (0 + dy 7205759403792794 55) = dy 7205759403792794 55) by (apply (fl_dy _ 3602879701896397 18014398509481984 7205759403792794 55); [dyadic|lia|lia|vm_compute; reflexivity]).
  assert (S1 : fl (dy 7205759403792794 55 + dy 7205759403792794 54) = dy 5404319552844596 53) by (apply (fl_dy _ 10808639105689191 18014398509481984 5404319552844596 53); [dyadic|lia|lia|vm_compute; reflexivity]).
  assert (S2 : fl (dy 5404319552844596 53 + dy 5404319552844595 54) = dy 8106479329266894 53) by (apply (fl_dy _ 16212958658533787 18014398509481984 8106479329266894 53); [dyadic|lia|lia|vm_compute; reflexivity]).
  assert (S3 : fl (dy 8106479329266894 53 + dy 7205759403792794 56) = dy 4503599627370497 52) by (apply (fl_dy _ 36028797018963973 36028797018963968 4503599627370497 52); [dyadic|lia|lia|vm_compute; reflexivity]).
  assert (T : fl (1 / 10 ^ 5) = dy 5902958103587057 69) by (apply (fl_dy _ 1 100000 5902958103587057 69); [dyadic|lia|lia|vm_compute; reflexivity]).
  assert (U : fl (1 + dy 5902958103587057 69) = dy 4503644663366770 52) by (apply (fl_dy _ 590301713316809238769 590295810358705651712 4503644663366770 52); [dyadic|lia|lia|vm_compute; reflexivity]).
  unfold decimals, f_rest, f_sum. cbn [map f_sum_from]. rewrite D0, D1, D2, D3.
  rewrite (rnd_small _ _ S0) by dyadic_small. cbn [bind].
  rewrite (rnd_small _ _ S1) by dyadic_small. cbn [bind].
  rewrite (rnd_small _ _ S2) by dyadic_small. cbn [bind].
  rewrite (rnd_small _ _ S3) by dyadic_small. cbn [bind].
  rewrite T, U. destruct (Rlt_dec _ _) as [Z|_]; [exfalso; revert Z; apply Rle_not_lt; dyadic_small|].
  assert (Hr : fl (1 - dy 4503599627370497 52) = - dy 1 52).
  { replace (1 - dy 4503599627370497 52) with (- dy 1 52) by (dyadic_values; lra). apply double_rounds.
    exists (-1)%Z, (-52)%Z. split; [reflexivity|]. split; [lia|]. dyadic_values. simpl powerRZ. lra. }
  rewrite (rnd_small _ _ Hr) by dyadic_small. cbn [bind].
  unfold f_fraction_is_ratio. rewrite T, U.
  destruct (Rlt_dec _ _) as [Z|_]; [exfalso; revert Z; apply Rle_not_lt; dyadic_small|].
  destruct (Rlt_dec _ _) as [Z|_]; [exfalso; revert Z; apply Rle_not_lt; dyadic_small|]. reflexivity.
Qed.
