(** Lemmas about values written in a configuration, gases counted from the end
    of the list and tables without rows. *)
From Coq Require Import String Ascii List ZArith Lia Lra.
From Verif Require Import Base BaseProofs MaterialModel Spec MaterialProofs FluidModel FluidProofs MineralsModel MineralsProofs BatzleWangModel FluidsModel FluidsSpec FluidsProofs InputModel ReadModel EdgeSpec.
Import ListNotations.
Open Scope R_scope.

(** ** Numbers *)
Lemma cell_iff : forall st v x, cell st v = Ok x <-> stands_for st v x.
Proof.
  intros st v x. split.
  - destruct v as [|b|y|s|l|t|l|l]; cbn [cell]; intros E; try discriminate.
    + destruct b; injection E as <-; constructor.
    + injection E as <-. constructor.
    + destruct (float_of st s) as [y|] eqn:F; cbn [get_or_fail] in E; [|discriminate]. injection E as <-. constructor. exact F.
  - intros H. destruct H as [y| | |s y F]; try reflexivity. cbn [cell]. rewrite F. reflexivity.
Qed.

Lemma cell_err : forall st v, no_gap v -> ((forall x, ~ stands_for st v x) <-> cell st v = Err ValueError).
Proof.
  intros st v G. split.
  - intros N. destruct v as [|b|y|s|l|t|l|l]; cbn [cell]; try reflexivity.
    + exfalso. apply G. reflexivity.
    + exfalso. destruct b; eapply N; constructor.
    + exfalso. eapply N. constructor.
    + destruct (float_of st s) as [y|] eqn:F; [exfalso; eapply N; constructor; exact F|reflexivity].
  - intros E x H. apply cell_iff in H. congruence.
Qed.

Lemma stands_scalar : forall st v x, stands_for st v x -> is_scalar v = true.
Proof. intros st v x H. destruct H; reflexivity. Qed.

Lemma cells_iff : forall st vs l, sequence (map (cell st) vs) = Ok l <-> Forall2 (stands_for st) vs l.
Proof.
  intros st vs. induction vs as [|v vs IH]; intros l; cbn [map sequence].
  - split; [intros E; injection E as <-; constructor|intros F; inversion F; reflexivity].
  - split.
    + intros E. destruct (cell st v) as [x|] eqn:C; cbn [bind] in E; [|discriminate].
      destruct (sequence (map (cell st) vs)) as [l'|] eqn:Q; cbn [bind] in E; [|discriminate]. injection E as <-.
      constructor; [apply cell_iff; exact C|apply IH; reflexivity].
    + intros F. inversion F as [|? x ? l' H F']; subst. apply cell_iff in H. apply IH in F'. rewrite H, F'. reflexivity.
Qed.

Lemma float_number : forall st v x, read_float st v = Ok (N0 x) <-> stands_for st v x.
Proof.
  intros st v x. rewrite <- cell_iff. destruct v; cbn [read_float]; try (split; discriminate).
  all: try (destruct (cell _ _) as [y|] eqn:E; cbn [bind]; split; intros H; congruence).
Qed.

Lemma float_column : forall st v l, read_float st v = Ok (NCol l) <-> v = VArray l.
Proof.
  intros st v l. split.
  - destruct v; cbn [read_float]; try discriminate.
    + destruct (cell st (VStr s)); cbn [bind]; discriminate.
    + intros E. injection E as <-. reflexivity.
  - intros ->. reflexivity.
Qed.

Lemma float_refused : forall st v,
  read_float st v = Err ValueError <-> (forall x, ~ stands_for st v x) /\ (forall l, v <> VArray l).
Proof.
  intros st v. split.
  - intros E. split.
    + intros x H. apply float_number in H. congruence.
    + intros l ->. discriminate.
  - intros (N & A). destruct v as [|b|y|s|l|t|l|l]; try reflexivity.
    4: exfalso; apply (A l); reflexivity.
    all: cbn [read_float]; match goal with |- context [cell ?st ?v] => assert (C : cell st v = Err ValueError) by (apply cell_err; [discriminate|exact N]); rewrite C end; reflexivity.
Qed.

(** ** Arrays *)
Lemma forallb_scalar : forall st vs l, Forall2 (stands_for st) vs l -> forallb is_scalar vs = true.
Proof.
  intros st vs l F. induction F as [|v x vs l H F IH]; [reflexivity|]. cbn [forallb]. rewrite (stands_scalar _ _ _ H). exact IH.
Qed.

Lemma row_iff : forall st v l, matrix_row st v = Ok l <-> row_for st v l.
Proof.
  intros st v l. split.
  - destruct v as [|b|y|s|c|t|vs|d]; cbn [matrix_row]; try discriminate.
    + intros E. injection E as <-. constructor.
    + destruct (forallb is_scalar vs); [|discriminate]. intros E. constructor. apply cells_iff. exact E.
  - intros H. destruct H as [vs l F|l]; cbn [matrix_row]; [|reflexivity].
    rewrite (forallb_scalar _ _ _ F). apply cells_iff. exact F.
Qed.

Lemma rows_iff : forall st vs rows, sequence (map (matrix_row st) vs) = Ok rows <-> Forall2 (row_for st) vs rows.
Proof.
  intros st vs. induction vs as [|v vs IH]; intros l; cbn [map sequence].
  - split; [intros E; injection E as <-; constructor|intros F; inversion F; reflexivity].
  - split.
    + intros E. destruct (matrix_row st v) as [x|] eqn:C; cbn [bind] in E; [|discriminate].
      destruct (sequence (map (matrix_row st) vs)) as [l'|] eqn:Q; cbn [bind] in E; [|discriminate]. injection E as <-.
      constructor; [apply row_iff; exact C|apply IH; reflexivity].
    + intros F. inversion F as [|? x ? l' H F']; subst. apply row_iff in H. apply IH in F'. rewrite H, F'. reflexivity.
Qed.

Lemma same_lengths_iff : forall {A} (rows : list (list A)),
  same_lengths rows = true <-> exists n, Forall (fun r => List.length r = n) rows.
Proof.
  intros A [|r rows]; cbn [same_lengths]; [split; [intros _; exists 0%nat; constructor|reflexivity]|].
  rewrite forallb_forall. split.
  - intros H. exists (List.length r). constructor; [reflexivity|]. apply Forall_forall. intros q I. apply Nat.eqb_eq. apply H. exact I.
  - intros (n & F). inversion F as [|? ? H F']; subst. intros q I. apply Nat.eqb_eq. rewrite Forall_forall in F'. apply F'. exact I.
Qed.

Lemma row_not_scalar : forall st v r, row_for st v r -> is_scalar v = false /\ is_row v = true.
Proof. intros st v r H. destruct H; split; reflexivity. Qed.

Lemma array_iff : forall st v a, np_array st v = Ok a <-> array_for st v a.
Proof.
  intros st v a. split.
  - destruct v as [|b|y|s|c|t|vs|d]; cbn [np_array]; try discriminate; intros E.
    1-3: apply bind_ok in E; destruct E as (x & C & E); injection E as <-; constructor; apply cell_iff; exact C.
    + injection E as <-. constructor.
    + destruct (forallb is_scalar vs) eqn:Sc.
      * apply bind_ok in E. destruct E as (l & C & E). injection E as <-. constructor. apply cells_iff. exact C.
      * destruct (forallb is_row vs) eqn:Rw; [|discriminate]. apply bind_ok in E. destruct E as (rows & C & E).
        destruct (same_lengths rows) eqn:L; [|discriminate]. injection E as <-.
        apply same_lengths_iff in L. destruct L as (n & L). apply af_matrix with n; [|apply rows_iff; exact C|exact L].
        intros ->. discriminate.
  - intros H. destruct H as [v x H|l|vs l F|vs rows n N F L].
    + pose proof (proj2 (cell_iff _ _ _) H) as C. destruct H; cbn [np_array]; rewrite C; reflexivity.
    + reflexivity.
    + cbn [np_array]. rewrite (forallb_scalar _ _ _ F). apply cells_iff in F. rewrite F. reflexivity.
    + cbn [np_array]. destruct F as [|v r vs rows Hv F]; [contradiction|].
      assert (B : forallb is_row (v :: vs) = true).
      { apply forallb_forall. intros w I. assert (Q : exists q, row_for st w q).
        { destruct I as [<-|I]; [exists r; exact Hv|]. clear - F I. induction F as [|a b l m H F IH]; [contradiction|].
          destruct I as [<-|I]; [exists b; exact H|apply IH, I]. }
        destruct Q as (q & Q). eapply row_not_scalar. exact Q. }
      destruct (row_not_scalar _ _ _ Hv) as (S1 & S2).
      replace (forallb is_scalar (v :: vs)) with false by (cbn [forallb]; rewrite S1; reflexivity).
      rewrite B, (proj2 (rows_iff st (v :: vs) (r :: rows)) (Forall2_cons _ _ Hv F)). cbn [bind].
      rewrite (proj2 (same_lengths_iff (r :: rows)) (ex_intro _ n L)). reflexivity.
Qed.

Lemma cells_err : forall st vs, Forall no_gap vs -> (exists l, sequence (map (cell st) vs) = Ok l) \/ sequence (map (cell st) vs) = Err ValueError.
Proof.
  intros st vs F. induction F as [|v vs G F IH]; cbn [map sequence]; [left; eexists; reflexivity|].
  destruct (cell st v) as [x|e] eqn:C; cbn [bind].
  - destruct IH as [(l & ->)| ->]; cbn [bind]; [left; eexists; reflexivity|right; reflexivity].
  - right. assert (D : cell st v = Err ValueError) by (apply cell_err; [exact G|]; intros x H; apply cell_iff in H; congruence).
    congruence.
Qed.

Lemma array_refused : forall st v, no_gaps_in v ->
  ((forall a, ~ array_for st v a) <-> np_array st v = Err ValueError).
Proof.
  intros st v G. split.
  - intros N. assert (Q : forall a, np_array st v <> Ok a) by (intros a E; apply (N a), array_iff, E).
    destruct v as [|b|y|s|c|t|vs|d]; try reflexivity; try (exfalso; eapply Q; reflexivity).
    + cbn [np_array] in *. destruct (cell st (VStr s)) as [x|e] eqn:C; [exfalso; eapply Q; reflexivity|].
      cbn [bind]. cbn [cell get_or_fail] in C. destruct (float_of st s); cbn [get_or_fail] in C; [discriminate|]. injection C as <-. reflexivity.
    + contradiction.
    + destruct G as (G1 & G2). cbn [np_array] in *. destruct (forallb is_scalar vs).
      * destruct (cells_err st vs G1) as [(l & E)|E]; rewrite E in *; cbn [bind] in *; [exfalso; eapply Q; reflexivity|reflexivity].
      * destruct (forallb is_row vs); [|reflexivity].
        assert (R : (exists rows, sequence (map (matrix_row st) vs) = Ok rows) \/ sequence (map (matrix_row st) vs) = Err ValueError).
        { clear - G2. induction G2 as [|v vs G F IH]; cbn [map sequence]; [left; eexists; reflexivity|].
          assert (M : (exists r, matrix_row st v = Ok r) \/ matrix_row st v = Err ValueError).
          { destruct v as [|b|y|s|c|t|w|d]; cbn [matrix_row]; try (right; reflexivity); [left; eexists; reflexivity|].
            destruct G as (Ga & Gb). replace (forallb is_scalar w) with true; [apply cells_err, Ga|].
            symmetry. apply forallb_forall. intros u I. rewrite Forall_forall in Gb. specialize (Gb u I). destruct u; try contradiction; reflexivity. }
          destruct M as [(r & ->)| ->]; cbn [bind]; [|right; reflexivity].
          destruct IH as [(l & ->)| ->]; cbn [bind]; [left; eexists; reflexivity|right; reflexivity]. }
        destruct R as [(rows & E)|E]; rewrite E in *; cbn [bind] in *; [|reflexivity].
        destruct (same_lengths rows); [exfalso; eapply Q; reflexivity|reflexivity].
  - intros E a H. apply array_iff in H. congruence.
Qed.

(** ** Whole numbers *)
Lemma truncate_spec : forall x z, truncate x = z <-> towards_zero x z.
Proof.
  assert (T : forall x, towards_zero x (truncate x)).
  { intros x. unfold truncate. destruct (Rle_dec 0 x) as [P|P].
    - destruct (base_Int_part x) as (A & B). split; [intros _|intros C]; [|lra]. split; lra.
    - destruct (base_Int_part (- x)) as (A & B). split; [intros C; lra|intros _]. rewrite opp_IZR. split; lra. }
  intros x z. split; [intros <-; apply T|].
  intros (A & B). destruct (T x) as (C & D).
  destruct (Rle_dec 0 x) as [P|P].
  - destruct (A P), (C P). assert (IZR z < IZR (truncate x + 1)) by (rewrite plus_IZR; lra).
    assert (IZR (truncate x) < IZR (z + 1)) by (rewrite plus_IZR; lra). apply lt_IZR in H3, H4. lia.
  - apply Rnot_le_lt in P. destruct (B P), (D P).
    assert (IZR (z - 1) < IZR (truncate x)) by (rewrite minus_IZR; lra).
    assert (IZR (truncate x - 1) < IZR z) by (rewrite minus_IZR; lra). apply lt_IZR in H3, H4. lia.
Qed.

Lemma truncate_IZR : forall z, truncate (IZR z) = z.
Proof. intros z. apply truncate_spec. split; intros; lra. Qed.

Lemma whole_iff : forall st v z,
  (let* x := read_int st v in int_value x) = Ok z <->
  (exists x, v = VNum x /\ towards_zero x z) \/ (v = VBool true /\ z = 1%Z) \/ (v = VBool false /\ z = 0%Z) \/
  (exists s, v = VStr s /\ int_of st s = Some z) \/ (exists x, v = VArray [x] /\ towards_zero x z).
Proof.
  intros st v z. split.
  - intros E. apply bind_ok in E. destruct E as (a & E & F). unfold int_value in F.
    apply bind_ok in F. destruct F as (x & Fx & F). injection F as F.
    destruct v as [|b|y|s|c|t|vs|d]; cbn [read_int] in E; try discriminate.
    + injection E as <-. cbn [float_value] in Fx. injection Fx as <-. destruct b; [right; left|right; right; left].
      * split; [reflexivity|]. rewrite <- F. apply (truncate_IZR 1).
      * split; [reflexivity|]. rewrite <- F. apply (truncate_IZR 0).
    + injection E as <-. injection Fx as <-. left. exists y. split; [reflexivity|]. apply truncate_spec, F.
    + do 3 right. left. exists s. split; [reflexivity|].
      destruct (int_of st s) as [k|] eqn:I; cbn [get_or_fail bind] in E; [|discriminate]. injection E as <-.
      injection Fx as <-. rewrite truncate_IZR in F. congruence.
    + injection E as <-. do 4 right. destruct c as [|y [|? ?]]; try discriminate. injection Fx as <-.
      exists y. split; [reflexivity|]. apply truncate_spec, F.
  - intros [(x & -> & T)|[(-> & ->)|[(-> & ->)|[(s & -> & I)|(x & -> & T)]]]]; unfold int_value; cbn [read_int bind float_value].
    + apply truncate_spec in T. rewrite T. reflexivity.
    + rewrite (truncate_IZR 1). reflexivity.
    + rewrite (truncate_IZR 0). reflexivity.
    + rewrite I. cbn [get_or_fail bind float_value]. rewrite truncate_IZR. reflexivity.
    + apply truncate_spec in T. rewrite T. reflexivity.
Qed.

Lemma whole_refused : forall st v,
  (forall z, (let* x := read_int st v in int_value x) <> Ok z) -> (let* x := read_int st v in int_value x) = Err ValueError.
Proof.
  intros st v N. destruct v as [|b|y|s|c|t|vs|d]; cbn [read_int bind] in *; try reflexivity.
  - destruct (N _ eq_refl).
  - destruct (N _ eq_refl).
  - destruct (int_of st s); cbn [get_or_fail bind] in *; [destruct (N _ eq_refl)|reflexivity].
  - destruct c as [|x [|? ?]]; unfold int_value in *; cbn [float_value bind] in *; try reflexivity. destruct (N _ eq_refl).
Qed.

(** ** True and false *)
Lemma lower_ascii_cases : forall c,
  lower_ascii c = c \/ (65 <= nat_of_ascii c <= 90 /\ nat_of_ascii (lower_ascii c) = nat_of_ascii c + 32)%nat.
Proof.
  intros c. unfold lower_ascii.
  destruct (andb (Nat.leb 65 (nat_of_ascii c)) (Nat.leb (nat_of_ascii c) 90)) eqn:B; [right|left; reflexivity].
  apply andb_prop in B. destruct B as (B1 & B2). apply Nat.leb_le in B1, B2. split; [lia|]. apply nat_ascii_embedding. lia.
Qed.

Lemma spelled_lower : forall s, spelled s (lower s).
Proof.
  induction s as [|c s IH]; cbn [lower]; [constructor|].
  destruct (lower_ascii_cases c) as [->|(B & E)]; [apply sp_same, IH|apply sp_capital; assumption].
Qed.

Lemma lower_spelled : forall s t, spelled s t -> lower t = t -> lower s = t.
Proof.
  intros s t H. induction H as [|c s t H IH|c d s t B E H IH]; intros L; [reflexivity| |].
  - cbn [lower] in *. injection L as Lc Lt. rewrite Lc, IH by exact Lt. reflexivity.
  - cbn [lower] in *. injection L as Lc Lt. rewrite IH by exact Lt. f_equal.
    destruct (lower_ascii_cases c) as [C|(_ & C)].
    + exfalso. unfold lower_ascii in C. destruct B as (B1 & B2). apply Nat.leb_le in B1, B2. rewrite B1, B2 in C.
      cbn [andb] in C. apply (f_equal nat_of_ascii) in C. apply Nat.leb_le in B1, B2.
      rewrite nat_ascii_embedding in C by lia. lia.
    + rewrite <- (ascii_nat_embedding (lower_ascii c)), <- (ascii_nat_embedding d). f_equal. lia.
Qed.

Lemma words_spelled : forall s words, Forall (fun w => lower w = w) words ->
  (existsb (String.eqb (lower s)) words = true <-> exists w, In w words /\ spelled s w).
Proof.
  intros s words F. rewrite existsb_exists. split.
  - intros (w & I & E). apply String.eqb_eq in E. subst w. exists (lower s). split; [exact I|apply spelled_lower].
  - intros (w & I & E). exists w. split; [exact I|]. apply String.eqb_eq. apply lower_spelled; [exact E|].
    rewrite Forall_forall in F. apply F, I.
Qed.

Definition yes_words : list string := ["1"; "on"; "t"; "true"; "y"; "yes"]%string.
Definition no_words : list string := ["0"; "off"; "f"; "false"; "n"; "no"]%string.

Lemma words_apart : forall s, existsb (String.eqb (lower s)) yes_words = true -> existsb (String.eqb (lower s)) no_words = false.
Proof.
  intros s H. apply existsb_exists in H. destruct H as (w & I & E). apply String.eqb_eq in E. rewrite E.
  repeat (destruct I as [<-|I]; [reflexivity|]). destruct I.
Qed.

Lemma bool_yes : forall v, read_bool v = Ok true <->
  v = VBool true \/ v = VNum 1 \/ exists s w, v = VStr s /\ spelled s w /\ In w ["1"; "on"; "t"; "true"; "y"; "yes"]%string.
Proof.
  assert (W : forall s, existsb (String.eqb (lower s)) yes_words = true <-> exists w, In w yes_words /\ spelled s w).
  { intros s. apply words_spelled. repeat constructor. }
  intros v. split.
  - destruct v as [|b|y|s|c|t|vs|d]; cbn [read_bool]; try discriminate.
    + intros E. injection E as ->. left. reflexivity.
    + destruct (Req_EM_T y 1) as [->|]; [intros _; right; left; reflexivity|]. destruct (Req_EM_T y 0); discriminate.
    + fold yes_words no_words. destruct (existsb _ yes_words) eqn:E; [|destruct (existsb _ no_words); discriminate]. intros _. apply W in E.
      destruct E as (w & I & E). right. right. exists s, w. split; [reflexivity|]. split; [exact E|exact I].
  - intros [->|[->|(s & w & -> & E & I)]]; cbn [read_bool].
    + reflexivity.
    + destruct (Req_EM_T 1 1); [reflexivity|contradiction].
    + fold yes_words no_words. rewrite (proj2 (W s)); [reflexivity|]. exists w. split; assumption.
Qed.

Lemma bool_no : forall v, read_bool v = Ok false <->
  v = VBool false \/ v = VNum 0 \/ exists s w, v = VStr s /\ spelled s w /\ In w ["0"; "off"; "f"; "false"; "n"; "no"]%string.
Proof.
  assert (W : forall s, existsb (String.eqb (lower s)) no_words = true <-> exists w, In w no_words /\ spelled s w).
  { intros s. apply words_spelled. repeat constructor. }
  intros v. split.
  - destruct v as [|b|y|s|c|t|vs|d]; cbn [read_bool]; try discriminate.
    + intros E. injection E as ->. left. reflexivity.
    + destruct (Req_EM_T y 1) as [->|]; [discriminate|]. destruct (Req_EM_T y 0) as [->|]; [|discriminate]. right. left. reflexivity.
    + fold yes_words no_words. destruct (existsb _ yes_words) eqn:Y; [discriminate|]. destruct (existsb _ no_words) eqn:E; [|discriminate]. intros _. apply W in E.
      destruct E as (w & I & E). right. right. exists s, w. split; [reflexivity|]. split; [exact E|exact I].
  - intros [->|[->|(s & w & -> & E & I)]]; cbn [read_bool].
    + reflexivity.
    + destruct (Req_EM_T 0 1); [lra|]. destruct (Req_EM_T 0 0); [reflexivity|contradiction].
    + fold yes_words no_words. assert (N : existsb (String.eqb (lower s)) no_words = true) by (apply W; exists w; split; assumption).
      destruct (existsb (String.eqb (lower s)) yes_words) eqn:Y; [rewrite words_apart in N by exact Y; discriminate|].
      rewrite N. reflexivity.
Qed.

(** ** Gases counted from the end *)
Lemma pop_from_end : forall {A} i (l : list A), (- Z.of_nat (length l) <= i < 0)%Z ->
  py_pop i l = py_pop (i + Z.of_nat (length l)) l.
Proof.
  intros A i l H. unfold py_pop. destruct (Z.ltb_spec i 0); [|lia].
  destruct (Z.ltb_spec (i + Z.of_nat (length l)) 0); [lia|reflexivity].
Qed.

Lemma materials_length : forall co2 pr t cs p ms p', as_materials co2 pr t p cs = (Ok ms, p') -> length ms = length cs.
Proof.
  intros co2 pr t cs. induction cs as [|c cs IH]; intros p ms p' E; cbn [as_materials] in E; [injection E as <- _; reflexivity|].
  destruct (constituent_as_material co2 pr c t p) as [[m|] q]; [|discriminate].
  destruct (as_materials co2 pr t q cs) as [[l|] q'] eqn:F; [|discriminate]. injection E as <- <-.
  cbn [length]. f_equal. eapply IH. exact F.
Qed.

Lemma one_from_end : forall co2 t cs e pr p i, (1 <= i <= Z.of_nat (length cs))%Z ->
  as_mixture co2 (mk_fluids t cs Brie e [(- i)%Z] pr) p = as_mixture co2 (mk_fluids t cs Brie e [(Z.of_nat (length cs) - i)%Z] pr) p.
Proof.
  intros co2 t cs e pr p i H. unfold as_mixture. cbn [f_fluid_model f_temperature f_constituents f_mix_method f_brie_gases f_brie_constant].
  destruct (as_materials co2 pr t p cs) as [[ms|er] p'] eqn:E; [|reflexivity]. cbn [bind].
  pose proof (materials_length _ _ _ _ _ _ _ E) as L.
  cbn [sorted_desc fold_right insert_desc pop_all].
  rewrite (pop_from_end (- i) ms) by lia. rewrite (pop_from_end (- i) (map c_fraction cs)) by (rewrite map_length; lia).
  rewrite map_length, L. replace (- i + Z.of_nat (length cs))%Z with (Z.of_nat (length cs) - i)%Z by lia. reflexivity.
Qed.

Lemma two_from_end : forall co2 p, as_mixture co2 (three [(-1)%Z; (-2)%Z]) p = as_mixture co2 (three [2%Z; 0%Z]) p.
Proof. intros co2 p. reflexivity. Qed.

Lemma brie_two : forall a b c, 0 < a -> 0 < b -> 0 < c ->
  exists m, brie_fluid_mixing [sample a 0 1] [1 / 3] [sample b 0 1; sample c 0 1] [1 / 3; 1 / 3] 1 = Ok m /\
    bulk m = 2 / (1 / b + 1 / c) + (a - 2 / (1 / b + 1 / c)) / 3.
Proof.
  intros a b c Ha Hb Hc. destruct (wood_two b c Hb Hc) as (g & Eg & Kg & Dg).
  assert (P : 0 < 2 / (1 / b + 1 / c)).
  { apply Rdiv_lt_0_compat; [lra|]. assert (0 < 1 / b) by (apply Rdiv_lt_0_compat; lra). assert (0 < 1 / c) by (apply Rdiv_lt_0_compat; lra). lra. }
  unfold brie_fluid_mixing. cbn [length Nat.eqb negb]. rewrite Eg, (wood_one a) by lra. cbn [bind rsum].
  replace (1 / 3 + 0) with (1 / 3) by lra. rewrite np_pow_pos by lra. cbn [bind]. rewrite Rpower_1 by lra.
  unfold fluid_of_bulk. rewrite Kg. unfold mix_densities. cbn [combine map rsum fst snd]. rewrite Dg.
  unfold sample. cbn [bulk dens].
  rewrite mat_of_moduli_ok; [|lra|nra|lra]. eexists. split; [reflexivity|]. cbn [bulk]. lra.
Qed.

Lemma two_from_end_apart : forall co2 p, exists m m',
  as_mixture co2 (three [(-1)%Z; (-2)%Z]) p = (Ok m, p) /\ as_mixture co2 (three [2%Z; 1%Z]) p = (Ok m', p) /\ bulk m <> bulk m'.
Proof.
  intros co2 p. destruct (brie_two 2 4 1) as (m & E & K); try lra. destruct (brie_two 1 4 2) as (m' & E' & K'); try lra.
  exists m, m'. split; [|split].
  - rewrite <- E. reflexivity.
  - rewrite <- E'. reflexivity.
  - rewrite K, K'. lra.
Qed.

Lemma constituents_own : forall t cs method e gases model f i c,
  read_fluids t cs method e gases model = Ok f -> nth_error cs i = Some c ->
  exists c', nth_error (f_constituents f) i = Some c' /\ c_material c' = rc_material c /\
    match rc_fluid_model c with
    | None => c_fluid_model c' = None
    | Some n => exists pr, c_fluid_model c' = Some pr /\ provider_named n = Ok pr
    end.
Proof.
  intros t cs method e gases model f i c H N. pose proof (read_fluids_outcome t cs method e gases model) as (O & _).
  destruct (proj1 O) as (_ & R & _); [rewrite H; eexists; reflexivity|].
  destruct (read_fluids_inv _ _ _ _ _ _ _ H) as (fr & Ef & Hf & _). apply fix_complete in Ef. destruct Ef as [L _].
  rewrite map_length in L. rewrite Hf. cbn [f_constituents].
  assert (I : (i < length cs)%nat) by (apply nth_error_Some; congruence).
  destruct (nth_error fr i) as [x|] eqn:X; [|apply nth_error_None in X; lia].
  exists (finish_constituent c x). split.
  - apply (map_nth_error (fun cf => finish_constituent (fst cf) (snd cf)) i (combine cs fr) (d := (c, x))).
    clear - N X. revert cs fr N X. induction i as [|i IH]; intros [|a cs] [|b fr] N X; try discriminate; cbn [nth_error combine] in *.
    + congruence.
    + apply IH; assumption.
  - split; [reflexivity|]. unfold finish_constituent. cbn [c_fluid_model].
    rewrite Forall_forall in R. specialize (R c (nth_error_In _ _ N)). unfold raw_ok in R. destruct R as (_ & R).
    destruct (rc_fluid_model c) as [n|]; [|reflexivity]. 
    unfold provider_named. destruct R as [->|[->| ->]]; eexists; split; reflexivity.
Qed.

(** ** Tables without rows *)
From Verif Require Import ConfigModel RowModel.
Lemma bind_never : forall {A B} (r : res A) (k : A -> res B), (forall a b, k a <> Ok b) -> forall b, bind r k <> Ok b.
Proof. intros A B [a|e] k H b; cbn [bind]; [apply H|discriminate]. Qed.

Lemma fit_no_rows : forall md porosity mineral, match md with BExpfit _ | BLogfit _ | BPowerfit _ _ _ => True | _ => False end ->
  forall x, b_eval_model md (Vec []) porosity mineral <> Ok x.
Proof.
  intros md porosity mineral F x. destruct md; try contradiction; cbn [b_eval_model];
    apply bind_never; intros a b; cbn [no_rows guard bind]; discriminate.
Qed.

Lemma dependency_no_rows : forall md m p ref_p porosity mineral,
  match md with BExpfit _ | BLogfit _ | BPowerfit _ _ _ => True | _ => False end ->
  no_row_at_all p \/ no_row_at_all ref_p ->
  forall r, b_pressure_dependency md m p ref_p porosity mineral <> Ok r.
Proof.
  intros md m p ref_p porosity mineral F N r E.
  assert (Q : exists a b, b_eval_model md ref_p porosity mineral = Ok a /\ b_eval_model md p porosity mineral = Ok b).
  { destruct md; try contradiction; cbn [b_pressure_dependency] in E; unfold b_generic_dependency, b_powerfit_dependency in E;
      apply bind_ok in E; destruct E as (a & Ea & E); apply bind_ok in E; destruct E as (b & Eb & E); exists a, b; split; assumption. }
  destruct Q as (a & b & Ea & Eb). destruct N as [-> | ->]; [apply fit_no_rows in Eb|apply fit_no_rows in Ea]; assumption.
Qed.

Definition nothing : bmat := mkB (Vec []) (Vec []) (Vec []) (Vec []) (Vec []).
Definition linear_fit : coefficients (list R) := mkCoef Moduli (Some [1; 1; 1]) (Some [1; 1; 1]) (Some [1; 1; 1]).
Lemma polynomial_no_rows : forall porosity mineral,
  b_pressure_dependency (BPolyfit linear_fit) nothing (Vec []) (Sc 1) porosity mineral = Ok nothing.
Proof.
  intros porosity mineral. cbn [b_pressure_dependency]. unfold b_generic_dependency, b_eval_model, linear_fit.
  cbn [c_density c_primary c_secondary coefficient_rows length Nat.eqb andb bind amap ConfigModel.three polyfit_row any tiny_row].
  assert (V : np_polyval [1; 1; 1] 1 = 3) by (unfold np_polyval; cbn; lra). rewrite V.
  assert (T : tiny_value 3 = false).
  { unfold tiny_value, leb. destruct (Rle_dec _ _) as [H|]; [|reflexivity]. exfalso. revert H. rewrite Rabs_right by lra.
    intros H. assert (0 < 1 / 10 ^ 20 < 1). { split; [apply Rdiv_lt_0_compat; [lra|apply pow_lt; lra]|]. apply (Rmult_lt_reg_r (10 ^ 20)); [apply pow_lt; lra|]. unfold Rdiv. rewrite Rmult_assoc, Rinv_l by (apply pow_nonzero; lra). lra. } lra. }
  rewrite T. cbn [orb guard bind b_model_uses_moduli uses_moduli c_flavour]. reflexivity.
Qed.
