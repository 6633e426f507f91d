(** Lemmas about fluid mixtures and fluid models. *)
From Coq Require Import String Permutation Sorted.
From Verif Require Import Base BaseProofs MaterialModel Spec MaterialProofs FluidModel FluidProofs MineralsModel MineralsProofs BatzleWangModel BatzleWangSpec BatzleWangProofs FluidsModel FluidsSpec.
From Coq Require Import List.
Open Scope R_scope.

(* ---- one constituent ---- *)

Definition shift (section : provider) (c : constituent) : nat :=
  match c_material c, model_of section c with FCarbonDioxide _, SpanWagner => 1 | _, _ => 0 end.

Lemma constituent_pressure co2 section c t p :
  snd (constituent_as_material co2 section c t p) = p / 10 ^ (6 * shift section c).
Proof.
  unfold constituent_as_material, fluid_as_material, shift, model_of, span_wagner_carbon_dioxide.
  destruct (c_material c), (c_fluid_model c) as [[|]|], section; cbn [snd Nat.mul Nat.add pow];
    try (unfold Rdiv; rewrite Rinv_1; ring); field.
Qed.

Lemma constituent_worth co2 section c t p m :
  fst (constituent_as_material co2 section c t p) = Ok m <-> worth co2 (model_of section c) (c_material c) t p m.
Proof.
  unfold constituent_as_material, fluid_as_material, model_of, span_wagner_carbon_dioxide, celsius_to_kelvin.
  destruct (c_fluid_model c) as [pr|];
    [generalize pr as q|generalize section as q]; intros q; destruct (c_material c), q; cbn [fst]; split; intros H;
    try discriminate; try (inversion H; fail); try (inversion H; subst; reflexivity || assumption);
    try (constructor; assumption); try (inversion H; subst; constructor).
Qed.

Lemma worth_unique co2 pr f t p m m' : worth co2 pr f t p m -> worth co2 pr f t p m' -> m = m'.
Proof. intros H H'. destruct H; inversion H'; subst; congruence. Qed.

(* ---- the list of constituents ---- *)

Lemma shift0 p : p / 10 ^ (6 * 0) = p.
Proof. cbn [Nat.mul Nat.add pow]. field. Qed.

Lemma pow_shift p a b : p / 10 ^ (6 * a) / 10 ^ (6 * b) = p / 10 ^ (6 * (a + b)).
Proof.
  rewrite Nat.mul_add_distr_l, pow_add. field. split; apply pow_nonzero; lra.
Qed.

Lemma as_materials_cons co2 section t p c cs :
  as_materials co2 section t p (c :: cs) =
  match constituent_as_material co2 section c t p with
  | (Err e, p') => (Err e, p')
  | (Ok m, p') =>
      match as_materials co2 section t p' cs with
      | (Err e, p'') => (Err e, p'')
      | (Ok ms, p'') => (Ok (m :: ms), p'')
      end
  end.
Proof. reflexivity. Qed.

Lemma as_materials_ok co2 section t cs : forall p ms p',
  as_materials co2 section t p cs = (Ok ms, p') <->
  p' = p / 10 ^ (6 * carbon_dioxides section cs) /\ length ms = length cs /\
  forall i c m, nth_error cs i = Some c -> nth_error ms i = Some m ->
    worth co2 (model_of section c) (c_material c) t (p / 10 ^ (6 * carbon_dioxides section (firstn i cs))) m.
Proof.
  induction cs as [|c cs IH]; intros p ms p'.
  - cbn [as_materials carbon_dioxides]. rewrite shift0. split.
    + intros H. injection H as <- <-. split; [reflexivity|]. split; [reflexivity|]. intros [|i] c m H; discriminate.
    + intros [-> [HL _]]. destruct ms; [|discriminate]. reflexivity.
  - rewrite as_materials_cons. pose proof (constituent_pressure co2 section c t p) as HP.
    pose proof (fun m => constituent_worth co2 section c t p m) as HW.
    assert (Hcount : carbon_dioxides section (c :: cs) = (shift section c + carbon_dioxides section cs)%nat) by reflexivity.
    destruct (constituent_as_material co2 section c t p) as [[m0|e] p1]; cbn [fst snd] in HP, HW.
    + destruct (as_materials co2 section t p1 cs) as [r p2] eqn:E. split.
      * intros H. destruct r as [ms0|e]; [|discriminate]. injection H as <- <-.
        apply IH in E. destruct E as [-> [HL HN]]. rewrite Hcount, <- pow_shift, <- HP.
        split; [reflexivity|]. split; [cbn [length]; congruence|].
        intros [|i] c' m' Hc Hm; cbn [nth_error firstn] in *.
        -- injection Hc as <-. injection Hm as <-. cbn [carbon_dioxides].
           rewrite shift0. apply HW. reflexivity.
        -- specialize (HN i c' m' Hc Hm). rewrite HP, pow_shift in HN. exact HN.
      * intros [-> [HL HN]]. destruct ms as [|m1 ms]; [discriminate|].
        assert (Em : m1 = m0).
        { assert (W := HN 0%nat c m1 eq_refl eq_refl). cbn [firstn carbon_dioxides] in W.
          rewrite shift0 in W. apply HW in W. congruence. }
        subst m1.
        assert (E' : as_materials co2 section t p1 cs = (Ok ms, p1 / 10 ^ (6 * carbon_dioxides section cs))).
        { apply IH. split; [reflexivity|]. split; [cbn [length] in HL; congruence|].
          intros i c' m' Hc Hm. specialize (HN (S i) c' m' Hc Hm). cbn [firstn] in HN.
          replace (carbon_dioxides section (c :: firstn i cs))
            with (shift section c + carbon_dioxides section (firstn i cs))%nat in HN by reflexivity.
          rewrite <- pow_shift, <- HP in HN. exact HN. }
        rewrite E' in E. injection E as <- <-. rewrite Hcount, <- pow_shift, <- HP. reflexivity.
    + split; [discriminate|]. intros [_ [HL HN]]. destruct ms as [|m1 ms]; [discriminate|].
      assert (W := HN 0%nat c m1 eq_refl eq_refl). cbn [firstn carbon_dioxides] in W.
      rewrite shift0 in W. apply HW in W. discriminate.
Qed.

Lemma as_materials_pressure co2 section t cs : forall p,
  carbon_dioxides section cs = 0%nat -> snd (as_materials co2 section t p cs) = p.
Proof.
  induction cs as [|c cs IH]; intros p H; [reflexivity|].
  rewrite as_materials_cons. pose proof (constituent_pressure co2 section c t p) as HP.
  assert (Hcount : carbon_dioxides section (c :: cs) = (shift section c + carbon_dioxides section cs)%nat) by reflexivity.
  assert (shift section c = 0%nat) as Hs by lia. rewrite Hs in HP. rewrite shift0 in HP.
  destruct (constituent_as_material co2 section c t p) as [[m0|e] p1]; cbn [snd] in HP; subst p1; [|reflexivity].
  specialize (IH p ltac:(lia)). destruct (as_materials co2 section t p cs) as [[ms|e] p2]; exact IH.
Qed.

(* ---- popping ---- *)

Lemma pop_nat_last {A} (l : list A) y r : pop_nat (length l) (l ++ y :: r) = Ok (y, l ++ r).
Proof. induction l as [|x l IH]; [reflexivity|]. cbn [length app pop_nat]. rewrite IH. reflexivity. Qed.

Lemma pop_nat_snoc {A} i : forall (l : list A) y x l',
  pop_nat i l = Ok (x, l') -> pop_nat i (l ++ [y]) = Ok (x, l' ++ [y]).
Proof.
  induction i as [|i IH]; intros [|a l] y x l' H; try discriminate.
  - injection H as <- <-. reflexivity.
  - cbn [pop_nat app] in *. destruct (pop_nat i l) as [[b r]|e] eqn:E; cbn [bind fst snd] in H; [|discriminate].
    injection H as <- <-. rewrite (IH _ _ _ _ E). reflexivity.
Qed.

Lemma pop_nat_err {A} i : forall (l : list A), (length l <= i)%nat -> pop_nat i l = Err IndexError.
Proof.
  induction i as [|i IH]; intros [|a l] H; try reflexivity; cbn [length] in H; [lia|].
  cbn [pop_nat]. rewrite IH by lia. reflexivity.
Qed.

Lemma pop_nat_ok {A} i : forall (l : list A), (i < length l)%nat ->
  exists x l', pop_nat i l = Ok (x, l') /\ length l = S (length l').
Proof.
  induction i as [|i IH]; intros [|a l] H; cbn [length] in H; try lia.
  - exists a, l. split; reflexivity.
  - destruct (IH l ltac:(lia)) as (x & l' & E & HL). exists x, (a :: l'). cbn [pop_nat]. rewrite E.
    split; [reflexivity|cbn [length]; congruence].
Qed.

Lemma py_pop_err {A} i (l : list A) :
  (Z.of_nat (length l) <= i \/ i < - Z.of_nat (length l))%Z -> py_pop i l = Err IndexError.
Proof.
  intros H. unfold py_pop. destruct (Z.ltb_spec i 0).
  - destruct (Z.ltb_spec (i + Z.of_nat (length l)) 0); [reflexivity|lia].
  - apply pop_nat_err. lia.
Qed.

Lemma py_pop_cases {A} i (l : list A) :
  py_pop i l = Err IndexError \/ exists x l', py_pop i l = Ok (x, l') /\ length l = S (length l').
Proof.
  unfold py_pop.
  destruct (Z.ltb_spec i 0) as [H|H].
  - destruct (Z.ltb_spec (i + Z.of_nat (length l)) 0) as [H'|H']; [left; reflexivity|].
    right. apply pop_nat_ok. lia.
  - destruct (Nat.lt_ge_cases (Z.to_nat i) (length l)) as [L|L].
    + right. apply pop_nat_ok. exact L.
    + left. apply pop_nat_err. exact L.
Qed.

(** Whether popping succeeds depends on the length only. *)
Lemma pop_all_shape {A B} idx : forall (l : list A) (k : list B), length l = length k ->
  (pop_all idx l = Err IndexError /\ pop_all idx k = Err IndexError) \/
  (exists g r g' r', pop_all idx l = Ok (g, r) /\ pop_all idx k = Ok (g', r') /\
     length g = length g' /\ length r = length r').
Proof.
  induction idx as [|i idx IH]; intros l k HL.
  - right. exists [], l, [], k. repeat split; auto.
  - cbn [pop_all].
    destruct (py_pop_cases i l) as [E|(x & l' & E & HL')]; destruct (py_pop_cases i k) as [E'|(y & k' & E' & HK')].
    + left. rewrite E, E'. split; reflexivity.
    + exfalso. revert E E'. unfold py_pop. rewrite HL. destruct (i <? 0)%Z.
      * destruct (i + Z.of_nat (length k) <? 0)%Z; [discriminate|]. intros E E'.
        destruct (Nat.lt_ge_cases (Z.to_nat (i + Z.of_nat (length k))) (length k)) as [L|L].
        -- rewrite <- HL in L at 2. destruct (pop_nat_ok _ _ L) as (? & ? & E2 & _). congruence.
        -- rewrite pop_nat_err in E' by exact L. discriminate.
      * intros E E'. destruct (Nat.lt_ge_cases (Z.to_nat i) (length k)) as [L|L].
        -- rewrite <- HL in L. destruct (pop_nat_ok _ _ L) as (? & ? & E2 & _). congruence.
        -- rewrite pop_nat_err in E' by exact L. discriminate.
    + exfalso. revert E E'. unfold py_pop. rewrite HL. destruct (i <? 0)%Z.
      * destruct (i + Z.of_nat (length k) <? 0)%Z; [discriminate|]. intros E E'.
        destruct (Nat.lt_ge_cases (Z.to_nat (i + Z.of_nat (length k))) (length k)) as [L|L].
        -- destruct (pop_nat_ok _ _ L) as (? & ? & E2 & _). congruence.
        -- rewrite <- HL in L at 1. rewrite pop_nat_err in E by exact L. discriminate.
      * intros E E'. destruct (Nat.lt_ge_cases (Z.to_nat i) (length k)) as [L|L].
        -- destruct (pop_nat_ok _ _ L) as (? & ? & E2 & _). congruence.
        -- rewrite <- HL in L. rewrite pop_nat_err in E by exact L. discriminate.
    + rewrite E, E'. cbn [bind fst snd].
      destruct (IH l' k' ltac:(congruence)) as [[F F']|(g & r & g' & r' & F & F' & HG & HR)]; rewrite F, F'; cbn [bind fst snd].
      * left. split; reflexivity.
      * right. exists (x :: g), r, (y :: g'), r'. repeat split; auto. cbn [length]. congruence.
Qed.

(** An index out of range is found. *)
Lemma pop_all_out_of_range {A} idx : forall (l : list A) i,
  In i idx -> (Z.of_nat (length l) <= i \/ i < - Z.of_nat (length l))%Z -> pop_all idx l = Err IndexError.
Proof.
  induction idx as [|j idx IH]; intros l i Hi Ho; [contradiction|].
  cbn [pop_all]. destruct (py_pop_cases j l) as [E|(x & l' & E & HL)].
  - rewrite E. reflexivity.
  - destruct Hi as [->|Hi]; [rewrite py_pop_err in E by exact Ho; discriminate|].
    rewrite E. cbn [bind fst snd]. rewrite (IH l' i Hi); [reflexivity|lia].
Qed.

(* ---- positions ---- *)

(** Positions of [true], from an offset. *)
Fixpoint positions (from : Z) (b : list bool) : list Z :=
  match b with
  | [] => []
  | true :: b' => from :: positions (from + 1) b'
  | false :: b' => positions (from + 1) b'
  end.

Fixpoint pick {A} (keep : bool) (b : list bool) (l : list A) : list A :=
  match b, l with
  | x :: b', y :: l' => if Bool.eqb x keep then y :: pick keep b' l' else pick keep b' l'
  | _, _ => []
  end.

Lemma positions_app b c : forall from,
  positions from (b ++ c) = positions from b ++ positions (from + Z.of_nat (length b)) c.
Proof.
  induction b as [|x b IH]; intros from; cbn [app positions length].
  - f_equal. lia.
  - replace (from + Z.of_nat (S (length b)))%Z with (from + 1 + Z.of_nat (length b))%Z by lia.
    destruct x; rewrite IH; reflexivity.
Qed.

Lemma positions_range b : forall from i, In i (positions from b) -> (from <= i < from + Z.of_nat (length b))%Z.
Proof.
  induction b as [|[|] b IH]; intros from i H; cbn [positions length] in *.
  - contradiction.
  - destruct H as [<-|H]; [lia|]. apply IH in H. lia.
  - apply IH in H. lia.
Qed.

Lemma pick_snoc {A} keep b : forall (l : list A) x y, length b = length l ->
  pick keep (b ++ [x]) (l ++ [y]) = pick keep b l ++ (if Bool.eqb x keep then [y] else []).
Proof.
  induction b as [|c b IH]; intros [|z l] x y H; cbn [length] in H; try discriminate.
  - cbn. destruct (Bool.eqb x keep); reflexivity.
  - cbn [app pick]. rewrite IH by congruence. destruct (Bool.eqb c keep); reflexivity.
Qed.

Lemma pop_all_snoc {A} idx : forall (l : list A) g r y,
  Forall (fun i => (0 <= i)%Z) idx -> pop_all idx l = Ok (g, r) -> pop_all idx (l ++ [y]) = Ok (g, r ++ [y]).
Proof.
  induction idx as [|i idx IH]; intros l g r y F H.
  - injection H as <- <-. reflexivity.
  - inversion F as [|? ? Hi F']; subst. cbn [pop_all] in *. unfold py_pop in *.
    destruct (Z.ltb_spec i 0); [lia|].
    destruct (pop_nat (Z.to_nat i) l) as [[x l']|e] eqn:E; cbn [bind fst snd] in H; [|discriminate].
    rewrite (pop_nat_snoc _ _ _ _ _ E). cbn [bind fst snd].
    destruct (pop_all idx l') as [[g' r']|e] eqn:E'; cbn [bind fst snd] in H; [|discriminate].
    injection H as <- <-. rewrite (IH _ _ _ _ F' E'). reflexivity.
Qed.

Lemma pop_positions {A} b : forall (l : list A), length b = length l ->
  pop_all (rev (positions 0 b)) l = Ok (rev (pick true b l), pick false b l).
Proof.
  induction b as [|x b IH] using rev_ind; intros l HL.
  - destruct l; [reflexivity|discriminate].
  - rewrite app_length in HL. cbn [length] in HL.
    destruct l as [|y l _] using rev_ind; [cbn [length] in HL; lia|].
    rewrite app_length in HL. cbn [length] in HL.
    assert (HL' : length b = length l) by lia. specialize (IH l HL').
    assert (F : Forall (fun i => (0 <= i)%Z) (rev (positions 0 b))).
    { apply Forall_rev. apply Forall_forall. intros i Hi. apply positions_range in Hi. lia. }
    rewrite positions_app, !pick_snoc, rev_app_distr by exact HL'.
    destruct x; cbn [positions rev app pop_all Bool.eqb].
    + unfold py_pop. destruct (Z.ltb_spec (0 + Z.of_nat (length b)) 0); [lia|].
      replace (Z.to_nat (0 + Z.of_nat (length b))) with (length l) by lia.
      rewrite pop_nat_last. cbn [bind fst snd]. rewrite app_nil_r, IH. cbn [bind fst snd].
      rewrite rev_app_distr, app_nil_r. reflexivity.
    + rewrite (pop_all_snoc _ _ _ _ _ F IH), app_nil_r. reflexivity.
Qed.

(* ---- sorting ---- *)

Lemma insert_in i l x : In x (insert_desc i l) <-> x = i \/ In x l.
Proof.
  induction l as [|j l IH]; cbn [insert_desc].
  - cbn. intuition.
  - destruct (j <? i)%Z; cbn [In]; [intuition|]. rewrite IH. intuition.
Qed.

Lemma sorted_in l x : In x (sorted_desc l) <-> In x l.
Proof.
  unfold sorted_desc. induction l as [|i l IH]; cbn [fold_right In]; [tauto|].
  rewrite insert_in, IH. intuition.
Qed.

Definition desc := StronglySorted (fun x y : Z => (y < x)%Z).

Lemma insert_desc_sorted i l : desc l -> ~ In i l -> desc (insert_desc i l).
Proof.
  induction l as [|j l IH]; intros S N; cbn [insert_desc].
  - constructor; constructor.
  - inversion S as [|? ? S' F]; subst. destruct (Z.ltb_spec j i).
    + constructor; [exact S|]. constructor; [assumption|]. eapply Forall_impl; [|exact F]. cbn. lia.
    + constructor; [apply IH; [exact S'|intros ?; apply N; right; assumption]|].
      apply Forall_forall. intros x Hx. apply insert_in in Hx. destruct Hx as [->|Hx].
      * assert (j <> i) by (intros ->; apply N; left; reflexivity). lia.
      * rewrite Forall_forall in F. apply F. exact Hx.
Qed.

Lemma sorted_desc_sorted l : NoDup l -> desc (sorted_desc l).
Proof.
  unfold sorted_desc. induction 1 as [|i l N D IH]; cbn [fold_right]; [constructor|].
  apply insert_desc_sorted; [exact IH|]. intros Hi. apply N. apply (sorted_in l). exact Hi.
Qed.

Lemma desc_unique : forall l k, desc l -> desc k -> (forall x, In x l <-> In x k) -> l = k.
Proof.
  induction l as [|a l IH]; intros [|b k] Sl Sk H.
  - reflexivity.
  - exfalso. apply (H b). left. reflexivity.
  - exfalso. apply (H a). left. reflexivity.
  - inversion Sl as [|? ? Sl' Fl]; subst. inversion Sk as [|? ? Sk' Fk]; subst.
    rewrite Forall_forall in Fl, Fk.
    assert (a = b).
    { destruct (proj1 (H a) (or_introl eq_refl)) as [E|E]; [congruence|].
      destruct (proj2 (H b) (or_introl eq_refl)) as [E'|E']; [congruence|].
      apply Fk in E. apply Fl in E'. lia. }
    subst b. f_equal. apply IH; [assumption|assumption|]. intros x. split; intros Hx.
    + destruct (proj1 (H x) (or_intror Hx)) as [->|E]; [|exact E]. apply Fl in Hx. lia.
    + destruct (proj2 (H x) (or_intror Hx)) as [->|E]; [|exact E]. apply Fk in Hx. lia.
Qed.

Lemma desc_snoc l x : desc l -> Forall (fun y => (x < y)%Z) l -> desc (l ++ [x]).
Proof.
  induction 1 as [|a l S IH F]; intros G; cbn [app].
  - constructor; constructor.
  - inversion G as [|? ? Ga G']; subst. constructor; [apply IH; exact G'|].
    apply Forall_app. split; [exact F|]. constructor; [exact Ga|constructor].
Qed.

Lemma positions_desc b : forall from, desc (rev (positions from b)).
Proof.
  induction b as [|[|] b IH]; intros from; cbn [positions rev].
  - constructor.
  - apply desc_snoc; [apply IH|]. apply Forall_rev. apply Forall_forall. intros y Hy. apply positions_range in Hy. lia.
  - apply IH.
Qed.

Lemma sorted_positions b from : sorted_desc (positions from b) = rev (positions from b).
Proof.
  apply desc_unique.
  - apply sorted_desc_sorted. rewrite <- (rev_involutive (positions from b)). apply NoDup_rev.
    generalize (positions_desc b from). generalize (rev (positions from b)).
    induction 1 as [|a l S IH F]; constructor; [|exact IH]. intros Ha. rewrite Forall_forall in F. apply F in Ha. lia.
  - apply positions_desc.
  - intros x. rewrite sorted_in. apply in_rev.
Qed.

(** Flags of a list of indices. *)
Fixpoint flags (idx : list Z) (from : Z) (n : nat) : list bool :=
  match n with
  | O => []
  | S n' => existsb (Z.eqb from) idx :: flags idx (from + 1) n'
  end.

Lemma flags_length idx n : forall from, length (flags idx from n) = n.
Proof. induction n as [|n IH]; intros from; cbn [flags length]; [|rewrite IH]; reflexivity. Qed.

Lemma positions_flags idx n : forall from x,
  In x (positions from (flags idx from n)) <-> (In x idx /\ (from <= x < from + Z.of_nat n)%Z).
Proof.
  induction n as [|n IH]; intros from x; cbn [flags positions].
  - split; [contradiction|lia].
  - destruct (existsb (Z.eqb from) idx) eqn:E.
    + apply existsb_exists in E. destruct E as (y & Hy & Ey). apply Z.eqb_eq in Ey. subst y.
      cbn [In]. rewrite IH. split.
      * intros [<-|[H ?]]; [split; [exact Hy|lia]|split; [exact H|lia]].
      * intros [H ?]. destruct (Z.eq_dec from x) as [->|N]; [left; reflexivity|right]. split; [exact H|lia].
    + rewrite IH. split; intros [H ?]; (split; [exact H|]); [lia|].
      assert (from <> x); [|lia]. intros ->. rewrite (proj2 (existsb_exists _ _)) in E; [discriminate|].
      exists x. split; [exact H|apply Z.eqb_refl].
Qed.

Lemma sorted_flags idx n :
  NoDup idx -> Forall (fun i => (0 <= i < Z.of_nat n)%Z) idx ->
  sorted_desc idx = rev (positions 0 (flags idx 0 n)).
Proof.
  intros D F. apply desc_unique; [apply sorted_desc_sorted; exact D|apply positions_desc|].
  intros x. rewrite sorted_in, <- in_rev, positions_flags. rewrite Forall_forall in F.
  split; [intros H; split; [exact H|apply F in H; lia]|tauto].
Qed.

Lemma pick_flags {A} keep idx (l : list A) : forall from,
  pick keep (flags idx from (length l)) l = at_positions keep idx from l.
Proof.
  induction l as [|x l IH]; intros from; cbn [length flags pick at_positions]; [reflexivity|].
  rewrite IH. reflexivity.
Qed.

Lemma pick_length {A B} keep b : forall (l : list A) (k : list B), length l = length k ->
  length (pick keep b l) = length (pick keep b k).
Proof.
  induction b as [|x b IH]; intros [|y l] [|z k] H; try discriminate; [reflexivity..|].
  cbn [pick]. destruct (Bool.eqb x keep); cbn [length]; [f_equal|]; apply IH; cbn [length] in H; congruence.
Qed.

(* ---- Brie mixing does not see the order of the gases ---- *)

Lemma combine_rev {A B} : forall (l : list A) (k : list B), length l = length k ->
  combine (rev l) (rev k) = rev (combine l k).
Proof.
  assert (S : forall (l : list A) (k : list B) x y, length l = length k ->
    combine (l ++ [x]) (k ++ [y]) = combine l k ++ [(x, y)]).
  { induction l as [|a l IH]; intros [|b k] x y H; try discriminate; [reflexivity|].
    cbn [app combine]. f_equal. apply IH. cbn [length] in H. congruence. }
  induction l as [|a l IH]; intros [|b k] H; try discriminate; [reflexivity|].
  cbn [rev combine]. rewrite S; [f_equal; apply IH; cbn [length] in H; congruence|].
  rewrite !rev_length. cbn [length] in H. congruence.
Qed.

Lemma brie_rev_gases fl sf g sg e :
  length g = length sg -> brie_fluid_mixing fl sf (rev g) (rev sg) e = brie_fluid_mixing fl sf g sg e.
Proof.
  intros HL. unfold brie_fluid_mixing. rewrite !rev_length.
  assert (W : wood_fluid_mixing (rev g) (rev sg) = wood_fluid_mixing g sg).
  { apply wood_perm; [rewrite !rev_length; exact HL|exact HL|].
    rewrite combine_rev by exact HL. apply Permutation_sym, Permutation_rev. }
  destruct g as [|g0 g]; [destruct sg; [reflexivity|discriminate]|].
  destruct (rev (g0 :: g)) as [|h t] eqn:E.
  { apply (f_equal (@length _)) in E. rewrite rev_length in E. discriminate. }
  rewrite W. reflexivity.
Qed.

(* ---- the mixture ---- *)

Lemma as_mixture_wood co2 f p :
  f_mix_method f = Wood ->
  as_mixture co2 f p =
  (let* ms := fst (as_materials co2 (f_fluid_model f) (f_temperature f) p (f_constituents f)) in
   wood_fluid_mixing ms (map c_fraction (f_constituents f)),
   snd (as_materials co2 (f_fluid_model f) (f_temperature f) p (f_constituents f))).
Proof. intros H. unfold as_mixture. rewrite H. destruct (as_materials _ _ _ _ _) as [r p']. reflexivity. Qed.

Lemma as_materials_length co2 section t p cs ms p' :
  as_materials co2 section t p cs = (Ok ms, p') -> length ms = length cs.
Proof. intros H. apply as_materials_ok in H. tauto. Qed.

Lemma as_mixture_brie co2 f p ms p' b :
  f_mix_method f = Brie ->
  as_materials co2 (f_fluid_model f) (f_temperature f) p (f_constituents f) = (Ok ms, p') ->
  sorted_desc (f_brie_gases f) = rev (positions 0 b) -> length b = length (f_constituents f) ->
  as_mixture co2 f p =
  (brie_fluid_mixing (pick false b ms) (pick false b (map c_fraction (f_constituents f)))
     (pick true b ms) (pick true b (map c_fraction (f_constituents f))) (f_brie_constant f), p').
Proof.
  intros M E S L. pose proof (as_materials_length _ _ _ _ _ _ _ E) as HL.
  unfold as_mixture. rewrite E, M, S. cbn [bind].
  rewrite !pop_positions by (rewrite ?map_length; congruence). cbn [bind fst snd].
  rewrite brie_rev_gases; [reflexivity|]. apply pick_length. rewrite map_length. exact HL.
Qed.

(* ---- C73: the pressure is overwritten ---- *)

Lemma mixture_in_place co2 f p m p' :
  as_mixture co2 f p = (Ok m, p') ->
  p' = p / 10 ^ (6 * carbon_dioxides (f_fluid_model f) (f_constituents f)).
Proof.
  unfold as_mixture. destruct (as_materials _ _ _ _ _) as [[ms|e] q] eqn:E; [|discriminate].
  intros H. injection H as _ <-. apply as_materials_ok in E. tauto.
Qed.

Lemma mixture_worth co2 f p m p' :
  as_mixture co2 f p = (Ok m, p') ->
  exists ms, length ms = length (f_constituents f) /\
    (forall i c x, nth_error (f_constituents f) i = Some c -> nth_error ms i = Some x ->
       worth co2 (model_of (f_fluid_model f) c) (c_material c) (f_temperature f)
         (p / 10 ^ (6 * carbon_dioxides (f_fluid_model f) (firstn i (f_constituents f)))) x) /\
    (f_mix_method f = Wood -> wood_fluid_mixing ms (map c_fraction (f_constituents f)) = Ok m).
Proof.
  intros H. pose proof H as H0. unfold as_mixture in H.
  destruct (as_materials _ _ _ _ _) as [[ms|e] q] eqn:E; [|discriminate].
  exists ms. pose proof (proj1 (as_materials_ok _ _ _ _ _ _ _) E) as (_ & HL & HW).
  split; [exact HL|]. split; [exact HW|]. intros M. rewrite M in H. cbn [bind] in H. congruence.
Qed.

Lemma mixture_keeps_pressure co2 f p :
  carbon_dioxides (f_fluid_model f) (f_constituents f) = 0%nat -> snd (as_mixture co2 f p) = p.
Proof.
  intros H. pose proof (as_materials_pressure co2 _ (f_temperature f) _ p H) as E.
  unfold as_mixture. destruct (as_materials _ _ _ _ _) as [r q]. exact E.
Qed.

Lemma forall2_length {A B} (P : A -> B -> Prop) l k : Forall2 P l k -> length l = length k.
Proof. induction 1; cbn [length]; congruence. Qed.

(** Without carbon dioxide every constituent sees the given pressure. *)
Lemma no_co2_firstn section cs : carbon_dioxides section cs = 0%nat ->
  forall i, carbon_dioxides section (firstn i cs) = 0%nat.
Proof.
  induction cs as [|c cs IH]; intros H i; [destruct i; reflexivity|].
  destruct i as [|i]; [reflexivity|]. cbn [firstn carbon_dioxides] in *. rewrite IH; lia.
Qed.

Lemma no_co2_forall2 co2 section t p cs ms :
  carbon_dioxides section cs = 0%nat ->
  as_materials co2 section t p cs = (Ok ms, p) <->
  Forall2 (fun c m => worth co2 (model_of section c) (c_material c) t p m) cs ms.
Proof.
  intros H. rewrite as_materials_ok, H, shift0. split.
  - intros (_ & HL & HN). revert ms HL HN. induction cs as [|c cs IH]; intros [|m ms] HL HN; try discriminate; constructor.
    + specialize (HN 0%nat c m eq_refl eq_refl). cbn [firstn carbon_dioxides] in HN. rewrite shift0 in HN. exact HN.
    + cbn [carbon_dioxides] in H. apply IH; [lia|cbn [length] in HL; congruence|].
      intros i c' m' Hc Hm. specialize (HN (S i) c' m' Hc Hm). cbn [firstn carbon_dioxides] in HN.
      replace (match c_material c with FCarbonDioxide _ => match model_of section c with BatzleWang => 0 | SpanWagner => 1 end | _ => 0 end)%nat
        with 0%nat in HN by lia. exact HN.
  - intros F. split; [reflexivity|]. split; [symmetry; eapply forall2_length; exact F|].
    intros i c m Hc Hm. rewrite (no_co2_firstn _ _ H), shift0.
    clear H. revert i Hc Hm. induction F as [|a b cs' ms' Hab F IH]; intros [|i] Hc Hm; try discriminate.
    + injection Hc as <-. injection Hm as <-. exact Hab.
    + apply (IH i); assumption.
Qed.

Lemma carbon_dioxides_perm section cs cs' : Permutation cs cs' -> carbon_dioxides section cs = carbon_dioxides section cs'.
Proof. induction 1; cbn [carbon_dioxides]; lia. Qed.

Lemma forall2_perm {A B} (P : A -> B -> Prop) l l' : Permutation l l' -> forall k,
  Forall2 P l k -> exists k', Forall2 P l' k' /\ Permutation (combine l k) (combine l' k').
Proof.
  induction 1 as [|x l l' H IH|x y l|l l' l'' H1 IH1 H2 IH2]; intros k F.
  - inversion F; subst. exists []. split; constructor.
  - inversion F as [|? b ? k0 Hb F']; subst. destruct (IH _ F') as (k' & F2 & Pk).
    exists (b :: k'). split; [constructor; assumption|]. cbn [combine]. constructor. exact Pk.
  - inversion F as [|? b ? k0 Hb F']; subst. inversion F' as [|? b' ? k1 Hb' F'']; subst.
    exists (b' :: b :: k1). split; [repeat (constructor; try assumption)|]. cbn [combine]. apply perm_swap.
  - destruct (IH1 _ F) as (k' & F1 & P1). destruct (IH2 _ F1) as (k'' & F2 & P2).
    exists k''. split; [exact F2|]. eapply perm_trans; eassumption.
Qed.

Lemma combine_fractions (cs : list constituent) : forall (ms : list material),
  combine ms (map c_fraction cs) = map (fun cm => (snd cm, c_fraction (fst cm))) (combine cs ms).
Proof. induction cs as [|c cs IH]; intros [|m ms]; try reflexivity. cbn [map combine fst snd]. f_equal. apply IH. Qed.

Lemma mixture_order co2 t cs cs' e idx idx' pr p m :
  Permutation cs cs' -> carbon_dioxides pr cs = 0%nat ->
  fst (as_mixture co2 (mk_fluids t cs Wood e idx pr) p) = Ok m ->
  as_mixture co2 (mk_fluids t cs' Wood e idx' pr) p = (Ok m, p).
Proof.
  intros P N H. rewrite as_mixture_wood in H by reflexivity. rewrite as_mixture_wood by reflexivity. cbn [fst f_fluid_model f_temperature f_constituents] in *.
  destruct (as_materials co2 pr t p cs) as [[ms|er] q] eqn:E; cbn [fst bind] in H; [|discriminate].
  assert (q = p) as -> by (pose proof (as_materials_pressure co2 pr t cs p N) as Q; rewrite E in Q; exact Q).
  apply (no_co2_forall2 co2 pr t p cs ms N) in E.
  destruct (forall2_perm _ _ _ P _ E) as (ms' & F' & Pk).
  assert (N' : carbon_dioxides pr cs' = 0%nat) by (rewrite <- (carbon_dioxides_perm _ _ _ P); exact N).
  pose proof (forall2_length _ _ _ E) as L. pose proof (forall2_length _ _ _ F') as L'.
  apply (no_co2_forall2 co2 pr t p cs' ms' N') in F'. rewrite F'. cbn [fst snd bind]. f_equal.
  rewrite <- H. apply wood_perm; [rewrite map_length; congruence|rewrite map_length; congruence|].
  rewrite !combine_fractions. apply Permutation_map. apply Permutation_sym. exact Pk.
Qed.

(** A brine of 5% salt at 80 degrees. *)
Lemma brine_pressure_matters :
  exists b1 b2, brine 80 (20 * 10 ^ 6) 50000 = Ok b1 /\ brine 80 20 50000 = Ok b2 /\
    fluid b1 /\ 0 < bulk b1 /\ fluid b2 /\ 0 < bulk b2 /\ dens b2 < dens b1.
Proof.
  destruct (brine_usable 80 (20 * 10 ^ 6) 50000) as (b1 & E1 & F1 & K1 & _); [lra|lra|lra|].
  destruct (brine_usable 80 20 50000) as (b2 & E2 & F2 & K2 & _); [lra|lra|lra|].
  exists b1, b2. repeat (split; [assumption|]).
  destruct (brine_value _ _ _ _ E1) as (_ & D1 & _). destruct (brine_value _ _ _ _ E2) as (_ & D2 & _).
  rewrite D1, D2. unfold bw_brine_density, bw_water_density.
  apply Rmult_lt_compat_l; [lra|]. lra.
Qed.

Definition brine_constituent (x : R) : constituent := mk_constituent (FBrine 50000) x None.
Definition co2_constituent (x : R) : constituent := mk_constituent (FCarbonDioxide true) x (Some SpanWagner).
Definition wood_section (cs : list constituent) : fluids := mk_fluids 80 cs Wood 3 [] BatzleWang.

Lemma pressure_changed co2 :
  snd (as_mixture co2 (wood_section [co2_constituent 1]) (20 * 10 ^ 6)) = 20.
Proof.
  rewrite as_mixture_wood by reflexivity. cbn -[pow].
  unfold span_wagner_carbon_dioxide. destruct (co2 _ _ _); cbn -[pow]; lra.
Qed.

Lemma wood_ok_dens f s m : wood_fluid_mixing f s = Ok m -> dens m = mix_densities f (sum_saturations_to_one s).
Proof.
  unfold wood_fluid_mixing. destruct (mix_bulk_moduli _ _); cbn [bind]; [|discriminate].
  intros H. unfold fluid_of_bulk in H. apply mat_of_moduli_inv in H. destruct H as (_ & _ & _ & ->). reflexivity.
Qed.

Lemma normal_pair x y : 0 < x + y -> 1 / 10 ^ 15 <= x + y ->
  sum_saturations_to_one [x; y] = [x / (x + y); y / (x + y)].
Proof.
  intros H T. unfold sum_saturations_to_one. cbn [rsum map]. rewrite Rplus_0_r.
  rewrite Rmax_left by exact T. destruct (Rlt_dec 0 (x + y)); [reflexivity|contradiction].
Qed.

Lemma wood_pair_ok a b x y :
  0 < dens a -> 0 < bulk a -> 0 < dens b -> 0 < bulk b -> 0 <= x -> 0 <= y -> x + y = 1 ->
  exists m, wood_fluid_mixing [a; b] [x; y] = Ok m /\ dens m = x * dens a + y * dens b.
Proof.
  intros Da Ka Db Kb X Y T. unfold wood_fluid_mixing. rewrite normal_pair by lra. rewrite T.
  unfold mix_bulk_moduli, mix_densities. cbn [combine map rsum_res rsum fst snd].
  rewrite !np_div_ok by lra. cbn [bind].
  set (ia := x / 1 / bulk a). set (ib := y / 1 / bulk b).
  assert (Ia : 0 <= ia /\ (0 < x -> 0 < ia)).
  { unfold ia. split; [apply div_nonneg; lra|]. intros ?. apply div_pos; lra. }
  assert (Ib : 0 <= ib /\ (0 < y -> 0 < ib)).
  { unfold ib. split; [apply div_nonneg; lra|]. intros ?. apply div_pos; lra. }
  assert (I : 0 < ia + (ib + 0)).
  { destruct (Rlt_le_dec 0 x) as [h|h]; [destruct Ia as [_ Ia]; specialize (Ia h)|assert (0 < y) as h' by lra; destruct Ib as [_ Ib]; specialize (Ib h')]; lra. }
  rewrite np_div_ok by lra. cbn [bind]. unfold fluid_of_bulk.
  assert (Hd : dens a * (x / 1) + (dens b * (y / 1) + 0) = x * dens a + y * dens b) by field.
  assert (Pd : 0 < x * dens a + y * dens b).
  { destruct (Rlt_le_dec 0 x) as [h|h].
    - apply Rplus_lt_le_0_compat; [apply Rmult_lt_0_compat; lra|apply Rmult_le_pos; lra].
    - replace x with 0 by lra. replace y with 1 by lra. lra. }
  rewrite Hd.
  rewrite mat_of_moduli_ok; [|exact Pd|left; apply div_pos; lra|lra].
  eexists. split; reflexivity.
Qed.

Lemma usable_pos f : fluid f -> 0 < dens f.
Proof. intros [W _]. apply W. Qed.

(** The same two constituents in the other order give another mixture. *)
Lemma order_matters co2 :
  total_eos co2 ->
  exists m m',
    fst (as_mixture co2 (wood_section [brine_constituent (1 / 2); co2_constituent (1 / 2)]) (20 * 10 ^ 6)) = Ok m /\
    fst (as_mixture co2 (wood_section [co2_constituent (1 / 2); brine_constituent (1 / 2)]) (20 * 10 ^ 6)) = Ok m' /\
    dens m' < dens m.
Proof.
  intros T. destruct brine_pressure_matters as (b1 & b2 & E1 & E2 & F1 & K1 & F2 & K2 & D).
  destruct (T (celsius_to_kelvin 80) 20 true) as (c & Ec & Dc & Kc).
  assert (P : 20 * 10 ^ 6 / 10 ^ 6 = 20) by (field; lra).
  destruct (wood_pair_ok b1 c (1 / 2) (1 / 2)) as (m & Em & Dm); try lra; [apply usable_pos; exact F1|].
  destruct (wood_pair_ok c b2 (1 / 2) (1 / 2)) as (m' & Em' & Dm'); try lra; [apply usable_pos; exact F2|].
  exists m, m'. rewrite !as_mixture_wood by reflexivity.
  unfold wood_section, brine_constituent, co2_constituent.
  cbn [f_fluid_model f_temperature f_constituents as_materials fst snd map c_fraction].
  unfold constituent_as_material. cbn [c_fluid_model c_material fluid_as_material].
  unfold span_wagner_carbon_dioxide. rewrite P, Ec, E1, E2. cbn [bind fst snd].
  split; [exact Em|]. split; [exact Em'|]. lra.
Qed.

(** Evaluating the same input again gives another mixture, although the
    carbon dioxide takes no part in it. *)
Lemma repeat_matters co2 :
  total_eos co2 ->
  let f := wood_section [brine_constituent 1; co2_constituent 0] in
  exists m m' p',
    as_mixture co2 f (20 * 10 ^ 6) = (Ok m, p') /\ fst (as_mixture co2 f p') = Ok m' /\ dens m' < dens m.
Proof.
  intros T f. destruct brine_pressure_matters as (b1 & b2 & E1 & E2 & F1 & K1 & F2 & K2 & D).
  destruct (T (celsius_to_kelvin 80) 20 true) as (c & Ec & Dc & Kc).
  destruct (T (celsius_to_kelvin 80) (20 / 10 ^ 6) true) as (c' & Ec' & Dc' & Kc').
  assert (P : 20 * 10 ^ 6 / 10 ^ 6 = 20) by (field; lra).
  destruct (wood_pair_ok b1 c 1 0) as (m & Em & Dm); try lra; [apply usable_pos; exact F1|].
  destruct (wood_pair_ok b2 c' 1 0) as (m' & Em' & Dm'); try lra; [apply usable_pos; exact F2|].
  exists m, m', 20. unfold f. rewrite !as_mixture_wood by reflexivity.
  unfold wood_section, brine_constituent, co2_constituent.
  cbn [f_fluid_model f_temperature f_constituents as_materials fst snd map c_fraction].
  unfold constituent_as_material. cbn [c_fluid_model c_material fluid_as_material].
  unfold span_wagner_carbon_dioxide. rewrite P, Ec, E1, E2, Ec'. cbn [bind fst snd].
  rewrite Em, Em'. split; [reflexivity|]. split; [reflexivity|]. lra.
Qed.

(* ---- C74: carbon dioxide and the default provider ---- *)

Lemma as_materials_first_error co2 section t e : forall cs1 c cs2 p ms q,
  as_materials co2 section t p cs1 = (Ok ms, q) ->
  fst (constituent_as_material co2 section c t q) = Err e ->
  fst (as_materials co2 section t p (cs1 ++ c :: cs2)) = Err e.
Proof.
  induction cs1 as [|c1 cs1 IH]; intros c cs2 p ms q E F.
  - injection E as <- <-. cbn [app]. rewrite as_materials_cons.
    destruct (constituent_as_material co2 section c t p) as [[m|e'] p']; cbn [fst] in *; [discriminate|congruence].
  - cbn [app]. rewrite as_materials_cons in *.
    destruct (constituent_as_material co2 section c1 t p) as [[m|e'] p']; [|discriminate].
    destruct (as_materials co2 section t p' cs1) as [[ms'|e'] q'] eqn:E'; [|discriminate].
    injection E as <- <-. specialize (IH c cs2 p' ms' q' E' F).
    destruct (as_materials co2 section t p' (cs1 ++ c :: cs2)) as [[ms''|e''] q'']; cbn [fst] in *; congruence.
Qed.

Lemma mixture_err co2 f p e :
  fst (as_materials co2 (f_fluid_model f) (f_temperature f) p (f_constituents f)) = Err e ->
  fst (as_mixture co2 f p) = Err e.
Proof. unfold as_mixture. destruct (as_materials _ _ _ _ _) as [r q]; cbn [fst]. intros ->. reflexivity. Qed.

Lemma unsupported_constituent co2 section c t p :
  unsupported_by (model_of section c) (c_material c) ->
  fst (constituent_as_material co2 section c t p) = Err NotImplementedError.
Proof.
  unfold constituent_as_material, model_of.
  destruct (c_fluid_model c) as [[|]|]; [| |destruct section]; destruct (c_material c); cbn; tauto.
Qed.

Lemma mixture_unsupported co2 f p c :
  In c (f_constituents f) -> unsupported_by (model_of (f_fluid_model f) c) (c_material c) ->
  fails (fst (as_mixture co2 f p)) /\
  (forall cs1 cs2, f_constituents f = cs1 ++ c :: cs2 ->
     is_ok (fst (as_materials co2 (f_fluid_model f) (f_temperature f) p cs1)) ->
     fst (as_mixture co2 f p) = Err NotImplementedError).
Proof.
  intros Hc U. split.
  - destruct (as_mixture co2 f p) as [[m|e] p'] eqn:E; [|exists e; reflexivity]. exfalso.
    destruct (mixture_worth _ _ _ _ _ E) as (ms & HL & HW & _).
    apply In_nth_error in Hc. destruct Hc as [i Hi].
    destruct (nth_error ms i) as [x|] eqn:Hx.
    + specialize (HW i c x Hi Hx). apply constituent_worth in HW.
      rewrite unsupported_constituent in HW by exact U. discriminate.
    + apply nth_error_None in Hx. assert (i < length (f_constituents f))%nat by (apply nth_error_Some; congruence). lia.
  - intros cs1 cs2 E [ms H]. apply mixture_err. rewrite E.
    destruct (as_materials co2 (f_fluid_model f) (f_temperature f) p cs1) as [r q] eqn:E1. cbn [fst] in H. subst r.
    eapply as_materials_first_error; [exact E1|]. apply unsupported_constituent. exact U.
Qed.

(* ---- C75: Brie gas selection ---- *)

Lemma gas_indices_positions cs : forall from,
  gas_indices from cs = positions from (map (fun c => is_gas (rc_material c)) cs).
Proof.
  induction cs as [|c cs IH]; intros from; [reflexivity|]. cbn [gas_indices map positions]. rewrite IH.
  destruct (rc_material c); reflexivity.
Qed.

Lemma sequence_read cs cs' : sequence (map read_constituent cs) = Ok cs' -> cs' = cs.
Proof.
  revert cs'. induction cs as [|c cs IH]; intros cs' H; cbn [map sequence] in H; [congruence|].
  destruct (read_constituent c) as [c'|e] eqn:E; cbn [bind] in H; [|discriminate].
  destruct (sequence (map read_constituent cs)) as [l|e]; cbn [bind] in H; [|discriminate].
  injection H as <-. rewrite (IH l eq_refl). f_equal.
  unfold read_constituent in E. destruct (fraction_is_ratio _); cbn [bind] in E; [|discriminate].
  destruct (match rc_fluid_model c with None => _ | Some n => _ end); cbn [bind] in E; congruence.
Qed.

Lemma read_fluids_inv t cs method e gases model f :
  read_fluids t cs method e gases model = Ok f ->
  exists fractions, fix_one_fraction (map rc_fraction cs) = Ok fractions /\
    f = mk_fluids t (map (fun cf => finish_constituent (fst cf) (snd cf)) (combine cs fractions))
          (f_mix_method f) e match gases with None => gas_indices 0 cs | Some l => l end (f_fluid_model f) /\
    provider_named model = Ok (f_fluid_model f) /\
    ((method = "wood"%string /\ f_mix_method f = Wood) \/ (method = "brie"%string /\ f_mix_method f = Brie)).
Proof.
  unfold read_fluids. destruct (sequence _) as [cs'|er] eqn:E; cbn [bind]; [|discriminate].
  apply sequence_read in E. subst cs'. destruct cs as [|c0 cs0] eqn:Ecs; [discriminate|]. rewrite <- Ecs.
  destruct (Rlt_dec _ _); [discriminate|].
  destruct (String.eqb_spec method "wood"); [|destruct (String.eqb_spec method "brie")]; cbn [bind]; try discriminate;
    destruct (provider_named model) as [pr|er]; cbn [bind]; try discriminate;
    destruct (fix_one_fraction (map rc_fraction cs)) as [fr|er] eqn:Ef; cbn [bind]; try discriminate;
    intros H; injection H as <-; exists fr; cbn [f_mix_method f_fluid_model]; (split; [reflexivity|]);
    (split; [reflexivity|]); (split; [reflexivity|]); [left|right]; split; congruence.
Qed.

Lemma read_materials t cs method e gases model f :
  read_fluids t cs method e gases model = Ok f ->
  map c_material (f_constituents f) = map rc_material cs /\ length (f_constituents f) = length cs.
Proof.
  intros H. destruct (read_fluids_inv _ _ _ _ _ _ _ H) as (fr & Ef & Hf & _). rewrite Hf. cbn [f_constituents].
  apply fix_complete in Ef. destruct Ef as [L _]. rewrite map_length in L.
  rewrite map_map. split.
  - clear Hf H. revert fr L. induction cs as [|c cs IH]; intros [|x fr] L; try discriminate; [reflexivity|].
    cbn [combine map fst snd]. f_equal. apply IH. cbn [length] in L. congruence.
  - rewrite map_length, combine_length. lia.
Qed.

Lemma pick_map {A B} (h : A -> B) keep b : forall l, pick keep b (map h l) = map h (pick keep b l).
Proof.
  induction b as [|x b IH]; intros [|y l]; try reflexivity. cbn [map pick]. rewrite IH.
  destruct (Bool.eqb x keep); reflexivity.
Qed.

Lemma pick_filter {A B} (g : A -> bool) keep : forall (l : list A) (k : list B), length l = length k ->
  pick keep (map g l) k = map snd (filter (fun xy => Bool.eqb (g (fst xy)) keep) (combine l k)) /\
  pick keep (map g l) l = map fst (filter (fun xy => Bool.eqb (g (fst xy)) keep) (combine l k)).
Proof.
  induction l as [|x l IH]; intros [|y k] H; try discriminate; [split; reflexivity|].
  cbn [map pick combine filter fst]. destruct (IH k ltac:(cbn [length] in H; congruence)) as [-> ->].
  destruct (Bool.eqb (g x) keep); split; reflexivity.
Qed.

Lemma brie_default co2 t cs e model f p ms p' :
  read_fluids t cs "brie" e None model = Ok f ->
  as_materials co2 (f_fluid_model f) t p (f_constituents f) = (Ok ms, p') ->
  let part keep := filter (fun cm => Bool.eqb (is_gas (c_material (fst cm))) keep) (combine (f_constituents f) ms) in
  map c_material (f_constituents f) = map rc_material cs /\
  as_mixture co2 f p =
  (brie_fluid_mixing (map snd (part false)) (map (fun cm => c_fraction (fst cm)) (part false))
     (map snd (part true)) (map (fun cm => c_fraction (fst cm)) (part true)) e, p').
Proof.
  intros H E part. destruct (read_materials _ _ _ _ _ _ _ H) as [M L]. split; [exact M|].
  destruct (read_fluids_inv _ _ _ _ _ _ _ H) as (fr & Ef & Hf & _ & [[? _]|[_ HB]]); [discriminate|].
  assert (G : f_brie_gases f = gas_indices 0 cs) by (rewrite Hf; reflexivity).
  assert (T : f_temperature f = t) by (rewrite Hf; reflexivity).
  assert (X : f_brie_constant f = e) by (rewrite Hf; reflexivity).
  assert (B : map (fun c => is_gas (rc_material c)) cs = map (fun c => is_gas (c_material c)) (f_constituents f)).
  { rewrite <- (map_map rc_material is_gas), <- M, map_map. reflexivity. }
  pose proof (as_materials_length _ _ _ _ _ _ _ E) as HL.
  rewrite <- T in E.
  rewrite (as_mixture_brie co2 f p ms p' (map (fun c => is_gas (c_material c)) (f_constituents f)) HB E).
  - rewrite X, !pick_map.
    destruct (pick_filter (fun c => is_gas (c_material c)) false (f_constituents f) ms ltac:(congruence)) as [-> ->].
    destruct (pick_filter (fun c => is_gas (c_material c)) true (f_constituents f) ms ltac:(congruence)) as [-> ->].
    rewrite !map_map. reflexivity.
  - rewrite G, gas_indices_positions, B. apply sorted_positions.
  - apply map_length.
Qed.

Lemma brie_explicit co2 f p ms p' :
  f_mix_method f = Brie ->
  NoDup (f_brie_gases f) ->
  Forall (fun i => (0 <= i < Z.of_nat (length (f_constituents f)))%Z) (f_brie_gases f) ->
  as_materials co2 (f_fluid_model f) (f_temperature f) p (f_constituents f) = (Ok ms, p') ->
  let part {A} keep (l : list A) := at_positions keep (f_brie_gases f) 0 l in
  let fractions := map c_fraction (f_constituents f) in
  as_mixture co2 f p =
  (brie_fluid_mixing (part false ms) (part false fractions) (part true ms) (part true fractions)
     (f_brie_constant f), p').
Proof.
  intros HB D F E part fractions. pose proof (as_materials_length _ _ _ _ _ _ _ E) as HL.
  rewrite (as_mixture_brie co2 f p ms p' (flags (f_brie_gases f) 0 (length (f_constituents f))) HB E).
  - rewrite <- HL, !pick_flags. rewrite HL.
    replace (length (f_constituents f)) with (length fractions) by apply map_length.
    rewrite !pick_flags. reflexivity.
  - apply sorted_flags; assumption.
  - apply flags_length.
Qed.

Lemma brie_out_of_range co2 f p ms p' i :
  f_mix_method f = Brie ->
  as_materials co2 (f_fluid_model f) (f_temperature f) p (f_constituents f) = (Ok ms, p') ->
  In i (f_brie_gases f) ->
  (Z.of_nat (length (f_constituents f)) <= i \/ i < - Z.of_nat (length (f_constituents f)))%Z ->
  as_mixture co2 f p = (Err IndexError, p').
Proof.
  intros HB E Hi Ho. pose proof (as_materials_length _ _ _ _ _ _ _ E) as HL. rewrite <- HL in Ho.
  unfold as_mixture. rewrite E, HB. cbn [bind].
  rewrite (pop_all_out_of_range _ ms i); [reflexivity|apply sorted_in; exact Hi|exact Ho].
Qed.

(* ---- C76: provider registry ---- *)

Lemma occurrences_in n names : (0 < occurrences n names)%nat <-> In n names.
Proof.
  induction names as [|m names IH]; cbn [occurrences In]; [lia|].
  destruct (String.eqb_spec n m) as [->|N].
  - split; [intros _; left; reflexivity|lia].
  - rewrite <- IH. split; [intros; right; lia|intros [?|?]; [congruence|lia]].
Qed.

Lemma occurrences_nodup names : NoDup names <-> forall n, (occurrences n names <= 1)%nat.
Proof.
  induction names as [|m names IH]; cbn [occurrences].
  - split; [intros _ n; lia|constructor].
  - split.
    + intros D n. inversion D as [|? ? N D']; subst. pose proof (proj1 IH D' n) as H.
      destruct (String.eqb_spec n m) as [->|]; [|lia].
      assert (occurrences m names = 0%nat); [|lia].
      destruct (occurrences m names) eqn:E; [reflexivity|]. exfalso. apply N. apply occurrences_in. lia.
    + intros H. constructor.
      * intros Hm. apply occurrences_in in Hm. specialize (H m). rewrite String.eqb_refl in H. lia.
      * apply IH. intros n. specialize (H n). lia.
Qed.

Lemma has_duplicates_iff names : has_duplicates names = true <-> ~ NoDup names.
Proof.
  unfold has_duplicates. rewrite existsb_exists. split.
  - intros (n & Hn & Hl) D. apply Nat.ltb_lt in Hl. pose proof (proj1 (occurrences_nodup names) D n). lia.
  - intros N. destruct (existsb (fun n => Nat.ltb 1 (occurrences n names)) names) eqn:E.
    + apply existsb_exists in E. exact E.
    + exfalso. apply N. apply occurrences_nodup. intros n.
      destruct (Nat.le_gt_cases (occurrences n names) 1) as [H|H]; [exact H|exfalso].
      assert (existsb (fun n => Nat.ltb 1 (occurrences n names)) names = true); [|congruence].
      apply existsb_exists. exists n. split; [apply occurrences_in; lia|apply Nat.ltb_lt; exact H].
Qed.

Lemma load_import_error {P} (entries : list (string * P)) :
  load_providers entries = Err ImportError <-> ~ NoDup (map fst entries).
Proof.
  rewrite <- has_duplicates_iff. unfold load_providers. destruct (has_duplicates _); [tauto|].
  split; [|discriminate]. destruct (lookup entries "batzle_wang"); discriminate.
Qed.

Lemma lookup_none {P} (entries : list (string * P)) n : lookup entries n = None <-> ~ In n (map fst entries).
Proof.
  induction entries as [|[m q] entries IH]; cbn [lookup map fst In]; [tauto|].
  destruct (lookup entries n) as [q'|].
  - split; [discriminate|]. intros H. destruct IH as [_ IH]. exfalso.
    assert (Some q' = None); [|discriminate]. apply IH. tauto.
  - destruct IH as [IH _]. specialize (IH eq_refl). destruct (String.eqb_spec m n); [split; [discriminate|tauto]|tauto].
Qed.

Lemma lookup_in {P} (entries : list (string * P)) n q :
  NoDup (map fst entries) -> In (n, q) entries -> lookup entries n = Some q.
Proof.
  induction entries as [|[m r] entries IH]; intros D H; [contradiction|].
  cbn [map fst] in D. inversion D as [|? ? N D']; subst. cbn [lookup]. destruct H as [H|H].
  - injection H as -> ->. rewrite (proj2 (lookup_none entries n) N), String.eqb_refl. reflexivity.
  - rewrite (IH D' H). reflexivity.
Qed.

Lemma lookup_some {P} (entries : list (string * P)) n q : lookup entries n = Some q -> In (n, q) entries.
Proof.
  induction entries as [|[m r] entries IH]; cbn [lookup]; [discriminate|].
  destruct (lookup entries n) as [q'|].
  - intros H. right. apply IH. exact H.
  - destruct (String.eqb_spec m n) as [->|]; [|discriminate]. intros H. left. congruence.
Qed.

Lemma load_ok {P} (entries : list (string * P)) reg :
  load_providers entries = Ok reg ->
  NoDup (map fst entries) /\ In "batzle_wang"%string (map fst entries) /\
  reg "default"%string = reg "batzle_wang"%string /\
  (forall n, n <> "default"%string -> forall q, reg n = Some q <-> In (n, q) entries).
Proof.
  unfold load_providers. destruct (has_duplicates _) eqn:D; [discriminate|].
  assert (ND : NoDup (map fst entries)).
  { apply occurrences_nodup. intros n. destruct (Nat.le_gt_cases (occurrences n (map fst entries)) 1) as [H|H]; [exact H|].
    exfalso. assert (has_duplicates (map fst entries) = true); [|congruence]. apply existsb_exists.
    exists n. split; [apply occurrences_in; lia|apply Nat.ltb_lt; exact H]. }
  destruct (lookup entries "batzle_wang") as [b|] eqn:E; [|discriminate].
  intros H. injection H as <-. split; [exact ND|]. split.
  { apply lookup_some in E. apply (in_map fst) in E. exact E. }
  split; [cbn; rewrite E; reflexivity|].
  intros n N q. rewrite (proj2 (String.eqb_neq _ _) N).
  split; [apply lookup_some|apply lookup_in; exact ND].
Qed.

Lemma load_outcome {P} (entries : list (string * P)) :
  is_ok (load_providers entries) <-> NoDup (map fst entries) /\ In "batzle_wang"%string (map fst entries).
Proof.
  split.
  - intros [reg H]. apply load_ok in H. tauto.
  - intros [D I]. unfold load_providers.
    destruct (has_duplicates _) eqn:E; [apply has_duplicates_iff in E; contradiction|].
    destruct (lookup entries "batzle_wang") eqn:L; [eexists; reflexivity|]. apply lookup_none in L. contradiction.
Qed.

(* ---- C122, C123: Brie examples ---- *)

Definition three (idx : list Z) : fluids :=
  mk_fluids 80 [mk_constituent (FArbitrary (sample 1 0 1)) (1 / 3) None;
                mk_constituent (FArbitrary (sample 2 0 1)) (1 / 3) None;
                mk_constituent (FArbitrary (sample 4 0 1)) (1 / 3) None] Brie 1 idx BatzleWang.

Lemma three_materials co2 idx p :
  as_materials co2 (f_fluid_model (three idx)) (f_temperature (three idx)) p (f_constituents (three idx)) =
  (Ok [sample 1 0 1; sample 2 0 1; sample 4 0 1], p).
Proof. reflexivity. Qed.

Lemma wood_one k : 0 < k -> wood_fluid_mixing [sample k 0 1] [1 / 3] = Ok (sample k 0 1).
Proof. intros H. apply wood_pure; [apply sample_fluid; lra|exact H|lra]. Qed.

Lemma wood_two a b : 0 < a -> 0 < b ->
  exists m, wood_fluid_mixing [sample a 0 1; sample b 0 1] [1 / 3; 1 / 3] = Ok m /\
    bulk m = 2 / (1 / a + 1 / b) /\ dens m = 1.
Proof.
  intros Ha Hb.
  destruct (wood_conserves [sample a 0 1; sample b 0 1] [1 / 3; 1 / 3]) as (m & E & D & K & _).
  - constructor; [split; [apply sample_fluid; lra|exact Ha]|]. constructor; [split; [apply sample_fluid; lra|exact Hb]|constructor].
  - split; [reflexivity|]. split; [repeat (constructor; try lra)|cbn [rsum]; lra].
  - exists m. split; [exact E|]. cbn [rsum wsum map] in D, K. unfold sample in D, K. cbn [dens bulk] in D, K.
    split; [|lra].
    assert (Km : bulk m <> 0).
    { intros Z. rewrite Z in K. unfold Rdiv in K at 1. rewrite Rinv_0 in K.
      assert (0 < 1 / a) by (apply div_pos; lra). assert (0 < 1 / b) by (apply div_pos; lra). lra. }
    assert (P : 0 < 1 / a + 1 / b) by (assert (0 < 1 / a) by (apply div_pos; lra); assert (0 < 1 / b) by (apply div_pos; lra); lra).
    assert (K' : 1 / 3 * (1 / a) + (1 / 3 * (1 / b) + 0) = 1 / 3 * (1 / a + 1 / b)) by ring. rewrite K' in K.
    set (q := 1 / a + 1 / b) in *.
    apply Rmult_eq_reg_r with q; [|lra]. replace (2 / q * q) with 2 by (field; lra).
    replace (bulk m * q) with (3 * bulk m * (1 / 3 * q)) by field. rewrite <- K. field. exact Km.
Qed.

Lemma brie_three_first co2 p : exists m,
  as_mixture co2 (three [0%Z]) p = (Ok m, p) /\ bulk m = 19 / 9.
Proof.
  destruct (wood_two 2 4) as (l & El & Kl & Dl); [lra|lra|].
  rewrite (brie_explicit co2 (three [0%Z]) p [sample 1 0 1; sample 2 0 1; sample 4 0 1] p eq_refl); [| | |apply three_materials].
  - cbn -[brie_fluid_mixing wood_fluid_mixing sample pow].
    unfold brie_fluid_mixing. cbn [length Nat.eqb negb]. rewrite El, (wood_one 1) by lra. cbn [bind rsum].
    replace (1 / 3 + (1 / 3 + 0)) with (2 / 3) by lra. rewrite np_pow_pos by lra. cbn [bind]. rewrite Rpower_1 by lra.
    unfold fluid_of_bulk. rewrite Kl. unfold mix_densities. cbn [combine map rsum fst snd]. rewrite Dl.
    unfold sample. cbn [bulk dens].
    rewrite mat_of_moduli_ok; [|lra|lra|lra]. eexists. split; [reflexivity|]. cbn [bulk]. lra.
  - constructor; [intros []|constructor].
  - constructor; [cbn; lia|constructor].
Qed.

Lemma brie_three_twice co2 p : exists m,
  as_mixture co2 (three [0%Z; 0%Z]) p = (Ok m, p) /\ bulk m = 20 / 9.
Proof.
  destruct (wood_two 2 1) as (g & Eg & Kg & Dg); [lra|lra|].
  assert (Eg' : wood_fluid_mixing [sample 1 0 1; sample 2 0 1] [1 / 3; 1 / 3] = Ok g).
  { rewrite <- Eg. apply wood_perm; [reflexivity|reflexivity|]. apply perm_swap. }
  unfold as_mixture. rewrite three_materials. cbn -[brie_fluid_mixing wood_fluid_mixing sample pow].
  unfold brie_fluid_mixing. cbn [length Nat.eqb negb]. rewrite Eg', (wood_one 4) by lra. cbn [bind rsum].
  replace (1 / 3 + 0) with (1 / 3) by lra. rewrite np_pow_pos by lra. cbn [bind]. rewrite Rpower_1 by lra.
  unfold fluid_of_bulk. rewrite Kg. unfold mix_densities. cbn [combine map rsum fst snd]. rewrite Dg.
  unfold sample. cbn [bulk dens].
  rewrite mat_of_moduli_ok; [|lra|lra|lra]. eexists. split; [reflexivity|]. cbn [bulk]. lra.
Qed.

Lemma no_gas_pick {A} cs : forall (l : list A), Forall (fun c => is_gas (c_material c) = false) cs ->
  length l = length cs ->
  pick false (map (fun c => is_gas (c_material c)) cs) l = l /\
  pick true (map (fun c => is_gas (c_material c)) cs) l = [].
Proof.
  induction cs as [|c cs IH]; intros [|x l] F L; try discriminate; [split; reflexivity|].
  inversion F as [|? ? Hc F']; subst. cbn [map pick]. rewrite Hc. cbn [Bool.eqb].
  destruct (IH l F' ltac:(cbn [length] in L; congruence)) as [-> ->]. split; reflexivity.
Qed.

Lemma brie_no_gas co2 t cs e model f f' p :
  read_fluids t cs "brie" e None model = Ok f -> read_fluids t cs "wood" e None model = Ok f' ->
  Forall (fun c => is_gas (rc_material c) = false) cs ->
  as_mixture co2 f p = as_mixture co2 f' p.
Proof.
  intros H H' F.
  destruct (read_materials _ _ _ _ _ _ _ H) as [M L].
  destruct (read_fluids_inv _ _ _ _ _ _ _ H) as (fr & Ef & Hf & Pf & [[? _]|[_ HB]]); [discriminate|].
  destruct (read_fluids_inv _ _ _ _ _ _ _ H') as (fr' & Ef' & Hf' & Pf' & [[_ HW]|[? _]]); [|discriminate].
  assert (fr' = fr) by congruence. subst fr'. assert (Ep : f_fluid_model f' = f_fluid_model f) by congruence.
  assert (C : f_constituents f' = f_constituents f) by (rewrite Hf, Hf'; reflexivity).
  assert (T : f_temperature f' = f_temperature f) by (rewrite Hf, Hf'; reflexivity).
  rewrite (as_mixture_wood co2 f' p HW), C, T, Ep.
  destruct (as_materials co2 (f_fluid_model f) (f_temperature f) p (f_constituents f)) as [[ms|er] q] eqn:E;
    [|unfold as_mixture; rewrite E; reflexivity].
  cbn [fst snd bind].
  assert (F' : Forall (fun c => is_gas (c_material c) = false) (f_constituents f)).
  { assert (G : Forall (fun x => is_gas x = false) (map c_material (f_constituents f))).
    { rewrite M. apply (proj2 (Forall_map rc_material (fun x => is_gas x = false) cs)). exact F. }
    exact (proj1 (Forall_map c_material (fun x => is_gas x = false) _) G). }
  pose proof (as_materials_length _ _ _ _ _ _ _ E) as HL.
  assert (B : map (fun c => is_gas (rc_material c)) cs = map (fun c => is_gas (c_material c)) (f_constituents f)).
  { rewrite <- (map_map rc_material is_gas), <- M, map_map. reflexivity. }
  rewrite (as_mixture_brie co2 f p ms q (map (fun c => is_gas (c_material c)) (f_constituents f)) HB E).
  - destruct (no_gas_pick (f_constituents f) ms F' HL) as [-> ->].
    destruct (no_gas_pick (f_constituents f) (map c_fraction (f_constituents f)) F' ltac:(apply map_length)) as [-> ->].
    unfold brie_fluid_mixing. rewrite map_length, HL, Nat.eqb_refl. cbn [negb length Nat.eqb].
    destruct ms as [|m0 ms0]; [|reflexivity].
    exfalso. cbn [length] in HL. rewrite L in HL. destruct cs; [|discriminate].
    unfold read_fluids in H. cbn in H. discriminate.
  - assert (G : f_brie_gases f = gas_indices 0 cs) by (rewrite Hf; reflexivity).
    rewrite G, gas_indices_positions, B. apply sorted_positions.
  - apply map_length.
Qed.

(* ---- C125: accepted sections ---- *)



Lemma provider_named_cases n :
  (name_ok n /\ is_ok (provider_named n)) \/ (~ name_ok n /\ provider_named n = Err ValueError).
Proof.
  unfold provider_named, name_ok.
  destruct (String.eqb_spec n "default"); [left; split; [tauto|eexists; reflexivity]|].
  destruct (String.eqb_spec n "batzle_wang"); [left; split; [tauto|eexists; reflexivity]|].
  destruct (String.eqb_spec n "span_wagner"); [left; split; [tauto|eexists; reflexivity]|].
  right. split; [tauto|reflexivity].
Qed.

Lemma read_constituent_cases c :
  (raw_ok c /\ read_constituent c = Ok c) \/ (~ raw_ok c /\ read_constituent c = Err ValueError).
Proof.
  unfold read_constituent, raw_ok. change (match rc_fraction c with None => True | Some x => - (1 / 10 ^ 5) <= x <= 1 + 1 / 10 ^ 5 end) with (ratio_ok (rc_fraction c)).
  destruct (fraction_is_ratio_cases (rc_fraction c)) as [E|E]; rewrite E; cbn [bind].
  - apply fraction_is_ratio_ok in E. destruct (rc_fluid_model c) as [n|]; [|left; split; [tauto|reflexivity]].
    destruct (provider_named_cases n) as [[N [q ->]]|[N ->]]; cbn [bind]; [left|right]; split; try tauto; reflexivity.
  - right. split; [|reflexivity]. intros [R _]. apply fraction_is_ratio_ok in R. congruence.
Qed.

Lemma sequence_read_cases cs :
  (Forall raw_ok cs /\ sequence (map read_constituent cs) = Ok cs) \/
  (~ Forall raw_ok cs /\ sequence (map read_constituent cs) = Err ValueError).
Proof.
  induction cs as [|c cs IH]; [left; split; [constructor|reflexivity]|]. cbn [map sequence].
  destruct (read_constituent_cases c) as [[O ->]|[O ->]]; cbn [bind].
  - destruct IH as [[F ->]|[F ->]]; cbn [bind]; [left; split; [constructor; assumption|reflexivity]|].
    right. split; [|reflexivity]. intros H. inversion H; subst. contradiction.
  - right. split; [|reflexivity]. intros H. inversion H; subst. contradiction.
Qed.

Lemma read_fluids_outcome t cs method e gases model :
  let fs := map rc_fraction cs in
  let accepted :=
    cs <> [] /\ Forall raw_ok cs /\ name_ok model /\ (method = "wood"%string \/ method = "brie"%string) /\
    (count_missing fs <= 1)%nat /\ sum_given fs <= 1 + 1 / 10 ^ 5 /\
    (count_missing fs = 1%nat -> - (1 / 10 ^ 5) <= sum_given fs) in
  (is_ok (read_fluids t cs method e gases model) <-> accepted) /\
  (read_fluids t cs method e gases model = Err ValueError <-> ~ accepted).
Proof.
  intros fs accepted.
  assert (X : (accepted /\ is_ok (read_fluids t cs method e gases model)) \/
              (~ accepted /\ read_fluids t cs method e gases model = Err ValueError)).
  { unfold read_fluids. destruct (sequence_read_cases cs) as [[F ->]|[F ->]]; cbn [bind];
      [|right; split; [intros (_ & ? & _); contradiction|reflexivity]].
    destruct cs as [|c0 cs0]; [right; split; [intros (? & _); congruence|reflexivity]|].
    fold fs. destruct (Rlt_dec (1 + 1 / 10 ^ 5) (sum_given fs)) as [S|S];
      [right; split; [intros (_ & _ & _ & _ & _ & ? & _); lra|reflexivity]|].
    assert (Hm : ((method = "wood" \/ method = "brie")%string /\
        exists x, (if String.eqb method "wood" then Ok Wood else if String.eqb method "brie" then Ok Brie else Err ValueError) = Ok x) \/
      (~ (method = "wood" \/ method = "brie")%string /\
        (if String.eqb method "wood" then Ok Wood else if String.eqb method "brie" then Ok Brie else Err ValueError) = Err ValueError)).
    { destruct (String.eqb_spec method "wood"); [left; split; [tauto|eexists; reflexivity]|].
      destruct (String.eqb_spec method "brie"); [left; split; [tauto|eexists; reflexivity]|right; split; [tauto|reflexivity]]. }
    destruct Hm as [[Hm [x ->]]|[Hm ->]]; cbn [bind]; [|right; split; [intros (_ & _ & _ & ? & _); contradiction|reflexivity]].
    destruct (provider_named_cases model) as [[N [q ->]]|[N ->]]; cbn [bind];
      [|right; split; [intros (_ & _ & ? & _); contradiction|reflexivity]].
    destruct (fix_outcome fs) as [O1 O2].
    destruct (fix_one_fraction fs) as [fr|er] eqn:E; cbn [bind].
    - left. destruct O1 as [O1 _]. destruct O1 as (A & B & C); [eexists; reflexivity|].
      split; [|eexists; reflexivity]. unfold accepted. split; [discriminate|]. tauto.
    - right. split.
      + intros (_ & _ & _ & _ & A & B & C). destruct O1 as [_ O1]. destruct O1 as [y Y]; [auto|discriminate].
      + unfold fix_one_fraction in E. destruct (Rlt_dec _ _); [congruence|].
        destruct (count_missing fs) as [|[|k]]; [congruence| |congruence].
        destruct (fraction_is_ratio_cases (Some (1 - sum_given fs))) as [R|R]; rewrite R in E; cbn [bind] in E; congruence. }
  destruct X as [[A O]|[A O]]; rewrite ?O; split; split; try tauto; try (intros; assumption).
  - intros H. destruct O as [y Y]. congruence.
  - intros [y Y]. discriminate.
Qed.

Lemma nth_combine {A B} : forall (l : list A) (k : list B) i x y,
  nth_error l i = Some x -> nth_error k i = Some y -> nth_error (combine l k) i = Some (x, y).
Proof.
  induction l as [|a l IH]; intros [|b k] [|i] x y Hx Hy; try discriminate.
  - injection Hx as <-. injection Hy as <-. reflexivity.
  - cbn [combine nth_error]. apply IH; assumption.
Qed.

Lemma section_contents t cs method e gases model f :
  read_fluids t cs method e gases model = Ok f ->
  f_temperature f = t /\ f_brie_constant f = e /\ provider_named model = Ok (f_fluid_model f) /\
  map c_material (f_constituents f) = map rc_material cs /\
  (forall l, gases = Some l -> f_brie_gases f = l) /\
  (forall i c x, nth_error cs i = Some c -> rc_fraction c = Some x ->
     exists c', nth_error (f_constituents f) i = Some c' /\ c_fraction c' = x) /\
  (count_missing (map rc_fraction cs) = 1%nat -> rsum (map c_fraction (f_constituents f)) = 1).
Proof.
  intros H. destruct (read_materials _ _ _ _ _ _ _ H) as [M L].
  destruct (read_fluids_inv _ _ _ _ _ _ _ H) as (fr & Ef & Hf & Pf & _).
  destruct (fix_complete _ _ Ef) as (HL & HN & H1 & _). rewrite map_length in HL.
  split; [rewrite Hf; reflexivity|]. split; [rewrite Hf; reflexivity|]. split; [exact Pf|]. split; [exact M|].
  split; [intros l ->; rewrite Hf; reflexivity|]. split.
  - intros i c x Hc Hx.
    assert (Hi : nth_error (map rc_fraction cs) i = Some (Some x)) by (rewrite nth_error_map, Hc; cbn; congruence).
    apply HN in Hi. exists (finish_constituent c x). rewrite Hf. cbn [f_constituents].
    rewrite nth_error_map, (nth_combine _ _ _ _ _ Hc Hi). split; reflexivity.
  - intros Hm. rewrite <- (H1 Hm). f_equal. rewrite Hf. cbn [f_constituents]. rewrite map_map.
    clear - HL. revert fr HL. induction cs as [|c cs IH]; intros [|x fr] HL; try discriminate; [reflexivity|].
    cbn [combine map fst snd]. f_equal. apply IH. cbn [length] in HL. congruence.
Qed.

Lemma brie_three_wood m :
  wood_fluid_mixing [sample 1 0 1; sample 2 0 1; sample 4 0 1] [1 / 3; 1 / 3; 1 / 3] = Ok m -> bulk m < 2.
Proof.
  intros H.
  destruct (wood_conserves [sample 1 0 1; sample 2 0 1; sample 4 0 1] [1 / 3; 1 / 3; 1 / 3]) as (m' & E & _ & K & _).
  - repeat (constructor; [split; [apply sample_fluid; lra|cbn; lra]|]). constructor.
  - split; [reflexivity|]. split; [repeat (constructor; try lra)|cbn [rsum]; lra].
  - rewrite H in E. injection E as <-. cbn [rsum wsum map] in K. unfold sample in K. cbn [bulk] in K.
    assert (B : bulk m <> 0).
    { intros Z. rewrite Z in K. unfold Rdiv in K. rewrite Rinv_0 in K. lra. }
    assert (K' : (1 / 3 + (1 / 3 + (1 / 3 + 0))) / bulk m = 7 / 12) by (rewrite K; field).
    replace (1 / 3 + (1 / 3 + (1 / 3 + 0))) with 1 in K' by field.
    assert (bulk m = 12 / 7); [|lra].
    apply Rmult_eq_reg_r with (1 / bulk m); [|rewrite K'; lra]. rewrite K' at 2. field. exact B.
Qed.

Lemma own_model_wins co2 t cs method e idx pr pr' p :
  Forall (fun c => c_fluid_model c <> None) cs ->
  as_mixture co2 (mk_fluids t cs method e idx pr) p = as_mixture co2 (mk_fluids t cs method e idx pr') p.
Proof.
  intros F.
  assert (E : forall p, as_materials co2 pr t p cs = as_materials co2 pr' t p cs).
  { induction F as [|c cs Hc F IH]; intros q; [reflexivity|]. rewrite !as_materials_cons.
    assert (Ec : constituent_as_material co2 pr c t q = constituent_as_material co2 pr' c t q).
    { unfold constituent_as_material. destruct (c_fluid_model c); [reflexivity|congruence]. }
    rewrite Ec. destruct (constituent_as_material co2 pr' c t q) as [[m|er] q']; [|reflexivity]. rewrite IH. reflexivity. }
  unfold as_mixture. cbn [f_fluid_model f_temperature f_constituents f_mix_method f_brie_gases f_brie_constant].
  rewrite E. reflexivity.
Qed.

Lemma incomplete_accepted :
  exists cs f, count_missing (map rc_fraction cs) = 0%nat /\ sum_given (map rc_fraction cs) = 1 / 2 /\
    read_fluids 80 cs "wood" 3 None "default" = Ok f /\
    exists m, forall co2 p, as_mixture co2 f p = (Ok m, p).
Proof.
  set (cs := [mk_raw_constituent (FArbitrary (sample 1 0 1)) (Some (1 / 2)) None]).
  destruct (proj1 (read_fluids_outcome 80 cs "wood" 3 None "default")) as [_ H].
  destruct H as [f F].
  - split; [discriminate|]. split.
    + unfold raw_ok. repeat (apply Forall_cons; [cbn; split; [lra|exact I]|]). apply Forall_nil.
    + split; [left; reflexivity|]. split; [left; reflexivity|]. cbn. split; [lia|]. split; [lra|discriminate].
  - exists cs, f. split; [reflexivity|]. split; [cbn; lra|]. split; [exact F|].
    exists (sample 1 0 1). intros co2 p.
    destruct (read_fluids_inv _ _ _ _ _ _ _ F) as (fr & Ef & Hf & _ & [[_ HW]|[? _]]); [|discriminate].
    destruct (fix_complete _ _ Ef) as (_ & _ & _ & H0 & _). specialize (H0 eq_refl).
    destruct fr as [|a [|b fr]]; try discriminate. cbn in H0. injection H0 as ->.
    rewrite (as_mixture_wood co2 f p HW). rewrite Hf. cbn -[wood_fluid_mixing sample].
    rewrite wood_pure; [reflexivity|apply sample_fluid; lra|cbn; lra|lra].
Qed.

Lemma read_default_gases t cs method e model :
  read_fluids t cs method e None model = read_fluids t cs method e (Some (gas_indices 0 cs)) model.
Proof.
  unfold read_fluids. destruct (sequence _) as [cs'|er] eqn:E; cbn [bind]; [|reflexivity].
  apply sequence_read in E. subst cs'. reflexivity.
Qed.
