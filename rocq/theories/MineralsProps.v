(** Properties C32-C37: fractions and mineral mixtures. *)
From Coq Require Import Permutation.
From Verif Require Import Base BaseProofs MaterialModel Spec MaterialProofs HashinShtrikmanModel HashinShtrikmanProofs MineralsModel MineralsProofs.

(** The default sand and shale plus some carbonate. *)
Example three_minerals :
  mineral_list [(sample 36800000000 44000000000 2650, 5 / 10);
                (sample 25000000000 12000000000 2650, 3 / 10);
                (sample 76800000000 32000000000 2710, 2 / 10)] /\
  rsum [5 / 10; 3 / 10; 2 / 10] = 1.
Proof.
  split; [|simpl; lra]. split; [discriminate|]. split; [|simpl; lra].
  repeat (apply Forall_cons; [split; [apply sample_solid; lra|simpl; lra]|]). apply Forall_nil.
Qed.

(** C32 *)
Theorem C32_fraction_completion :
  forall fs fs',
    fix_one_fraction fs = Ok fs' ->
    length fs' = length fs /\
    (forall i x, nth_error fs i = Some (Some x) -> nth_error fs' i = Some x) /\
    (count_missing fs = 1%nat -> rsum fs' = 1) /\
    (count_missing fs = 0%nat -> map Some fs' = fs) /\
    (count_missing fs <= 1)%nat /\ sum_given fs <= 1 + 1 / 10 ^ 5 /\
    (count_missing fs = 1%nat -> - (1 / 10 ^ 5) <= sum_given fs).
Proof. exact fix_complete. Qed.
Print Assumptions C32_fraction_completion.

Theorem C32_fraction_completion_outcome :
  forall fs,
    (is_ok (fix_one_fraction fs) <->
     (count_missing fs <= 1)%nat /\ sum_given fs <= 1 + 1 / 10 ^ 5 /\
     (count_missing fs = 1%nat -> - (1 / 10 ^ 5) <= sum_given fs)) /\
    (fix_one_fraction fs = Err ValueError <->
     (2 <= count_missing fs)%nat \/ 1 + 1 / 10 ^ 5 < sum_given fs \/
     (count_missing fs = 1%nat /\ sum_given fs < - (1 / 10 ^ 5))).
Proof. exact fix_outcome. Qed.
Print Assumptions C32_fraction_completion_outcome.

Example C32_nonvacuous :
  is_ok (fix_one_fraction [Some (1 / 4); None; Some (1 / 2)]) /\
  fix_one_fraction [Some (1 / 4); None; None] = Err ValueError.
Proof.
  split; [apply fix_outcome|apply fix_outcome]; simpl; [split; [lia|split; [lra|intros _; lra]]|left; lia].
Qed.

(** C33 *)
Theorem C33_mineral_density :
  forall l m,
    mineral_list l -> 0 < rsum (map snd l) -> minerals_as_mixture l = Ok m ->
    dens m = wsum (map snd l) (map (fun c => dens (fst c)) l) / rsum (map snd l).
Proof. exact mixture_density. Qed.
Print Assumptions C33_mineral_density.

(** C34 *)
Theorem C34_mineral_range :
  forall l,
    mineral_list l ->
    exists m, minerals_as_mixture l = Ok m /\ solid m /\
      (forall lo, all_ge lo (map (fun c => bulk (fst c)) l) -> lo <= bulk m) /\
      (forall hi, all_le hi (map (fun c => bulk (fst c)) l) -> bulk m <= hi) /\
      (forall lo, all_ge lo (map (fun c => shear (fst c)) l) -> lo <= shear m) /\
      (forall hi, all_le hi (map (fun c => shear (fst c)) l) -> shear m <= hi).
Proof. exact mixture_range. Qed.
Print Assumptions C34_mineral_range.

(** C35 *)
Theorem C35_zero_fraction_no_effect :
  forall l1 l2 m,
    solid m -> Forall (fun c => solid (fst c) /\ 0 <= snd c) (l1 ++ l2) ->
    0 < rsum (map snd (l1 ++ l2)) <= 1 + 1 / 10 ^ 5 ->
    minerals_as_mixture (l1 ++ (m, 0) :: l2) = minerals_as_mixture (l1 ++ l2).
Proof. exact mixture_zero_fraction. Qed.
Print Assumptions C35_zero_fraction_no_effect.

Example C35_nonvacuous :
  let l1 := [(sample 37 44 3, 1 / 2)] in let l2 := [(sample 25 12 3, 1 / 2)] in
  Forall (fun c => solid (fst c) /\ 0 <= snd c) (l1 ++ l2) /\
  0 < rsum (map snd (l1 ++ l2)) <= 1 + 1 / 10 ^ 5.
Proof.
  cbv zeta. split; [|simpl; lra].
  repeat (apply Forall_cons; [split; [apply sample_solid; lra|simpl; lra]|]). apply Forall_nil.
Qed.

(** C36: two minerals commute; so does any number with one shear modulus; three
    general minerals do not. *)
Theorem C36_two_minerals_commute :
  forall a b,
    mineral_list [a; b] -> 0 < snd a + snd b -> minerals_as_mixture [a; b] = minerals_as_mixture [b; a].
Proof. exact mixture_two_swap. Qed.
Print Assumptions C36_two_minerals_commute.

Theorem C36_equal_shear_commute :
  forall mu l l',
    0 < mu -> Permutation l l' -> mineral_list l -> 0 < rsum (map snd l) ->
    Forall (fun c => shear (fst c) = mu) l ->
    minerals_as_mixture l = minerals_as_mixture l'.
Proof. exact mixture_order_equal_shear. Qed.
Print Assumptions C36_equal_shear_commute.

Theorem C36_mineral_order_refuted :
  exists a b c m m',
    mineral_list [a; b; c] /\ rsum (map snd [a; b; c]) = 1 /\
    minerals_as_mixture [a; b; c] = Ok m /\ minerals_as_mixture [b; c; a] = Ok m' /\
    bulk m <> bulk m'.
Proof. exact mixture_order_refuted. Qed.
Print Assumptions C36_mineral_order_refuted.

Example C36_nonvacuous :
  mineral_list [(sample 1 2 1, 1 / 3); (sample 3 2 1, 1 / 3); (sample 5 2 1, 1 / 3)] /\
  mineral_list [(sample 1 2 1, 1 / 3); (sample 3 4 1, 2 / 3)].
Proof.
  split; (split; [discriminate|]; split; [|simpl; lra]);
  repeat (apply Forall_cons; [split; [apply sample_solid; lra|simpl; lra]|]); apply Forall_nil.
Qed.

(** C37 *)
Theorem C37_minerals_accepted_iff :
  forall cs,
    (is_ok (minerals cs) <->
     cs <> [] /\
     Forall (fun c : material * option R =>
       match snd c with None => True | Some x => - (1 / 10 ^ 5) <= x <= 1 + 1 / 10 ^ 5 end) cs /\
     ((count_missing (map snd cs) = 0%nat /\ 1 - 2 / 10 ^ 5 <= sum_given (map snd cs) <= 1 + 1 / 10 ^ 5) \/
      (count_missing (map snd cs) = 1%nat /\ - (1 / 10 ^ 5) <= sum_given (map snd cs) <= 1 + 1 / 10 ^ 5))) /\
    (minerals cs = Err ValueError <-> ~ is_ok (minerals cs)).
Proof. exact minerals_accept. Qed.
Print Assumptions C37_minerals_accepted_iff.

Theorem C37_minerals_result :
  forall cs l,
    minerals cs = Ok l ->
    map fst l = map fst cs /\
    (forall i m x, nth_error cs i = Some (m, Some x) -> nth_error l i = Some (m, x)) /\
    1 - 2 / 10 ^ 5 <= rsum (map snd l) <= 1 + 1 / 10 ^ 5.
Proof. exact minerals_result. Qed.
Print Assumptions C37_minerals_result.

Example C37_nonvacuous :
  is_ok (minerals [(sample 37 44 3, Some (1 / 4)); (sample 25 12 3, None)]).
Proof.
  apply minerals_accept. split; [discriminate|]. split.
  - constructor; [simpl; lra|]. constructor; [simpl; exact I|constructor].
  - right. simpl. split; [reflexivity|lra].
Qed.
