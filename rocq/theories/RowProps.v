(** C71, C86 and C128-C130: calculations on whole tables. *)
From Coq Require Import String List ZArith Lra Lia.
From Verif Require Import Base MaterialModel FluidModel ConfigModel FluidsModel RowModel RowSpec
  RowProofs RowConfigProofs RowScalarProofs RowResultProofs.
Import ListNotations.
Open Scope R_scope.

Definition no_co2 : equation_of_state := fun _ _ _ => Err NotImplementedError.

(** C71: a table of n > 0 rows gives the rows found by calculating each row as
    a table of its own, ... *)
Theorem C71_rows : forall co2 n inp rows, (0 < n)%nat -> wf_input n inp ->
  (b_results co2 n inp = Ok rows <->
   length rows = n /\ forall i, (i < n)%nat ->
     exists r, nth_error rows i = Some r /\ b_results co2 1 (obs_input true i inp) = Ok [r]).
Proof. exact batch_rows. Qed.
Print Assumptions C71_rows.
Example C71_rows_nonvacuous : wf_input 2 two_rows /\
  b_results no_co2 2 two_rows = Ok [mkRow (8 / 3) 4 2 1 (7 / 3) 4; mkRow 3 4 2 1 (13 / 6) 4].
Proof. split; [exact wf_two_rows|apply two_rows_results]. Qed.

(** ... and it fails iff one of the rows fails; the error is that of a row. *)
Theorem C71_failures : forall co2 n inp, (0 < n)%nat -> wf_input n inp ->
  (fails (b_results co2 n inp) <->
   exists i, (i < n)%nat /\ fails (b_results co2 1 (obs_input true i inp))).
Proof. exact batch_failure. Qed.
Print Assumptions C71_failures.
Theorem C71_error_kind : forall co2 n inp e, (0 < n)%nat -> wf_input n inp -> b_results co2 n inp = Err e ->
  exists i, (i < n)%nat /\ b_results co2 1 (obs_input true i inp) = Err e.
Proof.
  intros co2 n inp e Hn W E. pose proof (batch_forward co2 n inp Hn W) as F. rewrite E in F. exact F.
Qed.
Print Assumptions C71_error_kind.
Example C71_failures_nonvacuous : wf_input 2 one_bad_row /\ b_results no_co2 2 one_bad_row = Err ValueError /\
  b_results no_co2 1 (obs_input true 1 one_bad_row) = Err ValueError.
Proof. split; [exact wf_one_bad_row|apply one_bad_row_fails]. Qed.

(** C71 is false of a table without rows: the whole-table calculation
    evaluates the constants of the configuration even if there is no row. *)
Theorem C71_empty_table_refuted : exists inp, wf_input 0 inp /\ forall co2, fails (b_results co2 0 inp).
Proof.
  destruct empty_table as [inp [W E]]. exists inp. split; [exact W|]. intros co2. exists ValueError. apply E.
Qed.
Print Assumptions C71_empty_table_refuted.

(** C86: in every row of an accepted run the saturated rock has the shear
    modulus of the dry rock and density dry + porosity * fluid; with a porosity
    that is not negative and dry rock and fluid softer than the rock without
    pores, its bulk modulus is between those two. *)
Theorem C86_ordering : forall co2 n inp rows i r, (0 < n)%nat -> wf_input n inp ->
  b_results co2 n inp = Ok rows -> nth_error rows i = Some r ->
  exists mineral fl dry dense phi, row_parts co2 (pick_input i inp) mineral fl dry dense /\
    phi = pick i (bdr_porosity (bi_dry_rock inp)) /\
    r_kmin r = bulk mineral /\ r_kdry r = bulk dry /\ r_kmin_fls r = bulk dense /\ r_mysat r = shear dry /\
    r_rsat r = dens dry + phi * dens fl /\
    0 <= r_ksat r /\ 0 <= r_kdry r /\ 0 <= r_mysat r /\ 0 < r_rsat r /\ 0 <= bulk fl /\
    (0 <= phi -> r_kdry r < r_kmin_fls r -> bulk fl < r_kmin_fls r -> r_kdry r <= r_ksat r <= r_kmin_fls r).
Proof. exact table_ordered. Qed.
Print Assumptions C86_ordering.
Theorem C86_ordering_row : forall co2 inp r, calculate_row co2 inp = Ok r ->
  exists mineral fl dry dense, row_parts co2 inp mineral fl dry dense /\
    r_kmin r = bulk mineral /\ r_kdry r = bulk dry /\ r_kmin_fls r = bulk dense /\ r_mysat r = shear dry /\
    r_rsat r = dens dry + dr_porosity (i_dry_rock inp) * dens fl /\
    0 <= r_ksat r /\ 0 <= r_kdry r /\ 0 <= r_mysat r /\ 0 < r_rsat r /\ 0 <= bulk fl /\
    (0 <= dr_porosity (i_dry_rock inp) -> r_kdry r < r_kmin_fls r -> bulk fl < r_kmin_fls r ->
       r_kdry r <= r_ksat r <= r_kmin_fls r).
Proof. exact row_ordered. Qed.
Print Assumptions C86_ordering_row.
Example C86_nonvacuous : calculate_row no_co2 ordinary = Ok (mkRow (8 / 3) 4 2 1 (7 / 3) 4) /\
  bulk water < 4 /\ dr_porosity (i_dry_rock ordinary) = 1 / 3.
Proof. split; [apply ordinary_row|]. cbn. split; [lra|reflexivity]. Qed.

(** Without the hypothesis on the porosity C86 is false: a negative porosity
    is accepted with a polynomial rock model, and the saturated rock comes out
    softer than the dry one. *)
Theorem C86_negative_porosity_refuted : exists inp r, (forall co2, calculate_row co2 inp = Ok r) /\
  dr_porosity (i_dry_rock inp) < 0 /\ 0 <= r_kdry r < r_kmin_fls r /\ r_ksat r < r_kdry r.
Proof.
  exists negative, (mkRow 0 4 2 1 (5 / 3) 4). split; [exact negative_row|]. cbn. lra.
Qed.
Print Assumptions C86_negative_porosity_refuted.

(** C128: each row of a whole-table calculation is what the scalar models of
    the earlier chapters give for the numbers in that row; an error is that of
    some row, or NumPy refusing to combine a constant with a column, which does
    not happen for combinable configurations. *)
Theorem C128_rows_are_scalar : forall co2 n inp, (0 < n)%nat -> wf_input n inp ->
  match b_results co2 n inp with
  | Ok rows => length rows = n /\ forall i, (i < n)%nat ->
      exists r, nth_error rows i = Some r /\ calculate_row co2 (pick_input i inp) = Ok r
  | Err e => e = ShapeError \/ exists i, (i < n)%nat /\ calculate_row co2 (pick_input i inp) = Err e
  end.
Proof.
  intros co2 n inp Hn W. pose proof (batch_scalar co2 n inp true Hn W (or_introl eq_refl)) as A.
  destruct (b_results co2 n inp); [exact A|]. destruct A as [[_ A]|A]; [left|right]; exact A.
Qed.
Print Assumptions C128_rows_are_scalar.
Theorem C128_combinable : forall co2 n inp, (0 < n)%nat -> wf_input n inp -> combinable inp ->
  match b_results co2 n inp with
  | Ok rows => length rows = n /\ forall i, (i < n)%nat ->
      exists r, nth_error rows i = Some r /\ calculate_row co2 (pick_input i inp) = Ok r
  | Err e => exists i, (i < n)%nat /\ calculate_row co2 (pick_input i inp) = Err e
  end.
Proof.
  intros co2 n inp Hn W C. pose proof (batch_scalar co2 n inp false Hn W (or_intror C)) as A.
  destruct (b_results co2 n inp); [exact A|]. destruct A as [[F _]|A]; [discriminate|exact A].
Qed.
Print Assumptions C128_combinable.
Example C128_nonvacuous : wf_input 2 two_rows /\ combinable two_rows /\
  b_results no_co2 2 two_rows = Ok [mkRow (8 / 3) 4 2 1 (7 / 3) 4; mkRow 3 4 2 1 (13 / 6) 4] /\
  calculate_row no_co2 (pick_input 1 two_rows) = Ok (mkRow 3 4 2 1 (13 / 6) 4).
Proof.
  split; [exact wf_two_rows|]. split; [exact combinable_two_rows|].
  split; [apply two_rows_results|apply two_rows_1_row].
Qed.

(** C129, full statement: replacing a constant by a column holding that
    constant in every row (or the other way round) changes nothing.
      forall co2 n inp inp' rows, 0 < n -> wf_input n inp -> wf_input n inp' ->
        same_values n inp inp' -> b_results co2 n inp = Ok rows -> b_results co2 n inp' = Ok rows.
    It is false: a constant depth does not combine with a column of reference
    depths. *)
Theorem C129_refuted : exists inp inp' rows, wf_input 1 inp /\ wf_input 1 inp' /\ same_values 1 inp inp' /\
  forall co2, b_results co2 1 inp = Ok rows /\ b_results co2 1 inp' = Err ShapeError.
Proof.
  exists (at_depth (Sc 900)), (at_depth (Vec [900])), [mkRow (8 / 3) 4 2 1 (7 / 3) 4].
  split; [apply wf_at_depth; exact I|]. split; [apply wf_at_depth; reflexivity|].
  split; [exact ordinary_depth_differs|]. intros co2. split; [apply at_depth_constant|apply at_depth_column].
Qed.
Print Assumptions C129_refuted.
(** What holds: the results are the same, or the second configuration is one
    of those NumPy cannot combine. *)
Theorem C129_partial : forall co2 n inp inp' rows, (0 < n)%nat -> wf_input n inp -> wf_input n inp' ->
  same_values n inp inp' -> b_results co2 n inp = Ok rows ->
  b_results co2 n inp' = Ok rows \/ (b_results co2 n inp' = Err ShapeError /\ ~ combinable inp').
Proof. exact constant_or_column. Qed.
Print Assumptions C129_partial.
Example C129_nonvacuous : wf_input 1 (at_depth (Sc 900)) /\ wf_input 1 (at_depth (Vec [900])) /\
  same_values 1 (at_depth (Vec [900])) (at_depth (Sc 900)) /\
  b_results no_co2 1 (at_depth (Sc 900)) = Ok [mkRow (8 / 3) 4 2 1 (7 / 3) 4].
Proof.
  split; [apply wf_at_depth; exact I|]. split; [apply wf_at_depth; reflexivity|].
  split; [intros i Hi; symmetry; apply ordinary_depth_differs; exact Hi|apply at_depth_constant].
Qed.

(** C130: selecting, repeating or reordering the rows of a table does the same
    to the rows of the result. *)
Theorem C130_selection : forall co2 n inp rows m inp' (s : nat -> nat),
  (0 < n)%nat -> (0 < m)%nat -> wf_input n inp -> wf_input m inp' ->
  (forall i, (i < m)%nat -> (s i < n)%nat /\ obs_input true i inp' = obs_input true (s i) inp) ->
  b_results co2 n inp = Ok rows ->
  exists rows', b_results co2 m inp' = Ok rows' /\ length rows' = m /\
    forall i, (i < m)%nat -> nth_error rows' i = nth_error rows (s i).
Proof. exact batch_selection. Qed.
Print Assumptions C130_selection.
(** The rows of [two_rows] in the order second, first, second. *)
Definition three_rows : binput :=
  mkBInput (bi_minerals two_rows) (bi_fluids two_rows) (bi_fluid_fractions two_rows)
    (mkBDryRock (bdr_model (bi_dry_rock two_rows)) (Vec [1 / 6; 1 / 3; 1 / 6]) []) (bi_pressure two_rows).
Example C130_nonvacuous : wf_input 2 two_rows /\ wf_input 3 three_rows /\
  (forall i, (i < 3)%nat -> ((1 - i mod 2) < 2)%nat /\
     obs_input true i three_rows = obs_input true (1 - i mod 2) two_rows).
Proof.
  split; [exact wf_two_rows|]. split.
  - destruct (wf_up_input 3 ordinary) as (W1 & W2 & W3 & W4 & W5). unfold three_rows.
    repeat (split; try assumption). constructor.
  - intros [|[|[|i]]] Hi; try lia; (split; [cbn; lia|reflexivity]).
Qed.
