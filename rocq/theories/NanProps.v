(** C163-: tables with nan. *)
From Coq Require Import String List ZArith Lra Lia.
From Verif Require Import Base MaterialModel FluidModel BatzleWangModel ConfigModel FluidsModel RowModel RowSpec RowResultProofs RowProps
  NumModel NanModel NanSpec EmbedRowProofs NanRowProofs NanExampleProofs.
Import ListNotations.
Open Scope R_scope.

(** C163: calculating with nan gives the rows of the calculation on real
    numbers, and its errors, wherever that one does not leave the real numbers. *)
Theorem C163_agrees : forall co2 nco2 n inp, extends co2 nco2 ->
  (forall rows, b_results co2 n inp = Ok rows -> n_results nco2 n (num_input inp) = Ok (map num_row rows)) /\
  (forall e, b_results co2 n inp = Err e -> e <> NonFinite -> n_results nco2 n (num_input inp) = Err e).
Proof. exact results_agree. Qed.
Print Assumptions C163_agrees.
(** Two parts which a configuration does not reach in this model: fresh water,
    and the coordination number taken from the critical porosity. *)
Theorem C163_water : forall t p,
  (forall m, BatzleWangModel.water t p = Ok m -> n_water (Num t) (Num p) = Ok (num_material m)) /\
  (forall e, BatzleWangModel.water t p = Err e -> e <> NonFinite -> n_water (Num t) (Num p) = Err e).
Proof. exact water_agrees. Qed.
Print Assumptions C163_water.
Theorem C163_coordination : forall cement c f lo u sr n,
  n_make_friable (pmap Num c) (pmap Num sr) (num_option n) = num_friable (b_make_friable c sr n) /\
  n_make_patchy (num_mat cement) (pmap Num c) (pmap Num f) (pmap Num lo) (pmap Num u) (num_option n) (pmap Num sr) =
    num_patchy (b_make_patchy cement c f lo u n sr).
Proof. exact coordination_agrees. Qed.
Print Assumptions C163_coordination.
Example C163_nonvacuous : extends no_co2 (with_nan no_co2) /\
  b_results no_co2 2 two_rows = Ok [mkRow (8 / 3) 4 2 1 (7 / 3) 4; mkRow 3 4 2 1 (13 / 6) 4] /\
  b_results no_co2 2 one_bad_row = Err ValueError.
Proof. split; [apply with_nan_extends|]. split; [apply two_rows_results|apply one_bad_row_fails]. Qed.

(** C164: each row of a table is calculated as if it were alone, whether or not
    there is a nan in it or in another row; and a row without nan has the values
    of the calculation on real numbers. *)
Theorem C164_rows : forall co2 n inp rows, (0 < n)%nat -> nwf_input n inp ->
  (n_results co2 n inp = Ok rows <->
   length rows = n /\ forall i, (i < n)%nat ->
     exists r, nth_error rows i = Some r /\ n_results co2 1 (nobs_input i inp) = Ok [r]).
Proof. exact nan_rows. Qed.
Print Assumptions C164_rows.
Theorem C164_failures : forall co2 n inp, (0 < n)%nat -> nwf_input n inp ->
  (fails (n_results co2 n inp) <-> exists i, (i < n)%nat /\ fails (n_results co2 1 (nobs_input i inp))).
Proof. exact nan_failure. Qed.
Print Assumptions C164_failures.
Theorem C164_untouched : forall co2 nco2 n ninp rows i inp r, (0 < n)%nat -> nwf_input n ninp -> extends co2 nco2 ->
  n_results nco2 n ninp = Ok rows -> (i < n)%nat -> nobs_input i ninp = num_input inp ->
  b_results co2 1 inp = Ok [r] -> nth_error rows i = Some (num_row r).
Proof. exact nan_untouched. Qed.
Print Assumptions C164_untouched.
Example C164_nonvacuous : nwf_input 2 half_missing /\ extends no_co2 (with_nan no_co2) /\
  n_results (with_nan no_co2) 2 half_missing =
    Ok [num_row (mkRow (8 / 3) 4 2 1 (7 / 3) 4); mkNRow Nan (Num 4) Nan Nan Nan (Num 4)] /\
  nobs_input 0 half_missing = num_input first_row /\
  b_results no_co2 1 first_row = Ok [mkRow (8 / 3) 4 2 1 (7 / 3) 4].
Proof.
  split; [apply wf_with_porosity; reflexivity|]. split; [apply with_nan_extends|].
  split; [apply half_missing_results|]. split; [reflexivity|apply first_row_results].
Qed.
