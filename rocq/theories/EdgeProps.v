(** Properties C205 and C206: values written in a configuration and tables
    without rows; more about C122 and C125. *)
From Coq Require Import String Ascii List ZArith Lia Lra.
From Verif Require Import Base BaseProofs MaterialModel FluidModel MineralsModel FluidsModel FluidsSpec FluidsProofs InputModel ConfigModel RowModel ReadModel EdgeSpec EdgeProofs.
Import ListNotations.
Open Scope R_scope.

(** C205.  A field for a number takes numbers, true and false, words that are
    numbers and columns of the data; everything else is a ValueError. *)
Theorem C205_number :
  forall st v,
    (forall x, read_float st v = Ok (N0 x) <-> stands_for st v x) /\
    (forall l, read_float st v = Ok (NCol l) <-> v = VArray l) /\
    (read_float st v = Err ValueError <-> (forall x, ~ stands_for st v x) /\ (forall l, v <> VArray l)).
Proof.
  intros st v. split; [intros x; apply float_number|]. split; [intros l; apply float_column|apply float_refused].
Qed.
Print Assumptions C205_number.

(** An array field also takes lists of numbers and matrices. *)
Theorem C205_array :
  forall st v,
    (forall a, np_array st v = Ok a <-> array_for st v a) /\
    (no_gaps_in v -> ((forall a, ~ array_for st v a) <-> np_array st v = Err ValueError)).
Proof. intros st v. split; [intros a; apply array_iff|apply array_refused]. Qed.
Print Assumptions C205_array.

(** A field for a whole number drops what is behind the point. *)
Theorem C205_whole_number :
  forall st v,
    let value := (let* x := read_int st v in int_value x) in
    (forall z, value = Ok z <->
       (exists x, v = VNum x /\ towards_zero x z) \/ (v = VBool true /\ z = 1%Z) \/ (v = VBool false /\ z = 0%Z) \/
       (exists s, v = VStr s /\ int_of st s = Some z) \/ (exists x, v = VArray [x] /\ towards_zero x z)) /\
    ((forall z, value <> Ok z) -> value = Err ValueError).
Proof. intros st v value. split; [intros z; apply whole_iff|apply whole_refused]. Qed.
Print Assumptions C205_whole_number.

(** A field that is true or false. *)
Theorem C205_yes_or_no :
  forall v,
    (read_bool v = Ok true <-> v = VBool true \/ v = VNum 1 \/
       exists s w, v = VStr s /\ spelled s w /\ In w ["1"; "on"; "t"; "true"; "y"; "yes"]%string) /\
    (read_bool v = Ok false <-> v = VBool false \/ v = VNum 0 \/
       exists s w, v = VStr s /\ spelled s w /\ In w ["0"; "off"; "f"; "false"; "n"; "no"]%string) /\
    ((forall b, read_bool v <> Ok b) -> read_bool v = Err ValueError).
Proof.
  intros v. split; [apply bool_yes|]. split; [apply bool_no|]. intros N.
  destruct v as [|b|y|s|c|t|vs|d]; try reflexivity; cbn [read_bool] in *.
  - destruct (N b eq_refl).
  - destruct (Req_EM_T y 1); [destruct (N _ eq_refl)|]. destruct (Req_EM_T y 0); [destruct (N _ eq_refl)|reflexivity].
  - destruct (existsb _ _); [destruct (N _ eq_refl)|]. destruct (existsb _ _); [destruct (N _ eq_refl)|reflexivity].
Qed.
Print Assumptions C205_yes_or_no.

Definition one_word : strings := mkStrings (fun s => if String.eqb s "36.8e9" then Some (368 * 10 ^ 8) else None) (fun _ => None).
Example C205_nonvacuous :
  stands_for one_word (VStr "36.8e9") (368 * 10 ^ 8) /\ (forall x, ~ stands_for one_word (VStr "quartz") x) /\
  array_for one_word (VList [VList [VNum 1; VNum 2]; VArray [3; 4]]) (N2 [[1; 2]; [3; 4]]) /\
  towards_zero (- (5 / 2)) (-2) /\ spelled "True" "true" /\ read_bool (VStr "TRUE") = Ok true.
Proof.
  split; [constructor; reflexivity|]. split; [intros x H; inversion H; discriminate|].
  split; [apply af_matrix with 2%nat; [discriminate|repeat constructor|repeat constructor]|].
  split; [split; intros; lra|]. split; [|reflexivity].
  apply sp_capital; [cbn; lia|reflexivity|]. repeat constructor.
Qed.

(** C206.  A table without rows: a polynomial pressure dependency gives no
    rows, the exponential, logarithmic and power fits refuse it
    (np.vectorize, model.py:114-118, 132-136, 177-181). *)
Theorem C206_fits_refuse :
  forall md m p ref_p porosity mineral,
    match md with BExpfit _ | BLogfit _ | BPowerfit _ _ _ => True | _ => False end ->
    no_row_at_all p \/ no_row_at_all ref_p ->
    forall r, b_pressure_dependency md m p ref_p porosity mineral <> Ok r.
Proof. exact dependency_no_rows. Qed.
Print Assumptions C206_fits_refuse.

Theorem C206_no_rows_refuted :
  exists c m p ref_p porosity mineral, no_row_at_all p /\
    b_pressure_dependency (BPolyfit c) m p ref_p porosity mineral = Ok m /\ no_row_at_all (b_bulk m) /\
    forall r, b_pressure_dependency (BExpfit c) m p ref_p porosity mineral <> Ok r.
Proof.
  exists linear_fit, nothing, (Vec []), (Sc 1), (Vec []), nothing. split; [reflexivity|].
  split; [apply polynomial_no_rows|]. split; [reflexivity|]. apply dependency_no_rows; [exact I|left; reflexivity].
Qed.
Print Assumptions C206_no_rows_refuted.

Example C206_nonvacuous : no_row_at_all (Vec [] : arr R) /\ ~ no_row_at_all (Vec [1]).
Proof. split; [reflexivity|discriminate]. Qed.

(** C122.  A single gas may be counted from the end of the list. *)
Theorem C122_one_from_the_end :
  forall co2 t cs e pr p i, (1 <= i <= Z.of_nat (length cs))%Z ->
    as_mixture co2 (mk_fluids t cs Brie e [(- i)%Z] pr) p = as_mixture co2 (mk_fluids t cs Brie e [(Z.of_nat (length cs) - i)%Z] pr) p.
Proof. exact one_from_end. Qed.
Print Assumptions C122_one_from_the_end.

(** Two may not: -2 is looked for after the last one has been taken out, so
    that -1 and -2 are the last and the last but two. *)
Theorem C122_two_from_the_end_refuted :
  exists f f' f'', f_brie_gases f = [(-1)%Z; (-2)%Z] /\ f_brie_gases f' = [2%Z; 1%Z] /\ f_brie_gases f'' = [2%Z; 0%Z] /\
    length (f_constituents f) = 3%nat /\ f_constituents f = f_constituents f' /\ f_constituents f = f_constituents f'' /\
    f_mix_method f = Brie /\ f_mix_method f' = Brie /\ f_mix_method f'' = Brie /\
    (forall co2 p, as_mixture co2 f p = as_mixture co2 f'' p) /\
    forall co2 p, exists m m', as_mixture co2 f p = (Ok m, p) /\ as_mixture co2 f' p = (Ok m', p) /\ bulk m <> bulk m'.
Proof.
  exists (FluidsProofs.three [(-1)%Z; (-2)%Z]), (FluidsProofs.three [2%Z; 1%Z]), (FluidsProofs.three [2%Z; 0%Z]). repeat (split; [reflexivity|]).
  exact two_from_end_apart.
Qed.
Print Assumptions C122_two_from_the_end_refuted.

(** C125.  A constituent keeps the fluid model given for it. *)
Theorem C125_own_models :
  forall t cs method e gases model f i c,
    read_fluids t cs method e gases model = Ok f -> nth_error cs i = Some c ->
    exists c', nth_error (f_constituents f) i = Some c' /\ c_material c' = rc_material c /\
      match rc_fluid_model c with
      | None => c_fluid_model c' = None
      | Some n => exists pr, c_fluid_model c' = Some pr /\ provider_named n = Ok pr
      end.
Proof. exact constituents_own. Qed.
Print Assumptions C125_own_models.
