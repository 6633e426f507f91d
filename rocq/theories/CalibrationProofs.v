(** Lemmas about calibration. *)
From Coq Require Import String List ZArith Lra Lia.
From Verif Require Import Base BaseProofs InputModel MainModel MainProofs RowModel CalibrationModel CalibrationSpec.
Import ListNotations.
Open Scope R_scope.

Lemma cell_spec c i x : cell c i = Some x <-> has_cell c i x.
Proof.
  unfold cell, has_cell. destruct (Z.ltb_spec i 0) as [H|H].
  - split; [discriminate|intros [? _]; lia].
  - destruct (nth_error c (Z.to_nat i)) as [y|]; split.
    + intros ->. auto.
    + intros [_ E]. injection E as ->. reflexivity.
    + discriminate.
    + intros [_ E]. discriminate.
Qed.
Lemma cell_none c i : cell c i = None <-> forall x, ~ has_cell c i x.
Proof.
  split.
  - intros E x H. apply cell_spec in H. congruence.
  - intros H. destruct (cell c i) as [x|] eqn:E; [|reflexivity]. apply cell_spec in E. exfalso. exact (H x E).
Qed.

Lemma paired_exists c l : exists ps, paired c l ps.
Proof.
  induction l as [|[i y] l [ps IH]]; [exists []; constructor|].
  destruct (cell c i) as [x|] eqn:E.
  - exists ((y, x) :: ps). constructor; [apply cell_spec, E|exact IH].
  - exists ps. constructor; [apply cell_none, E|exact IH].
Qed.

Lemma numbers_app a b : numbers (a ++ b) = numbers a ++ numbers b.
Proof. unfold numbers. apply filter_app. Qed.
Lemma numbers_nans {A} (l : list A) : numbers (map (fun _ => Nan) l) = [].
Proof. induction l as [|x l IH]; [reflexivity|exact IH]. Qed.

Lemma errors_numbers c l ps : paired c l ps -> (forall p, In p ps -> snd p <> 0) ->
  numbers (errors l c) = map (fun p => Fin (relative_error p)) ps.
Proof.
  intros P N. unfold errors. rewrite numbers_app, numbers_nans, app_nil_r. generalize l P. clear l P.
  intros l P. revert N. induction P as [|i y x l ps H P IH|i y l ps H P IH]; intros N; [reflexivity| |].
  - cbn [map fst snd]. apply cell_spec in H. rewrite H. unfold calibration_error.
    destruct (Req_EM_T x 0) as [E|E]; [exfalso; exact (N (y, x) (or_introl eq_refl) E)|].
    unfold numbers in *. cbn [filter]. f_equal. apply IH. intros p Hp. apply N. right. exact Hp.
  - cbn [map fst snd]. apply cell_none in H. rewrite H. cbn. apply IH. exact N.
Qed.

Lemma float_le_fin a b : float_le (Fin a) (Fin b) = true <-> a <= b.
Proof. cbn. destruct (Rle_dec a b); split; intros; try discriminate; try reflexivity; try assumption; contradiction. Qed.

Lemma fold_min l : forall x, exists m,
  fold_left (fun a b => if float_le a b then a else b) (map Fin l) (Fin x) = Fin m /\
  In m (x :: l) /\ forall e, In e (x :: l) -> m <= e.
Proof.
  induction l as [|y l IH]; intros x.
  - exists x. split; [reflexivity|]. split; [left; reflexivity|]. intros e [->|[]]. lra.
  - cbn [map fold_left]. destruct (float_le (Fin x) (Fin y)) eqn:E.
    + apply float_le_fin in E. destruct (IH x) as [m [H1 [H2 H3]]]. exists m. split; [exact H1|].
      split; [destruct H2; [left|right; right]; assumption|].
      intros e [->|[->|H]].
      * apply H3. left. reflexivity.
      * assert (m <= x) by (apply H3; left; reflexivity). lra.
      * apply H3. right. exact H.
    + assert (E' : y < x). { apply Rnot_le_lt. intros L. apply float_le_fin in L. congruence. }
      destruct (IH y) as [m [H1 [H2 H3]]]. exists m. split; [exact H1|].
      split; [right; exact H2|].
      intros e [->|H]; [|apply H3, H].
      assert (m <= y) by (apply H3; left; reflexivity). lra.
Qed.
Lemma fold_max l : forall x, exists m,
  fold_left (fun a b => if float_le a b then b else a) (map Fin l) (Fin x) = Fin m /\
  In m (x :: l) /\ forall e, In e (x :: l) -> e <= m.
Proof.
  induction l as [|y l IH]; intros x.
  - exists x. split; [reflexivity|]. split; [left; reflexivity|]. intros e [->|[]]. lra.
  - cbn [map fold_left]. destruct (float_le (Fin x) (Fin y)) eqn:E.
    + apply float_le_fin in E. destruct (IH y) as [m [H1 [H2 H3]]]. exists m. split; [exact H1|].
      split; [right; exact H2|].
      intros e [->|H]; [|apply H3, H].
      assert (y <= m) by (apply H3; left; reflexivity). lra.
    + assert (E' : y < x). { apply Rnot_le_lt. intros L. apply float_le_fin in L. congruence. }
      destruct (IH x) as [m [H1 [H2 H3]]]. exists m. split; [exact H1|].
      split; [destruct H2; [left|right; right]; assumption|].
      intros e [->|[->|H]].
      * apply H3. left. reflexivity.
      * assert (x <= m) by (apply H3; left; reflexivity). lra.
      * apply H3. right. exact H.
Qed.
Lemma fold_sum l : forall x, fold_left float_add (map Fin l) (Fin x) = Fin (x + rsum l).
Proof.
  induction l as [|y l IH]; intros x; cbn [map fold_left rsum]; [f_equal; ring|].
  cbn [float_add]. rewrite IH. f_equal. ring.
Qed.

Lemma bounded_sum l m : forall M, (forall e, In e l -> m <= e <= M) ->
  m * INR (length l) <= rsum l <= M * INR (length l).
Proof.
  intros M. induction l as [|x l IH]; intros H; [cbn; lra|].
  cbn [length rsum]. rewrite S_INR. assert (m <= x <= M) by (apply H; left; reflexivity).
  specialize (IH (fun e He => H e (or_intror He))). lra.
Qed.
Lemma bounded_mean l m M : l <> [] -> (forall e, In e l -> m <= e <= M) ->
  m <= rsum l / INR (length l) <= M.
Proof.
  intros N H. assert (P : 0 < INR (length l)) by (apply lt_0_INR; destruct l; [congruence|cbn; lia]).
  destruct (bounded_sum l m M H) as [A B]. split.
  - apply (Rmult_le_reg_r (INR (length l))); [exact P|].
    unfold Rdiv. rewrite Rmult_assoc, Rinv_l by lra. lra.
  - apply (Rmult_le_reg_r (INR (length l))); [exact P|].
    unfold Rdiv. rewrite Rmult_assoc, Rinv_l by lra. lra.
Qed.

Lemma statistics_spec c l ps : paired c l ps -> (forall p, In p ps -> snd p <> 0) ->
  (ps = [] -> statistics_of (errors l c) = mkStatistics Nan Nan Nan) /\
  (ps <> [] -> exists mn mean mx, statistics_of (errors l c) = mkStatistics (Fin mn) (Fin mean) (Fin mx) /\
     mean = rsum (map relative_error ps) / INR (length ps) /\
     In mn (map relative_error ps) /\ In mx (map relative_error ps) /\ mn <= mean <= mx /\
     forall e, In e (map relative_error ps) -> mn <= e <= mx).
Proof.
  intros P N. pose proof (errors_numbers c l ps P N) as E.
  unfold statistics_of, series_min, series_max, series_mean. rewrite E. clear E P N. split.
  - intros ->. reflexivity.
  - destruct ps as [|p ps]; [congruence|]. intros _.
    rewrite <- (map_map relative_error Fin). cbn [map].
    set (x := relative_error p). set (r := map relative_error ps).
    destruct (fold_min r x) as [mn [A1 [A2 A3]]]. destruct (fold_max r x) as [mx [B1 [B2 B3]]].
    exists mn, (rsum (x :: r) / INR (length (x :: r))), mx. split.
    + rewrite A1, B1. cbn [fold_left float_add length]. rewrite fold_sum, map_length.
      do 4 f_equal. cbn [rsum]. ring.
    + split; [unfold r; cbn [length]; rewrite map_length; reflexivity|].
      split; [exact A2|]. split; [exact B2|]. split.
      * apply bounded_mean; [discriminate|]. intros e He. split; [apply A3|apply B3]; exact He.
      * intros e He. split; [apply A3|apply B3]; exact He.
Qed.

Lemma column_has s name c : sheet_column s name = Ret c <-> sheet_has s name c.
Proof.
  unfold sheet_has. induction s as [|[n d] s IH]; cbn [sheet_column].
  - split; [discriminate|]. intros [a [b [E _]]]. destruct a; discriminate E.
  - destruct (String.eqb_spec n name) as [->|H].
    + split.
      * intros E. destruct d as [c'|]; [|discriminate]. injection E as ->. exists [], s. split; [reflexivity|]. intros ? ? [].
      * intros [a [b [E H]]]. destruct a as [|[n' d'] a]; cbn in E.
        -- injection E as -> ->. reflexivity.
        -- injection E as <- <- _. exfalso. apply (H name d); [left; reflexivity|reflexivity].
    + rewrite IH. split.
      * intros [a [b [-> K]]]. exists ((n, d) :: a), b. split; [reflexivity|].
        intros m e [E|I]; [injection E as <- _; exact H|exact (K m e I)].
      * intros [a [b [E K]]]. destruct a as [|[n' d'] a]; cbn in E.
        -- injection E as -> _. contradiction.
        -- injection E as <- <- ->. exists a, b. split; [reflexivity|]. intros m e I. apply (K m e). right. exact I.
Qed.
Lemma column_lacks s name : sheet_column s name = Raise KeyErr <-> sheet_lacks s name.
Proof.
  unfold sheet_lacks. induction s as [|[n d] s IH]; cbn [sheet_column].
  - split; [intros _ ? ? []|reflexivity].
  - destruct (String.eqb_spec n name) as [->|H].
    + split; [destruct d; discriminate|]. intros K. exfalso. apply (K name d); [left; reflexivity|reflexivity].
    + rewrite IH. split.
      * intros K m e [E|I]; [injection E as <- _; exact H|exact (K m e I)].
      * intros K m e I. apply (K m e). right. exact I.
Qed.
Lemma column_raises s name e : sheet_column s name = Raise e -> e = KeyErr \/ e = OtherErr.
Proof.
  induction s as [|[n d] s IH]; cbn [sheet_column]; [intros H; injection H as <-; auto|].
  destruct (String.eqb n name); [|exact IH]. destruct d; [discriminate|]. intros H; injection H as <-; auto.
Qed.
Lemma column_numeric s name o : sheet_numeric s -> compared name o <> None -> sheet_column s name <> Raise OtherErr.
Proof.
  intros N C. induction s as [|[n d] s IH]; cbn [sheet_column]; [discriminate|].
  assert (N' : sheet_numeric s) by (intros m e o' I; apply N; right; exact I).
  destruct (String.eqb_spec n name) as [->|H]; [|apply IH, N'].
  destruct d as [c|]; [discriminate|]. intros _. exact (N name None o (or_introl eq_refl) C eq_refl).
Qed.

Lemma compared_names name o : compared name o <> None ->
  (name = "kmin" \/ name = "kdry" \/ name = "ksat" \/ name = "kmin_fls")%string.
Proof.
  unfold compared.
  destruct (String.eqb_spec name "kmin"); [auto|]. destruct (String.eqb_spec name "kdry"); [auto|].
  destruct (String.eqb_spec name "ksat"); [auto|]. destruct (String.eqb_spec name "kmin_fls"); [auto|].
  intros H. contradiction.
Qed.

Lemma report_spec s results rep : report s results = Ret rep ->
  map fst rep = ["kmin"; "kdry"; "ksat"; "kmin_fls"]%string /\
  forall name o, compared name o <> None -> exists c,
    sheet_has s name c /\ In (name, statistics_of (errors (values_of name results) c)) rep.
Proof.
  unfold report, calibration_keys. cbn [report_for]. intros H.
  destruct (sheet_column s "kmin") as [c1|] eqn:E1; [|discriminate]. cbn [then_] in H.
  destruct (sheet_column s "kdry") as [c2|] eqn:E2; [|discriminate]. cbn [then_] in H.
  destruct (sheet_column s "ksat") as [c3|] eqn:E3; [|discriminate]. cbn [then_] in H.
  destruct (sheet_column s "kmin_fls") as [c4|] eqn:E4; [|discriminate]. cbn [then_] in H.
  injection H as <-. apply column_has in E1, E2, E3, E4. split; [reflexivity|].
  intros name o C. apply compared_names in C. destruct C as [->|[->|[->| ->]]].
  - exists c1. split; [exact E1|]. left. reflexivity.
  - exists c2. split; [exact E2|]. right. left. reflexivity.
  - exists c3. split; [exact E3|]. right. right. left. reflexivity.
  - exists c4. split; [exact E4|]. right. right. right. left. reflexivity.
Qed.

Lemma calibration_report s results rep name o :
  report s results = Ret rep -> compared name o <> None -> exists c st,
    sheet_has s name c /\ In (name, st) rep /\
    forall ps, paired c (values_of name results) ps -> (forall p, In p ps -> snd p <> 0) ->
      (ps = [] -> st = mkStatistics Nan Nan Nan) /\
      (ps <> [] -> exists mn mean mx, st = mkStatistics (Fin mn) (Fin mean) (Fin mx) /\
         mean = rsum (map relative_error ps) / INR (length ps) /\
         In mn (map relative_error ps) /\ In mx (map relative_error ps) /\ mn <= mean <= mx /\
         forall e, In e (map relative_error ps) -> mn <= e <= mx).
Proof.
  intros H C. destruct (report_spec s results rep H) as [_ K]. destruct (K name o C) as [c [S I]].
  exists c. eexists. split; [exact S|]. split; [exact I|]. intros ps P N. apply statistics_spec; assumption.
Qed.

(* ---- calibration values of zero ---- *)
Definition signed (p : R * R) : list float :=
  if Req_EM_T (snd p) 0 then
    if Rlt_dec 0 (fst p) then [PlusInf] else if Rlt_dec (fst p) 0 then [MinusInf] else []
  else [Fin (relative_error p)].
Lemma errors_signed c l ps : paired c l ps -> numbers (errors l c) = flat_map signed ps.
Proof.
  intros P. unfold errors. rewrite numbers_app, numbers_nans, app_nil_r. induction P as [|i y x l ps H P IH|i y l ps H P IH]; [reflexivity| |].
  - cbn [map fst snd flat_map]. apply cell_spec in H. rewrite H, <- IH. unfold calibration_error, signed. cbn [fst snd].
    destruct (Req_EM_T x 0) as [->|E]; [|reflexivity]. rewrite Rminus_0_r.
    destruct (Rlt_dec 0 y); [reflexivity|]. destruct (Rlt_dec y 0); reflexivity.
  - cbn [map fst snd]. apply cell_none in H. rewrite H. cbn. exact IH.
Qed.
Lemma signed_plus ps : In PlusInf (flat_map signed ps) <-> exists p, In p ps /\ snd p = 0 /\ 0 < fst p.
Proof.
  rewrite in_flat_map. split; intros [p [I H]]; exists p; (split; [exact I|]).
  - unfold signed in H. destruct (Req_EM_T (snd p) 0) as [E|]; [|destruct H as [H|[]]; discriminate H].
    destruct (Rlt_dec 0 (fst p)); [split; assumption|]. destruct (Rlt_dec (fst p) 0); [destruct H as [H|[]]; discriminate H|destruct H].
  - destruct H as [E L]. unfold signed. destruct (Req_EM_T (snd p) 0); [|contradiction]. destruct (Rlt_dec 0 (fst p)); [left; reflexivity|contradiction].
Qed.
Lemma signed_minus ps : In MinusInf (flat_map signed ps) <-> exists p, In p ps /\ snd p = 0 /\ fst p < 0.
Proof.
  rewrite in_flat_map. split; intros [p [I H]]; exists p; (split; [exact I|]).
  - unfold signed in H. destruct (Req_EM_T (snd p) 0) as [E|]; [|destruct H as [H|[]]; discriminate H].
    destruct (Rlt_dec 0 (fst p)); [destruct H as [H|[]]; discriminate H|]. destruct (Rlt_dec (fst p) 0); [split; assumption|destruct H].
  - destruct H as [E L]. unfold signed. destruct (Req_EM_T (snd p) 0); [|contradiction]. destruct (Rlt_dec 0 (fst p)); [lra|].
    destruct (Rlt_dec (fst p) 0); [left; reflexivity|contradiction].
Qed.
Lemma signed_not_nan ps : ~ In Nan (flat_map signed ps).
Proof.
  rewrite in_flat_map. intros [p [I H]]. unfold signed in H. destruct (Req_EM_T (snd p) 0); [|destruct H as [H|[]]; discriminate H].
  destruct (Rlt_dec 0 (fst p)); [destruct H as [H|[]]; discriminate H|]. destruct (Rlt_dec (fst p) 0); [destruct H as [H|[]]; discriminate H|destruct H].
Qed.
Lemma fold_max_plus l : ~ In Nan l -> forall x, x <> Nan -> (x = PlusInf \/ In PlusInf l) ->
  fold_left (fun a b => if float_le a b then b else a) l x = PlusInf.
Proof.
  induction l as [|y l IH]; intros N x X H; cbn [fold_left]; [destruct H as [H|[]]; exact H|].
  assert (Y : y <> Nan) by (intros ->; apply N; left; reflexivity).
  apply IH; [intros Q; apply N; right; exact Q| |].
  - destruct (float_le x y); assumption.
  - destruct H as [->|[->|H]]; [left|left|right; exact H]; [destruct y; try reflexivity; congruence|destruct x; reflexivity].
Qed.
Lemma fold_min_minus l : ~ In Nan l -> forall x, x <> Nan -> (x = MinusInf \/ In MinusInf l) ->
  fold_left (fun a b => if float_le a b then a else b) l x = MinusInf.
Proof.
  induction l as [|y l IH]; intros N x X H; cbn [fold_left]; [destruct H as [H|[]]; exact H|].
  assert (Y : y <> Nan) by (intros ->; apply N; left; reflexivity).
  apply IH; [intros Q; apply N; right; exact Q| |].
  - destruct (float_le x y); assumption.
  - destruct H as [->|[->|H]]; [left|left|right; exact H]; [reflexivity|destruct x; try reflexivity; congruence].
Qed.
Lemma fold_add_nan l : fold_left float_add l Nan = Nan.
Proof. induction l as [|y l IH]; [reflexivity|]. cbn [fold_left float_add]. exact IH. Qed.
Lemma fold_add_plus l : ~ In Nan l -> ~ In MinusInf l -> forall x, x <> Nan -> x <> MinusInf -> (x = PlusInf \/ In PlusInf l) ->
  fold_left float_add l x = PlusInf.
Proof.
  induction l as [|y l IH]; intros N M x X X' H; cbn [fold_left]; [destruct H as [H|[]]; exact H|].
  assert (Y : y <> Nan) by (intros ->; apply N; left; reflexivity). assert (Y' : y <> MinusInf) by (intros ->; apply M; left; reflexivity).
  apply IH; [intros Q; apply N; right; exact Q|intros Q; apply M; right; exact Q| | |].
  - destruct x, y; cbn; congruence.
  - destruct x, y; cbn; congruence.
  - destruct H as [->|[->|H]]; [left|left|right; exact H]; [destruct y; cbn; congruence|destruct x; cbn; congruence].
Qed.
Lemma fold_add_minus l : ~ In Nan l -> ~ In PlusInf l -> forall x, x <> Nan -> x <> PlusInf -> (x = MinusInf \/ In MinusInf l) ->
  fold_left float_add l x = MinusInf.
Proof.
  induction l as [|y l IH]; intros N M x X X' H; cbn [fold_left]; [destruct H as [H|[]]; exact H|].
  assert (Y : y <> Nan) by (intros ->; apply N; left; reflexivity). assert (Y' : y <> PlusInf) by (intros ->; apply M; left; reflexivity).
  apply IH; [intros Q; apply N; right; exact Q|intros Q; apply M; right; exact Q| | |].
  - destruct x, y; cbn; congruence.
  - destruct x, y; cbn; congruence.
  - destruct H as [->|[->|H]]; [left|left|right; exact H]; [destruct y; cbn; congruence|destruct x; cbn; congruence].
Qed.
Lemma fold_add_both l : forall x, (x = Nan \/ In PlusInf l /\ In MinusInf l \/ x = PlusInf /\ In MinusInf l \/ x = MinusInf /\ In PlusInf l) ->
  fold_left float_add l x = Nan.
Proof.
  induction l as [|y l IH]; intros x H; cbn [fold_left].
  - destruct H as [H|[[[] _]|[[_ []]|[_ []]]]]; exact H.
  - apply IH. destruct H as [->|[[[->|P] [Q|Q]]|[[-> [Q|Q]]|[-> [Q|Q]]]]].
    + left. reflexivity.
    + discriminate Q.
    + destruct x; cbn; auto.
    + subst y. destruct x; cbn; auto 6.
    + auto.
    + subst y. left. reflexivity.
    + destruct y; cbn; auto 6.
    + subst y. left. reflexivity.
    + destruct y; cbn; auto 6.
Qed.
Lemma statistics_zero c l ps : paired c l ps ->
  let above := exists p, In p ps /\ snd p = 0 /\ 0 < fst p in
  let below := exists p, In p ps /\ snd p = 0 /\ fst p < 0 in
  (above -> st_max (statistics_of (errors l c)) = PlusInf) /\
  (below -> st_min (statistics_of (errors l c)) = MinusInf) /\
  (above -> ~ below -> st_mean (statistics_of (errors l c)) = PlusInf) /\
  (below -> ~ above -> st_mean (statistics_of (errors l c)) = MinusInf) /\
  (above -> below -> st_mean (statistics_of (errors l c)) = Nan).
Proof.
  intros P above below. subst above below. rewrite <- signed_plus, <- signed_minus. pose proof (signed_not_nan ps) as N.
  unfold statistics_of, series_min, series_max, series_mean. cbn [st_min st_max st_mean]. rewrite (errors_signed c l ps P).
  destruct (flat_map signed ps) as [|x r] eqn:E; [split; [intros []|]; split; [intros []|]; split; [intros []|]; split; intros []|].
  assert (X : x <> Nan) by (intros ->; apply N; left; reflexivity). assert (R : ~ In Nan r) by (intros Q; apply N; right; exact Q).
  split; [|split; [|split; [|split]]].
  - intros H. apply fold_max_plus; try assumption.
  - intros H. apply fold_min_minus; try assumption.
  - intros H M. rewrite (fold_add_plus (x :: r)); try assumption; try discriminate; [reflexivity|right; exact H].
  - intros H M. rewrite (fold_add_minus (x :: r)); try assumption; try discriminate; [reflexivity|right; exact H].
  - intros H M. rewrite (fold_add_both (x :: r)); [reflexivity|right; left; split; assumption].
Qed.
Lemma zero_report s results rep name o :
  report s results = Ret rep -> compared name o <> None -> exists c st,
    sheet_has s name c /\ In (name, st) rep /\
    forall ps, paired c (values_of name results) ps ->
      let above := exists p, In p ps /\ snd p = 0 /\ 0 < fst p in
      let below := exists p, In p ps /\ snd p = 0 /\ fst p < 0 in
      (above -> st_max st = PlusInf) /\ (below -> st_min st = MinusInf) /\
      (above -> ~ below -> st_mean st = PlusInf) /\ (below -> ~ above -> st_mean st = MinusInf) /\
      (above -> below -> st_mean st = Nan).
Proof.
  intros H C. destruct (report_spec s results rep H) as [_ K]. destruct (K name o C) as [c [S I]].
  exists c. eexists. split; [exact S|]. split; [exact I|]. intros ps P. apply statistics_zero; assumption.
Qed.

(* ---- exit codes ---- *)

Lemma report_returns s results : (exists rep, report s results = Ret rep) <-> all_columns s.
Proof.
  split.
  - intros [rep H] name o C. destruct (report_spec s results rep H) as [_ K]. destruct (K name o C) as [c [S _]].
    exists c. exact S.
  - intros A. unfold report, calibration_keys. cbn [report_for].
    assert (Q : forall name, compared name (mkRow 0 0 0 0 0 0) <> None -> exists c, sheet_column s name = Ret c).
    { intros name C. destruct (A name _ C) as [c H]. exists c. apply column_has, H. }
    destruct (Q "kmin"%string ltac:(discriminate)) as [c1 ->]. destruct (Q "kdry"%string ltac:(discriminate)) as [c2 ->].
    destruct (Q "ksat"%string ltac:(discriminate)) as [c3 ->]. destruct (Q "kmin_fls"%string ltac:(discriminate)) as [c4 ->].
    cbn [then_]. eexists. reflexivity.
Qed.
Lemma report_raises s results e : report s results = Raise e ->
  exists name, compared name (mkRow 0 0 0 0 0 0) <> None /\ sheet_column s name = Raise e.
Proof.
  unfold report, calibration_keys. cbn [report_for]. intros H.
  destruct (sheet_column s "kmin") as [c1|e1] eqn:E1; cbn [then_] in H;
    [|exists "kmin"%string; injection H as <-; split; [discriminate|exact E1]].
  destruct (sheet_column s "kdry") as [c2|e2] eqn:E2; cbn [then_] in H;
    [|exists "kdry"%string; injection H as <-; split; [discriminate|exact E2]].
  destruct (sheet_column s "ksat") as [c3|e3] eqn:E3; cbn [then_] in H;
    [|exists "ksat"%string; injection H as <-; split; [discriminate|exact E3]].
  destruct (sheet_column s "kmin_fls") as [c4|e4] eqn:E4; cbn [then_] in H;
    [discriminate|exists "kmin_fls"%string; injection H as <-; split; [discriminate|exact E4]].
Qed.

Definition problem_code (file : out sheet) (w : list (Z * output_row)) : Z :=
  match run_calibration (calibration_body file w) with
  | Ret _ => 0 | Raise CalibrationError => -4 | Raise _ => -1 end%Z.

Lemma run_code {Row Inp} (p : program Row Inp (Z * output_row)) file t c w :
  compare p = Some (calibration_body file) -> run p t = Ret (c, Some w) -> c = problem_code file w.
Proof.
  intros C H.
  assert (Q : Ret (calibrate_and_exit p w) = (Ret (c, Some w) : out (outcome (Z * output_row))) -> c = problem_code file w).
  { unfold calibrate_and_exit, problem_code. rewrite C.
    destruct (run_calibration (calibration_body file w)) as [u|e]; [intros E; injection E as <-; reflexivity|].
    destruct e; intros E; injection E as <-; reflexivity. }
  assert (W : forall r, snd (calibrate_and_exit p r) = Some r).
  { intros r. unfold calibrate_and_exit. destruct (compare p) as [b|]; [|reflexivity].
    destruct (run_calibration (b r)) as [u|e]; [reflexivity|]. destruct e; reflexivity. }
  assert (Q' : forall r, Ret (calibrate_and_exit p r) = (Ret (c, Some w) : out (outcome (Z * output_row))) -> c = problem_code file w).
  { intros r E. assert (r = w) as ->; [|exact (Q E)].
    injection E as E. specialize (W r). rewrite E in W. cbn in W. congruence. }
  destruct t as [t|]; cbn [run] in H.
  - unfold run_with_threshold in H. destruct (csv_read p); [|discriminate].
    destruct (make_per_row_input p) as [ins|]; [|discriminate]. cbn [then_] in H.
    destruct (calculate_rows p ins) as [rs f]. destruct (Rlt_dec _ t); [discriminate|].
    destruct (then_ (pd_concat rs) _) as [r|]; [|discriminate]. exact (Q' r H).
  - destruct (make_input p) as [i|e]; [|destruct e; discriminate].
    destruct (calculate p i) as [r|e]; [|destruct (is_value_error e); discriminate].
    destruct (write p r); [|discriminate]. exact (Q' r H).
Qed.

Lemma code_zero s w : problem_code (Ret s) w = 0%Z <-> all_columns s.
Proof.
  unfold problem_code, calibration_body. cbn [then_].
  destruct (report s w) as [rep|e] eqn:E; cbn [then_ run_calibration try_].
  - split; [intros _; apply (report_returns s w); eexists; exact E|reflexivity].
  - split.
    + intros H. exfalso. destruct (report_raises s w e E) as [name [_ X]]. apply column_raises in X.
      destruct X as [->| ->]; discriminate H.
    + intros A. apply (report_returns s w) in A. destruct A as [rep A]. congruence.
Qed.
Lemma code_missing s w name o : sheet_numeric s -> compared name o <> None -> sheet_lacks s name ->
  problem_code (Ret s) w = (-4)%Z.
Proof.
  intros N C L. unfold problem_code, calibration_body. cbn [then_].
  destruct (report s w) as [rep|e] eqn:E; cbn [then_ run_calibration try_].
  - exfalso. destruct (report_spec s w rep E) as [_ K]. destruct (K name o C) as [c [S _]].
    apply column_has in S. apply column_lacks in L. congruence.
  - destruct (report_raises s w e E) as [m [Cm X]]. destruct (column_raises _ _ _ X) as [->| ->]; [reflexivity|].
    exfalso. exact (column_numeric s m _ N Cm X).
Qed.
Lemma code_unreadable e w : e = ParserError \/ e = EmptyDataError -> problem_code (Raise e) w = (-4)%Z.
Proof. intros [->| ->]; reflexivity. Qed.
Lemma code_text s w name o : compared name o <> None -> (forall c, ~ sheet_has s name c) -> ~ sheet_lacks s name ->
  (forall m, compared m o <> None -> m = name \/ exists c, sheet_has s m c) ->
  problem_code (Ret s) w = (-1)%Z.
Proof.
  intros C H L K. unfold problem_code, calibration_body. cbn [then_].
  destruct (report s w) as [rep|e] eqn:E; cbn [then_ run_calibration try_].
  - exfalso. destruct (report_spec s w rep E) as [_ Q]. destruct (Q name o C) as [c [S _]]. exact (H c S).
  - destruct (report_raises s w e E) as [m [Cm X]]. destruct (column_raises _ _ _ X) as [->| ->]; [|reflexivity].
    exfalso. assert (Cm' : compared m o <> None).
    { apply compared_names in Cm. destruct Cm as [->|[->|[->| ->]]]; discriminate. }
    destruct (K m Cm') as [->|[c S]].
    + apply L. apply column_lacks. exact X.
    + apply column_has in S. congruence.
Qed.

(* ---- calibration against the own output ---- *)
Lemma own_column w name o : compared name o <> None ->
  sheet_has (written_sheet w) name (map (fun lr => match compared name (snd lr) with Some y => Some y | None => None end) w).
Proof.
  intros C. apply column_has. apply compared_names in C.
  destruct C as [->|[->|[->| ->]]]; reflexivity.
Qed.

Lemma own_report w : exists rep, report (written_sheet w) w = Ret rep.
Proof. eexists. reflexivity. Qed.

Lemma numbered_nth w i y : numbered (map fst w) -> In (i, y) w ->
  (0 <= i)%Z /\ nth_error w (Z.to_nat i) = Some (i, y : output_row).
Proof.
  unfold numbered. intros N I. apply In_nth_error in I. destruct I as [k Hk].
  assert (E : nth_error (map fst w) k = Some i) by (rewrite nth_error_map, Hk; reflexivity).
  rewrite N in E. rewrite nth_error_map in E.
  assert (L : (k < length (map fst w))%nat). { rewrite map_length. apply nth_error_Some. rewrite Hk. discriminate. }
  destruct (nth_error (seq 0 (length (map fst w))) k) as [j|] eqn:S; [|discriminate].
  cbn in E. injection E as <-.
  apply nth_error_nth with (d := 0%nat) in S. rewrite seq_nth in S by exact L. cbn in S. subst j.
  split; [lia|]. rewrite Nat2Z.id. exact Hk.
Qed.

Lemma own_pairs w name o : compared name o <> None -> numbered (map fst w) ->
  paired (map (fun lr => match compared name (snd lr) with Some y => Some y | None => None end) w)
    (values_of name w) (map (fun lr => (snd lr, snd lr)) (values_of name w)).
Proof.
  intros C N.
  assert (G : forall l, (forall x, In x l -> In x w) ->
    paired (map (fun lr => match compared name (snd lr) with Some y => Some y | None => None end) w)
    (values_of name l) (map (fun lr => (snd lr, snd lr)) (values_of name l))).
  { induction l as [|[i y] l IH]; intros S; [constructor|]. cbn [values_of map fst snd].
    apply paired_row; [|apply IH; intros x Hx; apply S; right; exact Hx].
    destruct (numbered_nth w i y N (S _ (or_introl eq_refl))) as [P Q]. split; [exact P|].
    rewrite nth_error_map, Q. cbn [option_map snd].
    apply compared_names in C. destruct C as [->|[->|[->| ->]]]; reflexivity. }
  apply G. auto.
Qed.

Lemma own_zero w name o : w <> [] -> numbered (map fst w) -> compared name o <> None ->
  (forall i r y, In (i, r) w -> compared name r = Some y -> y <> 0) ->
  exists rep, report (written_sheet w) w = Ret rep /\ In (name, mkStatistics (Fin 0) (Fin 0) (Fin 0)) rep.
Proof.
  intros W N C Z. destruct (own_report w) as [rep E]. exists rep. split; [exact E|].
  destruct (calibration_report _ _ _ _ _ E C) as [c [st [S [I K]]]].
  assert (Ec : c = map (fun lr => match compared name (snd lr) with Some y => Some y | None => None end) w).
  { pose proof (own_column w name o C) as T. apply column_has in T, S. congruence. }
  subst c. pose proof (own_pairs w name o C N) as P.
  assert (V : forall p, In p (map (fun lr => (snd lr, snd lr)) (values_of name w)) -> fst p = snd p /\ snd p <> 0).
  { intros p Hp. apply in_map_iff in Hp. destruct Hp as [[i y] [<- Hp]]. cbn [fst snd]. split; [reflexivity|].
    unfold values_of in Hp. apply in_map_iff in Hp. destruct Hp as [[j r] [Q Hr]]. cbn [fst snd] in Q. injection Q as _ Q.
    destruct (compared name r) as [y'|] eqn:F; [rewrite <- Q; exact (Z j r y' Hr F)|].
    exfalso. apply compared_names in C. destruct C as [->|[->|[->| ->]]]; discriminate F. }
  destruct (K _ P (fun p Hp => proj2 (V p Hp))) as [_ K2].
  destruct K2 as (mn & mean & mx & -> & _ & A & B & AB & Q).
  { destruct w as [|x w]; [congruence|discriminate]. }
  assert (O : forall e, In e (map relative_error (map (fun lr => (snd lr, snd lr)) (values_of name w))) -> e = 0).
  { intros e He. apply in_map_iff in He. destruct He as [p [<- Hp]]. destruct (V p Hp) as [V1 V2].
    unfold relative_error. rewrite V1. field. exact V2. }
  apply O in A. apply O in B. subst mn mx. assert (mean = 0) as -> by lra. exact I.
Qed.

(* ---- C161 ---- *)
Lemma statistics_numbers l l' : numbers l = numbers l' -> statistics_of l = statistics_of l'.
Proof. intros E. unfold statistics_of, series_min, series_max, series_mean. rewrite E. reflexivity. Qed.
Lemma errors_front l c : numbers (errors l c) =
  numbers (map (fun lr => match cell c (fst lr) with Some x => calibration_error (snd lr) x | None => Nan end) l).
Proof. unfold errors. rewrite numbers_app, numbers_nans, app_nil_r. reflexivity. Qed.
Lemma same_cell c c' i : (forall x, has_cell c i x <-> has_cell c' i x) -> cell c i = cell c' i.
Proof.
  intros H. destruct (cell c i) as [x|] eqn:E.
  - symmetry. apply cell_spec, H, cell_spec, E.
  - symmetry. apply cell_none. intros x K. apply H in K. apply cell_spec in K. congruence.
Qed.
Lemma statistics_same_cells c c' (v : output_row -> R) results :
  (forall i r x, In (i, r) results -> (has_cell c i x <-> has_cell c' i x)) ->
  statistics_of (errors (map (fun lr => (fst lr, v (snd lr))) results) c) =
  statistics_of (errors (map (fun lr => (fst lr, v (snd lr))) results) c').
Proof.
  intros H. apply statistics_numbers. rewrite !errors_front. f_equal. rewrite !map_map. apply map_ext_in.
  intros [i r] I. cbn [fst snd]. rewrite (same_cell c c' i); [reflexivity|]. intros x. exact (H i r x I).
Qed.
Lemma report_same_cells s s' results : all_columns s ->
  (forall name o c, compared name o <> None -> sheet_has s name c -> exists c', sheet_has s' name c' /\
     forall i r x, In (i, r) results -> (has_cell c i x <-> has_cell c' i x)) ->
  report s' results = report s results.
Proof.
  intros A H. assert (o : output_row) by (constructor; exact 0).
  assert (K : forall name v, compared name o <> None -> exists c c', sheet_column s name = Ret c /\ sheet_column s' name = Ret c' /\
    statistics_of (errors (map (fun lr => (fst lr, v (snd lr))) results) c') =
    statistics_of (errors (map (fun lr => (fst lr, v (snd lr))) results) c)).
  { intros name v C. destruct (A name o C) as [c P]. destruct (H name o c C P) as (c' & P' & Q). exists c, c'.
    split; [apply column_has, P|]. split; [apply column_has, P'|]. symmetry. apply statistics_same_cells, Q. }
  unfold report, calibration_keys. cbn [report_for].
  destruct (K "kmin"%string r_kmin ltac:(discriminate)) as (c1 & d1 & -> & -> & S1).
  destruct (K "kdry"%string r_kdry ltac:(discriminate)) as (c2 & d2 & -> & -> & S2).
  destruct (K "ksat"%string r_ksat ltac:(discriminate)) as (c3 & d3 & -> & -> & S3).
  destruct (K "kmin_fls"%string r_kmin_fls ltac:(discriminate)) as (c4 & d4 & -> & -> & S4).
  cbn [then_]. rewrite S1, S2, S3, S4. reflexivity.
Qed.
Lemma statistics_without c (v : output_row -> R) a i r b : (forall x, ~ has_cell c i x) ->
  statistics_of (errors (map (fun lr => (fst lr, v (snd lr))) (a ++ (i, r) :: b)) c) =
  statistics_of (errors (map (fun lr => (fst lr, v (snd lr))) (a ++ b)) c).
Proof.
  intros H. apply statistics_numbers. rewrite !errors_front, !map_map, !map_app, !numbers_app. f_equal.
  cbn [map fst snd]. apply cell_none in H. rewrite H. reflexivity.
Qed.
Lemma report_without s a i r b :
  (forall name o c x, compared name o <> None -> sheet_has s name c -> ~ has_cell c i x) ->
  report s (a ++ (i, r) :: b) = report s (a ++ b).
Proof.
  intros H. assert (o : output_row) by (constructor; exact 0).
  unfold report, calibration_keys. cbn [report_for].
  destruct (sheet_column s "kmin") as [c1|] eqn:E1; [|reflexivity]. cbn [then_].
  destruct (sheet_column s "kdry") as [c2|] eqn:E2; [|reflexivity]. cbn [then_].
  destruct (sheet_column s "ksat") as [c3|] eqn:E3; [|reflexivity]. cbn [then_].
  destruct (sheet_column s "kmin_fls") as [c4|] eqn:E4; [|reflexivity]. cbn [then_].
  apply column_has in E1, E2, E3, E4.
  rewrite (statistics_without c1 r_kmin a i r b), (statistics_without c2 r_kdry a i r b),
    (statistics_without c3 r_ksat a i r b), (statistics_without c4 r_kmin_fls a i r b); [reflexivity| | | |].
  - intros x. exact (H "kmin_fls"%string o c4 x ltac:(discriminate) E4).
  - intros x. exact (H "ksat"%string o c3 x ltac:(discriminate) E3).
  - intros x. exact (H "kdry"%string o c2 x ltac:(discriminate) E2).
  - intros x. exact (H "kmin"%string o c1 x ltac:(discriminate) E1).
Qed.
