(** C200-C203, and more of C99: mistakes on the command line, messages, what is
    missing, and where nan comes from. *)
From Coq Require Import String List ZArith Lra Lia.
From Verif Require Import Base BaseProofs Spec MaterialModel MaterialProofs FluidModel FluidProofs InputModel MainModel MainSpec CommandModel CommandSpec CommandProofs
  CommandProps ConfigModel FluidsModel RowModel RowSpec RowScalarProofs RowProps NumModel NanModel NanSpec EmbedRowProofs NanRowProofs NanExampleProofs PoisonSpec PoisonExampleProofs RowResultProofs FurtherProofs FurtherExampleProofs.
Import ListNotations.
Open Scope R_scope.

(** C200: a command line that asks for a run ends with status 2, and prints
    nothing to standard output, if no file of settings is named, if a file to
    read is not there, if an output file cannot be written, or if a threshold is
    not a percentage.  (A file named as output is there to be read afterwards.) *)
Theorem C200_rejected : forall (Text Row Inp Out : Type) (t : tools Text Row Inp Out) argv d, asks_for_run argv ->
  (forall c, ~ configured argv c) \/
  (exists p, (In (Config p) argv \/ In (DataFile p) argv \/ In (Calibration p) argv) /\
     (forall x, d p <> Some (File x)) /\ ~ In (OutputFile p) argv) \/
  (exists p, In (OutputFile p) argv /\ (d p = Some Folder \/ may_write t p = false)) \/
  (exists v, In (SuccessThreshold v) argv /\ forall x, v = Finite x -> ~ (0 <= x <= 100)) ->
  status (main t argv d) = 2%Z /\ stdout (main t argv d) = [].
Proof. intros Text Row Inp Out. exact mistake_rejected. Qed.
Print Assumptions C200_rejected.
Example C200_nonvacuous : asks_for_run [Config "c.yaml"; DataFile "none.csv"] /\
  (forall x, shelf "none.csv" <> Some (File x)) /\
  main desk [Config "c.yaml"; DataFile "none.csv"] shelf = mkFinish 2 shelf [] /\
  status (main desk [Config "c.yaml"; DataFile "good.csv"] shelf) = 0%Z.
Proof. split; [repeat split; intros; cbn; intuition discriminate|]. split; [discriminate|]. split; reflexivity. Qed.

(** C201: the statuses 251 to 255 come with a message on standard output; the
    statuses 1 and 2 leave standard output empty. *)
Theorem C201_message : forall (Text Row Inp Out : Type) (t : tools Text Row Inp Out) argv d,
  (251 <= status (main t argv d) <= 255)%Z -> In Message (stdout (main t argv d)).
Proof. intros Text Row Inp Out. exact failure_message. Qed.
Print Assumptions C201_message.
Theorem C201_silent : forall (Text Row Inp Out : Type) (t : tools Text Row Inp Out) argv d,
  (status (main t argv d) = 1 \/ status (main t argv d) = 2)%Z -> stdout (main t argv d) = [].
Proof. intros Text Row Inp Out. exact crash_silent. Qed.
Print Assumptions C201_silent.
Example C201_nonvacuous : status (main desk failing_line shelf) = 253%Z /\ In Message (stdout (main desk failing_line shelf)) /\
  status (main desk [Config "none.yaml"] shelf) = 2%Z.
Proof.
  assert (E : status (main desk failing_line shelf) = 253%Z) by reflexivity.
  split; [exact E|]. split; [apply failure_message; rewrite E; lia|reflexivity].
Qed.

(** C99: a depth trend for which one of the three properties has no coefficients
    is no depth trend: there is no result. *)
Theorem C99_missing_coefficients : forall t m p phi mineral, c_density (dt_coefficients t) = None \/
  c_primary (dt_coefficients t) = None \/ c_secondary (dt_coefficients t) = None ->
  forall m', adjust_one (DepthTrend t) m p phi mineral <> Ok m'.
Proof. exact trend_missing. Qed.
Print Assumptions C99_missing_coefficients.

(** C202: a fluid of which there is nothing, and which has no stiffness, takes
    the stiffness of the whole mixture: in NumPy zero by zero is nan. *)
Theorem C202_zero_by_zero : forall fluids saturations m i f s v, n_wood fluids saturations = Ok m ->
  In (f, s) (combine fluids saturations) -> entry i (n_bulk f) = Some (Num 0) -> entry i s = Some (Num 0) ->
  entry i (n_bulk m) = Some v -> v = Nan.
Proof. exact wood_zero_by_zero. Qed.
Print Assumptions C202_zero_by_zero.
(** So a fluid with saturation zero does have an effect: water alone has a bulk
    modulus, water and nothing of a vacuum has none. *)
Theorem C202_no_effect_refuted : exists f g m m',
  n_wood [f] [Sc (Num 1)] = Ok m /\ n_bulk m = Sc (Num 1) /\
  n_wood [f; g] [Sc (Num 1); Sc (Num 0)] = Ok m' /\ n_bulk m' = Sc Nan /\
  f = num_mat (up water) /\ g = num_mat (up (sample 0 0 1)).
Proof.
  destruct wood_water as (m & E & K), wood_vacuum as (m' & E' & K').
  exists (num_mat (up water)), (num_mat (up (sample 0 0 1))), m, m'. repeat split; assumption.
Qed.
Print Assumptions C202_no_effect_refuted.

(** C203: where the pore pressure of the rock is above the overburden pressure, a
    pressure dependency that is a fit in the logarithm makes the density nan, so
    the row has no density, whatever the rest of the table.  Nothing is
    reported. *)
Theorem C203_log_fit : forall co2 n inp rows i r c pore overburden x, n_results co2 n inp = Ok rows ->
  nth_error rows i = Some r ->
  In (NPressureDependency (NLogfit c)) (ndr_adjustments (ni_dry_rock inp)) ->
  npr_rock (ni_pressure inp) = Some pore -> entry i pore = Some (Num x) ->
  entry i (npr_overburden (ni_pressure inp)) = Some (Num overburden) -> overburden < x -> w_rsat r = Nan.
Proof. intros co2 n inp rows i r c pore o x E R I P X O L. exact (logfit_rows co2 n inp rows i r c pore o x E R I P O X L). Qed.
Print Assumptions C203_log_fit.
Example C203_nonvacuous :
  n_results (with_nan no_co2) 1 overpressured = Ok [mkNRow Nan (Num 4) Nan Nan Nan (Num 4)] /\
  (exists c, In (NPressureDependency (NLogfit c)) (ndr_adjustments (ni_dry_rock overpressured))) /\
  npr_rock (ni_pressure overpressured) = Some (Sc (Num 30)) /\ npr_overburden (ni_pressure overpressured) = Sc (Num 20).
Proof. split; [apply overpressured_results|]. split; [eexists; left; reflexivity|]. split; reflexivity. Qed.
