(** Lemmas about reading configurations: columns pass through unchanged. *)
From Coq Require Import String List ZArith Lia Lra.
From Verif Require Import Base BaseProofs ConfigModel FluidsModel InputModel InputSpec InputProofs RowModel RowSpec ReadModel ReadSpec.
Import ListNotations.
Open Scope R_scope.

(** ** Trees *)
Lemma tame_list_inv : forall l, tame (VList l) -> Forall tame l /\ Forall (fun v => forall c, v <> VArray c) l.
Proof.
  intros l H. inversion H as [v A B|l' A B|]; subst; [exfalso; apply (A l); reflexivity|]. split; assumption.
Qed.
Lemma tame_dict_inv : forall l, tame (VDict l) -> Forall (fun kv => tame (snd kv)) l.
Proof. intros l H. inversion H as [v A B| |l' A]; subst; [exfalso; apply (B l); reflexivity|]. assumption. Qed.

Lemma rmap_id : forall {A} (f : A -> A) r, (forall a, f a = a) -> rmap f r = r.
Proof. intros A f [a|e] H; cbn [rmap]; [rewrite H|]; reflexivity. Qed.
Lemma rmap_rmap : forall {A B C} (f : A -> B) (g : B -> C) r, rmap g (rmap f r) = rmap (fun a => g (f a)) r.
Proof. intros A B C f g [a|e]; reflexivity. Qed.

Section Columns.
Context (st : strings) (phi : list R -> list R).
Notation mc := (map_columns phi).
Notation oc := (on_column phi).
Notation args := (map (fun kv : string * value => (fst kv, mc (snd kv)))).

Definition commutes {A} (f : value -> res A) (o : A -> A) : Prop := forall v, tame v -> f (mc v) = rmap o (f v).

Lemma bind_commutes : forall {A B} (r r' : res A) (k k' : A -> res B) (o : A -> A) (o2 : B -> B),
  r' = rmap o r -> (forall a, r = Ok a -> k' (o a) = rmap o2 (k a)) -> bind r' k' = rmap o2 (bind r k).
Proof. intros A B r r' k k' o o2 -> H. destruct r as [a|e]; cbn [rmap bind]; [apply H; reflexivity|reflexivity]. Qed.

Lemma sequence_commutes : forall {A B} (f f' : A -> res B) (o : B -> B) (g : A -> A) l,
  (forall a, In a l -> f' (g a) = rmap o (f a)) -> sequence (map f' (map g l)) = rmap (map o) (sequence (map f l)).
Proof.
  intros A B f f' o g l. induction l as [|a l IH]; intros H; cbn [map sequence]; [reflexivity|].
  rewrite H by (left; reflexivity). destruct (f a) as [b|e]; cbn [rmap bind]; [|reflexivity].
  rewrite IH by (intros x Hx; apply H; right; exact Hx). destruct (sequence (map f l)); reflexivity.
Qed.

Lemma arguments_commutes : forall names v, tame v -> arguments names (mc v) = rmap args (arguments names v).
Proof.
  intros names v H. destruct v as [|b|x|s|l|t|l|items]; try reflexivity.
  - cbn [map_columns arguments]. rewrite map_length. destruct (Nat.leb _ _); cbn [rmap]; [|reflexivity]. f_equal.
    clear H. revert names. induction l as [|v l IH]; intros [|n names]; cbn [combine map]; try reflexivity.
    rewrite IH. reflexivity.
  - cbn [map_columns arguments].
    replace (forallb (fun kv => existsb (String.eqb (fst kv)) names) (args items))
      with (forallb (fun kv : string * value => existsb (String.eqb (fst kv)) names) items).
    + destruct (forallb _ items); reflexivity.
    + clear H. induction items as [|[k v] items IH]; [reflexivity|]. cbn [map forallb fst snd]. rewrite IH. reflexivity.
Qed.
Lemma arguments_tame : forall names v f, tame v -> arguments names v = Ok f -> Forall (fun kv => tame (snd kv)) f.
Proof.
  intros names v f H E. destruct v as [|b|x|s|l|t|l|items]; try discriminate E; cbn [arguments] in E.
  - destruct (Nat.leb _ _); [|discriminate E]. injection E as <-. destruct (tame_list_inv l H) as [T _].
    rewrite Forall_forall in *. intros [k v] Hx. apply T. apply (in_combine_r _ _ _ _ Hx).
  - destruct (forallb _ items); [|discriminate E]. injection E as <-. apply tame_dict_inv, H.
Qed.
Lemma get_commutes : forall f name, get (args f) name = option_map mc (get f name).
Proof.
  intros f name. induction f as [|[k v] f IH]; [reflexivity|]. cbn [map get fst snd].
  destruct (String.eqb k name); [reflexivity|exact IH].
Qed.
Lemma get_tame : forall f name v, Forall (fun kv => tame (snd kv)) f -> get f name = Some v -> tame v.
Proof.
  intros f name v H E. induction H as [|[k w] f Hw H IH]; cbn [get] in E; [discriminate|].
  destruct (String.eqb k name); [injection E as <-; exact Hw|apply IH, E].
Qed.

Section Fields.
Context (f : list (string * value)) (Hf : Forall (fun kv => tame (snd kv)) f).
Lemma required_commutes : forall {A} (read : value -> res A) o name, commutes read o ->
  required read (args f) name = rmap o (required read f name).
Proof.
  intros A read o name H. unfold required. rewrite get_commutes. destruct (get f name) as [v|] eqn:E; [|reflexivity].
  apply H. eapply get_tame; eassumption.
Qed.
Lemma default_commutes : forall {A} (d : A) (read : value -> res A) o name, commutes read o -> o d = d ->
  default d read (args f) name = rmap o (default d read f name).
Proof.
  intros A d read o name H D. unfold default. rewrite get_commutes. destruct (get f name) as [v|] eqn:E.
  - apply H. eapply get_tame; eassumption.
  - cbn [rmap option_map]. rewrite D. reflexivity.
Qed.
Lemma nullable_commutes : forall {A} (read : value -> res A) o, commutes read o ->
  commutes (nullable read) (option_map o).
Proof.
  intros A read o H v T. destruct (match v with VNull => true | _ => false end) eqn:N.
  - destruct v; try discriminate N. reflexivity.
  - assert (forall w, match w with VNull => true | _ => false end = false ->
        nullable read w = let* a := read w in Ok (Some a)) as E by (intros w Hw; destruct w; try discriminate Hw; reflexivity).
    rewrite !E; [|exact N|destruct v; try discriminate N; reflexivity].
    rewrite (H v T). destruct (read v); reflexivity.
Qed.
Lemma optional_commutes : forall {A} (read : value -> res A) o name, commutes read o ->
  optional read (args f) name = rmap (option_map o) (optional read f name).
Proof. intros A read o name H. apply default_commutes; [apply nullable_commutes, H|reflexivity]. Qed.
Lemma literal_commutes : forall s, commutes (literal s) (fun x => x).
Proof. intros s v T. rewrite rmap_id by reflexivity. destruct v; reflexivity. Qed.
Lemma type_commutes : forall s, type_is s (args f) = rmap (fun x => x) (type_is s f).
Proof. intros s. apply default_commutes; [apply literal_commutes|reflexivity]. Qed.
End Fields.

Lemma first_commutes : forall {A} (l : list (value -> res A)) o, Forall (fun f => commutes f o) l ->
  commutes (first_of l) o.
Proof.
  intros A l o H v T. induction H as [|f l Hf H IH]; [reflexivity|]. cbn [first_of].
  rewrite (Hf v T). destruct (f v) as [a|e]; cbn [rmap]; [reflexivity|]. destruct e; try reflexivity. exact IH.
Qed.
Lemma reads_commutes : forall {A B} (g : A -> B) (read : value -> res A) o o2, commutes read o ->
  (forall a, g (o a) = o2 (g a)) -> commutes (reads g read) o2.
Proof.
  intros A B g read o o2 H G v T. unfold reads. rewrite (H v T), !rmap_rmap. destruct (read v); cbn [rmap]; [rewrite G|]; reflexivity.
Qed.
Lemma list_commutes : forall {A} (read : value -> res A) o, commutes read o -> commutes (list_of read) (map o).
Proof.
  intros A read o H v T. destruct v; try reflexivity. cbn [map_columns list_of].
  apply sequence_commutes. intros a Ha. apply H. destruct (tame_list_inv _ T) as [F _].
  rewrite Forall_forall in F. apply F, Ha.
Qed.
Lemma nonempty_commutes : forall {A} (read : value -> res A) o, commutes read o -> commutes (nonempty_list_of read) (map o).
Proof.
  intros A read o H v T. unfold nonempty_list_of. eapply bind_commutes; [apply (list_commutes read o H v T)|].
  intros [|a l] _; reflexivity.
Qed.

(** ** Leaves *)
Lemma cell_commutes : commutes (cell st) (fun x => x).
Proof. intros v T. rewrite rmap_id by reflexivity. destruct v; reflexivity. Qed.
Lemma scalar_mc : forall v, is_scalar (mc v) = is_scalar v.
Proof. destruct v; reflexivity. Qed.
Lemma row_mc : forall v, is_row (mc v) = is_row v.
Proof. destruct v; reflexivity. Qed.
Lemma forallb_mc : forall (p : value -> bool) l, (forall v, p (mc v) = p v) -> forallb p (map mc l) = forallb p l.
Proof. intros p l H. induction l as [|v l IH]; [reflexivity|]. cbn [map forallb]. rewrite H, IH. reflexivity. Qed.
Lemma cells_commutes : forall l, Forall tame l -> sequence (map (cell st) (map mc l)) = sequence (map (cell st) l).
Proof.
  intros l H. rewrite (sequence_commutes (cell st) (cell st) (fun x => x) mc l).
  - apply rmap_id. intros a. apply map_id.
  - intros a Ha. apply cell_commutes. rewrite Forall_forall in H. apply H, Ha.
Qed.
Lemma matrix_row_mc : forall v, tame v -> (forall c, v <> VArray c) -> matrix_row st (mc v) = matrix_row st v.
Proof.
  intros v T N. destruct v; try reflexivity; [exfalso; eapply N; reflexivity|].
  cbn [map_columns matrix_row]. rewrite forallb_mc by apply scalar_mc. destruct (forallb is_scalar l); [|reflexivity].
  apply cells_commutes, tame_list_inv, T.
Qed.
Lemma array_commutes : commutes (np_array st) oc.
Proof.
  intros v T. destruct v as [|b|x|s|l|t|l|items]; try reflexivity.
  - cbn [map_columns np_array]. destruct (cell st (VStr s)); reflexivity.
  - cbn [map_columns np_array]. destruct (tame_list_inv l T) as [T1 T2].
    rewrite !forallb_mc by (apply scalar_mc || apply row_mc).
    destruct (forallb is_scalar l).
    + rewrite cells_commutes by exact T1. destruct (sequence _); reflexivity.
    + destruct (forallb is_row l); [|reflexivity].
      replace (sequence (map (matrix_row st) (map mc l))) with (sequence (map (matrix_row st) l)).
      * destruct (sequence _) as [rows|e]; [|reflexivity]. cbn [bind]. destruct (same_lengths rows); reflexivity.
      * rewrite map_map. f_equal. apply map_ext_in. intros v Hv. symmetry. rewrite Forall_forall in T1, T2.
        apply matrix_row_mc; [apply T1, Hv|apply T2, Hv].
Qed.
Lemma float_commutes : commutes (read_float st) oc.
Proof.
  intros v T. destruct v as [|b|x|s|l|t|l|items]; try reflexivity.
  cbn [map_columns read_float]. destruct (cell st (VStr s)); reflexivity.
Qed.
Lemma int_commutes : commutes (read_int st) oc.
Proof.
  intros v T. destruct v as [|b|x|s|l|t|l|items]; try reflexivity.
  cbn [map_columns read_int]. destruct (get_or_fail _); reflexivity.
Qed.
Lemma bool_commutes : commutes read_bool (fun x => x).
Proof. intros v T. rewrite rmap_id by reflexivity. destruct v; reflexivity. Qed.
Lemma provider_commutes : commutes read_provider (fun x => x).
Proof. intros v T. rewrite rmap_id by reflexivity. destruct v; reflexivity. Qed.
Lemma mix_commutes : commutes read_mix_method (fun x => x).
Proof. intros v T. rewrite rmap_id by reflexivity. destruct v; reflexivity. Qed.

(** ** Sections *)
Ltac start := let v := fresh "v" in let T := fresh "T" in intros v T;
  eapply bind_commutes; [apply arguments_commutes, T|]; let f := fresh "f" in let E := fresh "E" in intros f E;
  pose proof (arguments_tame _ _ _ T E); cbv beta.
Ltac req L := eapply bind_commutes; [apply required_commutes; [assumption|exact L]|]; intros ? ?; cbv beta.
Ltac opt_ L := eapply bind_commutes; [apply optional_commutes; [assumption|exact L]|]; intros ? ?; cbv beta.
Ltac def L := eapply bind_commutes; [apply default_commutes; [assumption|exact L|reflexivity]|]; intros ? ?; cbv beta.
Ltac typ := eapply bind_commutes; [apply type_commutes; assumption|]; intros ? ?; cbv beta.

Lemma arbitrary_commutes : commutes (read_arbitrary st) (map_arbitrary oc).
Proof.
  start. req array_commutes. opt_ array_commutes. opt_ array_commutes. opt_ array_commutes. opt_ array_commutes. typ.
  destruct a1, a2, a0, a3; reflexivity.
Qed.
Lemma gas_commutes : commutes (read_gas st) (map_material oc).
Proof. start. req array_commutes. typ. reflexivity. Qed.
Lemma oil_commutes : commutes (read_oil st) (map_material oc).
Proof. start. req array_commutes. req array_commutes. req array_commutes. typ. reflexivity. Qed.
Lemma brine_commutes : commutes (read_brine st) (map_material oc).
Proof. start. req array_commutes. typ. reflexivity. Qed.
Lemma condensate_commutes : commutes (read_condensate st) (map_material oc).
Proof. start. req array_commutes. req array_commutes. req array_commutes. typ. reflexivity. Qed.
Lemma carbon_dioxide_commutes : commutes read_carbon_dioxide (map_material oc).
Proof. start. typ. def bool_commutes. reflexivity. Qed.
Lemma material_commutes : commutes (read_material st) (map_material oc).
Proof.
  apply first_commutes. repeat constructor.
  - apply (reads_commutes MArbitrary _ (map_arbitrary oc)); [apply arbitrary_commutes|reflexivity].
  - apply gas_commutes.
  - apply oil_commutes.
  - apply brine_commutes.
  - apply condensate_commutes.
  - apply carbon_dioxide_commutes.
Qed.
Lemma constituent_commutes : commutes (read_constituent st) (map_constituent oc).
Proof.
  start. req material_commutes. opt_ array_commutes.
  eapply bind_commutes; [apply optional_commutes; [assumption|exact provider_commutes]|]. intros [p|] _; reflexivity.
Qed.
Lemma minerals_commutes : commutes (read_minerals st) (map (map_constituent oc)).
Proof. start. apply default_commutes; [assumption| |reflexivity]. apply nonempty_commutes, constituent_commutes. Qed.
Lemma fluids_commutes : commutes (read_fluids_section st) (map_fluids oc oc).
Proof.
  start. def array_commutes. def (nonempty_commutes _ _ constituent_commutes). def mix_commutes. def float_commutes.
  opt_ (list_commutes _ _ int_commutes). def provider_commutes. reflexivity.
Qed.
Lemma moduli_commutes : commutes (read_moduli st) (map_coefficients oc).
Proof. start. opt_ array_commutes. opt_ array_commutes. opt_ array_commutes. reflexivity. Qed.
Lemma velocities_commutes : commutes (read_velocities st) (map_coefficients oc).
Proof. start. opt_ array_commutes. opt_ array_commutes. opt_ array_commutes. reflexivity. Qed.
Definition map3 (x : option nd * option nd * option nd) := let '(a, b, c) := x in (option_map oc a, option_map oc b, option_map oc c).
Lemma ratios_commutes : commutes (read_ratios st) map3.
Proof. start. opt_ array_commutes. opt_ array_commutes. opt_ array_commutes. reflexivity. Qed.
Lemma coefficients_commutes : commutes (read_coefficients st) (map_coefficients oc).
Proof. apply first_commutes. repeat constructor; [apply moduli_commutes|apply velocities_commutes]. Qed.
Lemma friable_commutes : commutes (read_friable st) (map_friable oc).
Proof. start. def array_commutes. def array_commutes. opt_ array_commutes. typ. reflexivity. Qed.
Lemma patchy_commutes : commutes (read_patchy st) (map_patchy oc).
Proof.
  start. typ. def arbitrary_commutes. def array_commutes. def array_commutes. def array_commutes. def array_commutes.
  opt_ array_commutes. def array_commutes. reflexivity.
Qed.
Lemma fit_commutes : forall name, commutes (read_fit st name) (map_coefficients oc).
Proof. intros name. start. req coefficients_commutes. typ. reflexivity. Qed.
Lemma powerfit_commutes : commutes (read_powerfit st) (map_dependency oc oc).
Proof. start. req ratios_commutes. typ. destruct a as [[a1 b] c]. reflexivity. Qed.
Lemma polyfit2d_commutes : commutes (read_polyfit2d st) (map_sandstone oc oc).
Proof. start. opt_ coefficients_commutes. typ. reflexivity. Qed.
Lemma dependency_commutes : commutes (read_dependency st) (map_dependency oc oc).
Proof.
  apply first_commutes. repeat constructor.
  - apply (reads_commutes DPatchy _ (map_patchy oc)); [apply patchy_commutes|reflexivity].
  - apply (reads_commutes DFriable _ (map_friable oc)); [apply friable_commutes|reflexivity].
  - apply powerfit_commutes.
  - apply (reads_commutes DLogfit _ (map_coefficients oc)); [apply fit_commutes|reflexivity].
  - apply (reads_commutes DPolyfit _ (map_coefficients oc)); [apply fit_commutes|reflexivity].
  - apply (reads_commutes DExpfit _ (map_coefficients oc)); [apply fit_commutes|reflexivity].
Qed.
Lemma sandstone_commutes : commutes (read_sandstone st) (map_sandstone oc oc).
Proof.
  apply first_commutes. repeat constructor.
  - apply (reads_commutes SPatchy _ (map_patchy oc)); [apply patchy_commutes|reflexivity].
  - apply (reads_commutes SFriable _ (map_friable oc)); [apply friable_commutes|reflexivity].
  - apply polyfit2d_commutes.
Qed.
Lemma depth_trend_commutes : commutes (read_depth_trend st) (map_adjustment oc oc).
Proof. start. req array_commutes. req coefficients_commutes. typ. opt_ array_commutes. opt_ array_commutes. reflexivity. Qed.
Lemma pressure_dependency_commutes : commutes (read_pressure_dependency st) (map_adjustment oc oc).
Proof. start. req dependency_commutes. typ. reflexivity. Qed.
Lemma adjustments_commutes : commutes (list_of (first_of [read_depth_trend st; read_pressure_dependency st])) (map (map_adjustment oc oc)).
Proof.
  apply list_commutes, first_commutes. repeat constructor; [apply depth_trend_commutes|apply pressure_dependency_commutes].
Qed.
Lemma dry_rock_commutes : commutes (read_dry_rock st) (map_dry_rock oc oc).
Proof. start. def sandstone_commutes. def array_commutes. def adjustments_commutes. reflexivity. Qed.
Lemma pressure_commutes : commutes (read_pressure st) (map_pressure oc).
Proof.
  start. def array_commutes. def array_commutes. def (nullable_commutes _ _ array_commutes). opt_ array_commutes. opt_ array_commutes.
  destruct a1, a3; reflexivity.
Qed.
Lemma config_commutes : commutes (read_config st) (map_config oc oc).
Proof. start. def minerals_commutes. def fluids_commutes. def dry_rock_commutes. def pressure_commutes. reflexivity. Qed.
End Columns.
