(** Lemmas: reading what was written. *)
From Coq Require Import String List ZArith Lra Lia.
From Verif Require Import Base BaseProofs MaterialModel ConfigModel FluidsModel InputModel RowModel ReadModel AppModel FileSpec.
Import ListNotations.
Open Scope R_scope.

(** ** Column references *)
Lemma insert_list : forall t l l', Forall2 (fun v v' => insert_from_dataframe t v = Ok v') l l' ->
  insert_from_dataframe t (VList l) = Ok (VList l').
Proof.
  intros t l l' H. cbn [insert_from_dataframe].
  match goal with |- context [bind (?f l) _] => assert (E : f l = Ok l') end; [|rewrite E; reflexivity].
  induction H as [|v v' l l' A H IH]; [reflexivity|]. rewrite A. cbn [bind]. rewrite IH. reflexivity.
Qed.
Lemma insert_dict : forall t items items', (forall n, items <> [("column"%string, n)]) ->
  Forall2 (fun kv kv' => fst kv = fst kv' /\ insert_from_dataframe t (snd kv) = Ok (snd kv')) items items' ->
  insert_from_dataframe t (VDict items) = Ok (VDict items').
Proof.
  intros t items items' N H. cbn [insert_from_dataframe].
  match goal with |- context [bind (?f items) _] => assert (E : f items = Ok items') end.
  - clear N. induction H as [|[k v] [k' v'] l l' [A B] H IH]; [reflexivity|]. cbn [fst snd] in A, B. subst k'.
    rewrite B. cbn [bind]. rewrite IH. reflexivity.
  - destruct items as [|[k v] [|kv items]]; try (rewrite E; reflexivity).
    destruct (String.eqb k "column") eqn:K; [|rewrite E; reflexivity]. apply String.eqb_eq in K. subst k.
    exfalso. apply (N v). reflexivity.
Qed.
Lemma insert_self : forall t x, insert_from_dataframe t (write_nd x) = Ok (write_nd x).
Proof.
  intros t [x|l|l|rows]; try reflexivity; cbn [write_nd]; apply insert_list.
  - induction l; cbn [map]; constructor; [reflexivity|assumption].
  - induction rows as [|r rows IH]; cbn [map]; constructor; [|assumption]. apply insert_list.
    induction r; cbn [map]; constructor; [reflexivity|assumption].
Qed.
Lemma insert_or_null : forall t {A} (f g : A -> value) o, (forall a, o = Some a -> insert_from_dataframe t (f a) = Ok (g a)) ->
  insert_from_dataframe t (or_null f o) = Ok (or_null g o).
Proof. intros t A f g [a|] H; [apply H; reflexivity|reflexivity]. Qed.
Lemma insert_nd_opt : forall t o, insert_from_dataframe t (or_null write_nd o) = Ok (or_null write_nd o).
Proof. intros t o. apply insert_or_null. intros a _. apply insert_self. Qed.
Lemma insert_map : forall t {A} (f g : A -> value) l, Forall (fun a => insert_from_dataframe t (f a) = Ok (g a)) l ->
  insert_from_dataframe t (VList (map f l)) = Ok (VList (map g l)).
Proof. intros t A f g l H. apply insert_list. induction H; cbn [map]; constructor; assumption. Qed.

Ltac dict := apply insert_dict; [intros ? ?; discriminate|];
  repeat (apply Forall2_cons; [split; [reflexivity|cbn [snd]]|]); [..|apply Forall2_nil].

Lemma insert_coefficients : forall t c, insert_from_dataframe t (write_coefficients c) = Ok (write_coefficients c).
Proof. intros t [f d p s]. unfold write_coefficients. cbn [c_flavour c_density c_primary c_secondary]. destruct f; dict; apply insert_nd_opt. Qed.
Lemma insert_provider : forall t p, insert_from_dataframe t (write_provider p) = Ok (write_provider p).
Proof. reflexivity. Qed.

Section Insert.
Context {X : Type} (t : table) (w w' : X -> value).
Notation good := (Forall (fun x => insert_from_dataframe t (w x) = Ok (w' x))).
Lemma good_opt : forall o, good (opt o) -> insert_from_dataframe t (or_null w o) = Ok (or_null w' o).
Proof. intros o H. apply insert_or_null. intros a ->. inversion H. assumption. Qed.
Lemma good_flat : forall {A} (v : A -> list X) l, good (flat_map v l) -> Forall (fun a => good (v a)) l.
Proof.
  intros A v l. induction l as [|a l IH]; cbn [flat_map]; intros H; constructor; apply Forall_app in H; [apply H|apply IH, H].
Qed.
Ltac vals := repeat match goal with
  | H : good (_ :: _) |- _ => let A := fresh in let B := fresh in apply Forall_cons_iff in H; destruct H as [A B]
  | H : good (_ ++ _) |- _ => let A := fresh in let B := fresh in apply Forall_app in H; destruct H as [A B]
  end.
Ltac leaf := first [assumption | apply good_opt; assumption | apply insert_nd_opt | apply insert_coefficients | apply insert_self | reflexivity].

Lemma insert_arbitrary : forall a, good (vals_arbitrary a) ->
  insert_from_dataframe t (write_arbitrary w a) = Ok (write_arbitrary w' a).
Proof. intros a H. unfold vals_arbitrary in H. vals. unfold write_arbitrary. dict; leaf. Qed.
Lemma insert_material : forall m, good (vals_material m) ->
  insert_from_dataframe t (write_material w m) = Ok (write_material w' m).
Proof. intros [] H; cbn [vals_material write_material] in *; vals; [apply insert_arbitrary; assumption|..]; dict; leaf. Qed.
Lemma insert_constituent : forall c, good (vals_constituent c) ->
  insert_from_dataframe t (write_constituent w c) = Ok (write_constituent w' c).
Proof.
  intros c H. unfold vals_constituent in H. vals. unfold write_constituent. dict; try leaf; [apply insert_material; assumption|].
  apply insert_or_null. reflexivity.
Qed.
Lemma insert_constituents : forall cs, good (flat_map vals_constituent cs) ->
  insert_from_dataframe t (VList (map (write_constituent w) cs)) = Ok (VList (map (write_constituent w') cs)).
Proof. intros cs H. apply insert_map. apply good_flat in H. eapply Forall_impl; [|exact H]. apply insert_constituent. Qed.
Lemma insert_friable : forall f, good (vals_friable f) ->
  insert_from_dataframe t (write_friable w f) = Ok (write_friable w' f).
Proof. intros f H. unfold vals_friable in H. vals. unfold write_friable. dict; leaf. Qed.
Lemma insert_patchy : forall p, good (vals_patchy p) ->
  insert_from_dataframe t (write_patchy w p) = Ok (write_patchy w' p).
Proof. intros p H. unfold vals_patchy in H. vals. unfold write_patchy. dict; try leaf. apply insert_arbitrary; assumption. Qed.
Lemma insert_dependency : forall m, good (vals_dependency m) ->
  insert_from_dataframe t (write_dependency w m) = Ok (write_dependency w' m).
Proof.
  intros [] H; cbn [vals_dependency write_dependency] in *; [apply insert_patchy; assumption|apply insert_friable; assumption|..]; dict; try leaf.
  dict; leaf.
Qed.
Lemma insert_sandstone : forall m, good (vals_sandstone m) ->
  insert_from_dataframe t (write_sandstone w m) = Ok (write_sandstone w' m).
Proof.
  intros [] H; cbn [vals_sandstone write_sandstone] in *; [apply insert_patchy; assumption|apply insert_friable; assumption|]. dict; try leaf.
  apply insert_or_null. intros a _. leaf.
Qed.
Lemma insert_adjustment : forall a, good (vals_adjustment a) ->
  insert_from_dataframe t (write_adjustment w a) = Ok (write_adjustment w' a).
Proof. intros [] H; cbn [vals_adjustment write_adjustment] in *; vals; dict; try leaf. apply insert_dependency; assumption. Qed.
Lemma insert_config : forall c, good (vals_config c) ->
  insert_dataframe (write_config w c) (Some t) = Ok (VDict (write_config w' c ++ [("data"%string, VFrame t)])).
Proof.
  intros [ms fl dr pr] H. unfold vals_config in H. cbn [cf_minerals cf_fluids cf_dry_rock cf_pressure] in H. vals.
  unfold insert_dataframe, write_config.
  cbn [cf_minerals cf_fluids cf_dry_rock cf_pressure List.app].
  match goal with |- insert_from_dataframe _ (VDict ?l) = _ => let l' := eval cbv -[write_minerals write_fluids write_dry_rock write_pressure] in l in change l with l' end.
  dict; try reflexivity.
  - unfold write_minerals. dict. apply insert_constituents; assumption.
  - unfold write_fluids. dict; try leaf; [apply insert_constituents; assumption|].
    apply insert_or_null. intros l _. apply insert_map. rewrite Forall_forall. intros x _. leaf.
  - unfold write_dry_rock. dict; try leaf; [apply insert_sandstone; assumption|].
    apply insert_map. match goal with H : good (flat_map vals_adjustment _) |- _ => apply good_flat in H; rename H into F end.
    eapply Forall_impl; [|exact F]. apply insert_adjustment.
  - unfold write_pressure. dict; leaf.
Qed.
End Insert.

(** Without data. *)
Definition no_reference (v : value) : Prop := check_no_column_reference v = Ok tt.
Lemma check_list : forall l, Forall no_reference l -> no_reference (VList l).
Proof.
  intros l H. unfold no_reference in *. cbn [check_no_column_reference]. induction H as [|v l A H IH]; [reflexivity|].
  rewrite A. cbn [bind]. exact IH.
Qed.
Lemma check_dict : forall items, (forall n, items <> [("column"%string, n)]) ->
  Forall (fun kv => no_reference (snd kv)) items -> no_reference (VDict items).
Proof.
  intros items N H. unfold no_reference in *. cbn [check_no_column_reference].
  match goal with |- context [?f items] => assert (E : f items = Ok tt) end.
  - clear N. induction H as [|[k v] l A H IH]; [reflexivity|]. cbn [snd] in A. rewrite A. cbn [bind]. exact IH.
  - destruct items as [|[k v] [|kv items]]; try exact E. destruct (String.eqb k "column") eqn:K; [|exact E].
    apply String.eqb_eq in K. subst k. exfalso. apply (N v). reflexivity.
Qed.

(** ** Reading *)
Lemma cells_read : forall st l, sequence (map (cell st) (map VNum l)) = Ok l.
Proof. intros st l. induction l as [|x l IH]; [reflexivity|]. cbn [map sequence cell bind]. rewrite IH. reflexivity. Qed.
Lemma scalars : forall l, forallb is_scalar (map VNum l) = true.
Proof. intros l. induction l; [reflexivity|]. cbn [map forallb is_scalar andb]. assumption. Qed.
Lemma nd_read : forall st x, rectangular x -> np_array st (write_nd x) = Ok x.
Proof.
  intros st [x|l|l|rows] H; cbn [write_nd np_array] in *; [reflexivity| |destruct H|].
  - rewrite scalars, cells_read. reflexivity.
  - destruct H as [r [rest [E F]]].
    assert (A : forall rows, sequence (map (matrix_row st) (map (fun r => VList (map VNum r)) rows)) = Ok rows).
    { intros l. induction l as [|a l IH]; [reflexivity|]. cbn [map sequence matrix_row]. rewrite scalars, cells_read. cbn [bind].
      rewrite IH. reflexivity. }
    assert (B : forallb is_row (map (fun r => VList (map VNum r)) rows) = true).
    { clear. induction rows; [reflexivity|]. cbn [map forallb is_row andb]. assumption. }
    rewrite A, B. subst rows. cbn [map forallb is_scalar andb bind same_lengths].
    replace (forallb (fun r' => Nat.eqb (List.length r') (List.length r)) rest) with true; [reflexivity|].
    symmetry. apply forallb_forall. rewrite Forall_forall in F. intros x Hx. apply Nat.eqb_eq, F, Hx.
Qed.
Lemma nullable_read : forall {A B} (read : value -> res B) (f : A -> value) (g : A -> B) o,
  (forall a, o = Some a -> f a <> VNull /\ read (f a) = Ok (g a)) -> nullable read (or_null f o) = Ok (option_map g o).
Proof.
  intros A B read f g [a|] H; [|reflexivity]. destruct (H a eq_refl) as [N E]. cbn [or_null option_map].
  unfold nullable. destruct (f a); try (rewrite E; reflexivity). exfalso. apply N. reflexivity.
Qed.
Lemma nd_opt_read : forall st o, given_opt rectangular o -> nullable (np_array st) (or_null write_nd o) = Ok o.
Proof.
  intros st o H. replace o with (option_map (fun x : nd => x) o) at 2 by (destruct o; reflexivity).
  apply nullable_read. intros a ->. split; [destruct a; discriminate|apply nd_read, H].
Qed.
Lemma list_read : forall {A B} (read : value -> res B) (f : A -> value) (g : A -> B) l,
  Forall (fun a => read (f a) = Ok (g a)) l -> list_of read (VList (map f l)) = Ok (map g l).
Proof.
  intros A B read f g l H. cbn [list_of]. induction H as [|a l E H IH]; [reflexivity|]. cbn [map sequence]. rewrite E. cbn [bind].
  rewrite IH. reflexivity.
Qed.
Lemma nonempty_read : forall {A B} (read : value -> res B) (f : A -> value) (g : A -> B) l, l <> [] ->
  Forall (fun a => read (f a) = Ok (g a)) l -> nonempty_list_of read (VList (map f l)) = Ok (map g l).
Proof.
  intros A B read f g l N H. unfold nonempty_list_of. rewrite (list_read read f g l H). destruct l; [exfalso; apply N; reflexivity|reflexivity].
Qed.

Ltac fields := unfold required, optional, default, type_is, literal; cbn [arguments fst snd forallb existsb andb orb get bind String.eqb Ascii.eqb Bool.eqb].

Lemma coefficients_read : forall st c, of_coefficients c -> read_coefficients st (write_coefficients c) = Ok c.
Proof.
  intros st [f d p s] [Hd [Hp Hs]]. unfold read_coefficients, write_coefficients.
  cbn [c_flavour c_density c_primary c_secondary] in *. destruct f; cbn [first_of]; unfold read_moduli, read_velocities, optional; fields;
    rewrite !nd_opt_read by assumption; reflexivity.
Qed.

Section Reading.
Context {X : Type} (st : strings) (w : X -> value) (g : X -> nd).
Notation good := (Forall (fun x => np_array st (w x) = Ok (g x))).
Notation o := (option_map g).
Lemma opt_read : forall x, good (opt x) -> nullable (np_array st) (or_null w x) = Ok (o x).
Proof.
  intros x H. apply nullable_read. intros a ->. inversion H as [|? ? E ?]; subst. split; [|exact E]. intros N. rewrite N in E. discriminate.
Qed.
Lemma good_flat' : forall {A} (v : A -> list X) l, good (flat_map v l) -> Forall (fun a => good (v a)) l.
Proof.
  intros A v l. induction l as [|a l IH]; cbn [flat_map]; intros H; constructor; apply Forall_app in H; [apply H|apply IH, H].
Qed.
Ltac vals := repeat match goal with
  | H : good (_ :: _) |- _ => let A := fresh in let B := fresh in apply Forall_cons_iff in H; destruct H as [A B]
  | H : good (_ ++ _) |- _ => let A := fresh in let B := fresh in apply Forall_app in H; destruct H as [A B]
  end.
Ltac go := fields; repeat match goal with
  | H : np_array st (w ?x) = Ok _ |- context [np_array st (w ?x)] => rewrite H
  | |- context [nullable (np_array st) (or_null w ?x)] => rewrite (opt_read x) by assumption
  end; cbn [bind].

Lemma arbitrary_read : forall a, two_properties a -> good (vals_arbitrary a) ->
  read_arbitrary st (write_arbitrary w a) = Ok (map_arbitrary g a).
Proof.
  intros [d b s vs vp] [T1 T2] H. unfold vals_arbitrary in H. cbn [a_density a_bulk a_shear a_vs a_vp] in *. vals.
  unfold read_arbitrary, write_arbitrary, optional. cbn [a_density a_bulk a_shear a_vs a_vp]. go.
  unfold map_arbitrary. cbn [a_density a_bulk a_shear a_vs a_vp].
  destruct s, vs, b, vp; cbn [option_map]; try reflexivity; exfalso; destruct T1, T2; congruence.
Qed.
Lemma material_read : forall m, of_material m -> good (vals_material m) ->
  read_material st (write_material w m) = Ok (map_material g m).
Proof.
  intros m T H. unfold read_material. destruct m; cbn [write_material map_material of_material vals_material] in *; vals.
  - cbn [first_of]. unfold reads. rewrite arbitrary_read by assumption. reflexivity.
  - cbn [first_of]. unfold reads, read_arbitrary, read_gas. go. reflexivity.
  - cbn [first_of]. unfold reads, read_arbitrary, read_gas, read_oil. go. reflexivity.
  - cbn [first_of]. unfold reads, read_arbitrary, read_gas, read_oil, read_brine. go. reflexivity.
  - cbn [first_of]. unfold reads, read_arbitrary, read_gas, read_oil, read_brine, read_condensate. go. reflexivity.
  - cbn [first_of]. unfold reads, read_arbitrary, read_gas, read_oil, read_brine, read_condensate, read_carbon_dioxide. go. reflexivity.
Qed.
Lemma provider_read : forall p, read_provider (write_provider p) = Ok p.
Proof. intros []; reflexivity. Qed.
Lemma constituent_read : forall c, of_material (k_material c) -> good (vals_constituent c) ->
  read_constituent st (write_constituent w c) = Ok (map_constituent g c).
Proof.
  intros [m x p] T H. unfold vals_constituent in H. cbn [k_material k_fraction k_fluid_model] in *. vals.
  unfold read_constituent, write_constituent, optional. cbn [k_material k_fraction k_fluid_model]. fields. rewrite material_read by assumption. go.
  rewrite (nullable_read read_provider write_provider (fun x => x)); [destruct p; reflexivity|].
  intros a _. split; [discriminate|apply provider_read].
Qed.
Lemma constituents_read : forall cs, of_constituents cs -> good (flat_map vals_constituent cs) ->
  nonempty_list_of (read_constituent st) (VList (map (write_constituent w) cs)) = Ok (map (map_constituent g) cs).
Proof.
  intros cs [N T] H. apply nonempty_read; [exact N|]. apply good_flat' in H. rewrite Forall_forall in *.
  intros c Hc. apply constituent_read; [apply T, Hc|apply H, Hc].
Qed.
Lemma minerals_read : forall cs, of_constituents cs -> good (flat_map vals_constituent cs) ->
  read_minerals st (write_minerals w cs) = Ok (map (map_constituent g) cs).
Proof. intros cs T H. unfold read_minerals, write_minerals. fields. apply constituents_read; assumption. Qed.
Lemma fluids_read : forall f, of_fluids f -> good (fc_temperature f :: flat_map vals_constituent (fc_constituents f)) ->
  read_fluids_section st (write_fluids w f) = Ok (map_fluids g (fun x => x) f).
Proof.
  intros [t cs m b gs p] [T1 [[y T2] T3]] H. cbn [fc_temperature fc_constituents fc_brie_constant fc_brie_gases] in *. vals. subst b.
  unfold read_fluids_section, write_fluids, map_fluids, optional.
  cbn [fc_temperature fc_constituents fc_mix_method fc_brie_constant fc_brie_gases fc_fluid_model]. go.
  rewrite constituents_read by assumption. cbn [bind write_nd read_float cell].
  replace (read_mix_method (write_mix_method m)) with (Ok m) by (destruct m; reflexivity). cbn [bind].
  rewrite (nullable_read (list_of (read_int st)) (fun l => VList (map write_nd l)) (map (fun x => x))).
  - cbn [bind]. rewrite provider_read. reflexivity.
  - intros l ->. split; [discriminate|]. apply list_read. eapply Forall_impl; [|exact T3]. intros x [z ->]. reflexivity.
Qed.
Lemma friable_read : forall f, good (vals_friable f) -> read_friable st (write_friable w f) = Ok (map_friable g f).
Proof.
  intros [c s n] H. unfold vals_friable in H. cbn [fr_critical fr_shear_reduction fr_coordination] in H. vals.
  unfold read_friable, write_friable, optional. cbn [fr_critical fr_shear_reduction fr_coordination]. go. reflexivity.
Qed.
Lemma patchy_read : forall p, of_patchy p -> good (vals_patchy p) -> read_patchy st (write_patchy w p) = Ok (map_patchy g p).
Proof.
  intros [ce cr cf lp uf n s] T H. unfold vals_patchy, of_patchy in *.
  cbn [pc_cement pc_critical pc_cement_fraction pc_lower_pressure pc_upper_fraction pc_coordination pc_shear_reduction] in *. vals.
  unfold read_patchy, write_patchy, optional.
  cbn [pc_cement pc_critical pc_cement_fraction pc_lower_pressure pc_upper_fraction pc_coordination pc_shear_reduction]. fields.
  rewrite arbitrary_read by assumption. go. reflexivity.
Qed.
Lemma friable_not_patchy : forall f, read_patchy st (write_friable w f) = Err ValueError.
Proof. intros f. reflexivity. Qed.
Lemma coefficients_id : forall c, map_coefficients (fun x => x) c = c.
Proof. intros [f [d|] [p|] [s|]]; reflexivity. Qed.
Lemma ratios_refuse : forall c, read_ratios st (write_coefficients c) = Err ValueError.
Proof. intros [[] d p s]; reflexivity. Qed.
Lemma dependency_read : forall m, of_dependency m -> good (vals_dependency m) ->
  read_dependency st (write_dependency w m) = Ok (map_dependency g (fun x => x) m).
Proof.
  intros m T H. unfold read_dependency. destruct m as [p|f|d b r|c|c|c]; cbn [write_dependency map_dependency of_dependency vals_dependency] in *.
  - cbn [first_of]. unfold reads. rewrite patchy_read by assumption. reflexivity.
  - cbn [first_of]. unfold reads. rewrite friable_not_patchy, friable_read by assumption. reflexivity.
  - destruct T as [T1 [T2 T3]]. cbn [first_of]. unfold reads, read_patchy, read_friable, read_powerfit, read_ratios, optional. fields.
    rewrite !nd_opt_read by assumption. cbn [bind]. destruct d, b, r; reflexivity.
  - cbn [first_of]. unfold reads, read_patchy, read_friable, read_powerfit, read_fit. fields. rewrite ratios_refuse, coefficients_read by assumption.
    cbn [bind rmap]. rewrite coefficients_id. reflexivity.
  - cbn [first_of]. unfold reads, read_patchy, read_friable, read_powerfit, read_fit. fields. rewrite ratios_refuse, coefficients_read by assumption.
    cbn [bind rmap]. rewrite coefficients_id. reflexivity.
  - cbn [first_of]. unfold reads, read_patchy, read_friable, read_powerfit, read_fit. fields. rewrite ratios_refuse, coefficients_read by assumption.
    cbn [bind rmap]. rewrite coefficients_id. reflexivity.
Qed.
Lemma sandstone_read : forall m, of_sandstone m -> good (vals_sandstone m) ->
  read_sandstone st (write_sandstone w m) = Ok (map_sandstone g (fun x => x) m).
Proof.
  intros m T H. unfold read_sandstone. destruct m as [p|f|c]; cbn [write_sandstone map_sandstone of_sandstone vals_sandstone] in *.
  - cbn [first_of]. unfold reads. rewrite patchy_read by assumption. reflexivity.
  - cbn [first_of]. unfold reads. rewrite friable_not_patchy, friable_read by assumption. reflexivity.
  - cbn [first_of]. unfold reads, read_patchy, read_friable, read_polyfit2d, optional. fields.
    rewrite (nullable_read (read_coefficients st) write_coefficients (fun c => c)).
    + destruct c as [c|]; cbn [bind option_map]; rewrite ?coefficients_id; reflexivity.
    + intros a ->. split; [discriminate|apply coefficients_read, T].
Qed.
Lemma adjustment_read : forall a, of_adjustment a -> good (vals_adjustment a) ->
  first_of [read_depth_trend st; read_pressure_dependency st] (write_adjustment w a) = Ok (map_adjustment g (fun x => x) a).
Proof.
  intros [d c r m|m] T H; cbn [write_adjustment map_adjustment of_adjustment vals_adjustment] in *.
  - vals. cbn [first_of]. unfold read_depth_trend, optional. fields. rewrite coefficients_read by assumption. go.
    rewrite coefficients_id. reflexivity.
  - cbn [first_of]. unfold read_depth_trend, read_pressure_dependency. fields. rewrite dependency_read by assumption. reflexivity.
Qed.

(** The other of fluid and rock pressure for the one that is missing. *)
Definition fill_pressure {Y} (p : pressure_cfg Y) : pressure_cfg Y :=
  mkPressureCfg (pr_overburden p) (pr_reference p) (if_none (pr_fluid p) (pr_rock p)) (pr_max_effective p)
    (if_none (pr_rock p) (pr_fluid p)).
Definition fill_config {Y} (c : config Y) : config Y :=
  mkConfig (cf_minerals c) (cf_fluids c) (cf_dry_rock c) (fill_pressure (cf_pressure c)).

Lemma config_read : forall c t, writable c -> good (vals_config c) ->
  read_config st (VDict (write_config w c ++ [("data"%string, t)])) = Ok (map_config g (fun x => x) (fill_config c)).
Proof.
  intros [ms fl [md po ad] [ov re pf mx ro]] t [T1 [T2 [T3 T4]]] H. unfold vals_config in H.
  cbn [cf_minerals cf_fluids cf_dry_rock cf_pressure dc_model dc_porosity dc_adjustments pr_overburden pr_reference pr_fluid pr_max_effective pr_rock] in *.
  apply Forall_app in H. destruct H as [H1 H]. apply Forall_app in H. destruct H as [H2 H]. vals.
  unfold read_config, write_config. cbn [cf_minerals cf_fluids cf_dry_rock cf_pressure List.app]. fields.
  rewrite minerals_read by assumption. cbn [bind]. rewrite fluids_read by (try assumption; constructor; assumption). cbn [bind].
  unfold read_dry_rock, write_dry_rock. cbn [dc_model dc_porosity dc_adjustments]. fields. rewrite sandstone_read by assumption. go.
  rewrite (list_read _ (write_adjustment w) (map_adjustment g (fun x => x))).
  - cbn [bind]. unfold read_pressure, write_pressure, optional.
    cbn [pr_overburden pr_reference pr_fluid pr_max_effective pr_rock]. go. 
    unfold fill_config, fill_pressure, map_config, map_dry_rock, map_pressure.
    cbn [cf_minerals cf_fluids cf_dry_rock cf_pressure dc_model dc_porosity dc_adjustments pr_overburden pr_reference pr_fluid pr_max_effective pr_rock].
    destruct pf, ro; reflexivity.
  - match goal with H : good (flat_map vals_adjustment _) |- _ => apply good_flat' in H; rename H into F end.
    rewrite Forall_forall in *. intros a Ha. apply adjustment_read; [apply T4, Ha|apply F, Ha].
Qed.
End Reading.
