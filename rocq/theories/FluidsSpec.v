(** Vocabulary of the properties of fluid mixtures. *)
From Coq Require Import String.
From Verif Require Import Base MaterialModel BatzleWangModel FluidsModel.
Open Scope R_scope.

(** What a constituent is worth at a temperature (Celsius) and a pressure
    (Pa) under a fluid model. *)
Inductive worth (co2 : equation_of_state) : provider -> fluid_type -> R -> R -> material -> Prop :=
  | worth_arbitrary : forall pr m t p, worth co2 pr (FArbitrary m) t p m
  | worth_oil : forall r rg g t p m, oil t p r rg g = Ok m -> worth co2 BatzleWang (FOil r rg g) t p m
  | worth_gas : forall g t p m, gas t p g = Ok m -> worth co2 BatzleWang (FGas g) t p m
  | worth_brine : forall s t p m, brine t p s = Ok m -> worth co2 BatzleWang (FBrine s) t p m
  | worth_carbon_dioxide : forall i t p m,
      co2 (t + 27315 / 100) (p / 10 ^ 6) i = Ok m -> worth co2 SpanWagner (FCarbonDioxide i) t p m.

(** The fluid model in force for a constituent. *)
Definition model_of (section : provider) (c : constituent) : provider :=
  match c_fluid_model c with Some p => p | None => section end.

Definition is_carbon_dioxide (f : fluid_type) : bool :=
  match f with FCarbonDioxide _ => true | _ => false end.

(** Gases, as opposed to liquids, for Brie's mixing law. *)
Definition is_gas (f : fluid_type) : bool :=
  match f with FGas _ | FCarbonDioxide _ => true | _ => false end.

(** Number of carbon dioxide constituents handled by Span-Wagner. *)
Fixpoint carbon_dioxides (section : provider) (cs : list constituent) : nat :=
  match cs with
  | [] => 0
  | c :: cs' =>
      (match c_material c, model_of section c with FCarbonDioxide _, SpanWagner => 1 | _, _ => 0 end
       + carbon_dioxides section cs')%nat
  end.

(** An equation of state that answers everywhere with a usable fluid. *)
Definition total_eos (co2 : equation_of_state) : Prop :=
  forall t p i, exists m, co2 t p i = Ok m /\ 0 < dens m /\ 0 < bulk m.

(** Elements of [l] whose position is (not) listed. *)
Fixpoint at_positions {A} (keep : bool) (idx : list Z) (from : Z) (l : list A) : list A :=
  match l with
  | [] => []
  | x :: l' =>
      if Bool.eqb (existsb (Z.eqb from) idx) keep
      then x :: at_positions keep idx (from + 1) l'
      else at_positions keep idx (from + 1) l'
  end.

(** Constituents for which a fluid model has no equations. *)
Definition unsupported_by (pr : provider) (f : fluid_type) : Prop :=
  match f, pr with
  | FArbitrary _, _ => False
  | FCondensate _ _ _, _ => True
  | FCarbonDioxide _, BatzleWang => True
  | FOil _ _ _, SpanWagner | FGas _, SpanWagner | FBrine _, SpanWagner => True
  | _, _ => False
  end.

(** Names a configuration may use for a fluid model. *)
Definition name_ok (n : string) : Prop :=
  n = "default"%string \/ n = "batzle_wang"%string \/ n = "span_wagner"%string.

(** A constituent that is acceptable on its own. *)
Definition raw_ok (c : raw_constituent) : Prop :=
  match rc_fraction c with None => True | Some x => - (1 / 10 ^ 5) <= x <= 1 + 1 / 10 ^ 5 end /\
  match rc_fluid_model c with None => True | Some n => name_ok n end.
