(** Vocabulary of the properties about rounding in the bounds. *)
From Coq Require Import Reals.
From Verif Require Import Base MaterialModel FloatSpec PublishedSpec.
Open Scope R_scope.

(** A reciprocal that is off by less than one unit in the last place, as is pow
    of the C libraries in use. *)
Definition good_inverse (inv : R -> R) : Prop :=
  forall x, double x -> / 2 ^ 1000 <= Rabs x -> Rabs x <= 2 ^ 1000 -> within (/ 2 ^ 52) (/ x) (inv x).

(** [x] and [y] differ at most by the factor [c]. *)
Definition contrast (c x y : R) : Prop := x <= c * y /\ y <= c * x.

(** Moduli and density are positive doubles far from the ends of the range. *)
Definition ordinary_material (m : material) : Prop :=
  double (bulk m) /\ double (shear m) /\ double (dens m) /\
  ordinary (bulk m) /\ ordinary (shear m) /\ ordinary (dens m) /\
  0 < bulk m /\ 0 < shear m /\ 0 < dens m.
