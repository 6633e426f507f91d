(** Vocabulary of the properties about sand in double precision. *)
From Coq Require Import Reals.
From Verif Require Import Base FloatSpec.
Open Scope R_scope.

(** A power that is off by less than one unit in the last place, as are those of
    the C libraries in use. *)
Definition good_power (pw : R -> R -> R) : Prop :=
  forall x y, double x -> double y -> 0 < x -> / 2 ^ 1000 <= Rpower x y <= 2 ^ 1000 ->
    within (/ 2 ^ 52) (Rpower x y) (pw x y).
