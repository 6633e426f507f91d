(** Vocabulary of the properties about fits in double precision. *)
From Coq Require Import Reals.
From Verif Require Import Base FloatSpec.
Open Scope R_scope.

(** Exponential, logarithm and power that are off by less than four units in the
    last place, as are those of NumPy and of the C libraries in use. *)
Definition good_exp (ex : R -> R) : Prop :=
  forall x, double x -> Rabs x <= 601 -> within (/ 2 ^ 50) (exp x) (ex x).
Definition good_log10 (lg : R -> R) : Prop :=
  forall x, double x -> 0 < x -> within (/ 2 ^ 50) (ln x / ln 10) (lg x).
Definition good_float_power (pw : R -> R -> R) : Prop :=
  forall x y, double x -> double y -> 0 < x -> / 2 ^ 1000 <= Rpower x y <= 2 ^ 1000 ->
    within (/ 2 ^ 50) (Rpower x y) (pw x y).
