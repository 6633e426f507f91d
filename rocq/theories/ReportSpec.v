(** Vocabulary for texts. *)
From Coq Require Import String.
From Verif Require Import Base.

(** [needle] occurs in [hay]. *)
Definition contains (needle hay : string) : Prop := exists a b, hay = (a ++ needle ++ b)%string.

(** A way of writing numbers that tells them apart and uses no comma. *)
Definition plain_numbers (show : R -> string) : Prop :=
  (forall x y, show x = show y -> x = y) /\ (forall x, ~ contains "," (show x)).
