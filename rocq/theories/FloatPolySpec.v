(** Vocabulary of the properties about polynomials in double precision. *)
From Coq Require Import Reals List.
From Verif Require Import Base.
Open Scope R_scope.

(** Zero, or of a size between 2^-40 (about 1e-12) and 2^40 (about 1e12). *)
Definition moderate (x : R) : Prop := x = 0 \/ / 2 ^ 40 <= Rabs x <= 2 ^ 40.
