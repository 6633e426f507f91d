(** Vocabulary of the properties about depth trends in double precision. *)
From Coq Require Import Reals List.
From Verif Require Import Base Spec FloatSpec.
Import ListNotations.
Open Scope R_scope.

(** A matrix of coefficients of ordinary size, with at most 20 rows and columns
    together. *)
Definition ordinary_matrix (cs : list (list R)) : Prop :=
  rectangular cs /\ Forall (Forall (fun c => ordinary (Rabs c))) cs /\ (length cs + length (hd [] cs) <= 20)%nat.

(** [z] is the sum of c_ij x^i y^j up to 2^-50 of the sum of the sizes of the terms
    for each row and column. *)
Definition fitted (x y : R) (cs : list (list R)) (z : R) : Prop :=
  Rabs (z - power_sum2 cs x y 0) <=
    INR (length cs + length (hd [] cs)) * / 2 ^ 50 * power_sum2 (map (map Rabs) cs) (Rabs x) (Rabs y) 0.
