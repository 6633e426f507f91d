(** Vocabulary of the properties about rounding. *)
From Coq Require Import Reals List ZArith.
From Verif Require Import Base MaterialModel.
Import ListNotations.
Open Scope R_scope.

(** The finite numbers of IEEE double precision. *)
Definition double (x : R) : Prop :=
  exists m e : Z, (Z.abs m < 2 ^ 53)%Z /\ (-1074 <= e <= 971)%Z /\ x = IZR m * powerRZ 2 e.

(** Not negative, and far from the ends of the range of doubles: zero, or
    between 2^-100 (about 8e-31) and 2^100 (about 1e30). *)
Definition ordinary (x : R) : Prop := x = 0 \/ / 2 ^ 100 <= x <= 2 ^ 100.

(** [y] is [x] up to a relative error of [e]. *)
Definition within (e x y : R) : Prop := Rabs (y - x) <= e * Rabs x.

(** A square root that is off by less than one unit in the last place, as are
    NumPy's square root and pow of the C libraries in use. *)
Definition good_root (root : R -> R) : Prop :=
  forall x, double x -> 0 <= x -> within (/ 2 ^ 52) (sqrt x) (root x).
