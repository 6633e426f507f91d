(** Numbers with infinities as points of the extended real line (Coquelicot's
    [Rbar], whose partial operations give [None] where they are undefined). *)
From Coq Require Import Reals.
From Coquelicot Require Import Coquelicot.
From Verif Require Import Base InfModel InfSpec.
Open Scope R_scope.

Definition line (a : xnum) : option Rbar :=
  match a with
  | XFin x => Some (Finite x)
  | XNegZero => Some (Finite 0)
  | XInf s => Some (if s then m_infty else p_infty)
  | XNan => None
  end.
(** An operation on the line applied to such numbers; undefined with nan. *)
Definition on_line (f : Rbar -> Rbar -> option Rbar) (a b : xnum) : option Rbar :=
  match line a, line b with Some x, Some y => f x y | _, _ => None end.
Definition infinity (negative : bool) : Rbar := if negative then m_infty else p_infty.
(** The root, where it is real. *)
Definition root_of (x : Rbar) : Rbar := match x with Finite x => Finite (sqrt x) | i => i end.
