(** Vocabulary for infinities. *)
From Coq Require Import String List.
From Verif Require Import Base MaterialModel ConfigModel InfModel.
Import ListNotations.
Open Scope R_scope.

(** [a] is the real number [x] (either zero for 0). *)
Definition reads (x : R) (a : xnum) : Prop := a = XFin x \/ (a = XNegZero /\ x = 0).
Definition reads_material (m : material) (v : xmaterial) : Prop :=
  reads (bulk m) (x_bulk v) /\ reads (shear m) (x_shear v) /\ reads (dens m) (x_dens v) /\
  reads (vp m) (x_vp v) /\ reads (vs m) (x_vs v).
(** Two results agree where the one on real numbers does not end with [NonFinite]. *)
Definition agrees {A B} (P : A -> B -> Prop) (r : res A) (s : res B) : Prop :=
  (forall a, r = Ok a -> exists b, s = Ok b /\ P a b) /\ (forall e, r = Err e -> e <> NonFinite -> s = Err e).

(** A real number or an infinity below zero. *)
Definition below_zero (a : xnum) : Prop := match a with XFin x => x < 0 | XInf s => s = true | _ => False end.
Definition finite (a : xnum) : Prop := exists x, reads x a.
Definition is_zero (a : xnum) : Prop := reads 0 a.
(** The material of real numbers as one of these. *)
Definition x_of (m : material) : xmaterial :=
  mkX (XFin (bulk m)) (XFin (shear m)) (XFin (dens m)) (XFin (vp m)) (XFin (vs m)).

(** Models of pressure dependency that are fits. *)
Definition is_fit (md : dependency_model) : Prop := match md with Friable _ | Patchy _ => False | _ => True end.
(** [a0 + a1 log10 p] for density, and so on; [d0 p ^ d1] for density, and so on. *)
Definition log_fit (fl : flavour) (a0 a1 b0 b1 c0 c1 : R) : dependency_model :=
  Logfit (mkCoef fl (Some [a0; a1]) (Some [b0; b1]) (Some [c0; c1])).
Definition log10 (x : R) : R := ln x / ln 10.
Definition power_fit (d0 d1 b0 b1 v0 v1 : R) : dependency_model := Powerfit (Some [d0; d1]) (Some [b0; b1]) (Some [v0; v1]).
(** The dry rock calculated when the configuration does not give coefficients. *)
Definition default_rock : coefficients (list (list R)) :=
  mkCoef Moduli (Some [[0; 0]; [1; -1]]) (Some [[2900; -1300]]) (Some [[1700; -800]]).
