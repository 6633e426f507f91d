(** C217: numbers with infinities are the extended real line, and nan stands for
    what is undefined there. *)
From Coq Require Import Reals ZArith Lra.
From Coquelicot Require Import Coquelicot.
From Verif Require Import Base InfModel InfSpec LineSpec LineProofs.
Open Scope R_scope.

(** C217: sums, differences, products, quotients by what is not zero. *)
Theorem C217_arithmetic : forall a b,
  line (a + b)%xnum = on_line Rbar_plus' a b /\
  line (a - b)%xnum = on_line (fun x y => Rbar_plus' x (Rbar_opp y)) a b /\
  line (a * b)%xnum = on_line Rbar_mult' a b /\
  (~ is_zero b -> line (a / b)%xnum = on_line (fun x y => Rbar_mult' x (Rbar_inv y)) a b) /\
  line (xabs a) = option_map Rbar_abs (line a).
Proof. intros a b. exact (conj (line_sum a b) (conj (line_sub a b) (conj (line_product a b) (conj (line_quotient a b) (line_abs a))))). Qed.
Print Assumptions C217_arithmetic.

(** C217: quotients by zero, as NumPy has them. *)
Theorem C217_by_zero : forall a b, is_zero b ->
  (a = XNan \/ is_zero a -> (a / b)%xnum = XNan) /\
  (a <> XNan -> ~ is_zero a -> (a / b)%xnum = XInf (xorb (xsign a) (xsign b))).
Proof. exact line_by_zero. Qed.
Print Assumptions C217_by_zero.

(** C217: the signs of products, quotients and of sums that are zero. *)
Theorem C217_signs : forall a b,
  ((a * b)%xnum <> XNan -> xsign (a * b)%xnum = xorb (xsign a) (xsign b)) /\
  ((a / b)%xnum <> XNan -> xsign (a / b)%xnum = xorb (xsign a) (xsign b)) /\
  (is_zero (a + b)%xnum -> (xsign (a + b)%xnum = true <-> a = XNegZero /\ b = XNegZero)).
Proof. intros a b. exact (conj (sign_product a b) (conj (sign_quotient a b) (sign_sum a b))). Qed.
Print Assumptions C217_signs.

(** C217: comparisons; the greater of two, which is nan if either is. *)
Theorem C217_order : forall a b,
  (xltb a b = true <-> exists x y, line a = Some x /\ line b = Some y /\ Rbar_lt x y) /\
  (xeqb a b = true <-> exists x, line a = Some x /\ line b = Some x) /\
  (a = XNan \/ b = XNan -> xmax a b = XNan) /\
  (a <> XNan -> b <> XNan -> (xmax a b = a \/ xmax a b = b) /\ xltb (xmax a b) a = false /\ xltb (xmax a b) b = false).
Proof. intros a b. exact (conj (line_less a b) (conj (line_equal a b) (line_max a b))). Qed.
Print Assumptions C217_order.

(** C217: the exponential function is continued by its limits. *)
Theorem C217_exp : forall a x, line a = Some x -> exists y, line (x_exp a) = Some y /\ is_lim exp x y.
Proof. exact line_exp. Qed.
Print Assumptions C217_exp.

(** C217: so is the logarithm, and undefined below zero. *)
Theorem C217_log : forall a,
  (forall x, 0 < x -> a = XFin x -> x_log10 a = XFin (log10 x)) /\
  (is_zero a -> x_log10 a = XInf true) /\ filterlim log10 (at_right 0) (Rbar_locally m_infty) /\
  (a = XInf false -> x_log10 a = XInf false) /\ is_lim log10 p_infty p_infty /\
  (below_zero a \/ a = XNan -> x_log10 a = XNan).
Proof.
  intros a. destruct (line_log a) as (A & B & C & D). destruct log_limits as [L L'].
  exact (conj A (conj B (conj L (conj C (conj L' D))))).
Qed.
Print Assumptions C217_log.

(** C217: roots, below zero too. *)
Theorem C217_root : forall kd a,
  (~ below_zero a -> exists r, x_root kd a = Ok r /\ line r = option_map root_of (line a)) /\
  (below_zero a -> x_root kd a = match kd, a with
     | Array, _ => Ok XNan
     | _, XInf _ => Ok (XInf false)
     | Scalar, _ => Ok XNan
     | Python, _ => Err NonFinite
     end).
Proof. exact line_root. Qed.
Print Assumptions C217_root.

(** C217: powers of what is not negative are continued by their limits. *)
Theorem C217_power : forall y,
  (forall x, 0 < x -> x_pow (XFin x) y = XFin (Rpower x y)) /\
  (forall a, x_pow a 0 = XFin 1) /\
  (y <> 0 ->
    x_pow XNan y = XNan /\
    x_pow (XFin 0) y = (if Rlt_dec 0 y then XFin 0 else XInf false) /\
    filterlim (fun x => Rpower x y) (at_right 0) (Rbar_locally (if Rlt_dec 0 y then Finite 0 else p_infty)) /\
    x_pow (XInf false) y = (if Rlt_dec 0 y then XInf false else XFin 0) /\
    is_lim (fun x => Rpower x y) p_infty (if Rlt_dec 0 y then p_infty else Finite 0)).
Proof.
  intros y. split; [intros x; apply pow_positive|]. split; [exact pow_zero_exponent|]. intros N.
  destruct (pow_ends y N) as [A B]. destruct (pow_limits y N) as [C D]. exact (conj (pow_nan y N) (conj A (conj C (conj B D)))).
Qed.
Print Assumptions C217_power.

(** C217: powers of negative numbers. *)
Theorem C217_power_negative :
  (forall a n, a <> XNan -> x_pow (xopp a) (IZR n) = if Z.odd n then xopp (x_pow a (IZR n)) else x_pow a (IZR n)) /\
  (forall a y, (forall n, y <> IZR n) ->
     x_pow a y = match a with
                 | XNegZero => x_pow (XFin 0) y
                 | XInf _ => x_pow (XInf false) y
                 | XFin x => if Rlt_dec x 0 then XNan else x_pow a y
                 | XNan => XNan
                 end).
Proof. exact (conj pow_negated pow_fraction). Qed.
Print Assumptions C217_power_negative.

(** C217: Python's powers raise where it has no such number. *)
Theorem C217_power_python : forall a y,
  (is_zero a -> y < 0 -> x_power Python a y = Err ZeroDivisionError) /\
  (forall x, a = XFin x -> x < 0 -> (forall n, y <> IZR n) -> x_power Python a y = Err NonFinite) /\
  (~ (is_zero a /\ y < 0) -> (forall x, a = XFin x -> 0 <= x \/ exists n, y = IZR n) -> x_power Python a y = Ok (x_pow a y)) /\
  x_power Scalar a y = Ok (x_pow a y) /\ x_power Array a y = Ok (x_pow a y).
Proof. exact power_python. Qed.
Print Assumptions C217_power_python.

Example C217_nonvacuous :
  line (XInf false + XInf true)%xnum = None /\ line (XInf false * XFin 2)%xnum = Some p_infty /\
  (XFin 1 / XNegZero)%xnum = XInf true /\ is_zero (XNegZero + XNegZero)%xnum /\ xsign (XNegZero + XNegZero)%xnum = true.
Proof.
  assert (Z : is_zero XNegZero) by (right; auto).
  repeat split.
  - cbn. destruct (Req_EM_T 2 0); [lra|]. destruct (Rlt_dec 2 0); [lra|reflexivity].
  - destruct (C217_by_zero (XFin 1) XNegZero Z) as [_ H]. rewrite H; [cbn; destruct (Rlt_dec 1 0); [lra|reflexivity]|discriminate|].
    intros [E|[E _]]; [injection E; lra|discriminate].
  - exact Z.
Qed.

(** C218: a polynomial at an infinite value or nan is nan, whatever its
    coefficients: numpy's evaluation multiplies every argument by zero. *)
Theorem C218_polynomials : forall x v c z, ~ finite x \/ ~ finite v -> x_fit_property x v (Some c) = Ok z -> z = XNan.
Proof. exact poly_not_finite. Qed.
Print Assumptions C218_polynomials.

(** C218: so a polynomial without dependence on a property is not indifferent to it. *)
Theorem C218_constant_refuted : exists c v z, 
  x_fit_property (XFin 1) v (Some c) = Ok z /\ x_fit_property (XFin 2) v (Some c) = Ok z /\ finite z /\
  x_fit_property (XInf false) v (Some c) = Ok XNan.
Proof.
  exists (cons (cons 3 nil) nil), (XFin 1), (XFin 3). cbn. unfold x_polyval2d. cbn. unfold signed.
  repeat match goal with |- context [Req_EM_T ?a ?b] => destruct (Req_EM_T a b); try lra; try (exfalso; congruence) end.
  repeat match goal with |- context [Rlt_dec ?a ?b] => destruct (Rlt_dec a b); try lra end. cbn.
  replace (3 + 0 + 0) with 3 by ring. repeat split. exists 3. left. reflexivity.
Qed.
Print Assumptions C218_constant_refuted.

Example C218_nonvacuous : exists z, ~ finite (XInf true) /\ x_fit_property (XFin 1) (XInf true) (Some (cons (cons 3 (cons 4 nil)) nil)) = Ok z.
Proof. eexists. split; [intros (x & [E|[E _]]); discriminate|]. reflexivity. Qed.
