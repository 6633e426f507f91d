(** Vocabulary for the Span-Wagner equation of state. *)
From Coq Require Import List Reals Lra.
From Verif Require Import Base SpanWagnerModel.
Import ListNotations.
Open Scope R_scope.

(** The number returned; only used where success is stated as well. *)
Definition value (r : res R) : R := match r with Ok v => v | Err _ => 0 end.
Definition number (r : res (option R)) : R := match r with Ok (Some v) => v | _ => 0 end.

(** [f] has derivative [g] in its only argument at [x]. *)
Definition has_derivative (f : R -> R) (x l : R) : Prop := derivable_pt_lim f x l.

(** A strictly increasing list. *)
Fixpoint increasing (l : list R) : Prop :=
  match l with
  | a :: ((b :: _) as rest) => a < b /\ increasing rest
  | _ => True
  end.

(** Entry [i] of the grid is as close to [v] as any. *)
Definition closest (grid : list R) (v : R) (i : nat) : Prop :=
  exists a, nth_error grid i = Some a /\ forall j b, nth_error grid j = Some b -> Rabs (v - a) <= Rabs (v - b).
Definition within (grid : list R) (v : R) : Prop :=
  exists a b, In a grid /\ In b grid /\ a <= v <= b.

(** What is assumed of the root finder, for a bracket with [a < b]: a root
    inside, and ValueError for something that is not an interval. *)
Definition sound_root_finder (solve : root_finder) : Prop :=
  (forall f a b x, solve f a b = Ok x -> a <= x <= b /\ f x = Ok 0) /\
  (forall f a b, b <= a -> solve f a b = Err ValueError).

(** ** Published formulas (Span & Wagner 1996) *)

(** Table 31, terms 1 to 7: n, d, t. *)
Definition published_group1 : list (R * R * R) :=
  [(38856823203161 / 10 ^ 14, 1, 0);
   (2938547594274 / 10 ^ 12, 1, 75 / 10 ^ 2);
   (- (55867188534934 / 10 ^ 13), 1, 1);
   (- (76753199592477 / 10 ^ 14), 1, 2);
   (31729005580416 / 10 ^ 14, 2, 75 / 10 ^ 2);
   (54803315897767 / 10 ^ 14, 2, 2);
   (12279411220335 / 10 ^ 14, 3, 75 / 10 ^ 2)].
(** Terms 8 to 34: n, d, t, c. *)
Definition published_group2 : list (R * R * R * R) :=
  [(2165896154322 / 10 ^ 12, 1, 15 / 10 ^ 1, 1);
   (15841735109724 / 10 ^ 13, 2, 15 / 10 ^ 1, 1);
   (- (23132705405503 / 10 ^ 14), 4, 25 / 10 ^ 1, 1);
   (58116916431436 / 10 ^ 15, 5, 0, 1);
   (- (55369137205382 / 10 ^ 14), 5, 15 / 10 ^ 1, 1);
   (48946615909422 / 10 ^ 14, 5, 2, 1);
   (- (24275739843501 / 10 ^ 15), 6, 0, 1);
   (62494790501678 / 10 ^ 15, 6, 1, 1);
   (- (12175860225246 / 10 ^ 14), 6, 2, 1);
   (- (37055685270086 / 10 ^ 14), 1, 3, 2);
   (- (16775879700426 / 10 ^ 15), 1, 6, 2);
   (- (11960736637987 / 10 ^ 14), 4, 3, 2);
   (- (45619362508778 / 10 ^ 15), 4, 6, 2);
   (35612789270346 / 10 ^ 15, 4, 8, 2);
   (- (74427727132052 / 10 ^ 16), 7, 6, 2);
   (- (17395704902432 / 10 ^ 16), 8, 0, 2);
   (- (21810121289527 / 10 ^ 15), 2, 7, 3);
   (24332166559236 / 10 ^ 15, 3, 12, 3);
   (- (37440133423463 / 10 ^ 15), 3, 16, 3);
   (143387157568781 / 10 ^ 15, 5, 22, 4);
   (- (13491969083286 / 10 ^ 14), 5, 24, 4);
   (- (2315122505348 / 10 ^ 14), 6, 16, 4);
   (12363125492901 / 10 ^ 15, 7, 24, 4);
   (2105832197294 / 10 ^ 15, 8, 8, 4);
   (- (33958519026368 / 10 ^ 17), 10, 2, 4);
   (55993651771592 / 10 ^ 16, 4, 28, 5);
   (- (30335118055646 / 10 ^ 17), 8, 14, 6)].
(** Terms 35 to 39: n, d, t, alpha, beta, gamma, epsilon. *)
Definition published_group3 : list (R * R * R * R * R * R * R) :=
  [(- (2136548868832 / 10 ^ 10), 2, 1, 25, 325, 116 / 10 ^ 2, 1);
   (26641569149272 / 10 ^ 9, 2, 0, 25, 300, 119 / 10 ^ 2, 1);
   (- (24027212204557 / 10 ^ 9), 2, 1, 25, 300, 119 / 10 ^ 2, 1);
   (- (28341603423999 / 10 ^ 11), 3, 3, 15, 275, 125 / 10 ^ 2, 1);
   (21247284400179 / 10 ^ 11, 3, 3, 20, 275, 122 / 10 ^ 2, 1)].
(** Terms 40 to 42: n, a, b, beta, A, B, C, D. *)
Definition published_group4 : list (R * R * R * R * R * R * R * R) :=
  [(- (66642276540751 / 10 ^ 14), 35 / 10 ^ 1, 875 / 10 ^ 3, 3 / 10 ^ 1, 7 / 10 ^ 1, 3 / 10 ^ 1, 10, 275);
   (72608632349897 / 10 ^ 14, 35 / 10 ^ 1, 925 / 10 ^ 3, 3 / 10 ^ 1, 7 / 10 ^ 1, 3 / 10 ^ 1, 10, 275);
   (55068668612842 / 10 ^ 15, 3, 875 / 10 ^ 3, 3 / 10 ^ 1, 7 / 10 ^ 1, 1, 125 / 10 ^ 1, 275)].

(** Equation 6.5. *)
Definition published_residual (delta tau : R) : R :=
  rsum (map (fun '(n, d, t) => n * Rpower delta d * Rpower tau t) published_group1) +
  rsum (map (fun '(n, d, t, c) => n * Rpower delta d * Rpower tau t * exp (- Rpower delta c)) published_group2) +
  rsum (map (fun '(n, d, t, alpha, beta, gamma, epsilon) =>
    n * Rpower delta d * Rpower tau t * exp (- alpha * (delta - epsilon) ^ 2 - beta * (tau - gamma) ^ 2)) published_group3) +
  rsum (map (fun '(n, a, b, beta, A, B, C, D) =>
    let theta := (1 - tau) + A * Rpower ((delta - 1) ^ 2) (1 / (2 * beta)) in
    let distance := theta ^ 2 + B * Rpower ((delta - 1) ^ 2) a in
    n * Rpower distance b * delta * exp (- C * (delta - 1) ^ 2 - D * (tau - 1) ^ 2)) published_group4).

(** Equation 6.3. *)
Definition published_ideal (delta tau : R) : R :=
  ln delta + 837304456 / 10 ^ 8 - 370454304 / 10 ^ 8 * tau + 25 / 10 * ln tau
  + 199427042 / 10 ^ 8 * ln (1 - exp (- (315163 / 10 ^ 5) * tau))
  + 62105248 / 10 ^ 8 * ln (1 - exp (- (611190 / 10 ^ 5) * tau))
  + 41195293 / 10 ^ 8 * ln (1 - exp (- (677708 / 10 ^ 5) * tau))
  + 104028922 / 10 ^ 8 * ln (1 - exp (- (1132384 / 10 ^ 5) * tau))
  + 8327678 / 10 ^ 8 * ln (1 - exp (- (2708792 / 10 ^ 5) * tau)).

(** Critical temperature (K), density (kg/m3) and gas constant (J/(kg K)). *)
Definition critical_T : R := 3041282 / 10 ^ 4.
Definition critical_rho : R := 4676 / 10.
Definition triple_T : R := 216592 / 10 ^ 3.
Definition gas_constant : R := 1889241 / 10 ^ 4.

(** The specific Helmholtz energy R T phi, in terms of temperature and
    density, and the specific entropy s = R (tau phi_tau - phi). *)
Definition helmholtz (T rho : R) : R :=
  gas_constant * T * value (co2_helmholtz_energy (rho / critical_rho) (critical_T / T) 0 0).
Definition entropy (T rho : R) : R :=
  gas_constant * (critical_T / T * value (co2_helmholtz_energy (rho / critical_rho) (critical_T / T) 0 1)
                  - value (co2_helmholtz_energy (rho / critical_rho) (critical_T / T) 0 0)).

(** [f] tends to [l] when its argument goes to 0 from above. *)
Definition tends_to (f : R -> R) (l : R) : Prop :=
  forall eps, 0 < eps -> exists r, 0 < r /\ forall x, 0 < x < r -> Rabs (f x - l) < eps.
