(** Equations of Batzle and Wang (1992), "Seismic properties of pore fluids",
    written as in the paper: temperatures [t] in degrees Celsius ([ta] in
    kelvin), pressures [p] in MPa, densities in g/cc, salinity [s] as weight
    fraction, gas-oil ratio [rg] in l/l, gas gravity [g].  Total functions on
    the reals, independent of the model. *)
From Verif Require Import Base.

(** Equations 9a. *)
Definition bw_tpr (ta g : R) : R := ta / (9472 / 100 + 17075 / 100 * g).
Definition bw_ppr (p g : R) : R := p / (4892 / 1000 - 4048 / 10000 * g).

(** Equations 10b and 10c. *)
Definition bw_e (tpr ppr : R) : R :=
  109 / 1000 * (385 / 100 - tpr) ^ 2 *
  exp (- ((45 / 100 + 8 * (56 / 100 - 1 / tpr) ^ 2) * Rpower ppr (12 / 10) / tpr)).
Definition bw_z (tpr ppr : R) : R :=
  (3 / 100 + 527 / 100000 * (35 / 10 - tpr) ^ 3) * ppr
  + (642 / 1000 * tpr - 7 / 1000 * tpr ^ 4 - 52 / 100) + bw_e tpr ppr.

(** Equation 11b. *)
Definition bw_gamma (ppr : R) : R :=
  85 / 100 + 56 / 10 / (ppr + 2) + 271 / 10 / (ppr + 35 / 10) ^ 2
  - 87 / 10 * exp (- (65 / 100 * (ppr + 1))).

(** Equations 18, 19 and 20a: dead oil. *)
Definition bw_dead_density (t p r : R) : R :=
  (r + (277 / 100000 * p - 171 / 10 ^ 9 * p ^ 3) * (r - 115 / 100) ^ 2 + 349 / 10 ^ 6 * p)
  / (972 / 1000 + 381 / 10 ^ 6 * Rpower (t + 1778 / 100) (1175 / 1000)).
Definition bw_oil_velocity (t p r : R) : R :=
  2096 * sqrt (r / (26 / 10 - r)) - 37 / 10 * t + 464 / 100 * p
  + 115 / 10000 * (412 / 100 * sqrt (108 / 100 / r - 1) - 1) * t * p.

(** Equations 22, 23 and 24: live oil. *)
Definition bw_b0 (t r rg g : R) : R :=
  972 / 1000 + 38 / 100000 * Rpower (24 / 10 * rg * sqrt (g / r) + t + 178 / 10) (1175 / 1000).
Definition bw_pseudo_density (t r rg g : R) : R := r / bw_b0 t r rg g / (1 + 1 / 1000 * rg).
Definition bw_live_density (t r rg g : R) : R := (r + 12 / 10000 * g * rg) / bw_b0 t r rg g.

(** Equations 27a, 27b, 28 (with table 1) and 29: water and brine. *)
Definition bw_water_density (t p : R) : R :=
  1 + 1 / 10 ^ 6 * (-80 * t - 33 / 10 * t ^ 2 + 175 / 10 ^ 5 * t ^ 3 + 489 * p - 2 * t * p
                    + 16 / 1000 * t ^ 2 * p - 13 / 10 ^ 6 * t ^ 3 * p - 333 / 1000 * p ^ 2
                    - 2 / 1000 * t * p ^ 2).
Definition bw_brine_density (t p s : R) : R :=
  bw_water_density t p
  + s * (668 / 1000 + 44 / 100 * s
         + 1 / 10 ^ 6 * (300 * p - 2400 * p * s
                         + t * (80 + 3 * t - 3300 * s - 13 * p + 47 * p * s))).
Definition bw_water_velocity (t p : R) : R :=
  140285 / 100 + 1524 / 1000 * p + 3437 / 10 ^ 6 * p ^ 2 - 1197 / 10 ^ 8 * p ^ 3
  + (4871 / 1000 - 111 / 10 ^ 4 * p + 1739 / 10 ^ 7 * p ^ 2 - 1628 / 10 ^ 9 * p ^ 3) * t
  + (- (4783 / 10 ^ 5) + 2747 / 10 ^ 7 * p - 2135 / 10 ^ 9 * p ^ 2 + 1237 / 10 ^ 11 * p ^ 3) * t ^ 2
  + (1487 / 10 ^ 7 - 6503 / 10 ^ 10 * p - 1455 / 10 ^ 11 * p ^ 2 + 1327 / 10 ^ 13 * p ^ 3) * t ^ 3
  + (- (2197 / 10 ^ 10) + 7987 / 10 ^ 13 * p + 523 / 10 ^ 13 * p ^ 2 - 4614 / 10 ^ 16 * p ^ 3) * t ^ 4.
Definition bw_brine_velocity (t p s : R) : R :=
  bw_water_velocity t p
  + s * (1170 - 96 / 10 * t + 55 / 1000 * t ^ 2 - 85 / 10 ^ 6 * t ^ 3 + 26 / 10 * p
         - 29 / 10 ^ 4 * t * p - 476 / 10 ^ 4 * p ^ 2)
  + s * sqrt s * (780 - 10 * p + 16 / 100 * p ^ 2) - 820 * s ^ 2.

(** Oil, gas and brine at reservoir conditions: the ranges in which the
    equations are meant to be used. *)
Definition oil_conditions (t p rho : R) : Prop := - (1778 / 100) < t /\ 0 < rho <= 1080.
