(** The published formulas of the bounds and sandstone models (Mavko, Mukerji
    and Dvorkin, The Rock Physics Handbook). *)
From Verif Require Import Base MaterialModel.
Open Scope R_scope.

(** [m] is the Hashin-Shtrikman-Walpole mixture of [m1] (share [f]) and [m2] in a
    comparison medium with moduli [km] and [mum]:
    1 / (K + 4/3 mum) = f / (K1 + 4/3 mum) + (1 - f) / (K2 + 4/3 mum), and the same
    for the shear modulus with z = mum / 6 (9 km + 8 mum) / (km + 2 mum). *)
Definition walpole_mixture (km mum f : R) (m1 m2 m : material) : Prop :=
  1 / (bulk m + 4 / 3 * mum) = f / (bulk m1 + 4 / 3 * mum) + (1 - f) / (bulk m2 + 4 / 3 * mum) /\
  (let z := mum / 6 * ((9 * km + 8 * mum) / (km + 2 * mum)) in
   1 / (shear m + z) = f / (shear m1 + z) + (1 - f) / (shear m2 + z)) /\
  dens m = f * dens m1 + (1 - f) * dens m2.

(** The lower bound: the comparison medium has the smaller of both moduli. *)
Definition lower_mixture (f : R) (m1 m2 m : material) : Prop :=
  walpole_mixture (Rmin (bulk m1) (bulk m2)) (Rmin (shear m1) (shear m2)) f m1 m2 m.
Definition upper_mixture (f : R) (m1 m2 m : material) : Prop :=
  walpole_mixture (Rmax (bulk m1) (bulk m2)) (Rmax (shear m1) (shear m2)) f m1 m2 m.

(** The share of the cemented bound in patchy cement. *)
Definition patchy_share (constant low up w : R) : Prop :=
  (up = low -> w = 1) /\
  (up <> low -> (constant - low) / (up - low) <= 0 -> w = 0) /\
  (up <> low -> 1 <= (constant - low) / (up - low) -> w = 1) /\
  (up <> low -> 0 <= (constant - low) / (up - low) <= 1 -> w * (up - low) = constant - low).

(** Poisson's ratio. *)
Definition poisson (m : material) : R := (3 * bulk m - 2 * shear m) / (2 * (3 * bulk m + shear m)).

(** Stiffness of a random pack of spheres after Hertz and Mindlin, as the published
    cubes: K^3 = n^2 (1-phi)^2 G^2 P / (18 pi^2 (1-v)^2) and
    G' = (2 - v + 3 f (1 - v)) / (5 (2 - v)) (3 n^2 (1-phi)^2 G^2 P / (2 pi^2 (1-v)^2))^(1/3)
    with f the share of the contacts that do not slip ((5 - 4 v) / (5 (2 - v)) for f = 1). *)
Definition hertz_mindlin_pack (mineral : material) (phi p f n : R) (g : material) : Prop :=
  let v := poisson mineral in
  bulk g ^ 3 = n ^ 2 * (1 - phi) ^ 2 * shear mineral ^ 2 * p / (18 * PI ^ 2 * (1 - v) ^ 2) /\
  (5 * (2 - v) * shear g) ^ 3 =
    (2 - v + 3 * f * (1 - v)) ^ 3 * (3 * n ^ 2 * (1 - phi) ^ 2 * shear mineral ^ 2 * p / (2 * PI ^ 2 * (1 - v) ^ 2)) /\
  dens g = (1 - phi) * dens mineral.

(** The statistical approximation of Dvorkin and Nur of the stiffness of cemented
    contacts: A a^2 + B a + C with [a] the radius of the cement layer over that of
    the grain. *)
Definition dvorkin_nur_normal (cement grain : material) (a : R) : R :=
  let v := poisson grain in
  let vc := poisson cement in
  let x := 2 * shear cement / (PI * shear grain) * ((1 - v) * (1 - vc) / (1 - 2 * vc)) in
  - (24153 / 10 ^ 6) * Rpower x (- (13646 / 10 ^ 4)) * a ^ 2 +
  20405 / 10 ^ 5 * Rpower x (- (89008 / 10 ^ 5)) * a +
  24649 / 10 ^ 8 * Rpower x (- (19864 / 10 ^ 4)).
Definition dvorkin_nur_shear (cement grain : material) (a : R) : R :=
  let v := poisson grain in
  let x := shear cement / (PI * shear grain) in
  - (226 * v ^ 2 + 207 * v + 230) / 10 ^ 4 * Rpower x ((790 * v ^ 2 + 1754 * v - 13420) / 10 ^ 4) * a ^ 2 +
  (573 * v ^ 2 + 937 * v + 2020) / 10 ^ 4 * Rpower x ((274 * v ^ 2 + 529 * v - 8765) / 10 ^ 4) * a +
  (9654 * v ^ 2 + 4945 * v + 3100) / 10 ^ 7 * Rpower x ((1867 * v ^ 2 + 40110 * v - 181860) / 10 ^ 5).

(** The radius of cement spread evenly over the surface of the grains:
    a^2 = 2 (phi0 - phi) / (3 (1 - phi0)), at most 1. *)
Definition cement_layer (phi phi0 a : R) : Prop :=
  let q := 2 * (phi0 - phi) / (3 * (1 - phi0)) in
  0 <= a /\ (q <= 1 -> a ^ 2 = q) /\ (1 <= q -> a = 1).

(** The contact cement model. *)
Definition contact_cement_pack (cement grain : material) (phi0 f n a : R) (c : material) : Prop :=
  bulk c = n * (1 - phi0) / 6 * (bulk cement + 4 / 3 * shear cement) * dvorkin_nur_normal cement grain a /\
  shear c = 3 / 5 * bulk c + f * (3 * n * (1 - phi0) / 20 * shear cement * dvorkin_nur_shear cement grain a).

(** Friable sand ("modified lower bound"): between the mineral and the pack of its
    grains at critical porosity [c], with share phi / c of the pack. *)
Definition friable_mixture (mineral : material) (phi c p n f : R) (s : material) : Prop :=
  exists g, hertz_mindlin_pack mineral c p f n g /\ lower_mixture (1 - phi / c) mineral g s.

(** Contact cemented sand with dry density as the code has it. *)
Definition cemented_sand (cement sand : material) (phi phi0 f n : R) (c : material) : Prop :=
  exists a, cement_layer phi phi0 a /\ contact_cement_pack cement sand phi0 f n a c /\
    dens c = (1 - phi) * (a * dens cement + (1 - a) * dens sand).

(** Constant cement: between the dense mixture of cement and sand (cement filling
    the porosity lost by cementation) and the contact cemented sand at porosity
    [c], with share phi / c of the latter. *)
Definition constant_mixture (sand cement : material) (phi c phi0 n f : R) (r : material) : Prop :=
  exists d cc, lower_mixture (phi0 - c) cement sand d /\ cemented_sand cement sand c phi0 f n cc /\
    lower_mixture (1 - phi / c) d cc r.

(** Patchy cement: friable and cemented rock of porosity [phi] blended so that, at
    the pressure of the lower bound, the blend is the rock whose contact cement
    porosity is [c]. *)
Definition patchy_mixture (sand cement : material) (phi c u p lp g f nf nc : R) (r : material) : Prop :=
  exists d fr lo up ct cst wk wm,
    lower_mixture (g - u) cement sand d /\
    friable_mixture d phi g p nf f fr /\ friable_mixture d phi g lp nf f lo /\
    constant_mixture sand cement phi u g nc f up /\
    cemented_sand cement sand c g f nc ct /\ lower_mixture (1 - phi / c) d ct cst /\
    patchy_share (bulk cst) (bulk lo) (bulk up) wk /\ patchy_share (shear cst) (shear lo) (shear up) wm /\
    bulk r = wk * bulk up + (1 - wk) * bulk fr /\ shear r = wm * shear up + (1 - wm) * shear fr /\
    dens r = (1 - phi - (g - c)) * dens sand + (g - c) * dens cement.
