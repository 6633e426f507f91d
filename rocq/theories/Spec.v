(** The small vocabulary used by property statements.  Nothing here refers to
    how the model computes; only to observable attributes of materials. *)
From Coq Require Import String List.
From Verif Require Import Base MaterialModel.
Open Scope R_scope.

(** Physically admissible: what a user may assume of any Material. *)
Definition admissible (m : material) : Prop :=
  0 <= dens m /\ 0 <= bulk m /\ 0 <= shear m /\ 0 <= vp m /\ 0 <= vs m /\
  sqrt (4 / 3) * vs m <= vp m.

(** [m] is the material with the given density and moduli: velocities are the
    usual ones of an isotropic medium. *)
Definition is_material (m : material) (k mu d : R) : Prop :=
  bulk m = k /\ shear m = mu /\ dens m = d /\
  0 <= vp m /\ vp m * vp m * d = k + 4 / 3 * mu /\
  0 <= vs m /\ vs m * vs m * d = mu.

(** A usable solid or fluid, as built from density and moduli. *)
Definition wf (m : material) : Prop :=
  0 < dens m /\ 0 <= bulk m /\ 0 <= shear m /\
  is_material m (bulk m) (shear m) (dens m).

(** A solid has rigidity. *)
Definition solid (m : material) : Prop := wf m /\ 0 < shear m.

Definition fluid (m : material) : Prop := wf m /\ shear m = 0.

(** [x] lies between [a] and [b], in whichever order. *)
Definition between (a x b : R) : Prop := Rmin a b <= x <= Rmax a b.

(** Reuss (harmonic) and Voigt (arithmetic) averages of two moduli. *)
Definition voigt (f x y : R) : R := f * x + (1 - f) * y.
Definition reuss (f x y : R) : R := 1 / (f / x + (1 - f) / y).

(** Weighted sum [sum w_i * x_i] of paired lists. *)
Fixpoint wsum (ws xs : list R) : R :=
  match ws, xs with
  | w :: ws', x :: xs' => w * x + wsum ws' xs'
  | _, _ => 0
  end.

(** Element-wise lower and upper limits of a list. *)
Definition all_ge (c : R) (l : list R) : Prop := Forall (fun x => c <= x) l.
Definition all_le (c : R) (l : list R) : Prop := Forall (fun x => x <= c) l.

(** A list of usable fluids: positive density, positive bulk modulus. *)
Definition usable (fluids : list material) : Prop :=
  Forall (fun f => fluid f /\ 0 < bulk f) fluids.

(** The valid call: as many saturations as fluids, non-negative, not all
    (almost) zero. *)
Definition saturation_input (fluids : list material) (sats : list R) : Prop :=
  length sats = length fluids /\ Forall (fun s => 0 <= s) sats /\ 1 / 10 ^ 15 <= rsum sats.

(** Rigidity that the Walpole bounds need: the lower bound two solids, the
    upper bound at least one. *)
Definition mixable (upper : bool) (m1 m2 : material) : Prop :=
  wf m1 /\ wf m2 /\
  (if upper then 0 < shear m1 \/ 0 < shear m2 else 0 < shear m1 /\ 0 < shear m2).

(** The two values of the [bound] argument. *)
Definition bound_name (upper : bool) : string := if upper then "upper"%string else "lower"%string.

(** Mineral lists that can be mixed: solids, non-negative fractions, total not
    above one (up to the accepted tolerance). *)
Definition mineral_list (l : list (material * R)) : Prop :=
  l <> [] /\ Forall (fun c => solid (fst c) /\ 0 <= snd c) l /\
  rsum (map snd l) <= 1 + 1 / 10 ^ 5.

(** A grain pack: solid grains, porosity below one, positive number of
    contacts, a non-negative shear reduction. *)
Definition grain_pack (mineral : material) (porosity shear_reduction contacts : R) : Prop :=
  solid mineral /\ 0 <= porosity < 1 /\ 0 <= shear_reduction /\ 0 < contacts.

(** Sand that can be cemented: solid grains, solid cement with at least a
    fifth of the rigidity of the grains, porosity after cementation not above
    that before. *)
Definition cementable (cement sand : material) (cemented_porosity sand_porosity : R) : Prop :=
  solid cement /\ solid sand /\ shear sand / 5 <= shear cement /\
  0 <= cemented_porosity <= sand_porosity /\ sand_porosity < 1.

(** Porosities that a patchy cement rock can have: not above those of the
    two cemented end members, which are not above the critical porosity. *)
Definition patchy_input (sand cement : material) (porosity contact_porosity upper_porosity critical : R) : Prop :=
  cementable cement sand contact_porosity critical /\
  cementable cement sand upper_porosity critical /\
  0 <= porosity <= contact_porosity /\ porosity <= upper_porosity /\
  0 < contact_porosity /\ 0 < upper_porosity.

(** The same material with stiffness measured in another unit. *)
Definition scaled (l : R) (m m' : material) : Prop :=
  wf m' /\ bulk m' = l * bulk m /\ shear m' = l * shear m /\ dens m' = dens m.

(** [sum_j c_j * y^(k + j)]. *)
Fixpoint power_sum (c : list R) (y : R) (k : nat) : R :=
  match c with
  | [] => 0
  | a :: c' => a * y ^ k + power_sum c' y (S k)
  end.

(** [sum_i sum_j c_ij * x^(k + i) * y^j]. *)
Fixpoint power_sum2 (c : list (list R)) (x y : R) (k : nat) : R :=
  match c with
  | [] => 0
  | row :: c' => x ^ k * power_sum row y 0 + power_sum2 c' x y (S k)
  end.

(** A coefficient matrix: some rows, all of the same positive length. *)
Definition rectangular (c : list (list R)) : Prop :=
  c <> [] /\ exists n, (0 < n)%nat /\ Forall (fun row => length row = n) c.
