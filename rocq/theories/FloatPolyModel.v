(** Polynomials of NumPy, and the water and brine of Batzle and Wang, in IEEE
    double precision (conventions: FloatModel). *)
From Coq Require Import Reals List.
From Verif Require Import Base MaterialModel MainModel FloatModel.
Import ListNotations.
Open Scope R_scope.

(** One step of numpy.polynomial.polynomial.polyval: [c0 = c[-i] + c0 * x].
    The first, [c[-1] + x * 0], is exact. *)
Definition f_step (x a acc : R) : res R :=
  let* m := rnd (acc * x) in
  rnd (a + m).

(** polyval(x, c), lowest power first. *)
Fixpoint f_poly_eval (x : R) (c : list R) : res R :=
  match c with
  | [] => Err IndexError
  | [a] => Ok a
  | a :: c' => let* acc := f_poly_eval x c' in f_step x a acc
  end.

(** The same for a matrix: one value per column. *)
Fixpoint f_map2 (f : R -> R -> res R) (l1 l2 : list R) : res (list R) :=
  match l1, l2 with
  | a :: l1', b :: l2' => let* y := f a b in let* ys := f_map2 f l1' l2' in Ok (y :: ys)
  | _, _ => Ok []
  end.
Fixpoint f_poly_rows (x : R) (rows : list (list R)) : res (list R) :=
  match rows with
  | [] => Ok []
  | [row] => Ok row
  | row :: rows' => let* acc := f_poly_rows x rows' in f_map2 (f_step x) row acc
  end.
Definition f_polyval2d (x y : R) (c : list (list R)) : res R :=
  let* l := f_poly_rows x c in
  f_poly_eval y l.

(** polyval3d(x, y, z, c): first along the first axis. *)
Fixpoint f_map_rows (f : R -> R -> res R) (m1 m2 : list (list R)) : res (list (list R)) :=
  match m1, m2 with
  | a :: m1', b :: m2' => let* y := f_map2 f a b in let* ys := f_map_rows f m1' m2' in Ok (y :: ys)
  | _, _ => Ok []
  end.
Fixpoint f_poly_matrices (x : R) (ms : list (list (list R))) : res (list (list R)) :=
  match ms with
  | [] => Ok []
  | [m] => Ok m
  | m :: ms' => let* acc := f_poly_matrices x ms' in f_map_rows (f_step x) m acc
  end.
Definition f_polyval3d (x y z : R) (c : list (list (list R))) : res R :=
  let* m := f_poly_matrices x c in
  f_polyval2d y z m.

(** water_properties.py:46-59; decimals in the code are rounded. *)
Definition f_water_density (temperature pressure : R) : res R :=
  f_polyval2d temperature pressure (map (map fl)
    [[1; 489 / 10 ^ 6; - (333 / 10 ^ 9)];
     [- (8 / 10 ^ 5); - (2 / 10 ^ 6); - (2 / 10 ^ 9)];
     [- (33 / 10 ^ 7); 16 / 10 ^ 9; 0];
     [175 / 10 ^ 11; - (13 / 10 ^ 12); 0]]).

(** water_properties.py:62-83 *)
Definition f_water_primary_velocity (temperature pressure : R) : res R :=
  f_polyval2d temperature pressure (map (map fl)
    [[140285 / 100; 1524 / 1000; 3437 / 10 ^ 6; - (1197 / 10 ^ 8)];
     [4871 / 1000; - (111 / 10 ^ 4); 1739 / 10 ^ 7; - (1628 / 10 ^ 9)];
     [- (4783 / 10 ^ 5); 2747 / 10 ^ 7; - (2135 / 10 ^ 9); 1237 / 10 ^ 11];
     [1487 / 10 ^ 7; - (6503 / 10 ^ 10); - (1455 / 10 ^ 11); 1327 / 10 ^ 13];
     [- (2197 / 10 ^ 10); 7987 / 10 ^ 13; 523 / 10 ^ 13; - (4614 / 10 ^ 16)]]).

(** brine_properties.py:111-126 *)
Definition f_brine_density (temperature pressure salinity : R) : res R :=
  let* w := f_water_density temperature pressure in
  let* p := f_polyval3d salinity temperature pressure (map (map (map fl))
    [[[668 / 1000; 3 / 10 ^ 4]; [8 / 10 ^ 5; - (13 / 10 ^ 6)]; [3 / 10 ^ 6; 0]];
     [[44 / 100; - (24 / 10 ^ 4)]; [- (33 / 10 ^ 4); 47 / 10 ^ 6]; [0; 0]]]) in
  let* q := rnd (salinity * p) in
  rnd (w + q).

(** brine_properties.py:129-154; NumPy's square root is a parameter. *)
Definition f_brine_primary_velocity (root : R -> R) (temperature pressure salinity : R) : res R :=
  let* w := f_water_primary_velocity temperature pressure in
  let* s := f_root root salinity in
  let* p := f_polyval3d s temperature pressure (map (map (map fl))
    [[[1170; 26 / 10; - (476 / 10 ^ 4)]; [- (96 / 10); - (29 / 10 ^ 4); 0];
      [55 / 1000; 0; 0]; [- (85 / 10 ^ 6); 0; 0]];
     [[780; -10; 16 / 100]; [0; 0; 0]; [0; 0; 0]; [0; 0; 0]];
     [[-820; 0; 0]; [0; 0; 0]; [0; 0; 0]; [0; 0; 0]]]) in
  let* q := rnd (salinity * p) in
  rnd (w + q).

(** fluid.py:12-16: Material(shear_modulus=0, density=d, primary_velocity=p),
    material.py:114-179. *)
Definition f_fluid_of_velocity (root : R -> R) (d p : R) : res material :=
  let* k := f_bulk_modulus p 0 d in
  let* s := f_secondary_velocity root 0 d in
  f_guards root k 0 d p s.

(** brine_properties.py:157-169.  [1e-6] is rounded. *)
Definition f_brine (root : R -> R) (temperature pressure salinity : R) : res material :=
  let* p1 := rnd (pressure * fl (1 / 10 ^ 6)) in
  let* s1 := rnd (salinity * fl (1 / 10 ^ 6)) in
  let* d := f_brine_density temperature p1 s1 in
  let* d := rnd (d * 1000) in
  let* v := f_brine_primary_velocity root temperature p1 s1 in
  f_fluid_of_velocity root d v.
