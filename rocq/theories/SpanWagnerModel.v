(** Model of material/span_wagner: coefficients.py, equations.py,
    carbon_dioxide.py, and tables/lookup_table.py with
    generate_span_wagner_tables.py.

    Values are modelled for one row (temperature, density or pressure); where
    arrays matter (lines 42-83 and 264-327 of carbon_dioxide.py) the shape is
    part of the model.  sympy differentiates the expressions of equations.py;
    here an expression is a tree and [diff] is the textbook rule.  The
    rewriting done by sympy (powsimp, and ((delta-1)**2)**a as a power of
    |delta - 1|) does not change values where they are defined. *)
From Coq Require Import String List ZArith.
From Verif Require Import Base MaterialModel FluidModel.
Import ListNotations.
Open Scope R_scope.

(* ------------------------------------------------------------------ *)
(** ** coefficients.py *)

(** coefficients.py:11-24 *)
Definition a0 : list R :=
  [837304456 / 10 ^ 8; - (370454304 / 10 ^ 8); 25 / 10 ^ 1; 199427042 / 10 ^ 8; 62105248 / 10 ^ 8;
   41195293 / 10 ^ 8; 104028922 / 10 ^ 8; 8327678 / 10 ^ 8].
(** coefficients.py:25-35 *)
Definition theta0 : list R :=
  [315163 / 10 ^ 5; 61119 / 10 ^ 4; 677708 / 10 ^ 5; 1132384 / 10 ^ 5; 2708792 / 10 ^ 5].
(** coefficients.py:40-52 *)
Definition n1 : list R :=
  [38856823203161 / 10 ^ 14; 2938547594274 / 10 ^ 12; - (55867188534934 / 10 ^ 13); - (76753199592477 /
   10 ^ 14); 31729005580416 / 10 ^ 14; 54803315897767 / 10 ^ 14; 12279411220335 / 10 ^ 14].
(** coefficients.py:53-53 *)
Definition d1 : list R :=
  [1; 1; 1; 1; 2; 2; 3].
(** coefficients.py:54-54 *)
Definition t1 : list R :=
  [0; 75 / 10 ^ 2; 1; 2; 75 / 10 ^ 2; 2; 75 / 10 ^ 2].
(** coefficients.py:57-89 *)
Definition n2 : list R :=
  [2165896154322 / 10 ^ 12; 15841735109724 / 10 ^ 13; - (23132705405503 / 10 ^ 14); 58116916431436 / 10
   ^ 15; - (55369137205382 / 10 ^ 14); 48946615909422 / 10 ^ 14; - (24275739843501 / 10 ^ 15);
   62494790501678 / 10 ^ 15; - (12175860225246 / 10 ^ 14); - (37055685270086 / 10 ^ 14); -
   (16775879700426 / 10 ^ 15); - (11960736637987 / 10 ^ 14); - (45619362508778 / 10 ^ 15);
   35612789270346 / 10 ^ 15; - (74427727132052 / 10 ^ 16); - (17395704902432 / 10 ^ 16); -
   (21810121289527 / 10 ^ 15); 24332166559236 / 10 ^ 15; - (37440133423463 / 10 ^ 15);
   143387157568781 / 10 ^ 15; - (13491969083286 / 10 ^ 14); - (2315122505348 / 10 ^ 14);
   12363125492901 / 10 ^ 15; 2105832197294 / 10 ^ 15; - (33958519026368 / 10 ^ 17); 55993651771592 /
   10 ^ 16; - (30335118055646 / 10 ^ 17)].
(** coefficients.py:90-92 *)
Definition d2 : list R :=
  [1; 2; 4; 5; 5; 5; 6; 6; 6; 1; 1; 4; 4; 4; 7; 8; 2; 3; 3; 5; 5; 6; 7; 8; 10; 4; 8].
(** coefficients.py:93-125 *)
Definition t2 : list R :=
  [15 / 10 ^ 1; 15 / 10 ^ 1; 25 / 10 ^ 1; 0; 15 / 10 ^ 1; 2; 0; 1; 2; 3; 6; 3; 6; 8; 6; 0; 7; 12; 16;
   22; 24; 16; 24; 8; 2; 28; 14].
(** coefficients.py:126-128 *)
Definition c2 : list R :=
  [1; 1; 1; 1; 1; 1; 1; 1; 1; 2; 2; 2; 2; 2; 2; 2; 3; 3; 3; 4; 4; 4; 4; 4; 4; 5; 6].
(** coefficients.py:131-141 *)
Definition n3 : list R :=
  [- (2136548868832 / 10 ^ 10); 26641569149272 / 10 ^ 9; - (24027212204557 / 10 ^ 9); - (28341603423999
   / 10 ^ 11); 21247284400179 / 10 ^ 11].
(** coefficients.py:142-142 *)
Definition d3 : list R :=
  [2; 2; 2; 3; 3].
(** coefficients.py:143-143 *)
Definition t3 : list R :=
  [1; 0; 1; 3; 3].
(** coefficients.py:144-144 *)
Definition alpha3 : list R :=
  [25; 25; 25; 15; 20].
(** coefficients.py:145-145 *)
Definition beta3 : list R :=
  [325; 300; 300; 275; 275].
(** coefficients.py:146-146 *)
Definition gamma3 : list R :=
  [116 / 10 ^ 2; 119 / 10 ^ 2; 119 / 10 ^ 2; 125 / 10 ^ 2; 122 / 10 ^ 2].
(** coefficients.py:147-147 *)
Definition epsilon3 : list R :=
  [1; 1; 1; 1; 1].
(** coefficients.py:150-158 *)
Definition n4 : list R :=
  [- (66642276540751 / 10 ^ 14); 72608632349897 / 10 ^ 14; 55068668612842 / 10 ^ 15].
(** coefficients.py:159-159 *)
Definition a4 : list R :=
  [35 / 10 ^ 1; 35 / 10 ^ 1; 3].
(** coefficients.py:160-160 *)
Definition b4 : list R :=
  [875 / 10 ^ 3; 925 / 10 ^ 3; 875 / 10 ^ 3].
(** coefficients.py:161-161 *)
Definition beta4 : list R :=
  [3 / 10 ^ 1; 3 / 10 ^ 1; 3 / 10 ^ 1].
(** coefficients.py:162-162 *)
Definition A4 : list R :=
  [7 / 10 ^ 1; 7 / 10 ^ 1; 7 / 10 ^ 1].
(** coefficients.py:163-163 *)
Definition B4 : list R :=
  [3 / 10 ^ 1; 3 / 10 ^ 1; 1].
(** coefficients.py:164-164 *)
Definition C4 : list R :=
  [10; 10; 125 / 10 ^ 1].
(** coefficients.py:165-165 *)
Definition D4 : list R :=
  [275; 275; 275].

(* ------------------------------------------------------------------ *)
(** ** equations.py *)

(** Expressions in delta and tau; [PowN] has an integer literal as exponent,
    [Pow] a coefficient. *)
Inductive var : Type := Delta | Tau.
Inductive expr : Type :=
  | Cst (c : R)
  | Var (v : var)
  | Add (a b : expr)
  | Mul (a b : expr)
  | PowN (a : expr) (n : nat)
  | Pow (a : expr) (c : R)
  | Exp (a : expr).

Definition Neg (a : expr) : expr := Mul (Cst (-1)) a.
Definition Sub (a b : expr) : expr := Add a (Neg b).

(** [expr.diff(v)] *)
Fixpoint diff (v : var) (e : expr) : expr :=
  match e with
  | Cst _ => Cst 0
  | Var w => match v, w with
             | Delta, Delta | Tau, Tau => Cst 1
             | _, _ => Cst 0
             end
  | Add a b => Add (diff v a) (diff v b)
  | Mul a b => Add (Mul (diff v a) b) (Mul a (diff v b))
  | PowN a n => Mul (Mul (Cst (INR n)) (PowN a (pred n))) (diff v a)
  | Pow a c => Mul (Mul (Cst c) (Pow a (c - 1))) (diff v a)
  | Exp a => Mul (Exp a) (diff v a)
  end.

(** [sp.lambdify] of an expression, on floats. *)
Fixpoint lambdified (e : expr) (delta tau : R) : res R :=
  match e with
  | Cst c => Ok c
  | Var Delta => Ok delta
  | Var Tau => Ok tau
  | Add a b => let* x := lambdified a delta tau in let* y := lambdified b delta tau in Ok (x + y)
  | Mul a b => let* x := lambdified a delta tau in let* y := lambdified b delta tau in Ok (x * y)
  | PowN a n => let* x := lambdified a delta tau in Ok (x ^ n)
  | Pow a c => let* x := lambdified a delta tau in np_pow x c
  | Exp a => let* x := lambdified a delta tau in Ok (exp x)
  end.

(** equations.py:69-76 *)
Definition s1 (n d t : R) : expr := Mul (Mul (Cst n) (Pow (Var Delta) d)) (Pow (Var Tau) t).
Definition s2 (n d t c : R) : expr :=
  Mul (Mul (Mul (Cst n) (Pow (Var Delta) d)) (Pow (Var Tau) t)) (Exp (Neg (Pow (Var Delta) c))).
Definition s3 (n d t alpha epsilon beta gamma : R) : expr :=
  Mul (Mul (Mul (Cst n) (Pow (Var Delta) d)) (Pow (Var Tau) t))
    (Exp (Sub (Neg (Mul (Cst alpha) (PowN (Sub (Var Delta) (Cst epsilon)) 2)))
              (Mul (Cst beta) (PowN (Sub (Var Tau) (Cst gamma)) 2)))).

(** equations.py:78-81 *)
Definition theta_expr (beta A : R) : expr :=
  Add (Sub (Cst 1) (Var Tau))
      (Mul (Cst A) (Pow (PowN (Sub (Var Delta) (Cst 1)) 2) (1 / (2 * beta)))).
Definition bigdelta_expr (a beta A B : R) : expr :=
  Add (PowN (theta_expr beta A) 2) (Mul (Cst B) (Pow (PowN (Sub (Var Delta) (Cst 1)) 2) a)).
Definition bigphi_expr (C D : R) : expr :=
  Exp (Sub (Neg (Mul (Cst C) (PowN (Sub (Var Delta) (Cst 1)) 2)))
           (Mul (Cst D) (PowN (Sub (Var Tau) (Cst 1)) 2))).
Definition s4 (n b a beta A B C D : R) : expr :=
  Mul (Mul (Mul (Cst n) (Pow (bigdelta_expr a beta A B) b)) (Var Delta)) (bigphi_expr C D).

(** The columns of the tables (the arrays are broadcast against each other). *)
Definition group1 : list expr :=
  map (fun '(n, d, t) => s1 n d t) (combine (combine n1 d1) t1).
Definition group2 : list expr :=
  map (fun '(n, d, t, c) => s2 n d t c) (combine (combine (combine n2 d2) t2) c2).
Definition group3 : list expr :=
  map (fun '(n, d, t, al, ep, be, ga) => s3 n d t al ep be ga)
    (combine (combine (combine (combine (combine (combine n3 d3) t3) alpha3) epsilon3) beta3) gamma3).
Definition group4 : list expr :=
  map (fun '(n, b, a, be, A, B, C, D) => s4 n b a be A B C D)
    (combine (combine (combine (combine (combine (combine (combine n4 b4) a4) beta4) A4) B4) C4) D4).

(** equations.py:84-88 *)
Definition derived (dd dt : nat) (e : expr) : expr :=
  Nat.iter dt (diff Tau) (Nat.iter dd (diff Delta) e).

Definition group_sum (dd dt : nat) (delta tau : R) (g : list expr) : res R :=
  rsum_res (map (fun e => lambdified (derived dd dt e) delta tau) g).

(** equations.py:12-38, and 98-104: derivatives beyond the second are not in
    the dictionary. *)
Definition residual_helmholtz_energy (delta tau : R) (dd dt : nat) : res R :=
  if Nat.leb (dd + dt) 2 then
    let* a := group_sum dd dt delta tau group1 in
    let* b := group_sum dd dt delta tau group2 in
    let* c := group_sum dd dt delta tau group3 in
    let* d := group_sum dd dt delta tau group4 in
    Ok (a + b + c + d)
  else Err KeyError.

(* ------------------------------------------------------------------ *)
(** ** carbon_dioxide.py *)

(** carbon_dioxide.py:20-25 *)
Definition CO2_GAS_CONSTANT : R := 1889241 / 10 ^ 7 * 10 ^ 3.
Definition CO2_CRITICAL_TEMPERATURE : R := 3041282 / 10 ^ 4.
Definition CO2_CRITICAL_DENSITY : R := 4676 / 10.
Definition CO2_CRITICAL_PRESSURE : R := 73773 / 10 ^ 4.
Definition CO2_TRIPLE_TEMPERATURE : R := 216592 / 10 ^ 3.
Definition CO2_TRIPLE_PRESSURE : R := 51795 / 10 ^ 5.

(** carbon_dioxide.py:42-83 for scalar tau and delta. *)
Definition ideal_gas_helmholtz_energy (delta tau : R) (dd dt : nat) : res R :=
  let c i := nth i a0 0 in
  let rows := combine (skipn 3 a0) theta0 in
  match dd, dt with
  | 0%nat, 0%nat =>
      let* s := rsum_res (map (fun '(a, th) => let* l := np_log (1 - exp (- th * tau)) in Ok (a * l)) rows) in
      let* ld := np_log delta in
      let* lt := np_log tau in
      Ok (ld + c 0%nat + c 1%nat * tau + c 2%nat * lt + s)
  | 0%nat, 1%nat =>
      let* s := rsum_res (map (fun '(a, th) =>
                  let* q := np_div 1 (1 - exp (- th * tau)) in Ok (a * th * (q - 1))) rows) in
      let* q := np_div (c 2%nat) tau in
      Ok (c 1%nat + q + s)
  | 1%nat, 0%nat => np_div 1 delta
  | 0%nat, 2%nat =>
      let* s := rsum_res (map (fun '(a, th) =>
                  let* q := np_div 1 ((1 - exp (- th * tau)) ^ 2) in
                  Ok (a * th ^ 2 * exp (- th * tau) * q)) rows) in
      let* q := np_div (- c 2%nat) (tau ^ 2) in
      Ok (q - s)
  | 2%nat, 0%nat => np_div (-1) (delta ^ 2)
  | 1%nat, 1%nat => Ok 0
  | _, _ => Err NotImplementedError
  end.

(** carbon_dioxide.py:96-98: an exact 1.0 is moved. *)
Definition nudged (x : R) : R := if Req_EM_T x 1 then x - 1 / 10 ^ 15 else x.

(** carbon_dioxide.py:86-105 *)
Definition co2_residual_helmholtz_energy (delta tau : R) (dd dt : nat) : res R :=
  residual_helmholtz_energy (nudged delta) (nudged tau) dd dt.

(** carbon_dioxide.py:28-39 *)
Definition co2_helmholtz_energy (delta tau : R) (dd dt : nat) : res R :=
  let* a := ideal_gas_helmholtz_energy delta tau dd dt in
  let* b := co2_residual_helmholtz_energy delta tau dd dt in
  Ok (a + b).

(** carbon_dioxide.py:108-148.  For d_density other than 0 and 1 the function
    ends without return: the result is None. *)
Definition carbon_dioxide_pressure (absolute_temperature density : R) (d_density d_temperature : nat)
    (isentropic : bool) : res (option R) :=
  let* tau := np_div CO2_CRITICAL_TEMPERATURE absolute_temperature in
  let delta := density / CO2_CRITICAL_DENSITY in
  if negb (Nat.eqb d_temperature 0) then Err NotImplementedError
  else
    match d_density with
    | 0%nat =>
        let* p10 := co2_residual_helmholtz_energy delta tau 1 0 in
        Ok (Some (density * CO2_GAS_CONSTANT * absolute_temperature * (1 + delta * p10) / 10 ^ 6))
    | 1%nat =>
        let* p10 := co2_residual_helmholtz_energy delta tau 1 0 in
        let first := 2 * delta * p10 in
        let* p20 := co2_residual_helmholtz_energy delta tau 2 0 in
        let second := delta ^ 2 * p20 in
        let* third :=
          if isentropic then
            let* p11 := co2_residual_helmholtz_energy delta tau 1 1 in
            let nom := (1 + delta * p10 - delta * tau * p11) ^ 2 in
            let* p02 := co2_helmholtz_energy delta tau 0 2 in
            let den := tau ^ 2 * p02 in
            np_div (- nom) den
          else Ok 0 in
        Ok (Some (absolute_temperature * CO2_GAS_CONSTANT * (1 + first + second + third) / 10 ^ 6))
    | _ => Ok None
    end.

(** carbon_dioxide.py:151-164 *)
Definition saturated_liquid_density (absolute_temperature : R) : res R :=
  let t := 1 - absolute_temperature / CO2_CRITICAL_TEMPERATURE in
  let* x1 := np_pow t (34 / 100) in
  let* x2 := np_pow t (5 / 10) in
  let* x3 := np_pow t (10 / 6) in
  let* x4 := np_pow t (11 / 6) in
  let inner := 19245108 / 10 ^ 7 * x1 + - (62385555 / 10 ^ 8) * x2 + - (32731127 / 10 ^ 8) * x3
               + 39245142 / 10 ^ 8 * x4 in
  Ok (CO2_CRITICAL_DENSITY * exp inner).

(** carbon_dioxide.py:167-188 *)
Definition saturated_vapor_density (absolute_temperature : R) : res R :=
  let t := 1 - absolute_temperature / CO2_CRITICAL_TEMPERATURE in
  let* x1 := np_pow t (34 / 100) in
  let* x2 := np_pow t (5 / 10) in
  let* x4 := np_pow t (7 / 3) in
  let* x5 := np_pow t (14 / 3) in
  let inner := - (17074879 / 10 ^ 7) * x1 + - (82274670 / 10 ^ 8) * x2 + - (46008549 / 10 ^ 7) * t
               + - (10111178 / 10 ^ 6) * x4 + - (29742252 / 10 ^ 6) * x5 in
  Ok (CO2_CRITICAL_DENSITY * exp inner).

(** carbon_dioxide.py:191-202 *)
Definition sublimation_pressure (absolute_temperature : R) : res R :=
  let t := 1 - absolute_temperature / CO2_TRIPLE_TEMPERATURE in
  let* x2 := np_pow t (19 / 10) in
  let* x3 := np_pow t (29 / 10) in
  let inner := - (14740846 / 10 ^ 6) * t + 24327015 / 10 ^ 7 * x2 + - (53061778 / 10 ^ 7) * x3 in
  let* q := np_div inner (1 - t) in
  Ok (CO2_TRIPLE_PRESSURE * exp q).

(** carbon_dioxide.py:205-218 *)
Definition vapor_pressure (absolute_temperature : R) : res R :=
  let t := 1 - absolute_temperature / CO2_CRITICAL_TEMPERATURE in
  let* x1 := np_pow t 1 in
  let* x2 := np_pow t (15 / 10) in
  let* x3 := np_pow t 2 in
  let* x4 := np_pow t 4 in
  let inner := - (70602087 / 10 ^ 7) * x1 + 19391218 / 10 ^ 7 * x2 + - (16463597 / 10 ^ 7) * x3
               + - (32995634 / 10 ^ 7) * x4 in
  let* q := np_div inner (1 - t) in
  Ok (CO2_CRITICAL_PRESSURE * exp q).

(** carbon_dioxide.py:221-230 *)
Definition melting_pressure (absolute_temperature : R) : R :=
  let t := absolute_temperature / CO2_TRIPLE_TEMPERATURE - 1 in
  CO2_TRIPLE_PRESSURE * (1 + 19555390 / 10 ^ 4 * t + 20554593 / 10 ^ 4 * t ^ 2).

(** The argument force_vapor: True, False, or anything else, which counts as
    'auto' (carbon_dioxide.py:247-255). *)
Inductive phase_choice : Type := ForceVapor | ForceLiquid | Auto.

(** [pressure < vapor_pressure(T)]: a comparison with nan is False. *)
Definition below_vapor_pressure (absolute_temperature pressure : R) : bool :=
  match vapor_pressure absolute_temperature with
  | Ok pv => if Rlt_dec pressure pv then true else false
  | Err _ => false
  end.

(** carbon_dioxide.py:233-261, one row. *)
Definition density_bounds (absolute_temperature pressure : R) (force_vapor : phase_choice) : res (R * R) :=
  let lo := 1 / 10 in
  let hi := 1500 in
  if Rlt_dec absolute_temperature CO2_TRIPLE_TEMPERATURE then
    let* v := saturated_vapor_density absolute_temperature in Ok (lo, v)
  else if Rlt_dec absolute_temperature CO2_CRITICAL_TEMPERATURE then
    match force_vapor with
    | ForceVapor => let* v := saturated_vapor_density absolute_temperature in Ok (lo, v)
    | ForceLiquid => let* l := saturated_liquid_density absolute_temperature in Ok (l, hi)
    | Auto =>
        if below_vapor_pressure absolute_temperature pressure then
          let* v := saturated_vapor_density absolute_temperature in Ok (lo, v)
        else
          let* l := saturated_liquid_density absolute_temperature in Ok (l, hi)
    end
  else Ok (lo, hi).

(** carbon_dioxide.py:354-355 *)
Definition density_bracket (absolute_temperature pressure : R) (force_vapor : phase_choice) : res (R * R) :=
  let* b := density_bounds absolute_temperature pressure force_vapor in
  Ok (fst b * (95 / 100), snd b * (105 / 100)).

(** scipy.optimize.root_scalar(f, method="toms748", bracket=[a, b]) is a
    parameter: a function and a bracket to a root or an error. *)
Definition root_finder : Type := (R -> res R) -> R -> R -> res R.

(** [lambda x: carbon_dioxide_pressure(T, x) - pressure] *)
Definition pressure_mismatch (absolute_temperature pressure density : R) : res R :=
  let* p := carbon_dioxide_pressure absolute_temperature density 0 0 false in
  match p with Some p => Ok (p - pressure) | None => Err TypeError end.

(** carbon_dioxide.py:330-369.  A float or nan (None): nan only if raise_error
    is off and the root finder raises ValueError. *)
Definition calculate_carbon_dioxide_density (solve : root_finder) (absolute_temperature pressure : R)
    (force_vapor : phase_choice) (raise_error : bool) : res (option R) :=
  let* b := density_bracket absolute_temperature pressure force_vapor in
  match solve (pressure_mismatch absolute_temperature pressure) (fst b) (snd b) with
  | Ok x => Ok (Some x)
  | Err ValueError => if raise_error then Err ValueError else Ok None
  | Err e => Err e
  end.

(* ------------------------------------------------------------------ *)
(** ** tables/lookup_table.py *)

(** The content of the .npz file. *)
Record lookup_table : Type := mkTable { lt_x : list R; lt_y : list R; lt_z : list (list R) }.

(** lookup_table.py:7-13; [func] is evaluated on all pairs, x varying slowest. *)
Definition generate_lookup_table (func : R -> R -> res R) (x y : list R) : res lookup_table :=
  let* z := sequence (map (fun a => sequence (map (func a) y)) x) in
  Ok (mkTable x y z).

(** scipy's RegularGridInterpolator: the index of the grid interval of a value
    inside the grid, at most n - 2. *)
Fixpoint find_interval (grid : list R) (v : R) : nat :=
  match grid with
  | _ :: ((b :: _ :: _) as rest) => if Rle_dec b v then S (find_interval rest v) else 0%nat
  | _ => 0%nat
  end.

(** method="nearest": the lower node up to the middle of the interval. *)
Definition nearest_index (grid : list R) (v : R) : nat :=
  match grid with
  | [] | [_] => 0%nat
  | _ =>
      let i := find_interval grid v in
      let a := nth i grid 0 in
      let b := nth (S i) grid 0 in
      if Rle_dec ((v - a) / (b - a)) (1 / 2) then i else S i
  end.

(** bounds_error=False: nan outside (fill_value is nan by default). *)
Definition outside (grid : list R) (v : R) : bool :=
  match grid with
  | [] => true
  | a :: _ => if Rlt_dec v a then true else if Rlt_dec (last grid a) v then true else false
  end.

(** lookup_table.py:23-32, one point; None is nan. *)
Definition interpolate (t : lookup_table) (x y : R) : option R :=
  if orb (outside (lt_x t) x) (outside (lt_y t) y) then None
  else
    match nth_error (lt_z t) (nearest_index (lt_x t) x) with
    | Some row => nth_error row (nearest_index (lt_y t) y)
    | None => None
    end.

(** generate_span_wagner_tables.py:13-16; numpy.arange(a, b, step) has
    ceil((b - a) / step) entries. *)
Definition arange (start step : R) (n : nat) : list R :=
  map (fun i => start + INR i * step) (seq 0 n).
Definition t_density : list R :=
  map (fun t => 27315 / 100 + t) (arange 0 (5 / 100) 1000 ++ arange 50 (5 / 10) 301).
Definition p_density : list R :=
  arange (5 / 10) (1 / 100) 950 ++ arange 10 (1 / 10) 901.

(* ------------------------------------------------------------------ *)
(** ** carbon_dioxide.py, continued *)

(** carbon_dioxide.py:372-394; the table is the one in the package. *)
Definition carbon_dioxide_density (solve : root_finder) (table : lookup_table)
    (absolute_temperature pressure : R) (interpolated : bool) (force_vapor : phase_choice)
    (raise_error : bool) : res (option R) :=
  if interpolated then Ok (interpolate table absolute_temperature pressure)
  else calculate_carbon_dioxide_density solve absolute_temperature pressure force_vapor raise_error.

(** carbon_dioxide.py:397-404 *)
Definition carbon_dioxide_bulk_modulus (absolute_temperature density : R) : res R :=
  let* d_pressure := carbon_dioxide_pressure absolute_temperature density 1 0 true in
  match d_pressure with Some d => Ok (density * d * 10 ^ 6) | None => Err TypeError end.

(** carbon_dioxide.py:407-419.  A density of nan goes on as nan. *)
Definition carbon_dioxide (solve : root_finder) (table : lookup_table)
    (absolute_temperature pressure : R) (density : option R) (interpolated : bool) (force_vapor : phase_choice)
    (raise_error : bool) : res material :=
  let* d := match density with
            | Some d => Ok (Some d)
            | None => carbon_dioxide_density solve table absolute_temperature pressure interpolated
                        force_vapor raise_error
            end in
  match d with
  | None => Err NonFinite
  | Some d =>
      let* k := carbon_dioxide_bulk_modulus absolute_temperature d in
      fluid_of_bulk k d
  end.
