(** Model of config/constituent.py and config/minerals.py. *)
From Verif Require Import Base MaterialModel HashinShtrikmanModel.
Open Scope R_scope.

(** constituent.py:49-57 *)
Definition fraction_is_ratio (v : option R) : res (option R) :=
  match v with
  | None => Ok None
  | Some x =>
      if Rlt_dec x (- (1 / 10 ^ 5)) then Err ValueError
      else if Rlt_dec (1 + 1 / 10 ^ 5) x then Err ValueError
      else Ok (Some x)
  end.

(** Sum of the fractions that are given (constituent.py:77). *)
Fixpoint sum_given (fs : list (option R)) : R :=
  match fs with
  | [] => 0
  | Some x :: fs' => x + sum_given fs'
  | None :: fs' => sum_given fs'
  end.

Fixpoint count_missing (fs : list (option R)) : nat :=
  match fs with
  | [] => 0
  | Some _ :: fs' => count_missing fs'
  | None :: fs' => S (count_missing fs')
  end.

(** constituent.py:70-89.  The Python sets the attribute of the one missing
    fraction; here the completed list is returned.  The assignment on line 89
    runs the validator [fraction_is_ratio] again (validate_assignment,
    pydantic_config.py:3). *)
Definition fix_one_fraction (fs : list (option R)) : res (list R) :=
  let sum_rest := sum_given fs in
  if Rlt_dec (1 + 1 / 10 ^ 5) sum_rest then Err ValueError
  else
    match count_missing fs with
    | 0%nat => Ok (map (fun o => match o with Some x => x | None => 1 - sum_rest end) fs)
    | 1%nat =>
        let* _ := fraction_is_ratio (Some (1 - sum_rest)) in
        Ok (map (fun o => match o with Some x => x | None => 1 - sum_rest end) fs)
    | _ => Err ValueError
    end.

(** numpy.isclose(s, 1.0, atol=1e-5), rtol = 1e-5 by default (minerals.py:49). *)
Definition isclose_one (s : R) : bool :=
  if Rle_dec (Rabs (s - 1)) (1 / 10 ^ 5 + 1 / 10 ^ 5 * Rabs 1) then true else false.

(** minerals.py:29, 47-50: construction of Minerals from constituents
    (material, optional fraction).  conlist(min_items=1) and the fraction
    validators run first. *)
Definition minerals (cs : list (material * option R)) : res (list (material * R)) :=
  match cs with
  | [] => Err ValueError
  | _ =>
      let* fs := sequence (map (fun c => fraction_is_ratio (snd c)) cs) in
      let* fs := fix_one_fraction fs in
      if isclose_one (rsum fs) then Ok (combine (map fst cs) fs) else Err ValueError
  end.

(** minerals.py:61-65 *)
Definition part_of_total (fraction total : R) : res R :=
  if Req_EM_T total 0 then Ok 1 else py_div fraction total.

(** One round of the loop minerals.py:67-76.  The new Constituent validates
    its fraction and rewraps the material (constituent.py:59-67). *)
Definition mix_minerals (cur next : material * R) : res (material * R) :=
  let sub_total := snd cur + snd next in
  let* fraction := part_of_total (snd cur) sub_total in
  let* new_mix := hashin_shtrikman_walpole (fst cur) (fst next) fraction "lower" in
  let* wrapped := arbitrary_material (Some (bulk new_mix)) (Some (shear new_mix)) (dens new_mix) None None in
  let* _ := fraction_is_ratio (Some sub_total) in
  Ok (wrapped, sub_total).

Fixpoint mix_loop (cur : material * R) (rest : list (material * R)) : res (material * R) :=
  match rest with
  | [] => Ok cur
  | next :: rest' => let* cur' := mix_minerals cur next in mix_loop cur' rest'
  end.

(** minerals.py:52-77 *)
Definition minerals_as_mixture (cs : list (material * R)) : res material :=
  match cs with
  | [] => Err ValueError
  | first :: rest => let* r := mix_loop first rest in Ok (fst r)
  end.
