(** The polynomial fit of dry rock to pressure in IEEE double precision
    (conventions: FloatModel). *)
From Coq Require Import Reals List.
From Verif Require Import Base MaterialModel MainModel FloatModel.
Import ListNotations.
Open Scope R_scope.

(** np.polyval(p, x): Horner, highest power first, from zeros. *)
Definition f_np_polyval (p : list R) (x : R) : res R :=
  fold_left (fun acc c => let* y := acc in let* t := rnd (y * x) in rnd (t + c)) p (Ok 0).

(** config/model.py:89-99.  Without any coefficient the result is an empty
    array: no material, [OtherError]. *)
Definition f_polyfit_row (p : R) (row : list R) : res R :=
  match row with [] => Err OtherError | _ => f_np_polyval row p end.
