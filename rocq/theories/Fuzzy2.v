(** * Model of openap/extra/fuzzy.py, continued: the [defuzz] dispatcher and extrapolation *)
From Coq Require Import Reals String List Bool.
From Verif Require Import Num Py Str Fuzzy.
Import ListNotations.
Open Scope R_scope.

(** openap/extra/fuzzy.py:84-106 with the argument [zero_outside_x]; [np.interp] with
    [left=None, right=None] holds the end values.  [None]: an empty table, where NumPy raises. *)
Definition interp_membership_z (zero_outside_x : bool) (tbl : list (R * R)) (xx : R) : option R :=
  if zero_outside_x then match tbl with [] => None | _ => Some (interp_membership tbl xx) end
  else np_interp xx tbl.

(** openap/extra/fuzzy.py:109-142 [defuzz(x, mfx, mode)]; of an empty array [max] raises ValueError *)
Definition defuzz (x mfx : list R) (mode : string) : py R :=
  let mode := lower mode in
  if negb (length x =? length mfx)%nat then inl ValueError
  else if contains "mom" mode then
    match x with [] => inl ValueError | _ => inr (defuzz_mom (combine x mfx)) end
  else if contains "som" mode then
    match x with [] => inl ValueError | _ => inr (defuzz_som (combine x mfx)) end
  else if contains "lom" mode then
    match x with [] => inl ValueError | _ => inr (defuzz_lom (combine x mfx)) end
  else inl ValueError.
