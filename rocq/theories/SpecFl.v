(** Vocabulary for statements about rounded arithmetic. *)
From Coq Require Import Reals List ZArith.
From Flocq Require Import Core.
From Verif Require Import Num Fl.
Import ListNotations.
Open Scope R_scope.

(** Every operation is accurate to 2^-50 (four units in the last place, the bound NumPy states for its vector
    functions), and whole numbers written in the source are exact. *)
Definition accurate (rd : rounding) : Prop :=
  (forall o l x, Rabs (rd o l x - x) <= / 2 ^ 50 * Rabs x) /\
  (forall n : Z, (Z.abs n < 2 ^ 53)%Z -> rd Ocst [] (IZR n) = IZR n).
(** Correct rounding to binary64 (53 bits, nearest, ties to even; exponent range unlimited) *)
Definition binary64 : rounding := fun _ _ x => round radix2 (FLX_exp 53) ZnearestE x.
(** Rounding that depends on the exact result only and respects order *)
Definition monotone (rd : rounding) : Prop := forall o l l' x y, x <= y -> rd o l x <= rd o l' y.
(** [y] is finite and within the relative distance [e] of the finite number [x] *)
Definition within (e : R) (x y : ext) : Prop :=
  match x, y with Fin a, Fin b => Rabs (b - a) <= e * Rabs a | _, _ => False end.
