(** Vocabulary of the property statements: predicates that hold only when the
    computed values are finite numbers. *)
From Coq Require Import Reals.
From Verif Require Import Num.
Open Scope R_scope.

(** [x] and [y] are finite and x < y *)
Definition flt (x y : ext) : Prop := match x, y with Fin a, Fin b => a < b | _, _ => False end.
(** [x] and [y] are finite and x <= y *)
Definition fle (x y : ext) : Prop := match x, y with Fin a, Fin b => a <= b | _, _ => False end.
(** [x] is a finite number *)
Definition finite (x : ext) : Prop := exists r, x = Fin r.
(** [x] and [y] are finite and differ by at most d *)
Definition fclose (d : R) (x y : ext) : Prop :=
  match x, y with Fin a, Fin b => Rabs (a - b) <= d | _, _ => False end.
