(** * Specification vocabulary for array calls *)
From Coq Require Import List Arith.
From Verif Require Import Num Vec.
Import ListNotations.
Open Scope nat_scope.

(** a value that broadcasts to n elements: a scalar, a 1-element array, an array of n elements *)
Definition fits {A} (n : nat) (v : varr A) : Prop :=
  match v with
  | Sc _ => True
  | Ar l => length l = 1 \/ length l = n
  | VErr => False
  end.

(** a value that stands for a single number: scalar or 1-element array *)
Definition single {A} (v : varr A) : Prop :=
  match v with Sc _ => True | Ar l => length l = 1 | VErr => False end.

(** an array of exactly n elements *)
Definition array_of {A} (n : nat) (v : varr A) : Prop :=
  match v with Ar l => length l = n | _ => False end.

(** the element that takes part at position i: element i of an array, the only element of a
    single value *)
Definition element {A} (i : nat) (v : varr A) (x : A) : Prop :=
  match v with
  | Sc y => y = x
  | Ar l => nth_error l (if Nat.eqb (length l) 1 then 0 else i) = Some x
  | VErr => False
  end.

(** xs are the elements at position i of the arguments *)
Definition elements {A} (i : nat) (args : list (varr A)) (xs : list A) : Prop :=
  Forall2 (element i) args xs.

(** two arguments whose lengths cannot be broadcast *)
Definition mismatch {A} (u v : varr A) : Prop :=
  exists l m, u = Ar l /\ v = Ar m /\ length l <> length m /\ length l <> 1 /\ length m <> 1.
