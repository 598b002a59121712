(** * The memoised lookups of openap/prop.py: [functools.lru_cache] over a heap of mutable objects *)
From Coq Require Import List Bool Arith.
From Verif Require Import Py.
Import ListNotations.

(** [V] is the content of a returned dictionary or list, [K] the call arguments.  A state holds the
    objects allocated so far (an object is its index in [heap]) and the cache, most recently used first
    (functools.lru_cache as applied at openap/prop.py:27, 99, 120, 146). *)
Record st (K V : Type) : Type := mkSt { heap : list V; cache : list (K * nat) }.
Arguments mkSt {K V}. Arguments heap {K V}. Arguments cache {K V}.

(** [lru_cache()] without arguments: maxsize is 128 (openap/prop.py:27, 99, 120, 146) *)
Definition maxsize : nat := 128.

(** cache entry of a key; the rest of the cache in order (functools.lru_cache, openap/prop.py:27) *)
Fixpoint take_key {K} (eqb : K -> K -> bool) (k : K) (c : list (K * nat)) : option (nat * list (K * nat)) :=
  match c with
  | [] => None
  | (k', l) :: t =>
      if eqb k k' then Some (l, t)
      else match take_key eqb k t with Some (l', t') => Some (l', (k', l) :: t') | None => None end
  end.

(** one call of a memoised function [f] (openap/prop.py:27, 99, 120, 146): a hit returns the stored object and makes it the most
    recently used; a miss runs [f], an exception is propagated and not stored, otherwise the new object
    is stored and the least recently used entry is dropped if there are more than [n] *)
Definition call {K V} (n : nat) (eqb : K -> K -> bool) (f : K -> py V) (k : K) (s : st K V) : py nat * st K V :=
  match take_key eqb k (cache s) with
  | Some (l, c) => (inr l, mkSt (heap s) ((k, l) :: c))
  | None =>
      match f k with
      | inl e => (inl e, s)
      | inr v => let l := length (heap s) in (inr l, mkSt (heap s ++ [v]) (firstn n ((k, l) :: cache s)))
      end
  end.

(** one call of a function that is not memoised, as [prop.aircraft] (openap/prop.py:48): a new object every time *)
Definition call_plain {K V} (f : K -> py V) (k : K) (s : st K V) : py nat * st K V :=
  match f k with
  | inl e => (inl e, s)
  | inr v => (inr (length (heap s)), mkSt (heap s ++ [v]) (cache s))
  end.

(** the caller assigns into an object it holds, e.g. [eng["max_thrust"] = x]; the object then has content [v]
    (objects are returned by reference: openap/prop.py:45, 96, 117, 143, 183) *)
Fixpoint set_nth {V} (l : nat) (v : V) (h : list V) : list V :=
  match h, l with
  | [], _ => []
  | _ :: t, O => v :: t
  | x :: t, S l' => x :: set_nth l' v t
  end.
Definition mutate {K V} (l : nat) (v : V) (s : st K V) : st K V := mkSt (set_nth l v (heap s)) (cache s).

(** what happens between two calls of interest: other calls and caller-side assignments (openap/prop.py:27-183) *)
Inductive event (K V : Type) : Type := ECall (k : K) | EMut (l : nat) (v : V).
Arguments ECall {K V}. Arguments EMut {K V}.
Definition step {K V} (n : nat) eqb f (s : st K V) (e : event K V) : st K V :=
  match e with
  | ECall k => snd (call n eqb f k s)
  | EMut l v => mutate l v s
  end.
Definition run {K V} (n : nat) eqb f (h : list (event K V)) (s : st K V) : st K V := fold_left (step n eqb f) h s.
(** the state when the interpreter starts (openap/prop.py:27: the decorator creates an empty cache) *)
Definition init {K V} : st K V := mkSt [] [].
