(** * Model of openap/extra/fuzzy.py

    Membership values are computed with the NumPy operations of Num.v (so that 0/0 is NaN);
    sample points and parameters are finite reals. *)
From Coq Require Import Reals List Bool ZArith.
From Verif Require Import Num.
Import ListNotations.
Open Scope R_scope.

(** openap/extra/fuzzy.py:10-22, one sample *)
Definition gaussmf (x mean sigma : R) : ext :=
  eexp (ediv (eneg (epowi (Fin (x - mean)) 2)) (emul (Fin 2) (epowi (Fin sigma) 2))).

(** openap/extra/fuzzy.py:25-52, one sample: the masked assignments in order
    (the assertion [a <= b] is a hypothesis of the theorems) *)
Definition zmf (x a b : R) : ext :=
  let y := Fin 1 in
  let y := if Rleb a x && Rltb x ((a + b) / 2)
           then esub (Fin 1) (emul (Fin 2) (epowi (ediv (Fin (x - a)) (Fin (b - a))) 2)) else y in
  let y := if Rleb ((a + b) / 2) x && Rleb x b
           then emul (Fin 2) (epowi (ediv (Fin (x - b)) (Fin (b - a))) 2) else y in
  let y := if Rleb b x then Fin 0 else y in
  y.

(** openap/extra/fuzzy.py:55-81, one sample *)
Definition smf (x a b : R) : ext :=
  let y := Fin 1 in
  let y := if Rleb x a then Fin 0 else y in
  let y := if Rleb a x && Rleb x ((a + b) / 2)
           then emul (Fin 2) (epowi (ediv (Fin (x - a)) (Fin (b - a))) 2) else y in
  let y := if Rleb ((a + b) / 2) x && Rleb x b
           then esub (Fin 1) (emul (Fin 2) (epowi (ediv (Fin (x - b)) (Fin (b - a))) 2)) else y in
  y.

(** [np.arange(start, stop, step)] with [n] elements (openap/phase.py:16-19) *)
Definition arange (start step : R) (n : Z) : list R :=
  map (fun i => start + INR i * step) (seq 0 (Z.to_nat n)).

(** Value stored in a membership array.  The arrays of openap/phase.py:21-37 hold finite
    numbers (their parameters satisfy a < b, sigma > 0). *)
Definition fval (x : ext) : R := match x with Fin r => r | _ => 0 end.

(** openap/extra/fuzzy.py:84-106 with [zero_outside_x=True] (the only use in the package).
    [tbl] pairs the arrays [x] and [xmf]. *)
Definition interp_membership (tbl : list (R * R)) (xx : R) : R :=
  if Rltb xx (fst (hd (0, 0) tbl)) then 0
  else if Rltb (fst (last tbl (0, 0))) xx then 0
  else match np_interp xx tbl with Some r => r | None => 0 end.

(** [ndarray.max()] of a non-empty array (openap/extra/fuzzy.py:139) *)
Definition rmaxl (l : list R) : R :=
  match l with [] => 0 | a :: l' => fold_left Rmax l' a end.

(** openap/extra/fuzzy.py:138-139 [defuzz(x, mfx, "lom")], on the zipped arrays *)
Definition defuzz_lom (tbl : list (R * R)) : R :=
  let m := rmaxl (map snd tbl) in
  rmaxl (map fst (filter (fun p => if Req_EM_T (snd p) m then true else false) tbl)).

(** openap/extra/fuzzy.py:132-133 [defuzz(x, mfx, "mom")] *)
Definition defuzz_mom (tbl : list (R * R)) : R :=
  let m := rmaxl (map snd tbl) in
  let sel := map fst (filter (fun p => if Req_EM_T (snd p) m then true else false) tbl) in
  fold_right Rplus 0 sel / INR (length sel).

(** [ndarray.min()] of a non-empty array (openap/extra/fuzzy.py:136) *)
Definition rminl (l : list R) : R :=
  match l with [] => 0 | a :: l' => fold_left Rmin l' a end.

(** openap/extra/fuzzy.py:135-136 [defuzz(x, mfx, "som")] *)
Definition defuzz_som (tbl : list (R * R)) : R :=
  let m := rmaxl (map snd tbl) in
  rminl (map fst (filter (fun p => if Req_EM_T (snd p) m then true else false) tbl)).
