(** * The JAX backend with automatic differentiation

    A value inside [jax.jvp] or [jax.grad] carries its number and, when it depends on the input that is
    differentiated, its derivative information: the tangent that [jax.jvp] propagates forwards and the pullback that
    [jax.grad] applies backwards.  Numbers are as for NumPy ([ext]); JAX's default single precision is not modelled.
    The local derivatives are JAX's own rules for its primitives (jax/_src/lax/lax.py), which are part of the trusted
    reading.  [jax.grad] adds up the contributions of several uses of a value before it goes on; here they are added
    at the input, which is the same for finite numbers. *)
From Coq Require Import Reals List Bool.
From Verif Require Import Num.
Import ListNotations.
Open Scope R_scope.

(** A JAX value: the number; [None] when the value does not depend on the differentiated input, otherwise tangent and
    pullback (openap/backends/jax_backend.py:10-40) *)
Record jx : Type := mkJ { j_val : ext; j_der : option (ext * (ext -> ext)) }.

(** a number that is not differentiated (openap/jax.py:7-24) *)
Definition j_const (r : R) : jx := mkJ (Fin r) None.
(** the input that is differentiated (openap/jax.py:23-24) *)
Definition j_var (r : R) : jx := mkJ (Fin r) (Some (Fin 1, fun c => c)).
(** the result of [jax.jvp(f, (x,), (1.0,))[1]]: zero when [f] does not use [x] (openap/jax.py:23-24) *)
Definition j_jvp (a : jx) : ext := match j_der a with Some (t, _) => t | None => Fin 0 end.
(** the result of [jax.grad(f)(x)]: the pullback of 1 (openap/jax.py:23-24) *)
Definition j_grad (a : jx) : ext := match j_der a with Some (_, k) => k (Fin 1) | None => Fin 0 end.

(** a primitive with one operand, its result [v] and its local derivative [p]
    (openap/backends/jax_backend.py:44-76) *)
Definition j_un (v p : ext) (a : jx) : jx :=
  mkJ v (match j_der a with
         | None => None
         | Some (t, k) => Some (emul t p, fun c => k (emul c p))
         end).
(** a primitive with two operands, its result [v] and its local derivatives [p], [q]
    (openap/backends/jax_backend.py:53-106) *)
Definition j_bin (v p q : ext) (a b : jx) : jx :=
  mkJ v (match j_der a, j_der b with
         | None, None => None
         | Some (t, k), None => Some (emul t p, fun c => k (emul c p))
         | None, Some (u, l) => Some (emul u q, fun c => l (emul c q))
         | Some (t, k), Some (u, l) => Some (eadd (emul t p) (emul u q), fun c => eadd (k (emul c p)) (l (emul c q)))
         end).

(** are two numbers equal? (NaN is not equal to anything; JAX's rules for max, min and pow,
    openap/backends/jax_backend.py:53-54, 87-91) *)
Definition eeqb (x y : ext) : bool :=
  match x, y with
  | Fin a, Fin b => if Req_EM_T a b then true else false
  | PInf, PInf | NInf, NInf => true
  | _, _ => false
  end.
(** local derivative of max and min with respect to [x]: 1 where [x] is the result, shared when both are
    (openap/backends/jax_backend.py:87-91) *)
Definition balanced (x ans y : ext) : ext :=
  ediv (if eeqb x ans then Fin 1 else Fin 0) (if eeqb y ans then Fin 2 else Fin 1).
(** sign of a number (derivative of [abs]; openap/backends/jax_backend.py:81-82) *)
Definition esign (x : ext) : ext :=
  match x with
  | Fin a => if Rlt_dec 0 a then Fin 1 else if Rlt_dec a 0 then Fin (-1) else Fin 0
  | PInf => Fin 1 | NInf => Fin (-1) | NaN => NaN
  end.
(** [jnp.power(x, y)] by [x] (openap/backends/jax_backend.py:53-54) *)
Definition pow_lhs (x y : ext) : ext :=
  if eeqb y (Fin 0) then Fin 0 else emul y (epower x (esub y (Fin 1))).
(** [jnp.power(x, y)] by [y] (openap/backends/jax_backend.py:53-54) *)
Definition pow_rhs (x ans : ext) : ext := emul (elog (if eeqb x (Fin 0) then Fin 1 else x)) ans.
(** slope of [jnp.interp] in the segment that holds [x] (openap/backends/jax_backend.py:98-106) *)
Fixpoint slope_from (x x0 y0 : R) (tl : list (R * R)) : R :=
  match tl with
  | [] => 0
  | (x1, y1) :: tl' =>
      let s := if Req_EM_T x1 x0 then 0 else (y1 - y0) / (x1 - x0) in
      match tl' with
      | [] => if Rle_dec x x1 then s else 0
      | _ => if Rlt_dec x x1 then s else slope_from x x1 y1 tl'
      end
  end.
(** slope of [jnp.interp] (openap/backends/jax_backend.py:98-106) *)
Definition slope (x : ext) (tbl : list (R * R)) : ext :=
  match x, tbl with
  | Fin a, (x0, y0) :: tl => Fin (if Rlt_dec a x0 then 0 else slope_from a x0 y0 tl)
  | _, _ => NaN
  end.

(** [jnp.maximum] (openap/backends/jax_backend.py:87-88) *)
Definition j_max (a b : jx) : jx :=
  let v := emax (j_val a) (j_val b) in
  j_bin v (balanced (j_val a) v (j_val b)) (balanced (j_val b) v (j_val a)) a b.
(** [jnp.minimum] (openap/backends/jax_backend.py:90-91) *)
Definition j_min (a b : jx) : jx :=
  let v := emin (j_val a) (j_val b) in
  j_bin v (balanced (j_val a) v (j_val b)) (balanced (j_val b) v (j_val a)) a b.
(** [jnp.where]: the tangent of the chosen branch; backwards, the other branch receives zero
    (openap/backends/jax_backend.py:84-85) *)
Definition j_where (c : option bool) (a b : jx) : jx :=
  mkJ (ewhere c (j_val a) (j_val b))
      (match j_der a, j_der b with
       | None, None => None
       | Some (t, k), None => Some (ewhere c t (Fin 0), fun z => k (ewhere c z (Fin 0)))
       | None, Some (u, l) => Some (ewhere c (Fin 0) u, fun z => l (ewhere c (Fin 0) z))
       | Some (t, k), Some (u, l) =>
           Some (ewhere c t u, fun z => eadd (k (ewhere c z (Fin 0))) (l (ewhere c (Fin 0) z)))
       end).
(** [jnp.fmod] by its second operand: minus the truncated quotient (openap/backends/jax_backend.py:114-115) *)
Definition fmod_rhs (x y : ext) : ext :=
  match x, y with
  | Fin a, Fin b => if Req_EM_T b 0 then NaN else Fin (- IZR (Rtrunc (a / b)))
  | _, _ => NaN
  end.

(** openap/backends/jax_backend.py:43-121 and Python's operators on JAX values *)
Definition JB : backend := {|
  T := jx; C := option bool;
  cst := j_const;
  add := fun a b => j_bin (eadd (j_val a) (j_val b)) (Fin 1) (Fin 1) a b;
  sub := fun a b => j_bin (esub (j_val a) (j_val b)) (Fin 1) (Fin (-1)) a b;
  mul := fun a b => j_bin (emul (j_val a) (j_val b)) (j_val b) (j_val a) a b;
  div := fun a b => j_bin (ediv (j_val a) (j_val b)) (ediv (Fin 1) (j_val b))
                          (ediv (eneg (j_val a)) (epowi (j_val b) 2)) a b;
  neg := fun a => j_un (eneg (j_val a)) (Fin (-1)) a;
  powi := fun a n => j_un (epowi (j_val a) n)
                          (match n with O => Fin 0 | S m => emul (Fin (INR n)) (epowi (j_val a) m) end) a;
  power := fun a b => let v := epower (j_val a) (j_val b) in
                      j_bin v (pow_lhs (j_val a) (j_val b)) (pow_rhs (j_val a) v) a b;
  bsqrt := fun a => let v := esqrt (j_val a) in j_un v (ediv (Fin 0.5) v) a;
  bexp := fun a => let v := eexp (j_val a) in j_un v v a;
  blog := fun a => j_un (elog (j_val a)) (ediv (Fin 1) (j_val a)) a;
  bsin := fun a => j_un (elift sin (j_val a)) (elift cos (j_val a)) a;
  bcos := fun a => j_un (elift cos (j_val a)) (eneg (elift sin (j_val a))) a;
  btan := fun a => let v := elift tan (j_val a) in j_un v (eadd (Fin 1) (epowi v 2)) a;
  barcsin := fun a => j_un (eunit asin (j_val a))
                           (ediv (Fin 1) (esqrt (esub (Fin 1) (epowi (j_val a) 2)))) a;
  barccos := fun a => j_un (eunit acos (j_val a))
                           (ediv (Fin (-1)) (esqrt (esub (Fin 1) (epowi (j_val a) 2)))) a;
  barctan := fun a => j_un (elift_lim atan (PI / 2) (j_val a)) (ediv (Fin 1) (eadd (Fin 1) (epowi (j_val a) 2))) a;
  btanh := fun a => let v := elift_lim tanh 1 (j_val a) in j_un v (esub (Fin 1) (epowi v 2)) a;
  barctan2 := fun a b => let s := eadd (epowi (j_val a) 2) (epowi (j_val b) 2) in
                         j_bin (eatan2 (j_val a) (j_val b)) (ediv (j_val b) s) (ediv (eneg (j_val a)) s) a b;
  babs := fun a => j_un (eabs (j_val a)) (esign (j_val a)) a;
  maximum := j_max; minimum := j_min;
  clip := fun a lo hi => j_min (j_max a lo) hi;
  fmod := fun a b => j_bin (efmod (j_val a) (j_val b)) (Fin 1) (fmod_rhs (j_val a) (j_val b)) a b;
  gt := fun a b => egt (j_val a) (j_val b);
  where_ := j_where;
  interp := fun a tbl => j_un (einterp (j_val a) tbl) (slope (j_val a) tbl) a;
  bpi := j_const PI
|}.
