(** * Numbers and math backends

    openap's numeric code is written against a "math backend" object
    (openap/backends/protocol.py:14-140): every method takes [b = self.backend] and
    uses [b.sqrt], [b.exp], [b.where], ... and Python's operators.  The model keeps
    that structure: [backend] is the record of operations, the model functions are
    generic in it, and this file defines the two scalar instances. *)
From Coq Require Import Reals List Bool Lra.
Import ListNotations.
Open Scope R_scope.

(** The operations of the protocol that the modelled code uses.
    openap/backends/protocol.py:14-140 (methods sqrt .. fmod, pi) and Python's
    operators + - * / ** > on backend values.
    [powi x n] is [x ** n] for a non-negative integer literal n;
    [power x y] is [b.power(x, y)] and [x ** y] for any other exponent;
    [cst] injects Python/YAML numbers. *)
Record backend : Type := mkBackend {
  T : Type;
  C : Type;
  cst : R -> T;
  add : T -> T -> T;
  sub : T -> T -> T;
  mul : T -> T -> T;
  div : T -> T -> T;
  neg : T -> T;
  powi : T -> nat -> T;
  power : T -> T -> T;
  bsqrt : T -> T;
  bexp : T -> T;
  blog : T -> T;
  bsin : T -> T;
  bcos : T -> T;
  btan : T -> T;
  barcsin : T -> T;
  barccos : T -> T;
  barctan : T -> T;
  btanh : T -> T;
  barctan2 : T -> T -> T;
  babs : T -> T;
  maximum : T -> T -> T;
  minimum : T -> T -> T;
  clip : T -> T -> T -> T;
  fmod : T -> T -> T;
  gt : T -> T -> C;
  where_ : C -> T -> T -> T;
  interp : T -> list (R * R) -> T;
  bpi : T
}.

(** ** Real-number helpers *)

(** Python's [x < y] on finite numbers (operator used throughout, e.g.
    openap/gen.py:180). *)
Definition Rltb (x y : R) : bool := if Rlt_dec x y then true else false.
(** Python's [x <= y] (e.g. openap/gen.py:369). *)
Definition Rleb (x y : R) : bool := if Rle_dec x y then true else false.

(** [np.arctan2] on finite arguments, openap/backends/numpy_backend.py:62-64
    (C99 atan2; signed zeros are not modelled, atan2(0,0)=0). *)
Definition Ratan2 (y x : R) : R :=
  if Rlt_dec 0 x then atan (y / x)
  else if Rlt_dec x 0 then
         (if Rle_dec 0 y then atan (y / x) + PI else atan (y / x) - PI)
  else if Rlt_dec 0 y then PI / 2
  else if Rlt_dec y 0 then - (PI / 2)
  else 0.

(** Truncation towards zero of a real, as an integer (C's [trunc]); used by
    [np.fmod] (openap/backends/numpy_backend.py:102-104) and [astype(int)]
    (openap/gen.py:225). *)
Definition Rtrunc (x : R) : Z :=
  if Rle_dec 0 x then Int_part x else (- Int_part (- x))%Z.

(** C [fmod] for a non-zero divisor: result has the sign of the dividend.
    openap/backends/numpy_backend.py:102-104. *)
Definition Rfmod (x y : R) : R := x - y * IZR (Rtrunc (x / y)).

(** [np.interp] inside the table: walk to the segment containing x.
    openap/backends/numpy_backend.py:90-92. *)
Fixpoint interp_from (x x0 y0 : R) (tl : list (R * R)) : R :=
  match tl with
  | [] => y0
  | (x1, y1) :: tl' =>
      if Rlt_dec x x1 then y0 + (y1 - y0) / (x1 - x0) * (x - x0)
      else interp_from x x1 y1 tl'
  end.

(** [np.interp(x, xp, fp)]: end values outside the table
    (openap/backends/numpy_backend.py:90-92).  [None] for an empty table
    (NumPy raises). *)
Definition np_interp (x : R) (tbl : list (R * R)) : option R :=
  match tbl with
  | [] => None
  | (x0, y0) :: tl => Some (if Rlt_dec x x0 then y0 else interp_from x x0 y0 tl)
  end.

(** ** Extended numbers: what a float can be

    [NaN] also stands for "an infinity whose sign depends on the sign of zero"
    (division by zero): signed zeros are not modelled. *)
Inductive ext : Type :=
| Fin (r : R)
| PInf
| NInf
| NaN.

(** Largest argument for which binary64 [exp] is finite: ln(1.797e308).
    openap/backends/numpy_backend.py:24-26. *)
Definition exp_max : R := 709.782712893384.

(** IEEE addition on extended numbers (Python [+]). *)
Definition eadd (x y : ext) : ext :=
  match x, y with
  | Fin a, Fin b => Fin (a + b)
  | NaN, _ | _, NaN => NaN
  | PInf, NInf | NInf, PInf => NaN
  | PInf, _ | _, PInf => PInf
  | NInf, _ | _, NInf => NInf
  end.

(** IEEE negation (Python unary [-]). *)
Definition eneg (x : ext) : ext :=
  match x with Fin a => Fin (- a) | PInf => NInf | NInf => PInf | NaN => NaN end.

(** IEEE subtraction (Python [-]). *)
Definition esub (x y : ext) : ext :=
  match x, y with
  | Fin a, Fin b => Fin (a - b)
  | _, _ => eadd x (eneg y)
  end.

(** infinity times a finite number *)
Definition einf_mul (pos : bool) (a : R) : ext :=
  if Rlt_dec 0 a then (if pos then PInf else NInf)
  else if Rlt_dec a 0 then (if pos then NInf else PInf)
  else NaN.

(** IEEE multiplication (Python [*]). *)
Definition emul (x y : ext) : ext :=
  match x, y with
  | Fin a, Fin b => Fin (a * b)
  | NaN, _ | _, NaN => NaN
  | PInf, Fin a | Fin a, PInf => einf_mul true a
  | NInf, Fin a | Fin a, NInf => einf_mul false a
  | PInf, PInf | NInf, NInf => PInf
  | PInf, NInf | NInf, PInf => NInf
  end.

(** IEEE division on NumPy values (Python [/] on arrays, [np.divide]);
    division by zero is [NaN], see [ext]. *)
Definition ediv (x y : ext) : ext :=
  match x, y with
  | Fin a, Fin b => if Req_EM_T b 0 then NaN else Fin (a / b)
  | NaN, _ | _, NaN => NaN
  | Fin _, (PInf | NInf) => Fin 0
  | PInf, Fin b => einf_mul true b
  | NInf, Fin b => einf_mul false b
  | (PInf | NInf), (PInf | NInf) => NaN
  end.

(** [x ** n] for an integer literal n >= 0. *)
Definition epowi (x : ext) (n : nat) : ext :=
  match x with
  | Fin a => Fin (a ^ n)
  | NaN => match n with O => Fin 1 | _ => NaN end
  | PInf => match n with O => Fin 1 | _ => PInf end
  | NInf => match n with O => Fin 1 | _ => if Nat.even n then PInf else NInf end
  end.

(** [np.power(x, y)] and [x ** y] with a non-literal or fractional exponent
    (openap/backends/numpy_backend.py:32-34).  Negative bases are NaN unless
    the exponent is an integer; infinite operands are left unspecified ([NaN]). *)
Definition epower (x y : ext) : ext :=
  match x, y with
  | Fin a, Fin b =>
      if Rlt_dec 0 a then Fin (Rpower a b)
      else if Rlt_dec a 0 then
             (if Req_EM_T b (IZR (Int_part b)) then Fin (powerRZ a (Int_part b)) else NaN)
      else if Rlt_dec 0 b then Fin 0
      else if Rlt_dec b 0 then PInf
      else Fin 1
  | _, _ => NaN
  end.

(** [np.sqrt], openap/backends/numpy_backend.py:20-22. *)
Definition esqrt (x : ext) : ext :=
  match x with
  | Fin a => if Rle_dec 0 a then Fin (sqrt a) else NaN
  | PInf => PInf
  | _ => NaN
  end.

(** [np.exp] with overflow to +inf, openap/backends/numpy_backend.py:24-26. *)
Definition eexp (x : ext) : ext :=
  match x with
  | Fin a => if Rle_dec a exp_max then Fin (exp a) else PInf
  | PInf => PInf
  | NInf => Fin 0
  | NaN => NaN
  end.

(** [np.log], openap/backends/numpy_backend.py:28-30. *)
Definition elog (x : ext) : ext :=
  match x with
  | Fin a => if Rlt_dec 0 a then Fin (ln a)
             else if Rlt_dec a 0 then NaN else NInf
  | PInf => PInf
  | _ => NaN
  end.

(** Functions that are total on finite reals and NaN on non-finite arguments
    ([np.sin], [np.cos], [np.tan]; openap/backends/numpy_backend.py:38-48). *)
Definition elift (f : R -> R) (x : ext) : ext :=
  match x with Fin a => Fin (f a) | _ => NaN end.

(** [np.arctan], [np.tanh]: finite limits at the infinities. *)
Definition elift_lim (f : R -> R) (hi : R) (x : ext) : ext :=
  match x with Fin a => Fin (f a) | PInf => Fin hi | NInf => Fin (- hi) | NaN => NaN end.

(** [np.arcsin]/[np.arccos]: NaN outside [-1,1],
    openap/backends/numpy_backend.py:50-56. *)
Definition eunit (f : R -> R) (x : ext) : ext :=
  match x with
  | Fin a => if Rle_dec (-1) a then (if Rle_dec a 1 then Fin (f a) else NaN) else NaN
  | _ => NaN
  end.

(** [np.arctan2]; infinite operands unspecified. openap/backends/numpy_backend.py:62-64. *)
Definition eatan2 (y x : ext) : ext :=
  match y, x with Fin a, Fin b => Fin (Ratan2 a b) | _, _ => NaN end.

(** [np.abs], openap/backends/numpy_backend.py:68-70. *)
Definition eabs (x : ext) : ext :=
  match x with Fin a => Fin (Rabs a) | PInf | NInf => PInf | NaN => NaN end.

(** [np.maximum] (propagates NaN), openap/backends/numpy_backend.py:76-78. *)
Definition emax (x y : ext) : ext :=
  match x, y with
  | Fin a, Fin b => Fin (Rmax a b)
  | NaN, _ | _, NaN => NaN
  | PInf, _ | _, PInf => PInf
  | NInf, z | z, NInf => z
  end.

(** [np.minimum] (propagates NaN), openap/backends/numpy_backend.py:80-82. *)
Definition emin (x y : ext) : ext :=
  match x, y with
  | Fin a, Fin b => Fin (Rmin a b)
  | NaN, _ | _, NaN => NaN
  | NInf, _ | _, NInf => NInf
  | PInf, z | z, PInf => z
  end.

(** [np.clip(x, lo, hi)] = minimum(maximum(x, lo), hi),
    openap/backends/numpy_backend.py:84-86. *)
Definition eclip (x lo hi : ext) : ext := emin (emax x lo) hi.

(** [np.fmod], openap/backends/numpy_backend.py:102-104. *)
Definition efmod (x y : ext) : ext :=
  match x, y with
  | Fin a, Fin b => if Req_EM_T b 0 then NaN else Fin (Rfmod a b)
  | Fin a, (PInf | NInf) => Fin a
  | _, _ => NaN
  end.

(** Python [x > y]; [None] = unknown because an operand is [NaN]. *)
Definition egt (x y : ext) : option bool :=
  match x, y with
  | Fin a, Fin b => Some (Rltb b a)
  | NaN, _ | _, NaN => None
  | PInf, PInf => Some false
  | PInf, _ => Some true
  | _, PInf => Some false
  | NInf, _ => Some false
  | Fin _, NInf => Some true
  end.

(** [np.where(c, x, y)], openap/backends/numpy_backend.py:72-74. *)
Definition ewhere (c : option bool) (x y : ext) : ext :=
  match c with Some true => x | Some false => y | None => NaN end.

(** [np.interp] on an extended abscissa, openap/backends/numpy_backend.py:90-92. *)
Definition einterp (x : ext) (tbl : list (R * R)) : ext :=
  match x with
  | Fin a => match np_interp a tbl with Some r => Fin r | None => NaN end
  | _ => NaN
  end.

(** NumPy on scalars: openap/backends/numpy_backend.py:12-110. *)
Definition NP : backend := {|
  T := ext; C := option bool;
  cst := Fin; add := eadd; sub := esub; mul := emul; div := ediv; neg := eneg;
  powi := epowi; power := epower;
  bsqrt := esqrt; bexp := eexp; blog := elog;
  bsin := elift sin; bcos := elift cos; btan := elift tan;
  barcsin := eunit asin; barccos := eunit acos;
  barctan := elift_lim atan (PI / 2); btanh := elift_lim tanh 1;
  barctan2 := eatan2; babs := eabs;
  maximum := emax; minimum := emin; clip := eclip; fmod := efmod;
  gt := egt; where_ := ewhere; interp := einterp; bpi := Fin PI
|}.

(** Plain real arithmetic with Coq's total functions.  This is only a proof device
    (the "ideal formula"); property theorems are stated over [NP]. *)
Definition RB : backend := {|
  T := R; C := bool;
  cst := fun r => r; add := Rplus; sub := Rminus; mul := Rmult; div := Rdiv; neg := Ropp;
  powi := pow; power := Rpower;
  bsqrt := sqrt; bexp := exp; blog := ln;
  bsin := sin; bcos := cos; btan := tan;
  barcsin := asin; barccos := acos; barctan := atan; btanh := tanh;
  barctan2 := Ratan2; babs := Rabs;
  maximum := Rmax; minimum := Rmin;
  clip := fun x lo hi => Rmin (Rmax x lo) hi;
  fmod := Rfmod;
  gt := fun x y => Rltb y x;
  where_ := fun (c : bool) x y => if c then x else y;
  interp := fun x tbl => match np_interp x tbl with Some r => r | None => 0 end;
  bpi := PI
|}.
