(** * The CasADi backend: symbolic expressions

    openap/backends/casadi_backend.py builds expression graphs; a graph is modelled as a tree
    and evaluated at numbers given to its free symbols. *)
From Coq Require Import Reals List Bool.
From Verif Require Import Num.
Import ListNotations.
Open Scope R_scope.

(** CasADi operations of one argument used by the backend,
    openap/backends/casadi_backend.py:43-72, 76-77 *)
Inductive un : Type :=
| UNeg | USqrt | UExp | ULog | USin | UCos | UTan | UAsin | UAcos | UAtan | UTanh | UAbs
| UNot | UPowi (n : nat).

(** CasADi operations of two arguments, openap/backends/casadi_backend.py:52-53, 73-88, 122-123
    and Python's operators on expressions; [BIfz c x] is CasADi's [if_else_zero] *)
Inductive bi : Type :=
| BAdd | BSub | BMul | BDiv | BPow | BAtan2 | BFmax | BFmin | BFmod | BGt | BIfz.

(** Expression trees: symbols, numbers, operations, look-up tables
    (openap/backends/casadi_backend.py:92-99) *)
Inductive sx : Type :=
| SVar (i : nat)
| SLit (r : R)
| SUn (o : un) (x : sx)
| SBi (o : bi) (x y : sx)
| SLut (tbl : list (R * R)) (x : sx).

(** CasADi's [fmax] (C's [fmax]: the non-NaN operand if one is NaN),
    openap/backends/casadi_backend.py:82-83 *)
Definition cfmax (x y : ext) : ext :=
  match x, y with NaN, _ => y | _, NaN => x | _, _ => emax x y end.
(** CasADi's [fmin], openap/backends/casadi_backend.py:85-86 *)
Definition cfmin (x y : ext) : ext :=
  match x, y with NaN, _ => y | _, NaN => x | _, _ => emin x y end.
(** a comparison is the number 0 or 1; false on NaN (Python's [>] on expressions) *)
Definition cgt (x y : ext) : ext :=
  match egt x y with Some true => Fin 1 | _ => Fin 0 end.
(** logical negation of a number, part of CasADi's [if_else],
    openap/backends/casadi_backend.py:79-80 *)
Definition cnot (x : ext) : ext :=
  match x with Fin a => if Req_EM_T a 0 then Fin 1 else Fin 0 | _ => Fin 0 end.
(** [if_else_zero c x]: x if c is non-zero, else 0; part of CasADi's [if_else],
    openap/backends/casadi_backend.py:79-80 *)
Definition cifz (c x : ext) : ext :=
  match c with Fin a => if Req_EM_T a 0 then Fin 0 else x | _ => x end.

(** the straight line through two table points *)
Definition seg_line (x x0 y0 x1 y1 : R) : R := y0 + (y1 - y0) / (x1 - x0) * (x - x0).
(** CasADi's linear interpolant: the segment is searched and the first and last segments are
    prolonged (openap/backends/casadi_backend.py:92-99) *)
Fixpoint lut_from (x x0 y0 x1 y1 : R) (tl : list (R * R)) : R :=
  match tl with
  | [] => seg_line x x0 y0 x1 y1
  | (x2, y2) :: tl' => if Rlt_dec x x1 then seg_line x x0 y0 x1 y1 else lut_from x x1 y1 x2 y2 tl'
  end.
(** the same on extended numbers; a table needs two points
    (openap/backends/casadi_backend.py:92-99) *)
Definition clut (tbl : list (R * R)) (x : ext) : ext :=
  match x, tbl with
  | Fin a, (x0, y0) :: (x1, y1) :: tl => Fin (lut_from a x0 y0 x1 y1 tl)
  | _, _ => NaN
  end.

(** numeric meaning of the one-argument operations (openap/backends/casadi_backend.py:43-77) *)
Definition eval_un (o : un) (x : ext) : ext :=
  match o with
  | UNeg => eneg x | USqrt => esqrt x | UExp => eexp x | ULog => elog x
  | USin => elift sin x | UCos => elift cos x | UTan => elift tan x
  | UAsin => eunit asin x | UAcos => eunit acos x
  | UAtan => elift_lim atan (PI / 2) x | UTanh => elift_lim tanh 1 x
  | UAbs => eabs x | UNot => cnot x | UPowi n => epowi x n
  end.

(** numeric meaning of the two-argument operations (openap/backends/casadi_backend.py:52-123) *)
Definition eval_bi (o : bi) (x y : ext) : ext :=
  match o with
  | BAdd => eadd x y | BSub => esub x y | BMul => emul x y | BDiv => ediv x y
  | BPow => epower x y | BAtan2 => eatan2 x y | BFmax => cfmax x y | BFmin => cfmin x y
  | BFmod => efmod x y | BGt => cgt x y | BIfz => cifz x y
  end.

(** Evaluation of an expression when its symbols take the values [env]: calling the CasADi
    function made from the expression (usage in openap/backends/casadi_backend.py:12-22). *)
Fixpoint eval (env : nat -> ext) (e : sx) : ext :=
  match e with
  | SVar i => env i
  | SLit r => Fin r
  | SUn o x => eval_un o (eval env x)
  | SBi o x y => eval_bi o (eval env x) (eval env y)
  | SLut tbl x => clut tbl (eval env x)
  end.

(** openap/backends/casadi_backend.py:10-129.  [if_else(c, x, y)] is built by CasADi as
    [if_else_zero(c, x) + if_else_zero(!c, y)]; [clip] is [fmax(min, fmin(x, max))];
    [tanh] is not offered by the class (the code using it does not go through a backend). *)
Definition CA : backend := {|
  T := sx; C := sx;
  cst := SLit; add := SBi BAdd; sub := SBi BSub; mul := SBi BMul; div := SBi BDiv; neg := SUn UNeg;
  powi := fun x n => SUn (UPowi n) x; power := SBi BPow;
  bsqrt := SUn USqrt; bexp := SUn UExp; blog := SUn ULog;
  bsin := SUn USin; bcos := SUn UCos; btan := SUn UTan;
  barcsin := SUn UAsin; barccos := SUn UAcos; barctan := SUn UAtan; btanh := SUn UTanh;
  barctan2 := SBi BAtan2; babs := SUn UAbs;
  maximum := SBi BFmax; minimum := SBi BFmin;
  clip := fun x lo hi => SBi BFmax lo (SBi BFmin x hi);
  fmod := SBi BFmod; gt := SBi BGt;
  where_ := fun c x y => SBi BAdd (SBi BIfz c x) (SBi BIfz (SUn UNot c) y);
  interp := fun x tbl => SLut tbl x;
  bpi := SLit PI
|}.
