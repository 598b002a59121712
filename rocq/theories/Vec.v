(** * NumPy arrays and the [ndarrayconvert] decorator

    Only 0- and 1-dimensional arrays are modelled. *)
From Coq Require Import Reals List Bool Arith.
From Verif Require Import Num Functions.
Import ListNotations.
Open Scope list_scope.

(** A NumPy value: a scalar (Python float, NumPy scalar or 0-d array), a 1-d array, or the
    outcome of an operation whose operands could not be broadcast (ValueError, which then
    aborts the call).  openap/backends/numpy_backend.py:12-110 on array arguments. *)
Inductive varr (A : Type) : Type :=
| Sc (x : A)
| Ar (l : list A)
| VErr.
Arguments Sc {A} x.
Arguments Ar {A} l.
Arguments VErr {A}.

(** elementwise function of one array (NumPy ufuncs such as [np.sqrt],
    openap/backends/numpy_backend.py:20-70) *)
Definition vmap1 {A B} (g : A -> B) (u : varr A) : varr B :=
  match u with Sc x => Sc (g x) | Ar l => Ar (map g l) | VErr => VErr end.

(** zip of two lists (the shorter length wins; only used on equal lengths), helper of NumPy's elementwise loop,
    openap/backends/numpy_backend.py:32-34 *)
Fixpoint zipw {A B D} (g : A -> B -> D) (l : list A) (m : list B) : list D :=
  match l, m with
  | x :: l', y :: m' => g x y :: zipw g l' m'
  | _, _ => []
  end.

(** NumPy broadcasting of two 1-d arrays: equal lengths, or one of them of length 1
    (openap/backends/numpy_backend.py:32-34, 62-64, 76-86 and Python's operators on arrays) *)
Definition vmap2 {A B D} (g : A -> B -> D) (u : varr A) (v : varr B) : varr D :=
  match u, v with
  | VErr, _ | _, VErr => VErr
  | Sc x, Sc y => Sc (g x y)
  | Sc x, Ar m => Ar (map (g x) m)
  | Ar l, Sc y => Ar (map (fun x => g x y) l)
  | Ar l, Ar m =>
      if Nat.eqb (length l) (length m) then Ar (zipw g l m)
      else match l, m with
           | [x], _ => Ar (map (g x) m)
           | _, [y] => Ar (map (fun x => g x y) l)
           | _, _ => VErr
           end
  end.

(** three operands ([np.where], [np.clip]; openap/backends/numpy_backend.py:72-74, 84-86) *)
Definition vmap3 {A B D E} (g : A -> B -> D -> E) (u : varr A) (v : varr B) (w : varr D) : varr E :=
  vmap2 (fun k x => k x) (vmap2 g u v) w.

(** NumPy on arrays: openap/backends/numpy_backend.py:12-110 *)
Definition VB : backend := {|
  T := varr ext; C := varr (option bool);
  cst := fun r => Sc (Fin r);
  add := vmap2 eadd; sub := vmap2 esub; mul := vmap2 emul; div := vmap2 ediv; neg := vmap1 eneg;
  powi := fun x n => vmap1 (fun a => epowi a n) x; power := vmap2 epower;
  bsqrt := vmap1 esqrt; bexp := vmap1 eexp; blog := vmap1 elog;
  bsin := vmap1 (elift sin); bcos := vmap1 (elift cos); btan := vmap1 (elift tan);
  barcsin := vmap1 (eunit asin); barccos := vmap1 (eunit acos);
  barctan := vmap1 (elift_lim atan (PI / 2)); btanh := vmap1 (elift_lim tanh 1);
  barctan2 := vmap2 eatan2; babs := vmap1 eabs;
  maximum := vmap2 emax; minimum := vmap2 emin; clip := vmap3 eclip; fmod := vmap2 efmod;
  gt := vmap2 egt; where_ := vmap3 ewhere;
  interp := fun x tbl => vmap1 (fun a => einterp a tbl) x;
  bpi := Sc (Fin PI)
|}.

(** openap/extra/__init__.py:60-72: scalars become 1-element arrays *)
Definition to_array {A} (v : varr A) : varr A :=
  match v with Sc x => Ar [x] | _ => v end.

(** openap/extra/__init__.py:80-90 [to_scalar]: 1-element arrays become scalars *)
Definition to_scalar {A} (v : varr A) : varr A :=
  match v with Ar [x] => Sc x | _ => v end.

(** openap/extra/__init__.py:46-95: the decorated call.  Arguments left at their defaults are
    not converted; the theorems cover that because they hold for any mix of scalars and
    arrays.  The decorators of the methods called inside are not modelled again: they only
    turn 1-element arrays into scalars and back, which broadcast alike. *)
Definition ndarrayconvert (g : list (varr ext) -> list (varr ext)) (args : list (varr ext))
    : list (varr ext) :=
  map to_scalar (g (map to_array args)).

(** A call of the public method, decorated or not (openap/extra/__init__.py:46-95) *)
Definition call (F : fn) (args : list (varr ext)) : list (varr ext) :=
  if fn_decorated F then ndarrayconvert (fn_body F VB) args else fn_body F VB args.
