(** * NumPy integer arguments

    [ndarrayconvert] (openap/extra/__init__.py:52-75) keeps the type of what it is given: an integer stays an integer, in
    the width in which it is stored.  The backend [IB] computes with such values next to floats, following NumPy's rules
    for operators and ufuncs on arrays: integer operations wrap around, an integer and a float give a float, Python's own
    integers adapt to the array.  One element of an array at a time; floats are the extended reals of [NP], without
    rounding (an integer of more than 53 bits is not rounded either). *)
From Coq Require Import Reals ZArith Bool.
From Verif Require Import Num.
Open Scope R_scope.

(** widths of NumPy's integers (numpy.int8 ... numpy.uint64; openap/extra/__init__.py:60,63) *)
Inductive width : Type := W8 | W16 | W32 | W64.
(** number of bits of a width, see [width] *)
Definition bits (w : width) : Z := match w with W8 => 8 | W16 => 16 | W32 => 32 | W64 => 64 end%Z.
(** a NumPy integer type: signed or not, and its width (openap/extra/__init__.py:60,63) *)
Record ity : Type := mkIty { i_signed : bool; i_width : width }.
(** the least number of a type ([np.iinfo(t).min]; openap/extra/__init__.py:60,63) *)
Definition ilo (t : ity) : Z := if i_signed t then (- 2 ^ (bits (i_width t) - 1))%Z else 0%Z.
(** the greatest number of a type ([np.iinfo(t).max]; openap/extra/__init__.py:60,63) *)
Definition ihi (t : ity) : Z := if i_signed t then (2 ^ (bits (i_width t) - 1) - 1)%Z else (2 ^ bits (i_width t) - 1)%Z.
(** a number can be stored in a type (openap/extra/__init__.py:60,63) *)
Definition in_type (t : ity) (z : Z) : bool := (Z.leb (ilo t) z && Z.leb z (ihi t))%bool.
(** the number that remains of [z] in a type: two's complement (operators on integer arrays, e.g. openap/thrust.py:118) *)
Definition wrap (t : ity) (z : Z) : Z := (ilo t + (z - ilo t) mod 2 ^ bits (i_width t))%Z.
(** the wider of two widths, see [promote] *)
Definition wmax (v w : width) : width := if Z.leb (bits v) (bits w) then w else v.
(** the next width, see [promote]; 64 bits have none *)
Definition wider (w : width) : option width :=
  match w with W8 => Some W16 | W16 => Some W32 | W32 => Some W64 | W64 => None end.
(** common type of two integer types ([np.result_type]); [None] is float64 (operators on two arrays, e.g.
    openap/fuel.py:196) *)
Definition promote (t u : ity) : option ity :=
  match i_signed t, i_signed u with
  | true, true => Some (mkIty true (wmax (i_width t) (i_width u)))
  | false, false => Some (mkIty false (wmax (i_width t) (i_width u)))
  | s, _ =>
      let sw := if s then i_width t else i_width u in
      let uw := if s then i_width u else i_width t in
      if Z.ltb (bits uw) (bits sw) then Some (mkIty true sw)
      else match wider uw with Some w => Some (mkIty true w) | None => None end
  end.

(** A value during a call (openap/extra/__init__.py:52-77): an element of an integer array, a Python integer of the source
    or of the caller, a float64, or [Bad]: an OverflowError (a Python integer that does not fit the array), a computation
    in half or single precision (NumPy's functions on 8 and 16 bit integers), or an operation that is not modelled. *)
Inductive inum : Type :=
| A (t : ity) (z : Z)
| KI (z : Z)
| Fl (x : ext)
| Bad.
(** the number meant (openap/extra/__init__.py:60,63) *)
Definition val (x : inum) : ext :=
  match x with A _ z | KI z => Fin (IZR z) | Fl v => v | Bad => NaN end.
(** the same number as a float array, what a caller gets from [np.asarray(x, dtype=float)] (openap/extra/__init__.py:63) *)
Definition as_float (x : inum) : inum := Fl (val x).

(** a Python literal; whole numbers count as Python integers.  The floats of the source with whole values (e.g. 11000.0,
    openap/aero.py:108; r_earth, openap/geo.py:31) are therefore read as integers: theorems that depend on it take the
    argument that meets them as a float. *)
Definition icst (r : R) : inum := if Req_EM_T r (IZR (Int_part r)) then KI (Int_part r) else Fl (Fin r).

(** + - * , maximum and minimum of two values: in integers if no float takes part (e.g. openap/thrust.py:199,
    openap/emission.py:157, openap/fuel.py:196) *)
Definition int2 (g : Z -> Z -> Z) (fl : ext -> ext -> ext) (x y : inum) : inum :=
  match x, y with
  | Bad, _ | _, Bad => Bad
  | A t z, A u w => match promote t u with Some s => A s (wrap s (g z w)) | None => Fl (fl (val x) (val y)) end
  | A t z, KI w => if in_type t w then A t (wrap t (g z w)) else Bad
  | KI z, A u w => if in_type u z then A u (wrap u (g z w)) else Bad
  | _, _ => Fl (fl (val x) (val y))
  end.
(** Python's [/] ([np.true_divide]): float64 for integers of every width (e.g. openap/fuel.py:114) *)
Definition fl2 (fl : ext -> ext -> ext) (x y : inum) : inum :=
  match x, y with Bad, _ | _, Bad => Bad | _, _ => Fl (fl (val x) (val y)) end.
(** [np.arctan2], [np.fmod], [np.power]: float64 if a float takes part; integer arrays among themselves are not modelled
    (openap/backends/numpy_backend.py:32-34, 62-64, 102-104) *)
Definition fun2 (fl : ext -> ext -> ext) (x y : inum) : inum :=
  match x, y with
  | Bad, _ | _, Bad => Bad
  | A _ _, A _ _ | A _ _, KI _ | KI _, A _ _ => Bad
  | _, _ => Fl (fl (val x) (val y))
  end.
(** [np.sqrt], [np.exp], [np.sin], ...: float16 for 8 bit integers, float32 for 16 bit integers, float64 for wider ones
    (openap/backends/numpy_backend.py:20-60) *)
Definition fun1 (fl : ext -> ext) (x : inum) : inum :=
  match x with
  | Bad => Bad
  | A t _ => match i_width t with W8 | W16 => Bad | W32 | W64 => Fl (fl (val x)) end
  | _ => Fl (fl (val x))
  end.
(** unary minus, [np.abs] and [x ** n]: integers stay integers (openap/thrust.py:118, 196) *)
Definition int1 (g : Z -> Z) (fl : ext -> ext) (x : inum) : inum :=
  match x with
  | Bad => Bad
  | A t z => A t (wrap t (g z))
  | _ => Fl (fl (val x))
  end.
(** [np.clip] with Python integers as bounds: bounds outside the type do not matter
    (openap/backends/numpy_backend.py:84-86, openap/aero.py:103) *)
Definition iclip (x lo hi : inum) : inum :=
  match x, lo, hi with
  | Bad, _, _ | _, Bad, _ | _, _, Bad => Bad
  | A t z, KI l, KI h =>
      let r := Z.min (Z.max z l) h in if in_type t r then A t r else Bad
  | A _ _, Fl _, Fl _ => Fl (eclip (val x) (val lo) (val hi))
  | A _ _, _, _ => Bad
  | _, A _ _, _ | _, _, A _ _ => Bad
  | _, _, _ => Fl (eclip (val x) (val lo) (val hi))
  end.
(** Python's [>]: exact, also for Python integers that do not fit the array (openap/thrust.py:241) *)
Definition igt (x y : inum) : option bool := egt (val x) (val y).
(** [np.where] on floats (openap/backends/numpy_backend.py:72-74); integer alternatives are not modelled *)
Definition iwhere (c : option bool) (x y : inum) : inum :=
  match x, y with
  | Bad, _ | _, Bad | A _ _, _ | _, A _ _ => Bad
  | _, _ => Fl (ewhere c (val x) (val y))
  end.

(** NumPy on integers and floats: openap/backends/numpy_backend.py:12-110 *)
Definition IB : backend := {|
  T := inum; C := option bool;
  cst := icst;
  add := int2 Z.add eadd; sub := int2 Z.sub esub; mul := int2 Z.mul emul; div := fl2 ediv;
  neg := int1 Z.opp eneg;
  powi := fun x n => int1 (fun z => (z ^ Z.of_nat n)%Z) (fun v => epowi v n) x; power := fun2 epower;
  bsqrt := fun1 esqrt; bexp := fun1 eexp; blog := fun1 elog;
  bsin := fun1 (elift sin); bcos := fun1 (elift cos); btan := fun1 (elift tan);
  barcsin := fun1 (eunit asin); barccos := fun1 (eunit acos);
  barctan := fun1 (elift_lim atan (PI / 2)); btanh := fun1 (elift_lim tanh 1);
  barctan2 := fun2 eatan2; babs := int1 Z.abs eabs;
  maximum := int2 Z.max emax; minimum := int2 Z.min emin; clip := iclip; fmod := fun2 efmod;
  gt := igt; where_ := iwhere;
  interp := fun x tbl => match x with Bad => Bad | _ => Fl (einterp (val x) tbl) end;
  bpi := Fl (Fin PI)
|}.
