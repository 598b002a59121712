(** * NumPy arrays of up to two dimensions and the decorator [ndarrayconvert(column=True)]

    [Vec.v] models one-dimensional arrays.  The BADA4 add-on works with columns, so its array
    operations need the second dimension. *)
From Coq Require Import Reals List Bool Arith.
From Verif Require Import Num Py.
Import ListNotations.
Open Scope nat_scope.

(** An array: number of dimensions (0, 1 or 2), rows, columns and elements.  A scalar has one row and
    one column, a one-dimensional array has one row.  Elements outside are irrelevant.
    (openap/extra/__init__.py:57-64; openap/backends/numpy_backend.py:12-110 on array arguments) *)
Record nd (A : Type) : Type := mkNd { nd_dim : nat; nd_r : nat; nd_c : nat; nd_at : nat -> nat -> A }.
Arguments mkNd {A} nd_dim nd_r nd_c nd_at.
Arguments nd_dim {A} n.
Arguments nd_r {A} n.
Arguments nd_c {A} n.
Arguments nd_at {A} n _ _.

(** a Python number (openap/extra/__init__.py:57-59) *)
Definition scalar {A} (x : A) : nd A := mkNd 0 1 1 (fun _ _ => x).
(** a one-dimensional array with the given elements (openap/extra/__init__.py:60-62) *)
Definition vector {A} (d : A) (l : list A) : nd A := mkNd 1 1 (length l) (fun _ j => nth j l d).
(** number of elements, [value.size] (openap/extra/__init__.py:84) *)
Definition nd_size {A} (a : nd A) : nat := nd_r a * nd_c a.
(** element [k] in row-major order (the order of [reshape]; openap/extra/__init__.py:59, 62) *)
Definition flat {A} (a : nd A) (k : nat) : A := nd_at a (k / nd_c a) (k mod nd_c a).

(** NumPy broadcasting of one axis (Python operators on arrays, e.g. openap/addon/bada4.py:80) *)
Definition bc (n m : nat) : option nat :=
  if n =? m then Some n else if n =? 1 then Some m else if m =? 1 then Some n else None.
(** index along an axis that may be broadcast (openap/addon/bada4.py:80) *)
Definition pick (n i : nat) : nat := if n =? 1 then 0 else i.
(** element at a position of the broadcast result (openap/addon/bada4.py:80) *)
Definition nd_get {A} (a : nd A) (i j : nat) : A := nd_at a (pick (nd_r a) i) (pick (nd_c a) j).

(** elementwise function of one array (openap/backends/numpy_backend.py:20-70) *)
Definition nd1 {A B} (g : A -> B) (x : py (nd A)) : py (nd B) :=
  match x with inl e => inl e | inr a => inr (mkNd (nd_dim a) (nd_r a) (nd_c a) (fun i j => g (nd_at a i j))) end.
(** elementwise function of two arrays; ValueError when the shapes do not fit
    (openap/backends/numpy_backend.py:32-34 and Python's operators on arrays) *)
Definition nd2 {A B D} (g : A -> B -> D) (x : py (nd A)) (y : py (nd B)) : py (nd D) :=
  match x, y with
  | inl e, _ => inl e
  | _, inl e => inl e
  | inr a, inr b =>
      match bc (nd_r a) (nd_r b), bc (nd_c a) (nd_c b) with
      | Some r, Some c => inr (mkNd (Nat.max (nd_dim a) (nd_dim b)) r c (fun i j => g (nd_get a i j) (nd_get b i j)))
      | _, _ => inl ValueError
      end
  end.
(** three operands (openap/backends/numpy_backend.py:72-74, 84-86) *)
Definition nd3 {A B D E} (g : A -> B -> D -> E) (x : py (nd A)) (y : py (nd B)) (z : py (nd D)) : py (nd E) :=
  nd2 (fun k u => k u) (nd2 g x y) z.

(** NumPy on these arrays: openap/backends/numpy_backend.py:12-110 *)
Definition AB : backend := {|
  T := py (nd ext); C := py (nd (option bool));
  cst := fun r => inr (scalar (Fin r));
  add := nd2 eadd; sub := nd2 esub; mul := nd2 emul; div := nd2 ediv; neg := nd1 eneg;
  powi := fun x n => nd1 (fun a => epowi a n) x; power := nd2 epower;
  bsqrt := nd1 esqrt; bexp := nd1 eexp; blog := nd1 elog;
  bsin := nd1 (elift sin); bcos := nd1 (elift cos); btan := nd1 (elift tan);
  barcsin := nd1 (eunit asin); barccos := nd1 (eunit acos);
  barctan := nd1 (elift_lim atan (PI / 2)); btanh := nd1 (elift_lim tanh 1);
  barctan2 := nd2 eatan2; babs := nd1 eabs;
  maximum := nd2 emax; minimum := nd2 emin; clip := nd3 eclip; fmod := nd2 efmod;
  gt := nd2 egt; where_ := nd3 ewhere;
  interp := fun x tbl => nd1 (fun a => einterp a tbl) x;
  bpi := inr (scalar (Fin PI))
|}.

(** ** The decorator *)
(** [np.array([arg]).reshape(-1, 1)] and [np.asarray(arg).reshape(-1, 1)]
    (openap/extra/__init__.py:54-62) *)
Definition column {A} (a : nd A) : nd A := mkNd 2 (nd_size a) 1 (fun k _ => flat a k).
(** a converted argument (openap/extra/__init__.py:54-75) *)
Definition col {A} (x : py (nd A)) : py (nd A) := match x with inl e => inl e | inr a => inr (column a) end.
(** [to_scalar] with [column=True] (openap/extra/__init__.py:80-89) *)
Definition item {A} (x : py (nd A)) : py (nd A) :=
  match x with
  | inl e => inl e
  | inr a => if nd_size a =? 1 then inr (scalar (nd_at a 0 0)) else inr a
  end.

(** ** Array functions used by the add-on *)
(** [np.array([a**0, ..., a**(n-1)]).reshape(n, -1)] (openap/addon/bada4.py:201, 207-208, 212, 220-221,
    365-366, 402-403); the elements of [a] in row-major order *)
Definition powers (n : nat) (a : nd ext) : nd ext :=
  mkNd 2 n (nd_size a) (fun i k => epowi (flat a k) i).
(** sum of the numbers of a list ([np.einsum], [np.dot]; openap/addon/bada4.py:64-77, 202) *)
Fixpoint nsum (l : list ext) : ext := match l with [] => Fin 0 | x :: t => eadd x (nsum t) end.
(** [np.reshape(l, (r, c))] of a list of numbers (openap/addon/bada4.py:198, 206, 211, 219, 364, 401) *)
Definition matrix (l : list R) (r c : nat) : py (nat -> nat -> R) :=
  if length l =? r * c then inr (fun i j => nth (i * c + j) l 0%R) else inl ValueError.
(** [np.einsum("ij,jk,ik->k", m, p, q)] with an [r] by [c] matrix [m] (openap/addon/bada4.py:202, 209, 217,
    222, 368, 405) *)
Definition einsum (m : nat -> nat -> R) (r c : nat) (p q : nd ext) : py (nd ext) :=
  match bc (nd_c p) (nd_c q) with
  | None => inl ValueError
  | Some n => inr (mkNd 1 1 n (fun _ k =>
      nsum (map (fun i => nsum (map (fun j =>
        emul (emul (Fin (m i j)) (nd_at p j (pick (nd_c p) k))) (nd_at q i (pick (nd_c q) k))) (seq 0 c))) (seq 0 r))))
  end.
