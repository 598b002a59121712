(** * The NumPy backend with rounding

    The backend [NP] computes with exact numbers.  Here every operation that rounds in binary64 rounds its exact result:
    [rd o l x] is the number delivered when operation [o] is applied to the operands [l] and the exact result is [x].
    It is a parameter: different operations, operands and library versions may round differently.  Comparison, sign
    change, maximum, minimum, selection and the remainder [fmod] are exact in binary64.  Underflow, signed zeros and
    overflow of operations other than [exp] are not modelled. *)
From Coq Require Import Reals List Bool.
From Verif Require Import Num.
Import ListNotations.
Open Scope R_scope.

(** operations of openap/backends/numpy_backend.py:18-110 that round, and Python's operators *)
Inductive fop : Type :=
| Ocst | Opi | Oadd | Osub | Omul | Odiv | Opowi (n : nat) | Opower | Osqrt | Oexp | Olog
| Osin | Ocos | Otan | Oasin | Oacos | Oatan | Otanh | Oatan2.

(** operation, operands, exact result, delivered result (openap/backends/numpy_backend.py:18-110) *)
Definition rounding : Type := fop -> list ext -> R -> R.

Section FL.
Context (rd : rounding).
(** a finite exact result is rounded (openap/backends/numpy_backend.py:18-110) *)
Definition rnd (o : fop) (l : list ext) (v : ext) : ext := match v with Fin x => Fin (rd o l x) | _ => v end.
(** Python [+] on floats (for example openap/aero.py:104) *)
Definition fadd (a b : ext) : ext := rnd Oadd [a; b] (eadd a b).
(** Python [-] on floats (for example openap/aero.py:108) *)
Definition fsub (a b : ext) : ext := rnd Osub [a; b] (esub a b).
(** Python [*] on floats (for example openap/aero.py:110) *)
Definition fmul (a b : ext) : ext := rnd Omul [a; b] (emul a b).
(** Python [/] on floats (for example openap/aero.py:201) *)
Definition fdiv (a b : ext) : ext := rnd Odiv [a; b] (ediv a b).
(** a number written in the source or in a data file (for example openap/aero.py:29-46) *)
Definition fcst (r : R) : ext := Fin (rd Ocst [] r).
(** [np.interp] after the last passed point [(x0, y0)]: slope times distance plus ordinate
    (openap/backends/numpy_backend.py:90-92) *)
Fixpoint finterp_from (x : R) (x0 y0 : R) (tl : list (R * R)) : ext :=
  match tl with
  | [] => Fin y0
  | (x1, y1) :: tl' =>
      if Rlt_dec x x1 then fadd (fmul (fdiv (fsub (Fin y1) (Fin y0)) (fsub (Fin x1) (Fin x0))) (fsub (Fin x) (Fin x0))) (Fin y0)
      else finterp_from x x1 y1 tl'
  end.
(** [np.interp] on a table of numbers from the source (openap/backends/numpy_backend.py:90-92) *)
Definition finterp (x : ext) (tbl : list (R * R)) : ext :=
  match x, map (fun p => (rd Ocst [] (fst p), rd Ocst [] (snd p))) tbl with
  | Fin a, (x0, y0) :: tl => if Rlt_dec a x0 then Fin y0 else finterp_from a x0 y0 tl
  | _, _ => NaN
  end.

(** NumPy on binary64 scalars: openap/backends/numpy_backend.py:12-110 *)
Definition FL : backend := {|
  T := ext; C := option bool;
  cst := fcst; add := fadd; sub := fsub; mul := fmul; div := fdiv;
  neg := eneg;
  powi := fun a n => rnd (Opowi n) [a] (epowi a n);
  power := fun a b => rnd Opower [a; b] (epower a b);
  bsqrt := fun a => rnd Osqrt [a] (esqrt a);
  bexp := fun a => rnd Oexp [a] (eexp a);
  blog := fun a => rnd Olog [a] (elog a);
  bsin := fun a => rnd Osin [a] (elift sin a);
  bcos := fun a => rnd Ocos [a] (elift cos a);
  btan := fun a => rnd Otan [a] (elift tan a);
  barcsin := fun a => rnd Oasin [a] (eunit asin a);
  barccos := fun a => rnd Oacos [a] (eunit acos a);
  barctan := fun a => rnd Oatan [a] (elift_lim atan (PI / 2) a);
  btanh := fun a => rnd Otanh [a] (elift_lim tanh 1 a);
  barctan2 := fun a b => rnd Oatan2 [a; b] (eatan2 a b);
  babs := eabs;
  maximum := emax; minimum := emin; clip := eclip; fmod := efmod;
  gt := egt; where_ := ewhere;
  interp := finterp;
  bpi := Fin (rd Opi [] PI)
|}.
End FL.
