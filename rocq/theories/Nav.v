(** * Model of openap/extra/nav.py

    The two tables are arguments of the functions below: a list of rows in file order.  [airport] and
    [closest_airport] read the file again on every call (openap/extra/nav.py:47, 70 test the function [airport]
    and not the table), [fix] and [closest_fix] keep it in a module variable (nav.py:102-103, 123-124); the
    content is the same either way, so the module variables are not modelled.  Coordinates are numbers; the
    text columns may hold a text which pandas reads as a missing value.  Names are ASCII strings. *)
From Coq Require Import String List Bool ZArith.
From Coq Require Import Reals.
From Verif Require Import Num Str Py Geo DataNav.
Import ListNotations.
Open Scope R_scope.

(** the texts which [pandas.read_csv] turns into NaN when no option says otherwise
    (the calls at openap/extra/nav.py:19-27, 31 leave [na_values] and [keep_default_na] alone) *)
Definition pandas_na : list string :=
  [""; "#N/A"; "#N/A N/A"; "#NA"; "-1.#IND"; "-1.#QNAN"; "-NaN"; "-nan"; "1.#IND"; "1.#QNAN"; "<NA>"; "N/A";
   "NA"; "NULL"; "NaN"; "None"; "n/a"; "nan"; "null"]%string.

(** a text cell after reading: [None] stands for NaN (openap/extra/nav.py:19-27, 31) *)
Definition cell (s : string) : option string :=
  if existsb (String.eqb s) pandas_na then None else Some s.

(** [column == NAME]: false for NaN (openap/extra/nav.py:50, 106) *)
Definition cell_is (s NAME : string) : bool :=
  match cell s with Some t => String.eqb t NAME | None => false end.

(** [column.between(lo, hi)]: both ends included (openap/extra/nav.py:74-75, 126-127) *)
Definition between (x lo hi : R) : bool := Rleb lo x && Rleb x hi.

(** [numpy.argmin] with the order [lt]: the first of the smallest (openap/extra/nav.py:83, 135) *)
Fixpoint argmin_from {A : Type} (lt : A -> A -> bool) (best : A) (l : list A) : A :=
  match l with
  | [] => best
  | x :: t => argmin_from lt (if lt x best then x else best) t
  end.

(** one row of the airport table (header line of openap/data/nav/airports.csv; the columns name and location
    are left out) *)
Record apt_row : Type := mkApt { a_icao : string; a_lat : R; a_lon : R; a_alt : Z; a_country : string }.

(** what [airport] returns (openap/extra/nav.py:54) *)
Record apt_info : Type := mkInfo { i_icao : option string; i_lat : R; i_lon : R; i_alt : Z; i_country : option string }.

(** openap/extra/nav.py:54: the row as a dictionary *)
Definition apt_dict (r : apt_row) : apt_info :=
  mkInfo (cell (a_icao r)) (a_lat r) (a_lon r) (a_alt r) (cell (a_country r)).

(** openap/extra/nav.py:34-54 *)
Definition airport (t : list apt_row) (name : string) : option apt_info :=
  let NAME := upper name in
  match filter (fun r => cell_is (a_icao r) NAME) t with
  | [] => None
  | r :: _ => Some (apt_dict r)
  end.

(** openap/extra/nav.py:82 *)
Definition dist2 (lat lon : R) (r : apt_row) : R := (a_lat r - lat) ^ 2 + (a_lon r - lon) ^ 2.

(** openap/extra/nav.py:73-76 *)
Definition apt_box (lat lon : R) (r : apt_row) : bool :=
  between (a_lat r) (lat - 2) (lat + 2) && between (a_lon r) (lon - 2) (lon + 2).

(** openap/extra/nav.py:57-87; the inner option is a code which was read as NaN *)
Definition closest_airport (t : list apt_row) (lat lon : R) : option (option string) :=
  match filter (apt_box lat lon) t with
  | [] => None
  | r :: l => Some (cell (a_icao (argmin_from (fun a b => Rltb (dist2 lat lon a) (dist2 lat lon b)) r l)))
  end.

(** the shipped airport table (openap/data/nav/airports.csv, read at openap/extra/nav.py:31) *)
Definition apt_of (x : apt) : apt_row :=
  let '(i, la, lo, al, c) := x in mkApt i (IZR la / 100000) (IZR lo / 100000) al c.
(** openap/extra/nav.py:14, 31 *)
Definition shipped_airports : list apt_row := map apt_of apts.

(** one row of the fix table (openap/extra/nav.py:25) *)
Record fix_row : Type := mkFix { f_lat : R; f_lon : R; f_name : string }.
(** the list [lat, lon, name] of [fix] and [closest_fix] (openap/extra/nav.py:106, 137) *)
Definition fix_list (r : fix_row) : R * R * option string := (f_lat r, f_lon r, cell (f_name r)).

(** openap/extra/nav.py:90-107; [iloc[0]] of an empty table raises IndexError *)
Definition fix_named (t : list fix_row) (name : string) : py (R * R * option string) :=
  let NAME := upper name in
  match filter (fun r => cell_is (f_name r) NAME) t with
  | [] => inl IndexError
  | r :: _ => inr (fix_list r)
  end.

(** openap/extra/nav.py:126-128 *)
Definition fix_box (lat lon : R) (r : fix_row) : bool :=
  between (f_lat r) (lat - 1) (lat + 1) && between (f_lon r) (lon - 1) (lon + 1).

(** openap/extra/nav.py:134, [aero.distance] at height 0 (openap/geo.py, default argument [h=0]) *)
Definition fix_dist (lat lon : R) (r : fix_row) : ext :=
  distance NP (Fin lat) (Fin lon) (Fin (f_lat r)) (Fin (f_lon r)) (Fin 0).

(** the order of [numpy.argmin]: NaN comes first (openap/extra/nav.py:135) *)
Definition np_lt (x y : ext) : bool :=
  match y, x with
  | NaN, _ => false
  | _, NaN => true
  | _, _ => match egt y x with Some b => b | None => false end
  end.

(** [int(dist)] (openap/extra/nav.py:140): truncation; NaN and infinities raise *)
Definition py_int (x : ext) : py Z := match x with Fin r => inr (Rtrunc r) | _ => inl ValueError end.

(** openap/extra/nav.py:110-140; [argmin] of an empty array raises ValueError *)
Definition closest_fix (t : list fix_row) (lat lon : R) : py ((R * R * option string) * Z) :=
  match filter (fix_box lat lon) t with
  | [] => inl ValueError
  | r :: l =>
      let best := argmin_from (fun a b => np_lt (fix_dist lat lon a) (fix_dist lat lon b)) r l in
      match py_int (fix_dist lat lon best) with
      | inr d => inr (fix_list best, d)
      | inl e => inl e
      end
  end.
