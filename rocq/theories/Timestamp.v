(** * Model of the timestamps of openap/geo.py [solar_zenith_angle]

    Python's [datetime] (calendar, [fromtimestamp], [timetuple]) is modelled from its documented algorithm
    (CPython Lib/datetime.py).  Elements of arrays are those of [np.asarray] of the argument.  A naive datetime is meant
    in UTC (openap/geo.py:162-163).  Numbers are exact; [fromtimestamp] raises OverflowError instead of ValueError for
    numbers beyond the range of the platform's time_t. *)
From Coq Require Import Reals List Bool ZArith.
From Flocq Require Import Core.
From Verif Require Import Num Py Vec Geo.
Import ListNotations.
Open Scope Z_scope.

(** ** Python's calendar *)
(** CPython Lib/datetime.py [_is_leap], used through openap/geo.py:176, 185, 192, 202 *)
Definition is_leap (y : Z) : bool := (y mod 4 =? 0) && (negb (y mod 100 =? 0) || (y mod 400 =? 0)).
(** CPython Lib/datetime.py [_days_before_year] (openap/geo.py:184, 200) *)
Definition days_before_year (y : Z) : Z := (y - 1) * 365 + (y - 1) / 4 - (y - 1) / 100 + (y - 1) / 400.
(** CPython Lib/datetime.py [_DAYS_IN_MONTH] (openap/geo.py:184, 200) *)
Definition month_lengths : list Z := [31; 28; 31; 30; 31; 30; 31; 31; 30; 31; 30; 31].
(** CPython Lib/datetime.py [_DAYS_BEFORE_MONTH] (openap/geo.py:176, 192) *)
Definition days_before_months : list Z := [0; 31; 59; 90; 120; 151; 181; 212; 243; 273; 304; 334].
(** CPython Lib/datetime.py [_days_in_month] (openap/geo.py:184, 200) *)
Definition days_in_month (y m : Z) : Z :=
  nth (Z.to_nat (m - 1)) month_lengths 0 + (if (m =? 2) && is_leap y then 1 else 0).
(** CPython Lib/datetime.py [_days_before_month] (openap/geo.py:176, 192) *)
Definition days_before_month (y m : Z) : Z :=
  nth (Z.to_nat (m - 1)) days_before_months 0 + (if (2 <? m) && is_leap y then 1 else 0).
(** CPython Lib/datetime.py [_ord2ymd]: year, month and day of an ordinal (openap/geo.py:184, 200) *)
Definition ord2ymd (n : Z) : Z * Z * Z :=
  let n := n - 1 in
  let n400 := n / 146097 in let n := n mod 146097 in
  let n100 := n / 36524 in let n := n mod 36524 in
  let n4 := n / 1461 in let n := n mod 1461 in
  let n1 := n / 365 in let n := n mod 365 in
  let year := n400 * 400 + 1 + n100 * 100 + n4 * 4 + n1 in
  if (n1 =? 4) || (n100 =? 4) then (year - 1, 12, 31)
  else
    let leapyear := (n1 =? 3) && (negb (n4 =? 24) || (n100 =? 3)) in
    let month := (n + 50) / 32 in
    let preceding := nth (Z.to_nat (month - 1)) days_before_months 0 + (if (2 <? month) && leapyear then 1 else 0) in
    if n <? preceding then
      let month := month - 1 in
      let preceding := preceding - (nth (Z.to_nat (month - 1)) month_lengths 0 + (if (month =? 2) && leapyear then 1 else 0)) in
      (year, month, n - preceding + 1)
    else (year, month, n - preceding + 1).

(** ** Timestamps *)
(** a datetime or pandas Timestamp; the offset from UTC in seconds of an aware one (openap/geo.py:153, 162-163) *)
Record datetime : Type := mkDt {
  dt_year : Z; dt_month : Z; dt_day : Z; dt_hour : Z; dt_minute : Z; dt_second : Z; dt_micro : Z; dt_offset : option Z }.
(** [timetuple().tm_yday] (openap/geo.py:176, 185, 192, 201) *)
Definition tm_yday (d : datetime) : Z := days_before_month (dt_year d) (dt_month d) + dt_day d.
(** the fields of a clock that shows [s] seconds and [us] microseconds since 1970 (CPython Lib/datetime.py, openap/geo.py:184, 200) *)
Definition of_clock (s us : Z) (off : option Z) : datetime :=
  let '(y, m, d) := ord2ymd (s / 86400 + 719163) in
  let r := s mod 86400 in
  mkDt y m d (r / 3600) (r mod 3600 / 60) (r mod 60) us off.
(** a timestamp that numpy or Python hands over: a datetime, a number, a [np.datetime64] in nanoseconds, anything
    else such as a string (openap/geo.py:153, 173-191) *)
Inductive tsval : Type := TDatetime (d : datetime) | TNumber (t : R) | TDatetime64 (ns : Z) | TOther.
(** [datetime.fromtimestamp(t, tz=timezone.utc)]: rounds half to even microseconds, years 1 to 9999 (openap/geo.py:184, 200) *)
Definition fromtimestamp (v : tsval) : py datetime :=
  match v with
  | TNumber t =>
      let us := ZnearestE (t * 1000000)%R in
      let s := us / 1000000 in
      if (- 62135596800 <=? s) && (s <? 253402300800) then inr (of_clock s (us mod 1000000) (Some 0)) else inl ValueError
  | _ => inl TypeError
  end.
(** day of the year and fractional hour of a datetime (openap/geo.py:176-179, 185-188, 192-195, 201-202) *)
Definition fields (d : datetime) : Z * R := (tm_yday d, hour_utc (dt_hour d) (dt_minute d) (dt_second d)).
(** the branch of the datetimes; other objects have no [timetuple] (openap/geo.py:176-179) *)
Definition from_datetime (v : tsval) : py (Z * R) :=
  match v with TDatetime d => inr (fields d) | _ => inl AttributeError end.
(** the branch of the unix timestamps (openap/geo.py:184-188, 200-202) *)
Definition from_unix (v : tsval) : py (Z * R) :=
  match fromtimestamp v with inl e => inl e | inr d => inr (fields d) end.
(** [hasattr(_, "timetuple")] (openap/geo.py:175, 191) *)
Definition has_timetuple (v : tsval) : bool := match v with TDatetime _ => true | _ => false end.
(** a list comprehension whose body may raise (openap/geo.py:176-188) *)
Fixpoint comprehension {A B} (f : A -> py B) (l : list A) : py (list B) :=
  match l with
  | [] => inr []
  | x :: t => match f x with
              | inl e => inl e
              | inr y => match comprehension f t with inl e => inl e | inr r => inr (y :: r) end
              end
  end.
(** the argument: one timestamp or the elements of an array (openap/geo.py:172-174, 189-190) *)
Inductive tsarg : Type := TOne (v : tsval) | TMany (l : list tsval).
(** [np.asarray] of the containers of timestamps: a list keeps its elements, a naive pandas index or series and a numpy
    array of dates give [np.datetime64], an aware pandas index gives Timestamps in its zone (openap/geo.py:174) *)
Inductive container : Type := PyList (l : list tsval) | NpDates (l : list Z) | PdIndex (zone : option Z) (l : list Z).
(** openap/geo.py:174 *)
Definition asarray (c : container) : tsarg :=
  match c with
  | PyList l => TMany l
  | NpDates l | PdIndex None l => TMany (map TDatetime64 l)
  | PdIndex (Some off) l =>
      TMany (map (fun ns => TDatetime (of_clock (ns / 1000000000 + off) (ns mod 1000000000 / 1000) (Some off))) l)
  end.
(** openap/geo.py:172-202: day of the year and hour, scalars or arrays *)
Definition day_and_hour (a : tsarg) : py (varr ext * varr ext) :=
  match a with
  | TOne v =>
      match (if has_timetuple v then from_datetime v else from_unix v) with
      | inl e => inl e
      | inr (d, h) => inr (Sc (Fin (IZR d)), Sc (Fin h))
      end
  | TMany [] => inl IndexError
  | TMany (v :: t) =>
      match comprehension (if has_timetuple v then from_datetime else from_unix) (v :: t) with
      | inl e => inl e
      | inr r => inr (Ar (map (fun p => Fin (IZR (fst p))) r), Ar (map (fun p => Fin (snd p)) r))
      end
  end.
(** openap/geo.py:149-248 [solar_zenith_angle] *)
Definition solar_zenith_angle (lat lon : varr ext) (a : tsarg) : py (varr ext) :=
  match day_and_hour a with
  | inl e => inl e
  | inr (d, h) => match solar_zenith VB lat lon d h with VErr => inl ValueError | v => inr v end
  end.
