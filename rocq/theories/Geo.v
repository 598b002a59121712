(** * Model of openap/geo.py (class Geo) *)
From Coq Require Import Reals ZArith.
From Verif Require Import Num.
Open Scope R_scope.

(** openap/geo.py:31 [r_earth] *)
Definition geo_r_earth : R := 6371000.0.

Section Geo.
Context (b : backend).
Local Notation "# r" := (cst b r) (at level 1, r at level 0, format "# r").
Local Notation "x +: y" := (add b x y) (at level 50, left associativity).
Local Notation "x -: y" := (sub b x y) (at level 50, left associativity).
Local Notation "x *: y" := (mul b x y) (at level 40, left associativity).
Local Notation "x /: y" := (div b x y) (at level 40, left associativity).

(** openap/geo.py:58-85 [distance] *)
Definition distance (lat1 lon1 lat2 lon2 h : T b) : T b :=
  let deg2rad := bpi b /: #180.0 in
  let lat1_r := lat1 *: deg2rad in
  let lon1_r := lon1 *: deg2rad in
  let lat2_r := lat2 *: deg2rad in
  let lon2_r := lon2 *: deg2rad in
  let dlon := lon2_r -: lon1_r in
  let dlat := lat2_r -: lat1_r in
  let a := powi b (bsin b (dlat /: #2)) 2 +:
           bcos b lat1_r *: bcos b lat2_r *: powi b (bsin b (dlon /: #2)) 2 in
  let c := #2 *: barcsin b (bsqrt b a) in
  let dist := c *: (#geo_r_earth +: h) in
  dist.

(** openap/geo.py:87-113 [bearing] *)
Definition bearing (lat1 lon1 lat2 lon2 : T b) : T b :=
  let deg2rad := bpi b /: #180.0 in
  let rad2deg := #180.0 /: bpi b in
  let lat1_r := lat1 *: deg2rad in
  let lon1_r := lon1 *: deg2rad in
  let lat2_r := lat2 *: deg2rad in
  let lon2_r := lon2 *: deg2rad in
  let x := bsin b (lon2_r -: lon1_r) *: bcos b lat2_r in
  let y := bcos b lat1_r *: bsin b lat2_r -:
           bsin b lat1_r *: bcos b lat2_r *: bcos b (lon2_r -: lon1_r) in
  let initial_bearing := barctan2 b x y *: rad2deg in
  fmod b (initial_bearing +: #360) #360.

(** openap/geo.py:115-147 [latlon] *)
Definition latlon (lat1 lon1 d brg h : T b) : T b * T b :=
  let deg2rad := bpi b /: #180.0 in
  let rad2deg := #180.0 /: bpi b in
  let lat1_r := lat1 *: deg2rad in
  let lon1_r := lon1 *: deg2rad in
  let brg_r := brg *: deg2rad in
  let lat2 := barcsin b
      (bsin b lat1_r *: bcos b (d /: (#geo_r_earth +: h))
       +: bcos b lat1_r *: bsin b (d /: (#geo_r_earth +: h)) *: bcos b brg_r) in
  let lon2 := lon1_r +: barctan2 b
      (bsin b brg_r *: bsin b (d /: (#geo_r_earth +: h)) *: bcos b lat1_r)
      (bcos b (d /: (#geo_r_earth +: h)) -: bsin b lat1_r *: bsin b lat2) in
  (lat2 *: rad2deg, lon2 *: rad2deg).

(** openap/geo.py:205 argument of the solar declination (radians) and equation of time (minutes)
    as functions of the day of the year.  The Python code uses NumPy directly; the model is
    written over the backend like the rest. *)
Definition solar_gamma (day_of_year : T b) : T b :=
  #2 *: bpi b *: (day_of_year -: #1) /: #365.

(** openap/geo.py:207-215 [declination] *)
Definition solar_declination (gamma : T b) : T b :=
  #0.006918
  -: #0.399912 *: bcos b gamma
  +: #0.070257 *: bsin b gamma
  -: #0.006758 *: bcos b (#2 *: gamma)
  +: #0.000907 *: bsin b (#2 *: gamma)
  -: #0.002697 *: bcos b (#3 *: gamma)
  +: #0.00148 *: bsin b (#3 *: gamma).

(** openap/geo.py:218-224 [eot] *)
Definition equation_of_time (gamma : T b) : T b :=
  #229.18 *:
  (#0.000075
   +: #0.001868 *: bcos b gamma
   -: #0.032077 *: bsin b gamma
   -: #0.014615 *: bcos b (#2 *: gamma)
   -: #0.040849 *: bsin b (#2 *: gamma)).

(** [np.deg2rad], used at openap/geo.py:227,236 *)
Definition deg2rad_ (x : T b) : T b := x *: (bpi b /: #180).
(** [np.rad2deg], used at openap/geo.py:246 *)
Definition rad2deg_ (x : T b) : T b := x *: (#180 /: bpi b).

(** openap/geo.py:226-241: the cosine of the zenith angle before clamping *)
Definition cos_zenith (lat lon day_of_year hour_utc : T b) : T b :=
  let gamma := solar_gamma day_of_year in
  let declination := solar_declination gamma in
  let eot := equation_of_time gamma in
  let lat_rad := deg2rad_ lat in
  let time_offset := eot +: #4 *: lon in
  let solar_time := hour_utc *: #60 +: time_offset in
  let hour_angle_deg := (solar_time /: #4) -: #180 in
  let hour_angle := deg2rad_ hour_angle_deg in
  bsin b lat_rad *: bsin b declination
  +: bcos b lat_rad *: bcos b declination *: bcos b hour_angle.

(** openap/geo.py:149-248 [solar_zenith_angle], after the timestamp has been decoded
    into day of year and fractional UTC hour *)
Definition solar_zenith (lat lon day_of_year hour_utc : T b) : T b :=
  let cz := clip b (cos_zenith lat lon day_of_year hour_utc) #(-1) #1 in
  rad2deg_ (barccos b cz).
End Geo.

(** openap/geo.py:193-195 (and 177-179, 186-188, 202): fractional hour of a timestamp with the given clock
    fields; Python's [/] on integers. *)
Definition hour_utc (hh mm ss : Z) : R := IZR hh + IZR mm / 60 + IZR ss / 3600.
