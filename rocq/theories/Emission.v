(** * Model of openap/emission.py (class Emission) *)
From Coq Require Import Reals List.
From Verif Require Import Num Aero.
Import ListNotations.
Open Scope R_scope.

(** Engine-databank columns used for one pollutant: fuel flows and emission indices at idle,
    approach, climb-out and take-off (openap/emission.py:140-153, 188-201, 236-249). *)
Record ei_table : Type := mkEI {
  ff_idl : R; ff_app : R; ff_co : R; ff_to : R;
  ei_idl : R; ei_app : R; ei_co : R; ei_to : R
}.

(** openap/emission.py:140-153: the two lists given to [b.interp], zipped *)
Definition ei_points (t : ei_table) : list (R * R) :=
  [(ff_idl t, ei_idl t); (ff_app t, ei_app t); (ff_co t, ei_co t); (ff_to t, ei_to t)].

Section Emission.
Context (b : backend).
Context (n_eng : R).
Local Notation "# r" := (cst b r) (at level 1, r at level 0, format "# r").
Local Notation "x +: y" := (add b x y) (at level 50, left associativity).
Local Notation "x -: y" := (sub b x y) (at level 50, left associativity).
Local Notation "x *: y" := (mul b x y) (at level 40, left associativity).
Local Notation "x /: y" := (div b x y) (at level 40, left associativity).

(** openap/emission.py:44-58 [_fl2sl]: returns (sea-level fuel flow per engine, ratio) *)
Definition fl2sl (ffac tas alt dT : T b) : T b * T b :=
  let M := tas2mach b (tas *: #kts) (alt *: #ft) dT in
  let beta := bexp b (#0.2 *: powi b M 2) in
  let theta := (temperature b (alt *: #ft) dT /: #288.15) /: beta in
  let delta := power b (#1 -: #0.0019812 *: alt /: #288.15) #5.255876 /: power b beta #3.5 in
  let ratio := power b theta #3.3 /: power b delta #1.02 in
  let ff_sl := (ffac /: #n_eng) *: power b theta #3.8 /: delta *: beta in
  (ff_sl, ratio).

(** openap/emission.py:61-72 [co2] *)
Definition co2 (ffac : T b) : T b := ffac *: #3160.
(** openap/emission.py:75-86 [h2o] *)
Definition h2o (ffac : T b) : T b := ffac *: #1230.
(** openap/emission.py:89-100 [soot] *)
Definition soot (ffac : T b) : T b := ffac *: #0.03.
(** openap/emission.py:103-114 [sox] *)
Definition sox (ffac : T b) : T b := ffac *: #1.2.

(** openap/emission.py:117-164 [nox] *)
Definition nox (t : ei_table) (ffac tas alt dT : T b) : T b :=
  let '(ff_sl, ratio) := fl2sl ffac tas alt dT in
  let nox_sl := interp b ff_sl (ei_points t) in
  let omega := #0.001 *: bexp b (#(-0.0001426) *: (alt -: #12900)) in
  let nox_fl := nox_sl *: bsqrt b (#1 /: ratio) *: bexp b (#(-19) *: (omega -: #0.00634)) in
  nox_fl *: ffac.

(** openap/emission.py:167-212 [co] and 215-259 [hc]: the same code on different columns *)
Definition co_hc (t : ei_table) (ffac tas alt dT : T b) : T b :=
  let '(ff_sl, ratio) := fl2sl ffac tas alt dT in
  let sl := interp b ff_sl (ei_points t) in
  let fl := sl *: ratio in
  fl *: ffac.
End Emission.
