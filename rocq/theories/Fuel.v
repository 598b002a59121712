(** * Model of openap/fuel.py (class FuelFlow) *)
From Coq Require Import Reals.
From Verif Require Import Num Aero Thrust Drag.
From Verif Require Export Py.
Open Scope R_scope.

(** What the methods read from the object: coefficients and scale chosen by
    [_load_fuel_model] (openap/fuel.py:67-95), rated thrust of the engine
    (openap/fuel.py:110) and number of engines (openap/fuel.py:111). *)
Record fuel_par : Type := mkFuel {
  fc1 : R; fc2 : R; fc3 : R; fscale : R;
  f_max_thrust : R;
  f_n_eng : R
}.

Section Fuel.
Context (b : backend).
Local Notation "# r" := (cst b r) (at level 1, r at level 0, format "# r").
Local Notation "x +: y" := (add b x y) (at level 50, left associativity).
Local Notation "x -: y" := (sub b x y) (at level 50, left associativity).
Local Notation "x *: y" := (mul b x y) (at level 40, left associativity).
Local Notation "x /: y" := (div b x y) (at level 40, left associativity).

(** openap/fuel.py:93-95: the function returned by [_load_fuel_model] *)
Definition func_fuel (f : fuel_par) (x : T b) : T b :=
  #(fscale f) *:
  (#(fc1 f) -: bexp b (neg b #(fc2 f) *: (x *: bexp b (#(fc3 f) *: x) -: blog b #(fc1 f) /: #(fc2 f)))).

(** openap/fuel.py:114-127: the limited thrust ratio *)
Definition thrust_ratio (f : fuel_par) (total_ac_thrust : T b) : T b :=
  let ratio := (total_ac_thrust /: #(f_n_eng f)) /: #(f_max_thrust f) in
  ((blog b (#1 +: bexp b (#50 *: (ratio -: #0.03)))
    -: blog b (#1 +: bexp b (#45 *: (ratio -: #1.2))))
   /: (blog b (#1 +: bexp b #50))) +: #0.03.

(** openap/fuel.py:98-131 [at_thrust] *)
Definition at_thrust (f : fuel_par) (total_ac_thrust : T b) : T b :=
  func_fuel f (thrust_ratio f total_ac_thrust) *: #(f_n_eng f).

(** openap/fuel.py:134-158 [takeoff].  [alt = None] is the documented default; then
    [Thrust.takeoff] evaluates [alt * ft] on an object array holding [None]
    (openap/extra/__init__.py:66-70, openap/thrust.py:147), a TypeError. *)
Definition takeoff_fuel (e : thrust_par) (f : fuel_par) (tas : T b) (alt : option (T b)) (throttle : T b)
    : py (T b) :=
  match alt with
  | None => inl TypeError
  | Some alt => inr (throttle *: at_thrust f (takeoff_thrust b e tas alt #0))
  end.

(** openap/fuel.py:161-200 [enroute]; the wave-drag flag is the one of the drag object *)
Definition enroute (a : drag_par) (wave : bool) (f : fuel_par)
    (mass tas alt vs acc dT : T b) (limit : bool) : T b :=
  let D := clean b a wave mass tas alt vs dT in
  let gamma := barctan2 b (vs *: #fpm) (tas *: #kts) in
  let T := D +: mass *: #9.81 *: bsin b gamma +: mass *: acc in
  at_thrust f T.
End Fuel.
