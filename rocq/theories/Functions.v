(** * The numeric API as a table

    Every numeric function of the modelled modules, as one list of generic functions from
    argument lists to result lists, so that statements about "every function" can be written
    once.  [fn_decorated] tells whether the Python method carries [@ndarrayconvert]
    (openap/extra/__init__.py:27-95). *)
From Coq Require Import Reals List String.
From Verif Require Import Num Aero Geo Thrust Drag Fuel Emission Mass Contrail.
Import ListNotations.
Open Scope list_scope.
Open Scope R_scope.

(** A function over any backend, from positional arguments to the components of its result
    (Python call syntax; one component unless the method returns a tuple). *)
Definition body : Type := forall b : backend, list (T b) -> list (T b).

(** One public method. [fn_uses] lists, for each component of the result, which arguments the
    component depends on (declared here, checked by a theorem in P_Vec.v). *)
Record fn : Type := mkFn {
  fn_name : string;
  fn_decorated : bool;
  fn_arity : nat;
  fn_uses : list (list bool);
  fn_body : body
}.

(** adaptors from curried functions of 1 to 6 arguments to [body]: Python's positional
    calling convention; a wrong number of arguments is not considered *)
Definition ap1 (g : forall b, T b -> T b) : body :=
  fun b l => match l with [x] => [g b x] | _ => [] end.
(** two arguments, see [ap1] *)
Definition ap2 (g : forall b, T b -> T b -> T b) : body :=
  fun b l => match l with [x; y] => [g b x y] | _ => [] end.
(** three arguments, see [ap1] *)
Definition ap3 (g : forall b, T b -> T b -> T b -> T b) : body :=
  fun b l => match l with [x; y; z] => [g b x y z] | _ => [] end.
(** four arguments, see [ap1] *)
Definition ap4 (g : forall b, T b -> T b -> T b -> T b -> T b) : body :=
  fun b l => match l with [x; y; z; u] => [g b x y z u] | _ => [] end.
(** five arguments, see [ap1] *)
Definition ap5 (g : forall b, T b -> T b -> T b -> T b -> T b -> T b) : body :=
  fun b l => match l with [x; y; z; u; v] => [g b x y z u v] | _ => [] end.
(** six arguments, see [ap1] *)
Definition ap6 (g : forall b, T b -> T b -> T b -> T b -> T b -> T b -> T b) : body :=
  fun b l => match l with [x; y; z; u; v; w] => [g b x y z u v w] | _ => [] end.

(** "the one result component depends on all k arguments" *)
Definition all_used (k : nat) : list (list bool) := [repeat true k].

Section Table.
Context (e : thrust_par) (a : drag_par) (f : fuel_par) (n_eng : R)
        (t_nox t_co t_hc : ei_table) (ac : mass_par) (wave gear fraction limit : bool) (to : phase_of).

(** Methods whose code only uses backend operations (no interpolation table):
    openap/aero.py:92-325, openap/geo.py:58-147, openap/thrust.py:121-262,
    openap/drag.py:92-284, openap/fuel.py:97-200, openap/emission.py:44-114. *)
Definition backend_table : list fn :=
  [ mkFn "aero.atmos" false 2 [[true; true]; [true; true]; [true; true]]
      (fun b l => match l with
                  | [h; dT] => let '(p, rho, T) := atmos b h dT in [p; rho; T]
                  | _ => [] end);
    mkFn "aero.temperature" false 2 (all_used 2) (ap2 temperature);
    mkFn "aero.pressure" false 2 (all_used 2) (ap2 pressure);
    mkFn "aero.density" false 2 (all_used 2) (ap2 density);
    mkFn "aero.vsound" false 2 (all_used 2) (ap2 vsound);
    mkFn "aero.h_isa" false 2 (all_used 2) (ap2 h_isa);
    mkFn "aero.tas2mach" false 3 (all_used 3) (ap3 tas2mach);
    mkFn "aero.mach2tas" false 3 (all_used 3) (ap3 mach2tas);
    mkFn "aero.eas2tas" false 3 (all_used 3) (ap3 eas2tas);
    mkFn "aero.tas2eas" false 3 (all_used 3) (ap3 tas2eas);
    mkFn "aero.cas2tas" false 3 (all_used 3) (ap3 cas2tas);
    mkFn "aero.tas2cas" false 3 (all_used 3) (ap3 tas2cas);
    mkFn "aero.mach2cas" false 3 (all_used 3) (ap3 mach2cas);
    mkFn "aero.cas2mach" false 3 (all_used 3) (ap3 cas2mach);
    mkFn "aero.crossover_alt" false 3 (all_used 3) (ap3 crossover_alt);
    mkFn "geo.distance" false 5 (all_used 5) (ap5 distance);
    mkFn "geo.bearing" false 4 (all_used 4) (ap4 bearing);
    mkFn "geo.latlon" false 5 [[true; false; true; true; true]; [true; true; true; true; true]]
      (fun b l => match l with
                  | [lat1; lon1; d; brg; h] =>
                      let '(lat2, lon2) := latlon b lat1 lon1 d brg h in [lat2; lon2]
                  | _ => [] end);
    mkFn "Thrust.takeoff" true 3 (all_used 3) (ap3 (fun b => takeoff_thrust b e));
    mkFn "Thrust.cruise" true 3 (all_used 3) (ap3 (fun b => cruise_thrust b e));
    mkFn "Thrust.climb" true 4 (all_used 4) (ap4 (fun b => climb_thrust b e));
    mkFn "Thrust.descent_idle" false 3 (all_used 3) (ap3 (fun b => descent_idle b e));
    mkFn "Drag.clean" true 5 (all_used 5) (ap5 (fun b => clean b a wave));
    mkFn "Drag.nonclean" true 6 (all_used 6)
      (ap6 (fun b m v h fl vs dT => nonclean b a m v h fl vs dT gear));
    mkFn "FuelFlow.at_thrust" true 1 (all_used 1) (ap1 (fun b => at_thrust b f));
    mkFn "FuelFlow.takeoff" true 3 (all_used 3)
      (fun b l => match l with
                  | [tas; alt; throttle] =>
                      match takeoff_fuel b e f tas (Some alt) throttle with
                      | inr r => [r] | inl _ => [] end
                  | _ => [] end);
    mkFn "FuelFlow.enroute" true 6 (all_used 6)
      (ap6 (fun b m v h vs acc dT => enroute b a wave f m v h vs acc dT limit));
    mkFn "Emission.co2" true 1 (all_used 1) (ap1 co2);
    mkFn "Emission.h2o" true 1 (all_used 1) (ap1 h2o);
    mkFn "Emission.soot" true 1 (all_used 1) (ap1 soot);
    mkFn "Emission.sox" true 1 (all_used 1) (ap1 sox) ].

(** Methods that interpolate in the engine table: openap/emission.py:116-259. *)
Definition interp_table : list fn :=
  [ mkFn "Emission.nox" true 4 (all_used 4) (ap4 (fun b => nox b n_eng t_nox));
    mkFn "Emission.co" true 4 (all_used 4) (ap4 (fun b => co_hc b n_eng t_co));
    mkFn "Emission.hc" true 4 (all_used 4) (ap4 (fun b => co_hc b n_eng t_hc)) ].

(** Functions that call NumPy directly: openap/geo.py:149-248, openap/mass.py:7-44,
    openap/contrail.py:51-375. *)
Definition numpy_table : list fn :=
  [ mkFn "geo.solar_zenith_angle" false 4 (all_used 4) (ap4 solar_zenith);
    mkFn "mass.from_range" false 2 (match m_range ac with Some _ => all_used 2 | None => [] end)
      (fun b l => match l with
                  | [d; lf] => match from_range b ac d lf fraction with
                               | inr r => [r] | inl _ => [] end
                  | _ => [] end);
    mkFn "contrail.saturation_pressure_over_water" false 1 (all_used 1)
      (ap1 saturation_pressure_over_water);
    mkFn "contrail.saturation_pressure_over_ice" false 1 (all_used 1)
      (ap1 saturation_pressure_over_ice);
    mkFn "contrail.relative_humidity" false 3 (all_used 3)
      (ap3 (fun b q p t => relative_humidity b q p t to));
    mkFn "contrail.rhw2rhi" false 2 (all_used 2) (ap2 rhw2rhi);
    mkFn "contrail.critical_temperature_water" false 2 (all_used 2) (ap2 critical_temperature_water);
    mkFn "contrail.rf_shortwave" false 3 (all_used 3) (ap3 rf_shortwave);
    mkFn "contrail.rf_longwave" false 2 (all_used 2) (ap2 rf_longwave);
    mkFn "contrail.rf_net" false 5 (all_used 5) (ap5 rf_net) ].

(** The whole numeric API: the three groups above (files cited there). *)
Definition api : list fn := backend_table ++ interp_table ++ numpy_table.
End Table.
