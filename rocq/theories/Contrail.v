(** * Model of openap/contrail.py

    The module calls NumPy directly (not through a backend object); the model is written over
    an arbitrary backend like the rest and used with [NP].  [load_olr] (lines 378-441) is not
    modelled. *)
From Coq Require Import Reals List Bool.
From Verif Require Import Num.
Import ListNotations.
Open Scope R_scope.

(** openap/contrail.py:29 *)
Definition gas_constant_water_vapor : R := 461.51.
(** openap/contrail.py:30 *)
Definition gas_constant_dry_air : R := 287.05.
(** openap/contrail.py:37 *)
Definition ei_water : R := 1.2232.
(** openap/contrail.py:38 *)
Definition spec_air_heat_capacity : R := 1004.
(** openap/contrail.py:39 *)
Definition ratio_mass_water_vapor_air : R := 0.622.
(** openap/contrail.py:40 *)
Definition spec_combustion_heat : R := 43000000.
(** openap/contrail.py:43 *)
Definition DEFAULT_PROPULSION_EFFICIENCY : R := 0.4.

Section Contrail.
Context (b : backend).
Local Notation "# r" := (cst b r) (at level 1, r at level 0, format "# r").
Local Notation "x +: y" := (add b x y) (at level 50, left associativity).
Local Notation "x -: y" := (sub b x y) (at level 50, left associativity).
Local Notation "x *: y" := (mul b x y) (at level 40, left associativity).
Local Notation "x /: y" := (div b x y) (at level 40, left associativity).

(** openap/contrail.py:51-80 *)
Definition saturation_pressure_over_water (temperature : T b) : T b :=
  bexp b (#54.842763
    -: #6763.22 /: temperature
    -: #4.210 *: blog b temperature
    +: #0.000367 *: temperature
    +: btanh b (#0.0415 *: (temperature -: #218.8))
       *: (#53.878
           -: #1331.22 /: temperature
           -: #9.44523 *: blog b temperature
           +: #0.014025 *: temperature)).

(** openap/contrail.py:83-105 *)
Definition saturation_pressure_over_ice (temperature : T b) : T b :=
  bexp b (#9.550426
    -: #5723.265 /: temperature
    +: #3.53068 *: blog b temperature
    -: #0.00728332 *: temperature).

(** the argument [to] of [relative_humidity]; any other string fails the assertion at
    openap/contrail.py:128 *)
Inductive phase_of : Type := Ice | Water.

(** openap/contrail.py:113-140 *)
Definition relative_humidity (specific_humidity pressure temperature : T b) (to : phase_of) : T b :=
  let saturation_pressure :=
    match to with
    | Ice => saturation_pressure_over_ice temperature
    | Water => saturation_pressure_over_water temperature
    end in
  specific_humidity *: pressure
    *: (#gas_constant_water_vapor /: #gas_constant_dry_air) /: saturation_pressure.

(** openap/contrail.py:143-157 *)
Definition rhw2rhi (relative_humidity_water temperature : T b) : T b :=
  relative_humidity_water *: saturation_pressure_over_water temperature
    /: saturation_pressure_over_ice temperature.

(** openap/contrail.py:165-184 [_isobaric_mixing_slope] *)
Definition isobaric_mixing_slope (pressure propulsion_efficiency : T b) : T b :=
  #ei_water *: #spec_air_heat_capacity *: pressure
    /: (#ratio_mass_water_vapor_air *: #spec_combustion_heat *: (#1 -: propulsion_efficiency)).

(** openap/contrail.py:187-216 *)
Definition critical_temperature_water (pressure propulsion_efficiency : T b) : T b :=
  let g := isobaric_mixing_slope pressure propulsion_efficiency in
  #(-46.46)
    +: #9.43 *: blog b (g -: #0.053)
    +: #0.72 *: powi b (blog b (g -: #0.053)) 2
    +: #273.15.

(** openap/contrail.py:240-245: the function whose root [critical_temperature_water_and_ice]
    takes *)
Definition crit_func (temp_critical crit_temp_water g : T b) : T b :=
  saturation_pressure_over_water crit_temp_water
    -: saturation_pressure_over_ice temp_critical
    -: (crit_temp_water -: temp_critical) *: g.

(** openap/contrail.py:308 *)
Definition Fsw : T b := #1 -: (#0.512 *: (#1 -: bexp b (neg b #0.15 *: #16))).

(** openap/contrail.py:272-332.  [np.deg2rad z] is [z * (pi/180)].  [-SDR * ...] parses as
    [(-SDR) * ...]. *)
Definition rf_shortwave (zenith tau tau_c : T b) : T b :=
  let tA := #0.879 in let gamma_val := #0.242 in let gamma_l := #0.323 in
  let A_mu := #0.361 in let B_mu := #1.676 in let C_mu := #0.709 in
  let delta_SC := #0.157 in let delta_app_SC := #0.23 in let S0 := #1361 in let Aeff := #0.2 in
  let deg2rad z := z *: (bpi b /: #180) in
  let SDR := bcos b (deg2rad zenith) *: S0 in
  let mu := bcos b (deg2rad zenith) in
  let tau_eff := (tau *: Fsw) /: mu in
  let tau_c_eff := (tau_c *: Fsw) /: mu in
  let F_mu := (power b (#1 -: mu) B_mu /: power b (#1 /: #2) B_mu) -: #1 in
  let R_c := #1 -: bexp b (neg b gamma_val *: tau_eff) in
  let alpha_c := R_c *: (C_mu +: (A_mu *: bexp b (neg b gamma_l *: tau_eff) *: F_mu)) in
  let E_sw := bexp b ((delta_SC *: tau_c) -: (delta_app_SC *: tau_c_eff)) in
  let rf := neg b SDR *: powi b (tA -: Aeff) 2 *: alpha_c *: E_sw in
  where_ b (gt b zenith #90) #0 rf.

(** openap/contrail.py:335-354 *)
Definition rf_longwave (olr temperature : T b) : T b :=
  maximum b (olr -: #1.935 *: (temperature -: #152)) #0.

(** openap/contrail.py:357-375 *)
Definition rf_net (zenith tau tau_c olr temperature : T b) : T b :=
  rf_shortwave zenith tau tau_c +: rf_longwave olr temperature.
End Contrail.

(** [np.searchsorted(bounds, age, side="right")]: the number of bounds that are <= age
    (openap/contrail.py:485) *)
Definition searchsorted_right (bounds : list R) (age : R) : nat :=
  length (filter (fun x => Rleb x age) bounds).

(** openap/contrail.py:449-496, scalar ages; the three tables indexed by the clipped bin *)
Definition contrail_optical_properties (age : R) : R * R * R :=
  let tau_values := [0.4; 0.6; 0.68; 0.70; 0.71] in
  let width_values := [500; 1500; 3500; 6500; 10500] in
  let tau_c_values := [0.36; 0.54; 0.612; 0.63; 0.639] in
  let hour_bounds := [1; 2; 4; 6] in
  let i := Nat.min (Nat.max (searchsorted_right hour_bounds age) 0) (length tau_values - 1) in
  (nth i tau_values 0, nth i width_values 0, nth i tau_c_values 0).
