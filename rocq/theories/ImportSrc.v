(** * The top level of every file of the package (generated by a script from the source text)

    Statements in the order of the file; [SBind] also lists the names that are looked up when the
    statement is executed at import (decorators, base classes, default values, annotations, right-hand
    sides), built-in names left out, attributes of a name after the first left out.  Bodies of functions
    are not executed at import.  Statements without effect on names ([warnings.simplefilter], doc strings)
    are left out; reading of data files at import is assumed to succeed. *)
From Coq Require Import String List.
From Verif Require Import Import.
Import ListNotations.
Open Scope string_scope.

(** openap/__init__.py:1-33 *)
Definition src_openap : list stmt :=
  [SFrom "aero" [("Aero", "Aero")] (* 1 *);
   SFrom "backends" [("CasadiBackend", "CasadiBackend"); ("JaxBackend", "JaxBackend"); ("NumpyBackend", "NumpyBackend"); ("get_backend", "get_backend")] (* 2 *);
   SFrom "geo" [("Geo", "Geo")] (* 3 *);
   SFrom "drag" [("Drag", "Drag")] (* 4 *);
   SFrom "emission" [("Emission", "Emission")] (* 5 *);
   SFrom "extra" [("aero", "aero"); ("filters", "filters"); ("nav", "nav"); ("statistics", "statistics")] (* 6 *);
   SFrom "." [("geo", "geo")] (* 7 *);
   SFrom "fuel" [("FuelFlow", "FuelFlow")] (* 8 *);
   SFrom "gen" [("FlightGenerator", "FlightGenerator")] (* 9 *);
   SFrom "kinematic" [("WRAP", "WRAP")] (* 10 *);
   SFrom "phase" [("FlightPhase", "FlightPhase")] (* 11 *);
   SFrom "thrust" [("Thrust", "Thrust")] (* 12 *);
   SBind "__all__" [] (* 14-33 *)].
(** openap/addon/__init__.py:1-1 *)
Definition src_openap_addon : list stmt :=
  [].
(** openap/addon/bada3.py:2-633 *)
Definition src_openap_addon_bada3 : list stmt :=
  [SLib None ["re"] (* 2 *);
   SLib None ["Path"] (* 3 *);
   SLib None ["Optional"] (* 4 *);
   SLib (Some Numpy) ["ndarray"] (* 6 *);
   SFrom "." [("base", "base"); ("prop", "prop")] (* 8 *);
   SFrom "extra" [("ndarrayconvert", "ndarrayconvert")] (* 9 *);
   SBind "bada3_aircraft" [] (* 13-39 *);
   SBind "load_bada3" [] (* 42-75 *);
   SBind "read_synonym" [] (* 78-120 *);
   SBind "parse_opf_content" [] (* 123-267 *);
   SBind "Drag" [["base"; "DragBase"]; ["ndarrayconvert"]; ["ndarray"]] (* 271-384 *);
   SBind "Thrust" [["base"; "ThrustBase"]; ["ndarrayconvert"]; ["ndarray"]] (* 387-509 *);
   SBind "FuelFlow" [["base"; "FuelFlowBase"]; ["Optional"]; ["ndarrayconvert"]; ["ndarray"]] (* 512-633 *)].
(** openap/addon/bada4.py:2-412 *)
Definition src_openap_addon_bada4 : list stmt :=
  [SLib None ["glob"] (* 2 *);
   SLib None ["ElementTree"] (* 3 *);
   SLib (Some Numpy) ["ndarray"] (* 5 *);
   SFrom "." [("base", "base")] (* 7 *);
   SFrom "extra" [("ndarrayconvert", "ndarrayconvert")] (* 8 *);
   SBind "load_bada4" [["ElementTree"; "ElementTree"]] (* 12-32 *);
   SBind "Drag" [["base"; "DragBase"]; ["ndarrayconvert"]; ["ndarray"]] (* 36-137 *);
   SBind "Thrust" [["base"; "ThrustBase"]; ["ndarrayconvert"]; ["ndarray"]] (* 140-305 *);
   SBind "FuelFlow" [["base"; "FuelFlowBase"]; ["ndarrayconvert"]; ["ndarray"]] (* 309-412 *)].
(** openap/aero.py:21-414 *)
Definition src_openap_aero : list stmt :=
  [SLib None ["Any"; "Optional"; "Tuple"] (* 21 *);
   SFrom "backends" [("BackendType", "BackendType"); ("NumpyBackend", "NumpyBackend"); ("default_backend", "default_backend")] (* 23 *);
   SBind "kts" [] (* 29 *);
   SBind "ft" [] (* 30 *);
   SBind "fpm" [] (* 31 *);
   SBind "inch" [] (* 32 *);
   SBind "sqft" [] (* 33 *);
   SBind "nm" [] (* 34 *);
   SBind "lbs" [] (* 35 *);
   SBind "g0" [] (* 36 *);
   SBind "R" [] (* 37 *);
   SBind "p0" [] (* 38 *);
   SBind "rho0" [] (* 39 *);
   SBind "T0" [] (* 40 *);
   SBind "gamma" [] (* 41 *);
   SBind "gamma1" [] (* 42 *);
   SBind "gamma2" [] (* 43 *);
   SBind "beta" [] (* 44 *);
   SBind "r_earth" [] (* 45 *);
   SBind "a0" [] (* 46 *);
   SBind "Aero" [["kts"]; ["ft"]; ["fpm"]; ["inch"]; ["sqft"]; ["nm"]; ["lbs"]; ["g0"]; ["R"]; ["p0"]; ["rho0"]; ["T0"]; ["gamma"]; ["gamma1"]; ["gamma2"]; ["beta"]; ["r_earth"]; ["a0"]; ["Optional"]; ["BackendType"]; ["Any"]; ["Tuple"]] (* 54-325 *);
   SBind "_default_aero" [["Aero"]; ["NumpyBackend"]] (* 332 *);
   SBind "atmos" [] (* 335-337 *);
   SBind "temperature" [] (* 340-342 *);
   SBind "pressure" [] (* 345-347 *);
   SBind "density" [] (* 350-352 *);
   SBind "vsound" [] (* 355-357 *);
   SBind "h_isa" [] (* 360-362 *);
   SFrom "geo" [("bearing", "bearing"); ("distance", "distance"); ("latlon", "latlon")] (* 369 *);
   SBind "tas2mach" [] (* 372-374 *);
   SBind "mach2tas" [] (* 377-379 *);
   SBind "eas2tas" [] (* 382-384 *);
   SBind "tas2eas" [] (* 387-389 *);
   SBind "cas2tas" [] (* 392-394 *);
   SBind "tas2cas" [] (* 397-399 *);
   SBind "mach2cas" [] (* 402-404 *);
   SBind "cas2mach" [] (* 407-409 *);
   SBind "crossover_alt" [] (* 412-414 *)].
(** openap/backends/__init__.py:23-80 *)
Definition src_openap_backends : list stmt :=
  [SLib None ["Literal"; "Union"] (* 23 *);
   SFrom "backends.casadi_backend" [("CasadiBackend", "CasadiBackend")] (* 25 *);
   SFrom "backends.jax_backend" [("JaxBackend", "JaxBackend")] (* 26 *);
   SFrom "backends.numpy_backend" [("NumpyBackend", "NumpyBackend")] (* 27 *);
   SFrom "backends.protocol" [("MathBackend", "MathBackend")] (* 28 *);
   SBind "BackendType" [["Union"]; ["NumpyBackend"]; ["CasadiBackend"]; ["JaxBackend"]; ["MathBackend"]] (* 31 *);
   SBind "BackendName" [["Literal"]] (* 32 *);
   SBind "_default_backend" [["NumpyBackend"]] (* 35 *);
   SBind "get_backend" [["BackendName"]; ["BackendType"]] (* 38-59 *);
   SBind "default_backend" [["NumpyBackend"]] (* 62-68 *);
   SBind "__all__" [] (* 71-80 *)].
(** openap/backends/casadi_backend.py:7-126 *)
Definition src_openap_backends_casadi_backend : list stmt :=
  [SLib None ["Any"] (* 7 *);
   SBind "CasadiBackend" [["Any"]] (* 10-126 *)].
(** openap/backends/jax_backend.py:7-121 *)
Definition src_openap_backends_jax_backend : list stmt :=
  [SLib None ["Any"] (* 7 *);
   SBind "JaxBackend" [["Any"]] (* 10-121 *)].
(** openap/backends/numpy_backend.py:6-110 *)
Definition src_openap_backends_numpy_backend : list stmt :=
  [SLib None ["Any"] (* 6 *);
   SLib (Some Numpy) ["np"] (* 8 *);
   SBind "NumpyBackend" [["Any"]] (* 11-110 *)].
(** openap/backends/protocol.py:8-113 *)
Definition src_openap_backends_protocol : list stmt :=
  [SLib None ["Any"; "Protocol"; "runtime_checkable"] (* 8 *);
   SBind "MathBackend" [["runtime_checkable"]; ["Protocol"]; ["Any"]] (* 12-113 *)].
(** openap/base.py:7-120 *)
Definition src_openap_base : list stmt :=
  [SLib None ["Optional"] (* 7 *);
   SFrom "aero" [("Aero", "Aero")] (* 9 *);
   SFrom "backends" [("BackendType", "BackendType"); ("default_backend", "default_backend")] (* 10 *);
   SFrom "extra" [("ndarrayconvert", "ndarrayconvert")] (* 11 *);
   SBind "DragBase" [["Optional"]; ["BackendType"]] (* 14-32 *);
   SBind "ThrustBase" [["Optional"]; ["BackendType"]] (* 35-66 *);
   SBind "FuelFlowBase" [["Optional"]; ["BackendType"]; ["ndarrayconvert"]] (* 69-98 *);
   SBind "EmissionBase" [["Optional"]; ["BackendType"]] (* 101-120 *)].
(** openap/casadi.py:17-62 *)
Definition src_openap_casadi : list stmt :=
  [SFrom "." [("prop", "prop")] (* 17 *);
   SFrom "aero" [("Aero", "Aero")] (* 18 *);
   SFrom "backends" [("CasadiBackend", "CasadiBackend")] (* 19 *);
   SBind "_casadi_backend" [["CasadiBackend"]] (* 22 *);
   SFrom "drag" [("Drag", "_DragBase")] (* 25 *);
   SFrom "emission" [("Emission", "_EmissionBase")] (* 26 *);
   SFrom "fuel" [("FuelFlow", "_FuelFlowBase")] (* 27 *);
   SFrom "thrust" [("Thrust", "_ThrustBase")] (* 28 *);
   SBind "Drag" [["_DragBase"]] (* 31-35 *);
   SBind "Thrust" [["_ThrustBase"]] (* 38-42 *);
   SBind "FuelFlow" [["_FuelFlowBase"]] (* 45-49 *);
   SBind "Emission" [["_EmissionBase"]] (* 52-56 *);
   SBind "aero" [["Aero"]; ["_casadi_backend"]] (* 60 *);
   SBind "__all__" [] (* 62 *)].
(** openap/contrail.py:22-500 *)
Definition src_openap_contrail : list stmt :=
  [SLib (Some Numpy) ["np"] (* 22 *);
   SLib (Some Scipy) ["optimize"] (* 23 *);
   SBind "gas_constant_water_vapor" [] (* 29 *);
   SBind "gas_constant_dry_air" [] (* 30 *);
   SBind "temperature_steam" [] (* 31 *);
   SBind "pressure_steam" [] (* 32 *);
   SBind "temperature_ice_point" [] (* 33 *);
   SBind "pressure_ice_point" [] (* 34 *);
   SBind "ei_water" [] (* 37 *);
   SBind "spec_air_heat_capacity" [] (* 38 *);
   SBind "ratio_mass_water_vapor_air" [] (* 39 *);
   SBind "spec_combustion_heat" [] (* 40 *);
   SBind "DEFAULT_PROPULSION_EFFICIENCY" [] (* 43 *);
   SBind "saturation_pressure_over_water" [] (* 51-80 *);
   SBind "saturation_pressure_over_ice" [] (* 83-105 *);
   SBind "relative_humidity" [] (* 113-140 *);
   SBind "rhw2rhi" [] (* 143-157 *);
   SBind "_isobaric_mixing_slope" [] (* 165-184 *);
   SBind "critical_temperature_water" [["DEFAULT_PROPULSION_EFFICIENCY"]] (* 187-216 *);
   SBind "critical_temperature_water_and_ice" [["DEFAULT_PROPULSION_EFFICIENCY"]] (* 219-264 *);
   SBind "rf_shortwave" [] (* 272-332 *);
   SBind "rf_longwave" [] (* 335-354 *);
   SBind "rf_net" [] (* 357-375 *);
   SBind "load_olr" [] (* 378-441 *);
   SBind "contrail_optical_properties" [] (* 449-496 *);
   SBind "propulsion_efficiency" [["DEFAULT_PROPULSION_EFFICIENCY"]] (* 500 *)].
(** openap/drag.py:3-284 *)
Definition src_openap_drag : list stmt :=
  [SLib None ["glob"] (* 3 *);
   SLib None ["os"] (* 4 *);
   SLib None ["warnings"] (* 5 *);
   SLib None ["Any"; "Dict"; "Optional"; "Tuple"] (* 6 *);
   SLib (Some Yaml) ["yaml"] (* 8 *);
   SLib (Some Pandas) ["pd"] (* 10 *);
   SFrom "." [("prop", "prop")] (* 12 *);
   SFrom "backends" [("BackendType", "BackendType")] (* 13 *);
   SBind "Numeric" [["Any"]] (* 16 *);
   SFrom "base" [("DragBase", "DragBase")] (* 17 *);
   SFrom "extra" [("ndarrayconvert", "ndarrayconvert")] (* 18 *);
   SBind "Drag" [["DragBase"]; ["Optional"]; ["BackendType"]; ["Dict"]; ["Any"]; ["ndarrayconvert"]; ["Numeric"]; ["Tuple"]] (* 23-284 *)].
(** openap/emission.py:3-259 *)
Definition src_openap_emission : list stmt :=
  [SLib None ["Any"; "Optional"; "Tuple"] (* 3 *);
   SFrom "." [("prop", "prop")] (* 5 *);
   SFrom "backends" [("BackendType", "BackendType")] (* 6 *);
   SBind "Numeric" [["Any"]] (* 9 *);
   SFrom "extra" [("ndarrayconvert", "ndarrayconvert")] (* 10 *);
   SFrom "base" [("EmissionBase", "EmissionBase")] (* 12 *);
   SBind "Emission" [["EmissionBase"]; ["Optional"]; ["BackendType"]; ["Numeric"]; ["Tuple"]; ["ndarrayconvert"]] (* 15-259 *)].
(** openap/extra/__init__.py:3-96 *)
Definition src_openap_extra : list stmt :=
  [SLib None ["functools"] (* 3 *);
   SLib (Some Numpy) ["np"] (* 5 *);
   SBind "_is_symbolic_type" [] (* 8-24 *);
   SBind "ndarrayconvert" [] (* 27-96 *)].
(** openap/extra/aero.py:26-106 *)
Definition src_openap_extra_aero : list stmt :=
  [SFrom "aero" [("T0", "T0"); ("R", "R"); ("a0", "a0"); ("atmos", "atmos"); ("beta", "beta"); ("cas2mach", "cas2mach"); ("cas2tas", "cas2tas"); ("crossover_alt", "crossover_alt"); ("density", "density"); ("eas2tas", "eas2tas"); ("fpm", "fpm"); ("ft", "ft"); ("g0", "g0"); ("gamma", "gamma"); ("gamma1", "gamma1"); ("gamma2", "gamma2"); ("h_isa", "h_isa"); ("inch", "inch"); ("kts", "kts"); ("lbs", "lbs"); ("mach2cas", "mach2cas"); ("mach2tas", "mach2tas"); ("nm", "nm"); ("p0", "p0"); ("pressure", "pressure"); ("r_earth", "r_earth"); ("rho0", "rho0"); ("sqft", "sqft"); ("tas2cas", "tas2cas"); ("tas2eas", "tas2eas"); ("tas2mach", "tas2mach"); ("temperature", "temperature"); ("vsound", "vsound")] (* 26-62 *);
   SFrom "geo" [("bearing", "bearing"); ("distance", "distance"); ("latlon", "latlon")] (* 65 *);
   SBind "__all__" [] (* 67-106 *)].
(** openap/extra/filters.py:1-171 *)
Definition src_openap_extra_filters : list stmt :=
  [SLib (Some Matplotlib) ["plt"] (* 1 *);
   SLib (Some Scipy) ["UnivariateSpline"] (* 2 *);
   SLib (Some Scipy) ["convolve1d"] (* 3 *);
   SLib (Some Scipy) ["gaussian"] (* 4 *);
   SLib (Some Numpy) ["np"] (* 6 *);
   SBind "BaseFilter" [] (* 9-44 *);
   SBind "SavitzkyGolay" [["BaseFilter"]] (* 47-101 *);
   SBind "Spline" [["BaseFilter"]] (* 104-139 *);
   SBind "TWF" [["BaseFilter"]] (* 142-171 *)].
(** openap/extra/fuzzy.py:7-142 *)
Definition src_openap_extra_fuzzy : list stmt :=
  [SLib (Some Numpy) ["np"] (* 7 *);
   SBind "gaussmf" [] (* 10-22 *);
   SBind "zmf" [] (* 25-52 *);
   SBind "smf" [] (* 55-81 *);
   SBind "interp_membership" [] (* 84-106 *);
   SBind "defuzz" [] (* 109-142 *)].
(** openap/extra/nav.py:3-140 *)
Definition src_openap_extra_nav : list stmt :=
  [SLib None ["os"] (* 3 *);
   SLib None ["Dict"; "List"; "Optional"; "Tuple"] (* 4 *);
   SLib (Some Numpy) ["np"] (* 6 *);
   SLib (Some Pandas) ["pd"] (* 7 *);
   SFrom "extra" [("aero", "aero")] (* 8 *);
   SBind "fixes" [] (* 10 *);
   SBind "airports" [] (* 11 *);
   SBind "curr_path" [["os"; "path"]] (* 13 *);
   SBind "db_airport" [["curr_path"]] (* 14 *);
   SBind "db_fix" [["curr_path"]] (* 15 *);
   SBind "_read_fix" [] (* 18-27 *);
   SBind "_read_airport" [] (* 30-31 *);
   SBind "airport" [["Optional"]; ["Dict"]] (* 34-54 *);
   SBind "closest_airport" [["Optional"]] (* 57-87 *);
   SBind "fix" [["List"]] (* 90-107 *);
   SBind "closest_fix" [["Tuple"]; ["List"]] (* 110-140 *)].
(** openap/extra/statistics.py:3-88 *)
Definition src_openap_extra_statistics : list stmt :=
  [SLib (Some Scipy) ["scipy"] (* 3 *);
   SLib (Some Matplotlib) ["plt"] (* 4 *);
   SLib (Some Numpy) ["np"] (* 6 *);
   SBind "fit" [] (* 9-66 *);
   SBind "fitplot" [] (* 69-88 *)].
(** openap/fuel.py:3-230 *)
Definition src_openap_fuel : list stmt :=
  [SLib None ["importlib"] (* 3 *);
   SLib None ["os"] (* 4 *);
   SLib None ["Any"; "Callable"; "Optional"] (* 5 *);
   SLib (Some Pandas) ["pd"] (* 7 *);
   SFrom "." [("prop", "prop")] (* 8 *);
   SFrom "backends" [("BackendType", "BackendType")] (* 9 *);
   SBind "Numeric" [["Any"]] (* 12 *);
   SFrom "extra" [("ndarrayconvert", "ndarrayconvert")] (* 13 *);
   SFrom "extra.aero" [("fpm", "fpm"); ("kts", "kts")] (* 14 *);
   SFrom "base" [("FuelFlowBase", "FuelFlowBase")] (* 16 *);
   SBind "FuelFlow" [["FuelFlowBase"]; ["Optional"]; ["BackendType"]; ["Callable"]; ["Numeric"]; ["ndarrayconvert"]] (* 19-230 *)].
(** openap/gen.py:28-548 *)
Definition src_openap_gen : list stmt :=
  [SLib (Some Numpy) ["np"] (* 28 *);
   SLib (Some Pandas) ["pd"] (* 29 *);
   SFrom "." [("aero", "aero"); ("prop", "prop")] (* 30 *);
   SFrom "kinematic" [("WRAP", "WRAP")] (* 32 *);
   SBind "FlightGenerator" [["pd"; "DataFrame"]] (* 35-548 *)].
(** openap/geo.py:21-320 *)
Definition src_openap_geo : list stmt :=
  [SLib None ["datetime"] (* 21 *);
   SLib None ["Any"; "Optional"; "Tuple"; "Union"] (* 22 *);
   SFrom "backends" [("BackendType", "BackendType"); ("NumpyBackend", "NumpyBackend"); ("default_backend", "default_backend")] (* 24 *);
   SBind "r_earth" [] (* 30 *);
   SBind "Geo" [["r_earth"]; ["Optional"]; ["BackendType"]; ["Any"]; ["Tuple"]; ["Union"]; ["datetime"]] (* 38-248 *);
   SBind "_default_geo" [["Geo"]; ["NumpyBackend"]] (* 255 *);
   SBind "distance" [] (* 258-271 *);
   SBind "bearing" [] (* 274-286 *);
   SBind "latlon" [] (* 289-302 *);
   SBind "solar_zenith_angle" [] (* 305-320 *)].
(** openap/jax.py:27-71 *)
Definition src_openap_jax : list stmt :=
  [SFrom "aero" [("Aero", "Aero")] (* 27 *);
   SFrom "backends" [("JaxBackend", "JaxBackend")] (* 28 *);
   SBind "_jax_backend" [["JaxBackend"]] (* 31 *);
   SFrom "drag" [("Drag", "_DragBase")] (* 34 *);
   SFrom "emission" [("Emission", "_EmissionBase")] (* 35 *);
   SFrom "fuel" [("FuelFlow", "_FuelFlowBase")] (* 36 *);
   SFrom "thrust" [("Thrust", "_ThrustBase")] (* 37 *);
   SBind "Drag" [["_DragBase"]] (* 40-44 *);
   SBind "Thrust" [["_ThrustBase"]] (* 47-51 *);
   SBind "FuelFlow" [["_FuelFlowBase"]] (* 54-58 *);
   SBind "Emission" [["_EmissionBase"]] (* 61-65 *);
   SBind "aero" [["Aero"]; ["_jax_backend"]] (* 69 *);
   SBind "__all__" [] (* 71 *)].
(** openap/kinematic.py:24-209 *)
Definition src_openap_kinematic : list stmt :=
  [SLib None ["glob"] (* 24 *);
   SLib None ["os"] (* 25 *);
   SLib (Some Pandas) ["pd"] (* 27 *);
   SBind "curr_path" [["os"; "path"]] (* 29 *);
   SBind "dir_wrap" [["os"; "path"]; ["curr_path"]] (* 30 *);
   SBind "file_synonym" [["os"; "path"]; ["curr_path"]] (* 31 *);
   SBind "wrap_synonym" [["pd"; "read_csv"]; ["file_synonym"]] (* 33 *);
   SBind "WRAP" [] (* 36-209 *)].
(** openap/mass.py:2-44 *)
Definition src_openap_mass : list stmt :=
  [SLib (Some Numpy) ["np"] (* 2 *);
   SFrom "." [("prop", "prop")] (* 4 *);
   SBind "from_range" [] (* 7-44 *)].
(** openap/phase.py:3-413 *)
Definition src_openap_phase : list stmt :=
  [SLib (Some Matplotlib) ["plt"] (* 3 *);
   SLib (Some Numpy) ["np"] (* 5 *);
   SFrom "extra" [("fuzzy", "fuzzy")] (* 6 *);
   SBind "FlightPhase" [] (* 9-413 *)].
(** openap/prop.py:3-183 *)
Definition src_openap_prop : list stmt :=
  [SLib None ["glob"] (* 3 *);
   SLib None ["logging"] (* 4 *);
   SLib None ["os"] (* 5 *);
   SLib None ["warnings"] (* 6 *);
   SLib None ["lru_cache"] (* 7 *);
   SLib None ["Any"; "Dict"; "List"; "Optional"] (* 8 *);
   SLib (Some Yaml) ["yaml"] (* 10 *);
   SLib (Some Numpy) ["np"] (* 12 *);
   SLib (Some Pandas) ["pd"] (* 13 *);
   SBind "logger" [["logging"; "getLogger"]] (* 15 *);
   SBind "curr_path" [["os"; "path"]] (* 19 *);
   SBind "dir_aircraft" [["os"; "path"]; ["curr_path"]] (* 20 *);
   SBind "file_engine" [["os"; "path"]; ["curr_path"]] (* 21 *);
   SBind "file_synonym" [["os"; "path"]; ["curr_path"]] (* 22 *);
   SBind "aircraft_synonym" [["pd"; "read_csv"]; ["file_synonym"]] (* 24 *);
   SBind "available_aircraft" [["lru_cache"]; ["List"]] (* 28-45 *);
   SBind "aircraft" [["Dict"]; ["Any"]] (* 48-96 *);
   SBind "aircraft_engine_options" [["lru_cache"]; ["List"]] (* 100-117 *);
   SBind "search_engine" [["lru_cache"]; ["Optional"]; ["List"]] (* 121-143 *);
   SBind "engine" [["lru_cache"]; ["Dict"]; ["Any"]] (* 147-183 *)].
(** openap/thrust.py:11-262 *)
Definition src_openap_thrust : list stmt :=
  [SLib None ["Any"; "Optional"] (* 11 *);
   SFrom "." [("prop", "prop")] (* 13 *);
   SFrom "backends" [("BackendType", "BackendType")] (* 14 *);
   SBind "Numeric" [["Any"]] (* 17 *);
   SFrom "extra" [("ndarrayconvert", "ndarrayconvert")] (* 18 *);
   SFrom "base" [("ThrustBase", "ThrustBase")] (* 20 *);
   SBind "Thrust" [["ThrustBase"]; ["Optional"]; ["BackendType"]; ["Numeric"]; ["ndarrayconvert"]] (* 23-262 *)].
(** the modules of the package: name, package or not, statements (openap/__init__.py:1-33) *)
Definition package : list (string * (bool * list stmt)) :=
  [(".", (true, src_openap));
   ("addon", (true, src_openap_addon));
   ("addon.bada3", (false, src_openap_addon_bada3));
   ("addon.bada4", (false, src_openap_addon_bada4));
   ("aero", (false, src_openap_aero));
   ("backends", (true, src_openap_backends));
   ("backends.casadi_backend", (false, src_openap_backends_casadi_backend));
   ("backends.jax_backend", (false, src_openap_backends_jax_backend));
   ("backends.numpy_backend", (false, src_openap_backends_numpy_backend));
   ("backends.protocol", (false, src_openap_backends_protocol));
   ("base", (false, src_openap_base));
   ("casadi", (false, src_openap_casadi));
   ("contrail", (false, src_openap_contrail));
   ("drag", (false, src_openap_drag));
   ("emission", (false, src_openap_emission));
   ("extra", (true, src_openap_extra));
   ("extra.aero", (false, src_openap_extra_aero));
   ("extra.filters", (false, src_openap_extra_filters));
   ("extra.fuzzy", (false, src_openap_extra_fuzzy));
   ("extra.nav", (false, src_openap_extra_nav));
   ("extra.statistics", (false, src_openap_extra_statistics));
   ("fuel", (false, src_openap_fuel));
   ("gen", (false, src_openap_gen));
   ("geo", (false, src_openap_geo));
   ("jax", (false, src_openap_jax));
   ("kinematic", (false, src_openap_kinematic));
   ("mass", (false, src_openap_mass));
   ("phase", (false, src_openap_phase));
   ("prop", (false, src_openap_prop));
   ("thrust", (false, src_openap_thrust))].
(** the lists [__all__] (openap/__init__.py:14-33, openap/backends/__init__.py:71-80, openap/extra/aero.py:67-106, openap/casadi.py:62, openap/jax.py:71) *)
Definition exported : list (string * list string) :=
  [(".", ["WRAP"; "Aero"; "CasadiBackend"; "Drag"; "Emission"; "FlightGenerator"; "FlightPhase"; "FuelFlow"; "Geo"; "JaxBackend"; "NumpyBackend"; "Thrust"; "aero"; "filters"; "geo"; "get_backend"; "nav"; "statistics"]);
   ("backends", ["BackendName"; "BackendType"; "CasadiBackend"; "JaxBackend"; "MathBackend"; "NumpyBackend"; "default_backend"; "get_backend"]);
   ("casadi", ["Drag"; "Emission"; "FuelFlow"; "Thrust"; "aero"; "prop"]);
   ("extra.aero", ["kts"; "ft"; "fpm"; "inch"; "sqft"; "nm"; "lbs"; "g0"; "R"; "p0"; "rho0"; "T0"; "gamma"; "gamma1"; "gamma2"; "beta"; "r_earth"; "a0"; "atmos"; "temperature"; "pressure"; "density"; "vsound"; "distance"; "bearing"; "h_isa"; "latlon"; "tas2mach"; "mach2tas"; "eas2tas"; "tas2eas"; "cas2tas"; "tas2cas"; "mach2cas"; "cas2mach"; "crossover_alt"]);
   ("jax", ["Drag"; "Emission"; "FuelFlow"; "Thrust"; "aero"])].
