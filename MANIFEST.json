{
 "claims": [
  {
   "property": "C01",
   "status": "proved",
   "theorems": [
    "C01_atmos_defined"
   ],
   "note": ""
  },
  {
   "property": "C02",
   "status": "proved",
   "theorems": [
    "C02_shift_saturates"
   ],
   "note": ""
  },
  {
   "property": "C03",
   "status": "proved",
   "theorems": [
    "C03_thinner_with_altitude"
   ],
   "note": ""
  },
  {
   "property": "C04",
   "status": "proved",
   "theorems": [
    "C04_isa_agreement"
   ],
   "note": ""
  },
  {
   "property": "C05",
   "status": "proved",
   "theorems": [
    "C05_mach_eas_inverse"
   ],
   "note": ""
  },
  {
   "property": "C06",
   "status": "proved",
   "theorems": [
    "C06_cas_tas_inverse",
    "C06_zero",
    "C06_sign_lost"
   ],
   "note": ""
  },
  {
   "property": "C07",
   "status": "proved",
   "theorems": [
    "C07_cas_mach_inverse"
   ],
   "note": ""
  },
  {
   "property": "C08",
   "status": "proved",
   "theorems": [
    "C08_eas_cas_tas_order"
   ],
   "note": ""
  },
  {
   "property": "C09",
   "status": "proved",
   "theorems": [
    "C09_h_isa_approx_inverse",
    "C09_exact_inverse_refuted",
    "C09_off_isa_refuted"
   ],
   "note": "Parts that do not hold of the code are proved as refutations: C09_exact_inverse_refuted: `h_isa(pressure(h))` is not exactly `h`; C09_off_isa_refuted: with a temperature shift `h_isa` does not invert `pressure` even approximately"
  },
  {
   "property": "C10",
   "status": "proved",
   "theorems": [
    "C10_h_isa_piecewise_monotone",
    "C10_switch_jump",
    "C10_global_monotone_refuted",
    "C10_switch_jump_off_isa"
   ],
   "note": "Parts that do not hold of the code are proved as refutations: C10_global_monotone_refuted: `h_isa` is not monotone across the 22630 Pa switch"
  },
  {
   "property": "C11",
   "status": "proved",
   "theorems": [
    "C11_crossover_consistent",
    "C11_crossover_monotone"
   ],
   "note": ""
  },
  {
   "property": "C12",
   "status": "proved",
   "theorems": [
    "C12_distance_is_great_circle",
    "C12_distance_metric"
   ],
   "note": ""
  },
  {
   "property": "C13",
   "status": "proved",
   "theorems": [
    "C13_triangle_inequality"
   ],
   "note": ""
  },
  {
   "property": "C14",
   "status": "proved",
   "theorems": [
    "C14_bearing_range"
   ],
   "note": ""
  },
  {
   "property": "C15",
   "status": "proved",
   "theorems": [
    "C15_destination_distance"
   ],
   "note": ""
  },
  {
   "property": "C16",
   "status": "proved",
   "theorems": [
    "C16_destination_bearing"
   ],
   "note": ""
  },
  {
   "property": "C17",
   "status": "proved",
   "theorems": [
    "C17_destination_range",
    "C17_longitude_normalised_refuted"
   ],
   "note": "Parts that do not hold of the code are proved as refutations: C17_longitude_normalised_refuted: `latlon` can return longitudes beyond 180 degrees"
  },
  {
   "property": "C18",
   "status": "proved",
   "theorems": [
    "C18_solar_zenith"
   ],
   "note": ""
  },
  {
   "property": "C19",
   "status": "proved",
   "theorems": [
    "C19_static_rated_thrust",
    "C19_defined_and_proportional",
    "C19_static_decreases_with_altitude"
   ],
   "note": ""
  },
  {
   "property": "C20",
   "status": "proved",
   "theorems": [
    "C20_symmetry_floor_cruise_reference",
    "C20_continuous_in_altitude"
   ],
   "note": ""
  },
  {
   "property": "C21",
   "status": "proved",
   "theorems": [
    "C21_climb_thrust_defined",
    "C21_constructor_meets_conditions"
   ],
   "note": ""
  },
  {
   "property": "C22",
   "status": "proved",
   "theorems": [
    "C22_climb_thrust_continuous_at_30000_refuted"
   ],
   "note": "Parts that do not hold of the code are proved as refutations: C22_climb_thrust_continuous_at_30000_refuted: climb thrust jumps at 30000 ft"
  },
  {
   "property": "C23",
   "status": "proved",
   "theorems": [
    "C23_accepted_engine_belongs",
    "C23_mismatch_rejected",
    "C23_abbreviation_rejected",
    "C23_force_accepts_any"
   ],
   "note": ""
  },
  {
   "property": "C24",
   "status": "proved",
   "theorems": [
    "C24_flow_positive_increasing_bounded"
   ],
   "note": ""
  },
  {
   "property": "C25",
   "status": "proved",
   "theorems": [
    "C25_upper_limit_refuted",
    "C25_overflow"
   ],
   "note": "Parts that do not hold of the code are proved as refutations: C25_upper_limit_refuted: the limiter lets the thrust ratio exceed 1"
  },
  {
   "property": "C26",
   "status": "proved",
   "theorems": [
    "C26_linear_in_throttle",
    "C26_default_altitude_refuted"
   ],
   "note": "Parts that do not hold of the code are proved as refutations: C26_default_altitude_refuted: `FuelFlow.takeoff` without altitude raises, although the altitude is documented as optional"
  },
  {
   "property": "C27",
   "status": "proved",
   "theorems": [
    "C27_point_mass_balance",
    "C27_level_flight_and_limit",
    "C27_monotone_in_acceleration",
    "C27_monotone_in_mass"
   ],
   "note": ""
  },
  {
   "property": "C28",
   "status": "proved",
   "theorems": [
    "C28_clean_drag_bounds",
    "C28_clean_drag_bounds_wave",
    "C28_clean_value"
   ],
   "note": ""
  },
  {
   "property": "C29",
   "status": "proved",
   "theorems": [
    "C29_symmetric_and_increasing_in_mass"
   ],
   "note": ""
  },
  {
   "property": "C30",
   "status": "proved",
   "theorems": [
    "C30_gear_and_zero_flap",
    "C30_nonclean_value",
    "C30_flaps_add_drag_refuted"
   ],
   "note": "Parts that do not hold of the code are proved as refutations: C30_flaps_add_drag_refuted: flaps can reduce drag (the induced-drag factor drops)"
  },
  {
   "property": "C31",
   "status": "proved",
   "theorems": [
    "C31_wave_drag_only_adds"
   ],
   "note": ""
  },
  {
   "property": "C32",
   "status": "proved",
   "theorems": [
    "C32_proportional_to_fuel"
   ],
   "note": ""
  },
  {
   "property": "C33",
   "status": "proved",
   "theorems": [
    "C33_rates_bounded_by_databank"
   ],
   "note": ""
  },
  {
   "property": "C34",
   "status": "proved",
   "theorems": [
    "C34_undefined_above_145442_ft"
   ],
   "note": ""
  },
  {
   "property": "C35",
   "status": "proved",
   "theorems": [
    "C35_mass_within_limits",
    "C35_mass_at_most_mtow_refuted"
   ],
   "note": "Parts that do not hold of the code are proved as refutations: C35_mass_at_most_mtow_refuted: `mass.from_range` exceeds MTOW for a shipped aircraft (A332)"
  },
  {
   "property": "C36",
   "status": "proved",
   "theorems": [
    "C36_lookup_without_synonyms",
    "C36_lookup_with_synonyms",
    "C36_advertised_iff_accepted",
    "C36_wildcard_rejected_refuted"
   ],
   "note": "Parts that do not hold of the code are proved as refutations: C36_wildcard_rejected_refuted: glob metacharacters in an aircraft name match files"
  },
  {
   "property": "C37",
   "status": "proved",
   "theorems": [
    "C37_first_prefix_match",
    "C37_shadowed_row_unreachable",
    "C37_shipped_reachable",
    "C37_exact_name_refuted"
   ],
   "note": "Parts that do not hold of the code are proved as refutations: C37_exact_name_refuted: `prop.engine` with an exact name may return a different engine (first prefix match)"
  },
  {
   "property": "C38",
   "status": "proved",
   "theorems": [
    "C38_search_literal_prefix",
    "C38_search_hit_lookup_hit",
    "C38_no_lower_case",
    "C38_case_insensitive_refuted"
   ],
   "note": "Parts that do not hold of the code are proved as refutations: C38_case_insensitive_refuted: `search_engine` cannot find engine names containing lower-case letters"
  },
  {
   "property": "C39",
   "status": "proved",
   "theorems": [
    "C39_buildable_types",
    "C39_synonyms_cover_advertised"
   ],
   "note": ""
  },
  {
   "property": "C40",
   "status": "proved",
   "theorems": [
    "C40_same_object",
    "C40_transparent_without_mutation",
    "C40_forgotten_after_many",
    "C40_plain_lookup_always_fresh",
    "C40_shared_between_holders",
    "C40_shipped_limit"
   ],
   "note": ""
  },
  {
   "property": "C41",
   "status": "proved",
   "theorems": [
    "C41_labels_per_window",
    "C41_short_trajectory_unlabelled"
   ],
   "note": ""
  },
  {
   "property": "C42",
   "status": "proved",
   "theorems": [
    "C42_strongest_rule_wins",
    "C42_rule_strengths"
   ],
   "note": ""
  },
  {
   "property": "C43",
   "status": "proved",
   "theorems": [
    "C43_unsorted_loses_alignment_refuted"
   ],
   "note": "Parts that do not hold of the code are proved as refutations: C43_unsorted_loses_alignment_refuted: phase labels of unsorted input are not aligned with the samples"
  },
  {
   "property": "C44",
   "status": "proved",
   "theorems": [
    "C44_takeoff_indices",
    "C44_landing_indices",
    "C44_landing_at_cruise_refuted",
    "C44_takeoff_exact",
    "C44_landing_exact"
   ],
   "note": "Parts that do not hold of the code are proved as refutations: C44_landing_at_cruise_refuted: a landing can be reported at cruise altitude"
  },
  {
   "property": "C45",
   "status": "proved",
   "theorems": [
    "C45_membership_functions",
    "C45_interpolation",
    "C45_degenerate_refuted",
    "C45_exact_shapes",
    "C45_outside_table",
    "C45_defuzz"
   ],
   "note": "Parts that do not hold of the code are proved as refutations: C45_degenerate_refuted: `smf` with coinciding corners, which its assertion admits, is NaN"
  },
  {
   "property": "C46",
   "status": "proved",
   "theorems": [
    "C46_climb_terminates",
    "C46_climb_kinematics",
    "C46_climb_deterministic",
    "C46_zero_step_never_ends"
   ],
   "note": ""
  },
  {
   "property": "C47",
   "status": "proved",
   "theorems": [
    "C47_final_altitude",
    "C47_overshoot"
   ],
   "note": ""
  },
  {
   "property": "C48",
   "status": "proved",
   "theorems": [
    "C48_rows_hold_speeds"
   ],
   "note": ""
  },
  {
   "property": "C49",
   "status": "proved",
   "theorems": [
    "C49_descent_terminates",
    "C49_descent_kinematics",
    "C49_ends_on_ground",
    "C49_negative_crossover_never_ends_refuted"
   ],
   "note": "Parts that do not hold of the code are proved as refutations: C49_negative_crossover_never_ends_refuted: a descent whose CAS is faster than its Mach at sea level never ends"
  },
  {
   "property": "C50",
   "status": "proved",
   "theorems": [
    "C50_cruise",
    "C50_range_unit"
   ],
   "note": ""
  },
  {
   "property": "C51",
   "status": "proved",
   "theorems": [
    "C51_documented_keyword_rejected",
    "C51_complete_flight"
   ],
   "note": ""
  },
  {
   "property": "C52",
   "status": "proved",
   "theorems": [
    "C52_elementwise",
    "C52_result_length",
    "C52_scalar_call",
    "C52_one_element_arrays",
    "C52_methods_covered",
    "C52_class_methods",
    "C52_plain_functions",
    "C52_length_mismatch",
    "C52_arguments_used",
    "C52_latlon_shapes"
   ],
   "note": ""
  },
  {
   "property": "C53",
   "status": "proved",
   "theorems": [
    "C53_symbolic_equals_numeric",
    "C53_emissions_inside_table",
    "C53_emissions_outside_table",
    "C53_all_methods_refuted",
    "C53_clip_bounds"
   ],
   "note": "Parts that do not hold of the code are proved as refutations: C53_all_methods_refuted: the symbolic interpolation differs outside the table"
  },
  {
   "property": "C54",
   "status": "proved",
   "theorems": [
    "C54_humidity_conversion"
   ],
   "note": ""
  },
  {
   "property": "C55",
   "status": "proved",
   "theorems": [
    "C55_saturation_pressures"
   ],
   "note": ""
  },
  {
   "property": "C56",
   "status": "proved",
   "theorems": [
    "C56_forcing_signs",
    "C56_zero_depth_net_refuted"
   ],
   "note": "Parts that do not hold of the code are proved as refutations: C56_zero_depth_net_refuted: a contrail of zero optical depth has a non-zero net forcing"
  },
  {
   "property": "C57",
   "status": "proved",
   "theorems": [
    "C57_critical_temperature_increasing",
    "C57_low_pressure_refuted"
   ],
   "note": "Parts that do not hold of the code are proved as refutations: C57_low_pressure_refuted: below about 700 Pa the critical temperature decreases with pressure, then is NaN"
  },
  {
   "property": "C58",
   "status": "proved",
   "theorems": [
    "C58_static_thrust_increases_with_temperature",
    "C58_hot_day_within_rating_refuted"
   ],
   "note": "Parts that do not hold of the code are proved as refutations: C58_hot_day_within_rating_refuted: static take-off thrust exceeds the rating on a hot day"
  },
  {
   "property": "C59",
   "status": "proved",
   "theorems": [
    "C59_thrust_lapse_with_speed"
   ],
   "note": ""
  },
  {
   "property": "C60",
   "status": "proved",
   "theorems": [
    "C60_takeoff_and_idle_thrust_positive"
   ],
   "note": ""
  },
  {
   "property": "C61",
   "status": "proved",
   "theorems": [
    "C61_ice_threshold_unique"
   ],
   "note": ""
  },
  {
   "property": "C62",
   "status": "proved",
   "theorems": [
    "C62_thicker_cools_more"
   ],
   "note": ""
  },
  {
   "property": "C63",
   "status": "proved",
   "theorems": [
    "C63_optical_table"
   ],
   "note": ""
  },
  {
   "property": "C64",
   "status": "proved",
   "theorems": [
    "C64_parked_aircraft"
   ],
   "note": ""
  },
  {
   "property": "C65",
   "status": "proved",
   "theorems": [
    "C65_phase_order_refuted"
   ],
   "note": "Parts that do not hold of the code are proved as refutations: C65_phase_order_refuted: reported phase start indices can be out of flight order"
  },
  {
   "property": "C66",
   "status": "proved",
   "theorems": [
    "C66_labels_plausible"
   ],
   "note": ""
  },
  {
   "property": "C67",
   "status": "proved",
   "theorems": [
    "C67_segments_in_order",
    "C67_slow_mach_retakeoff_refuted"
   ],
   "note": "Parts that do not hold of the code are proved as refutations: C67_slow_mach_retakeoff_refuted: with a slow Mach number a climb returns to the take-off segment at altitude"
  },
  {
   "property": "C68",
   "status": "proved",
   "theorems": [
    "C68_rows_hold_speeds"
   ],
   "note": ""
  },
  {
   "property": "C69",
   "status": "proved",
   "theorems": [
    "C69_integer_columns"
   ],
   "note": ""
  },
  {
   "property": "C70",
   "status": "proved",
   "theorems": [
    "C70_explicit_default_refuted",
    "C70_explicit_false_restricts"
   ],
   "note": "Parts that do not hold of the code are proved as refutations: C70_explicit_default_refuted: spelling out the documented default `use_synonym=False` changes what `FuelFlow` accepts"
  },
  {
   "property": "C71",
   "status": "proved",
   "theorems": [
    "C71_options_usable",
    "C71_default_usable"
   ],
   "note": ""
  },
  {
   "property": "C72",
   "status": "proved",
   "theorems": [
    "C72_spherical_law",
    "C72_highest_at_solar_noon",
    "C72_polar_day_and_night",
    "C72_clock_hour"
   ],
   "note": ""
  },
  {
   "property": "C73",
   "status": "proved",
   "theorems": [
    "C73_take_off_law",
    "C73_three_segment_climb_law",
    "C73_cruise_data_selection"
   ],
   "note": ""
  },
  {
   "property": "C74",
   "status": "proved",
   "theorems": [
    "C74_parabolic_polar",
    "C74_high_lift_polar"
   ],
   "note": ""
  },
  {
   "property": "C75",
   "status": "proved",
   "theorems": [
    "C75_tracks_thrust_ratio",
    "C75_idle_floor"
   ],
   "note": ""
  },
  {
   "property": "C76",
   "status": "proved",
   "theorems": [
    "C76_fuel_flow_method",
    "C76_published_method_refuted"
   ],
   "note": "Parts that do not hold of the code are proved as refutations: C76_published_method_refuted: the emission correction is not the published Boeing Fuel Flow Method 2 at any positive speed"
  },
  {
   "property": "C77",
   "status": "proved",
   "theorems": [
    "C77_thrust_objects",
    "C77_drag_objects",
    "C77_drag_value",
    "C77_fuel_objects",
    "C77_emission_objects",
    "C77_mass_estimates",
    "C77_forced_engine_refuted"
   ],
   "note": "Parts that do not hold of the code are proved as refutations: C77_forced_engine_refuted: `force=True` accepts an engine without thrust data; thrust is then NaN"
  },
  {
   "property": "C78",
   "status": "proved",
   "theorems": [
    "C78_climbs",
    "C78_descents",
    "C78_complete_flights",
    "C78_cruise_distance",
    "C78_random_cruise_range_refuted",
    "C78_negative_range_limit_refuted"
   ],
   "note": "Parts that do not hold of the code are proved as refutations: C78_random_cruise_range_refuted: a random flight with negative range is a single point; C78_negative_range_limit_refuted: the shipped cruise range of A343 has a negative lower limit"
  },
  {
   "property": "C79",
   "status": "proved",
   "theorems": [
    "C79_documented_quantity",
    "C79_accessors_of_shipped_models",
    "C79_defaults_in_order",
    "C79_generator_inputs",
    "C79_default_within_limits_refuted"
   ],
   "note": "Parts that do not hold of the code are proved as refutations: C79_default_within_limits_refuted: three shipped defaults lie outside their limits"
  },
  {
   "property": "C80",
   "status": "proved",
   "theorems": [
    "C80_start_indices",
    "C80_continuous_descent",
    "C80_cruise_stretch"
   ],
   "note": ""
  },
  {
   "property": "C81",
   "status": "proved",
   "theorems": [
    "C81_humidity_laws",
    "C81_threshold_laws",
    "C81_ice_threshold_law",
    "C81_shortwave_law",
    "C81_longwave_law",
    "C81_cirrus_above"
   ],
   "note": ""
  },
  {
   "property": "C82",
   "status": "proved",
   "theorems": [
    "C82_climb_rows",
    "C82_climb_ends_with_a_level_minute",
    "C82_descent_rows"
   ],
   "note": ""
  },
  {
   "property": "C83",
   "status": "proved",
   "theorems": [
    "C83_climb_parameters",
    "C83_random_climb_parameters",
    "C83_descent_parameters",
    "C83_cruise_parameters",
    "C83_flight_level_kept",
    "C83_slow_cas_taken_in_random_mode_refuted",
    "C83_complete_consistent"
   ],
   "note": "Parts that do not hold of the code are proved as refutations: C83_slow_cas_taken_in_random_mode_refuted: the floor on climb CAS is missing in random mode"
  },
  {
   "property": "C84",
   "status": "proved",
   "theorems": [
    "C84_model_selection",
    "C84_full_and_idle_against_databank",
    "C84_engines_in_proportion"
   ],
   "note": ""
  },
  {
   "property": "C85",
   "status": "proved",
   "theorems": [
    "C85_letter_case",
    "C85_strip",
    "C85_prefix_and_substring",
    "C85_case_insensitive",
    "C85_blanks_around_engine",
    "C85_accepted_types",
    "C85_one_domain_refuted"
   ],
   "note": "Parts that do not hold of the code are proved as refutations: C85_one_domain_refuted: the constructors do not accept the same aircraft types"
  },
  {
   "property": "C86",
   "status": "proved",
   "theorems": [
    "C86_correction_factor",
    "C86_positive_on_shipped_data"
   ],
   "note": ""
  },
  {
   "property": "C87",
   "status": "proved",
   "theorems": [
    "C87_fixed_calls_are_reproducible",
    "C87_override_keeps_the_rest",
    "C87_random_flights_use_drawn_parameters",
    "C87_complete_flights_end",
    "C87_columns_describe_the_rows",
    "C87_replay"
   ],
   "note": ""
  },
  {
   "property": "C88",
   "status": "proved",
   "theorems": [
    "C88_noise",
    "C88_noise_stays",
    "C88_times_are_exact",
    "C88_altitude_below_zero_refuted"
   ],
   "note": "Parts that do not hold of the code are proved as refutations: C88_altitude_below_zero_refuted: noisy altitudes can be negative"
  },
  {
   "property": "C89",
   "status": "proved",
   "theorems": [
    "C89_airport_lookup",
    "C89_airport_unknown",
    "C89_airport_any_case",
    "C89_shipped_airports_are_found",
    "C89_country_refuted",
    "C89_closest_airport_none",
    "C89_closest_airport",
    "C89_closest_of_the_whole_table",
    "C89_closest_at_every_airport",
    "C89_nearest_on_the_sphere_refuted",
    "C89_longitude_wrap_refuted"
   ],
   "note": "Parts that do not hold of the code are proved as refutations: C89_country_refuted: airports in Namibia (country code \"NA\") are returned without a country; C89_nearest_on_the_sphere_refuted: at 64N 20W `closest_airport` returns BIMK although BIGH is nearer; C89_longitude_wrap_refuted: `closest_airport` at longitude 180 and -180 differ"
  },
  {
   "property": "C90",
   "status": "proved",
   "theorems": [
    "C90_fix_lookup",
    "C90_fix_unknown",
    "C90_own_name_refuted",
    "C90_closest_fix_none",
    "C90_closest_fix",
    "C90_nearest_of_the_whole_table",
    "C90_at_a_fix",
    "C90_longitude_wrap_refuted"
   ],
   "note": "Parts that do not hold of the code are proved as refutations: C90_own_name_refuted: fixes named \"NA\" or with small letters cannot be looked up; C90_longitude_wrap_refuted: `closest_fix` does not see across the antimeridian"
  },
  {
   "property": "C91",
   "status": "proved",
   "theorems": [
    "C91_sortxy",
    "C91_input_order_irrelevant",
    "C91_simplefill",
    "C91_simplefill_whole_seconds",
    "C91_closest_previous_refuted",
    "C91_twf_weights",
    "C91_twf_constant",
    "C91_twf_too_short",
    "C91_twf_window_one",
    "C91_twf_values",
    "C91_twf_every_second",
    "C91_twf_range_refuted",
    "C91_twf_window_three_refuted"
   ],
   "note": "Parts that do not hold of the code are proved as refutations: C91_closest_previous_refuted: `simplefill` ignores samples that are not at whole seconds and starts with 0; C91_twf_range_refuted: `TWF` with the default window leaves the range of the samples; C91_twf_window_three_refuted: `TWF(window_size=3)` with one sample per second divides by zero"
  },
  {
   "property": "C92",
   "status": "proved",
   "theorems": [
    "C92_arguments",
    "C92_least_squares",
    "C92_polynomials",
    "C92_rising_line",
    "C92_constant",
    "C92_derivative_too_high",
    "C92_empty",
    "C92_derivative_sign_refuted",
    "C92_falling_line_refuted",
    "C92_short_series_refuted"
   ],
   "note": "Parts that do not hold of the code are proved as refutations: C92_derivative_sign_refuted: `SavitzkyGolay(deriv=1)` returns minus the derivative; C92_falling_line_refuted: `SavitzkyGolay` changes a falling line at its ends; C92_short_series_refuted: `SavitzkyGolay` returns 11 values for a series of one sample"
  },
  {
   "property": "C93",
   "status": "proved",
   "theorems": [
    "C93_kernel",
    "C93_inside",
    "C93_averages_in_range",
    "C93_variances_positive",
    "C93_constant",
    "C93_units"
   ],
   "note": ""
  },
  {
   "property": "C94",
   "status": "proved",
   "theorems": [
    "C94_drag_as_shipped",
    "C94_thrust_as_shipped",
    "C94_fuel_as_shipped",
    "C94_constructor_as_shipped",
    "C94_usable_refuted"
   ],
   "note": "Parts that do not hold of the code are proved as refutations: C94_usable_refuted: the shipped BADA3 `FuelFlow.enroute` raises for every aircraft and argument (`self.sci` is never set)"
  },
  {
   "property": "C95",
   "status": "proved",
   "theorems": [
    "C95_clean_drag",
    "C95_heavier_more_drag",
    "C95_nonclean_drag",
    "C95_gear_refuted"
   ],
   "note": "Parts that do not hold of the code are proved as refutations: C95_gear_refuted: BADA3 `Drag.nonclean`: lowering the gear adds no drag when the landing coefficients are zero"
  },
  {
   "property": "C96",
   "status": "proved",
   "theorems": [
    "C96_thrust",
    "C96_temperature",
    "C96_idle",
    "C96_idle_config",
    "C96_idle_arrays",
    "C96_descent_altitude",
    "C96_descent_altitude_refuted"
   ],
   "note": "Parts that do not hold of the code are proved as refutations: C96_descent_altitude_refuted: BADA3 `Thrust`: the 8000 ft floor of the descent altitude is applied when no non-clean data exist, not when they do"
  },
  {
   "property": "C97",
   "status": "proved",
   "theorems": [
    "C97_nominal",
    "C97_nominal_piston",
    "C97_phases",
    "C97_heavier",
    "C97_descent",
    "C97_floor",
    "C97_floor_refuted"
   ],
   "note": "Parts that do not hold of the code are proved as refutations: C97_floor_refuted: BADA3 `FuelFlow.nominal` can be below idle: kg/min compared with kg/s"
  },
  {
   "property": "C98",
   "status": "proved",
   "theorems": [
    "C98_merge",
    "C98_combined",
    "C98_limits_file",
    "C98_limits_kept",
    "C98_coefficients",
    "C98_dictionary",
    "C98_limits_refuted",
    "C98_missing_sections",
    "C98_missing_refuted"
   ],
   "note": "Parts that do not hold of the code are proved as refutations: C98_limits_refuted: `bada3_aircraft`: `limits[\"MTOW\"]` and `mtow` differ after merging; C98_missing_refuted: an OPF file without sections is accepted; the aircraft has no drag"
  },
  {
   "property": "C99",
   "status": "proved",
   "theorems": [
    "C99_constructors",
    "C99_drag_error",
    "C99_fuel_error",
    "C99_thrust_methods",
    "C99_thrust_error",
    "C99_rating"
   ],
   "note": ""
  },
  {
   "property": "C100",
   "status": "proved",
   "theorems": [
    "C100_coefficient",
    "C100_divergence",
    "C100_mach_monotone",
    "C100_lift_monotone",
    "C100_continuous",
    "C100_drag",
    "C100_rest",
    "C100_mass_monotone",
    "C100_nonnegative"
   ],
   "note": ""
  },
  {
   "property": "C101",
   "status": "proved",
   "theorems": [
    "C101_rated",
    "C101_idle",
    "C101_finite",
    "C101_takeoff",
    "C101_idle_dT",
    "C101_kink",
    "C101_hot_refuted",
    "C101_idle_rest"
   ],
   "note": "Parts that do not hold of the code are proved as refutations: C101_hot_refuted: BADA4 thrust does not change with temperature beyond the kink: the temperature ratio is taken at dT = 0"
  },
  {
   "property": "C102",
   "status": "proved",
   "theorems": [
    "C102_drag",
    "C102_shape_refuted",
    "C102_fuel",
    "C102_lengths",
    "C102_masses",
    "C102_fuel_masses",
    "C102_fuel_rates",
    "C102_thrust",
    "C102_thrust_points_refuted",
    "C102_one_altitude",
    "C102_one_altitude_hot",
    "C102_deviations"
   ],
   "note": "Parts that do not hold of the code are proved as refutations: C102_shape_refuted: BADA4 drag of several points is a column, not an array of the shape of the arguments; C102_thrust_points_refuted: BADA4 thrust of n points is an n by n array, not one number per point"
  },
  {
   "property": "C103",
   "status": "proved",
   "theorems": [
    "C103_idle",
    "C103_enroute",
    "C103_descent",
    "C103_default",
    "C103_finite",
    "C103_no_heat",
    "C103_mass_monotone",
    "C103_climb_monotone",
    "C103_floor_refuted",
    "C103_jump"
   ],
   "note": "Parts that do not hold of the code are proved as refutations: C103_floor_refuted: BADA4 `FuelFlow.enroute` can be below idle: no lower bound is applied"
  },
  {
   "property": "C104",
   "status": "proved",
   "theorems": [
    "C104_load",
    "C104_case",
    "C104_unique",
    "C104_exact_refuted",
    "C104_contents"
   ],
   "note": "Parts that do not hold of the code are proved as refutations: C104_exact_refuted: `load_bada4`: a folder with exactly the asked name is not preferred over a longer one"
  },
  {
   "property": "C105",
   "status": "proved",
   "theorems": [
    "C105_values",
    "C105_model_values",
    "C105_geo_values",
    "C105_takeoff_fuel"
   ],
   "note": ""
  },
  {
   "property": "C106",
   "status": "proved",
   "theorems": [
    "C106_gradient",
    "C106_atmosphere",
    "C106_mach_eas",
    "C106_cas",
    "C106_h_isa",
    "C106_crossover",
    "C106_tropopause",
    "C106_tropopause_none",
    "C106_zero_speed_refuted"
   ],
   "note": "Parts that do not hold of the code are proved as refutations: C106_zero_speed_refuted: JAX: at zero speed the gradient of `tas2cas` by altitude is not finite although the derivative is zero"
  },
  {
   "property": "C107",
   "status": "proved",
   "theorems": [
    "C107_clean",
    "C107_nonclean",
    "C107_standstill_refuted"
   ],
   "note": "Parts that do not hold of the code are proved as refutations: C107_standstill_refuted: JAX: at zero speed and zero vertical rate the gradient of clean drag by speed is not finite although the derivative is zero (`arctan2(0, 0)`)"
  },
  {
   "property": "C108",
   "status": "proved",
   "theorems": [
    "C108_takeoff",
    "C108_idle",
    "C108_climb",
    "C108_cruise"
   ],
   "note": ""
  },
  {
   "property": "C109",
   "status": "proved",
   "theorems": [
    "C109_at_thrust",
    "C109_enroute",
    "C109_linear",
    "C109_nox",
    "C109_co_hc"
   ],
   "note": ""
  },
  {
   "property": "C110",
   "status": "proved",
   "theorems": [
    "C110_distance",
    "C110_bearing",
    "C110_destination_latitude",
    "C110_destination_longitude",
    "C110_coincident_refuted"
   ],
   "note": "Parts that do not hold of the code are proved as refutations: C110_coincident_refuted: JAX: the gradient of the distance of two points that stay together is not finite although the distance is constant"
  },
  {
   "property": "C111",
   "status": "proved",
   "theorems": [
    "C111_smooth",
    "C111_domain",
    "C111_pieces",
    "C111_ties",
    "C111_where_refuted"
   ],
   "note": "Parts that do not hold of the code are proved as refutations: C111_where_refuted: JAX: `where(x > 0, sqrt(x), 2 x)` at zero has no finite `jax.grad` although the chosen branch has slope 2"
  },
  {
   "property": "C112",
   "status": "proved",
   "theorems": [
    "C112_binary64",
    "C112_atmosphere",
    "C112_mach_eas",
    "C112_round_trip",
    "C112_monotone"
   ],
   "note": ""
  },
  {
   "property": "C113",
   "status": "proved",
   "theorems": [
    "C113_conversions",
    "C113_round_trip",
    "C113_tiny_refuted"
   ],
   "note": "Parts that do not hold of the code are proved as refutations: C113_tiny_refuted: binary64: the calibrated airspeed of a true airspeed of 1e-9 m/s is exactly zero"
  },
  {
   "property": "C114",
   "status": "proved",
   "theorems": [
    "C114_pole_refuted",
    "C114_distance"
   ],
   "note": "Parts that do not hold of the code are proved as refutations: C114_pole_refuted: binary64: the destination 4230713 m due north of latitude 52 at 8000 m (the pole to within a centimetre) is NaN, NaN, because the sine of the latitude rounds to 1 + 2^-52"
  },
  {
   "property": "C115",
   "status": "proved",
   "theorems": [
    "C115_sun",
    "C115_bearing"
   ],
   "note": ""
  },
  {
   "property": "C116",
   "status": "proved",
   "theorems": [
    "C116_data",
    "C116_models",
    "C116_models_ok",
    "C116_raises",
    "C116_nonfinite",
    "C116_small",
    "C116_split_refuted"
   ],
   "note": "Parts that do not hold of the code are proved as refutations: C116_split_refuted: `statistics.fit` announces a 50-50 split into training and test data, but trains on all values except the last and tests on the same values without the first"
  },
  {
   "property": "C117",
   "status": "proved",
   "theorems": [
    "C117_same_code",
    "C117_clean",
    "C117_nonclean",
    "C117_thrust",
    "C117_fuel",
    "C117_emission",
    "C117_scalar_refuted",
    "C117_grad_refuted"
   ],
   "note": "Parts that do not hold of the code are proved as refutations: C117_scalar_refuted: with plain numbers the JAX models return one-element arrays; `to_scalar` of the decorator only looks for NumPy arrays; C117_grad_refuted: `jax.grad` of non-clean drag by the flap angle, of clean drag with wave drag by the vertical rate, of en-route fuel flow by the acceleration and of take-off fuel flow by the throttle raises: an inner decorated call sees plain numbers only and turns them into arrays of length 1, so the result is no scalar"
  },
  {
   "property": "C118",
   "status": "proved",
   "theorems": [
    "C118_value",
    "C118_laws",
    "C118_outside",
    "C118_label_order",
    "C118_names",
    "C118_arrays",
    "C118_points_refuted",
    "C118_longitude_refuted"
   ],
   "note": "Parts that do not hold of the code are proved as refutations: C118_points_refuted: `load_olr` with arrays of n latitudes, longitudes and times returns n x n x n values (the grid they span), not one value per point of a trajectory; C118_longitude_refuted: `load_olr` on a grid from 0 to 360 degrees returns NaN for a longitude of -5 degrees and a number for 355"
  },
  {
   "property": "C119",
   "status": "proved",
   "theorems": [
    "C119_number",
    "C119_range",
    "C119_datetime",
    "C119_array",
    "C119_smooth",
    "C119_leap_year",
    "C119_raises",
    "C119_dates",
    "C119_pandas_refuted",
    "C119_zone_refuted"
   ],
   "note": "Parts that do not hold of the code are proved as refutations: C119_pandas_refuted: `solar_zenith_angle` raises TypeError for a pandas index or series of dates without a time zone (and for numpy arrays of dates), although \"array of timestamps\" is documented; C119_zone_refuted: `solar_zenith_angle` uses the clock of an aware datetime as if it showed UTC: the same instant in two time zones gives different angles"
  },
  {
   "property": "C120",
   "status": "proved",
   "theorems": [
    "C120_clean",
    "C120_nonclean",
    "C120_wave",
    "C120_shipped"
   ],
   "note": ""
  },
  {
   "property": "C121",
   "status": "proved",
   "theorems": [
    "C121_takeoff",
    "C121_climb",
    "C121_cruise",
    "C121_shipped"
   ],
   "note": ""
  },
  {
   "property": "C122",
   "status": "proved",
   "theorems": [
    "C122_at_thrust",
    "C122_takeoff",
    "C122_enroute",
    "C122_enroute_wave",
    "C122_shipped"
   ],
   "note": ""
  },
  {
   "property": "C123",
   "status": "proved",
   "theorems": [
    "C123_proportional",
    "C123_rates",
    "C123_relative",
    "C123_shipped"
   ],
   "note": ""
  },
  {
   "property": "C124",
   "status": "proved",
   "theorems": [
    "C124_only_known_keywords",
    "C124_by_name",
    "C124_packages",
    "C124_drag",
    "C124_emission",
    "C124_thrust",
    "C124_fuelflow",
    "C124_type_error",
    "C124_one_backend",
    "C124_keyword_order",
    "C124_aero",
    "C124_get_backend",
    "C124_get_backend_error",
    "C124_misspelt_refuted",
    "C124_positional_refuted",
    "C124_backend_by_name_refuted"
   ],
   "note": "Parts that do not hold of the code are proved as refutations: C124_misspelt_refuted: a misspelt keyword (`use_synonyms=True`) is accepted by every constructor and has no effect; C124_positional_refuted: the second positional argument of `Drag` switches wave drag, whatever it is: `Drag('A320', 'CFM56-5B4')` and `Drag('A320', CasadiBackend())` compute wave drag with NumPy; C124_backend_by_name_refuted: `Drag('A320', backend='jax')` is accepted; the object holds the text instead of a backend"
  },
  {
   "property": "C125",
   "status": "proved",
   "theorems": [
    "C125_entries",
    "C125_errors",
    "C125_engine",
    "C125_lines",
    "C125_section_refuted",
    "C125_name_refuted",
    "C125_columns_refuted",
    "C125_exponent_refuted",
    "C125_engine_refuted"
   ],
   "note": "Parts that do not hold of the code are proved as refutations: C125_section_refuted: a mass row without its last column is passed over in favour of the next row of five numbers: the maximum take-off mass becomes the ceiling in feet times 1000 kg; C125_name_refuted: a drag row whose configuration name has two words is passed over without an error: CD0 and CD2 are zero; C125_columns_refuted: in a drag row without a configuration name the columns are shifted: CD0 is the induced drag coefficient; C125_exponent_refuted: an exponent written with a lower-case e is cut off: `3.8e-02` is read as 3.8; C125_engine_refuted: an aircraft code with `jet` in it (JETP) makes a piston aircraft a turbofan"
  },
  {
   "property": "C126",
   "status": "proved",
   "theorems": [
    "C126_found",
    "C126_origin",
    "C126_errors",
    "C126_load",
    "C126_load_errors",
    "C126_one_letter_refuted",
    "C126_one_blank_refuted",
    "C126_slash_refuted",
    "C126_synonym_refuted"
   ],
   "note": "Parts that do not hold of the code are proved as refutations: C126_one_letter_refuted: a manufacturer of one letter is joined with the model; the word after the synonym is taken as the synonym; C126_one_blank_refuted: with one blank between a long manufacturer and the model, the flag after the synonym is taken as the synonym; C126_slash_refuted: an entry with a blank after the closing slash is not found (ValueError); C126_synonym_refuted: of the synonym `A320NEO` only `A320` counts, and `A320__.OPF` is loaded"
  },
  {
   "property": "C127",
   "status": "proved",
   "theorems": [
    "C127_names",
    "C127_import",
    "C127_import_as",
    "C127_order",
    "C127_attributes",
    "C127_loaded",
    "C127_star",
    "C127_reexport",
    "C127_own_classes",
    "C127_missing",
    "C127_missing_again",
    "C127_aero_refuted",
    "C127_late_refuted",
    "C127_retry_refuted"
   ],
   "note": "Parts that do not hold of the code are proved as refutations: C127_aero_refuted: `openap.aero`, `from openap import aero` and `import openap.aero as x` give openap/extra/aero.py, which has no `Aero`; only `from openap.aero import \u2026` reads openap/aero.py; C127_late_refuted: `openap.mass` (also `contrail`, `casadi`, `jax`, `addon`) is no attribute after `import openap`, but is once any code imported it; C127_retry_refuted: without matplotlib `from openap.aero import Aero` fails at first and succeeds when tried again"
  },
  {
   "property": "C128",
   "status": "proved",
   "theorems": [
    "C128_same",
    "C128_arguments",
    "C128_unique",
    "C128_complete",
    "C128_names",
    "C128_values",
    "C128_keywords"
   ],
   "note": ""
  },
  {
   "property": "C129",
   "status": "proved",
   "theorems": [
    "C129_leading_zero",
    "C129_colon",
    "C129_layout",
    "C129_repeated",
    "C129_unsigned",
    "C129_limits",
    "C129_options",
    "C129_exponent",
    "C129_numerals_refuted",
    "C129_shipped"
   ],
   "note": "Parts that do not hold of the code are proved as refutations: C129_numerals_refuted: in a YAML file `1e5` is a string and `010` is eight, whereas `float` makes 100000 and 10 of them"
  },
  {
   "property": "C130",
   "status": "proved",
   "theorems": [
    "C130_cells",
    "C130_table",
    "C130_column",
    "C130_numbers",
    "C130_strings",
    "C130_shipped",
    "C130_numeral",
    "C130_number_column"
   ],
   "note": ""
  },
  {
   "property": "C131",
   "status": "proved",
   "theorems": [
    "C131_columns",
    "C131_table",
    "C131_rows_refuted",
    "C131_lookup",
    "C131_unknown",
    "C131_agree",
    "C131_shipped",
    "C131_models",
    "C131_models_refuted",
    "C131_position_refuted",
    "C131_words_refuted"
   ],
   "note": "Parts that do not hold of the code are proved as refutations: C131_rows_refuted: a cell after line 100 of a fixed width file that is longer than those before is cut; C131_models_refuted: `statmodel_params` of the maximum cruise Mach number of A333, A388 and B788 is a gamma distribution of scale 0.00; C131_position_refuted: one more column in a file of the kinematic model makes every accessor raise, another order of columns swaps default and minimum; C131_words_refuted: the phase `initial climb` (with a blank) would make nine columns of eight and every accessor raise"
  },
  {
   "property": "C132",
   "status": "proved",
   "theorems": [
    "C132_balance",
    "C132_groups",
    "C132_shipped",
    "C132_holds",
    "C132_cruise_refuted",
    "C132_polar_of_substitute"
   ],
   "note": "Parts that do not hold of the code are proved as refutations: C132_cruise_refuted: with its maximum take-off mass an A388 needs more thrust at its cruise altitude and Mach number than its engines have; a C550 needs more even with nothing on board"
  },
  {
   "property": "C133",
   "status": "proved",
   "theorems": [
    "C133_drag",
    "C133_thrust",
    "C133_climb",
    "C133_climb_wrap",
    "C133_climb_refuted",
    "C133_fuel",
    "C133_enroute",
    "C133_enroute_default",
    "C133_enroute_refuted",
    "C133_emission",
    "C133_co2",
    "C133_co2_refuted",
    "C133_nox",
    "C133_nox_refuted",
    "C133_geo",
    "C133_common_type",
    "C133_8bit"
   ],
   "note": "Parts that do not hold of the code are proved as refutations: C133_climb_refuted: a rate of climb of 3000 ft/min stored in 16 bits: its square wraps around and climb thrust below 10000 ft is too high, for every engine; C133_enroute_refuted: 20000 kg and 2 m/s2 stored in 16 bits: the needed thrust is taken 65536 N too small, the fuel flow with it; C133_co2_refuted: 11 kg/s stored in 16 bits give a CO2 flow of -30776 g/s; C133_nox_refuted: an unsigned altitude below 12900 ft wraps around in `alt - 12900`: NOx too high by a factor given in closed form, more than 1.12 at sea level in 16 bits"
  }
 ]
}