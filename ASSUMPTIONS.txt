Axioms used by each property theorem, as printed by Print Assumptions (Coq 8.16.1).
558 theorems, 8 different sets of axioms. All axioms are from the standard library.

== Set 1: 0 axioms (closed under the global context)
-- used by 131 theorems:
  P_Bada3Data.C98_limits_file
  P_Bada3Data.C98_merge
  P_Bada3Syn.C126_errors
  P_Bada3Syn.C126_found
  P_Bada3Syn.C126_one_blank_refuted
  P_Bada3Syn.C126_one_letter_refuted
  P_Bada3Syn.C126_origin
  P_Bada3Syn.C126_slash_refuted
  P_Bada3Text.C125_lines
  P_Bada4.C104_case
  P_Bada4.C104_exact_refuted
  P_Bada4.C104_load
  P_Bada4.C104_unique
  P_Bada4.C99_constructors
  P_Bada4.C99_drag_error
  P_Bada4.C99_fuel_error
  P_Bada4Xml.C104_contents
  P_Cache.C40_forgotten_after_many
  P_Cache.C40_plain_lookup_always_fresh
  P_Cache.C40_same_object
  P_Cache.C40_shared_between_holders
  P_Cache.C40_shipped_limit
  P_Cache.C40_transparent_without_mutation
  P_Call.C128_arguments
  P_Call.C128_complete
  P_Call.C128_names
  P_Call.C128_same
  P_Call.C128_unique
  P_Cruise.C132_groups
  P_Cruise.C132_polar_of_substitute
  P_Csv.C130_cells
  P_Csv.C130_column
  P_Csv.C130_numbers
  P_Csv.C130_shipped
  P_Csv.C130_strings
  P_Csv.C130_table
  P_Eng.C86_correction_factor
  P_Eng.C86_positive_on_shipped_data
  P_Filters2.C92_arguments
  P_Fuel.C26_default_altitude_refuted
  P_Fwf.C131_columns
  P_Fwf.C131_lookup
  P_Fwf.C131_models
  P_Fwf.C131_models_refuted
  P_Fwf.C131_position_refuted
  P_Fwf.C131_rows_refuted
  P_Fwf.C131_shipped
  P_Fwf.C131_table
  P_Fwf.C131_unknown
  P_Fwf.C131_words_refuted
  P_Import.C127_aero_refuted
  P_Import.C127_attributes
  P_Import.C127_import
  P_Import.C127_import_as
  P_Import.C127_late_refuted
  P_Import.C127_loaded
  P_Import.C127_missing
  P_Import.C127_missing_again
  P_Import.C127_names
  P_Import.C127_order
  P_Import.C127_own_classes
  P_Import.C127_reexport
  P_Import.C127_retry_refuted
  P_Import.C127_star
  P_IntArg.C133_common_type
  P_Kin.C79_documented_quantity
  P_Nav.C89_airport_any_case
  P_Nav.C89_airport_lookup
  P_Nav.C89_airport_unknown
  P_Nav.C90_fix_lookup
  P_Nav.C90_fix_unknown
  P_Numeral.C129_colon
  P_Numeral.C129_leading_zero
  P_Numeral.C130_number_column
  P_Numeral.C130_numeral
  P_Phase2.C80_continuous_descent
  P_Phase2.C80_cruise_stretch
  P_Prop.C23_abbreviation_rejected
  P_Prop.C23_accepted_engine_belongs
  P_Prop.C23_force_accepts_any
  P_Prop.C23_mismatch_rejected
  P_Prop.C36_advertised_iff_accepted
  P_Prop.C36_lookup_with_synonyms
  P_Prop.C36_lookup_without_synonyms
  P_Prop.C36_wildcard_rejected_refuted
  P_Prop.C37_exact_name_refuted
  P_Prop.C37_first_prefix_match
  P_Prop.C37_shadowed_row_unreachable
  P_Prop.C37_shipped_reachable
  P_Prop.C38_case_insensitive_refuted
  P_Prop.C38_no_lower_case
  P_Prop.C38_search_hit_lookup_hit
  P_Prop.C38_search_literal_prefix
  P_Prop2.C39_buildable_types
  P_Prop2.C39_synonyms_cover_advertised
  P_Prop2.C70_explicit_default_refuted
  P_Prop2.C70_explicit_false_restricts
  P_Prop2.C71_default_usable
  P_Prop2.C71_options_usable
  P_Prop3.C85_accepted_types
  P_Prop3.C85_blanks_around_engine
  P_Prop3.C85_case_insensitive
  P_Prop3.C85_letter_case
  P_Prop3.C85_one_domain_refuted
  P_Prop3.C85_prefix_and_substring
  P_Prop3.C85_strip
  P_Vec.C52_methods_covered
  P_Wire.C124_aero
  P_Wire.C124_backend_by_name_refuted
  P_Wire.C124_by_name
  P_Wire.C124_drag
  P_Wire.C124_emission
  P_Wire.C124_fuelflow
  P_Wire.C124_get_backend
  P_Wire.C124_get_backend_error
  P_Wire.C124_keyword_order
  P_Wire.C124_misspelt_refuted
  P_Wire.C124_one_backend
  P_Wire.C124_only_known_keywords
  P_Wire.C124_packages
  P_Wire.C124_positional_refuted
  P_Wire.C124_thrust
  P_Wire.C124_type_error
  P_Yaml.C129_exponent
  P_Yaml.C129_layout
  P_Yaml.C129_limits
  P_Yaml.C129_numerals_refuted
  P_Yaml.C129_options
  P_Yaml.C129_repeated
  P_Yaml.C129_shipped
  P_Yaml.C129_unsigned

== Set 2: 1 axioms
  ClassicalDedekindReals.sig_forall_dec
-- used by 1 theorems:
  P_Bada3Data.C98_coefficients

== Set 3: 2 axioms
  ClassicalDedekindReals.sig_forall_dec
  FunctionalExtensionality.functional_extensionality_dep
-- used by 103 theorems:
  P_Bada3.C94_constructor_as_shipped
  P_Bada3.C94_drag_as_shipped
  P_Bada3.C94_fuel_as_shipped
  P_Bada3.C94_thrust_as_shipped
  P_Bada3.C94_usable_refuted
  P_Bada3Data.C98_combined
  P_Bada3Data.C98_dictionary
  P_Bada3Data.C98_limits_kept
  P_Bada3Data.C98_limits_refuted
  P_Bada3Syn.C126_load
  P_Bada3Syn.C126_load_errors
  P_Bada3Syn.C126_synonym_refuted
  P_Bada3Text.C125_columns_refuted
  P_Bada3Text.C125_engine
  P_Bada3Text.C125_engine_refuted
  P_Bada3Text.C125_entries
  P_Bada3Text.C125_errors
  P_Bada3Text.C125_exponent_refuted
  P_Bada3Text.C125_name_refuted
  P_Bada3Text.C125_section_refuted
  P_Bada3Thr.C96_descent_altitude
  P_Bada3Thr.C96_descent_altitude_refuted
  P_Bada3Thr.C96_idle_config
  P_Call.C128_keywords
  P_Call.C128_values
  P_Contrail.C63_optical_table
  P_Data.C77_forced_engine_refuted
  P_DataGen.C78_cruise_distance
  P_DataGen.C78_negative_range_limit_refuted
  P_Filters.C91_closest_previous_refuted
  P_Filters.C91_input_order_irrelevant
  P_Filters.C91_simplefill
  P_Filters.C91_simplefill_whole_seconds
  P_Filters.C91_sortxy
  P_Filters.C91_twf_constant
  P_Filters.C91_twf_every_second
  P_Filters.C91_twf_range_refuted
  P_Filters.C91_twf_too_short
  P_Filters.C91_twf_values
  P_Filters.C91_twf_weights
  P_Filters.C91_twf_window_one
  P_Filters.C91_twf_window_three_refuted
  P_Filters2.C92_constant
  P_Filters2.C92_derivative_sign_refuted
  P_Filters2.C92_derivative_too_high
  P_Filters2.C92_empty
  P_Filters2.C92_falling_line_refuted
  P_Filters2.C92_least_squares
  P_Filters2.C92_polynomials
  P_Filters2.C92_rising_line
  P_Filters2.C92_short_series_refuted
  P_FuelModel.C84_model_selection
  P_Fwf.C131_agree
  P_Gen2.C69_integer_columns
  P_Gen3.C83_climb_parameters
  P_Gen3.C83_cruise_parameters
  P_Gen3.C83_descent_parameters
  P_Gen3.C83_flight_level_kept
  P_Gen3.C83_random_climb_parameters
  P_Gen3.C83_slow_cas_taken_in_random_mode_refuted
  P_JaxShape.C117_clean
  P_JaxShape.C117_emission
  P_JaxShape.C117_fuel
  P_JaxShape.C117_grad_refuted
  P_JaxShape.C117_nonclean
  P_JaxShape.C117_same_code
  P_JaxShape.C117_scalar_refuted
  P_JaxShape.C117_thrust
  P_Kin.C79_accessors_of_shipped_models
  P_Kin.C79_default_within_limits_refuted
  P_Kin.C79_defaults_in_order
  P_Kin.C79_generator_inputs
  P_Nav.C89_country_refuted
  P_Nav.C89_longitude_wrap_refuted
  P_Nav.C89_shipped_airports_are_found
  P_Nav.C90_own_name_refuted
  P_Olr.C118_arrays
  P_Olr.C118_label_order
  P_Olr.C118_laws
  P_Olr.C118_longitude_refuted
  P_Olr.C118_names
  P_Olr.C118_outside
  P_Olr.C118_points_refuted
  P_Olr.C118_value
  P_Phase.C44_landing_at_cruise_refuted
  P_Phase.C44_landing_indices
  P_Phase.C44_takeoff_indices
  P_Phase.C45_degenerate_refuted
  P_Phase.C45_interpolation
  P_Phase2.C44_landing_exact
  P_Phase2.C44_takeoff_exact
  P_Phase2.C45_defuzz
  P_Phase2.C45_outside_table
  P_Stats.C116_data
  P_Stats.C116_models
  P_Stats.C116_models_ok
  P_Stats.C116_nonfinite
  P_Stats.C116_raises
  P_Stats.C116_small
  P_Stats.C116_split_refuted
  P_Sun.C72_clock_hour
  P_Thrust.C21_constructor_meets_conditions
  P_Vec.C52_arguments_used

== Set 4: 3 axioms
  ClassicalDedekindReals.sig_forall_dec
  ClassicalDedekindReals.sig_not_dec
  FunctionalExtensionality.functional_extensionality_dep
-- used by 14 theorems:
  P_Filters3.C93_averages_in_range
  P_Filters3.C93_constant
  P_Filters3.C93_inside
  P_Filters3.C93_kernel
  P_Filters3.C93_units
  P_Filters3.C93_variances_positive
  P_Jax.C106_gradient
  P_Nav.C89_closest_airport
  P_Nav.C89_closest_airport_none
  P_Nav.C89_closest_at_every_airport
  P_Nav.C89_closest_of_the_whole_table
  P_Phase2.C42_rule_strengths
  P_Phase2.C45_exact_shapes
  P_Phase2.C80_start_indices

== Set 5: 4 axioms
  ClassicalDedekindReals.sig_forall_dec
  ClassicalDedekindReals.sig_not_dec
  Classical_Prop.classic
  FunctionalExtensionality.functional_extensionality_dep
-- used by 209 theorems:
  P_Aero.C01_atmos_defined
  P_Aero.C02_shift_saturates
  P_Aero.C03_thinner_with_altitude
  P_Aero.C05_mach_eas_inverse
  P_Aero.C06_cas_tas_inverse
  P_Aero.C06_sign_lost
  P_Aero.C06_zero
  P_Aero.C07_cas_mach_inverse
  P_BFFM.C76_fuel_flow_method
  P_Bada3.C95_clean_drag
  P_Bada3.C95_gear_refuted
  P_Bada3.C95_heavier_more_drag
  P_Bada3.C95_nonclean_drag
  P_Bada3Data.C98_missing_refuted
  P_Bada3Data.C98_missing_sections
  P_Bada3Fuel.C97_descent
  P_Bada3Fuel.C97_floor
  P_Bada3Fuel.C97_heavier
  P_Bada3Fuel.C97_nominal
  P_Bada3Fuel.C97_nominal_piston
  P_Bada3Fuel.C97_phases
  P_Bada3Thr.C96_idle
  P_Bada3Thr.C96_idle_arrays
  P_Bada3Thr.C96_temperature
  P_Bada3Thr.C96_thrust
  P_Bada4.C99_rating
  P_Bada4.C99_thrust_error
  P_Bada4.C99_thrust_methods
  P_Bada4Drag.C100_coefficient
  P_Bada4Drag.C100_continuous
  P_Bada4Drag.C100_divergence
  P_Bada4Drag.C100_drag
  P_Bada4Drag.C100_lift_monotone
  P_Bada4Drag.C100_mach_monotone
  P_Bada4Drag.C100_mass_monotone
  P_Bada4Drag.C100_nonnegative
  P_Bada4Drag.C100_rest
  P_Bada4Drag.C102_drag
  P_Bada4Drag.C102_shape_refuted
  P_Bada4Fuel.C102_fuel
  P_Bada4Fuel.C103_climb_monotone
  P_Bada4Fuel.C103_default
  P_Bada4Fuel.C103_descent
  P_Bada4Fuel.C103_enroute
  P_Bada4Fuel.C103_finite
  P_Bada4Fuel.C103_floor_refuted
  P_Bada4Fuel.C103_idle
  P_Bada4Fuel.C103_jump
  P_Bada4Fuel.C103_mass_monotone
  P_Bada4Fuel.C103_no_heat
  P_Bada4Shape.C102_fuel_masses
  P_Bada4Shape.C102_fuel_rates
  P_Bada4Shape.C102_lengths
  P_Bada4Shape.C102_masses
  P_Bada4Thr.C101_finite
  P_Bada4Thr.C101_hot_refuted
  P_Bada4Thr.C101_idle
  P_Bada4Thr.C101_idle_dT
  P_Bada4Thr.C101_idle_rest
  P_Bada4Thr.C101_kink
  P_Bada4Thr.C101_rated
  P_Bada4Thr.C101_takeoff
  P_Bada4Thr.C102_deviations
  P_Bada4Thr.C102_one_altitude
  P_Bada4Thr.C102_one_altitude_hot
  P_Bada4Thr.C102_thrust
  P_Bada4Thr.C102_thrust_points_refuted
  P_Contrail2.C81_longwave_law
  P_Contrail2.C81_threshold_laws
  P_Cruise.C132_balance
  P_Data.C77_drag_objects
  P_Data.C77_drag_value
  P_Data.C77_emission_objects
  P_Data.C77_mass_estimates
  P_DataGen.C78_random_cruise_range_refuted
  P_Drag.C28_clean_drag_bounds
  P_Drag.C28_clean_drag_bounds_wave
  P_Drag.C28_clean_value
  P_Drag.C29_symmetric_and_increasing_in_mass
  P_Drag.C30_gear_and_zero_flap
  P_Drag.C30_nonclean_value
  P_Drag.C31_wave_drag_only_adds
  P_Emission.C32_proportional_to_fuel
  P_Emission.C33_rates_bounded_by_databank
  P_Emission.C34_undefined_above_145442_ft
  P_Emission.C35_mass_at_most_mtow_refuted
  P_Emission.C35_mass_within_limits
  P_Fl.C112_binary64
  P_Fl.C112_monotone
  P_FlEmis.C123_proportional
  P_Fuel.C25_overflow
  P_Fuel.C27_level_flight_and_limit
  P_Fuel.C27_point_mass_balance
  P_Gen.C46_climb_deterministic
  P_Gen.C46_climb_kinematics
  P_Gen.C46_climb_terminates
  P_Gen.C46_zero_step_never_ends
  P_Gen.C47_final_altitude
  P_Gen.C47_overshoot
  P_Gen.C48_rows_hold_speeds
  P_Gen.C67_slow_mach_retakeoff_refuted
  P_Gen2.C49_descent_terminates
  P_Gen2.C49_negative_crossover_never_ends_refuted
  P_Gen2.C50_cruise
  P_Gen2.C50_range_unit
  P_Gen2.C51_documented_keyword_rejected
  P_Gen2.C68_rows_hold_speeds
  P_Gen3.C82_climb_ends_with_a_level_minute
  P_Gen3.C82_climb_rows
  P_Gen3.C82_descent_rows
  P_Gen3.C83_complete_consistent
  P_GenRng.C87_columns_describe_the_rows
  P_GenRng.C87_fixed_calls_are_reproducible
  P_GenRng.C87_override_keeps_the_rest
  P_GenRng.C87_random_flights_use_drawn_parameters
  P_GenRng.C87_replay
  P_GenRng.C88_altitude_below_zero_refuted
  P_GenRng.C88_noise
  P_GenRng.C88_noise_stays
  P_GenRng.C88_times_are_exact
  P_Geo.C12_distance_is_great_circle
  P_Geo.C12_distance_metric
  P_Geo.C13_triangle_inequality
  P_Geo.C14_bearing_range
  P_Geo.C15_destination_distance
  P_Geo.C16_destination_bearing
  P_Geo.C17_destination_range
  P_Geo.C17_longitude_normalised_refuted
  P_Geo.C18_solar_zenith
  P_IntArg.C133_8bit
  P_IntArg.C133_climb
  P_IntArg.C133_climb_refuted
  P_IntArg.C133_climb_wrap
  P_IntArg.C133_co2
  P_IntArg.C133_co2_refuted
  P_IntArg.C133_drag
  P_IntArg.C133_emission
  P_IntArg.C133_enroute
  P_IntArg.C133_enroute_default
  P_IntArg.C133_fuel
  P_IntArg.C133_geo
  P_IntArg.C133_nox
  P_IntArg.C133_thrust
  P_Jax.C105_geo_values
  P_Jax.C105_model_values
  P_Jax.C105_takeoff_fuel
  P_Jax.C105_values
  P_Jax.C106_atmosphere
  P_Jax.C106_cas
  P_Jax.C106_crossover
  P_Jax.C106_h_isa
  P_Jax.C106_mach_eas
  P_Jax.C106_tropopause
  P_Jax.C106_tropopause_none
  P_Jax.C106_zero_speed_refuted
  P_JaxDrag.C107_clean
  P_JaxDrag.C107_nonclean
  P_JaxDrag.C107_standstill_refuted
  P_JaxDrag.C108_climb
  P_JaxDrag.C108_cruise
  P_JaxDrag.C108_idle
  P_JaxDrag.C108_takeoff
  P_JaxFuel.C109_co_hc
  P_JaxFuel.C109_linear
  P_JaxFuel.C109_nox
  P_JaxFuel.C110_bearing
  P_JaxFuel.C110_coincident_refuted
  P_JaxFuel.C110_destination_latitude
  P_JaxFuel.C110_destination_longitude
  P_JaxFuel.C110_distance
  P_JaxPrim.C111_domain
  P_JaxPrim.C111_pieces
  P_JaxPrim.C111_smooth
  P_JaxPrim.C111_ties
  P_JaxPrim.C111_where_refuted
  P_Laws.C73_cruise_data_selection
  P_Laws.C73_take_off_law
  P_Laws.C73_three_segment_climb_law
  P_Laws.C74_high_lift_polar
  P_Laws.C74_parabolic_polar
  P_Nav.C90_at_a_fix
  P_Nav.C90_closest_fix
  P_Nav.C90_closest_fix_none
  P_Phase.C45_membership_functions
  P_Sym.C53_all_methods_refuted
  P_Sym.C53_clip_bounds
  P_Sym.C53_emissions_inside_table
  P_Sym.C53_emissions_outside_table
  P_Sym.C53_symbolic_equals_numeric
  P_Thrust.C19_defined_and_proportional
  P_Thrust.C20_continuous_in_altitude
  P_Thrust.C20_symmetry_floor_cruise_reference
  P_Thrust.C21_climb_thrust_defined
  P_Timestamp.C119_array
  P_Timestamp.C119_dates
  P_Timestamp.C119_datetime
  P_Timestamp.C119_leap_year
  P_Timestamp.C119_number
  P_Timestamp.C119_pandas_refuted
  P_Timestamp.C119_raises
  P_Timestamp.C119_range
  P_Vec.C52_class_methods
  P_Vec.C52_elementwise
  P_Vec.C52_latlon_shapes
  P_Vec.C52_length_mismatch
  P_Vec.C52_one_element_arrays
  P_Vec.C52_plain_functions
  P_Vec.C52_result_length
  P_Vec.C52_scalar_call

== Set 6: 55 axioms
  ClassicalDedekindReals.sig_forall_dec
  ClassicalDedekindReals.sig_not_dec
  Classical_Prop.classic
  FunctionalExtensionality.functional_extensionality_dep
  PrimInt63.add
  PrimInt63.addc
  PrimInt63.addcarryc
  PrimInt63.addmuldiv
  PrimInt63.compare
  PrimInt63.div
  PrimInt63.diveucl
  PrimInt63.diveucl_21
  PrimInt63.eqb
  PrimInt63.head0
  PrimInt63.int
  PrimInt63.land
  PrimInt63.leb
  PrimInt63.lor
  PrimInt63.lsl
  PrimInt63.lsr
  PrimInt63.ltb
  PrimInt63.lxor
  PrimInt63.mod
  PrimInt63.mul
  PrimInt63.mulc
  PrimInt63.sub
  PrimInt63.subc
  PrimInt63.subcarryc
  PrimInt63.tail0
  Uint63.add_spec
  Uint63.addc_def_spec
  Uint63.addcarryc_def_spec
  Uint63.addmuldiv_def_spec
  Uint63.compare_def_spec
  Uint63.div_spec
  Uint63.diveucl_21_spec
  Uint63.diveucl_def_spec
  Uint63.eqb_correct
  Uint63.eqb_refl
  Uint63.head0_spec
  Uint63.land_spec
  Uint63.leb_spec
  Uint63.lor_spec
  Uint63.lsl_spec
  Uint63.lsr_spec
  Uint63.ltb_spec
  Uint63.lxor_spec
  Uint63.mod_spec
  Uint63.mul_spec
  Uint63.mulc_spec
  Uint63.of_to_Z
  Uint63.sub_spec
  Uint63.subc_def_spec
  Uint63.subcarryc_def_spec
  Uint63.tail0_spec
-- used by 1 theorems:
  P_FlGeo.C114_pole_refuted

== Set 7: 63 axioms
  ClassicalDedekindReals.sig_forall_dec
  ClassicalDedekindReals.sig_not_dec
  Classical_Prop.classic
  FloatAxioms.Prim2SF_SF2Prim
  FloatAxioms.Prim2SF_valid
  FloatAxioms.SF2Prim_Prim2SF
  FloatAxioms.abs_spec
  FloatAxioms.add_spec
  FloatAxioms.classify_spec
  FloatAxioms.compare_spec
  FloatAxioms.div_spec
  FloatAxioms.eqb_spec
  FloatAxioms.frshiftexp_spec
  FloatAxioms.ldshiftexp_spec
  FloatAxioms.ltb_spec
  FloatAxioms.mul_spec
  FloatAxioms.next_down_spec
  FloatAxioms.next_up_spec
  FloatAxioms.normfr_mantissa_spec
  FloatAxioms.of_uint63_spec
  FloatAxioms.opp_spec
  FloatAxioms.sqrt_spec
  FloatAxioms.sub_spec
  FunctionalExtensionality.functional_extensionality_dep
  PrimFloat.abs
  PrimFloat.add
  PrimFloat.classify
  PrimFloat.compare
  PrimFloat.div
  PrimFloat.eqb
  PrimFloat.float
  PrimFloat.frshiftexp
  PrimFloat.ldshiftexp
  PrimFloat.ltb
  PrimFloat.mul
  PrimFloat.next_down
  PrimFloat.next_up
  PrimFloat.normfr_mantissa
  PrimFloat.of_uint63
  PrimFloat.opp
  PrimFloat.sqrt
  PrimFloat.sub
  PrimInt63.add
  PrimInt63.eqb
  PrimInt63.int
  PrimInt63.land
  PrimInt63.leb
  PrimInt63.lor
  PrimInt63.lsl
  PrimInt63.lsr
  PrimInt63.ltb
  PrimInt63.sub
  Uint63.add_spec
  Uint63.eqb_correct
  Uint63.eqb_refl
  Uint63.land_spec
  Uint63.leb_spec
  Uint63.lor_spec
  Uint63.lsl_spec
  Uint63.lsr_spec
  Uint63.ltb_spec
  Uint63.of_to_Z
  Uint63.sub_spec
-- used by 96 theorems:
  P_Aero.C08_eas_cas_tas_order
  P_Aero.C09_exact_inverse_refuted
  P_Aero.C09_off_isa_refuted
  P_Aero.C10_global_monotone_refuted
  P_Aero.C10_h_isa_piecewise_monotone
  P_Aero.C10_switch_jump
  P_Aero.C10_switch_jump_off_isa
  P_Aero.C11_crossover_consistent
  P_Aero.C11_crossover_monotone
  P_BFFM.C76_published_method_refuted
  P_Bada3Fuel.C97_floor_refuted
  P_Contrail.C54_humidity_conversion
  P_Contrail.C55_saturation_pressures
  P_Contrail.C56_forcing_signs
  P_Contrail.C56_zero_depth_net_refuted
  P_Contrail.C57_critical_temperature_increasing
  P_Contrail.C57_low_pressure_refuted
  P_Contrail.C61_ice_threshold_unique
  P_Contrail.C62_thicker_cools_more
  P_Contrail2.C81_cirrus_above
  P_Contrail2.C81_humidity_laws
  P_Contrail2.C81_ice_threshold_law
  P_Contrail2.C81_shortwave_law
  P_Cruise.C132_cruise_refuted
  P_Cruise.C132_holds
  P_Cruise.C132_shipped
  P_Data.C77_fuel_objects
  P_Data.C77_thrust_objects
  P_DataGen.C78_climbs
  P_DataGen.C78_complete_flights
  P_DataGen.C78_descents
  P_Drag.C30_flaps_add_drag_refuted
  P_Fl.C112_atmosphere
  P_Fl.C112_mach_eas
  P_Fl.C112_round_trip
  P_FlCas.C113_conversions
  P_FlCas.C113_round_trip
  P_FlCas.C113_tiny_refuted
  P_FlDrag.C120_clean
  P_FlDrag.C120_nonclean
  P_FlDrag.C120_shipped
  P_FlDrag.C120_wave
  P_FlEmis.C123_rates
  P_FlEmis.C123_relative
  P_FlEmis.C123_shipped
  P_FlFuel.C122_at_thrust
  P_FlFuel.C122_enroute
  P_FlFuel.C122_enroute_wave
  P_FlFuel.C122_shipped
  P_FlFuel.C122_takeoff
  P_FlGeo.C114_distance
  P_FlSun.C115_bearing
  P_FlSun.C115_sun
  P_FlThrust.C121_climb
  P_FlThrust.C121_cruise
  P_FlThrust.C121_shipped
  P_FlThrust.C121_takeoff
  P_Fuel.C24_flow_positive_increasing_bounded
  P_Fuel.C25_upper_limit_refuted
  P_Fuel.C26_linear_in_throttle
  P_Fuel.C27_monotone_in_acceleration
  P_Fuel.C27_monotone_in_mass
  P_FuelModel.C84_engines_in_proportion
  P_Gen.C67_segments_in_order
  P_Gen2.C49_descent_kinematics
  P_Gen2.C49_ends_on_ground
  P_Gen2.C51_complete_flight
  P_GenRng.C87_complete_flights_end
  P_IntArg.C133_enroute_refuted
  P_IntArg.C133_nox_refuted
  P_JaxFuel.C109_at_thrust
  P_JaxFuel.C109_enroute
  P_Laws.C75_idle_floor
  P_Laws.C75_tracks_thrust_ratio
  P_Nav.C89_nearest_on_the_sphere_refuted
  P_Nav.C90_longitude_wrap_refuted
  P_Nav.C90_nearest_of_the_whole_table
  P_Phase.C41_labels_per_window
  P_Phase.C41_short_trajectory_unlabelled
  P_Phase.C42_strongest_rule_wins
  P_Phase.C43_unsorted_loses_alignment_refuted
  P_Phase.C64_parked_aircraft
  P_Phase.C65_phase_order_refuted
  P_Phase.C66_labels_plausible
  P_Sun.C72_highest_at_solar_noon
  P_Sun.C72_polar_day_and_night
  P_Sun.C72_spherical_law
  P_Thrust.C19_static_decreases_with_altitude
  P_Thrust.C19_static_rated_thrust
  P_Thrust.C22_climb_thrust_continuous_at_30000_refuted
  P_Thrust.C58_hot_day_within_rating_refuted
  P_Thrust.C58_static_thrust_increases_with_temperature
  P_Thrust.C59_thrust_lapse_with_speed
  P_Thrust.C60_takeoff_and_idle_thrust_positive
  P_Timestamp.C119_smooth
  P_Timestamp.C119_zone_refuted

== Set 8: 93 axioms
  ClassicalDedekindReals.sig_forall_dec
  ClassicalDedekindReals.sig_not_dec
  Classical_Prop.classic
  FloatAxioms.Prim2SF_SF2Prim
  FloatAxioms.Prim2SF_valid
  FloatAxioms.SF2Prim_Prim2SF
  FloatAxioms.abs_spec
  FloatAxioms.add_spec
  FloatAxioms.classify_spec
  FloatAxioms.compare_spec
  FloatAxioms.div_spec
  FloatAxioms.eqb_spec
  FloatAxioms.frshiftexp_spec
  FloatAxioms.ldshiftexp_spec
  FloatAxioms.ltb_spec
  FloatAxioms.mul_spec
  FloatAxioms.next_down_spec
  FloatAxioms.next_up_spec
  FloatAxioms.normfr_mantissa_spec
  FloatAxioms.of_uint63_spec
  FloatAxioms.opp_spec
  FloatAxioms.sqrt_spec
  FloatAxioms.sub_spec
  FunctionalExtensionality.functional_extensionality_dep
  PrimFloat.abs
  PrimFloat.add
  PrimFloat.classify
  PrimFloat.compare
  PrimFloat.div
  PrimFloat.eqb
  PrimFloat.float
  PrimFloat.frshiftexp
  PrimFloat.ldshiftexp
  PrimFloat.ltb
  PrimFloat.mul
  PrimFloat.next_down
  PrimFloat.next_up
  PrimFloat.normfr_mantissa
  PrimFloat.of_uint63
  PrimFloat.opp
  PrimFloat.sqrt
  PrimFloat.sub
  PrimInt63.add
  PrimInt63.addc
  PrimInt63.addcarryc
  PrimInt63.addmuldiv
  PrimInt63.compare
  PrimInt63.div
  PrimInt63.diveucl
  PrimInt63.diveucl_21
  PrimInt63.eqb
  PrimInt63.head0
  PrimInt63.int
  PrimInt63.land
  PrimInt63.leb
  PrimInt63.lor
  PrimInt63.lsl
  PrimInt63.lsr
  PrimInt63.ltb
  PrimInt63.lxor
  PrimInt63.mod
  PrimInt63.mul
  PrimInt63.mulc
  PrimInt63.sub
  PrimInt63.subc
  PrimInt63.subcarryc
  PrimInt63.tail0
  Uint63.add_spec
  Uint63.addc_def_spec
  Uint63.addcarryc_def_spec
  Uint63.addmuldiv_def_spec
  Uint63.compare_def_spec
  Uint63.div_spec
  Uint63.diveucl_21_spec
  Uint63.diveucl_def_spec
  Uint63.eqb_correct
  Uint63.eqb_refl
  Uint63.head0_spec
  Uint63.land_spec
  Uint63.leb_spec
  Uint63.lor_spec
  Uint63.lsl_spec
  Uint63.lsr_spec
  Uint63.ltb_spec
  Uint63.lxor_spec
  Uint63.mod_spec
  Uint63.mul_spec
  Uint63.mulc_spec
  Uint63.of_to_Z
  Uint63.sub_spec
  Uint63.subc_def_spec
  Uint63.subcarryc_def_spec
  Uint63.tail0_spec
-- used by 3 theorems:
  P_Aero.C04_isa_agreement
  P_Aero.C09_h_isa_approx_inverse
  P_FuelModel.C84_full_and_idle_against_databank
