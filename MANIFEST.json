{
 "claims": [
  {
   "property": "C01",
   "status": "proved",
   "theorems": [
    "C01_validity_check_reports_exactly_the_outliers",
    "C01_scalar_is_a_singleton",
    "C01_missing_values_never_flagged"
   ],
   "note": ""
  },
  {
   "property": "C02",
   "status": "proved",
   "theorems": [
    "C02_steepness_definition",
    "C02_iribarren_definition",
    "C02_froude_invariance"
   ],
   "note": ""
  },
  {
   "property": "C03",
   "status": "proved",
   "theorems": [
    "C03_mass_diameter_inverse",
    "C03_mass_increasing",
    "C03_diameter_increasing"
   ],
   "note": ""
  },
  {
   "property": "C04",
   "status": "proved",
   "theorems": [
    "C04_both_missing",
    "C04_diameter_wins",
    "C04_mass_is_converted",
    "C04_default_density_is_announced"
   ],
   "note": ""
  },
  {
   "property": "C05",
   "status": "proved",
   "theorems": [
    "C05_S_Nod_inverse",
    "C05_S_counts_stones_per_strip"
   ],
   "note": ""
  },
  {
   "property": "C06",
   "status": "proved",
   "theorems": [
    "C06_error_iff_not_exactly_one_missing",
    "C06_only_value_errors",
    "C06_fills_in_the_missing_quantity"
   ],
   "note": ""
  },
  {
   "property": "C07",
   "status": "proved",
   "theorems": [
    "C07_scalar_depth_scalar_period",
    "C07_depth_array_one_period",
    "C07_depth_array_period_array",
    "C07_shapes_that_never_return",
    "C07_period_array_scalar_depth_refuted"
   ],
   "note": ""
  },
  {
   "property": "C08",
   "status": "proved",
   "theorems": [
    "C08_runup",
    "C08_overtopping"
   ],
   "note": ""
  },
  {
   "property": "C09",
   "status": "proved",
   "theorems": [
    "C09_range",
    "C09_formula",
    "C09_total",
    "C09_no_berm",
    "C09_still_water_best",
    "C09_wider_berm"
   ],
   "note": ""
  },
  {
   "property": "C10",
   "status": "proved",
   "theorems": [
    "C10_roughness",
    "C10_above_one",
    "C10_at_most_one_refuted",
    "C10_jumps"
   ],
   "note": ""
  },
  {
   "property": "C11",
   "status": "proved",
   "theorems": [
    "C11_smaller_of_two",
    "C11_angle",
    "C11_factor_first",
    "C11_best_fit",
    "C11_froude",
    "C11_positive",
    "C11_positive_refuted"
   ],
   "note": ""
  },
  {
   "property": "C12",
   "status": "proved",
   "theorems": [
    "C12_converges",
    "C12_converges_refuted",
    "C12_depth",
    "C12_no_recursion_error",
    "C12_iteration",
    "C12_zero_tolerance",
    "C12_composite"
   ],
   "note": ""
  },
  {
   "property": "C13",
   "status": "proved",
   "theorems": [
    "C13_discharge",
    "C13_round_trip",
    "C13_other_gravity",
    "C13_gravity_refuted",
    "C13_composite"
   ],
   "note": ""
  },
  {
   "property": "C14",
   "status": "proved",
   "theorems": [
    "C14_positive",
    "C14_freeboard",
    "C14_factors",
    "C14_berm",
    "C14_sigma",
    "C14_froude",
    "C14_berm_refuted",
    "C14_roughness_refuted",
    "C14_wall"
   ],
   "note": ""
  },
  {
   "property": "C15",
   "status": "proved",
   "theorems": [
    "C15_sigma"
   ],
   "note": ""
  },
  {
   "property": "C16",
   "status": "proved",
   "theorems": [
    "C16_berm_procedure",
    "C16_berm_procedure_eurotop",
    "C16_berm_factor_range",
    "C16_overtopping_works",
    "C16_runup_fails"
   ],
   "note": ""
  },
  {
   "property": "C17",
   "status": "proved",
   "theorems": [
    "C17_gamma_beta_ignored",
    "C17_no_angle",
    "C17_oblique",
    "C17_runup",
    "C17_berm_factor_needed"
   ],
   "note": ""
  },
  {
   "property": "C18",
   "status": "proved",
   "theorems": [
    "C18_discharge",
    "C18_submerged",
    "C18_positive_decreasing",
    "C18_round_trip",
    "C18_rough_formula",
    "C18_rough_maximum",
    "C18_berm_factor_ignored",
    "C18_rough_refuted",
    "C18_mound_discharge",
    "C18_mound_round_trip"
   ],
   "note": ""
  },
  {
   "property": "C19",
   "status": "proved",
   "theorems": [
    "C19_discharge",
    "C19_round_trip",
    "C19_other_gravity",
    "C19_positive_decreasing",
    "C19_froude",
    "C19_angle"
   ],
   "note": ""
  },
  {
   "property": "C20",
   "status": "proved",
   "theorems": [
    "C20_levels_follow_the_curve",
    "C20_z2p_needs_exactly_one_wave_height",
    "C20_curve_is_smooth",
    "C20_level_increases",
    "C20_level_is_bounded",
    "C20_levels_are_ordered",
    "C20_froude_scaling"
   ],
   "note": ""
  },
  {
   "property": "C21",
   "status": "proved",
   "theorems": [
    "C21_fixed_points",
    "C21_repeated_inversion_converges"
   ],
   "note": ""
  },
  {
   "property": "C22",
   "status": "proved",
   "theorems": [
    "C22_velocity",
    "C22_inverse"
   ],
   "note": ""
  },
  {
   "property": "C23",
   "status": "proved",
   "theorems": [
    "C23_eq24_agree_with_relation",
    "C23_eq26_agree_with_relation",
    "C23_round_trip",
    "C23_eq24_gravity_error",
    "C23_eq24_round_trip_any_gravity_refuted",
    "C23_decreasing_in_freeboard",
    "C23_froude_scaling",
    "C23_no_discharge",
    "C23_warnings",
    "C23_freeboard_warnings"
   ],
   "note": ""
  },
  {
   "property": "C24",
   "status": "proved",
   "theorems": [
    "C24_angle_factor",
    "C24_agree_with_relations",
    "C24_round_trip",
    "C24_oblique_waves_overtop_less",
    "C24_froude_scaling",
    "C24_warnings"
   ],
   "note": ""
  },
  {
   "property": "C25",
   "status": "proved",
   "theorems": [
    "C25_coefficients",
    "C25_agree_with_relation",
    "C25_round_trip",
    "C25_angle_factor",
    "C25_refusals",
    "C25_default_swell_is_no_number",
    "C25_default_call_refuted",
    "C25_warnings"
   ],
   "note": ""
  },
  {
   "property": "C26",
   "status": "proved",
   "theorems": [
    "C26_discharge",
    "C26_freeboard",
    "C26_round_trip",
    "C26_design_round_trip",
    "C26_design_error",
    "C26_design_round_trip_refuted",
    "C26_missing_crest_wall_factor",
    "C26_error",
    "C26_warnings",
    "C26_freeboard_warnings",
    "C26_absent_berm_reported"
   ],
   "note": ""
  },
  {
   "property": "C27",
   "status": "proved",
   "theorems": [
    "C27_roughness",
    "C27_oblique",
    "C27_crest_wall",
    "C27_berm",
    "C27_factors_computed"
   ],
   "note": ""
  },
  {
   "property": "C28",
   "status": "proved",
   "theorems": [
    "C28_discharge",
    "C28_negative_discharge_refuted",
    "C28_freeboard",
    "C28_freeboard_nan",
    "C28_round_trip_too_low",
    "C28_freeboard_default"
   ],
   "note": ""
  },
  {
   "property": "C29",
   "status": "proved",
   "theorems": [
    "C29_formula",
    "C29_impermeable_formula",
    "C29_between_limits",
    "C29_decreasing_in_freeboard",
    "C29_strictly_decreasing_unclipped",
    "C29_decreasing_in_crest_width",
    "C29_impermeable_at_least_permeable",
    "C29_scale_invariant",
    "C29_warnings",
    "C29_no_check_no_warnings"
   ],
   "note": ""
  },
  {
   "property": "C30",
   "status": "proved",
   "theorems": [
    "C30_narrow_crest_is_DAngremond",
    "C30_wide_crest",
    "C30_between_limits",
    "C30_decreasing_in_freeboard",
    "C30_wide_crest_decreasing_in_width",
    "C30_decreasing_in_width_refuted",
    "C30_warnings",
    "C30_array_is_elementwise",
    "C30_empty_array_fails"
   ],
   "note": ""
  },
  {
   "property": "C31",
   "status": "proved",
   "theorems": [
    "C31_three_branches",
    "C31_between_0_and_1",
    "C31_decreasing_below_the_limit",
    "C31_zero_at_the_limit",
    "C31_decreasing_in_freeboard_refuted",
    "C31_array_elementwise",
    "C31_array_truncated",
    "C31_array_elementwise_refuted",
    "C31_empty_array_fails"
   ],
   "note": ""
  },
  {
   "property": "C32",
   "status": "proved",
   "theorems": [
    "C32_formula",
    "C32_no_width",
    "C32_between_asymptotes",
    "C32_decreasing_in_freeboard",
    "C32_decreasing_in_width",
    "C32_screens_reduce_transmission",
    "C32_depends_on_relative_freeboard",
    "C32_unknown_type",
    "C32_no_warnings",
    "C32_range_check"
   ],
   "note": ""
  },
  {
   "property": "C33",
   "status": "proved",
   "theorems": [
    "C33_pressures",
    "C33_small_angle",
    "C33_symmetric",
    "C33_missing_angle"
   ],
   "note": ""
  },
  {
   "property": "C34",
   "status": "proved",
   "theorems": [
    "C34_forces"
   ],
   "note": ""
  },
  {
   "property": "C35",
   "status": "proved",
   "theorems": [
    "C35_equilibrium",
    "C35_negative",
    "C35_safety",
    "C35_weight",
    "C35_reactions"
   ],
   "note": ""
  },
  {
   "property": "C36",
   "status": "proved",
   "theorems": [
    "C36_impulsive",
    "C36_missing_steepness",
    "C36_gap",
    "C36_flag"
   ],
   "note": ""
  },
  {
   "property": "C37",
   "status": "proved",
   "theorems": [
    "C37_horizontal",
    "C37_horizontal_waves",
    "C37_vertical",
    "C37_vertical_high_base",
    "C37_vertical_without_runup_refuted",
    "C37_vertical_waves",
    "C37_gamma",
    "C37_gamma_decreasing",
    "C37_gamma_beta",
    "C37_horizontal_oblique",
    "C37_horizontal_oblique_negative",
    "C37_horizontal_oblique_refuted",
    "C37_vertical_oblique",
    "C37_extreme",
    "C37_froude"
   ],
   "note": ""
  },
  {
   "property": "C38",
   "status": "proved",
   "theorems": [
    "C38_rock",
    "C38_accropode",
    "C38_accropode2",
    "C38_core_loc",
    "C38_cubes",
    "C38_cubipod",
    "C38_tetrapod",
    "C38_rock_with_damage",
    "C38_mass_is_cubic"
   ],
   "note": ""
  },
  {
   "property": "C39",
   "status": "proved",
   "theorems": [
    "C39_lookup_is_the_next_entry",
    "C39_index_error_from_100",
    "C39_monotone_and_bounded",
    "C39_tabulated_percentage_refuted",
    "C39_unknown_rock_type",
    "C39_case_and_space_ignored"
   ],
   "note": ""
  },
  {
   "property": "C40",
   "status": "proved",
   "theorems": [
    "C40_KD_follows_the_design_curve",
    "C40_KD_decreases_and_is_bounded",
    "C40_nonbreaking_is_the_flat_seabed_value",
    "C40_missing_slope_gives_no_number"
   ],
   "note": ""
  },
  {
   "property": "C41",
   "status": "proved",
   "theorems": [
    "C41_double_layer_functions_agree_with_relation",
    "C41_diameter_total",
    "C41_wave_height_total",
    "C41_damage_total",
    "C41_only_slope_1_5_is_silent",
    "C41_single_layer_inverse",
    "C41_start_of_damage_needs_more"
   ],
   "note": ""
  },
  {
   "property": "C42",
   "status": "proved",
   "theorems": [
    "C42_xbloc_sizing",
    "C42_xblocplus_sizing",
    "C42_factors_at_least_one",
    "C42_factors_monotone",
    "C42_percentage_factor_monotone",
    "C42_seabed_steps",
    "C42_other_factor_steps",
    "C42_structure_slope_factor",
    "C42_structure_slope_monotone_refuted",
    "C42_reference_slope_uncorrected_refuted"
   ],
   "note": ""
  },
  {
   "property": "C43",
   "status": "proved",
   "theorems": [
    "C43_functions_agree_with_relation",
    "C43_damage_total",
    "C43_diameter_total",
    "C43_wave_height_total",
    "C43_branches_meet",
    "C43_damage_increases_with_wave_height",
    "C43_damage_by_diameter",
    "C43_damage_by_storm_duration",
    "C43_mass_or_diameter",
    "C43_wave_height_ignores_other_gravity_refuted"
   ],
   "note": ""
  },
  {
   "property": "C44",
   "status": "proved",
   "theorems": [
    "C44_modified_functions_agree_with_relation",
    "C44_any_two_determine_the_third",
    "C44_modified_damage_increases_with_wave_height",
    "C44_2021_is_the_modified_formula",
    "C44_2021_functions_agree_with_relation"
   ],
   "note": ""
  },
  {
   "property": "C45",
   "status": "proved",
   "theorems": [
    "C45_damage_and_wave_height_agree_with_relation",
    "C45_damage_total",
    "C45_damage_increases_with_wave_height",
    "C45_damage_gap",
    "C45_diameter_unique",
    "C45_diameter_never_too_small",
    "C45_diameter_iteration_converges",
    "C45_zero_iterations_fail",
    "C45_depth_limited_needs_slope",
    "C45_round_trip_other_water_density_refuted"
   ],
   "note": ""
  },
  {
   "property": "C46",
   "status": "proved",
   "theorems": [
    "C46_functions_agree_with_relation",
    "C46_damage_and_diameter_exist",
    "C46_plunging_fraction_bound",
    "C46_fraction_at_most_one_refuted",
    "C46_depends_on_whole_number",
    "C46_no_number_for_long_waves",
    "C46_wave_height_residual",
    "C46_wave_height_exact_when_settled",
    "C46_wave_height_fixed_point",
    "C46_zero_iterations_fail",
    "C46_default_start",
    "C46_search_finds_solution_refuted"
   ],
   "note": ""
  },
  {
   "property": "C47",
   "status": "proved",
   "theorems": [
    "C47_wave_height_agrees_with_relation",
    "C47_smallest_wave_height",
    "C47_diameter_residual",
    "C47_freeboard_residual",
    "C47_diameter_converges_in_published_range",
    "C47_freeboard_converges_in_published_range",
    "C47_default_accuracy",
    "C47_no_diameter_no_settling",
    "C47_default_diameter_satisfies_relation_refuted",
    "C47_diameter_unique_refuted"
   ],
   "note": ""
  },
  {
   "property": "C48",
   "status": "proved",
   "theorems": [
    "C48_functions_agree_with_relation",
    "C48_damage_total",
    "C48_wave_height_total",
    "C48_diameter_exists_or_nonpositive",
    "C48_damage_by_wave_height"
   ],
   "note": ""
  },
  {
   "property": "C49",
   "status": "proved",
   "theorems": [
    "C49_published_formulas",
    "C49_round_trip_factor",
    "C49_no_damage_below_crest_refuted",
    "C49_below_crest",
    "C49_wave_height_search",
    "C49_no_crest_element_no_wave_height",
    "C49_zero_iterations_fail"
   ],
   "note": ""
  },
  {
   "property": "C50",
   "status": "proved",
   "theorems": [
    "C50_functions_agree_with_relation",
    "C50_each_function_alone",
    "C50_below_crest_no_number",
    "C50_default_density_no_number",
    "C50_wave_height_search",
    "C50_zero_iterations_fail"
   ],
   "note": ""
  },
  {
   "property": "C51",
   "status": "proved",
   "theorems": [
    "C51_functions_agree_with_relation",
    "C51_damage_total",
    "C51_wave_height_total",
    "C51_damage_monotone"
   ],
   "note": ""
  },
  {
   "property": "C52",
   "status": "proved",
   "theorems": [
    "C52_functions_agree_with_relation",
    "C52_damage_total",
    "C52_wave_height_total",
    "C52_diameter_total",
    "C52_depth_nan_iff_no_solution",
    "C52_stability_check_refuted"
   ],
   "note": ""
  },
  {
   "property": "C53",
   "status": "proved",
   "theorems": [
    "C53_damage_and_diameter_agree_with_relation",
    "C53_diameter_total",
    "C53_damage_total",
    "C53_wave_height_terminates",
    "C53_max_iter_bounds_the_loop_refuted",
    "C53_validity_check_with_period_raises"
   ],
   "note": ""
  },
  {
   "property": "C54",
   "status": "proved",
   "theorems": [
    "C54_damage_is_the_published_formula",
    "C54_round_trip_factor",
    "C54_exact_inverse_refuted",
    "C54_damage_scales_with_cube"
   ],
   "note": ""
  },
  {
   "property": "C55",
   "status": "proved",
   "theorems": [
    "C55_stability_number_at_least_1_8",
    "C55_stability_number_is_the_published_formula",
    "C55_diameter_consistent",
    "C55_wave_height_search_crashes",
    "C55_wave_height_residual",
    "C55_wave_height_two_scans",
    "C55_depth_search_brackets",
    "C55_depth_search_never_ends"
   ],
   "note": ""
  },
  {
   "property": "C56",
   "status": "proved",
   "theorems": [
    "C56_neural_network",
    "C56_xgboost",
    "C56_integer_scalar",
    "C56_float_with_array",
    "C56_different_lengths"
   ],
   "note": ""
  },
  {
   "property": "C57",
   "status": "proved",
   "theorems": [
    "C57_impermeable_formula",
    "C57_permeable_formula",
    "C57_impermeable_positive_increasing",
    "C57_permeable_positive_increasing",
    "C57_vanishes_at_the_limit",
    "C57_no_number_below_the_limit",
    "C57_froude_scaling",
    "C57_impermeable_warnings",
    "C57_permeable_warnings"
   ],
   "note": ""
  },
  {
   "property": "C59",
   "status": "proved",
   "theorems": [
    "C59_relative_density",
    "C59_no_water_no_relative_density",
    "C59_stability_number",
    "C59_critical_iribarren"
   ],
   "note": ""
  },
  {
   "property": "C58",
   "status": "proved",
   "theorems": [
    "C58_goda",
    "C58_crest_wall",
    "C58_eurotop_mound",
    "C58_eurotop_dike",
    "C58_taw_overtopping",
    "C58_briganti",
    "C58_dangremond",
    "C58_deridder2024",
    "C58_deridder2026",
    "C58_caisson",
    "C58_setup",
    "C58_overtopping2025",
    "C58_vandermeer1988",
    "C58_modified_vandermeer",
    "C58_vandermeer2021",
    "C58_etemad2020",
    "C58_jumelet",
    "C58_kramer",
    "C58_scaravaglione",
    "C58_cubes",
    "C58_hudson_units",
    "C58_rear2007",
    "C58_rear2004",
    "C58_vandermeer2021_always",
    "C58_gerding",
    "C58_vandermeer1998",
    "C58_toe2014",
    "C58_etemad2021",
    "C58_etemad2021_check",
    "C58_takahashi",
    "C58_eurotop_runup",
    "C58_taw_runup"
   ],
   "note": ""
  },
  {
   "property": "C60",
   "status": "proved",
   "theorems": [
    "C60_pressures_dictionary",
    "C60_reactions_dictionary"
   ],
   "note": ""
  },
  {
   "property": "C61",
   "status": "proved",
   "theorems": [
    "C61_scaravaglione_S",
    "C61_scaravaglione_S_from_M50",
    "C61_scaravaglione_Dn50",
    "C61_scaravaglione_Dn50_from_M50",
    "C61_scaravaglione_Hm0",
    "C61_scaravaglione_Hm0_from_M50",
    "C61_hudson_M50",
    "C61_hudson_Hs",
    "C61_accropode2_M",
    "C61_accropode2_Hs",
    "C61_accropode2_KD",
    "C61_accropode_M",
    "C61_accropode_Hs",
    "C61_accropode_KD",
    "C61_core_loc_M",
    "C61_core_loc_Hs",
    "C61_core_loc_KD",
    "C61_cubes_M",
    "C61_cubes_Hs",
    "C61_cubipod_M",
    "C61_cubipod_Hs",
    "C61_tetrapod_M",
    "C61_tetrapod_Hs",
    "C61_cubes_double_Dn",
    "C61_cubes_double_Hs",
    "C61_cubes_double_Nod",
    "C61_cubes_single_M",
    "C61_cubes_single_M_failure",
    "C61_cubes_single_Hs",
    "C61_cubes_single_Hs_failure",
    "C61_hudson_M50_damage",
    "C61_hudson_Hs_damage",
    "C61_steepness",
    "C61_iribarren",
    "C61_critical_iribarren",
    "C61_Delta",
    "C61_Ns",
    "C61_M50",
    "C61_Dn50",
    "C61_S_from_Nod",
    "C61_Nod_from_S",
    "C61_size_given",
    "C61_size_from_mass",
    "C61_size_from_mass_default",
    "C61_size_missing",
    "C61_missing_of_four",
    "C61_jumelet_S",
    "C61_jumelet_S_from_M50",
    "C61_jumelet_Dn50",
    "C61_etemad_S",
    "C61_etemad_Hs",
    "C61_etemad_S_from_M50",
    "C61_etemad_Hs_from_M50",
    "C61_etemad_S_from_M50_core",
    "C61_etemad_Hs_from_M50_core",
    "C61_etemad_S_from_masses",
    "C61_etemad_Hs_from_masses",
    "C61_etemad_S_depth_limited",
    "C61_etemad_Hs_depth_limited",
    "C61_etemad_S_depth_limited_from_M50",
    "C61_etemad_Hs_depth_limited_from_M50",
    "C61_etemad_S_depth_limited_from_M50_core",
    "C61_etemad_Hs_depth_limited_from_M50_core",
    "C61_etemad_S_depth_limited_from_masses",
    "C61_etemad_Hs_depth_limited_from_masses",
    "C61_dangremond_permeable",
    "C61_dangremond_impermeable",
    "C61_dimensionless_setup_impermeable",
    "C61_setup_delta_impermeable",
    "C61_dimensionless_setup_permeable",
    "C61_setup_delta_permeable",
    "C61_runup_zXp",
    "C61_runup_z1p",
    "C61_runup_z10p",
    "C61_runup_invert",
    "C61_velocity",
    "C61_velocity_invert",
    "C61_deridder2024_dimless_Rc_eq24",
    "C61_deridder2024_Rc_eq24",
    "C61_deridder2024_Rc_eq26",
    "C61_deridder2024_dimless_q_eq24",
    "C61_deridder2024_q_eq24",
    "C61_deridder2024_dimless_q_eq26",
    "C61_deridder2024_q_eq26",
    "C61_deridder2026_gamma_beta",
    "C61_deridder2026_dimless_Rc_eq28",
    "C61_deridder2026_Rc_eq28",
    "C61_deridder2026_Rc_eq32",
    "C61_deridder2026_dimless_q_eq28",
    "C61_deridder2026_q_eq28",
    "C61_deridder2026_dimless_q_eq32",
    "C61_deridder2026_q_eq32",
    "C61_kramer_Hs",
    "C61_kramer_Hs_from_M50",
    "C61_rear2007_S",
    "C61_rear2007_S_from_M50",
    "C61_rear2007_Dn50",
    "C61_pozueta_S",
    "C61_pozueta_S_from_M50",
    "C61_pozueta_Dn50",
    "C61_vdm88_gamma_N",
    "C61_vdm88_S",
    "C61_vdm88_S_from_M50",
    "C61_vdm88_Dn50",
    "C61_vdm88_Hs",
    "C61_vdm88_Hs_from_M50",
    "C61_modified_S",
    "C61_modified_S_from_M50",
    "C61_modified_Dn50",
    "C61_modified_Hs",
    "C61_modified_Hs_from_M50",
    "C61_vdm2021_S",
    "C61_vdm2021_S_from_M50",
    "C61_vdm2021_Dn50",
    "C61_vdm2021_Hs",
    "C61_vdm2021_Hs_from_M50",
    "C61_gerding_Nod",
    "C61_gerding_Dn50",
    "C61_gerding_Hs",
    "C61_gerding_ht",
    "C61_vdm98_Nod",
    "C61_vdm98_Dn50",
    "C61_vdm98_Hs",
    "C61_toe2014_Nod",
    "C61_toe2014_Dn50",
    "C61_toe2014_u_delta",
    "C61_etemad2021_Nod",
    "C61_etemad2021_Dn50",
    "C61_crestwall_gamma_F",
    "C61_crestwall_gamma_FH",
    "C61_crestwall_gamma_FV",
    "C61_crestwall_gamma_beta",
    "C61_crestwall_FH_from_z2p",
    "C61_crestwall_FH",
    "C61_crestwall_FH_oblique",
    "C61_crestwall_FV_from_z2p",
    "C61_crestwall_FV",
    "C61_crestwall_FV_oblique",
    "C61_crestwall_FH01p",
    "C61_crestwall_FV01p"
   ],
   "note": ""
  },
  {
   "property": "C62",
   "status": "proved",
   "theorems": [
    "C62_gaps_stay",
    "C62_sizes_refuted",
    "C62_default_density_refuted",
    "C62_check_each_entry",
    "C62_one_gap_silences",
    "C62_warnings_refuted",
    "C62_vdm98_ht",
    "C62_z2p",
    "C62_hudson_outside",
    "C62_first_period",
    "C62_periods_refuted"
   ],
   "note": ""
  },
  {
   "property": "C63",
   "status": "proved",
   "theorems": [
    "C63_jumelet_Hs",
    "C63_jumelet_Hs_from_M50",
    "C63_jumelet_Hs_missing_damage",
    "C63_etemad_Dn50",
    "C63_etemad_Dn50_from_M50_core",
    "C63_etemad_Dn50_depth_limited",
    "C63_etemad_Dn50_depth_limited_from_M50_core",
    "C63_kramer_Dn50",
    "C63_kramer_Rc",
    "C63_kramer_Rc_from_M50",
    "C63_kramer_Dn50_missing_wave_height",
    "C63_kramer_Rc_missing_wave_height",
    "C63_kramer_Dn50_empty",
    "C63_kramer_Rc_empty",
    "C63_kramer_Dn50_accuracy",
    "C63_kramer_Rc_accuracy",
    "C63_kramer_Dn50_missing_example",
    "C63_kramer_Dn50_elementwise_refuted",
    "C63_rear2007_Hs",
    "C63_rear2007_Hs_from_M50",
    "C63_rear2007_Hs_warning",
    "C63_rear2007_Hs_from_M50_warning",
    "C63_rear2007_Hs_undefined",
    "C63_rear2007_Hs_empty",
    "C63_pozueta_Hs",
    "C63_pozueta_Hs_from_M50",
    "C63_pozueta_Hs_warning",
    "C63_pozueta_Hs_from_M50_warning",
    "C63_pozueta_Hs_undefined",
    "C63_pozueta_Hs_empty",
    "C63_etemad2021_Hs",
    "C63_etemad2021_Hs_scalars",
    "C63_etemad2021_Hs_missing_damage"
   ],
   "note": ""
  },
  {
   "property": "C64",
   "status": "proved",
   "theorems": [
    "C64_discharge_diml",
    "C64_discharge",
    "C64_freeboard_diml",
    "C64_freeboard",
    "C64_discharge_wall",
    "C64_discharge_berm_factor",
    "C64_discharge_composite",
    "C64_discharge_berm",
    "C64_crest_wall",
    "C64_oblique",
    "C64_runup_diml",
    "C64_runup_diml_angle",
    "C64_runup",
    "C64_runup_angle",
    "C64_runup_berm_factor",
    "C64_runup_composite",
    "C64_berm_factor",
    "C64_runup_no_berm_factor"
   ],
   "note": ""
  },
  {
   "property": "C65",
   "status": "proved",
   "theorems": [
    "C65_crestwall2019_check",
    "C65_cubes_check",
    "C65_dangremond1996_check",
    "C65_deridder2024_check",
    "C65_deridder2026_check",
    "C65_etemadshahidi2020_check",
    "C65_etemadshahidi2021_check",
    "C65_etemadshahidi2021_check_Hs_ht",
    "C65_gerding1993_check",
    "C65_hudsonunits_accropode2_check",
    "C65_hudsonunits_accropode_check",
    "C65_hudsonunits_core_loc_check",
    "C65_jumelet2024_check",
    "C65_kramerburcharth2004_check",
    "C65_overtoppingeurotop2018_check",
    "C65_overtoppingtaw2002_check",
    "C65_rearvangent2007_check",
    "C65_rearvangentpozueta2004_check",
    "C65_runuptaw2002_check",
    "C65_scaravaglione2025_check",
    "C65_vangent2024setup_check",
    "C65_vangentvanderwerf2014_check",
    "C65_vandermeer1988_check",
    "C65_vandermeer1988modified_check",
    "C65_vandermeer1988modified_check_2021",
    "C65_vandermeer1998_check"
   ],
   "note": ""
  },
  {
   "property": "C66",
   "status": "proved",
   "theorems": [
    "C66_eurotop2007_q_diml",
    "C66_eurotop2007_q",
    "C66_eurotop2007_Rc_diml",
    "C66_eurotop2007_Rc",
    "C66_eurotop2018_q_diml",
    "C66_eurotop2018_q",
    "C66_eurotop2018_Rc_diml",
    "C66_eurotop2018_Rc",
    "C66_eurotop2018_rubble_q_diml",
    "C66_eurotop2018_rubble_q",
    "C66_eurotop2018_rubble_Rc_diml",
    "C66_eurotop2018_rubble_Rc",
    "C66_eurotop2018_q_diml_periods",
    "C66_eurotop2018_q_periods",
    "C66_eurotop2018_q_diml_crest_factor",
    "C66_eurotop2018_q_crest_factor",
    "C66_eurotop2018_Rc_diml_crest_factor",
    "C66_eurotop2018_Rc_crest_factor",
    "C66_eurotop2018_roughness",
    "C66_eurotop2018_composite",
    "C66_eurotop2018_berm",
    "C66_runup_diml",
    "C66_runup",
    "C66_runup_roughness",
    "C66_runup_no_angle",
    "C66_runup_berm_factor",
    "C66_runup_no_berm_factor",
    "C66_runup_composite"
   ],
   "note": ""
  },
  {
   "property": "C67",
   "status": "proved",
   "theorems": [
    "C67_scaravaglione_S",
    "C67_scaravaglione_Dn50",
    "C67_scaravaglione_Hm0",
    "C67_accropode2_M",
    "C67_accropode2_Hs",
    "C67_accropode2_KD",
    "C67_accropode_M",
    "C67_accropode_Hs",
    "C67_accropode_KD",
    "C67_core_loc_M",
    "C67_core_loc_Hs",
    "C67_core_loc_KD",
    "C67_cubes_M",
    "C67_cubes_Hs",
    "C67_cubipod_M",
    "C67_cubipod_Hs",
    "C67_tetrapod_M",
    "C67_tetrapod_Hs",
    "C67_cubes_double_Dn",
    "C67_cubes_double_Hs",
    "C67_cubes_double_Nod",
    "C67_cubes_single_M",
    "C67_cubes_single_M_failure",
    "C67_cubes_single_Hs",
    "C67_cubes_single_Hs_failure",
    "C67_jumelet_Dn50",
    "C67_jumelet_S",
    "C67_kramer_Hs",
    "C67_etemad_S",
    "C67_etemad_Hs",
    "C67_mixed_refuted",
    "C67_dangremond_permeable",
    "C67_dangremond_impermeable",
    "C67_dimensionless_setup_impermeable",
    "C67_setup_delta_impermeable",
    "C67_dimensionless_setup_permeable",
    "C67_setup_delta_permeable",
    "C67_deridder2024_dimless_Rc_eq24",
    "C67_deridder2024_Rc_eq24",
    "C67_deridder2024_Rc_eq26",
    "C67_deridder2024_dimless_q_eq24",
    "C67_deridder2024_q_eq24",
    "C67_deridder2024_dimless_q_eq26",
    "C67_deridder2024_q_eq26",
    "C67_deridder2026_dimless_q_eq28",
    "C67_deridder2026_q_eq28",
    "C67_deridder2026_dimless_q_eq32",
    "C67_deridder2026_q_eq32",
    "C67_rear2007_S",
    "C67_rear2007_Dn50",
    "C67_pozueta_S",
    "C67_pozueta_Dn50",
    "C67_vdm88_S",
    "C67_vdm88_Dn50",
    "C67_vdm88_Hs",
    "C67_modified_S",
    "C67_modified_Dn50",
    "C67_modified_Hs",
    "C67_vdm2021_S",
    "C67_vdm2021_Dn50",
    "C67_vdm2021_Hs",
    "C67_gerding_Nod",
    "C67_gerding_Dn50",
    "C67_gerding_Hs",
    "C67_gerding_ht",
    "C67_vdm98_Nod",
    "C67_vdm98_Dn50",
    "C67_vdm98_Hs",
    "C67_toe2014_Nod",
    "C67_toe2014_Dn50",
    "C67_etemad2021_Nod",
    "C67_etemad2021_Dn50",
    "C67_crestwall_FH_from_z2p",
    "C67_crestwall_FH",
    "C67_crestwall_FH_oblique",
    "C67_crestwall_FV",
    "C67_crestwall_FV_oblique"
   ],
   "note": ""
  },
  {
   "property": "C68",
   "status": "proved",
   "theorems": [
    "C68_xbloc_Hs_from_V",
    "C68_xbloc_Hs_from_M",
    "C68_xbloc_V",
    "C68_xbloc_M",
    "C68_xblocplus_Hs_from_V",
    "C68_xblocplus_Hs_from_M",
    "C68_xblocplus_V",
    "C68_xblocplus_M",
    "C68_xbloc_factor_cotalpha_seabed",
    "C68_xbloc_factor_percslope_seabed",
    "C68_xbloc_factor_relative_freeboard",
    "C68_xbloc_factor_rel_depth",
    "C68_xbloc_factor_structure_slope",
    "C68_xblocplus_factor_cotalpha_seabed",
    "C68_xblocplus_factor_percslope_seabed",
    "C68_xblocplus_factor_relative_freeboard"
   ],
   "note": ""
  },
  {
   "property": "C69",
   "status": "proved",
   "theorems": [
    "C69_q_diml_places",
    "C69_Rc_diml_places",
    "C69_q_places",
    "C69_Rc_places",
    "C69_q_diml_reports",
    "C69_q_reports",
    "C69_Rc_diml_reports",
    "C69_Rc_reports",
    "C69_stops",
    "C69_check"
   ],
   "note": ""
  },
  {
   "property": "C70",
   "status": "proved",
   "theorems": [
    "C70_q_diml",
    "C70_q",
    "C70_Rc_diml",
    "C70_Rc_diml_wind",
    "C70_Rc_diml_wind_stops",
    "C70_Rc",
    "C70_Rc_wind",
    "C70_Rc_wind_stops",
    "C70_stops",
    "C70_unfit_stops",
    "C70_check",
    "C70_factors"
   ],
   "note": ""
  },
  {
   "property": "C71",
   "status": "proved",
   "theorems": [
    "C71_weight",
    "C71_safety",
    "C71_bearing",
    "C71_wavelength",
    "C71_impulsive",
    "C71_pressures",
    "C71_pressures_stop",
    "C71_first_period",
    "C71_reactions",
    "C71_reactions_stop",
    "C71_check",
    "C71_first_period_reactions"
   ],
   "note": ""
  },
  {
   "property": "C72",
   "status": "proved",
   "theorems": [
    "C72_Ns",
    "C72_Ns_reports",
    "C72_Ns_first",
    "C72_Ns_stop",
    "C72_Dn50",
    "C72_Dn50_reports",
    "C72_Dn50_first",
    "C72_Dn50_stop",
    "C72_depth",
    "C72_depth_first",
    "C72_depth_stop"
   ],
   "note": ""
  },
  {
   "property": "C73",
   "status": "proved",
   "theorems": [
    "C73_accropode",
    "C73_accropode2",
    "C73_core_loc",
    "C73_cubes",
    "C73_cubipod",
    "C73_tetrapod",
    "C73_seabed_capped",
    "C73_accropode2_bounds",
    "C73_accropode_bounds_refuted",
    "C73_cubes_head_breaking",
    "C73_no_KD",
    "C73_common_name_refuted",
    "C73_layer_coefficients",
    "C73_geometry",
    "C73_layers",
    "C73_xbloc_KD",
    "C73_xbloc_size"
   ],
   "note": ""
  },
  {
   "property": "C74",
   "status": "proved",
   "theorems": [
    "C74_accropode",
    "C74_accropode2",
    "C74_core_loc",
    "C74_near_the_exact_function",
    "C74_accropode_5_refuted",
    "C74_rounding"
   ],
   "note": ""
  },
  {
   "property": "C75",
   "status": "proved",
   "theorems": [
    "C75_taw_discharge_diml",
    "C75_taw_discharge",
    "C75_taw_freeboard_diml",
    "C75_taw_freeboard",
    "C75_taw_runup_diml",
    "C75_taw_runup",
    "C75_eurotop2007",
    "C75_eurotop2007_numbers",
    "C75_eurotop2018",
    "C75_eurotop2018_numbers",
    "C75_eurotop2018_rubble_q_diml",
    "C75_eurotop2018_rubble_q",
    "C75_eurotop2018_rubble_Rc_diml",
    "C75_eurotop2018_rubble_Rc",
    "C75_eurotop2018_runup_diml",
    "C75_eurotop2018_runup",
    "C75_vangent_q_diml",
    "C75_vangent_q",
    "C75_vangent_Rc_diml",
    "C75_vangent_Rc_diml_wind",
    "C75_vangent_Rc"
   ],
   "note": ""
  },
  {
   "property": "C76",
   "status": "proved",
   "theorems": [
    "C76_crest_wall2019",
    "C76_goda1985_pressures",
    "C76_goda1985_reactions",
    "C76_goda1985_parts",
    "C76_takahashi1990",
    "C76_vangent2001",
    "C76_dangremond1996",
    "C76_briganti2003",
    "C76_goda1967",
    "C76_vangent2024_setup",
    "C76_eurotop2007",
    "C76_vangent2021_caisson",
    "C76_deridder2024",
    "C76_deridder2026",
    "C76_vangent2025",
    "C76_runup_taw2002",
    "C76_runup_taw2002_iteration",
    "C76_runup_eurotop2018",
    "C76_runup_eurotop2018_iteration",
    "C76_overtopping_taw2002",
    "C76_overtopping_eurotop2018",
    "C76_overtopping_eurotop2018_rubble_mound",
    "C76_kramer2004_tolerance_refuted",
    "C76_vandermeer1998_warnings_refuted",
    "C76_pozueta2004_start_refuted",
    "C76_core_physics",
    "C76_hudson1959",
    "C76_vandermeer1988",
    "C76_vandermeer1988_modified",
    "C76_vandermeer2021",
    "C76_scaravaglione2025",
    "C76_etemadshahidi2020_damage",
    "C76_etemadshahidi2020",
    "C76_jumelet2024_damage",
    "C76_jumelet2024",
    "C76_kramer2004",
    "C76_units_hudson",
    "C76_cubes_masses",
    "C76_cubes",
    "C76_xbloc",
    "C76_gerding1993",
    "C76_vandermeer1998",
    "C76_vangent_vanderwerf2014",
    "C76_etemadshahidi2021",
    "C76_vangent2002_velocity",
    "C76_rear_vangent2007",
    "C76_rear_vangent_pozueta2004"
   ],
   "note": ""
  },
  {
   "property": "C77",
   "status": "proved",
   "theorems": [
    "C77_eurotop2007_wave_height",
    "C77_eurotop2007_period",
    "C77_eurotop2007_roughness",
    "C77_eurotop2018_mound_wave_height",
    "C77_eurotop2018_mound_period",
    "C77_eurotop2018_mound_roughness",
    "C77_eurotop2018_wave_height",
    "C77_eurotop2018_period",
    "C77_eurotop2018_roughness",
    "C77_taw2002_wave_height",
    "C77_taw2002_period",
    "C77_taw2002_rough_berm_refuted",
    "C77_eurotop2007_period_refuted",
    "C77_deridder2024_eq24_crest",
    "C77_deridder2024_eq26_crest",
    "C77_deridder2026_eq28_crest",
    "C77_deridder2026_eq32_crest",
    "C77_vangent2025_crest",
    "C77_vangent2021_crest",
    "C77_eurotop2007_crest",
    "C77_eurotop2018_mound_crest",
    "C77_taw2002_crest",
    "C77_deridder2024_eq24",
    "C77_deridder2024_eq26",
    "C77_deridder2026_eq28",
    "C77_deridder2026_eq32",
    "C77_vangent2025",
    "C77_vangent2021"
   ],
   "note": ""
  },
  {
   "property": "C78",
   "status": "proved",
   "theorems": [
    "C78_vandermeer1988",
    "C78_vandermeer1988_modified",
    "C78_vandermeer2021",
    "C78_vandermeer_period",
    "C78_vandermeer_slope",
    "C78_longer_waves_larger_stones_refuted",
    "C78_gentler_slope_smaller_stones_refuted",
    "C78_gerding",
    "C78_vandermeer1998",
    "C78_etemad_shahidi_2021",
    "C78_vangent_vanderwerf",
    "C78_rear_vangent2007",
    "C78_rear_pozueta",
    "C78_rear_slope_disagrees",
    "C78_rear_lower_crest_refuted",
    "C78_hudson",
    "C78_cubes_single_layer",
    "C78_xbloc",
    "C78_cubes_double_layer",
    "C78_scaravaglione",
    "C78_jumelet_refuted"
   ],
   "note": ""
  },
  {
   "property": "C79",
   "status": "proved",
   "theorems": [
    "C79_goda",
    "C79_goda_safety",
    "C79_wall_horizontal",
    "C79_wall_vertical",
    "C79_wall_armour_refuted",
    "C79_wall_oblique",
    "C79_wall_oblique_drop",
    "C79_wall_oblique_refuted"
   ],
   "note": ""
  },
  {
   "property": "C80",
   "status": "proved",
   "theorems": [
    "C80_taw_height",
    "C80_taw_period",
    "C80_taw_berm_refuted",
    "C80_taw_period_refuted",
    "C80_taw_angle",
    "C80_eurotop2018_height",
    "C80_eurotop2018_period",
    "C80_velocity",
    "C80_dangremond_period",
    "C80_dangremond_height",
    "C80_dangremond_height_refuted",
    "C80_briganti_narrow",
    "C80_briganti_wide",
    "C80_goda_height",
    "C80_vangent2023",
    "C80_vangent2023_submerged",
    "C80_setup_impermeable_height",
    "C80_setup_impermeable_period",
    "C80_setup_permeable"
   ],
   "note": ""
  },
  {
   "property": "C81",
   "status": "proved",
   "theorems": [
    "C81_width",
    "C81_default",
    "C81_heavy",
    "C81_light"
   ],
   "note": ""
  },
  {
   "property": "C82",
   "status": "proved",
   "theorems": [
    "C82_bind",
    "C82_names_unique",
    "C82_positional_or_named",
    "C82_keyword_order",
    "C82_required",
    "C82_left_out",
    "C82_left_out_refuted",
    "C82_undocumented",
    "C82_shared",
    "C82_used",
    "C82_used_other",
    "C82_documented_order",
    "C82_documented_names",
    "C82_documented_names_refuted"
   ],
   "note": ""
  },
  {
   "property": "C83",
   "status": "proved",
   "theorems": [
    "C83_core",
    "C83_runup_vangent2001",
    "C83_velocity",
    "C83_setup",
    "C83_dangremond",
    "C83_briganti",
    "C83_crestwall",
    "C83_hudson",
    "C83_units",
    "C83_cubes",
    "C83_xbloc",
    "C83_gerding",
    "C83_vandermeer1998",
    "C83_vangent_vanderwerf",
    "C83_etemad_shahidi_2021",
    "C83_goda",
    "C83_deridder2024",
    "C83_deridder2026",
    "C83_eurotop2018",
    "C83_eurotop2007",
    "C83_vangent2025",
    "C83_vandermeer_period",
    "C83_runup_taw",
    "C83_goda1967_missing",
    "C83_goda1967_refuted",
    "C83_xbloc_factors",
    "C83_xbloc_refuted",
    "C83_eurotop2007_missing",
    "C83_eurotop2007_refuted",
    "C83_eurotop2018_refuted",
    "C83_scaravaglione",
    "C83_etemad_shahidi_2020",
    "C83_jumelet",
    "C83_vandermeer",
    "C83_vandermeer_modified",
    "C83_kramer",
    "C83_rear_vangent2007",
    "C83_rear_pozueta",
    "C83_kramer_searches",
    "C83_jumelet_search",
    "C83_etemad_shahidi_2020_search",
    "C83_etemad_shahidi_2021_search",
    "C83_rear_searches",
    "C83_vangent2021",
    "C83_takahashi",
    "C83_vangent2023",
    "C83_taw"
   ],
   "note": ""
  },
  {
   "property": "C84",
   "status": "proved",
   "theorems": [
    "C84_kramer",
    "C84_vangent2001",
    "C84_vangentvanderwerf",
    "C84_vandermeer1988",
    "C84_cubes_damage",
    "C84_gerding",
    "C84_etemad2021_damage",
    "C84_scaravaglione_diameter",
    "C84_positive_refuted",
    "C84_vangent2002velocity",
    "C84_vangent2024setup",
    "C84_dangremond1996",
    "C84_briganti2003",
    "C84_deridder2024",
    "C84_deridder2026",
    "C84_vangent2025",
    "C84_runuptaw2002",
    "C84_runupeurotop2018",
    "C84_overtoppingtaw2002",
    "C84_crestwall2019",
    "C84_corephysics",
    "C84_hudson1959",
    "C84_hudsonunits",
    "C84_cubes",
    "C84_xbloc",
    "C84_scaravaglione2025",
    "C84_etemadshahidi2020",
    "C84_vandermeer1988modified",
    "C84_rearvangentpozueta2004",
    "C84_gerding1993",
    "C84_vandermeer1998"
   ],
   "note": ""
  },
  {
   "property": "C85",
   "status": "proved",
   "theorems": [
    "C85_corephysics",
    "C85_hudson1959",
    "C85_hudsonunits",
    "C85_xbloc",
    "C85_cubes",
    "C85_vandermeer1998",
    "C85_gerding1993",
    "C85_vangent2001",
    "C85_deridder2024",
    "C85_deridder2026",
    "C85_overtoppingeurotop2007",
    "C85_vangent2025",
    "C85_vangent2024setup",
    "C85_scaravaglione2025",
    "C85_etemadshahidi2020",
    "C85_vandermeer1988",
    "C85_vandermeer1988modified",
    "C85_jumelet2024",
    "C85_rearvangentpozueta2004",
    "C85_vangentvanderwerf2014",
    "C85_vangent2002velocity",
    "C85_dangremond",
    "C85_briganti",
    "C85_vangent2023",
    "C85_crest_wall",
    "C85_rear",
    "C85_gerding",
    "C85_cubes_and_toe_damage",
    "C85_velocity",
    "C85_no_load_refuted"
   ],
   "note": ""
  },
  {
   "property": "C86",
   "status": "proved",
   "theorems": [
    "C86_kramer_diameter",
    "C86_kramer_freeboard",
    "C86_jumelet_wave_height",
    "C86_etemad_diameter",
    "C86_vangent2007_wave_height",
    "C86_pozueta_wave_height",
    "C86_vangent2025_freeboard",
    "C86_taw_average_slope",
    "C86_eurotop_average_slope",
    "C86_average_slope_zero_tolerance",
    "C86_dependable",
    "C86_warning_means_not_settled_refuted",
    "C86_false_alarm",
    "C86_false_alarm_pozueta"
   ],
   "note": ""
  },
  {
   "property": "C87",
   "status": "proved",
   "theorems": [
    "C87_oblique_waves",
    "C87_berm_level",
    "C87_heel_pressure",
    "C87_wall_angle",
    "C87_roughness",
    "C87_runup_drops",
    "C87_storm_duration",
    "C87_stones_by_slope",
    "C87_steady_is_no_step"
   ],
   "note": ""
  },
  {
   "property": "C88",
   "status": "proved",
   "theorems": [
    "C88_taw2002",
    "C88_eurotop2007",
    "C88_eurotop2018_mound",
    "C88_deridder2024",
    "C88_vangent2025",
    "C88_caisson2021",
    "C88_transmission2023",
    "C88_storm",
    "C88_runup",
    "C88_one_limit",
    "C88_levels_or_grows"
   ],
   "note": ""
  }
 ]
}