(** The assumptions of every theorem: printed once per property, for all its
    theorems together.  Nothing but axioms of the standard library may appear. *)
From Verif.Props Require Core ToeGerding ToeVanderMeer ToeEtemad ToeVanGentVanderWerf ToeTakahashi Hudson ConcreteUnits RockVdM RockEtemad RockJumelet RockScaravaglione RockKramer CoreStability RunupVanGent RearVanGent RearPozueta TransDAngremond TransBriganti TransGoda TransVanGent SetupVanGent OvertoppingDeRidder24 OvertoppingDeRidder26 OvertoppingCaisson OvertoppingVanGent25 OvertoppingWind CaissonGoda CrestWall RunupTAW RunupIteration OvertoppingTAW RunupEurotop OvertoppingEurotop07 BermProcedure OvertoppingEurotop18 Writers RangesToe RangesRock RangesHydraulic ArraysCore ArraysRock ArraysArmour ArraysToe ArraysHydraulic ArraysWall ArraysLimits ArraysIteration ArraysEtemad ArraysEtemadLoops ArraysRear ArraysRearLoops ArraysToeEtemad ArraysRunupTAW ArraysOvertoppingTAW ArraysOvertoppingEurotop ArraysRunupEurotop ArraysWarnings CallsRock CallsArmour CallsToe CallsHydraulic CallsWall CallsRear CallsEtemad CallsToeEtemad CallsExamples ArraysXbloc ArraysCaisson ArraysVanGent2025 ArraysGoda ArraysTakahashi UnitProperties KD64 ArraysReports SimilarityStability SimilarityHydraulic SimilarityForces SimilarityLimits ResponseEurotop ResponseVanGent ResponseFreeboard ResponseArmour ResponseUnits ResponseToe ResponseGoda ResponseWall ResponseRunup ResponseTransmission CaissonWidth Signatures SignaturesDocs Missing MissingRock MissingOvertopping MissingTAW MissingSearches MissingGoda MissingRefuted NumbersHydraulic NumbersStability NumbersExact StillWater StillWaterExact Searching Steps FarOut.

Definition C01_all :=
  (@Core.C01_validity_check_reports_exactly_the_outliers,
   @Core.C01_scalar_is_a_singleton,
   @Core.C01_missing_values_never_flagged).
Print Assumptions C01_all.

Definition C02_all :=
  (@Core.C02_steepness_definition,
   @Core.C02_iribarren_definition,
   @Core.C02_froude_invariance).
Print Assumptions C02_all.

Definition C03_all :=
  (@Core.C03_mass_diameter_inverse,
   @Core.C03_mass_increasing,
   @Core.C03_diameter_increasing).
Print Assumptions C03_all.

Definition C04_all :=
  (@Core.C04_both_missing,
   @Core.C04_diameter_wins,
   @Core.C04_mass_is_converted,
   @Core.C04_default_density_is_announced).
Print Assumptions C04_all.

Definition C05_all :=
  (@Core.C05_S_Nod_inverse,
   @Core.C05_S_counts_stones_per_strip).
Print Assumptions C05_all.

Definition C06_all :=
  (@Core.C06_error_iff_not_exactly_one_missing,
   @Core.C06_only_value_errors,
   @Core.C06_fills_in_the_missing_quantity).
Print Assumptions C06_all.

Definition C07_all :=
  (@Core.C07_scalar_depth_scalar_period,
   @Core.C07_depth_array_one_period,
   @Core.C07_depth_array_period_array,
   @Core.C07_shapes_that_never_return,
   @Core.C07_period_array_scalar_depth_refuted).
Print Assumptions C07_all.

Definition C08_all :=
  (@RunupTAW.C08_runup,
   @RunupTAW.C08_overtopping).
Print Assumptions C08_all.

Definition C09_all :=
  (@RunupTAW.C09_range,
   @RunupTAW.C09_formula,
   @RunupTAW.C09_total,
   @RunupTAW.C09_no_berm,
   @RunupTAW.C09_still_water_best,
   @RunupTAW.C09_wider_berm).
Print Assumptions C09_all.

Definition C10_all :=
  (@RunupTAW.C10_roughness,
   @RunupTAW.C10_above_one,
   @RunupTAW.C10_at_most_one_refuted,
   @RunupTAW.C10_jumps).
Print Assumptions C10_all.

Definition C11_all :=
  (@RunupTAW.C11_smaller_of_two,
   @RunupTAW.C11_angle,
   @RunupTAW.C11_factor_first,
   @RunupTAW.C11_best_fit,
   @RunupTAW.C11_froude,
   @RunupTAW.C11_positive,
   @RunupTAW.C11_positive_refuted).
Print Assumptions C11_all.

Definition C12_all :=
  (@RunupIteration.C12_converges,
   @RunupIteration.C12_converges_refuted,
   @RunupTAW.C12_depth,
   @RunupTAW.C12_no_recursion_error,
   @RunupTAW.C12_iteration,
   @RunupTAW.C12_zero_tolerance,
   @RunupTAW.C12_composite).
Print Assumptions C12_all.

Definition C13_all :=
  (@OvertoppingTAW.C13_discharge,
   @OvertoppingTAW.C13_round_trip,
   @OvertoppingTAW.C13_other_gravity,
   @OvertoppingTAW.C13_gravity_refuted,
   @OvertoppingTAW.C13_composite).
Print Assumptions C13_all.

Definition C14_all :=
  (@OvertoppingTAW.C14_positive,
   @OvertoppingTAW.C14_freeboard,
   @OvertoppingTAW.C14_factors,
   @OvertoppingTAW.C14_berm,
   @OvertoppingTAW.C14_sigma,
   @OvertoppingTAW.C14_froude,
   @OvertoppingTAW.C14_berm_refuted,
   @OvertoppingTAW.C14_roughness_refuted,
   @OvertoppingTAW.C14_wall).
Print Assumptions C14_all.

Definition C15_all := @OvertoppingTAW.C15_sigma.
Print Assumptions C15_all.

Definition C16_all :=
  (@BermProcedure.C16_berm_procedure,
   @BermProcedure.C16_berm_procedure_eurotop,
   @BermProcedure.C16_berm_factor_range,
   @OvertoppingTAW.C16_overtopping_works,
   @RunupTAW.C16_runup_fails).
Print Assumptions C16_all.

Definition C17_all :=
  (@RunupEurotop.C17_gamma_beta_ignored,
   @RunupEurotop.C17_no_angle,
   @RunupEurotop.C17_oblique,
   @RunupEurotop.C17_runup,
   @RunupEurotop.C17_berm_factor_needed).
Print Assumptions C17_all.

Definition C18_all :=
  (@OvertoppingEurotop18.C18_discharge,
   @OvertoppingEurotop18.C18_submerged,
   @OvertoppingEurotop18.C18_positive_decreasing,
   @OvertoppingEurotop18.C18_round_trip,
   @OvertoppingEurotop18.C18_rough_formula,
   @OvertoppingEurotop18.C18_rough_maximum,
   @OvertoppingEurotop18.C18_berm_factor_ignored,
   @OvertoppingEurotop18.C18_rough_refuted,
   @OvertoppingEurotop18.C18_mound_discharge,
   @OvertoppingEurotop18.C18_mound_round_trip).
Print Assumptions C18_all.

Definition C19_all :=
  (@OvertoppingEurotop07.C19_discharge,
   @OvertoppingEurotop07.C19_round_trip,
   @OvertoppingEurotop07.C19_other_gravity,
   @OvertoppingEurotop07.C19_positive_decreasing,
   @OvertoppingEurotop07.C19_froude,
   @OvertoppingEurotop07.C19_angle).
Print Assumptions C19_all.

Definition C20_all :=
  (@RunupVanGent.C20_levels_follow_the_curve,
   @RunupVanGent.C20_z2p_needs_exactly_one_wave_height,
   @RunupVanGent.C20_curve_is_smooth,
   @RunupVanGent.C20_level_increases,
   @RunupVanGent.C20_level_is_bounded,
   @RunupVanGent.C20_levels_are_ordered,
   @RunupVanGent.C20_froude_scaling).
Print Assumptions C20_all.

Definition C21_all :=
  (@RunupVanGent.C21_fixed_points,
   @RunupVanGent.C21_repeated_inversion_converges).
Print Assumptions C21_all.

Definition C22_all :=
  (@RunupVanGent.C22_velocity,
   @RunupVanGent.C22_inverse).
Print Assumptions C22_all.

Definition C23_all :=
  (@OvertoppingDeRidder24.C23_eq24_agree_with_relation,
   @OvertoppingDeRidder24.C23_eq26_agree_with_relation,
   @OvertoppingDeRidder24.C23_round_trip,
   @OvertoppingDeRidder24.C23_eq24_gravity_error,
   @OvertoppingDeRidder24.C23_eq24_round_trip_any_gravity_refuted,
   @OvertoppingDeRidder24.C23_decreasing_in_freeboard,
   @OvertoppingDeRidder24.C23_froude_scaling,
   @OvertoppingDeRidder24.C23_no_discharge,
   @OvertoppingDeRidder24.C23_warnings,
   @OvertoppingDeRidder24.C23_freeboard_warnings).
Print Assumptions C23_all.

Definition C24_all :=
  (@OvertoppingDeRidder26.C24_angle_factor,
   @OvertoppingDeRidder26.C24_agree_with_relations,
   @OvertoppingDeRidder26.C24_round_trip,
   @OvertoppingDeRidder26.C24_oblique_waves_overtop_less,
   @OvertoppingDeRidder26.C24_froude_scaling,
   @OvertoppingDeRidder26.C24_warnings).
Print Assumptions C24_all.

Definition C25_all :=
  (@OvertoppingCaisson.C25_coefficients,
   @OvertoppingCaisson.C25_agree_with_relation,
   @OvertoppingCaisson.C25_round_trip,
   @OvertoppingCaisson.C25_angle_factor,
   @OvertoppingCaisson.C25_refusals,
   @OvertoppingCaisson.C25_default_swell_is_no_number,
   @OvertoppingCaisson.C25_default_call_refuted,
   @OvertoppingCaisson.C25_warnings).
Print Assumptions C25_all.

Definition C26_all :=
  (@OvertoppingVanGent25.C26_discharge,
   @OvertoppingVanGent25.C26_freeboard,
   @OvertoppingVanGent25.C26_round_trip,
   @OvertoppingVanGent25.C26_design_round_trip,
   @OvertoppingVanGent25.C26_design_error,
   @OvertoppingVanGent25.C26_design_round_trip_refuted,
   @OvertoppingVanGent25.C26_missing_crest_wall_factor,
   @OvertoppingVanGent25.C26_error,
   @OvertoppingVanGent25.C26_warnings,
   @OvertoppingVanGent25.C26_freeboard_warnings,
   @OvertoppingVanGent25.C26_absent_berm_reported).
Print Assumptions C26_all.

Definition C27_all :=
  (@OvertoppingVanGent25.C27_roughness,
   @OvertoppingVanGent25.C27_oblique,
   @OvertoppingVanGent25.C27_crest_wall,
   @OvertoppingVanGent25.C27_berm,
   @OvertoppingVanGent25.C27_factors_computed).
Print Assumptions C27_all.

Definition C28_all :=
  (@OvertoppingWind.C28_discharge,
   @OvertoppingWind.C28_negative_discharge_refuted,
   @OvertoppingWind.C28_freeboard,
   @OvertoppingWind.C28_freeboard_nan,
   @OvertoppingWind.C28_round_trip_too_low,
   @OvertoppingWind.C28_freeboard_default).
Print Assumptions C28_all.

Definition C29_all :=
  (@TransDAngremond.C29_formula,
   @TransDAngremond.C29_impermeable_formula,
   @TransDAngremond.C29_between_limits,
   @TransDAngremond.C29_decreasing_in_freeboard,
   @TransDAngremond.C29_strictly_decreasing_unclipped,
   @TransDAngremond.C29_decreasing_in_crest_width,
   @TransDAngremond.C29_impermeable_at_least_permeable,
   @TransDAngremond.C29_scale_invariant,
   @TransDAngremond.C29_warnings,
   @TransDAngremond.C29_no_check_no_warnings).
Print Assumptions C29_all.

Definition C30_all :=
  (@TransBriganti.C30_narrow_crest_is_DAngremond,
   @TransBriganti.C30_wide_crest,
   @TransBriganti.C30_between_limits,
   @TransBriganti.C30_decreasing_in_freeboard,
   @TransBriganti.C30_wide_crest_decreasing_in_width,
   @TransBriganti.C30_decreasing_in_width_refuted,
   @TransBriganti.C30_warnings,
   @TransBriganti.C30_array_is_elementwise,
   @TransBriganti.C30_empty_array_fails).
Print Assumptions C30_all.

Definition C31_all :=
  (@TransGoda.C31_three_branches,
   @TransGoda.C31_between_0_and_1,
   @TransGoda.C31_decreasing_below_the_limit,
   @TransGoda.C31_zero_at_the_limit,
   @TransGoda.C31_decreasing_in_freeboard_refuted,
   @TransGoda.C31_array_elementwise,
   @TransGoda.C31_array_truncated,
   @TransGoda.C31_array_elementwise_refuted,
   @TransGoda.C31_empty_array_fails).
Print Assumptions C31_all.

Definition C32_all :=
  (@TransVanGent.C32_formula,
   @TransVanGent.C32_no_width,
   @TransVanGent.C32_between_asymptotes,
   @TransVanGent.C32_decreasing_in_freeboard,
   @TransVanGent.C32_decreasing_in_width,
   @TransVanGent.C32_screens_reduce_transmission,
   @TransVanGent.C32_depends_on_relative_freeboard,
   @TransVanGent.C32_unknown_type,
   @TransVanGent.C32_no_warnings,
   @TransVanGent.C32_range_check).
Print Assumptions C32_all.

Definition C33_all :=
  (@CaissonGoda.C33_pressures,
   @CaissonGoda.C33_small_angle,
   @CaissonGoda.C33_symmetric,
   @CaissonGoda.C33_missing_angle).
Print Assumptions C33_all.

Definition C34_all := @CaissonGoda.C34_forces.
Print Assumptions C34_all.

Definition C35_all :=
  (@CaissonGoda.C35_equilibrium,
   @CaissonGoda.C35_negative,
   @CaissonGoda.C35_safety,
   @CaissonGoda.C35_weight,
   @CaissonGoda.C35_reactions).
Print Assumptions C35_all.

Definition C36_all :=
  (@CaissonGoda.C36_impulsive,
   @CaissonGoda.C36_missing_steepness,
   @CaissonGoda.C36_gap,
   @CaissonGoda.C36_flag).
Print Assumptions C36_all.

Definition C37_all :=
  (@CrestWall.C37_horizontal,
   @CrestWall.C37_horizontal_waves,
   @CrestWall.C37_vertical,
   @CrestWall.C37_vertical_high_base,
   @CrestWall.C37_vertical_without_runup_refuted,
   @CrestWall.C37_vertical_waves,
   @CrestWall.C37_gamma,
   @CrestWall.C37_gamma_decreasing,
   @CrestWall.C37_gamma_beta,
   @CrestWall.C37_horizontal_oblique,
   @CrestWall.C37_horizontal_oblique_negative,
   @CrestWall.C37_horizontal_oblique_refuted,
   @CrestWall.C37_vertical_oblique,
   @CrestWall.C37_extreme,
   @CrestWall.C37_froude).
Print Assumptions C37_all.

Definition C38_all :=
  (@Hudson.C38_rock,
   @Hudson.C38_accropode,
   @Hudson.C38_accropode2,
   @Hudson.C38_core_loc,
   @Hudson.C38_cubes,
   @Hudson.C38_cubipod,
   @Hudson.C38_tetrapod,
   @Hudson.C38_rock_with_damage,
   @Hudson.C38_mass_is_cubic).
Print Assumptions C38_all.

Definition C39_all :=
  (@Hudson.C39_lookup_is_the_next_entry,
   @Hudson.C39_index_error_from_100,
   @Hudson.C39_monotone_and_bounded,
   @Hudson.C39_tabulated_percentage_refuted,
   @Hudson.C39_unknown_rock_type,
   @Hudson.C39_case_and_space_ignored).
Print Assumptions C39_all.

Definition C40_all :=
  (@Hudson.C40_KD_follows_the_design_curve,
   @Hudson.C40_KD_decreases_and_is_bounded,
   @Hudson.C40_nonbreaking_is_the_flat_seabed_value,
   @Hudson.C40_missing_slope_gives_no_number).
Print Assumptions C40_all.

Definition C41_all :=
  (@ConcreteUnits.C41_double_layer_functions_agree_with_relation,
   @ConcreteUnits.C41_diameter_total,
   @ConcreteUnits.C41_wave_height_total,
   @ConcreteUnits.C41_damage_total,
   @ConcreteUnits.C41_only_slope_1_5_is_silent,
   @ConcreteUnits.C41_single_layer_inverse,
   @ConcreteUnits.C41_start_of_damage_needs_more).
Print Assumptions C41_all.

Definition C42_all :=
  (@ConcreteUnits.C42_xbloc_sizing,
   @ConcreteUnits.C42_xblocplus_sizing,
   @ConcreteUnits.C42_factors_at_least_one,
   @ConcreteUnits.C42_factors_monotone,
   @ConcreteUnits.C42_percentage_factor_monotone,
   @ConcreteUnits.C42_seabed_steps,
   @ConcreteUnits.C42_other_factor_steps,
   @ConcreteUnits.C42_structure_slope_factor,
   @ConcreteUnits.C42_structure_slope_monotone_refuted,
   @ConcreteUnits.C42_reference_slope_uncorrected_refuted).
Print Assumptions C42_all.

Definition C43_all :=
  (@RockVdM.C43_functions_agree_with_relation,
   @RockVdM.C43_damage_total,
   @RockVdM.C43_diameter_total,
   @RockVdM.C43_wave_height_total,
   @RockVdM.C43_branches_meet,
   @RockVdM.C43_damage_increases_with_wave_height,
   @RockVdM.C43_damage_by_diameter,
   @RockVdM.C43_damage_by_storm_duration,
   @RockVdM.C43_mass_or_diameter,
   @RockVdM.C43_wave_height_ignores_other_gravity_refuted).
Print Assumptions C43_all.

Definition C44_all :=
  (@RockVdM.C44_modified_functions_agree_with_relation,
   @RockVdM.C44_any_two_determine_the_third,
   @RockVdM.C44_modified_damage_increases_with_wave_height,
   @RockVdM.C44_2021_is_the_modified_formula,
   @RockVdM.C44_2021_functions_agree_with_relation).
Print Assumptions C44_all.

Definition C45_all :=
  (@RockEtemad.C45_damage_and_wave_height_agree_with_relation,
   @RockEtemad.C45_damage_total,
   @RockEtemad.C45_damage_increases_with_wave_height,
   @RockEtemad.C45_damage_gap,
   @RockEtemad.C45_diameter_unique,
   @RockEtemad.C45_diameter_never_too_small,
   @RockEtemad.C45_diameter_iteration_converges,
   @RockEtemad.C45_zero_iterations_fail,
   @RockEtemad.C45_depth_limited_needs_slope,
   @RockEtemad.C45_round_trip_other_water_density_refuted).
Print Assumptions C45_all.

Definition C46_all :=
  (@RockJumelet.C46_functions_agree_with_relation,
   @RockJumelet.C46_damage_and_diameter_exist,
   @RockJumelet.C46_plunging_fraction_bound,
   @RockJumelet.C46_fraction_at_most_one_refuted,
   @RockJumelet.C46_depends_on_whole_number,
   @RockJumelet.C46_no_number_for_long_waves,
   @RockJumelet.C46_wave_height_residual,
   @RockJumelet.C46_wave_height_exact_when_settled,
   @RockJumelet.C46_wave_height_fixed_point,
   @RockJumelet.C46_zero_iterations_fail,
   @RockJumelet.C46_default_start,
   @RockJumelet.C46_search_finds_solution_refuted).
Print Assumptions C46_all.

Definition C47_all :=
  (@RockKramer.C47_wave_height_agrees_with_relation,
   @RockKramer.C47_smallest_wave_height,
   @RockKramer.C47_diameter_residual,
   @RockKramer.C47_freeboard_residual,
   @RockKramer.C47_diameter_converges_in_published_range,
   @RockKramer.C47_freeboard_converges_in_published_range,
   @RockKramer.C47_default_accuracy,
   @RockKramer.C47_no_diameter_no_settling,
   @RockKramer.C47_default_diameter_satisfies_relation_refuted,
   @RockKramer.C47_diameter_unique_refuted).
Print Assumptions C47_all.

Definition C48_all :=
  (@RockScaravaglione.C48_functions_agree_with_relation,
   @RockScaravaglione.C48_damage_total,
   @RockScaravaglione.C48_wave_height_total,
   @RockScaravaglione.C48_diameter_exists_or_nonpositive,
   @RockScaravaglione.C48_damage_by_wave_height).
Print Assumptions C48_all.

Definition C49_all :=
  (@RearVanGent.C49_published_formulas,
   @RearVanGent.C49_round_trip_factor,
   @RearVanGent.C49_no_damage_below_crest_refuted,
   @RearVanGent.C49_below_crest,
   @RearVanGent.C49_wave_height_search,
   @RearVanGent.C49_no_crest_element_no_wave_height,
   @RearVanGent.C49_zero_iterations_fail).
Print Assumptions C49_all.

Definition C50_all :=
  (@RearPozueta.C50_functions_agree_with_relation,
   @RearPozueta.C50_each_function_alone,
   @RearPozueta.C50_below_crest_no_number,
   @RearPozueta.C50_default_density_no_number,
   @RearPozueta.C50_wave_height_search,
   @RearPozueta.C50_zero_iterations_fail).
Print Assumptions C50_all.

Definition C51_all :=
  (@ToeGerding.C51_functions_agree_with_relation,
   @ToeGerding.C51_damage_total,
   @ToeGerding.C51_wave_height_total,
   @ToeGerding.C51_damage_monotone).
Print Assumptions C51_all.

Definition C52_all :=
  (@ToeVanderMeer.C52_functions_agree_with_relation,
   @ToeVanderMeer.C52_damage_total,
   @ToeVanderMeer.C52_wave_height_total,
   @ToeVanderMeer.C52_diameter_total,
   @ToeVanderMeer.C52_depth_nan_iff_no_solution,
   @ToeVanderMeer.C52_stability_check_refuted).
Print Assumptions C52_all.

Definition C53_all :=
  (@ToeEtemad.C53_damage_and_diameter_agree_with_relation,
   @ToeEtemad.C53_diameter_total,
   @ToeEtemad.C53_damage_total,
   @ToeEtemad.C53_wave_height_terminates,
   @ToeEtemad.C53_max_iter_bounds_the_loop_refuted,
   @ToeEtemad.C53_validity_check_with_period_raises).
Print Assumptions C53_all.

Definition C54_all :=
  (@ToeVanGentVanderWerf.C54_damage_is_the_published_formula,
   @ToeVanGentVanderWerf.C54_round_trip_factor,
   @ToeVanGentVanderWerf.C54_exact_inverse_refuted,
   @ToeVanGentVanderWerf.C54_damage_scales_with_cube).
Print Assumptions C54_all.

Definition C55_all :=
  (@ToeTakahashi.C55_stability_number_at_least_1_8,
   @ToeTakahashi.C55_stability_number_is_the_published_formula,
   @ToeTakahashi.C55_diameter_consistent,
   @ToeTakahashi.C55_wave_height_search_crashes,
   @ToeTakahashi.C55_wave_height_residual,
   @ToeTakahashi.C55_wave_height_two_scans,
   @ToeTakahashi.C55_depth_search_brackets,
   @ToeTakahashi.C55_depth_search_never_ends).
Print Assumptions C55_all.

Definition C56_all :=
  (@Writers.C56_neural_network,
   @Writers.C56_xgboost,
   @Writers.C56_integer_scalar,
   @Writers.C56_float_with_array,
   @Writers.C56_different_lengths).
Print Assumptions C56_all.

Definition C57_all :=
  (@SetupVanGent.C57_impermeable_formula,
   @SetupVanGent.C57_permeable_formula,
   @SetupVanGent.C57_impermeable_positive_increasing,
   @SetupVanGent.C57_permeable_positive_increasing,
   @SetupVanGent.C57_vanishes_at_the_limit,
   @SetupVanGent.C57_no_number_below_the_limit,
   @SetupVanGent.C57_froude_scaling,
   @SetupVanGent.C57_impermeable_warnings,
   @SetupVanGent.C57_permeable_warnings).
Print Assumptions C57_all.

Definition C58_all :=
  (@CaissonGoda.C58_goda,
   @CrestWall.C58_crest_wall,
   @OvertoppingEurotop18.C58_eurotop_mound,
   @OvertoppingEurotop18.C58_eurotop_dike,
   @OvertoppingTAW.C58_taw_overtopping,
   @RangesHydraulic.C58_briganti,
   @RangesHydraulic.C58_dangremond,
   @RangesHydraulic.C58_deridder2024,
   @RangesHydraulic.C58_deridder2026,
   @RangesHydraulic.C58_caisson,
   @RangesHydraulic.C58_setup,
   @RangesHydraulic.C58_overtopping2025,
   @RangesRock.C58_vandermeer1988,
   @RangesRock.C58_modified_vandermeer,
   @RangesRock.C58_vandermeer2021,
   @RangesRock.C58_etemad2020,
   @RangesRock.C58_jumelet,
   @RangesRock.C58_kramer,
   @RangesRock.C58_scaravaglione,
   @RangesRock.C58_cubes,
   @RangesRock.C58_hudson_units,
   @RangesRock.C58_rear2007,
   @RangesRock.C58_rear2004,
   @RangesRock.C58_vandermeer2021_always,
   @RangesToe.C58_gerding,
   @RangesToe.C58_vandermeer1998,
   @RangesToe.C58_toe2014,
   @RangesToe.C58_etemad2021,
   @RangesToe.C58_etemad2021_check,
   @RangesToe.C58_takahashi,
   @RunupEurotop.C58_eurotop_runup,
   @RunupTAW.C58_taw_runup).
Print Assumptions C58_all.

Definition C59_all :=
  (@CoreStability.C59_relative_density,
   @CoreStability.C59_no_water_no_relative_density,
   @CoreStability.C59_stability_number,
   @CoreStability.C59_critical_iribarren).
Print Assumptions C59_all.

Definition C60_all :=
  (@CaissonGoda.C60_pressures_dictionary,
   @CaissonGoda.C60_reactions_dictionary).
Print Assumptions C60_all.

Definition C61_all :=
  (@ArraysArmour.C61_scaravaglione_S,
   @ArraysArmour.C61_scaravaglione_S_from_M50,
   @ArraysArmour.C61_scaravaglione_Dn50,
   @ArraysArmour.C61_scaravaglione_Dn50_from_M50,
   @ArraysArmour.C61_scaravaglione_Hm0,
   @ArraysArmour.C61_scaravaglione_Hm0_from_M50,
   @ArraysArmour.C61_hudson_M50,
   @ArraysArmour.C61_hudson_Hs,
   @ArraysArmour.C61_accropode2_M,
   @ArraysArmour.C61_accropode2_Hs,
   @ArraysArmour.C61_accropode2_KD,
   @ArraysArmour.C61_accropode_M,
   @ArraysArmour.C61_accropode_Hs,
   @ArraysArmour.C61_accropode_KD,
   @ArraysArmour.C61_core_loc_M,
   @ArraysArmour.C61_core_loc_Hs,
   @ArraysArmour.C61_core_loc_KD,
   @ArraysArmour.C61_cubes_M,
   @ArraysArmour.C61_cubes_Hs,
   @ArraysArmour.C61_cubipod_M,
   @ArraysArmour.C61_cubipod_Hs,
   @ArraysArmour.C61_tetrapod_M,
   @ArraysArmour.C61_tetrapod_Hs,
   @ArraysArmour.C61_cubes_double_Dn,
   @ArraysArmour.C61_cubes_double_Hs,
   @ArraysArmour.C61_cubes_double_Nod,
   @ArraysArmour.C61_cubes_single_M,
   @ArraysArmour.C61_cubes_single_M_failure,
   @ArraysArmour.C61_cubes_single_Hs,
   @ArraysArmour.C61_cubes_single_Hs_failure,
   @ArraysArmour.C61_hudson_M50_damage,
   @ArraysArmour.C61_hudson_Hs_damage,
   @ArraysCore.C61_steepness,
   @ArraysCore.C61_iribarren,
   @ArraysCore.C61_critical_iribarren,
   @ArraysCore.C61_Delta,
   @ArraysCore.C61_Ns,
   @ArraysCore.C61_M50,
   @ArraysCore.C61_Dn50,
   @ArraysCore.C61_S_from_Nod,
   @ArraysCore.C61_Nod_from_S,
   @ArraysCore.C61_size_given,
   @ArraysCore.C61_size_from_mass,
   @ArraysCore.C61_size_from_mass_default,
   @ArraysCore.C61_size_missing,
   @ArraysCore.C61_missing_of_four,
   @ArraysEtemad.C61_jumelet_S,
   @ArraysEtemad.C61_jumelet_S_from_M50,
   @ArraysEtemad.C61_jumelet_Dn50,
   @ArraysEtemad.C61_etemad_S,
   @ArraysEtemad.C61_etemad_Hs,
   @ArraysEtemad.C61_etemad_S_from_M50,
   @ArraysEtemad.C61_etemad_Hs_from_M50,
   @ArraysEtemad.C61_etemad_S_from_M50_core,
   @ArraysEtemad.C61_etemad_Hs_from_M50_core,
   @ArraysEtemad.C61_etemad_S_from_masses,
   @ArraysEtemad.C61_etemad_Hs_from_masses,
   @ArraysEtemad.C61_etemad_S_depth_limited,
   @ArraysEtemad.C61_etemad_Hs_depth_limited,
   @ArraysEtemad.C61_etemad_S_depth_limited_from_M50,
   @ArraysEtemad.C61_etemad_Hs_depth_limited_from_M50,
   @ArraysEtemad.C61_etemad_S_depth_limited_from_M50_core,
   @ArraysEtemad.C61_etemad_Hs_depth_limited_from_M50_core,
   @ArraysEtemad.C61_etemad_S_depth_limited_from_masses,
   @ArraysEtemad.C61_etemad_Hs_depth_limited_from_masses,
   @ArraysHydraulic.C61_dangremond_permeable,
   @ArraysHydraulic.C61_dangremond_impermeable,
   @ArraysHydraulic.C61_dimensionless_setup_impermeable,
   @ArraysHydraulic.C61_setup_delta_impermeable,
   @ArraysHydraulic.C61_dimensionless_setup_permeable,
   @ArraysHydraulic.C61_setup_delta_permeable,
   @ArraysHydraulic.C61_runup_zXp,
   @ArraysHydraulic.C61_runup_z1p,
   @ArraysHydraulic.C61_runup_z10p,
   @ArraysHydraulic.C61_runup_invert,
   @ArraysHydraulic.C61_velocity,
   @ArraysHydraulic.C61_velocity_invert,
   @ArraysHydraulic.C61_deridder2024_dimless_Rc_eq24,
   @ArraysHydraulic.C61_deridder2024_Rc_eq24,
   @ArraysHydraulic.C61_deridder2024_Rc_eq26,
   @ArraysHydraulic.C61_deridder2024_dimless_q_eq24,
   @ArraysHydraulic.C61_deridder2024_q_eq24,
   @ArraysHydraulic.C61_deridder2024_dimless_q_eq26,
   @ArraysHydraulic.C61_deridder2024_q_eq26,
   @ArraysHydraulic.C61_deridder2026_gamma_beta,
   @ArraysHydraulic.C61_deridder2026_dimless_Rc_eq28,
   @ArraysHydraulic.C61_deridder2026_Rc_eq28,
   @ArraysHydraulic.C61_deridder2026_Rc_eq32,
   @ArraysHydraulic.C61_deridder2026_dimless_q_eq28,
   @ArraysHydraulic.C61_deridder2026_q_eq28,
   @ArraysHydraulic.C61_deridder2026_dimless_q_eq32,
   @ArraysHydraulic.C61_deridder2026_q_eq32,
   @ArraysIteration.C61_kramer_Hs,
   @ArraysIteration.C61_kramer_Hs_from_M50,
   @ArraysRear.C61_rear2007_S,
   @ArraysRear.C61_rear2007_S_from_M50,
   @ArraysRear.C61_rear2007_Dn50,
   @ArraysRear.C61_pozueta_S,
   @ArraysRear.C61_pozueta_S_from_M50,
   @ArraysRear.C61_pozueta_Dn50,
   @ArraysRock.C61_vdm88_gamma_N,
   @ArraysRock.C61_vdm88_S,
   @ArraysRock.C61_vdm88_S_from_M50,
   @ArraysRock.C61_vdm88_Dn50,
   @ArraysRock.C61_vdm88_Hs,
   @ArraysRock.C61_vdm88_Hs_from_M50,
   @ArraysRock.C61_modified_S,
   @ArraysRock.C61_modified_S_from_M50,
   @ArraysRock.C61_modified_Dn50,
   @ArraysRock.C61_modified_Hs,
   @ArraysRock.C61_modified_Hs_from_M50,
   @ArraysRock.C61_vdm2021_S,
   @ArraysRock.C61_vdm2021_S_from_M50,
   @ArraysRock.C61_vdm2021_Dn50,
   @ArraysRock.C61_vdm2021_Hs,
   @ArraysRock.C61_vdm2021_Hs_from_M50,
   @ArraysToe.C61_gerding_Nod,
   @ArraysToe.C61_gerding_Dn50,
   @ArraysToe.C61_gerding_Hs,
   @ArraysToe.C61_gerding_ht,
   @ArraysToe.C61_vdm98_Nod,
   @ArraysToe.C61_vdm98_Dn50,
   @ArraysToe.C61_vdm98_Hs,
   @ArraysToe.C61_toe2014_Nod,
   @ArraysToe.C61_toe2014_Dn50,
   @ArraysToe.C61_toe2014_u_delta,
   @ArraysToeEtemad.C61_etemad2021_Nod,
   @ArraysToeEtemad.C61_etemad2021_Dn50,
   @ArraysWall.C61_crestwall_gamma_F,
   @ArraysWall.C61_crestwall_gamma_FH,
   @ArraysWall.C61_crestwall_gamma_FV,
   @ArraysWall.C61_crestwall_gamma_beta,
   @ArraysWall.C61_crestwall_FH_from_z2p,
   @ArraysWall.C61_crestwall_FH,
   @ArraysWall.C61_crestwall_FH_oblique,
   @ArraysWall.C61_crestwall_FV_from_z2p,
   @ArraysWall.C61_crestwall_FV,
   @ArraysWall.C61_crestwall_FV_oblique,
   @ArraysWall.C61_crestwall_FH01p,
   @ArraysWall.C61_crestwall_FV01p).
Print Assumptions C61_all.

Definition C62_all :=
  (@ArraysLimits.C62_gaps_stay,
   @ArraysLimits.C62_sizes_refuted,
   @ArraysLimits.C62_default_density_refuted,
   @ArraysLimits.C62_check_each_entry,
   @ArraysLimits.C62_one_gap_silences,
   @ArraysLimits.C62_warnings_refuted,
   @ArraysLimits.C62_vdm98_ht,
   @ArraysLimits.C62_z2p,
   @ArraysLimits.C62_hudson_outside,
   @ArraysLimits.C62_first_period,
   @ArraysLimits.C62_periods_refuted).
Print Assumptions C62_all.

Definition C63_all :=
  (@ArraysEtemadLoops.C63_jumelet_Hs,
   @ArraysEtemadLoops.C63_jumelet_Hs_from_M50,
   @ArraysEtemadLoops.C63_jumelet_Hs_missing_damage,
   @ArraysEtemadLoops.C63_etemad_Dn50,
   @ArraysEtemadLoops.C63_etemad_Dn50_from_M50_core,
   @ArraysEtemadLoops.C63_etemad_Dn50_depth_limited,
   @ArraysEtemadLoops.C63_etemad_Dn50_depth_limited_from_M50_core,
   @ArraysIteration.C63_kramer_Dn50,
   @ArraysIteration.C63_kramer_Rc,
   @ArraysIteration.C63_kramer_Rc_from_M50,
   @ArraysIteration.C63_kramer_Dn50_missing_wave_height,
   @ArraysIteration.C63_kramer_Rc_missing_wave_height,
   @ArraysIteration.C63_kramer_Dn50_empty,
   @ArraysIteration.C63_kramer_Rc_empty,
   @ArraysIteration.C63_kramer_Dn50_accuracy,
   @ArraysIteration.C63_kramer_Rc_accuracy,
   @ArraysIteration.C63_kramer_Dn50_missing_example,
   @ArraysIteration.C63_kramer_Dn50_elementwise_refuted,
   @ArraysRearLoops.C63_rear2007_Hs,
   @ArraysRearLoops.C63_rear2007_Hs_from_M50,
   @ArraysRearLoops.C63_rear2007_Hs_warning,
   @ArraysRearLoops.C63_rear2007_Hs_from_M50_warning,
   @ArraysRearLoops.C63_rear2007_Hs_undefined,
   @ArraysRearLoops.C63_rear2007_Hs_empty,
   @ArraysRearLoops.C63_pozueta_Hs,
   @ArraysRearLoops.C63_pozueta_Hs_from_M50,
   @ArraysRearLoops.C63_pozueta_Hs_warning,
   @ArraysRearLoops.C63_pozueta_Hs_from_M50_warning,
   @ArraysRearLoops.C63_pozueta_Hs_undefined,
   @ArraysRearLoops.C63_pozueta_Hs_empty,
   @ArraysToeEtemad.C63_etemad2021_Hs,
   @ArraysToeEtemad.C63_etemad2021_Hs_scalars,
   @ArraysToeEtemad.C63_etemad2021_Hs_missing_damage).
Print Assumptions C63_all.

Definition C64_all :=
  (@ArraysOvertoppingTAW.C64_discharge_diml,
   @ArraysOvertoppingTAW.C64_discharge,
   @ArraysOvertoppingTAW.C64_freeboard_diml,
   @ArraysOvertoppingTAW.C64_freeboard,
   @ArraysOvertoppingTAW.C64_discharge_wall,
   @ArraysOvertoppingTAW.C64_discharge_berm_factor,
   @ArraysOvertoppingTAW.C64_discharge_composite,
   @ArraysOvertoppingTAW.C64_discharge_berm,
   @ArraysOvertoppingTAW.C64_crest_wall,
   @ArraysOvertoppingTAW.C64_oblique,
   @ArraysRunupTAW.C64_runup_diml,
   @ArraysRunupTAW.C64_runup_diml_angle,
   @ArraysRunupTAW.C64_runup,
   @ArraysRunupTAW.C64_runup_angle,
   @ArraysRunupTAW.C64_runup_berm_factor,
   @ArraysRunupTAW.C64_runup_composite,
   @ArraysRunupTAW.C64_berm_factor,
   @ArraysRunupTAW.C64_runup_no_berm_factor).
Print Assumptions C64_all.

Definition C65_all :=
  (@ArraysWarnings.C65_crestwall2019_check,
   @ArraysWarnings.C65_cubes_check,
   @ArraysWarnings.C65_dangremond1996_check,
   @ArraysWarnings.C65_deridder2024_check,
   @ArraysWarnings.C65_deridder2026_check,
   @ArraysWarnings.C65_etemadshahidi2020_check,
   @ArraysWarnings.C65_etemadshahidi2021_check,
   @ArraysWarnings.C65_etemadshahidi2021_check_Hs_ht,
   @ArraysWarnings.C65_gerding1993_check,
   @ArraysWarnings.C65_hudsonunits_accropode2_check,
   @ArraysWarnings.C65_hudsonunits_accropode_check,
   @ArraysWarnings.C65_hudsonunits_core_loc_check,
   @ArraysWarnings.C65_jumelet2024_check,
   @ArraysWarnings.C65_kramerburcharth2004_check,
   @ArraysWarnings.C65_overtoppingeurotop2018_check,
   @ArraysWarnings.C65_overtoppingtaw2002_check,
   @ArraysWarnings.C65_rearvangent2007_check,
   @ArraysWarnings.C65_rearvangentpozueta2004_check,
   @ArraysWarnings.C65_runuptaw2002_check,
   @ArraysWarnings.C65_scaravaglione2025_check,
   @ArraysWarnings.C65_vangent2024setup_check,
   @ArraysWarnings.C65_vangentvanderwerf2014_check,
   @ArraysWarnings.C65_vandermeer1988_check,
   @ArraysWarnings.C65_vandermeer1988modified_check,
   @ArraysWarnings.C65_vandermeer1988modified_check_2021,
   @ArraysWarnings.C65_vandermeer1998_check).
Print Assumptions C65_all.

Definition C66_all :=
  (@ArraysOvertoppingEurotop.C66_eurotop2007_q_diml,
   @ArraysOvertoppingEurotop.C66_eurotop2007_q,
   @ArraysOvertoppingEurotop.C66_eurotop2007_Rc_diml,
   @ArraysOvertoppingEurotop.C66_eurotop2007_Rc,
   @ArraysOvertoppingEurotop.C66_eurotop2018_q_diml,
   @ArraysOvertoppingEurotop.C66_eurotop2018_q,
   @ArraysOvertoppingEurotop.C66_eurotop2018_Rc_diml,
   @ArraysOvertoppingEurotop.C66_eurotop2018_Rc,
   @ArraysOvertoppingEurotop.C66_eurotop2018_rubble_q_diml,
   @ArraysOvertoppingEurotop.C66_eurotop2018_rubble_q,
   @ArraysOvertoppingEurotop.C66_eurotop2018_rubble_Rc_diml,
   @ArraysOvertoppingEurotop.C66_eurotop2018_rubble_Rc,
   @ArraysOvertoppingEurotop.C66_eurotop2018_q_diml_periods,
   @ArraysOvertoppingEurotop.C66_eurotop2018_q_periods,
   @ArraysOvertoppingEurotop.C66_eurotop2018_q_diml_crest_factor,
   @ArraysOvertoppingEurotop.C66_eurotop2018_q_crest_factor,
   @ArraysOvertoppingEurotop.C66_eurotop2018_Rc_diml_crest_factor,
   @ArraysOvertoppingEurotop.C66_eurotop2018_Rc_crest_factor,
   @ArraysOvertoppingEurotop.C66_eurotop2018_roughness,
   @ArraysOvertoppingEurotop.C66_eurotop2018_composite,
   @ArraysOvertoppingEurotop.C66_eurotop2018_berm,
   @ArraysRunupEurotop.C66_runup_diml,
   @ArraysRunupEurotop.C66_runup,
   @ArraysRunupEurotop.C66_runup_roughness,
   @ArraysRunupEurotop.C66_runup_no_angle,
   @ArraysRunupEurotop.C66_runup_berm_factor,
   @ArraysRunupEurotop.C66_runup_no_berm_factor,
   @ArraysRunupEurotop.C66_runup_composite).
Print Assumptions C66_all.

Definition C67_all :=
  (@CallsArmour.C67_scaravaglione_S,
   @CallsArmour.C67_scaravaglione_Dn50,
   @CallsArmour.C67_scaravaglione_Hm0,
   @CallsArmour.C67_accropode2_M,
   @CallsArmour.C67_accropode2_Hs,
   @CallsArmour.C67_accropode2_KD,
   @CallsArmour.C67_accropode_M,
   @CallsArmour.C67_accropode_Hs,
   @CallsArmour.C67_accropode_KD,
   @CallsArmour.C67_core_loc_M,
   @CallsArmour.C67_core_loc_Hs,
   @CallsArmour.C67_core_loc_KD,
   @CallsArmour.C67_cubes_M,
   @CallsArmour.C67_cubes_Hs,
   @CallsArmour.C67_cubipod_M,
   @CallsArmour.C67_cubipod_Hs,
   @CallsArmour.C67_tetrapod_M,
   @CallsArmour.C67_tetrapod_Hs,
   @CallsArmour.C67_cubes_double_Dn,
   @CallsArmour.C67_cubes_double_Hs,
   @CallsArmour.C67_cubes_double_Nod,
   @CallsArmour.C67_cubes_single_M,
   @CallsArmour.C67_cubes_single_M_failure,
   @CallsArmour.C67_cubes_single_Hs,
   @CallsArmour.C67_cubes_single_Hs_failure,
   @CallsEtemad.C67_jumelet_Dn50,
   @CallsEtemad.C67_jumelet_S,
   @CallsEtemad.C67_kramer_Hs,
   @CallsEtemad.C67_etemad_S,
   @CallsEtemad.C67_etemad_Hs,
   @CallsExamples.C67_mixed_refuted,
   @CallsHydraulic.C67_dangremond_permeable,
   @CallsHydraulic.C67_dangremond_impermeable,
   @CallsHydraulic.C67_dimensionless_setup_impermeable,
   @CallsHydraulic.C67_setup_delta_impermeable,
   @CallsHydraulic.C67_dimensionless_setup_permeable,
   @CallsHydraulic.C67_setup_delta_permeable,
   @CallsHydraulic.C67_deridder2024_dimless_Rc_eq24,
   @CallsHydraulic.C67_deridder2024_Rc_eq24,
   @CallsHydraulic.C67_deridder2024_Rc_eq26,
   @CallsHydraulic.C67_deridder2024_dimless_q_eq24,
   @CallsHydraulic.C67_deridder2024_q_eq24,
   @CallsHydraulic.C67_deridder2024_dimless_q_eq26,
   @CallsHydraulic.C67_deridder2024_q_eq26,
   @CallsHydraulic.C67_deridder2026_dimless_q_eq28,
   @CallsHydraulic.C67_deridder2026_q_eq28,
   @CallsHydraulic.C67_deridder2026_dimless_q_eq32,
   @CallsHydraulic.C67_deridder2026_q_eq32,
   @CallsRear.C67_rear2007_S,
   @CallsRear.C67_rear2007_Dn50,
   @CallsRear.C67_pozueta_S,
   @CallsRear.C67_pozueta_Dn50,
   @CallsRock.C67_vdm88_S,
   @CallsRock.C67_vdm88_Dn50,
   @CallsRock.C67_vdm88_Hs,
   @CallsRock.C67_modified_S,
   @CallsRock.C67_modified_Dn50,
   @CallsRock.C67_modified_Hs,
   @CallsRock.C67_vdm2021_S,
   @CallsRock.C67_vdm2021_Dn50,
   @CallsRock.C67_vdm2021_Hs,
   @CallsToe.C67_gerding_Nod,
   @CallsToe.C67_gerding_Dn50,
   @CallsToe.C67_gerding_Hs,
   @CallsToe.C67_gerding_ht,
   @CallsToe.C67_vdm98_Nod,
   @CallsToe.C67_vdm98_Dn50,
   @CallsToe.C67_vdm98_Hs,
   @CallsToe.C67_toe2014_Nod,
   @CallsToe.C67_toe2014_Dn50,
   @CallsToeEtemad.C67_etemad2021_Nod,
   @CallsToeEtemad.C67_etemad2021_Dn50,
   @CallsWall.C67_crestwall_FH_from_z2p,
   @CallsWall.C67_crestwall_FH,
   @CallsWall.C67_crestwall_FH_oblique,
   @CallsWall.C67_crestwall_FV,
   @CallsWall.C67_crestwall_FV_oblique).
Print Assumptions C67_all.

Definition C68_all :=
  (@ArraysXbloc.C68_xbloc_Hs_from_V,
   @ArraysXbloc.C68_xbloc_Hs_from_M,
   @ArraysXbloc.C68_xbloc_V,
   @ArraysXbloc.C68_xbloc_M,
   @ArraysXbloc.C68_xblocplus_Hs_from_V,
   @ArraysXbloc.C68_xblocplus_Hs_from_M,
   @ArraysXbloc.C68_xblocplus_V,
   @ArraysXbloc.C68_xblocplus_M,
   @ArraysXbloc.C68_xbloc_factor_cotalpha_seabed,
   @ArraysXbloc.C68_xbloc_factor_percslope_seabed,
   @ArraysXbloc.C68_xbloc_factor_relative_freeboard,
   @ArraysXbloc.C68_xbloc_factor_rel_depth,
   @ArraysXbloc.C68_xbloc_factor_structure_slope,
   @ArraysXbloc.C68_xblocplus_factor_cotalpha_seabed,
   @ArraysXbloc.C68_xblocplus_factor_percslope_seabed,
   @ArraysXbloc.C68_xblocplus_factor_relative_freeboard).
Print Assumptions C68_all.

Definition C69_all :=
  (@ArraysCaisson.C69_q_diml_places,
   @ArraysCaisson.C69_Rc_diml_places,
   @ArraysCaisson.C69_q_places,
   @ArraysCaisson.C69_Rc_places,
   @ArraysCaisson.C69_q_diml_reports,
   @ArraysCaisson.C69_q_reports,
   @ArraysCaisson.C69_Rc_diml_reports,
   @ArraysCaisson.C69_Rc_reports,
   @ArraysCaisson.C69_stops,
   @ArraysCaisson.C69_check).
Print Assumptions C69_all.

Definition C70_all :=
  (@ArraysVanGent2025.C70_q_diml,
   @ArraysVanGent2025.C70_q,
   @ArraysVanGent2025.C70_Rc_diml,
   @ArraysVanGent2025.C70_Rc_diml_wind,
   @ArraysVanGent2025.C70_Rc_diml_wind_stops,
   @ArraysVanGent2025.C70_Rc,
   @ArraysVanGent2025.C70_Rc_wind,
   @ArraysVanGent2025.C70_Rc_wind_stops,
   @ArraysVanGent2025.C70_stops,
   @ArraysVanGent2025.C70_unfit_stops,
   @ArraysVanGent2025.C70_check,
   @ArraysVanGent2025.C70_factors).
Print Assumptions C70_all.

Definition C71_all :=
  (@ArraysGoda.C71_weight,
   @ArraysGoda.C71_safety,
   @ArraysGoda.C71_bearing,
   @ArraysGoda.C71_wavelength,
   @ArraysGoda.C71_impulsive,
   @ArraysGoda.C71_pressures,
   @ArraysGoda.C71_pressures_stop,
   @ArraysGoda.C71_first_period,
   @ArraysGoda.C71_reactions,
   @ArraysGoda.C71_reactions_stop,
   @ArraysGoda.C71_check,
   @ArraysGoda.C71_first_period_reactions).
Print Assumptions C71_all.

Definition C72_all :=
  (@ArraysTakahashi.C72_Ns,
   @ArraysTakahashi.C72_Ns_reports,
   @ArraysTakahashi.C72_Ns_first,
   @ArraysTakahashi.C72_Ns_stop,
   @ArraysTakahashi.C72_Dn50,
   @ArraysTakahashi.C72_Dn50_reports,
   @ArraysTakahashi.C72_Dn50_first,
   @ArraysTakahashi.C72_Dn50_stop,
   @ArraysTakahashi.C72_depth,
   @ArraysTakahashi.C72_depth_first,
   @ArraysTakahashi.C72_depth_stop).
Print Assumptions C72_all.

Definition C73_all :=
  (@UnitProperties.C73_accropode,
   @UnitProperties.C73_accropode2,
   @UnitProperties.C73_core_loc,
   @UnitProperties.C73_cubes,
   @UnitProperties.C73_cubipod,
   @UnitProperties.C73_tetrapod,
   @UnitProperties.C73_seabed_capped,
   @UnitProperties.C73_accropode2_bounds,
   @UnitProperties.C73_accropode_bounds_refuted,
   @UnitProperties.C73_cubes_head_breaking,
   @UnitProperties.C73_no_KD,
   @UnitProperties.C73_common_name_refuted,
   @UnitProperties.C73_layer_coefficients,
   @UnitProperties.C73_geometry,
   @UnitProperties.C73_layers,
   @UnitProperties.C73_xbloc_KD,
   @UnitProperties.C73_xbloc_size).
Print Assumptions C73_all.

Definition C74_all :=
  (@KD64.C74_accropode,
   @KD64.C74_accropode2,
   @KD64.C74_core_loc,
   @KD64.C74_near_the_exact_function,
   @KD64.C74_accropode_5_refuted,
   @KD64.C74_rounding).
Print Assumptions C74_all.

Definition C75_all :=
  (@ArraysReports.C75_taw_discharge_diml,
   @ArraysReports.C75_taw_discharge,
   @ArraysReports.C75_taw_freeboard_diml,
   @ArraysReports.C75_taw_freeboard,
   @ArraysReports.C75_taw_runup_diml,
   @ArraysReports.C75_taw_runup,
   @ArraysReports.C75_eurotop2007,
   @ArraysReports.C75_eurotop2007_numbers,
   @ArraysReports.C75_eurotop2018,
   @ArraysReports.C75_eurotop2018_numbers,
   @ArraysReports.C75_eurotop2018_rubble_q_diml,
   @ArraysReports.C75_eurotop2018_rubble_q,
   @ArraysReports.C75_eurotop2018_rubble_Rc_diml,
   @ArraysReports.C75_eurotop2018_rubble_Rc,
   @ArraysReports.C75_eurotop2018_runup_diml,
   @ArraysReports.C75_eurotop2018_runup,
   @ArraysReports.C75_vangent_q_diml,
   @ArraysReports.C75_vangent_q,
   @ArraysReports.C75_vangent_Rc_diml,
   @ArraysReports.C75_vangent_Rc_diml_wind,
   @ArraysReports.C75_vangent_Rc).
Print Assumptions C75_all.

Definition C76_all :=
  (@SimilarityForces.C76_crest_wall2019,
   @SimilarityForces.C76_goda1985_pressures,
   @SimilarityForces.C76_goda1985_reactions,
   @SimilarityForces.C76_goda1985_parts,
   @SimilarityForces.C76_takahashi1990,
   @SimilarityHydraulic.C76_vangent2001,
   @SimilarityHydraulic.C76_dangremond1996,
   @SimilarityHydraulic.C76_briganti2003,
   @SimilarityHydraulic.C76_goda1967,
   @SimilarityHydraulic.C76_vangent2024_setup,
   @SimilarityHydraulic.C76_eurotop2007,
   @SimilarityHydraulic.C76_vangent2021_caisson,
   @SimilarityHydraulic.C76_deridder2024,
   @SimilarityHydraulic.C76_deridder2026,
   @SimilarityHydraulic.C76_vangent2025,
   @SimilarityHydraulic.C76_runup_taw2002,
   @SimilarityHydraulic.C76_runup_taw2002_iteration,
   @SimilarityHydraulic.C76_runup_eurotop2018,
   @SimilarityHydraulic.C76_runup_eurotop2018_iteration,
   @SimilarityHydraulic.C76_overtopping_taw2002,
   @SimilarityHydraulic.C76_overtopping_eurotop2018,
   @SimilarityHydraulic.C76_overtopping_eurotop2018_rubble_mound,
   @SimilarityLimits.C76_kramer2004_tolerance_refuted,
   @SimilarityLimits.C76_vandermeer1998_warnings_refuted,
   @SimilarityLimits.C76_pozueta2004_start_refuted,
   @SimilarityStability.C76_core_physics,
   @SimilarityStability.C76_hudson1959,
   @SimilarityStability.C76_vandermeer1988,
   @SimilarityStability.C76_vandermeer1988_modified,
   @SimilarityStability.C76_vandermeer2021,
   @SimilarityStability.C76_scaravaglione2025,
   @SimilarityStability.C76_etemadshahidi2020_damage,
   @SimilarityStability.C76_etemadshahidi2020,
   @SimilarityStability.C76_jumelet2024_damage,
   @SimilarityStability.C76_jumelet2024,
   @SimilarityStability.C76_kramer2004,
   @SimilarityStability.C76_units_hudson,
   @SimilarityStability.C76_cubes_masses,
   @SimilarityStability.C76_cubes,
   @SimilarityStability.C76_xbloc,
   @SimilarityStability.C76_gerding1993,
   @SimilarityStability.C76_vandermeer1998,
   @SimilarityStability.C76_vangent_vanderwerf2014,
   @SimilarityStability.C76_etemadshahidi2021,
   @SimilarityStability.C76_vangent2002_velocity,
   @SimilarityStability.C76_rear_vangent2007,
   @SimilarityStability.C76_rear_vangent_pozueta2004).
Print Assumptions C76_all.

Definition C77_all :=
  (@ResponseEurotop.C77_eurotop2007_wave_height,
   @ResponseEurotop.C77_eurotop2007_period,
   @ResponseEurotop.C77_eurotop2007_roughness,
   @ResponseEurotop.C77_eurotop2018_mound_wave_height,
   @ResponseEurotop.C77_eurotop2018_mound_period,
   @ResponseEurotop.C77_eurotop2018_mound_roughness,
   @ResponseEurotop.C77_eurotop2018_wave_height,
   @ResponseEurotop.C77_eurotop2018_period,
   @ResponseEurotop.C77_eurotop2018_roughness,
   @ResponseEurotop.C77_taw2002_wave_height,
   @ResponseEurotop.C77_taw2002_period,
   @ResponseEurotop.C77_taw2002_rough_berm_refuted,
   @ResponseEurotop.C77_eurotop2007_period_refuted,
   @ResponseFreeboard.C77_deridder2024_eq24_crest,
   @ResponseFreeboard.C77_deridder2024_eq26_crest,
   @ResponseFreeboard.C77_deridder2026_eq28_crest,
   @ResponseFreeboard.C77_deridder2026_eq32_crest,
   @ResponseFreeboard.C77_vangent2025_crest,
   @ResponseFreeboard.C77_vangent2021_crest,
   @ResponseFreeboard.C77_eurotop2007_crest,
   @ResponseFreeboard.C77_eurotop2018_mound_crest,
   @ResponseFreeboard.C77_taw2002_crest,
   @ResponseVanGent.C77_deridder2024_eq24,
   @ResponseVanGent.C77_deridder2024_eq26,
   @ResponseVanGent.C77_deridder2026_eq28,
   @ResponseVanGent.C77_deridder2026_eq32,
   @ResponseVanGent.C77_vangent2025,
   @ResponseVanGent.C77_vangent2021).
Print Assumptions C77_all.

Definition C78_all :=
  (@ResponseArmour.C78_vandermeer1988,
   @ResponseArmour.C78_vandermeer1988_modified,
   @ResponseArmour.C78_vandermeer2021,
   @ResponseArmour.C78_vandermeer_period,
   @ResponseArmour.C78_vandermeer_slope,
   @ResponseArmour.C78_longer_waves_larger_stones_refuted,
   @ResponseArmour.C78_gentler_slope_smaller_stones_refuted,
   @ResponseToe.C78_gerding,
   @ResponseToe.C78_vandermeer1998,
   @ResponseToe.C78_etemad_shahidi_2021,
   @ResponseToe.C78_vangent_vanderwerf,
   @ResponseToe.C78_rear_vangent2007,
   @ResponseToe.C78_rear_pozueta,
   @ResponseToe.C78_rear_slope_disagrees,
   @ResponseToe.C78_rear_lower_crest_refuted,
   @ResponseUnits.C78_hudson,
   @ResponseUnits.C78_cubes_single_layer,
   @ResponseUnits.C78_xbloc,
   @ResponseUnits.C78_cubes_double_layer,
   @ResponseUnits.C78_scaravaglione,
   @ResponseUnits.C78_jumelet_refuted).
Print Assumptions C78_all.

Definition C79_all :=
  (@ResponseGoda.C79_goda,
   @ResponseGoda.C79_goda_safety,
   @ResponseWall.C79_wall_horizontal,
   @ResponseWall.C79_wall_vertical,
   @ResponseWall.C79_wall_armour_refuted,
   @ResponseWall.C79_wall_oblique,
   @ResponseWall.C79_wall_oblique_drop,
   @ResponseWall.C79_wall_oblique_refuted).
Print Assumptions C79_all.

Definition C80_all :=
  (@ResponseRunup.C80_taw_height,
   @ResponseRunup.C80_taw_period,
   @ResponseRunup.C80_taw_berm_refuted,
   @ResponseRunup.C80_taw_period_refuted,
   @ResponseRunup.C80_taw_angle,
   @ResponseRunup.C80_eurotop2018_height,
   @ResponseRunup.C80_eurotop2018_period,
   @ResponseRunup.C80_velocity,
   @ResponseTransmission.C80_dangremond_period,
   @ResponseTransmission.C80_dangremond_height,
   @ResponseTransmission.C80_dangremond_height_refuted,
   @ResponseTransmission.C80_briganti_narrow,
   @ResponseTransmission.C80_briganti_wide,
   @ResponseTransmission.C80_goda_height,
   @ResponseTransmission.C80_vangent2023,
   @ResponseTransmission.C80_vangent2023_submerged,
   @ResponseTransmission.C80_setup_impermeable_height,
   @ResponseTransmission.C80_setup_impermeable_period,
   @ResponseTransmission.C80_setup_permeable).
Print Assumptions C80_all.

Definition C81_all :=
  (@CaissonWidth.C81_width,
   @CaissonWidth.C81_default,
   @CaissonWidth.C81_heavy,
   @CaissonWidth.C81_light).
Print Assumptions C81_all.

Definition C82_all :=
  (@Signatures.C82_bind,
   @Signatures.C82_names_unique,
   @Signatures.C82_positional_or_named,
   @Signatures.C82_keyword_order,
   @Signatures.C82_required,
   @Signatures.C82_left_out,
   @Signatures.C82_left_out_refuted,
   @Signatures.C82_undocumented,
   @Signatures.C82_shared,
   @Signatures.C82_used,
   @Signatures.C82_used_other,
   @SignaturesDocs.C82_documented_order,
   @SignaturesDocs.C82_documented_names,
   @SignaturesDocs.C82_documented_names_refuted).
Print Assumptions C82_all.

Definition C83_all :=
  (@Missing.C83_core,
   @Missing.C83_runup_vangent2001,
   @Missing.C83_velocity,
   @Missing.C83_setup,
   @Missing.C83_dangremond,
   @Missing.C83_briganti,
   @Missing.C83_crestwall,
   @Missing.C83_hudson,
   @Missing.C83_units,
   @Missing.C83_cubes,
   @Missing.C83_xbloc,
   @Missing.C83_gerding,
   @Missing.C83_vandermeer1998,
   @Missing.C83_vangent_vanderwerf,
   @Missing.C83_etemad_shahidi_2021,
   @MissingGoda.C83_goda,
   @MissingOvertopping.C83_deridder2024,
   @MissingOvertopping.C83_deridder2026,
   @MissingOvertopping.C83_eurotop2018,
   @MissingOvertopping.C83_eurotop2007,
   @MissingOvertopping.C83_vangent2025,
   @MissingRefuted.C83_vandermeer_period,
   @MissingRefuted.C83_runup_taw,
   @MissingRefuted.C83_goda1967_missing,
   @MissingRefuted.C83_goda1967_refuted,
   @MissingRefuted.C83_xbloc_factors,
   @MissingRefuted.C83_xbloc_refuted,
   @MissingRefuted.C83_eurotop2007_missing,
   @MissingRefuted.C83_eurotop2007_refuted,
   @MissingRefuted.C83_eurotop2018_refuted,
   @MissingRock.C83_scaravaglione,
   @MissingRock.C83_etemad_shahidi_2020,
   @MissingRock.C83_jumelet,
   @MissingRock.C83_vandermeer,
   @MissingRock.C83_vandermeer_modified,
   @MissingRock.C83_kramer,
   @MissingRock.C83_rear_vangent2007,
   @MissingRock.C83_rear_pozueta,
   @MissingSearches.C83_kramer_searches,
   @MissingSearches.C83_jumelet_search,
   @MissingSearches.C83_etemad_shahidi_2020_search,
   @MissingSearches.C83_etemad_shahidi_2021_search,
   @MissingSearches.C83_rear_searches,
   @MissingSearches.C83_vangent2021,
   @MissingSearches.C83_takahashi,
   @MissingSearches.C83_vangent2023,
   @MissingTAW.C83_taw).
Print Assumptions C83_all.

Definition C84_all :=
  (@NumbersExact.C84_kramer,
   @NumbersExact.C84_vangent2001,
   @NumbersExact.C84_vangentvanderwerf,
   @NumbersExact.C84_vandermeer1988,
   @NumbersExact.C84_cubes_damage,
   @NumbersExact.C84_gerding,
   @NumbersExact.C84_etemad2021_damage,
   @NumbersExact.C84_scaravaglione_diameter,
   @NumbersExact.C84_positive_refuted,
   @NumbersHydraulic.C84_vangent2002velocity,
   @NumbersHydraulic.C84_vangent2024setup,
   @NumbersHydraulic.C84_dangremond1996,
   @NumbersHydraulic.C84_briganti2003,
   @NumbersHydraulic.C84_deridder2024,
   @NumbersHydraulic.C84_deridder2026,
   @NumbersHydraulic.C84_vangent2025,
   @NumbersHydraulic.C84_runuptaw2002,
   @NumbersHydraulic.C84_runupeurotop2018,
   @NumbersHydraulic.C84_overtoppingtaw2002,
   @NumbersHydraulic.C84_crestwall2019,
   @NumbersStability.C84_corephysics,
   @NumbersStability.C84_hudson1959,
   @NumbersStability.C84_hudsonunits,
   @NumbersStability.C84_cubes,
   @NumbersStability.C84_xbloc,
   @NumbersStability.C84_scaravaglione2025,
   @NumbersStability.C84_etemadshahidi2020,
   @NumbersStability.C84_vandermeer1988modified,
   @NumbersStability.C84_rearvangentpozueta2004,
   @NumbersStability.C84_gerding1993,
   @NumbersStability.C84_vandermeer1998).
Print Assumptions C84_all.

Definition C85_all :=
  (@StillWater.C85_corephysics,
   @StillWater.C85_hudson1959,
   @StillWater.C85_hudsonunits,
   @StillWater.C85_xbloc,
   @StillWater.C85_cubes,
   @StillWater.C85_vandermeer1998,
   @StillWater.C85_gerding1993,
   @StillWater.C85_vangent2001,
   @StillWater.C85_deridder2024,
   @StillWater.C85_deridder2026,
   @StillWater.C85_overtoppingeurotop2007,
   @StillWater.C85_vangent2025,
   @StillWater.C85_vangent2024setup,
   @StillWater.C85_scaravaglione2025,
   @StillWater.C85_etemadshahidi2020,
   @StillWater.C85_vandermeer1988,
   @StillWater.C85_vandermeer1988modified,
   @StillWater.C85_jumelet2024,
   @StillWater.C85_rearvangentpozueta2004,
   @StillWater.C85_vangentvanderwerf2014,
   @StillWater.C85_vangent2002velocity,
   @StillWaterExact.C85_dangremond,
   @StillWaterExact.C85_briganti,
   @StillWaterExact.C85_vangent2023,
   @StillWaterExact.C85_crest_wall,
   @StillWaterExact.C85_rear,
   @StillWaterExact.C85_gerding,
   @StillWaterExact.C85_cubes_and_toe_damage,
   @StillWaterExact.C85_velocity,
   @StillWaterExact.C85_no_load_refuted).
Print Assumptions C85_all.

Definition C86_all :=
  (@Searching.C86_kramer_diameter,
   @Searching.C86_kramer_freeboard,
   @Searching.C86_jumelet_wave_height,
   @Searching.C86_etemad_diameter,
   @Searching.C86_vangent2007_wave_height,
   @Searching.C86_pozueta_wave_height,
   @Searching.C86_vangent2025_freeboard,
   @Searching.C86_taw_average_slope,
   @Searching.C86_eurotop_average_slope,
   @Searching.C86_average_slope_zero_tolerance,
   @Searching.C86_dependable,
   @Searching.C86_warning_means_not_settled_refuted,
   @Searching.C86_false_alarm,
   @Searching.C86_false_alarm_pozueta).
Print Assumptions C86_all.

Definition C87_all :=
  (@Steps.C87_oblique_waves,
   @Steps.C87_berm_level,
   @Steps.C87_heel_pressure,
   @Steps.C87_wall_angle,
   @Steps.C87_roughness,
   @Steps.C87_runup_drops,
   @Steps.C87_storm_duration,
   @Steps.C87_stones_by_slope,
   @Steps.C87_steady_is_no_step).
Print Assumptions C87_all.

Definition C88_all :=
  (@FarOut.C88_taw2002,
   @FarOut.C88_eurotop2007,
   @FarOut.C88_eurotop2018_mound,
   @FarOut.C88_deridder2024,
   @FarOut.C88_vangent2025,
   @FarOut.C88_caisson2021,
   @FarOut.C88_transmission2023,
   @FarOut.C88_storm,
   @FarOut.C88_runup,
   @FarOut.C88_one_limit,
   @FarOut.C88_levels_or_grows).
Print Assumptions C88_all.
