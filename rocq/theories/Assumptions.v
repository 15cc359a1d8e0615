(** * Assumptions: generated by tools/mk_manifest.py; what each claimed theorem rests on *)
From Verif Require PropsBasic PropsBlank PropsCalendar PropsCall PropsCli PropsCoincidence PropsConvert PropsDateArgs PropsDates PropsDay PropsDayCases PropsDeclare PropsDiverse PropsEnergy PropsEnvelope PropsExamples PropsFlatMean PropsFloatBounds PropsHeap PropsIndep PropsInit PropsLaw PropsLoad PropsMean PropsMeanDay PropsMeanEnergy PropsModule PropsMonths PropsMore PropsNaming PropsNamingText PropsNumWindows PropsOverflow PropsParLaw PropsParallel PropsParallelDay PropsPeak PropsPeakCli PropsPlot PropsPopLaw PropsPopulation PropsPost PropsProb PropsReg PropsResample PropsRetry PropsRounding PropsRuns PropsSaved PropsScale PropsScript PropsSession PropsSessionCases PropsShared PropsShift PropsShiftRun PropsStandalone PropsTabular PropsThermal PropsTight PropsTotal PropsUnused PropsUseCase PropsUser.
Print Assumptions Verif.PropsBasic.C01_peak_overlap.
Print Assumptions Verif.PropsBasic.C01_cycle_window_overlap.
Print Assumptions Verif.PropsBasic.C02_variation_bounds.
Print Assumptions Verif.PropsBasic.C02_variation_interval.
Print Assumptions Verif.PropsBasic.C02_variation_tight.
Print Assumptions Verif.PropsBasic.C02_no_variation.
Print Assumptions Verif.PropsBasic.C02_variation_total.
Print Assumptions Verif.PropsTight.C02_variation_law.
Print Assumptions Verif.PropsBasic.C03_duty_cycle.
Print Assumptions Verif.PropsBasic.C03_duty_cycle_exact.
Print Assumptions Verif.PropsBasic.C03_duty_cycle_fixed.
Print Assumptions Verif.PropsBasic.C03_random_choice.
Print Assumptions Verif.PropsTight.C03_duty_cycle_tight.
Print Assumptions Verif.PropsTight.C03_random_choice_tight.
Print Assumptions Verif.PropsTight.C03_order_law.
Print Assumptions Verif.PropsBasic.C06_randomised_window.
Print Assumptions Verif.PropsBasic.C06_randomised_window_total.
Print Assumptions Verif.PropsTight.C06_window_tight.
Print Assumptions Verif.PropsTight.C06_window_law.
Print Assumptions Verif.PropsBasic.C07_total_time.
Print Assumptions Verif.PropsBasic.C07_raises_iff.
Print Assumptions Verif.PropsBasic.C07_upper_bound.
Print Assumptions Verif.PropsTight.C07_lower_bound.
Print Assumptions Verif.PropsBasic.C07_no_variation.
Print Assumptions Verif.PropsTight.C07_tight.
Print Assumptions Verif.PropsBasic.C08_switch_on_event.
Print Assumptions Verif.PropsTight.C08_events_exact.
Print Assumptions Verif.PropsBasic.C09_uniform_start.
Print Assumptions Verif.PropsBasic.C10_coincidence.
Print Assumptions Verif.PropsBasic.C10_off_peak_value.
Print Assumptions Verif.PropsTight.C10_peak_law.
Print Assumptions Verif.PropsTight.C10_off_peak_law.
Print Assumptions Verif.PropsTight.C10_fixed_law.
Print Assumptions Verif.PropsTight.C10_all_numbers.
Print Assumptions Verif.PropsBasic.C11_booking.
Print Assumptions Verif.PropsBasic.C11_booking_total.
Print Assumptions Verif.PropsDay.C12_trace.
Print Assumptions Verif.PropsDay.C12_silent_outside_windows.
Print Assumptions Verif.PropsDay.C13_overlay.
Print Assumptions Verif.PropsDay.C13_non_flat_day.
Print Assumptions Verif.PropsDay.C14_total_on_time.
Print Assumptions Verif.PropsDay.C15_exact_on_time.
Print Assumptions Verif.PropsDay.C15_minutes_on.
Print Assumptions Verif.PropsDayCases.C15_touching_windows_refuted.
Print Assumptions Verif.PropsDay.C16_minimum_duration_partial.
Print Assumptions Verif.PropsDayCases.C16_minimum_duration_refuted.
Print Assumptions Verif.PropsDay.C17_event_power.
Print Assumptions Verif.PropsCoincidence.C17_event_power_own.
Print Assumptions Verif.PropsDay.C17_profile_bounds.
Print Assumptions Verif.PropsDay.C18_duty_cycle_events.
Print Assumptions Verif.PropsDay.C19_cycle_selection_partial.
Print Assumptions Verif.PropsDayCases.C19_undeclared_cycle_refuted.
Print Assumptions Verif.PropsDayCases.C19_cut_event_refuted.
Print Assumptions Verif.PropsDay.C20_skip_rules.
Print Assumptions Verif.PropsDay.C20_never_skipped.
Print Assumptions Verif.PropsDay.C20_always_skipped.
Print Assumptions Verif.PropsDay.C21_occasional_zero_partial.
Print Assumptions Verif.PropsDayCases.C21_occasional_zero_refuted.
Print Assumptions Verif.PropsDay.C22_flat.
Print Assumptions Verif.PropsDay.C22_no_variability.
Print Assumptions Verif.PropsDay.C23_terminates.
Print Assumptions Verif.PropsDay.C24_no_crash_partial.
Print Assumptions Verif.PropsDay.C24_windows_well_declared.
Print Assumptions Verif.PropsDayCases.C24_zero_number_refuted.
Print Assumptions Verif.PropsDayCases.C24_zero_cycle_refuted.
Print Assumptions Verif.PropsDayCases.C24_inverted_window_refuted.
Print Assumptions Verif.PropsReg.C05_windows_valid.
Print Assumptions Verif.PropsReg.C05_raise_registers_nothing.
Print Assumptions Verif.PropsReg.C05_missing_window_2.
Print Assumptions Verif.PropsReg.C05_missing_window_3.
Print Assumptions Verif.PropsReg.C05_too_short.
Print Assumptions Verif.PropsUser.C25_aggregated.
Print Assumptions Verif.PropsUser.C25_any_members.
Print Assumptions Verif.PropsUser.C25_minute_sum.
Print Assumptions Verif.PropsUser.C25_rounding.
Print Assumptions Verif.PropsUser.C25_zero.
Print Assumptions Verif.PropsUser.C25_nonneg.
Print Assumptions Verif.PropsUser.C26_one_draw.
Print Assumptions Verif.PropsUser.C26_preference.
Print Assumptions Verif.PropsUser.C26_all_preferences.
Print Assumptions Verif.PropsReg.C35_declared_windows_partial.
Print Assumptions Verif.PropsReg.C35_user_profile.
Print Assumptions Verif.PropsReg.C35_after_simulation_refuted.
Print Assumptions Verif.PropsReg.C37_register.
Print Assumptions Verif.PropsReg.C37_order.
Print Assumptions Verif.PropsReg.C37_nothing_dropped.
Print Assumptions Verif.PropsReg.C37_no_duplicates_partial.
Print Assumptions Verif.PropsReg.C37_auto_name_refuted.
Print Assumptions Verif.PropsReg.C37_add_twice_refuted.
Print Assumptions Verif.PropsReg.C37_mixed_powers_refuted.
Print Assumptions Verif.PropsReg.C38_equality_partial.
Print Assumptions Verif.PropsReg.C38_reflexive.
Print Assumptions Verif.PropsReg.C38_symmetric.
Print Assumptions Verif.PropsReg.C38_transitive_partial.
Print Assumptions Verif.PropsReg.C38_broadcast_refuted.
Print Assumptions Verif.PropsReg.C39_agreeing_users_partial.
Print Assumptions Verif.PropsReg.C39_user_equality_refuted.
Print Assumptions Verif.PropsUseCase.C27_initialize_partial.
Print Assumptions Verif.PropsUseCase.C27_any_time_partial.
Print Assumptions Verif.PropsUseCase.C27_rows.
Print Assumptions Verif.PropsUseCase.C27_flat.
Print Assumptions Verif.PropsUseCase.C27_retry_refuted.
Print Assumptions Verif.PropsUseCase.C28_rows.
Print Assumptions Verif.PropsUseCase.C28_any_loads.
Print Assumptions Verif.PropsUseCase.C28_minute.
Print Assumptions Verif.PropsUseCase.C28_rounding.
Print Assumptions Verif.PropsRounding.C28_profiles_rounding.
Print Assumptions Verif.PropsParallel.C29_tasks.
Print Assumptions Verif.PropsParallel.C29_schedule.
Print Assumptions Verif.PropsParallel.C29_same_rows.
Print Assumptions Verif.PropsParallel.C29_parallel_result.
Print Assumptions Verif.PropsParallelDay.C29_some_result.
Print Assumptions Verif.PropsParallel.C30_parallel_to_sequential_partial.
Print Assumptions Verif.PropsParallel.C30_sequential_to_parallel_partial.
Print Assumptions Verif.PropsParallel.C30_preference_refuted.
Print Assumptions Verif.PropsParallel.C30_no_appliance_refuted.
Print Assumptions Verif.PropsRounding.C30_parallel_to_sequential_rounding_partial.
Print Assumptions Verif.PropsRounding.C30_sequential_to_parallel_rounding_partial.
Print Assumptions Verif.PropsInit.C31_first_call.
Print Assumptions Verif.PropsInit.C31_dates_partial.
Print Assumptions Verif.PropsInit.C31_empty_range.
Print Assumptions Verif.PropsInit.C31_num_days_positive.
Print Assumptions Verif.PropsInit.C31_force_refuted.
Print Assumptions Verif.PropsRetry.C31_days_known.
Print Assumptions Verif.PropsRetry.C31_days_known_dates.
Print Assumptions Verif.PropsInit.C32_power_values_partial.
Print Assumptions Verif.PropsInit.C32_constant_kept.
Print Assumptions Verif.PropsInit.C32_short_series.
Print Assumptions Verif.PropsInit.C32_added_user_refuted.
Print Assumptions Verif.PropsPeak.C33_run_of_minutes.
Print Assumptions Verif.PropsPeak.C33_after_initialize.
Print Assumptions Verif.PropsPeak.C34_peak_partial.
Print Assumptions Verif.PropsPeak.C34_peak_time_exact.
Print Assumptions Verif.PropsPeak.C34_total_profile.
Print Assumptions Verif.PropsPeak.C34_single_minute_refuted.
Print Assumptions Verif.PropsPeak.C34_returned_not_stored_refuted.
Print Assumptions Verif.PropsPeak.C36_seed_partial.
Print Assumptions Verif.PropsPeak.C36_profiles_partial.
Print Assumptions Verif.PropsPeak.C36_force_partial.
Print Assumptions Verif.PropsPeak.C36_both_dates_refuted.
Print Assumptions Verif.PropsPeak.C36_seed_zero_refuted.
Print Assumptions Verif.PropsCalendar.C04_every_date.
Print Assumptions Verif.PropsCalendar.C04_day_type.
Print Assumptions Verif.PropsCalendar.C04_seven_days.
Print Assumptions Verif.PropsCalendar.C04_yearly_pattern.
Print Assumptions Verif.PropsCalendar.C04_default_pattern.
Print Assumptions Verif.PropsSaved.C40_saved_rows.
Print Assumptions Verif.PropsSaved.C40_nothing_to_save.
Print Assumptions Verif.PropsTabular.C40_round_trip_partial.
Print Assumptions Verif.PropsTabular.C40_returned_partial.
Print Assumptions Verif.PropsTabular.C40_same_name_refuted.
Print Assumptions Verif.PropsTabular.C40_no_name_refuted.
Print Assumptions Verif.PropsTabular.C40_series_length_refuted.
Print Assumptions Verif.PropsTabular.C40_no_windows_refuted.
Print Assumptions Verif.PropsTabular.C41_constant_partial.
Print Assumptions Verif.PropsTabular.C41_series_partial.
Print Assumptions Verif.PropsTabular.C41_series_refuted.
Print Assumptions Verif.PropsLoad.C42_grouping.
Print Assumptions Verif.PropsLoad.C42_interleaving.
Print Assumptions Verif.PropsLoad.C42_contradiction_never_loads.
Print Assumptions Verif.PropsLoad.C42_contradiction_value_error.
Print Assumptions Verif.PropsBlank.C43_cycle_cells_partial.
Print Assumptions Verif.PropsBlank.C43_missing_column_partial.
Print Assumptions Verif.PropsBlank.C43_defaults_partial.
Print Assumptions Verif.PropsBlank.C43_blank_argument_refuted.
Print Assumptions Verif.PropsBlank.C52_one_column_partial.
Print Assumptions Verif.PropsBlank.C52_other_shapes.
Print Assumptions Verif.PropsBlank.C52_one_column_length.
Print Assumptions Verif.PropsBlank.C52_two_columns_refuted.
Print Assumptions Verif.PropsPost.C48_formatting.
Print Assumptions Verif.PropsPost.C49_bins.
Print Assumptions Verif.PropsPost.C49_total.
Print Assumptions Verif.PropsPost.C49_sum.
Print Assumptions Verif.PropsPost.C50_load_duration_curve.
Print Assumptions Verif.PropsPost.C50_peak.
Print Assumptions Verif.PropsConvert.C51_effect.
Print Assumptions Verif.PropsConvert.C51_twice_partial.
Print Assumptions Verif.PropsConvert.C51_repeated.
Print Assumptions Verif.PropsConvert.C51_two_imports_refuted.
Print Assumptions Verif.PropsConvert.C51_empty_file_refuted.
Print Assumptions Verif.PropsPost.C53_add_column.
Print Assumptions Verif.PropsPost.C54_error.
Print Assumptions Verif.PropsPost.C55_xlsx_partial.
Print Assumptions Verif.PropsPost.C55_csv_refuted.
Print Assumptions Verif.PropsPost.C56_sum.
Print Assumptions Verif.PropsPost.C56_mean.
Print Assumptions Verif.PropsConvert.C57_path_partial.
Print Assumptions Verif.PropsConvert.C57_path_refuted.
Print Assumptions Verif.PropsCli.C44_range.
Print Assumptions Verif.PropsCli.C44_years_and_dates.
Print Assumptions Verif.PropsCli.C44_bad_year.
Print Assumptions Verif.PropsCli.C44_reversed.
Print Assumptions Verif.PropsCli.C45_counts.
Print Assumptions Verif.PropsCli.C45_matched.
Print Assumptions Verif.PropsCli.C45_default_name.
Print Assumptions Verif.PropsCli.C45_distinct_partial.
Print Assumptions Verif.PropsCli.C45_one_output_refuted.
Print Assumptions Verif.PropsCli.C45_same_name_refuted.
Print Assumptions Verif.PropsMonths.C46_year.
Print Assumptions Verif.PropsMonths.C46_exceptions.
Print Assumptions Verif.PropsMonths.C47_order.
Print Assumptions Verif.PropsMonths.C47_no_number.
Print Assumptions Verif.PropsPeakCli.C58_peak_partial.
Print Assumptions Verif.PropsPeakCli.C58_refuted.
Print Assumptions Verif.PropsCoincidence.C59_peak_or_off_peak.
Print Assumptions Verif.PropsCoincidence.C59_fixed.
Print Assumptions Verif.PropsRuns.C60_days_argument_partial.
Print Assumptions Verif.PropsRuns.C60_ignored.
Print Assumptions Verif.PropsRuns.C60_days_argument_refuted.
Print Assumptions Verif.PropsRuns.C61_cases.
Print Assumptions Verif.PropsRuns.C61_independent_cases.
Print Assumptions Verif.PropsRuns.C62_longer_simulation.
Print Assumptions Verif.PropsEnvelope.C63_envelope.
Print Assumptions Verif.PropsEnvelope.C63_silent.
Print Assumptions Verif.PropsParallelDay.C63_envelope_parallel.
Print Assumptions Verif.PropsParallelDay.C63_silent_parallel.
Print Assumptions Verif.PropsFloatBounds.C63_envelope_rounding.
Print Assumptions Verif.PropsFloatBounds.C63_envelope_rounding_parallel.
Print Assumptions Verif.PropsEnergy.C64_energy_bound.
Print Assumptions Verif.PropsParallelDay.C64_energy_bound_parallel.
Print Assumptions Verif.PropsEnergy.C64_fixed_energy.
Print Assumptions Verif.PropsFloatBounds.C64_energy_bound_rounding.
Print Assumptions Verif.PropsFloatBounds.C64_energy_bound_rounding_parallel.
Print Assumptions Verif.PropsDeclare.C65_last_declaration.
Print Assumptions Verif.PropsDeclare.C65_variability.
Print Assumptions Verif.PropsDeclare.C65_cycle_windows.
Print Assumptions Verif.PropsNumWindows.C66_num_windows_partial.
Print Assumptions Verif.PropsNumWindows.C66_num_windows_refuted.
Print Assumptions Verif.PropsTotal.C67_generation.
Print Assumptions Verif.PropsTotal.C67_initialize.
Print Assumptions Verif.PropsTotal.C67_simulation.
Print Assumptions Verif.PropsOverflow.C67_overflow.
Print Assumptions Verif.PropsOverflow.C67_overflow_simulation.
Print Assumptions Verif.PropsParallelDay.C67_parallel.
Print Assumptions Verif.PropsScript.C68_declarations.
Print Assumptions Verif.PropsScript.C68_exception.
Print Assumptions Verif.PropsExamples.C69_declarations.
Print Assumptions Verif.PropsExamples.C69_village.
Print Assumptions Verif.PropsExamples.C69_shower.
Print Assumptions Verif.PropsExamples.C69_cooking_partial.
Print Assumptions Verif.PropsOverflow.C69_cooking_refuted.
Print Assumptions Verif.PropsPopulation.C70_generation.
Print Assumptions Verif.PropsPopulation.C70_peak.
Print Assumptions Verif.PropsPopulation.C70_simulation.
Print Assumptions Verif.PropsParallelDay.C70_parallel.
Print Assumptions Verif.PropsRounding.C70_generation_rounding.
Print Assumptions Verif.PropsStandalone.C71_known_peak.
Print Assumptions Verif.PropsStandalone.C71_first_call.
Print Assumptions Verif.PropsStandalone.C71_series.
Print Assumptions Verif.PropsStandalone.C71_as_usecase.
Print Assumptions Verif.PropsStandalone.C71_failed_peak.
Print Assumptions Verif.PropsHeap.C72_add_user.
Print Assumptions Verif.PropsHeap.C72_values.
Print Assumptions Verif.PropsHeap.C72_nesting.
Print Assumptions Verif.PropsHeap.C72_all_added.
Print Assumptions Verif.PropsShared.C72_iterables_refuted.
Print Assumptions Verif.PropsShared.C72_atomic_refuted.
Print Assumptions Verif.PropsHeap.C73_simulation_partial.
Print Assumptions Verif.PropsHeap.C73_possible_partial.
Print Assumptions Verif.PropsHeap.C73_seeded_partial.
Print Assumptions Verif.PropsHeap.C73_parallel_partial.
Print Assumptions Verif.PropsHeap.C73_saved_partial.
Print Assumptions Verif.PropsShared.C73_preference_refuted.
Print Assumptions Verif.PropsShared.C73_saved_refuted.
Print Assumptions Verif.PropsSession.C74_constant.
Print Assumptions Verif.PropsSession.C74_series.
Print Assumptions Verif.PropsSession.C74_created.
Print Assumptions Verif.PropsSession.C74_listed.
Print Assumptions Verif.PropsSession.C74_days_partial.
Print Assumptions Verif.PropsSession.C74_collected_partial.
Print Assumptions Verif.PropsSession.C74_constructor_partial.
Print Assumptions Verif.PropsSession.C74_year_partial.
Print Assumptions Verif.PropsSessionCases.C74_later_appliance_refuted.
Print Assumptions Verif.PropsSessionCases.C74_after_initialize_refuted.
Print Assumptions Verif.PropsPlot.C75_changes.
Print Assumptions Verif.PropsPlot.C75_references.
Print Assumptions Verif.PropsPlot.C75_program_data.
Print Assumptions Verif.PropsPlot.C75_private_data.
Print Assumptions Verif.PropsPlot.C75_derived.
Print Assumptions Verif.PropsPlot.C75_with_index.
Print Assumptions Verif.PropsPlot.C75_well_formed.
Print Assumptions Verif.PropsPlot.C75_shared_refuted.
Print Assumptions Verif.PropsPlot.C76_loc.
Print Assumptions Verif.PropsPlot.C76_loc_result.
Print Assumptions Verif.PropsPlot.C76_loc_twice.
Print Assumptions Verif.PropsPlot.C76_iloc.
Print Assumptions Verif.PropsPlot.C76_head.
Print Assumptions Verif.PropsPlot.C76_one_label_refuted.
Print Assumptions Verif.PropsPlot.C77_draws.
Print Assumptions Verif.PropsPlot.C77_lines.
Print Assumptions Verif.PropsPlot.C77_exceptions.
Print Assumptions Verif.PropsPlot.C77_columns_refuted.
Print Assumptions Verif.PropsResample.C78_bins.
Print Assumptions Verif.PropsResample.C78_sums_twice.
Print Assumptions Verif.PropsResample.C78_total.
Print Assumptions Verif.PropsDates.C79_round_trip.
Print Assumptions Verif.PropsDates.C79_no_such_date.
Print Assumptions Verif.PropsDates.C79_only_dates.
Print Assumptions Verif.PropsDates.C79_only_moments.
Print Assumptions Verif.PropsDates.C79_text_order.
Print Assumptions Verif.PropsDates.C79_same_text.
Print Assumptions Verif.PropsDates.C79_day_type.
Print Assumptions Verif.PropsDates.C79_range.
Print Assumptions Verif.PropsDates.C79_calendar_unique.
Print Assumptions Verif.PropsDates.C79_constructor.
Print Assumptions Verif.PropsDates.C79_backwards.
Print Assumptions Verif.PropsDates.C79_bad_text.
Print Assumptions Verif.PropsDateArgs.C79_object.
Print Assumptions Verif.PropsDateArgs.C79_no_date.
Print Assumptions Verif.PropsDateArgs.C79_object_or_text.
Print Assumptions Verif.PropsDateArgs.C79_objects.
Print Assumptions Verif.PropsDates.C79_time_of_day_refuted.
Print Assumptions Verif.PropsCall.C80_meaning.
Print Assumptions Verif.PropsCall.C80_values.
Print Assumptions Verif.PropsCall.C80_unknown.
Print Assumptions Verif.PropsCall.C80_extra.
Print Assumptions Verif.PropsCall.C80_given_twice.
Print Assumptions Verif.PropsCall.C80_given_twice_refuted.
Print Assumptions Verif.PropsCall.C80_documented_order_refuted.
Print Assumptions Verif.PropsCall.C80_instances.
Print Assumptions Verif.PropsCall.C80_legacy.
Print Assumptions Verif.PropsCall.C80_legacy_refused.
Print Assumptions Verif.PropsScale.C81_scaling_partial.
Print Assumptions Verif.PropsScale.C81_nearly_partial.
Print Assumptions Verif.PropsScale.C82_names.
Print Assumptions Verif.PropsScale.C83_monotone_partial.
Print Assumptions Verif.PropsScale.C83_script_partial.
Print Assumptions Verif.PropsScale.C83_peak_moves.
Print Assumptions Verif.PropsNamingText.C84_text.
Print Assumptions Verif.PropsNamingText.C84_text_once.
Print Assumptions Verif.PropsNaming.C84_names.
Print Assumptions Verif.PropsNaming.C84_distinct.
Print Assumptions Verif.PropsNaming.C84_total.
Print Assumptions Verif.PropsNaming.C84_converted_partial.
Print Assumptions Verif.PropsNaming.C84_merged_refuted.
Print Assumptions Verif.PropsNaming.C84_mixed_powers_refuted.
Print Assumptions Verif.PropsModule.C85_module.
Print Assumptions Verif.PropsModule.C85_outside_refuted.
Print Assumptions Verif.PropsModule.C85_dot_refuted.
Print Assumptions Verif.PropsProb.C86_use_chance.
Print Assumptions Verif.PropsProb.C86_occasional.
Print Assumptions Verif.PropsProb.C86_as_if_every_day.
Print Assumptions Verif.PropsProb.C86_other_days.
Print Assumptions Verif.PropsProb.C86_preference.
Print Assumptions Verif.PropsLaw.C87_window.
Print Assumptions Verif.PropsLaw.C87_window_chance.
Print Assumptions Verif.PropsLaw.C87_start.
Print Assumptions Verif.PropsLaw.C87_duration.
Print Assumptions Verif.PropsLaw.C87_never_longest.
Print Assumptions Verif.PropsLaw.C87_order.
Print Assumptions Verif.PropsLaw.C88_off_peak.
Print Assumptions Verif.PropsLaw.C88_peak.
Print Assumptions Verif.PropsLaw.C88_range.
Print Assumptions Verif.PropsMean.C89_user.
Print Assumptions Verif.PropsMean.C89_use_case.
Print Assumptions Verif.PropsThermal.C90_variation.
Print Assumptions Verif.PropsThermal.C90_mean_power.
Print Assumptions Verif.PropsThermal.C90_unbiased.
Print Assumptions Verif.PropsFlatMean.C91_flat_mean.
Print Assumptions Verif.PropsIndep.C92_independent.
Print Assumptions Verif.PropsIndep.C92_same_law.
Print Assumptions Verif.PropsIndep.C92_variance.
Print Assumptions Verif.PropsIndep.C92_average.
Print Assumptions Verif.PropsIndep.C92_converges.
Print Assumptions Verif.PropsDiverse.C93_user.
Print Assumptions Verif.PropsDiverse.C93_per_member.
Print Assumptions Verif.PropsDiverse.C93_use_case.
Print Assumptions Verif.PropsDiverse.C93_member.
Print Assumptions Verif.PropsMeanEnergy.C94_mean_energy.
Print Assumptions Verif.PropsMeanEnergy.C94_mean_time.
Print Assumptions Verif.PropsMeanDay.C94_mean_window.
Print Assumptions Verif.PropsMeanDay.C94_at_most.
Print Assumptions Verif.PropsMeanDay.C94_use_case.
Print Assumptions Verif.PropsPopLaw.C95_generation.
Print Assumptions Verif.PropsPopLaw.C95_simulation.
Print Assumptions Verif.PropsPopLaw.C95_completes.
Print Assumptions Verif.PropsPopLaw.C95_event.
Print Assumptions Verif.PropsParLaw.C96_possible.
Print Assumptions Verif.PropsParLaw.C96_same_law.
Print Assumptions Verif.PropsParLaw.C96_completes.
Print Assumptions Verif.PropsParLaw.C96_event.
Print Assumptions Verif.PropsParLaw.C96_mean.
Print Assumptions Verif.PropsShift.C97_appliance.
Print Assumptions Verif.PropsShift.C97_use_case.
Print Assumptions Verif.PropsShift.C97_law.
Print Assumptions Verif.PropsShift.C97_mean.
Print Assumptions Verif.PropsShift.C97_declaration.
Print Assumptions Verif.PropsShift.C97_declared_day.
Print Assumptions Verif.PropsShift.C97_peak_range_partial.
Print Assumptions Verif.PropsShift.C97_peak_minutes.
Print Assumptions Verif.PropsShift.C97_peak_partial.
Print Assumptions Verif.PropsShift.C97_peak_grows_refuted.
Print Assumptions Verif.PropsShift.C97_odd_refuted.
Print Assumptions Verif.PropsShiftRun.C97_script_partial.
Print Assumptions Verif.PropsShiftRun.C97_script_mean_partial.
Print Assumptions Verif.PropsMore.C98_proportional.
Print Assumptions Verif.PropsMore.C98_mean_load.
Print Assumptions Verif.PropsMore.C98_mean_energy.
Print Assumptions Verif.PropsUnused.C99_unused.
Print Assumptions Verif.PropsUnused.C99_day.
Print Assumptions Verif.PropsUnused.C99_calls.
Print Assumptions Verif.PropsUnused.C99_windows_refuted.
