{
 "claims": [
  {
   "property": "C01",
   "status": "proved",
   "theorems": [
    "C01_peak_overlap",
    "C01_cycle_window_overlap"
   ],
   "note": ""
  },
  {
   "property": "C02",
   "status": "proved",
   "theorems": [
    "C02_variation_bounds",
    "C02_variation_interval",
    "C02_variation_tight",
    "C02_no_variation",
    "C02_variation_total",
    "C02_variation_law"
   ],
   "note": "For every float rounding (fm): nonnegative, interval with relative slack; both ends tight and exact in exact arithmetic."
  },
  {
   "property": "C03",
   "status": "proved",
   "theorems": [
    "C03_duty_cycle",
    "C03_duty_cycle_exact",
    "C03_duty_cycle_fixed",
    "C03_random_choice",
    "C03_duty_cycle_tight",
    "C03_random_choice_tight",
    "C03_order_law"
   ],
   "note": "Durations up to 2^20 minutes; float slack 1/1000 minute before truncation, exact without rounding."
  },
  {
   "property": "C06",
   "status": "proved",
   "theorems": [
    "C06_randomised_window",
    "C06_randomised_window_total",
    "C06_window_tight",
    "C06_window_law"
   ],
   "note": "Bounds, converse (every such window can be drawn) and law of the draw."
  },
  {
   "property": "C07",
   "status": "proved",
   "theorems": [
    "C07_total_time",
    "C07_raises_iff",
    "C07_upper_bound",
    "C07_lower_bound",
    "C07_no_variation",
    "C07_tight"
   ],
   "note": "Bounds with float slack; every admissible number of minutes can be drawn (exact arithmetic)."
  },
  {
   "property": "C08",
   "status": "proved",
   "theorems": [
    "C08_switch_on_event",
    "C08_events_exact"
   ],
   "note": "Exactly which events can be drawn (exact arithmetic)."
  },
  {
   "property": "C09",
   "status": "proved",
   "theorems": [
    "C09_uniform_start"
   ],
   "note": ""
  },
  {
   "property": "C10",
   "status": "proved",
   "theorems": [
    "C10_coincidence",
    "C10_off_peak_value",
    "C10_peak_law",
    "C10_off_peak_law",
    "C10_fixed_law",
    "C10_all_numbers"
   ],
   "note": "Range, attainability and law of the draw, for every generator."
  },
  {
   "property": "C11",
   "status": "proved",
   "theorems": [
    "C11_booking",
    "C11_booking_total"
   ],
   "note": ""
  },
  {
   "property": "C12",
   "status": "proved",
   "theorems": [
    "C12_trace",
    "C12_silent_outside_windows"
   ],
   "note": ""
  },
  {
   "property": "C13",
   "status": "proved",
   "theorems": [
    "C13_overlay",
    "C13_non_flat_day"
   ],
   "note": ""
  },
  {
   "property": "C14",
   "status": "proved",
   "theorems": [
    "C14_total_on_time"
   ],
   "note": ""
  },
  {
   "property": "C15",
   "status": "proved",
   "theorems": [
    "C15_exact_on_time",
    "C15_minutes_on",
    "C15_touching_windows_refuted"
   ],
   "note": "Proved as stated (separated windows); C15_touching_windows_refuted shows that touching windows are not enough."
  },
  {
   "property": "C16",
   "status": "partial",
   "theorems": [
    "C16_minimum_duration_partial",
    "C16_minimum_duration_refuted"
   ],
   "note": "False of the code: the last event of the day is cut so that the total time of use is met. Proved for all other events."
  },
  {
   "property": "C17",
   "status": "proved",
   "theorems": [
    "C17_event_power",
    "C17_event_power_own",
    "C17_profile_bounds"
   ],
   "note": "Exact bounds without rounding, explicit slack with float rounding."
  },
  {
   "property": "C18",
   "status": "proved",
   "theorems": [
    "C18_duty_cycle_events"
   ],
   "note": ""
  },
  {
   "property": "C19",
   "status": "partial",
   "theorems": [
    "C19_cycle_selection_partial",
    "C19_undeclared_cycle_refuted",
    "C19_cut_event_refuted"
   ],
   "note": "False of the code: undeclared cycle windows are [0,0] and match events at minute 0; the event may be cut after selection. Proved: lowest numbered cycle whose windows meet the range drawn for the event."
  },
  {
   "property": "C20",
   "status": "proved",
   "theorems": [
    "C20_skip_rules",
    "C20_never_skipped",
    "C20_always_skipped"
   ],
   "note": ""
  },
  {
   "property": "C21",
   "status": "partial",
   "theorems": [
    "C21_occasional_zero_partial",
    "C21_occasional_zero_refuted"
   ],
   "note": "False of the code when random.uniform(0,1) returns exactly 0.0; proved for every other draw."
  },
  {
   "property": "C22",
   "status": "proved",
   "theorems": [
    "C22_flat",
    "C22_no_variability"
   ],
   "note": ""
  },
  {
   "property": "C23",
   "status": "proved",
   "theorems": [
    "C23_terminates"
   ],
   "note": ""
  },
  {
   "property": "C24",
   "status": "partial",
   "theorems": [
    "C24_no_crash_partial",
    "C24_windows_well_declared",
    "C24_zero_number_refuted",
    "C24_zero_cycle_refuted",
    "C24_inverted_window_refuted"
   ],
   "note": "False for number=0, func_cycle=0 and random_var_w>1/2 (all documented as valid); proved outside these."
  },
  {
   "property": "C05",
   "status": "proved",
   "theorems": [
    "C05_windows_valid",
    "C05_raise_registers_nothing",
    "C05_missing_window_2",
    "C05_missing_window_3",
    "C05_too_short"
   ],
   "note": "windows() on an object of the store, including the registration with the user. Order start<=end is proved for every window, inside the day or not."
  },
  {
   "property": "C25",
   "status": "proved",
   "theorems": [
    "C25_aggregated",
    "C25_any_members",
    "C25_minute_sum",
    "C25_rounding",
    "C25_zero",
    "C25_nonneg"
   ],
   "note": "Sum over members of sums over appliances in the code's order; exact minute sums in exact arithmetic, relative rounding error bound in floats; any combination of possible member days is possible (independence of possibilities, not a statement about probabilities)."
  },
  {
   "property": "C26",
   "status": "proved",
   "theorems": [
    "C26_one_draw",
    "C26_preference",
    "C26_all_preferences"
   ],
   "note": ""
  },
  {
   "property": "C35",
   "status": "partial",
   "theorems": [
    "C35_declared_windows_partial",
    "C35_user_profile",
    "C35_after_simulation_refuted"
   ],
   "note": "Proved right after windows(). False after a simulated day: maximum_profile reads daily_use, which the simulation overwrites (refuted on a concrete run)."
  },
  {
   "property": "C37",
   "status": "partial",
   "theorems": [
    "C37_register",
    "C37_order",
    "C37_nothing_dropped",
    "C37_no_duplicates_partial",
    "C37_auto_name_refuted",
    "C37_add_twice_refuted",
    "C37_mixed_powers_refuted"
   ],
   "note": "Registration, order, completeness and automatic names proved. 'Never two equal appliances' proved when no appliance carries a hand-given name of the form appliance_k; refuted otherwise, and refuted for add_appliance with window arguments and fixed_cycle=1, which registers before the duty cycle windows are set. With numpy >= 1.25 a constant power next to a power series makes registration raise (refuted)."
  },
  {
   "property": "C38",
   "status": "partial",
   "theorems": [
    "C38_equality_partial",
    "C38_reflexive",
    "C38_symmetric",
    "C38_transitive_partial",
    "C38_broadcast_refuted"
   ],
   "note": "Exact characterisation and transitivity for powers of equal length; numpy broadcasting of a one-value power breaks both (refuted)."
  },
  {
   "property": "C39",
   "status": "partial",
   "theorems": [
    "C39_agreeing_users_partial",
    "C39_user_equality_refuted"
   ],
   "note": "The comparison answers True for any two users (results of np.append are discarded and `is True` fails on np.True_)."
  },
  {
   "property": "C27",
   "status": "partial",
   "theorems": [
    "C27_initialize_partial",
    "C27_any_time_partial",
    "C27_rows",
    "C27_flat",
    "C27_retry_refuted"
   ],
   "note": "Proved for every use case reached by calls that raised nothing. False after an initialize that raised: it leaves its days behind, and a retry ends with num_days 3 but 5 days (refuted)."
  },
  {
   "property": "C28",
   "status": "proved",
   "theorems": [
    "C28_rows",
    "C28_any_loads",
    "C28_minute",
    "C28_rounding",
    "C28_profiles_rounding"
   ],
   "note": "Exact minute sums in exact arithmetic, relative bound in floats; every combination of user loads is possible."
  },
  {
   "property": "C29",
   "status": "proved",
   "theorems": [
    "C29_tasks",
    "C29_schedule",
    "C29_same_rows",
    "C29_parallel_result",
    "C29_some_result"
   ],
   "note": "For every order of arrival of the worker answers; in floats two orders agree up to the stated rounding bound."
  },
  {
   "property": "C30",
   "status": "partial",
   "theorems": [
    "C30_parallel_to_sequential_partial",
    "C30_sequential_to_parallel_partial",
    "C30_preference_refuted",
    "C30_no_appliance_refuted",
    "C30_parallel_to_sequential_rounding_partial",
    "C30_sequential_to_parallel_rounding_partial"
   ],
   "note": "Same possible results in exact arithmetic, and up to rounding in floats, when no appliance is tied to a preference and something is in use. False otherwise: the parallel mode never draws the preference, and fails with KeyError when there is no task."
  },
  {
   "property": "C31",
   "status": "partial",
   "theorems": [
    "C31_first_call",
    "C31_dates_partial",
    "C31_empty_range",
    "C31_num_days_positive",
    "C31_force_refuted",
    "C31_days_known",
    "C31_days_known_dates"
   ],
   "note": "The date rules of initialize, first call and force; refuted where force=True keeps an old number of days. When days are already known (set by hand, or left by an initialize that raised) a number given is dropped: both cases characterised."
  },
  {
   "property": "C32",
   "status": "partial",
   "theorems": [
    "C32_power_values_partial",
    "C32_constant_kept",
    "C32_short_series",
    "C32_added_user_refuted"
   ],
   "note": "Power values spread or checked for the collected appliances; users added later are not checked (refuted)."
  },
  {
   "property": "C33",
   "status": "proved",
   "theorems": [
    "C33_run_of_minutes",
    "C33_after_initialize"
   ],
   "note": ""
  },
  {
   "property": "C34",
   "status": "partial",
   "theorems": [
    "C34_peak_partial",
    "C34_peak_time_exact",
    "C34_total_profile",
    "C34_single_minute_refuted",
    "C34_returned_not_stored_refuted"
   ],
   "note": "Centre and width of the drawn range proved; refuted: a single maximal minute raises IndexError, and calc_peak_time_range(x) returns another range than the one it stores."
  },
  {
   "property": "C36",
   "status": "partial",
   "theorems": [
    "C36_seed_partial",
    "C36_profiles_partial",
    "C36_force_partial",
    "C36_both_dates_refuted",
    "C36_seed_zero_refuted"
   ],
   "note": "Same seed, same results, when no draw precedes the seeding; refuted when both dates are given to the constructor (initialize draws before the seed) and for seed 0."
  },
  {
   "property": "C04",
   "status": "proved",
   "theorems": [
    "C04_every_date",
    "C04_day_type",
    "C04_seven_days",
    "C04_yearly_pattern",
    "C04_default_pattern"
   ],
   "note": "Against a day-by-day Gregorian calendar anchored at Monday 1 January 2024. get_day_type of a text is not modelled."
  },
  {
   "property": "C40",
   "status": "partial",
   "theorems": [
    "C40_saved_rows",
    "C40_nothing_to_save",
    "C40_round_trip_partial",
    "C40_returned_partial",
    "C40_same_name_refuted",
    "C40_no_name_refuted",
    "C40_series_length_refuted",
    "C40_no_windows_refuted"
   ],
   "note": "Round trip proved for all use cases with distinct non-empty user names whose appliances have valid windows and storable powers (SpecTabular.v). Refuted: users of one name are merged, unnamed users, series of other lengths than 366 and appliances without windows do not load."
  },
  {
   "property": "C41",
   "status": "partial",
   "theorems": [
    "C41_constant_partial",
    "C41_series_partial",
    "C41_series_refuted"
   ],
   "note": "Constants proved for every rounding; series with different first and last value in exact arithmetic. A series that ends with its first value is saved as a constant (refuted)."
  },
  {
   "property": "C42",
   "status": "proved",
   "theorems": [
    "C42_grouping",
    "C42_interleaving",
    "C42_contradiction_never_loads",
    "C42_contradiction_value_error"
   ],
   "note": "All tables. The exception is ValueError when the users named before load; otherwise the exception of that user."
  },
  {
   "property": "C43",
   "status": "partial",
   "theorems": [
    "C43_cycle_cells_partial",
    "C43_missing_column_partial",
    "C43_defaults_partial",
    "C43_blank_argument_refuted"
   ],
   "note": "Duty cycle cells and random_var_w: the cell or its default, for every table. Constructor arguments: default only if the column is missing; a blank cell is passed on as NaN (refuted)."
  },
  {
   "property": "C52",
   "status": "partial",
   "theorems": [
    "C52_one_column_partial",
    "C52_other_shapes",
    "C52_one_column_length",
    "C52_two_columns_refuted"
   ],
   "note": "One column proved; of two columns the first (the timestamps) is used as power (refuted)."
  },
  {
   "property": "C48",
   "status": "proved",
   "theorems": [
    "C48_formatting"
   ],
   "note": "Length 1440 rows. The average exactly in exact arithmetic and within 4(eps*sum+eta) for every rounding; kW and concatenation for every rounding. (Profile_formatting returns the profiles in kW beside the average.)"
  },
  {
   "property": "C49",
   "status": "proved",
   "theorems": [
    "C49_bins",
    "C49_total",
    "C49_sum"
   ],
   "note": "For every resolution that divides a day, not only hours. max and min for every rounding; mean and totals in exact arithmetic (pandas' compensated sum is modelled)."
  },
  {
   "property": "C50",
   "status": "proved",
   "theorems": [
    "C50_load_duration_curve",
    "C50_peak"
   ],
   "note": "All frames."
  },
  {
   "property": "C51",
   "status": "partial",
   "theorems": [
    "C51_effect",
    "C51_twice_partial",
    "C51_repeated",
    "C51_two_imports_refuted",
    "C51_empty_file_refuted"
   ],
   "note": "Idempotent for files with at most one old import line; with k such lines k conversions reach a fixed point (C51_repeated). Refuted for two import lines (only the last is fixed) and for an empty file (IndexError)."
  },
  {
   "property": "C53",
   "status": "proved",
   "theorems": [
    "C53_add_column"
   ],
   "note": "All frames."
  },
  {
   "property": "C54",
   "status": "proved",
   "theorems": [
    "C54_error"
   ],
   "note": "Agreement gives 0 for every rounding; the percentages in exact arithmetic."
  },
  {
   "property": "C55",
   "status": "partial",
   "theorems": [
    "C55_xlsx_partial",
    "C55_csv_refuted"
   ],
   "note": "xlsx proved; a csv file raises TypeError since sheet_name is passed to read_csv (refuted)."
  },
  {
   "property": "C56",
   "status": "proved",
   "theorems": [
    "C56_sum",
    "C56_mean"
   ],
   "note": "Exact arithmetic."
  },
  {
   "property": "C57",
   "status": "partial",
   "theorems": [
    "C57_path_partial",
    "C57_path_refuted"
   ],
   "note": "Proved for stems without '.py' inside; refuted: every '.py' in the name is replaced, so two inputs can share the output."
  },
  {
   "property": "C44",
   "status": "proved",
   "theorems": [
    "C44_range",
    "C44_years_and_dates",
    "C44_bad_year",
    "C44_reversed"
   ],
   "note": "Years 1 to 9999; pandas' own limits of dates are not modelled."
  },
  {
   "property": "C45",
   "status": "partial",
   "theorems": [
    "C45_counts",
    "C45_matched",
    "C45_default_name",
    "C45_distinct_partial",
    "C45_one_output_refuted",
    "C45_same_name_refuted"
   ],
   "note": "Matching proved. Distinct outputs proved for one output per input or inputs with different default names; refuted with a single -o for several inputs, and for inputs of the same name in different folders."
  },
  {
   "property": "C46",
   "status": "proved",
   "theorems": [
    "C46_year",
    "C46_exceptions"
   ],
   "note": "All folders and files."
  },
  {
   "property": "C47",
   "status": "proved",
   "theorems": [
    "C47_order",
    "C47_no_number"
   ],
   "note": "ASCII digits."
  },
  {
   "property": "C58",
   "status": "partial",
   "theorems": [
    "C58_peak_partial",
    "C58_refuted"
   ],
   "note": "Proved: the command's rows are those of the file's users with a peak range drawn around noon, whatever the users. Refuted: that the range is drawn from the users of the file (initialize is called before load)."
  },
  {
   "property": "C59",
   "status": "proved",
   "theorems": [
    "C59_peak_or_off_peak",
    "C59_fixed"
   ],
   "note": "For every generator, exact arithmetic: which law decides the number of appliances of an event; combined with C01, C10."
  },
  {
   "property": "C60",
   "status": "partial",
   "theorems": [
    "C60_days_argument_partial",
    "C60_ignored",
    "C60_days_argument_refuted"
   ],
   "note": "Proved: the days are simulated on a use case without dates never initialized, if the number typed at the prompt agrees. Refuted in general: an initialized use case ignores the argument."
  },
  {
   "property": "C61",
   "status": "proved",
   "theorems": [
    "C61_cases",
    "C61_independent_cases"
   ],
   "note": "Sequential mode."
  },
  {
   "property": "C62",
   "status": "proved",
   "theorems": [
    "C62_longer_simulation"
   ],
   "note": "For every generator and its state, any arithmetic; sequential mode."
  },
  {
   "property": "C63",
   "status": "proved",
   "theorems": [
    "C63_envelope",
    "C63_silent",
    "C63_envelope_parallel",
    "C63_silent_parallel",
    "C63_envelope_rounding",
    "C63_envelope_rounding_parallel"
   ],
   "note": "The ceiling in exact arithmetic and, with an explicit rounding allowance, in floats; silence outside the windows for every rounding. Both modes."
  },
  {
   "property": "C64",
   "status": "proved",
   "theorems": [
    "C64_energy_bound",
    "C64_energy_bound_parallel",
    "C64_fixed_energy",
    "C64_energy_bound_rounding",
    "C64_energy_bound_rounding_parallel"
   ],
   "note": "Exact arithmetic and, with an explicit rounding allowance, floats; both modes; the exact balance for separated windows and no thermal variation."
  },
  {
   "property": "C65",
   "status": "proved",
   "theorems": [
    "C65_last_declaration",
    "C65_variability",
    "C65_cycle_windows"
   ],
   "note": "Every rounding. Histories that end without an exception."
  },
  {
   "property": "C66",
   "status": "partial",
   "theorems": [
    "C66_num_windows_partial",
    "C66_num_windows_refuted"
   ],
   "note": "Proved if no window beyond num_windows was ever passed. Refuted in general: windows() accepts window_2 although num_windows is 1 and the appliance is then used in it."
  },
  {
   "property": "C67",
   "status": "proved",
   "theorems": [
    "C67_generation",
    "C67_initialize",
    "C67_simulation",
    "C67_overflow",
    "C67_overflow_simulation",
    "C67_parallel"
   ],
   "note": "Every rounding. C67_parallel: the parallel mode on an initialized use case, with KeyError exactly if nobody uses anything. The converse for use cases without both dates and an appliance used on all days."
  },
  {
   "property": "C68",
   "status": "proved",
   "theorems": [
    "C68_declarations",
    "C68_exception"
   ],
   "note": "Every rounding, old and new numpy; power series that can be compared."
  },
  {
   "property": "C69",
   "status": "partial",
   "theorems": [
    "C69_declarations",
    "C69_village",
    "C69_shower",
    "C69_cooking_partial",
    "C69_cooking_refuted"
   ],
   "note": "Proved for inputs 1 and 2. For input 3 everything but RecursionError is excluded, and RecursionError is proved possible under every recursion limit (the rice may start before its duty cycle applies)."
  },
  {
   "property": "C70",
   "status": "proved",
   "theorems": [
    "C70_generation",
    "C70_peak",
    "C70_simulation",
    "C70_parallel",
    "C70_generation_rounding"
   ],
   "note": "Sequential mode in exact arithmetic, and up to rounding in floats for the same peak range; the parallel mode in any arithmetic; the set of possible profiles, not their probabilities."
  },
  {
   "property": "C71",
   "status": "proved",
   "theorems": [
    "C71_known_peak",
    "C71_first_call",
    "C71_series",
    "C71_as_usecase",
    "C71_failed_peak"
   ],
   "note": "The comparison with the use case in exact arithmetic (the use case adds the load to zero), the rest in any arithmetic. An exception raised by an appliance ends the modelled script."
  },
  {
   "property": "C72",
   "status": "proved",
   "theorems": [
    "C72_add_user",
    "C72_values",
    "C72_nesting",
    "C72_all_added",
    "C72_iterables_refuted",
    "C72_atomic_refuted"
   ],
   "note": "On the heap model. Beside it: an iterable that is not a list is refused although the constructor documents Iterable, and a call that raises is not undone."
  },
  {
   "property": "C73",
   "status": "partial",
   "theorems": [
    "C73_simulation_partial",
    "C73_possible_partial",
    "C73_seeded_partial",
    "C73_parallel_partial",
    "C73_saved_partial",
    "C73_preference_refuted",
    "C73_saved_refuted"
   ],
   "note": "Proved where every shared appliance is free of pref_index (simulation) or every appliance belongs to the user it was created for (saving); refuted otherwise: a shared appliance follows the daily preference of the user it was created for and is saved under its name."
  },
  {
   "property": "C74",
   "status": "partial",
   "theorems": [
    "C74_constant",
    "C74_series",
    "C74_created",
    "C74_listed",
    "C74_days_partial",
    "C74_collected_partial",
    "C74_constructor_partial",
    "C74_year_partial",
    "C74_later_appliance_refuted",
    "C74_after_initialize_refuted"
   ],
   "note": "Proved for every program: values never differ from the number and never become fewer; there are enough for the appliances collected by the use case, and 367 for appliances created before their use case is initialized. Refuted: an appliance added after initialize has too few values for a later initialize with more days (IndexError in the simulation); adding a second appliance after initialize raises ValueError with numpy >= 1.25."
  },
  {
   "property": "C75",
   "status": "partial",
   "theorems": [
    "C75_changes",
    "C75_references",
    "C75_program_data",
    "C75_private_data",
    "C75_derived",
    "C75_with_index",
    "C75_well_formed",
    "C75_shared_refuted"
   ],
   "note": "Proved: which statements change which data, in every program; a Plot made by a method (or with an index) has data of its own. Refuted: Plot(df) without index keeps the caller's DataFrame, so a column added to the Plot appears in it and two Plots of one DataFrame rename each other's columns."
  },
  {
   "property": "C76",
   "status": "partial",
   "theorems": [
    "C76_loc",
    "C76_loc_result",
    "C76_loc_twice",
    "C76_iloc",
    "C76_head",
    "C76_one_label_refuted"
   ],
   "note": "Proved for slices and lists of labels; refuted: a single label for loc, allowed by the documentation, raises ValueError."
  },
  {
   "property": "C77",
   "status": "partial",
   "theorems": [
    "C77_draws",
    "C77_lines",
    "C77_exceptions",
    "C77_columns_refuted"
   ],
   "note": "Proved: when shadow() draws, what it draws and which exception it raises otherwise; refuted: the documented list of columns raises AttributeError, and a column called All cannot be drawn alone."
  },
  {
   "property": "C78",
   "status": "proved",
   "theorems": [
    "C78_bins",
    "C78_sums_twice",
    "C78_total"
   ],
   "note": "For every frequency of whole minutes and every index in order, gaps included; exact arithmetic (pandas' compensated sum is modelled). Calendar frequencies (months) are not modelled."
  },
  {
   "property": "C79",
   "status": "partial",
   "theorems": [
    "C79_round_trip",
    "C79_no_such_date",
    "C79_only_dates",
    "C79_only_moments",
    "C79_text_order",
    "C79_same_text",
    "C79_day_type",
    "C79_range",
    "C79_calendar_unique",
    "C79_constructor",
    "C79_backwards",
    "C79_bad_text",
    "C79_object",
    "C79_no_date",
    "C79_object_or_text",
    "C79_objects",
    "C79_time_of_day_refuted"
   ],
   "note": "Proved for the texts YYYY-MM-DD and YYYY-MM-DD?HH:MM (other ISO 8601 shapes are version dependent and not modelled). Refuted with a time of day in the start date: the last date is not simulated, and a range of one date is refused."
  },
  {
   "property": "C80",
   "status": "partial",
   "theorems": [
    "C80_meaning",
    "C80_values",
    "C80_unknown",
    "C80_extra",
    "C80_given_twice",
    "C80_given_twice_refuted",
    "C80_documented_order_refuted",
    "C80_instances",
    "C80_legacy",
    "C80_legacy_refused"
   ],
   "note": "Proved for every call with the parameters of APPLIANCE_ARGS in the code's order. Refuted: a parameter given twice is not refused (the positional value wins), arguments beyond the fifteenth are ignored, and the documented order of add_appliance omits continuous_duty_cycle, so that a ninth positional argument is not the documented occasional_use."
  },
  {
   "property": "C81",
   "status": "partial",
   "theorems": [
    "C81_scaling_partial",
    "C81_nearly_partial"
   ],
   "note": "Exact arithmetic. Not exactly true of the code: the standby mask of 1 mW that windows() and every day write into the use windows is not scaled, so the load is c times the load except for k masks of 1 mW, 0 <= k <= number of appliances of all members (C81_scaling_partial, C81_nearly_partial; the difference is shown in C81_case). Floating point scaling is not treated."
  },
  {
   "property": "C82",
   "status": "proved",
   "theorems": [
    "C82_names"
   ],
   "note": "For every arithmetic and every generator."
  },
  {
   "property": "C83",
   "status": "partial",
   "theorems": [
    "C83_monotone_partial",
    "C83_script_partial",
    "C83_peak_moves"
   ],
   "note": "Proved, for every arithmetic, of generate_daily_load_profiles of an initialized use case with the same peak time range. Proved, in exact arithmetic, of the whole script if the minutes of the theoretical peak stay the same (C83_script_partial). Refuted for the whole script otherwise (C83_peak_moves): raised powers can move the theoretical peak, and then an appliance outside of the peak has fewer pieces on."
  },
  {
   "property": "C84",
   "status": "partial",
   "theorems": [
    "C84_text",
    "C84_text_once",
    "C84_names",
    "C84_distinct",
    "C84_total",
    "C84_converted_partial",
    "C84_merged_refuted",
    "C84_mixed_powers_refuted"
   ],
   "note": "Proved: the names, for every sequence of assignments; the round trip if every appliance of User_list is bound to a variable, belongs to its user and can be stored (C40), users have different names, and numpy can compare the powers. Refuted: an appliance without variable can be merged with one whose variable is called like it; since numpy 1.25 a user with a constant and a daily series gives a file that cannot be loaded. del is not modelled."
  },
  {
   "property": "C85",
   "status": "partial",
   "theorems": [
    "C85_module",
    "C85_outside_refuted",
    "C85_dot_refuted"
   ],
   "note": "Proved: the name stands for the file exactly if the path is relative and its only dot is that of .py. Refuted otherwise: absolute paths and paths that start with a dot raise TypeError (after the input file was rewritten), another dot makes it look for another file. Which directory of sys.path has the file is not modelled."
  },
  {
   "property": "C86",
   "status": "proved",
   "theorems": [
    "C86_use_chance",
    "C86_occasional",
    "C86_as_if_every_day",
    "C86_other_days",
    "C86_preference"
   ],
   "note": "For every arithmetic in which the values of random() are floats (binary64 with 2^53 steps, exact arithmetic). Trusted: the law of the draws of Python's random module (Prob.v); the normal deviate has any finite law."
  },
  {
   "property": "C87",
   "status": "proved",
   "theorems": [
    "C87_window",
    "C87_window_chance",
    "C87_start",
    "C87_duration",
    "C87_never_longest",
    "C87_order"
   ],
   "note": "Window, start and order for every arithmetic; duration in exact arithmetic, as stated."
  },
  {
   "property": "C88",
   "status": "proved",
   "theorems": [
    "C88_off_peak",
    "C88_peak",
    "C88_range"
   ],
   "note": "The probabilities in exact arithmetic, the range for every arithmetic."
  },
  {
   "property": "C89",
   "status": "proved",
   "theorems": [
    "C89_user",
    "C89_use_case"
   ],
   "note": "For declarations that never raise (safe_user; C67). The mean is over the draws of generate_daily_load_profiles of an initialized use case: the peak time range is given."
  },
  {
   "property": "C90",
   "status": "proved",
   "theorems": [
    "C90_variation",
    "C90_mean_power",
    "C90_unbiased"
   ],
   "note": "C90_mean_power names the standby part and the mean number in terms of the events of the day; C90_unbiased is the statement. A day that raises counts as 0 on both sides."
  },
  {
   "property": "C91",
   "status": "proved",
   "theorems": [
    "C91_flat_mean"
   ],
   "note": "For every arithmetic in which the values of random() are floats (power * number rounded)."
  },
  {
   "property": "C92",
   "status": "proved",
   "theorems": [
    "C92_independent",
    "C92_same_law",
    "C92_variance",
    "C92_average",
    "C92_converges"
   ],
   "note": "For every arithmetic; C92_variance and the averages for declarations that never raise (safe_user; C67). The peak time range is that of the initialized use case, the same for all days. Trusted: the draws of the random module are independent (Prob.v)."
  },
  {
   "property": "C93",
   "status": "proved",
   "theorems": [
    "C93_user",
    "C93_per_member",
    "C93_use_case",
    "C93_member"
   ],
   "note": "For declarations that never raise (safe_user; C67)."
  },
  {
   "property": "C94",
   "status": "proved",
   "theorems": [
    "C94_mean_energy",
    "C94_mean_time",
    "C94_mean_window",
    "C94_at_most",
    "C94_use_case"
   ],
   "note": "In exact arithmetic, for declarations that never raise (sound_app)."
  },
  {
   "property": "C95",
   "status": "proved",
   "theorems": [
    "C95_generation",
    "C95_simulation",
    "C95_completes",
    "C95_event"
   ],
   "note": "In exact arithmetic (in floats the sums of a regrouped population may differ in the last digits). Runs that raise count as 0 in the means. Trusted: Prob.v (the draws are independent)."
  },
  {
   "property": "C96",
   "status": "proved",
   "theorems": [
    "C96_possible",
    "C96_same_law",
    "C96_completes",
    "C96_event",
    "C96_mean"
   ],
   "note": "In exact arithmetic (in floats the order of the sums shows in the last digits, C29, C30). With preferences the modes differ: C30_preference_refuted. Trusted: the tasks draw independent random numbers (CPython reseeds the random module in forked children); Prob.v."
  },
  {
   "property": "C97",
   "status": "partial",
   "theorems": [
    "C97_appliance",
    "C97_use_case",
    "C97_law",
    "C97_mean",
    "C97_declaration",
    "C97_declared_day",
    "C97_peak_range_partial",
    "C97_peak_minutes",
    "C97_peak_partial",
    "C97_peak_grows_refuted",
    "C97_odd_refuted",
    "C97_script_partial",
    "C97_script_mean_partial"
   ],
   "note": "The simulation given the peak time range is proved in full (any arithmetic). The whole script (constructor, initialize, profiles) is proved for even k, without enlargement of the peak time range, in exact arithmetic (C97_script_partial); it is false of the code otherwise, because the random enlargement of the peak time range grows with the clock time and its mean is rounded to even (refuted)."
  },
  {
   "property": "C98",
   "status": "proved",
   "theorems": [
    "C98_proportional",
    "C98_mean_load",
    "C98_mean_energy"
   ],
   "note": "The proportionality in any arithmetic in which the values of random() are floats; the rest in exact arithmetic. A declared peak time range is compared with the same one: in a script another population may move the peak window. Trusted: Prob.v."
  },
  {
   "property": "C99",
   "status": "proved",
   "theorems": [
    "C99_unused",
    "C99_day",
    "C99_calls",
    "C99_windows_refuted"
   ],
   "note": "For every arithmetic and every generator. The parameters named in the statement are all that is proved to have no influence; C99_windows_refuted shows why the windows of cycles that do not run are not among them."
  }
 ]
}