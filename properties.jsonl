{"id": "C01", "title": "Peak overlap test is interval intersection", "statement": "within_peak_time_window(s, e, ps, pe) answers True exactly when the closed minute ranges [s,e] and [ps,pe] share at least one minute; range_within_window(lo, hi, w) answers True exactly when [lo,hi] and [w[0],w[1]] share at least one minute.", "quantifier": "all integers s<=e, ps<=pe, lo<=hi, w[0]<=w[1]", "why_tests_cant": "Infinite integer domain; boundary equalities are easy to miss in examples.", "anchors": ["ramp/core/utils.py:within_peak_time_window", "ramp/core/utils.py:range_within_window"]}
{"id": "C02", "title": "Random variation stays around its nominal value", "statement": "random_variation(var, norm) with 0<=var<=1 and norm>=0 is never negative, and lies in [norm*(1-var), norm*(1+var)]; var=0 returns norm itself.", "quantifier": "all var, norm and all draws", "why_tests_cant": "The outcome depends on random draws; a test samples a few, the claim is about every value the random module can return.", "anchors": ["ramp/core/utils.py:random_variation"]}
{"id": "C03", "title": "A duty cycle is p1 for about t1 minutes then p2 for about t2 minutes", "statement": "duty_cycle(var,t1,p1,t2,p2) returns n1 copies of p1 followed by n2 copies of p2 where each ni lies between int(ti*(1-var)) and int(ti*(1+var)); with var=0 exactly ti copies. random_choice returns either that shape or the one with both halves swapped.", "quantifier": "all var in [0,1], t1,t2>=0, p1,p2 and all draws", "why_tests_cant": "The outcome depends on random draws; a test samples a few, the claim is about every value the random module can return.", "anchors": ["ramp/core/utils.py:duty_cycle", "ramp/core/utils.py:random_choice"]}
{"id": "C04", "title": "Day type follows the calendar", "statement": "get_day_type(day) is 1 exactly on Saturdays and Sundays of the proleptic Gregorian calendar; every 7 consecutive days hold exactly two weekend days; yearly_pattern(year) lists the day types of 1 January to 31 December in order and has 365 or 366 entries as the year is common or leap; yearly_pattern() is the pattern of a 365 day year starting on a Monday.", "quantifier": "all dates and years", "why_tests_cant": "Unbounded set of dates; leap rules and weekday arithmetic fail only on rare dates.", "anchors": ["ramp/core/utils.py:get_day_type", "ramp/core/utils.py:yearly_pattern"]}
{"id": "C05", "title": "windows() validates before registering", "statement": "If Appliance.windows(...) returns normally then, for windows given inside a day, every used window i<=num_windows satisfies start<=end, the declared windows were all provided, and their total length is at least func_time; if it raises, the appliance is not appended to the user's App_list. When 2 (3) windows are declared and window_2 (window_3) is missing it always raises InvalidWindow.", "quantifier": "all appliances, windows, users", "why_tests_cant": "Combinatorial space of window arguments, and the claim covers the state left by every exception.", "anchors": ["ramp/core/core.py:Appliance.windows", "ramp/core/core.py:User._add_appliance_instance"]}
{"id": "C06", "title": "Randomised windows stay close to the declared window and inside the day", "statement": "Each bound of a randomised window differs from the declared bound by at most int(random_var_w*length), except that it is clipped to the day; if the declared window lies in [0,1440] and random_var_w<=1/2 then 0<=start<=end<=1440.", "quantifier": "all windows in the day, all variabilities, all draws", "why_tests_cant": "The outcome depends on random draws; a test samples a few, the claim is about every value the random module can return.", "anchors": ["ramp/core/core.py:Appliance.calc_rand_window", "ramp/core/core.py:Appliance.windows"]}
{"id": "C07", "title": "Randomised total time of use is bounded", "statement": "rand_total_time_of_use returns an integer that is at least func_cycle, never more than 99% of the total length of the three randomised windows, never more than max(func_cycle, func_time*(1+variability) rounded), and it raises ValueError exactly when func_cycle does not fit in 99% of the available time.", "quantifier": "all parameters, windows and draws", "why_tests_cant": "The outcome depends on random draws; a test samples a few, the claim is about every value the random module can return.", "anchors": ["ramp/core/core.py:Appliance.rand_total_time_of_use"]}
{"id": "C08", "title": "A switch-on event lies in one free range and has an admissible length", "statement": "With func_cycle>=1 and rand_time>=func_cycle and no duty cycle, rand_switch_on_window never raises: it returns None exactly when no free range is func_cycle minutes long, otherwise a non-empty run of consecutive minutes inside one free range, between func_cycle and rand_time minutes long.", "quantifier": "all lists of free ranges, func_cycle, rand_time and all draws", "why_tests_cant": "The outcome depends on random draws; a test samples a few, the claim is about every value the random module can return.", "anchors": ["ramp/core/core.py:Appliance.rand_switch_on_window"]}
{"id": "C09", "title": "Switch-on minute is drawn uniformly among all feasible starts", "statement": "When the free ranges do not overlap, every minute from which func_cycle minutes fit in a free range is selected by exactly one of the n equally likely integer draws, and no other minute is selectable (uniform over the concatenated ranges, see CHANGELOG 0.4.0).", "quantifier": "all lists of non-overlapping free ranges", "why_tests_cant": "A statistical test cannot settle exact equiprobability; needs the bijection for every list of ranges.", "anchors": ["ramp/core/core.py:Appliance.rand_switch_on_window"]}
{"id": "C10", "title": "Coincidence is between 1 and number", "statement": "calc_coincident_switch_on returns a value between 1 and number, for number>=1, on and off peak; it is number itself when fixed is not 'no'.", "quantifier": "all number>=1, on/off peak, all draws (including arbitrary Gaussian deviates)", "why_tests_cant": "The outcome depends on random draws; a test samples a few, the claim is about every value the random module can return.", "anchors": ["ramp/core/core.py:Appliance.calc_coincident_switch_on", "ramp/core/constants.py:switch_on_parameters"]}
{"id": "C11", "title": "Booking an event removes exactly its minutes from the free ranges", "statement": "If the free ranges are pairwise separated and the event lies in one of them, then after update_available_time_for_switch_on_events a minute is free exactly when it was free and does not belong to the event, and the ranges are still pairwise separated.", "quantifier": "all lists of separated ranges and all events inside one of them", "why_tests_cant": "Case analysis over split positions with off-by-one edges for every list.", "anchors": ["ramp/core/core.py:Appliance.update_available_time_for_switch_on_events"]}
{"id": "C12", "title": "Profile is a day long and silent outside the randomised windows", "statement": "After generate_load_profile returns, daily_use has 1440 entries and every minute outside the three randomised windows is exactly 0.", "quantifier": "all appliances, day types, peak ranges, draws", "why_tests_cant": "The outcome depends on random draws; a test samples a few, the claim is about every value the random module can return.", "anchors": ["ramp/core/core.py:Appliance.generate_load_profile"]}
{"id": "C13", "title": "Profile is the overlay of switch-on events on the window mask", "statement": "For a non flat appliance that is not skipped, there is a list of switch-on events, each inside a randomised window, such that each minute carries the power of the last event covering it, the 0.001 mask inside windows not covered by an event, and 0 elsewhere.", "quantifier": "all appliances, day types, peak ranges, draws", "why_tests_cant": "The outcome depends on random draws; a test samples a few, the claim is about every value the random module can return.", "anchors": ["ramp/core/core.py:Appliance.generate_load_profile", "ramp/core/core.py:Appliance.update_daily_use"]}
{"id": "C14", "title": "Total on-time never exceeds the randomised time of use", "statement": "The durations of all switch-on events of an appliance in a day sum to at most the randomised total time of use, hence the number of minutes that carry event power is at most that time, and at most 99% of the randomised window time.", "quantifier": "all appliances and draws", "why_tests_cant": "The outcome depends on random draws; a test samples a few, the claim is about every value the random module can return.", "anchors": ["ramp/core/core.py:Appliance.generate_load_profile"]}
{"id": "C15", "title": "Total on-time is exactly the randomised time of use unless the windows are full", "statement": "When the randomised windows are pairwise separated, events never overlap, and their total duration equals the randomised total time of use unless no free run of func_cycle minutes is left in any randomised window.", "quantifier": "all appliances with separated randomised windows, all draws", "why_tests_cant": "The outcome depends on random draws; a test samples a few, the claim is about every value the random module can return.", "anchors": ["ramp/core/core.py:Appliance.generate_load_profile", "ramp/core/core.py:Appliance.update_available_time_for_switch_on_events"]}
{"id": "C16", "title": "Every switch-on event lasts at least func_cycle minutes", "statement": "Each switch-on event keeps the appliance on for at least func_cycle minutes (documented meaning of func_cycle).", "quantifier": "all appliances without duty cycle, all draws", "why_tests_cant": "The outcome depends on random draws; a test samples a few, the claim is about every value the random module can return.", "anchors": ["ramp/core/core.py:Appliance.generate_load_profile", "ramp/core/core.py:Appliance.rand_switch_on_window"]}
{"id": "C17", "title": "Instantaneous power is bounded by number * power * (1+thermal_p_var)", "statement": "For an appliance without duty cycle with power>=0, number>=1 and 0<=thermal_p_var<=1, every minute of daily_use is >=0; every event minute carries a constant value between (1-thermal_p_var)*power and (1+thermal_p_var)*number*power.", "quantifier": "all appliances and draws", "why_tests_cant": "The outcome depends on random draws; a test samples a few, the claim is about every value the random module can return.", "anchors": ["ramp/core/core.py:Appliance.update_daily_use", "ramp/core/core.py:Appliance.generate_load_profile"]}
{"id": "C18", "title": "Duty cycle repeats from the start of every event", "statement": "For an appliance with duty cycles, minute k of an event carries coincidence * cycle[k mod length(cycle)] where cycle is the randomised duty cycle selected for that event; with continuous_duty_cycle=0 the event is never longer than one cycle.", "quantifier": "all appliances with fixed_cycle in 1..3, all draws", "why_tests_cant": "The outcome depends on random draws; a test samples a few, the claim is about every value the random module can return.", "anchors": ["ramp/core/core.py:Appliance.update_daily_use", "ramp/core/core.py:Appliance.rand_switch_on_window"]}
{"id": "C19", "title": "Duty cycle selection follows the cycle windows", "statement": "The duty cycle applied to an event is the lowest numbered one whose declared cycle windows intersect the event; a duty cycle whose windows were left undeclared is never applied.", "quantifier": "all appliances and events", "why_tests_cant": "Every placement of an event relative to up to six windows, including the default [0,0] ones.", "anchors": ["ramp/core/core.py:Appliance.rand_switch_on_window", "ramp/core/utils.py:range_within_window"]}
{"id": "C20", "title": "Skip rules produce an all zero day", "statement": "An appliance consumes nothing on a day when the occasional_use draw exceeds occasional_use, when its pref_index is non zero and differs from the user's daily preference, when wd_we_type is neither the day type nor 2, or when func_time is 0; in those cases the profile is 1440 zeros whatever the other parameters are. With occasional_use>=1, pref_index 0, wd_we_type 2 and func_time>0 it is never skipped.", "quantifier": "all appliances, day types, preferences, draws", "why_tests_cant": "The outcome depends on random draws; a test samples a few, the claim is about every value the random module can return.", "anchors": ["ramp/core/core.py:Appliance.generate_load_profile"]}
{"id": "C21", "title": "occasional_use=0 means never used", "statement": "An appliance with occasional_use=0 is never present (documented in the occasional_use example).", "quantifier": "all draws", "why_tests_cant": "The failing draw has probability 2^-53.", "anchors": ["ramp/core/core.py:Appliance.generate_load_profile"]}
{"id": "C22", "title": "Flat appliances are deterministic", "statement": "A flat appliance with random_var_w=0 that is not skipped consumes exactly power*number on each minute of its declared windows and 0 elsewhere, whatever the draws; with window variability the same holds on the randomised windows.", "quantifier": "all appliances with flat='yes' and all draws", "why_tests_cant": "The outcome depends on random draws; a test samples a few, the claim is about every value the random module can return.", "anchors": ["ramp/core/core.py:Appliance.generate_load_profile"]}
{"id": "C23", "title": "Generation terminates", "statement": "The placement loop of generate_load_profile stops after at most rand_time+1 switch-on events, for any parameters and draws (it either returns or raises).", "quantifier": "all appliances, all draws, all sequences of events", "why_tests_cant": "Non termination cannot be observed by a finite test.", "anchors": ["ramp/core/core.py:Appliance.generate_load_profile"]}
{"id": "C24", "title": "Generation does not crash on documented parameters", "statement": "generate_load_profile returns normally whenever the parameters are in their documented ranges (number>=0, func_cycle in [0,1440], random_var_w in [0,1], windows inside the day) and func_cycle fits in 99% of the narrowest randomised windows.", "quantifier": "all appliances in the documented ranges and all draws", "why_tests_cant": "The outcome depends on random draws; a test samples a few, the claim is about every value the random module can return.", "anchors": ["ramp/core/core.py:Appliance.generate_load_profile", "docs/source/input_parameters.rst"]}
{"id": "C25", "title": "A user's load is the sum over its members and appliances", "statement": "generate_aggregated_load_profile returns, minute by minute, the sum over num_users independent members of the sum over appliances of their daily_use; it is zero when num_users is 0 or there is no appliance; it is non-negative when all powers are.", "quantifier": "all users, appliances lists, draws", "why_tests_cant": "The outcome depends on random draws; a test samples a few, the claim is about every value the random module can return.", "anchors": ["ramp/core/core.py:User.generate_aggregated_load_profile", "ramp/core/core.py:User.generate_single_load_profile"]}
{"id": "C26", "title": "One daily preference per member per day", "statement": "For each member and day one preference in 1..user_preference is drawn (0 when user_preference is 0) and only appliances with pref_index 0 or equal to that preference consume on that day.", "quantifier": "all users and draws", "why_tests_cant": "The outcome depends on random draws; a test samples a few, the claim is about every value the random module can return.", "anchors": ["ramp/core/core.py:User.generate_single_load_profile", "ramp/core/core.py:Appliance.generate_load_profile"]}
{"id": "C27", "title": "Result has one row per day and aligns with the datetimeindex", "statement": "After a successful initialize, num_days equals the number of simulated days, datetimeindex has 1440*num_days consecutive minutes, generate_daily_load_profiles(flat=False) has num_days rows of 1440 minutes, and flat=True is their concatenation in day order, so entry i belongs to timestamp days[0]+i minutes.", "quantifier": "all use cases, date arguments, num_days, draws", "why_tests_cant": "The outcome depends on random draws; a test samples a few, the claim is about every value the random module can return. Also every combination of date arguments.", "anchors": ["ramp/core/core.py:UseCase.initialize", "ramp/core/core.py:UseCase.generate_daily_load_profiles"]}
{"id": "C28", "title": "Each row is the sum of the users' loads for that day type", "statement": "Row d of generate_daily_load_profiles is the minute-wise sum over users of a load generated with day index d, the use case's peak_time_range and the day type of days[d].", "quantifier": "all use cases and draws", "why_tests_cant": "The outcome depends on random draws; a test samples a few, the claim is about every value the random module can return.", "anchors": ["ramp/core/core.py:UseCase.generate_daily_load_profiles"]}
{"id": "C29", "title": "Parallel result does not depend on scheduling", "statement": "generate_daily_load_profiles_parallel returns, for each day, the sum of the profiles of that day's tasks: one task per day, user, appliance and member, whatever the completion order of the worker processes.", "quantifier": "all use cases, all completion orders, all per task results", "why_tests_cant": "Process scheduling is not controllable in a test; the claim is for every completion order.", "anchors": ["ramp/core/core.py:UseCase.generate_daily_load_profiles_parallel", "ramp/core/core.py:single_appliance_daily_load_profile"]}
{"id": "C30", "title": "Parallel and sequential modes agree", "statement": "Every result parallel mode can produce can also be produced by sequential mode, and conversely.", "quantifier": "all use cases, schedules and draws", "why_tests_cant": "Statement about sets of possible outcomes.", "anchors": ["ramp/core/core.py:UseCase.generate_daily_load_profiles_parallel", "ramp/core/core.py:UseCase.generate_daily_load_profiles"]}
{"id": "C31", "title": "Date range resolution", "statement": "initialize simulates: date_start..date_end inclusive when both are set and num_days is absent or equal to the length of that range; num_days days from date_start when date_start is set and num_days is given; the num_days days ending on date_end when only date_end is set. force=True re-reads the dates.", "quantifier": "all dates, num_days, histories of initialize calls", "why_tests_cant": "All argument combinations and all call histories.", "anchors": ["ramp/core/core.py:UseCase.initialize"]}
{"id": "C32", "title": "initialize guarantees enough power values", "statement": "After a successful initialize, App.power[d] exists for each simulated day d and each appliance of each user of the use case; constant powers keep their value when extended; a too short time series raises ValueError.", "quantifier": "all use cases and histories of add_user/add_appliance/initialize", "why_tests_cant": "All histories.", "anchors": ["ramp/core/core.py:Appliance.check_power_values", "ramp/core/core.py:UseCase.initialize", "ramp/core/core.py:UseCase.add_user"]}
{"id": "C33", "title": "Peak time range is a non-empty run of minutes around a peak time", "statement": "calc_peak_time_range, when it returns, returns consecutive minutes peak_time-k .. peak_time+k-1 with k>=1, so it is never empty and contains peak_time.", "quantifier": "all use cases, peak_enlarge values, Gaussian deviates", "why_tests_cant": "The outcome depends on random draws; a test samples a few, the claim is about every value the random module can return.", "anchors": ["ramp/core/core.py:UseCase.calc_peak_time_range"]}
{"id": "C34", "title": "Peak window is where the theoretical maximum profile peaks", "statement": "The peak time is drawn around the mean of the minutes at which the sum of the users' maximum profiles is maximal, with standard deviation a third of their spread, and the computation succeeds for every use case.", "quantifier": "all use cases", "why_tests_cant": "All profiles, including those with a single peak minute.", "anchors": ["ramp/core/core.py:UseCase.calc_peak_time_range", "ramp/core/core.py:User.maximum_profile", "ramp/core/core.py:Appliance.maximum_profile"]}
{"id": "C35", "title": "Maximum profile describes the declared windows", "statement": "maximum_profile of an appliance is proportional to mean(power)*number on the minutes of its declared windows and 0 elsewhere, before and after simulations.", "quantifier": "all appliances and histories of calls", "why_tests_cant": "All histories of windows()/generate calls.", "anchors": ["ramp/core/core.py:Appliance.maximum_profile", "ramp/core/core.py:Appliance.windows", "ramp/core/core.py:Appliance.generate_load_profile"]}
{"id": "C36", "title": "random_seed makes results reproducible", "statement": "Two use cases built with the same non-null random_seed and the same inputs, then initialized and run sequentially with the same calls, return identical profiles whatever the state of the global generator was before.", "quantifier": "all seeds, generators, prior generator states, use cases", "why_tests_cant": "All prior states of the global generator.", "anchors": ["ramp/core/core.py:UseCase.__init__"]}
{"id": "C37", "title": "Appliance registration keeps distinct appliances once, in order", "statement": "add_appliance of Appliance instances appends them in order, never stores two equal appliances, never drops an appliance that differs from the stored ones, and gives unnamed appliances the name appliance_k where k is their position.", "quantifier": "all sequences of additions", "why_tests_cant": "All histories.", "anchors": ["ramp/core/core.py:User._add_appliance_instance", "ramp/core/core.py:User.add_appliance"]}
{"id": "C38", "title": "Appliance equality compares every listed attribute", "statement": "app1 == app2 holds exactly when all attributes listed in APPLIANCE_ATTRIBUTES are equal; it is reflexive, symmetric and transitive.", "quantifier": "all pairs of appliances", "why_tests_cant": "All pairs.", "anchors": ["ramp/core/core.py:Appliance.__eq__", "ramp/core/constants.py:APPLIANCE_ATTRIBUTES"]}
{"id": "C39", "title": "User equality compares properties and appliances", "statement": "user1 == user2 holds exactly when name, number of users, preference and appliances agree (its docstring).", "quantifier": "all pairs of users", "why_tests_cant": "All pairs.", "anchors": ["ramp/core/core.py:User.__eq__"]}
{"id": "C40", "title": "Saving then loading gives the same model", "statement": "UseCase.save followed by UseCase.load in a fresh use case recreates the same users (name, num_users, user_preference, in order) with the same appliances and attribute values.", "quantifier": "all use cases built with the API", "why_tests_cant": "All models.", "anchors": ["ramp/core/core.py:UseCase.save", "ramp/core/core.py:UseCase.load", "ramp/core/core.py:Appliance.save", "ramp/core/utils.py:read_input_file"]}
{"id": "C41", "title": "A power time series survives save and load", "statement": "A power time series is written as a series unless it is constant; a constant power is written as its value.", "quantifier": "all power series", "why_tests_cant": "All series, the failing ones have equal first and last value.", "anchors": ["ramp/core/core.py:Appliance.save"]}
{"id": "C42", "title": "load rejects contradictory user rows", "statement": "load raises ValueError as soon as two rows of one user_name disagree on num_users or user_preference, and otherwise groups rows by user_name in order of first appearance keeping the row order inside a user.", "quantifier": "all tables", "why_tests_cant": "All tables.", "anchors": ["ramp/core/core.py:UseCase.load"]}
{"id": "C43", "title": "Blank optional cells take their default value", "statement": "An empty cell of a non mandatory column of an .xlsx input file gives the appliance the documented default value.", "quantifier": "all optional columns", "why_tests_cant": "All columns; consequences are silent NaN.", "anchors": ["ramp/core/core.py:UseCase.load", "docs/source/input_parameters.rst"]}
{"id": "C44", "title": "Command line date defaults", "statement": "Without -n: only --start-date simulates up to 31 December of that year, only --end-date from 1 January of that year; -y with a date option is rejected with ValueError; -y Y1 .. Yn simulates 1 January Y1 to 31 December Yn.", "quantifier": "all argument combinations", "why_tests_cant": "All combinations.", "anchors": ["ramp/cli.py:main"]}
{"id": "C45", "title": "Each input file gets its own number of days and output", "statement": "With m input files, -n and -o accept one value for all or m values matched by position; any other count raises ValueError before any run starts; each input is run exactly once, in order, and distinct inputs do not overwrite each other's output.", "quantifier": "all argument lists", "why_tests_cant": "All list lengths.", "anchors": ["ramp/cli.py:main"]}
{"id": "C46", "title": "Month mode covers the year exactly once", "statement": "With one year and a folder of 12 files, month k is simulated with the k-th file for each of its days, and the concatenated profile has exactly one value per minute of the year, aligned with the minute index.", "quantifier": "all years", "why_tests_cant": "All years, leap years included.", "anchors": ["ramp/cli.py:main"]}
{"id": "C47", "title": "Month files are ordered by their number", "statement": "Files whose names carry a number without leading zeros in a common folder are processed in increasing order of that number.", "quantifier": "all folders paths and file numbers", "why_tests_cant": "All paths.", "anchors": ["ramp/cli.py:main"]}
{"id": "C48", "title": "Profile formatting", "statement": "Profile_formatting returns the minute-wise average of the daily profiles, each profile divided by 1000, and the concatenation of the profiles in order.", "quantifier": "all non-empty lists of profiles", "why_tests_cant": "All lists.", "anchors": ["ramp/post_process/post_process.py:Profile_formatting"]}
{"id": "C49", "title": "Hourly resampling is consistent", "statement": "The hourly mean, max and min of a minute profile satisfy min<=mean<=max in every hour, max and min are attained in that hour, and 60 times the sum of hourly means is the sum of the minute values.", "quantifier": "all profiles of whole hours", "why_tests_cant": "All profiles.", "anchors": ["ramp/cli.py:main", "ramp/post_process/post_process.py:Plot.resample"]}
{"id": "C50", "title": "Load duration curve and peak", "statement": "load_duration_curve draws a decreasing rearrangement of the column; peak returns all and only the time steps where the column attains its maximum.", "quantifier": "all columns", "why_tests_cant": "All columns.", "anchors": ["ramp/post_process/post_process.py:Plot.load_duration_curve", "ramp/post_process/post_process.py:Plot.peak"]}
{"id": "C51", "title": "Converting an old input file twice is harmless", "statement": "convert_old_user_input_file leaves a .py file that, converted again, is not changed any more (name-keeping code appended once, import fixed).", "quantifier": "all file contents", "why_tests_cant": "All file contents.", "anchors": ["ramp/ramp_convert_old_input_files.py:convert_old_user_input_file"]}
{"id": "C52", "title": "Power ranges of an input file", "statement": "A power cell that refers to a range of another sheet gives the appliance the values of that range: the column itself if it has one column, the second column (values) if it has two (timestamps, values); other shapes raise ValueError.", "quantifier": "all ranges", "why_tests_cant": "All ranges and values.", "anchors": ["ramp/core/utils.py:read_input_file", "ramp/core/core.py:Appliance.__init__"]}
{"id": "C53", "title": "Plot.add_column", "statement": "add_column(var) raises ValueError if var has another time index than the results; otherwise each column of var replaces the column of that name or is appended, and every other column and the index stay as they were.", "quantifier": "all frames of results and all added frames with distinct column names", "why_tests_cant": "All frames.", "anchors": ["ramp/post_process/post_process.py:Plot.add_column"]}
{"id": "C54", "title": "Plot.error is the relative error in percent", "statement": "error(base, validated) has one entry per time step: 0 where both columns agree (also where both are 0), (base-validated)/validated*100 where the measured value is not 0, and infinite with the sign of the difference where only the measured value is 0.", "quantifier": "all pairs of columns of equal length", "why_tests_cant": "All columns, including the zeros.", "anchors": ["ramp/post_process/post_process.py:Plot.error"]}
{"id": "C55", "title": "Plot.from_file reads saved results back", "statement": "from_file of a results file (.csv or .xlsx) returns the saved columns, with the index of the file or the given index.", "quantifier": "all file names ending in .csv or .xlsx, all contents, all given indices", "why_tests_cant": "All files.", "anchors": ["ramp/post_process/post_process.py:Plot.from_file"]}
{"id": "C56", "title": "Plot.sum and Plot.mean per time step", "statement": "sum and mean give, for every time step, the sum and the mean over the columns, on the same index.", "quantifier": "all frames (for mean with at least one column)", "why_tests_cant": "All frames.", "anchors": ["ramp/post_process/post_process.py:Plot.sum", "ramp/post_process/post_process.py:Plot.mean"]}
{"id": "C57", "title": "Where a converted input file is saved", "statement": "Converting folder/stem.py writes folder/stem<suffix>.xlsx, or output_path/stem<suffix>.xlsx if an output path is given; different input files are written to different files.", "quantifier": "all file names, output paths and suffixes", "why_tests_cant": "All names.", "anchors": ["ramp/ramp_convert_old_input_files.py:convert_old_user_input_file"]}
{"id": "C58", "title": "The command simulates what the API simulates", "statement": "Running the ramp command on an input file draws the peak time range from the users of that file, as UseCase.load followed by initialize and generate does.", "quantifier": "all input files and all random draws", "why_tests_cant": "Holds for all files and draws or is refuted by one.", "anchors": ["ramp/ramp_run.py:run_usecase", "ramp/core/core.py:UseCase.initialize", "ramp/core/core.py:UseCase.load"]}
{"id": "C59", "title": "Peak and off-peak events", "statement": "An event that shares a minute with the peak time range switches on a number of appliances drawn from the normal law of the peak (mean n/2, deviation n/4, rounded up, clipped to 1..n); every other event switches on a number drawn from the off-peak law (each of 1..n-1 with probability 1/(n-1/2)); a fixed appliance always switches on all its units.", "quantifier": "all appliances, peak time ranges, days and random draws", "why_tests_cant": "A test sees a few draws of one seed; the statement is about every event of every run and about the law of the draw.", "anchors": ["ramp/core/core.py:Appliance.generate_load_profile", "ramp/core/core.py:Appliance.calc_coincident_switch_on", "ramp/core/utils.py:within_peak_time_window"]}
{"id": "C60", "title": "The days argument", "statement": "generate_daily_load_profiles(days=[d1..dk]) simulates exactly these k days, each with the season and day type of its date.", "quantifier": "all use cases, lists of days and random draws", "why_tests_cant": "Holds for every use case and list of days or is refuted by one.", "anchors": ["ramp/core/core.py:UseCase.generate_daily_load_profiles", "ramp/core/core.py:UseCase.initialize"]}
{"id": "C61", "title": "Labelled cases", "statement": "generate_daily_load_profiles(cases=labels) on an initialized use case returns a table indexed by the minutes of the simulated days with exactly one column 'case <label>' per distinct label, each column being a complete profile as a call without cases can return it; the users are unchanged and the cases are drawn independently: every combination of possible profiles can occur.", "quantifier": "all initialized use cases, lists of labels and random draws", "why_tests_cant": "All label lists and all random draws.", "anchors": ["ramp/core/core.py:UseCase.generate_daily_load_profiles", "ramp/core/core.py:UseCase.datetimeindex"]}
{"id": "C62", "title": "A longer simulation begins with the shorter one", "statement": "From the same seed, simulating m days from a start date gives on the first n days exactly what simulating n days gives (for appliances with a constant power or a power value for each of the m days).", "quantifier": "all users, start dates, seeds, generators and n <= m", "why_tests_cant": "All seeds, users and lengths; a test compares a few runs.", "anchors": ["ramp/core/core.py:UseCase.initialize", "ramp/core/core.py:UseCase.generate_daily_load_profiles"]}
{"id": "C63", "title": "Load envelope", "statement": "Every minute of every simulated day carries a load between zero and the ceiling of the community: the sum over the users of the number of members times the sum over the appliances of number x power of the day (duty cycle powers raised by their thermal variation, or the standby constant), counting an appliance only at minutes inside its windows widened by their variability. A minute outside every widened window of every appliance has load zero.", "quantifier": "all communities with non-negative powers, all days, minutes and draws", "why_tests_cant": "A bound over all draws, days, minutes and communities; a simulation shows one sample.", "anchors": ["ramp/core/core.py:UseCase.generate_daily_load_profiles", "ramp/core/core.py:User.generate_aggregated_load_profile", "ramp/core/core.py:Appliance.generate_load_profile"]}
{"id": "C64", "title": "Daily energy", "statement": "The energy of a simulated day never exceeds the sum over members and appliances of what the declared time of use (widened by its variability) can consume at full power plus the standby in the widened windows; and the energy of a fixed appliance without duty cycles is exactly its minutes on times number x power plus the standby constant on the other minutes of its windows, its minutes on being the drawn time of use unless no free run of the minimum length is left.", "quantifier": "all communities, days and draws", "why_tests_cant": "Energy balance over all draws; a test sees one sampled day.", "anchors": ["ramp/core/core.py:Appliance.generate_load_profile", "ramp/core/core.py:Appliance.rand_total_time_of_use", "ramp/core/core.py:Appliance.update_daily_use"]}
{"id": "C65", "title": "The last declaration is in force", "statement": "Whatever calls of windows, specific_cycle and cycle_behaviour are made on an appliance, in any order and number and without an exception, each use window, the window variability and each duty cycle are those of the last call that gave them and otherwise the ones it had before; the variability in minutes is recomputed from the windows in force; cycle windows are those of the last cycle_behaviour call that gave them (or, with one duty cycle, those of the last windows call if later).", "quantifier": "all appliances and all histories of declaration calls", "why_tests_cant": "All sequences of calls; the state is accumulated by partial updates.", "anchors": ["ramp/core/core.py:Appliance.windows", "ramp/core/core.py:Appliance.specific_cycle", "ramp/core/core.py:Appliance.cycle_behaviour"]}
{"id": "C66", "title": "num_windows bounds the windows of use", "statement": "An appliance is on only within its first num_windows use windows, each widened by its variability.", "quantifier": "all appliances, histories of declarations, days and draws", "why_tests_cant": "All declaration histories, windows and draws.", "anchors": ["ramp/core/core.py:Appliance.windows", "ramp/core/core.py:Appliance.generate_load_profile"]}
{"id": "C67", "title": "A valid simulation raises nothing", "statement": "The script UseCase(users, date_start, date_end, peak_enlarge, random_seed), initialize(num_days, peak_enlarge), generate_daily_load_profiles() ends with as many daily profiles as days were asked for, whatever is drawn, provided the declarations are sound: windows inside the day with a variability of at most one half that leave room for one event, duty cycles that last at least a minute, power values for the days, non-negative preferences, a number of days that is asked for once and is positive, and no minute of the day that alone is the theoretical peak. The only other outcome is RecursionError, possible only if an appliance has duty cycles whose windows do not cover the day; and if an event of such an appliance can miss them all, RecursionError is possible under every recursion limit.", "quantifier": "all users, appliances, dates, numbers of days, seeds, recursion limits, float roundings and draws", "why_tests_cant": "Absence of exceptions over all draws of a whole simulation; a failing draw may be arbitrarily rare.", "anchors": ["ramp/core/core.py:UseCase.__init__", "ramp/core/core.py:UseCase.initialize", "ramp/core/core.py:UseCase.generate_daily_load_profiles", "ramp/core/core.py:Appliance.generate_load_profile", "ramp/core/core.py:Appliance.rand_switch_on_window"]}
{"id": "C68", "title": "A user is the sum of its declarations", "statement": "A script that adds appliances to a user and calls windows, specific_cycle and cycle_behaviour on them in any order succeeds exactly if each appliance alone accepts its own calls; the user then holds every appliance once, in the order of their addition, each as if declared alone. If a call raises, everything declared before it stays, and only the appliance it was made on may be left half-changed.", "quantifier": "all scripts of declaration calls on one user, in any interleaving, with appliances of different given names", "why_tests_cant": "All interleavings of arbitrarily many calls; adding and declaring compare the appliance with all earlier ones.", "anchors": ["ramp/core/core.py:User.add_appliance", "ramp/core/core.py:User._add_appliance_instance", "ramp/core/core.py:Appliance.windows"]}
{"id": "C69", "title": "The shipped example inputs", "statement": "The example inputs 1, 2 and 3 are declared without an exception, every simulation of them over any number of days (as many as the temperature series has, for the shower) ends with one profile per day.", "quantifier": "all numbers of days, dates, seeds, peak_enlarge values, recursion limits, float roundings and draws", "why_tests_cant": "All draws of whole simulations of 60 appliances; the failing draws of example 3 have to repeat up to the recursion limit.", "anchors": ["ramp/example/input_file_1.py", "ramp/example/input_file_2.py", "ramp/example/input_file_3.py"]}
{"id": "C70", "title": "Order and grouping do not matter", "statement": "Listing the users of a use case or the appliances of a user in another order, or splitting a category of n + m members into two categories of n and of m members with the same appliances, changes neither the minutes of the theoretical peak nor the profiles a simulation can produce.", "quantifier": "all use cases, all reorderings and regroupings, all dates, numbers of days, draws", "why_tests_cant": "The two runs consume the random numbers in a different order: the claim compares the sets of possible results, not two runs.", "anchors": ["ramp/core/core.py:UseCase.generate_daily_load_profiles", "ramp/core/core.py:User.generate_aggregated_load_profile", "ramp/core/core.py:UseCase.calc_peak_time_range", "ramp/core/core.py:User.maximum_profile"]}
{"id": "C71", "title": "A user without a use case", "statement": "Calling generate_aggregated_load_profile (or generate_single_load_profile) on a user that belongs to no use case, without a peak time range, creates a default use case for it, draws one peak time range and keeps it for all members and all later calls. Called for n consecutive days with their day types it yields exactly the daily profiles that UseCase(users=[user], date_start) initialized for n days can produce, and vice versa. If the peak range cannot be drawn (a single minute of maximal use) the call raises and leaves the user bound to a use case without a peak range. With a peak range argument, or in an initialized use case, that range is used and the binding is unchanged.", "quantifier": "all users, day lists, draws; all numbers of days the power values cover", "why_tests_cant": "Equality of two sets of random results over all draws, and of the hidden state kept between calls; a test compares single draws.", "anchors": ["ramp/core/core.py:User.generate_single_load_profile", "ramp/core/core.py:User.generate_aggregated_load_profile", "ramp/core/core.py:UseCase.calc_peak_time_range"]}
{"id": "C72", "title": "add_user appends users, nested lists included", "statement": "add_user(x), and UseCase(users=x), with x a user or a list of users nested to any depth appends exactly these users from left to right, duplicates included, sets their usecase attribute to this use case and changes nothing else; nesting makes no difference. Anything that is neither a User nor a list, at any depth, raises InvalidType; the users met before it have then been added, those after it have not.", "quantifier": "all use cases with all users already in them, all arguments of any nesting depth and length", "why_tests_cant": "Arguments nest to any depth and the position of the offending item is arbitrary; the effect on all other users has to be shown absent.", "anchors": ["ramp/core/core.py:UseCase.add_user", "ramp/core/core.py:UseCase.__init__"]}
{"id": "C73", "title": "Shared objects behave like copies", "statement": "An Appliance object registered with several users, and a User object listed several times or in several places, behave like separate equal objects: for every script that builds a use case, initializes it and generates profiles, sequential and parallel, the possible results, the exceptions and the results of every seeded run are those of the script in which each user has copies of its own; saving writes each appliance under the user that has it.", "quantifier": "all object graphs of users and appliances, all dates, seeds, numbers of days, peak_enlarge values, draws and schedules", "why_tests_cant": "Aliasing bugs depend on which objects are shared and on the order in which shared state is overwritten and read; it is an equality of random results over all graphs.", "anchors": ["ramp/core/core.py:User.add_appliance", "ramp/core/core.py:User.generate_single_load_profile", "ramp/core/core.py:Appliance.generate_load_profile", "ramp/core/core.py:Appliance.save", "ramp/core/core.py:UseCase.generate_daily_load_profiles"]}
{"id": "C74", "title": "A power given as a number is the power of every day", "statement": "An appliance created with a number as power has that power on each day of every simulation, however users, appliances and use cases are created, shared, added, collected, initialized and simulated before and after; a power series given is never changed.", "quantifier": "all programs that create users, appliances and use cases and call add_appliance, windows and duty cycle declarations, add_user, collect_appliances_from_users, the date setters, initialize and generate_daily_load_profiles in any order", "why_tests_cant": "All call histories: the number is stored as an array whose length depends on whether the user's use case is already initialized.", "anchors": ["ramp/core/core.py:User.num_days", "ramp/core/core.py:Appliance.__init__", "ramp/core/core.py:Appliance.check_power_values", "ramp/core/core.py:UseCase.initialize"]}
{"id": "C75", "title": "Plots do not change each other's data", "statement": "The data of a Plot changes only through that Plot (adding a column, renaming columns, setting DataFrame, resampling in place); a Plot obtained from another one by copy, resample, sum, mean, plot[...], loc, iloc or head, and the DataFrame a Plot was made from, are independent of what is later done with it.", "quantifier": "all programs that create DataFrames and Plots and call the Plot methods in any order, catching exceptions", "why_tests_cant": "All call histories over shared objects: a test sees only one aliasing pattern.", "anchors": ["ramp/post_process/post_process.py:Plot.__init__", "ramp/post_process/post_process.py:Plot.resample", "ramp/post_process/post_process.py:Plot.add_column", "ramp/post_process/post_process.py:Plot.copy"]}
{"id": "C76", "title": "Selections of a Plot keep the values at their times and columns", "statement": "loc(index, columns) gives a Plot with exactly the times and columns asked for, in that order, with the value the data has for each of them; it raises KeyError exactly when a label is missing. iloc with a slice and head(n) are the Python slices of the index and of each column.", "quantifier": "all data with distinct times and column names, all slices, lists and single labels", "why_tests_cant": "All data and all selections, including empty, reversed and negative ones.", "anchors": ["ramp/post_process/post_process.py:Plot.loc", "ramp/post_process/post_process.py:Plot.iloc", "ramp/post_process/post_process.py:Plot.head", "ramp/post_process/post_process.py:Plot._validate_df"]}
{"id": "C77", "title": "A shadow plot draws the chosen line over the chosen columns", "statement": "shadow() draws the given main column, or the mean of all columns when average is true, over the columns asked for (all by default, or those listed); it raises ValueError when main_column and average contradict each other or the engine is unknown, and KeyError when a column is missing.", "quantifier": "all data with at least one column, all arguments", "why_tests_cant": "All data and all combinations of arguments; the drawn data is what matters, not that a figure appears.", "anchors": ["ramp/post_process/post_process.py:Plot.shadow", "ramp/post_process/post_process.py:Plot.mean", "ramp/post_process/post_process.py:Plot._check_engine"]}
{"id": "C78", "title": "Resampling at any resolution", "statement": "Plot.resample with a fixed frequency has one line per bin; bins count from the midnight before the first time and cover all times, each in exactly one bin; a line holds the sum, mean, maximum or minimum of exactly the values of its bin (NaN for an empty bin, 0 for sum). Sums add up to the total divided by conversion, and resampling sums twice is the same as once at the coarser frequency with the product of the conversions.", "quantifier": "all frequencies in whole minutes, all ordered indexes (with gaps, starting at any minute), all values and conversions", "why_tests_cant": "All data and all frequencies, including those that do not divide a day and bins without time steps.", "anchors": ["ramp/post_process/post_process.py:Plot.resample", "ramp/cli.py:main"]}
{"id": "C79", "title": "Dates given as text", "statement": "The dates of a use case given as text \"YYYY-MM-DD\" (to the constructor or by assignment) mean exactly those calendar dates: initialize simulates every date from the first to the last, both included, once and in order. A text with the figures of a date that does not exist (29 February of a common year, month 13) raises ValueError and changes nothing; an end before the start raises IndexError. get_day_type of a text is 1 on Saturdays and Sundays and 0 on other days. The alphabetical order of such texts is the order of the dates. A datetime object in place of a text means its own moment.", "quantifier": "all dates of the years 1 to 9999, all texts, all use cases, users and draws", "why_tests_cant": "All dates, leap years and centuries, and all pairs of dates; all texts that must be refused.", "anchors": ["ramp/core/core.py:UseCase.__init__", "ramp/core/core.py:UseCase.date_start", "ramp/core/core.py:UseCase.date_end", "ramp/core/utils.py:get_day_type", "ramp/cli.py:parser"]}
{"id": "C80", "title": "The ways to call add_appliance", "statement": "user.add_appliance takes its parameters by position (in the documented order) or by keyword: only the value of each parameter matters, not how it is given, and giving a default is the same as omitting it. After the call every attribute of the new appliance is the value given or the documented default. Unknown keywords raise TypeError and change nothing; a parameter given twice or too many arguments are refused. With Appliance instances the call registers them in order; an argument that is not an appliance raises TypeError. The legacy User.Appliance does the same as add_appliance with the same values.", "quantifier": "all lists of positional arguments, all keyword dictionaries, all users and their appliances", "why_tests_cant": "All combinations of positional and keyword arguments and of their values.", "anchors": ["ramp/core/core.py:User.add_appliance", "ramp/core/core.py:User._add_appliance_instance", "ramp/core/core.py:User.Appliance", "ramp/core/core.py:Appliance.__init__", "ramp/core/constants.py:APPLIANCE_ARGS"]}
{"id": "C81", "title": "Another unit of power", "statement": "If all powers (of appliances and of duty cycles) are multiplied by the same c > 0, the script with the same seed draws the same random numbers, fails in the same way, or gives c times the load in every minute.", "quantifier": "all populations before their first simulation, all c > 0, all dates, seeds and generators, every minute of every day", "why_tests_cant": "All populations, factors and random draws.", "anchors": ["ramp/core/core.py:UseCase.generate_daily_load_profiles", "ramp/core/core.py:UseCase.initialize", "ramp/core/core.py:User.generate_aggregated_load_profile", "ramp/core/core.py:Appliance.generate_load_profile", "ramp/core/core.py:UseCase.calc_peak_time_range", "ramp/core/core.py:Appliance.windows"]}
{"id": "C82", "title": "Names have no influence on the simulation", "statement": "Giving other names to users and appliances changes nothing in the generated profiles: with the same seed the script draws the same random numbers and gives the same rows or the same exception.", "quantifier": "all populations, all names, dates, seeds and generators, in exact and in floating point arithmetic", "why_tests_cant": "All names and populations, all random draws.", "anchors": ["ramp/core/core.py:UseCase.generate_daily_load_profiles", "ramp/core/core.py:UseCase.initialize", "ramp/core/core.py:User.generate_aggregated_load_profile", "ramp/core/core.py:Appliance.generate_load_profile"]}
{"id": "C83", "title": "Higher powers never give a lower load", "statement": "Raising powers (none negative, numbers not negative, power variability between 0 and 1) lowers no minute of the profiles of a run with the same random numbers; the same numbers are drawn.", "quantifier": "all populations before their first simulation, all raised powers, seeds and generators, in exact and in floating point arithmetic", "why_tests_cant": "All populations and random draws.", "anchors": ["ramp/core/core.py:UseCase.generate_daily_load_profiles", "ramp/core/core.py:UseCase.initialize", "ramp/core/core.py:User.generate_aggregated_load_profile", "ramp/core/core.py:Appliance.generate_load_profile", "ramp/core/core.py:Appliance.update_daily_use", "ramp/core/core.py:Appliance.calc_coincident_switch_on"]}
{"id": "C84", "title": "A converted input file is the old model", "statement": "Loading the xlsx file written by ramp_convert gives the users of User_list in their order, with the same appliances and attributes; each appliance is named after the variable of the input file that refers to it (of several, the one assigned first last), and no two appliances get the same name.", "quantifier": "all programs that leave users, appliances and variables behind, all sequences of assignments", "why_tests_cant": "All programs, assignments and attribute values.", "anchors": ["ramp/ramp_convert_old_input_files.py:convert_names", "ramp/ramp_convert_old_input_files.py:convert_old_user_input_file", "ramp/core/core.py:UseCase.save", "ramp/core/core.py:UseCase.load"]}
{"id": "C85", "title": "ramp_convert imports the file it was given", "statement": "The module that ramp_convert imports is the file whose path was given.", "quantifier": "all paths that end in .py", "why_tests_cant": "All paths.", "anchors": ["ramp/ramp_convert_old_input_files.py:convert_old_user_input_file"]}
{"id": "C86", "title": "How often an appliance is used", "statement": "On a day whose type and preference allow it, an appliance is used with probability occasional_use (to within one step of random.random(), 2^-53, and never if occasional_use < 0, always if it is >= 1); whatever one measures on the profile of the day is then distributed as for the same appliance used every day, otherwise the profile is zero. On other days it is always zero. With user_preference n, an appliance with pref_index in 1..n is used with that probability divided by n.", "quantifier": "all appliances, days, peak ranges, measurements of the profile, generators whose draws are uniform and independent, floating-point arithmetics", "why_tests_cant": "A probability: no finite sample settles it.", "anchors": ["ramp/core/core.py:Appliance.generate_load_profile", "ramp/core/core.py:User.generate_aggregated_load_profile", "ramp/core/core.py:User.generate_single_load_profile"]}
{"id": "C87", "title": "Windows, starts, durations and cycle orders are drawn without bias", "statement": "The begin and the end of a randomised window are uniform on the minutes within random_var of the declared ones, independently, and are then cut to the day. The start of an event is uniform on the minutes from which func_cycle minutes fit in the free time (no duty cycle). In exact arithmetic the duration of an event is uniform from func_cycle up to, but not including, the longest possible one, which is never drawn. The two parts of a duty cycle come in either order with probability 1/2.", "quantifier": "all windows, variabilities, free ranges, durations, generators whose draws are uniform and independent", "why_tests_cant": "Probabilities, for all configurations.", "anchors": ["ramp/core/core.py:Appliance.calc_rand_window", "ramp/core/core.py:Appliance.rand_switch_on_window", "ramp/core/utils.py:random_choice"]}
{"id": "C88", "title": "How many pieces switch on together", "statement": "Off-peak, of an appliance with number n and fixed = 'no', at most k < n pieces switch on together with probability k / (n - 1/2) (to within one step of random()); in the peak when a standard normal deviate is at most 4k/n - 2, in exact arithmetic. There is always at least one and at most n; with fixed = 'yes' always n.", "quantifier": "all appliances, k, laws of the normal deviate, generators whose draws are uniform and independent", "why_tests_cant": "Probabilities, for all numbers of pieces.", "anchors": ["ramp/core/core.py:Appliance.calc_coincident_switch_on"]}
{"id": "C89", "title": "Mean loads add up", "statement": "In exact arithmetic, the mean load of a use case at a minute of a day is the sum over the user types of num_users times the sum over their appliances of the mean power of one such appliance at this minute on a day of that type: no interaction between appliances, members, users or days.", "quantifier": "all use cases of valid declarations, days, minutes, peak ranges, generators whose draws are uniform and independent", "why_tests_cant": "A mean over all random draws, for all use cases.", "anchors": ["ramp/core/core.py:UseCase.generate_daily_load_profiles", "ramp/core/core.py:User.generate_aggregated_load_profile", "ramp/core/core.py:User.generate_single_load_profile"]}
{"id": "C90", "title": "The variability of the power does not bias the mean load", "statement": "In exact arithmetic the mean load of an appliance without duty cycle at a minute is a standby part of at most 1 mW plus power * (1 - thermal_p_var / 2^53) * the mean number of pieces in use at that minute, where neither the standby part nor the mean number (between 0 and number) depends on the power or on thermal_p_var.", "quantifier": "all appliances without duty cycle, powers, thermal_p_var, days, minutes, peak ranges, uniform independent draws", "why_tests_cant": "A mean over all draws, for all parameters.", "anchors": ["ramp/core/utils.py:random_variation", "ramp/core/core.py:Appliance.update_daily_use", "ramp/core/core.py:Appliance.generate_load_profile"]}
{"id": "C91", "title": "The mean profile of a flat appliance", "statement": "The mean load of an appliance with flat = 'yes' at a minute is power * number * the probability of use (C86) * the probability that one of its windows covers the minute: the begin of each window is uniform on the minutes within random_var of the declared one, so is its end, all independent.", "quantifier": "all valid flat appliances, days, minutes, uniform independent draws, floating-point arithmetics", "why_tests_cant": "A mean over all draws, for all parameters.", "anchors": ["ramp/core/core.py:Appliance.generate_load_profile", "ramp/core/core.py:Appliance.calc_rand_window"]}
{"id": "C92", "title": "Days are independent, and averages over more days come closer to the mean", "statement": "The daily profiles of one call of generate_daily_load_profiles on an initialized use case are independent: the mean of a product of measurements, one of each day, is the product of their means, each as if this day were simulated alone. Days of the same type with the same powers follow the same law. So the mean square error of the average of a measurement over m such days is its variance divided by m, and the probability of an error of at least eps is at most variance / (m eps^2), whatever the appliances' own state was left like by the previous day.", "quantifier": "all use cases of valid declarations, numbers of days, measurements of a daily profile, selections of days, uniform independent draws, floating-point arithmetics", "why_tests_cant": "A statement on the joint law of all days, for all use cases and numbers of days; a dependence of one day on the state left by the previous one could be arbitrarily small.", "anchors": ["ramp/core/core.py:UseCase.generate_daily_load_profiles", "ramp/core/core.py:User.generate_aggregated_load_profile", "ramp/core/core.py:Appliance.generate_load_profile"]}
{"id": "C93", "title": "Members vary independently: the load per member settles as num_users grows", "statement": "In exact arithmetic the mean square deviation of the load of a user type (at a minute, of the energy of some hours, or any weighted sum of minutes) from num_users times the mean of one member is num_users times the variance of one member. So the probability that the load per member deviates by eps or more is at most variance / (num_users eps^2). The variance of the load of a use case is the sum over its user types. The appliances of a member without user_preference vary independently too: variances add up.", "quantifier": "all user types of valid declarations, numbers of users, days, weights of the minutes, uniform independent draws", "why_tests_cant": "A statement on the joint law of all draws for every number of members; a common draw or a state shared by the members would correlate them by any amount.", "anchors": ["ramp/core/core.py:User.generate_aggregated_load_profile", "ramp/core/core.py:User.generate_single_load_profile"]}
{"id": "C94", "title": "The mean daily energy is power times number times func_time", "statement": "For an appliance without duty cycles whose pieces switch on together (number 1 or fixed=\"yes\"), with func_cycle 1 and use windows that cannot touch however they are drawn: the mean energy of a daily profile is the probability of use, times number, power (times its mean variation factor) and the mean time of use, plus the standby value during the other minutes of the windows: the random placement, splitting and merging of the switch-on events loses or doubles no minute. The mean time of use is func_time, to within one minute below and half a minute above, when the times that can be drawn fit in 99% of the windows; it is exactly func_time when time_fraction_random_variability is 0. The mean length of the windows is the declared one, unless a draw can leave the day. For every other appliance without duty cycles that value is an upper bound. The mean energy of a day of a use case of such (or flat) appliances is the sum over user types of num_users times the sum of these values, those of appliances with a pref_index divided by user_preference, those of another day type left out.", "quantifier": "all such appliances and use cases, days, peak time ranges, powers, numbers of values of random(), uniform independent draws; exact arithmetic", "why_tests_cant": "A mean over all draws of a loop whose events depend on the places the earlier ones left; sampling shows it only to within its own error, for one declaration at a time.", "anchors": ["ramp/core/core.py:Appliance.generate_load_profile", "ramp/core/core.py:Appliance.rand_total_time_of_use", "ramp/core/core.py:Appliance.rand_switch_on_window", "ramp/core/core.py:Appliance.update_available_time_for_switch_on_events"]}
{"id": "C95", "title": "Order and grouping do not change the probabilities", "statement": "Listing the users of a use case or the appliances of a user in another order, or splitting a category of n + m members into two categories of n and of m members with the same appliances, does not change the law of the result: the script (creation, initialize, simulation) completes with the same probability, every property of the simulated profiles has the same probability, and every measurement of them (of one minute, one day or all days together) has the same mean.", "quantifier": "all use cases, all reorderings and regroupings, all dates, numbers of days, measurements and properties of the profiles; exact arithmetic; declarations may raise", "why_tests_cant": "The two runs consume the random numbers in a different order, so they never agree for one seed; the claim is about all draws weighted by their probability.", "anchors": ["ramp/core/core.py:UseCase.generate_daily_load_profiles", "ramp/core/core.py:User.generate_aggregated_load_profile", "ramp/core/core.py:User.generate_single_load_profile", "ramp/core/core.py:UseCase.initialize"]}
{"id": "C96", "title": "Parallel and sequential modes follow the same law", "statement": "For use cases in which no appliance is restricted to a preference of its user and some appliance is used, generate_daily_load_profiles_parallel completes with the same probability as generate_daily_load_profiles, every property of the profiles has the same probability in both modes and every measurement of them the same mean (so the mean profile is the sum of the mean profiles of the appliances, C89), whatever the order in which the worker processes answer.", "quantifier": "all such use cases, all orders of arrival (which may depend on the answers), all measurements and properties of the profiles; exact arithmetic; declarations may raise", "why_tests_cant": "The two modes draw the random numbers in another order and in other processes; process scheduling is not controllable in a test.", "anchors": ["ramp/core/core.py:UseCase.generate_daily_load_profiles_parallel", "ramp/core/core.py:UseCase.generate_daily_load_profiles", "ramp/core/core.py:single_appliance_daily_load_profile"]}
{"id": "C97", "title": "Living k minutes later moves the load by k minutes", "statement": "Declaring an appliance with every window k minutes later (the moved windows staying within the day) makes the same appliance with every window, duty cycle window and mask moved. If all users of an initialized use case do everything k minutes later and the peak time range lies k minutes later, then whatever is drawn the simulation consumes the same draws, ends the same way, and every simulated daily profile is the original one moved by k minutes, in floats as in exact arithmetic; so every measurement of the moved profiles has the mean of the measurement of the original ones. The peak time range computed by the use case is the moved one too when k is even and peak_enlarge is 0 (otherwise not).", "quantifier": "all appliances, users, use cases, shifts k, days, draws and laws of the draws such that the windows with their random variability stay within the day before and after the move", "why_tests_cant": "Equivariance of a stochastic simulation in the clock: a claim about pairs of runs for all draws and all shifts.", "anchors": ["ramp/core/core.py:Appliance.windows", "ramp/core/core.py:Appliance.generate_load_profile", "ramp/core/core.py:UseCase.generate_daily_load_profiles", "ramp/core/core.py:UseCase.calc_peak_time_range"]}
{"id": "C98", "title": "More use never lowers the mean load", "statement": "The mean load of an appliance at every minute is proportional to its probability of use. A village with at least those user types, with the same preferences, each with at least as many members, at least those appliances, used at least as often (occasional_use), has at least that mean load at every minute of every day, and at least that mean daily energy.", "quantifier": "all pairs of such initialized use cases with valid declarations, non negative powers and the same peak time range, all days and minutes, all laws of the draws; exact arithmetic", "why_tests_cant": "A comparison of expected values; single runs of the two villages with one seed can differ in either direction, as they consume the random numbers differently.", "anchors": ["ramp/core/core.py:Appliance.generate_load_profile", "ramp/core/core.py:User.generate_aggregated_load_profile", "ramp/core/core.py:UseCase.generate_daily_load_profiles"]}
{"id": "C99", "title": "Parameters that are not in use have no influence", "statement": "Changing parameters that the other settings of an appliance leave unused changes nothing: with the same seed the script draws the same random numbers and gives the same rows or the same exception. Unused are: num_windows, once the windows are declared; with fixed_cycle 0, everything said about duty cycles (powers, durations, variability, windows, continuous_duty_cycle); with fixed_cycle 1 or 2, the powers, durations and variability of the duty cycles of higher number (their windows are read all the same); of a flat appliance also fixed, fixed_cycle, thermal_p_var and all duty cycles.", "quantifier": "all populations in which any number of appliances differ in such parameters, all values of them, dates, seeds and generators, in exact and in floating point arithmetic", "why_tests_cant": "All parameter values, populations and random draws.", "anchors": ["ramp/core/core.py:Appliance.generate_load_profile", "ramp/core/core.py:Appliance.assign_random_cycles", "ramp/core/core.py:Appliance.rand_switch_on_window", "ramp/core/core.py:Appliance.update_daily_use", "ramp/core/core.py:UseCase.generate_daily_load_profiles"]}
