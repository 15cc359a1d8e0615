# Formal model of RAMP in Rocq (Coq 8.16.1)

Source modelled: /repo (RAMP-project/RAMP, 0.5.2-dev).  Model and proofs: /verif/rocq/theories.

## 1. Modelling decisions

* **Shallow, executable Gallina.** Each Python function becomes one Gallina function that
  mirrors it branch by branch; Python exceptions are values (`Err e`).
* **Random draws.** A computation that uses `random` is a tree of draws
  (`prog A`: `Ret`, `Raise`, `Random`, `RandBelow n`, `Normal`, `Seed`).  Two semantics:
  * `may p r`: outcome `r` is possible for *some* values the `random` module is documented to
    return (`random()` in [0,1), `_randbelow(n)` in [0,n), any Gaussian deviate).
    Property theorems quantify over all `r` with `may p r`, i.e. over all draws.
  * `run G p s`: the deterministic run with a concrete generator `G` (any state type, any
    transition functions obeying those ranges) from state `s`; `run_may` shows every run is a
    `may` outcome.  Used for seeding (C36).
* **Floats.** Python/numpy floats are rationals `Q`; each float operation is followed by a
  rounding function taken from a record `fm` (monotone, idempotent, exact on integers up to
  2^53).  Theorems quantified over `F : fm` hold for exact arithmetic and for IEEE binary64 (`F64.v` builds that instance),
  as long as no overflow, infinity or NaN appears.  Theorems that need exact
  arithmetic say so by an explicit hypothesis `exact F`.
* **Time.** Minutes are `Z`; dates are minutes since 0001-01-01 00:00; the calendar is the
  proleptic Gregorian one, as `datetime.date.toordinal`.
* **Loops.** `while` becomes recursion on fuel; running out of fuel is the value
  `Err OutOfFuel`, proved unreachable (C23).  The recursion of
  `rand_switch_on_window` uses fuel as Python's recursion limit and yields `RecursionError`.
* **Objects.** Appliances, users and use cases are records.  Methods that mutate return the
  new record; where the state left by an exception matters (windows, initialize)
  the new state is returned next to the error.

## 2. What is modelled, what is not

### Code to model

| code in /repo | Coq module |
|---|---|
| the law of the draws of `random` (trusted): uniform and independent; the normal deviate has any finite law | `Prob.v` |
| `random`, numpy and pandas primitives the code calls (uniform, randint, choice, gauss, arange, sum, mean, resample ...) | `Base.v`, the head of `PostProcess.v`, `Calendar.v` |
| `ramp/core/utils.py` random_variation, duty_cycle, random_choice, range_within_window, within_peak_time_window | `Utils.v` |
| `ramp/core/utils.py` get_day_type (of a date), yearly_pattern | `UseCase.v`, `Calendar.v` |
| `ramp/core/utils.py` read_input_file | `Tabular.v` |
| generate_daily_load_profiles with cases | `Cases.v` |
| class Appliance: any sequence of windows, specific_cycle(i), cycle_behaviour calls | `Declare.v` |
| scripts that add appliances to a user and declare them | `Script.v` |
| core.py:994-1002, 1048-1055: a user without a use case, `user.usecase` | `Standalone.v` |
| core.py:158-187, 203-318, 389-519, 521-547, 753-758, 818-824, 1139, 1247-1248, 1988: the same with object references (add_user of nested lists, appliances and users shared, `appliance.user`) | `Heap.v` |
| positional and keyword arguments of add_appliance, User.Appliance (core.py:694-797, 926-970) | `Call.v` |
| programs that create users, appliances and use cases and call them in any order (core.py:818-824 User.num_days) | `Session.v` |
| Plot objects and the DataFrames they refer to; loc, iloc, head, shadow, _check_engine (post_process.py:118-651) | `Plots.v` |
| `ramp/example/input_file_1.py`, `_2.py`, `_3.py` | `Examples.v` (generated from the source by `tools/mk_examples.py`) |
| `ramp/core/constants.py` attribute lists, column names | `Attributes.v` |
| `ramp/core/core.py` class Appliance: constructor, check_power_values, windows, specific_cycle(_1,_2,_3), cycle_behaviour, assign_random_cycles, update_available_time..., update_daily_use, calc_rand_window, maximum_profile, rand_total_time_of_use, rand_switch_on_window, calc_coincident_switch_on, generate_load_profile | `Appliance.v` |
| class Appliance: `__eq__`, save | `User.v`, `Tabular.v` |
| class User: constructor, add_appliance, registration, `__eq__`, maximum_profile, generate_single_load_profile, generate_aggregated_load_profile, save | `User.v`, `Tabular.v` |
| class UseCase: constructor, date setters (of dates), peak_enlarge setter, add_user, collect_appliances_from_users, num_days, datetimeindex, initialize, is_initialized, calc_peak_time_range, generate_daily_load_profiles, generate_daily_load_profiles_parallel, single_appliance_daily_load_profile, save, load | `UseCase.v`, `Tabular.v` |
| `ramp/cli.py` main, `ramp/ramp_run.py` run_usecase | `Cli.v` |
| `ramp/post_process/post_process.py` Profile_formatting, export_series, Plot: from_file, resample, load_duration_curve (data), error, peak, add_column, `__getitem__`, sum, mean | `PostProcess.v` |
| `ramp/ramp_convert_old_input_files.py` the rewriting of the text and the name of the output, the module name | `Convert.v` |
| `ramp/ramp_convert_old_input_files.py` what the appended code does, and the saved file | `Naming.v` |

Specification vocabulary (no code): `Spec.v`, `SpecDay.v`, `SpecUser.v`, `SpecUseCase.v`,
`SpecTabular.v`, and the sections headed "Specification" of `PropsCalendar.v`, `PropsCli.v`,
`PropsMonths.v`, `PropsPost.v`, `PropsConvert.v`.
Theorems: `Props*.v`.  Proof machinery: `Wp.v`, `Sim.v`, `SimScale.v`, `Tape.v`, `ListLemmas.v`, `Proofs*.v`.

### Not modelled

* numpy/pandas/openpyxl/matplotlib/plotly internals, the xlsx container (a table is a list of rows of named
  cells), drawing of plots, printing and warnings, argparse, the terminal dialogue of ramp_run (its answers are inputs).
* NaN and infinity in data, overflow, dates outside what pandas represents, time zones, seconds.
* The Mersenne twister itself: theorems hold for all draws or for every generator.
* Process creation and pickling in the parallel mode.  What is assumed about workers: each call of the worker
  function sees a copy of the appliance as sent and returns its own array; answers arrive in any order; each
  worker draws its own numbers (CPython reseeds `random` in a forked child), so draws are arbitrary.
* Users and appliances are values in all modules but `Heap.v`; PropsHeap.v proves that this makes no difference to simulated
  profiles unless an appliance with pref_index is shared by two users.  Non-integer values for integer parameters; attributes set from outside
  except those the API documents; `__str__`/`__repr__`; ISO 8601 texts other than
  YYYY-MM-DD and YYYY-MM-DD?HH:MM.
* In tables: pandas' reading of a decimal numeral is taken to be exact; a cell of a kind the constructor does not accept
  (a fraction for an integer, NaN where a number is needed) gives the model's `Err Unmodelled`, and no theorem claims
  what happens then.

## 3. Plan per property

| id | model | proof |
|----|-------|-------|
| C01 | `within_peak_time_window`, `range_within_window` | iff with "some common minute", lia |
| C02 | `random_variation` | monotone rounding for sign, exact for the interval |
| C03 | `duty_cycle`, `random_choice` | truncation bounds |
| C04 | calendar model, `get_day_type`, `yearly_pattern` | Zeller as independent spec; periodicity; finite sweep for the fixed pattern |
| C05 | `windows` with its state | case analysis over the branches |
| C06 | `calc_rand_window` | interval arithmetic |
| C07 | `rand_total_time_of_use` | monotone rounding |
| C08, C09 | `rand_switch_on_window` | induction on the list of free ranges; NoDup |
| C10 | `calc_coincident_switch_on` | monotone rounding, filter of arange |
| C11 | `update_available_time_for_switch_on_events` | list induction |
| C12-C18 | `generate_load_profile` | loop invariant (events, free ranges, overlay) |
| C19 | duty cycle choice | refuted for the default [0,0] windows, partial otherwise |
| C20-C22 | skip rules, flat branch | case analysis |
| C23 | loop fuel | measure rand_time - tot_time |
| C24 | whole generate_load_profile | total correctness under a sane configuration, refutations at the documented edges |
| C25, C26, C28 | `User`, `UseCase` generation | induction over appliances, members, days |
| C27, C31, C32 | `initialize` state machine | case analysis; refutations for stale state; days already known (PropsRetry.v) |
| C29, C30 | parallel tasks with arbitrary arrival order | Permutation invariance; splicing of draw trees |
| C33-C35 | `calc_peak_time_range`, `maximum_profile` | arange facts; refutations |
| C36 | constructor with `Seed` | run equality from arbitrary prior states |
| C37-C39 | registration and equality | list induction |
| C40-C43 | tables as lists of named cells | round trip by computation on the column list + induction over rows |
| C44-C47 | CLI argument resolution | case analysis, calendar |
| C48-C50 | post processing | list lemmas |
| C51, C57 | text rewriting on lists of lines, file names | string lemmas |
| C52 | read_input_file and the constructor's treatment of power | case analysis; two columns refuted |
| C53-C56 | data frames as named columns | list lemmas |
| C58 | run_usecase: initialize before load | the range drawn around noon; refuted against the documented one |
| C59 | ghost events carry the number switched on | run-based wp for any generator |
| C60-C62 | whole simulations, labelled cases (`Cases.v`) | day loop induction; run equality with a common prefix |
| C63, C64 | whole simulations | per-event overlay summed over minutes, members, users; in floats the errors of nested sums are bounded by a growth factor (1+2^-53)^J (FloatSum.v, PropsFloatBounds.v) |
| C28, C30, C70 in floats | generate_sequential, parallel_may | both modes add the same multiset of profiles; any order of J additions is within (S+J)·J·2^-52 of the exact sum (FloatSum.v, PropsRounding.v) |
| C65, C66 | histories of declarations (`Declare.v`) | induction over the calls; the envelope of the widened windows |
| C67 | the script of constructor, initialize, generate (`PropsTotal.v`) | the day specification excludes each exception; initialization by stages; the overflow by choosing the draws (`PropsOverflow.v`) |
| C68 | scripts of add_appliance and declaration calls (`Script.v`) | invariant: the store holds each appliance as declared alone so far |
| C69 | the three shipped inputs (`Examples.v`, generated from /repo by `tools/mk_examples.py`) | C68 per user, C67 for the simulation; checks of the literals by computation |
| C70 | generate_sequential, calc_peak_time_range, initialize and the whole script | day profile = sum over the members (C25, C28, both directions), permutations and splits of Forall2; initialize commutes with the change of users |
| C29, C63, C64, C67, C70 in parallel mode | parallel_may over all task lists and arrival orders | rows = sums over the tasks of the day (PropsParallelDay); one task = one appliance day, so the per-appliance bounds add up; the tasks of two equal populations are a permutation of each other |
| C71 | Standalone.v: the binding of a user to a use case, find_peak, members and series of calls | each call with a known range is generate_aggregated_load_profile; the first call draws the range of blank [u]; rows of the use case by C28 in both directions |
| C72 | Heap.v: users and appliances as references, add_user on nested lists | induction on the nesting: the argument acts like the list of its leaves up to the first that is not a user |
| C73 | Heap.v: generation, initialization, tasks and saving through references | simulation (Sim.v) between the program on references and the program on values: nothing an appliance keeps from its last day is read on the next (ProofsEq), except the preference of its owner; refuted for shared pref_index appliances and for saving |
| C74 | `Session.v`: programs over the objects of Heap.v; invariant: each appliance's power only grows, by its own first value; enough values after initialize |
| C75 | `Plots.v`: programs over DataFrames and Plots that refer to them; each statement's effect on the objects is one of eight, then invariants over the program |
| C76 | `Plots.v`: selections by labels and positions; the value at a time and column is that of the data; iloc is Python's slice |
| C77 | `Plots.v`: the lines of a shadow plot and its exceptions, by cases |
| C78 | `PostProcess.v` resample: bins as half open intervals of times; sums of groups of groups |
| C79 | `Dates.v` fromisoformat on characters; digits of numbers, ordinals strictly increasing along the calendar of C04, composed with C31 |
| C80 | `Call.v` zip of names and values, Python's binding of the legacy function; two calls with the same effective values give the same result; the new object's parameters survive windows(), specific_cycle and registration |
| C81 | two runs side by side (`SimScale.v`): related powers, all else equal; the same draws are asked for, the loads of a minute stay related; the theoretical peak has the same minutes (exact arithmetic) |
| C82 | the same simulation with equality of powers and loads, for every arithmetic |
| C83 | the same simulation with 0 <= x <= y for powers and x <= y for loads (rounding is monotone); refuted for the whole script by a run of two appliances |
| C84 | the namespace as an ordered dictionary, the loop over it on the heap of objects; save and load from C73 and C40 |
| C85 | the module name as text, imported name read back as a path |
| C86-C88 | `Prob.v`: mean value and probability of a draw program | the mean of a sequence of programs is the mean of means; counting the draws that lead to an outcome |
| C89 | the same | linearity along the loops over appliances, members, users and days; one day does not change what the next one reads (C73's same_declared) |
| C90 | the same | over the loop of events: power minus its mean has mean zero, whatever happens later does not depend on it; two appliances side by side have the same events (psim) |
| C91 | the same | the three windows are independent; counting begins and ends |
| C92 | the joint law of the days of `generate_daily_load_profiles` | each day starts from the same declarations (what is left in the appliances does not matter): the mean of a product factors by induction over the days; variances and Chebyshev's inequality follow |
| C93 | the loops over members, user types and appliances | induction over the loop on E(c + X)^2, for all c |
| C94 | the day of an appliance, its windows and time of use | the events of a day cover exactly the drawn time (C15), sums over the minutes exchanged with the mean (C90), affine averages |
| C95 | creation, initialize and the loops over days, user types, members and appliances, as draw programs with a law | the means of independent programs commute (Fubini); a day is a sequence of members, a member a sequence of appliances, equal up to permutation; initialisation of the two use cases asks for the same draws (`psim`) |
| C96 | the task list of core.py:480-488, `single_appliance_daily_load_profile`, the gathering of the answers; the workers' generators are independent of each other (trusted: CPython's `random` registers `seed` as after-fork hook) | the mean over the answers of a day is a nested mean over the appliances of the members, the same as the sequential one up to the order of the tasks (C95); answers carry their day, so the days separate; C29 for the order of arrival |
| C97 | `windows`, the generation of a day, the simulation of an initialized use case, `calc_peak_time_range` | simulation relation between the two runs restricted to draws in range (SimShift.v): free ranges, chosen indexes, events and masks lie k minutes later, cycles, powers and coincidences are the same, so the profile is the profile moved; hence same laws and means; the peak time range itself moves by k only without enlargement and for even k: refuted otherwise by two runs of `calc_peak_time_range` on the same draws; the whole script by carrying the relation through the constructor and `initialize` (PropsShiftRun.v) |
| C98 | the same as C86 and C89 | conditional on the preference, the mean of an appliance is its use chance times a mean that does not depend on occasional_use (C86), so it is proportional and monotone; means are not negative (C17's lower bound); summed over appliances and users by C89 |
| C99 | the whole script | the simulation relation of C81-C83 (SimScale.v), whose appliances may differ in what a simulated day does not read; the theoretical peak depends on number, power and the declared windows only |

A property the unchanged code violates gets a theorem `..._refuted` with a concrete witness and
a `..._partial` theorem for the strongest part that holds; its manifest status is `partial`.

## 4. Trusted base

* **Coq's kernel** (8.16.1; `vm_compute` is used in concrete cases and finite sweeps, native_compute is not).
* **Assumptions.** `Assumptions.v` is generated from the manifest and runs `Print Assumptions` on every claimed
  theorem; each answers "Closed under the global context".  No axioms of ours, and none of the
  standard library's are used.  (A whole-library scan such as coqchk's context also lists axioms of modules that are merely
  loaded by Lqa/ZArith/ssreflect; no claimed theorem depends on them.)
* **The transcription** of /repo into the modules of section 2.  Each definition cites its lines.  No code
  of /repo was run.
* **The primitives** of Base.v: the documented behaviour of `random`, `numpy` and pandas functions.
  `F64.v` shows that the rounding record `fm` has the intended model: binary64 with round to nearest even, without overflow.
  `ProofsRun.v` (`every_run_is_possible`) shows that the two semantics of draws fit: whatever a concrete
  generator produces in a whole run of the command, `may` contains it, so the theorems about `may` speak of every seeded run.

## 5. What the proofs found in the code

Each line is a `_refuted` theorem with a concrete run of the model; the partial theorem beside it states what does hold.

| id | finding |
|----|---------|
| C15 | touching (not separated) windows: an event can extend from one window over the joint of the randomised windows |
| C16 | the last event of the day is cut, so func_cycle is not a lower bound for it |
| C19 | undeclared cycle windows are [0,0] and match events at minute 0; the cut after the choice can leave the window of the cycle |
| C21 | occasional_use = 0 is used if random.uniform(0,1) returns 0.0 |
| C24 | number = 0, func_cycle = 0 and random_var_w > 1/2 raise although documented as valid |
| C27 | an initialize that raised leaves its days behind; the retry ends with num_days different from the number of days |
| C30 | the parallel mode never draws the daily preference; it raises KeyError without tasks |
| C31 | initialize(force=True) keeps the old number of days |
| C32 | users added after construction are not checked for their power values |
| C34 | one maximal minute raises IndexError; calc_peak_time_range(x) returns another range than it stores |
| C35 | maximum_profile after a simulated day reads the simulated profile |
| C36 | with both dates in the constructor the draws precede the seeding; seed 0 does not seed |
| C37 | equal appliances registered twice through hand-given names or through add_appliance with windows and fixed_cycle |
| C38 | broadcasting of a one-value power makes unequal appliances equal |
| C39 | the comparison of users always answers True |
| C40, C41 | users of one name are merged; a series ending with its first value is saved as a constant |
| C43 | a blank cell of a constructor argument is passed on as NaN instead of the default |
| C45 | inputs that share an output |
| C51, C57 | two import lines; an empty file; '.py' inside the stem |
| C52 | of two columns the timestamps are used as power |
| C55 | from_file of a csv raises TypeError |
| C58 | the command draws the peak range before the users are loaded |
| C60 | generate_daily_load_profiles(days) ignores its argument once the use case is initialized |
| C66 | windows() accepts window_2 with num_windows = 1 and the appliance is used in it |
| C67, C69 | an event that meets no duty cycle window is drawn again by recursion: RecursionError is possible, also with the shipped input_file_3.py |
| C72 | an iterable of users that is not a list raises InvalidType although documented; users before a wrong item stay added |
| C73 | an appliance shared by two users follows the daily preference of the user it was created for, and is saved under that user's name |
| C74 | an appliance added after initialize gets the values of the days known then; a later initialize with more days does not look at it; adding a second appliance after initialize raises ValueError (numpy >= 1.25) |
| C75 | Plot(df) without index keeps the caller's DataFrame: add_column and columns= on the Plot change it, and other Plots of it |
| C76 | loc with one label for index or columns (documented as str) raises ValueError |
| C79 | a time of day in date_start: the date of date_end is not simulated |
| C80 | add_appliance(2, number=5) silently uses 2; a 16th positional argument is ignored; the docstring omits continuous_duty_cycle, so the documented 9th parameter (occasional_use) is really the 10th: an occasional_use of 0 given 9th gives an appliance used every day |
| C81 | the 1 mW mask is a constant: a model in kW instead of W has 1000 times the standby load in its windows |
| C83 | raising the power of one appliance can lower the load of another one (the peak time range moves, with it the number of pieces that are on together) |
| C84 | ramp_convert can give two appliances of a user the same name (one is called like the other's variable); loading then merges them if they are equal otherwise |
| C85 | ramp_convert of an absolute path, of ./x.py or ../x.py raises TypeError, and has changed the input file by then; a dot in a folder name makes it import another file |
| C87 | the longest possible duration of an event is never drawn (int(uniform(a, b)) is below b), so mean durations are half a minute short |
| C77 | shadow(columns=[...]), as documented, raises AttributeError; a column called All (any capitals) cannot be drawn alone |
| C97 | the random enlargement of the peak time range has standard deviation `peak_enlarge * peak_time`, so it grows with the clock time: the same village declared ten hours later gets, from the same draws, a peak time range of 172 instead of 80 minutes (`C97_peak_grows_refuted`); and the mean minute of the peak window is rounded to even, so a village declared one minute later keeps its peak time range (`C97_odd_refuted`) |

## 6. Testing the theorems

`tools/mutants.py` lists edits of the model that a realistic bug would make; `tools/mutate.py` applies each to a scratch
copy, rebuilds (failing proofs are replaced by admitted statements, so that later ones are still tried) and reports which
claimed theorems no longer have a proof.  `seeded/LOG.jsonl` records each attempt.
