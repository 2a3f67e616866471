# Design of the formal model of demod

## What this is

`/repo` is the Python package demod (simulation of domestic energy demand).
`/verif/rocq/theories` holds a model of its code in Gallina, written function by
function, and machine-checked proofs of the properties listed in
`properties.jsonl`.  `MANIFEST.json` maps each property to the theorems.

## File layout

For each area `X` of the code:

* `X_Model.v`: definitions only; each definition cites file and lines of `/repo`.
* `X_Spec.v`: small independent specifications (no use of model helpers).
* `X_Proofs.v`: lemmas.
* `X_Properties.v`: the property theorems, each closed by `exact`, with
  `Print Assumptions` beneath, and `Example`s showing non-vacuity.

`Prelude.v` holds the shared value types (Python exceptions as values, etc.).

## Modelling conventions

* numpy arrays are lists; per-household arrays are lists indexed by household.
* floats are exact rationals `Q` (or integers where the code only stores
  integers).  Rounding is not modelled.  Where rounding matters (cumulative
  distributions that end slightly below one) the inputs are left arbitrary so
  that the theorem covers them.
* NaN in override arrays is `None`.
* Every random draw is an explicit input (a list or a function of the step), so
  theorems quantify over all draws.
* Python exceptions are values of `result`.
* datetimes are integers (microseconds since an epoch) with a proleptic
  Gregorian calendar model for dates.
* Dictionaries are association lists (insertion order).

## Trusted base

* The Coq 8.16.1 kernel (`coqc`; `vm_compute` is used for concrete witnesses).
* The faithfulness of the model to the Python source, documented definition by
  definition in the comments.
* numpy/python semantics as encoded (argmax, searchsorted, unique, bincount ...).
* Axioms: see the end of this file.

## Plan per property

* **C01** Inverse-CDF sampling hits exactly the right interval. Model `mc_1d_cdf`/`mc_cdf` (mask + argmax) over rational cdf lists with the draws as explicit inputs; prove the exact-interval characterisation and the length of the interval.
* **C02** Sampling never returns a state of probability zero. Same model composed with `cumsum`; prove zero-probability states unreachable when the sum is 1; exhibit the fallback to state 0 as a `_refuted` witness.
* **C03** rescale_pdf returns genuine distributions and rejects the rest. `rescale_pdf` over rows of Q returning a result type; iff for the error, sums/zeros/ratios/idempotence for success.
* **C04** check_valid_cdf / rescale_cdf accept exactly the admissible tables. `check_valid_cdf`, `rescale_cdf` over rows of Q; iff against an index-based specification.
* **C05** Population sampling conserves the number of households. `sample_population` (cumsum, validity check, linspace/searchsorted or oracle draws, bincount); sum of counts by induction.
* **C06** Deterministic population split follows the requested shares. Same function; count the grid points k/(n-1) in (F(i-1),F(i)] and bound by real-interval counting over Z.
* **C07** External overrides replace exactly the specified entries. Arrays as `list (option A)` (None = NaN), dictionaries as association lists; pointwise specification.
* **C08** Step counting of a simulator. `Simulator` as record + `step` over an abstract subclass update; induction on the number of steps.
* **C09** Logger records are aligned with steps. `SimLogger` as association list attribute -> list of records; run of a simulator with logger; nth-entry specification against the pure trajectory.
* **C10** Logger clear, merge and copy keep data consistent. Same logger model; operation-by-operation lemmas and an invariant over operation sequences.
* **C11** Cached getters are transparent. Cache as a partial map from getter id to value; trace semantics with Get/Mutate/BaseStep events, refinement to uncached semantics under the ordering discipline; witness for the broken ordering.
* **C12** A multi-simulator behaves like its sub-simulators side by side. Heterogeneous list of sub-simulators as records with abstract state; slices by offsets; concatenation refinement for every argument history.
* **C13** Subgroup masks select exactly the matching households. Subgroup dictionaries as association lists; expand mask; nth specification.
* **C14** Time-aware initialization lands on the requested start. Times as integers (microseconds); model of `initialize_starting_state`; arithmetic proof.
* **C15** Simulated clock never drifts. Induction on steps.
* **C16** After-next-day callback fires once per calendar day. Proleptic Gregorian calendar day numbers -> (y,m,d) modelled; proof that day-of-month differs iff the day number differs for consecutive days.
* **C17** Before-next-day callback fires before every new day. Same calendar; refuted on month ends, `_partial`: exact characterisation of the failing steps.
* **C18** 4am callbacks fire exactly once per day. Hours from microseconds; proof over arbitrary alignments for steps <= 1h; refutation for larger steps.
* **C19** Refresh-time callbacks fire exactly once per day. Modular arithmetic over Z; count of firing steps in any window of a day.
* **C20** Sparse matrices read back what was written. `SparseTPM` as list of entries + sizes; read-over-write theorems.
* **C21** Sparse Monte Carlo equals dense Monte Carlo. Flattened cumulative search vs per-row search; refinement theorem with explicit draws.
* **C22** Dead states are resolved. Recursion modelled with fuel; dead-state resolution and divergence.
* **C23** Inconsistent sparse inputs are rejected. The bitwise-and chained comparison modelled on N; refutation + exact characterisation of accepted lengths.
* **C24** Sparse save/load round trip. Save/load as projection and reconstruction; round trip when sizes are inferred, refutation otherwise.
* **C25** Transition extraction is complete and exact. `states_to_transitions` over lists of rows; membership iff specification and NoDup.
* **C26** Episode durations tile the day. Duration computation on the sorted per-person times; sum theorem.
* **C27** Estimated TPMs are stochastic matrices of empirical frequencies. `states_to_tpms` over Q; row sums & frequencies.
* **C28** counts_to_pdf normalises every row. `counts_to_pdf` over Q rows.
* **C29** State relabelling is a faithful encoding. `convert_states` via sort/unique; index/label specification.
* **C30** Initial duration pdfs. `get_initial_durations_pdfs` model; fractions.
* **C31** Markov chain activity step follows the transition matrix of the time of day. Step with explicit draws; positivity of the transition used.
* **C32** Semi-Markov states last exactly their sampled duration. Timers `times_left` with oracle of (state, duration); run-length specification.
* **C33** Sparse state labels encode occupant counts. Base-7 digit arithmetic over N, multiset sum.
* **C34** Occupancy bounds of the transit-state simulator. Arithmetic over Z on labels with bounded digit sums.
* **C35** CREST occupancy bounds. Arithmetic over Z.
* **C36** Time of day to 10-minute index. Arithmetic over Z, finite domain lifted / lia.
* **C37** Appliance usage runs for the sampled cycle then rests for the delay. Timers per (household, appliance); induction on steps.
* **C38** Appliance power accounting. Pointwise over Q.
* **C39** Only owned and free appliances are switched on. Pointwise boolean model with draws.
* **C40** Appliance type matching. Types as lists of words; longest-suffix specification.
* **C41** Fisher lighting bounds. Pointwise over Q.
* **C42** Bulbs need an active occupant and stop on time. Timers per bulb; induction.
* **C43** A car is never charging while away. Invariant over step sequences with explicit draws.
* **C44** Cars are conserved and move one at a time. Masks built through unique/return_index; at-most-one-per-household theorem.
* **C45** Thermostat hysteresis. Pointwise over Q and trajectories.
* **C46** Heating system output limits. Clipping arithmetic over Q.
* **C47** Heat split conserves energy. Arithmetic over Q.
* **C48** Heat demand reaches the target in one step. Field identity over Q.
* **C49** Thermal model conserves energy and is stable. Field identity over Q; convex-combination bound.
* **C50** Thermostat set-points stay in their documented ranges. Update rules over Q with draws.
* **C51** State durations tile every profile. Cyclic run-length extraction; tiling theorem.
* **C52** Diversity and coincidence factors. Sums and maxima over Q lists.
* **C53** Load duration curves. Counting over Q lists.
* **C54** Levenshtein edit distance. Dynamic programming table vs inductive edit scripts.
* **C55** Time attributes of a subgroup. Dictionaries as association lists, date arithmetic.
* **C56** Household subgroups to persons. Case model of the conversion table.
* **C57** Dataset caching is transparent. File system as a map from file names to contents; trace refinement; injectivity of names studied (refutations expected).
* **C58** Daily climate never runs dry. Calendar model + iterator lengths; refuted at month ends, `_partial` within a month.
* **C59** Total load is the sum of its components. Record of optional components; pointwise sums; counter arithmetic.
* **C60** Semi-Markov estimates are shares of the listed transitions. Counting arrays of three and four dimensions as tables of functions; shares of the lines of `states_to_transitions`.
* **C61** Secondary transitions are attributed to the person that makes them. Refuted by a two-person table; `_partial`: persons and moves separately exact.
* **C62** Household transitions count their members. `np.unique(axis=1)` as sorted distinct keys with counts; bijection between lines and members.
* **C63** Changing the transition tables keeps every subject's activity. Relabelling through `np.unique`; proved for the Markov chain, refuted for the sparse simulator (a lost label gets the *value* of the first label as an index), `_partial`: exact description.
* **C64** Individuals are counted in their own household. Lists of households per kind of person; counting lemmas.
* **C65** The clock after construction is the start time. Refuted (the initial steps advance the clock); `_partial`: exact offset.
* **C66** The sampled hot water volume is delivered. Sum of readings over a trace of steps. Refuted (one minute of flow is lost per event); `_partial`: exact amount delivered.
* **C67** Ownership and targets are assigned by type and occurrence. Loop with a counter dictionary; specification counts positions with the same closest type.
* **C68** Ownership probabilities of copies sum to the average number owned. While loop with fuel ceil(number), proved sufficient; sum over Q.
* **C69** Merging appliance dictionaries keeps exactly the common columns. Association lists; lookup specification.
* **C70** Lighting power has one entry per household. After a step the value is an array as long as the occupancy (C70_after_step_partial); without initial occupancy the value before the first step is a single number (C70_initial_refuted, np.ones_like(n_households)).
* **C71** Sampled bulbs come from the data. Gaussian numbers and draws are arguments; rows are built by mc_from_1d_pdf of Sampling_Model; proved for all of them.
* **C72** A trip is recharged completely. Invariant over the run of steps after the arrival: the exact number of readings is one less (C72_recharge_partial); the full claim is refuted by a one-car history, and short trips build up a negative counter (C72_debt_refuted).
* **C73** Every documented charging method can be simulated. The bare integer stored for 'timers' is modelled as None; indexing it fails, so no step succeeds (C73_timers_refuted); the other methods give one strategy per household (C73_methods_partial) and step by C43_no_error.
* **C74** Fleet construction. Counting lemma by induction on the list of numbers.
* **C75** Households without external components are unaffected. nan is None; case analysis of the step shows the two executions give the same state for dictionaries and separate arrays (C75_absent_partial). A nan in a single heat array and a nan target do change the household (C75_heat_array_refuted, C75_target_refuted).
* **C76** Reported heat outputs are consistent. By computation on the step: C76_external, C76_total_partial (no external output); the total is stale with external outputs (C76_total_refuted).
* **C77** Energy consumption of the heating system. C77_power gives the exact value, C77_rating_partial the bound when hot water has at least the rating of space heating; refuted otherwise, for heaters with one zero rating (nan), and for gas energy (3600 times too large).
* **C78** The closed loop neither overheats nor undercools. Invariant by induction over the run, using the comparison lemma of C49 and the exact reach of C48; for one-minute steps. Refuted for other step sizes.
* **C79** Heating controls. Direct case analysis; the external cylinder given in a step is only seen by the controls of the next one (C79_external_cylinder_refuted).
* **C80** Fluctuating set-points follow the people. One-step case analysis (C80_events) and induction over the time the household stays empty (C80_empty_partial); households empty from the start are heated (C80_empty_start_refuted).
* **C81** Scheduled set-points. Time of the day modulo 1440 minutes; windows of 144 steps contain the waking up, so the state before is forgotten. Refuted off the ten minute grid and for returns sampled after the bed time.
* **C82** Options of the thermostat simulator. Argument passing modelled by cases: every option is an error (C82_options_refuted); attribute_patterns alone behaves as documented (C82_methods_partial).
* **C83** Energy, units and coincident demand. Exchange of sums over rows and columns; maxima over Q lists.
* **C84** Distribution of the changes in demand. Histogram with explicit edges, counted by an inductive relation. Proved without normalisation and edges (C84_distribution_partial); refuted for normalisation, for given unit edges and for changes equal to the first edge.
* **C85** Distribution of the state durations. Shares defined on the specified cyclic runs (C51). Proved for tables with the same states; refuted for a state occurring in one table only (KeyError) and for the divisor, T+1 instead of T.
* **C86** Average state metric. Column means over Q; triangle inequality by sums of absolute values.
* **C87** Graph metrics. Counts compared with duplicate-free enumerations of specified sets. Refuted: network size counts sources at the wrong time, density can exceed one, one time step divides by zero.
* **C88** Sparsity of a transition matrix. Counting filter over the entries.
* **C89** Names of subgroups. Strings of characters; unique splitting at the underscores. Exact characterisation of equal names for keys made of words joined by single underscores; refuted for a number against a list with that number.
* **C90** Order of subgroups. Specified by the number of keys and the first difference; transitivity and totality proved. The documented direction is refuted.
* **C91** JSON storage keeps the data. Inductive type of Python objects, json as stringification of keys with last-wins merging. Proved by nested induction; single precision arrays refuted.
* **C92** Transition matrices survive other loads. npz and npy files as a map; invariants over call sequences. The dense and the sparse loader share a file: refuted for that pair, proved otherwise.
* **C93** Historical climate begins at the requested time. Selection as filter over rows; shown to be a suffix. Starts before the data are accepted silently: refuted.
* **C94** Real profiles keep their names. flatten and rebuild on association lists; inverse for names without '&' and types with profiles; refuted otherwise.
* **C95** Simulated irradiance belongs to the current time. `Weather_Model.irradiance_step/make_irradiance` (the formula is an arbitrary function of the clock) and `make_climate`; closed form of every reading. Exact offset proved; the claim is refuted for starts after midnight and for the first reading; midnight starts proved with a lag of one minute (partial).
* **C96** Irradiance follows the sun. `Sun_Model` over the real numbers (standard library Reals and its axioms); the height of the sun is specified independently as a dot product of unit vectors. Proved through Cauchy-Schwarz and monotonicity. Floating point rounding is not modelled.
* **C97** Temperatures of a day. `DayTemp_Model.step_day` in rationals with missing values for nan. Proved for daylight and for the cooling recurrence; the end of the night is proved with its exact error and the full claim refuted; dark minutes during the day get 0 degrees (refuted), no light raises ValueError, no night gives nan.
* **C98** Recorded climate shows the last data point. `Weather_Model.make_real/real_step` on top of `Loader_Model.historical_slice` and `Time_Model.t_initialize`. Proved by the closed form of a run; with missing data points refuted.
* **C99** Interpolated climate lies on the line between data points. `Weather_Model.make_interpolated/interpolated_step/interpolated_get` with a model of scipy's linear `interp1d`. Starts exactly at the last point (a single point for interp1d) are left out.
* **C100** External weather of the load simulator. `LoadSim_Model.load_pre/weather` over arbitrary sub-simulators. Proved by case analysis and induction over the steps.
* **C101** Construction of the load simulator. `LoadSim_Model.make_load/instantiate` on top of `Sampling_Model.sample_population`. Proved.
* **C102** Ownership of appliances. `AppSetup_Model.parse_subgroups/sample_from_subgroup/appliance_set` and `Appliance_Model.sample_available_appliances`. Proved; the specification is the partition of 0..n-1 by partial sums.
* **C103** Assignment of load profiles. `AppSetup_Model.sample_real_load_profiles` as two folds over types. Proved; for types shared by both kinds under 'uniform' refuted (the second pass overwrites).
* **C104** Initial state of the appliances. `AppSetup_Model.make_appliances/make_occupancy_appliances` and an invariant over runs. Proved with the conditions stated; profiles of one value, and water appliances with profiles, refuted.
* **C105** Activity appliances are in use while their activity is performed. `ActApp_Model.act_step/init_activity/compatible_mask`. Invariants linking the stored mask with the last (or any earlier) dictionary, by induction over runs. False without 'inactive_switch_off' (refuted; the exact behaviour is C105_sticks); an activity left out of one step raises KeyError when it returns.
* **C106** Activity appliances always have a power reading. Invariant: owned appliances with profile have a positive duration and, once in use, 1 <= steps left <= duration. Proved.
* **C107** Activity appliances go round their load profile. Position modulo the duration, by induction over runs. The first value is skipped: the step of the beginning reads the second value (refuted); positions from there on are proved.
* **C108** Initial temperatures of a building. `Heat_Model.initialize_temperatures` with the two draws as arguments; ranges by linear arithmetic, then the run invariant of C78 from that start.
* **C109** Reported heat demands. `Heat_Model.dhw_heat_demand/sh_heat_demand/total_heat_demand/external_cyl_demand` after `five_step`. The demand of an external cylinder is stale in steps that do not name it (refuted).
* **C110** Running probabilistic appliances are not restarted. `ProbApp_Model.prob_step` per cell (`sees`), reachable states from `constructed`.
* **C111** Reasons to start of probabilistic appliances. `idle_outcome`, `only_triggers`. The waiting time after a cycle is ignored and appliances that are not owned trigger their followers (refuted).
* **C112** End of an activity switches appliances off. `forced_halts`; refuted for appliances whose previous activity is the same activity.
* **C113** Whole-day appliances of the probabilistic simulator. `runs_out` over all runs; the claim of the documentation is refuted.
* **C114** Readings do not influence the probabilistic simulator. `p_seen` is the cache entry; `look`. Proved unless an owned appliance is in its last step, refuted there; the reading right after the construction is refuted.
* **C115** Steps of the probabilistic simulator are defined. `step_defined`, `runs_defined` for exactly one following appliance; with two or none steps raise (`two_followers`, `no_follower`).
* **C116** Probabilities of starts match the targets. `probs_value` on `sample_switch_on_probs`. The range [0, 1] and the independence of the order of the activities are refuted.
* **C117** Appliances kept by the probabilistic simulator. `prob_compatible` returns the mask and the column left in the dictionary; a second reading of the dictionary is refuted.
* **C118** Energy of driving and recharging. `Car_Model.driving_consumption`, `joules` sums the readings of a run; `trip_read`.
* **C119** Labelled diaries of the survey. `GTou_Model.get_states` over a record `survey` of arrays; numpy string width modelled. Partial: 'other' is cut when all labels are short (refuted).
* **C120** Use of secondary activities. Refuted: the secondary table is never read (`C120_ignored`: equal results for all secondary tables).
* **C121** Transition matrices of activities. `get_tpms_activity` composed with the proved `states_to_tpms`. Partial: labels may repeat without secondary activities (refuted).
* **C122** Durations of activities. `parse_activity_duration` over the proved `get_durations_by_states` (C50).
* **C123** Daily starts of activities. `parse_daily_activity_starts`; `starts_on` counts pairs (time, diary). Partial: entries above 0 are right up to the denominator; it is no distribution and active occupancy counts ends (refuted).
* **C124** Shares of activities over the day. `parse_activity_probabilities`; clipping shown to have no effect; KeyError when nobody is away or asleep.
* **C125** Occupancy from travels. `states_to_occupancy` loop per person; partial: between travels the person is always out and a missing start answer always means home (refuted).
* **C126** Reason to be out. `states_to_out_for_what_model`, pointwise.
* **C127** Grouping by household. `group_in_household_activity`; `lists_households`, `sum_over`.
* **C128** States of the sparse model. `hh_sparse_states`, `counts`. Partial: decoding needs at most six members (refuted for seven).
* **C129** Sparse transition matrices. `states_to_sparse_tpm` into the sparse class model; `row_of`. Partial: 'last' overwrites the matrix of time 0 by the wrap-around (refuted).
* **C130** Activity profiles. `activity_profile`. Partial: the number used is min(home, awake), not persons at home and awake (refuted).
* **C131** Data of the household models. `get_data_4states`, `get_data_sparse9states`; composition of the grouping, the conversion and the matrices.
* **C132** Active occupancy of the survey. `get_active_occupancy`, partition of the diaries by household.
* **C133** Place at the end of the diary. `final_location`. Refuted: np.roll takes the previous diary.
* **C134** Choice of diaries. `GMask_Model.get_mask_subgroup` over records of the three tables; every filter is a step that intersects the mask. Partial: the reports of missing days come in pairs, flags on with lists.
* **C135** Missing days. `keep_days`, `every_second`; `paired` as hypothesis of the first half; refuted without it.
* **C136** Lists of codes. Calls of the function to itself with default flags. Partial: flags on; refuted with the flags switched off.
* **C137** Questions that cannot be answered. `problem` lists the errors a question justifies.
* **C138** Population of Crest4StatesModel. `Switch_Model.crest_make`: sampling, filter of empty subgroups, one chain per subgroup, initialization at the refresh time.
* **C139** Runs of Crest4StatesModel. Invariant of `crest_step` over `iterate`; the specification gives tables and number as relations on instants only (`in_force`, `matrix_number`).
* **C140** Tables of the day in CREST. Partial: the slot actually used is proved; refuted twice (the matrix depends on the start of the simulation; the first ten minutes after midnight use the tables of the day before). A start off the grid never changes tables.
* **C141** Occupancy reported by CREST. Labels of all chains concatenated; the invariant of C139 gives membership, digits give the bounds.
* **C142** Runs of SubgroupsIndividualsActivitySimulator. `Switch_Model.ind_make/ind_step/ind_refresh` on chains with their subgroup as key; `key_in_force` and `renewed_number` specify key and number.
* **C143** Calendar of individuals. Partial: from a start on the grid the date is at most a day old and the number is the number of steps since; neutrality refuted (one-slot shift); off the grid the calendar is ignored for ever.
* **C144** Population of the German office. `Destatis_Model.parse_population`; finite populations checked once by computation, names by case analysis, sampling from the theorems of C05/C06.
* **C145** Column of a household in the appliance sheet. `get_column`; the headings are a separate table of predicates (`heading`). Partial: a revenue of zero and households of six or more are refused although a heading fits (refuted).
* **C146** Ownership read from the appliance sheet. `parse_ownership` over `ownership_rows`; invariant of the dictionary with keys type, type_2, .... Partial: needs types that are distinct and not copies of one another; refuted when a type occurs twice, as in the real sheet (laptop_computer).
* **C147** Resampling of measured profiles. `Trace_Model.per_second`, `resample`; windows by `firstn/skipn`, conservation by induction on windows. Partial: a zero step is appended when the length is a multiple of the step, and fractional seconds are truncated (both refuted).
* **C148** Dictionaries of measured profiles. `full_profiles`, `on_profiles`, `crop` as folds over directories; entries characterised by `recorded`. Partial: two directories of the same type must not share a file name (refuted otherwise: one profile is lost).
* **C149** CREST transition matrices and starting states. `Crest_Model.load_tpm` with the workbook as a function of sheet names; reshape by chunks; rows by the lemmas of C05.
* **C150** CREST appliances. `appliance_dict` column by column. The dish washer clause is refuted: the third argument of numpy's logical_or is the output array.
* **C151** CREST ownership dictionary. `crest_ownership` with the while loop on fuel, shown to be enough; round trip by induction over the appliances with the dictionary described by `copy`. The condition is checked for the types of CREST and shown to be needed.
* **C152** CREST activity profiles. `activity_profiles` for any number of times, occupancies and activities; index arithmetic of the flat array.
* **C153** Bulb statistics from a configuration. `bulbs_stats`; insertion of counts into a sorted list. The standard deviation is modelled by its square.
* **C154** CREST clearness and washing profiles. `clearness_tpm`, `washing_power`. Partial: up to a tenth of other mass in the first row is accepted and kept (refuted).
* **C155** Sheets become dictionaries. `Sheet_Model.sheet_dict` on lists of columns; the dictionary is specified by the last column with a given stripped name. Partial: an empty flag cell is true (refuted), and of two columns that collide only the later is kept (refuted).
* **C156** Yearly targets of the input sheet. `yearly_targets` as a fold of dictionary updates, read back with `Appliance_Model.get_target_from_dict`. Proved for pairwise different types; refuted for repeated ones: the first gets the last target, the others zero.
* **C157** Thermostat data of Germany. `thermostat` with `Heat_Model.initialize_targets`; intervals by the lemmas on mc_from_1d_cdf.
* **C158** Climate of a country and weighting. `Ninja_Model` with a disk of raw files and parsed folders and a server whose contents change; invariant over all sequences in which each country is used under one name and one weighting. Refuted otherwise: the parsed folder depends on the name only.
* **C159** Saved arrays and step sizes. `Saved_Model`: files by name and suffix, timedelta as days, seconds, microseconds. Partial: an npy file of the same name hides a later npz file (refuted); proved without one, and for npy always.
* **C160** Profiles of the FfE. `Ffe_Model` with a disk of two files per kind. Refuted: labels are saved as objects, and any load with labels after the first is a ValueError without pickle; load_labels_name does not accept the labels returned. Proved without labels and with pickle.
* **C161** Measured profiles of a step size. `Cache of versions`: folders named by whole seconds. Refuted: step sizes that agree in whole seconds share data, an update clears only the folder of its own step size, and an update without raw data is a FileNotFoundError. Proved for whole seconds without updates.
* **C162** Versions of the German data. `german_version`, `fisher_lighting`. Refuted: fisher lighting of 'vBottaccioli' is an IndexError, from formatting the message.
* **C163** Caches of population, ownership, clearness and bulbs. `Caches_Model`: one cached load per kind with its own files. Partial: tuples come back as lists and keys as texts where JSON is used.
* **C164** Law of a Markov chain simulator. `Law_Spec.has_probability d P p`: the draws in [0,1)^d for which P holds are the disjoint union of boxes of total volume p; the number p is proved unique, between 0 and 1. By induction on the steps with C31_execution: a step is a union of products of boxes.
* **C165** Households are independent. Joint events are tiled by products of boxes, one factor per household, because household i only reads draw i of each call.
* **C166** Law of the sparse simulators. C21_own_row gives intervals (lo, hi] for each draw; with 1-u for u they are boxes. Same induction as C164.
* **C167** Law of a sampled population. Induction on the number of draws with Pascal's rule for `choose`.
* **C168** Law of ownership and switch-ons. `sample_available_appliances` and `draw_below` read one draw per household and appliance; products of intervals [0,p) and [p,1).
* **C169** Law of a semi-Markov simulator. Induction on the steps with the pairs (state, timer) of all households: while a timer runs the step ignores its draws (sides of length one), at its end the household reads the draw of its rank among the changing ones, known from the path, so each step is one box. Episodes follow by arithmetic on the path probability.
* **C170** Law of the sky clearness. `Law_Model.clear_init`, `clear_step`; an initial value that is not in the table is an IndexError. Refuted: the initial clearness is that of midnight, the one after construction is drawn.
* **C171** Equipment of a household comes from one row of the data. `Fit_Model.assign_systems`, `assign_buildings` over dictionaries of columns (KeyError, IndexError, plain Exception); `Fit_Spec.holds` relates a value to the column and row of the dictionary. Induction over the drawn types.
* **C172** Law of the equipment. `has_probability` of C164 on the 6 n numbers the constructor draws; product of the assignment laws.
* **C173** A fresh heating simulator is consistent. `Fit_Model.five_construct` in the order of the constructor; composition of C171, C108 and C77.
* **C174** An external heating system replaces the internal one. `Fit_Model.set_external` on the constructed simulator, `Heat_Model.five_step` for later steps. Refuted: the flags are recomputed by each step, so that the first step without external outputs reports the power of the replaced system.
* **C175** Starting outputs of a heating system. `Fit_Model.system_start`; the truth value of a dictionary is that it has a key.
* **C176** The activity profile in force follows the clock. `Daily_Model.daily_step` on `Time_Model.decorated`; invariant relating the iterator position to the clock. Proved for steps of whole minutes that divide ten minutes, a refresh time on a multiple of ten minutes and a start aligned with it; refuted for 15 minute steps, 30 second steps and unaligned starts.
* **C177** Appliances start with the probability of their own activity. Composition of C176 with the start conditions of C39 (`may_start`), replacing the label index by the name of the activity.
* **C178** Day type of the subgroups. The invariant of C176 with `Subgroup_Spec.day_value`. Refuted for a user's own 'weekday' and 'quarter', which are replaced and removed.
* **C179** A new occupancy appliance simulator. `Daily_Model.make_daily` in the order of the constructor; C14 for the clock, AppSetup proofs for the arrays.
* **C180** Diaries are rebuilt from their transitions. `Atus_Model.transitions_to_states`; invariant of the loop over times, last assignment wins within one time. Refuted for the optional sizes: n_states cannot be given without initial states, and the default number of times drops what follows the last transition.
* **C181** Transition matrices of transition lists. `Atus_Model.build_transition_matrices` with the counting lemmas of the Parse area; the states are those of C180.
* **C182** Removing fake transitions changes nothing. `Atus_Model.mask_fake`; specification by the previous line of the same person; diaries by C180.
* **C183** Time dependent transition and duration matrices. `Atus_Model.build_timed`; blocks of lines per person; counts of lines turned into counts of persons.
* **C184** Stacked states. `Atus_Model.stack_states` with `Prelude.bincount`.
* **C185** RMSE is a distance. `Dist_Model.rmse` over the real numbers, with the broadcasting of numpy; Cauchy-Schwarz by induction. Refuted: arrays of different shapes are accepted when they can be broadcast, though the documentation requires the same shape.
* **C186** Similarity of profiles. `Dist_Model.cdist` with the default metric of scipy; the distance laws as for C185.
* **C187** Variety of profiles. `Dist_Model.pdist`; the sum over pairs is half the sum of the similarity of the profiles with themselves. Refuted: the result is not an array of n_profiles times n_profiles; one profile gives nan.
* **C188** Households of a simulator of subgroups. `Multi_Model` extended with the constructor (`Groups_Model`). Refuted: an instance of SparseStatesSimulator, which the check accepts, cannot be used; subgroups without a number of households are dropped silently.
* **C189** SparseActivitySimulator cannot be created. `Groups_Model.sparse_activity_init`: a subgroup given as dictionary cannot be added to the path, one given as a string cannot be copied; refuted for all arguments.
* **C190** Waiting time of a bulb. Boxes of random numbers as in C164 over `Light_Model.light_step`; the draws of all other bulbs are arbitrary.
* **C191** Law of the lighting durations. Two draws, the share of a minute in an interval; joined with the switch-on of C190 over one `light_step`.
* **C192** Relative use of bulbs. `Use_Model` over the real numbers; a draw of zero, which numpy can return, gives infinity.
* **C193** Occupants of the example simulators. `Toy_Model` over `Time_Model`. Refuted: the maximal number of residents is never drawn nor enforced, and occupants become negative; integers cannot take float arrivals.
* **C194** Readings of the appliances. `Appliance_Model`; the positions of python are specified separately in `Appliance_ReadSpec`.
* **C195** Reading loggers and one household. `Base_Model` as in C01-C06, with the error branches.
* **C196** New heating simulators and missing values. `Heat_Model` as in C45-C49, with `designates` of the sampling specification for the draws.
* **C197** Constructing a loader never loses data it was not told to clear. `Folder_Model` has a disk as an association list from paths to nodes with the primitives of os and shutil; `Folder_Spec` sees a disk as what stands at each path.
* **C198** Parsed data of the German survey. `Folder_Model.gtou_init` calls the constructors in the order of the classes (twice for PopulationLoader); archives are lists of members unpacked as zipfile does. Offline use, clearing a new activity and data after success are refuted.
* **C199** Workbooks of CREST. `Folder_Model.crest_init`; a lost connection leaves the received part, which the next construction uses (refuted part).
* **C200** Raw data of tracebase. `Folder_Model.tracebase_init`. The last three parts are refuted (C200_update_new, C200_stale_refuted, C200_data_refuted).
* **C201** Lighting of the older CREST simulator. `Lamp_Model.old_step`: as `light_step` but the times left are rationals or nan. The last part is refuted (C201_relit_refuted: a duration with a fractional part ends below zero, and the bulb stays dark until the household is empty); C201_fraction_partial and C201_whole_partial say for every time left what happens.
* **C202** Bulbs drawn by the older CREST simulator. `Lamp_Model.old_sample`. The width of the array is the largest number drawn before the minimum of one is applied: when all are zero nobody has a bulb, when all are negative the call fails (C202_at_least_one_refuted, C202_none).
* **C203** Older heating controls. `Boiler_Model.update_controls`, `calculate_controls`; C203_timers by induction over the minutes. Refuted parts: updates fail when the simulation starts at another minute than a half hour (C203_any_start_refuted, C203_other_starts), the tables count from the start and not from midnight (C203_by_the_clock_refuted), and the timers start on for 82 % of the draws instead of 9 % (C203_initial_share_refuted).
* **C204** Older heating system. `Boiler_Model.old_output`, `old_update`, `old_fuels`, `old_pump`. Refuted parts: the thermostat of the cylinder never switches off (C204_never_off: the target has no dead band), the pumps need keys that the controls lack (C204_pump_with_controls_refuted), the constructor calls a method which does not exist (C204_constructor_refuted), heat for rooms is given when the heater is on for neither (C204_neither_refuted, not reachable from the controls, C204_heat_applies).
* **C205** Older appliances: switching and power. `Wash_Model.old_switch_on`, `old_switch_off`, `wash_power`, `old_powers`; the programme is specified by its phases and the energy by induction over the minutes. Refuted parts: with the data sets it names it cannot be created (C205_created_refuted, C205_named_data), and a machine whose cycle is not a whole number of minutes is read as drying for ever after (C205_idle_machine_refuted; whole cycles end at zero, C205_whole_cycles_partial). The columns must be exactly one of each machine (C205_columns).
* **C206** Older appliances: hot water. `Wash_Model.water_cell`, `old_water`, `old_transfer`; C206_volume by induction over the minutes, for fixtures without standby flow.
* **C207** Helpers: chances of activities and of switching on. `Help_Model.crest_pdf`, `gtou_pdf`, `probs_of_occupancy`, `switchon_probs`; the loops are described by entries (C207_crest, C207_gtou, C207_switch_on) and composed (C207_nobody). Refuted: appliances of an unknown activity keep their whole chance (C207_unknown_refuted).
* **C208** Helpers: occupancy of a day, absorbing states, file names. `Help_Model.occupancy24`, `absorbing_states`, `subgroup_file`; C208_absorbing by induction over the matrices. Refuted: there are entries without any state (C208_entries_refuted), file names do not tell true from absent values and depend on the order (C208_file_names_refuted).
* **C209** Heating data of a CREST workbook. `Conf_Model.parse_systems`, `parse_buildings`, `parse_thermostat`, composed with the construction of C171 and C173 (C209_construct, C209_household).
* **C210** Climate, lighting and population of a CREST version. `Conf_Model.geographic`, `temperatures`, `bulbs_config`, `parse_lighting`, `population`. Refuted: every version with a place has temperatures (C210_climate_refuted, India has none).
* **C211** Who is active in a German diary. `Old_Model.states_to_activity` on the conversion of the areas Parse and GTou; C211_active by the explicit result of the conversion.
* **C212** Transition matrices of the older CREST simulators. `Old_Model.load_pdf`; its reshape is proved equal to that of the CREST loader on well-formed files and the theorems of the area Crest are used.
* **C213** Weather of Open Power System Data. `Old_Model.ops_climate`, columns by heading.
* **C214** Parsers of the German time use survey. `Pick_Model.parse_tpm` and the others return the call they make; the known types are an inductive relation of the specification.
* **C215** Names of the FfE household types. `Pick_Model.labels_name` on a type of Python values. The last sentence is refuted: numpy integers are not ints, so every element of an array gets None.
* **C216** The example of a loader. `Pick_Model.get_example` on the three files of the folder.
* **C217** Lighting of the Excel input file. `Xls_Model` on the sheets of the area Conf. That the configurations are those of CREST is refuted for sheets of more than 100 rows or 40 columns and proved for the others.

## What is modelled

| area (files `X_*.v`) | code | not modelled there |
|---|---|---|
| Sampling | utils/monte_carlo.py, utils/distribution_functions.py, simulators/util.py | rounding of cumulative sums; dimensions above two |
| Base | SimLogger, cached_getter, Simulator (base_simulators.py:16-532) | plots, arrays of more than one dimension in the logger |
| Multi | MultiSimulator and its masks (base_simulators.py) | getters returning tuples |
| Time | TimeAwareSimulator, Callbacks (base_simulators.py) | time zones, years above 9999, rounding of `timedelta / timedelta` |
| Sparse | utils/sparse.py | file formats other than the list of arrays; integer overflow of the index types |
| Parse | utils/parse_helpers.py, datasets/GermanTOU/parser.py (transition extraction) | numpy versions above 1.22 reject the list indexing of `states_to_tpms`; nan states |
| Activity | activity_simulators.py, sparse_simulators.py, crest_simulators.py (four states) | the estimation of the tables from survey files |
| Appliance | appliance_simulators.py:1-1270, utils/appliances.py | logarithm in `_generate_relative_use`; power factors |
| AppSetup | appliance_simulators.py:110-551, 983-996 | the loader returning the profile data (input) |
| Daily | appliance_simulators.py:860-1077, 1216-1252 (profiles of an OccupancyApplianceSimulator and its set-up) | the caller's dictionaries being changed in place; dtype of occupancies |
| Atus | datasets/ATUS/parse_data.py:441-784, 970-975 (transitions, matrices, durations, stacked states) | the rest of that script (tables, plots, examples); negative times and states; printing |
| Dist | metrics/errors.py (RMSE) and metrics/loads.py (profiles_similarity, profiles_variety) over exact reals, with numpy broadcasting of two-dimensional arrays | arrays of other dimensions, rounding, metrics other than the default |
| Groups | sparse_simulators.py:319-357 (SparseActivitySimulator) and 623-681 (SubgroupsActivitySimulator) | the contents of the files; lines 360-376, which are unreachable |
| LightLaw | probabilities of lighting_simulators.py:381-451 over `Light_Model` | the probability of joint events of several bulbs |
| Use | lighting_simulators.py:366-375 over exact reals | rounding |
| Toy | base_simulators.py:1018-1158 (both example simulators) | loggers, numbers of residents that are not integers |
| Folder | base_loader.py:48-127 and the constructors of its children, GermanTOU/loader.py:71-151, CREST/loader.py:78-104, tracebase/loader.py:96-130 | rights, full disks, concurrent processes; names with separators; the constructors of the Germany, Excel and climate loaders |
| Lamp | crest_simulators.py:720-943 | the reading of the sheets; an occupancy given as a list (then `active_occupancy == 0` is False and no household is ever switched off) |
| Boiler | crest_simulators.py:947-1686 | the reading of the CSV files and the columns taken from them (948-1005, 1244-1366, 1379-1464); `np.random.randint` of the delays is an argument |
| Wash | crest_simulators.py:344-689 | the reading of the CSV files (365-445) but for the keys they give; nan durations and flows; a zero flow is an error in the model and infinite in numpy |
| Help | helpers.py:14-208 | the reading of the files (lines of numbers and saved profiles are arguments), printed messages and their counters, profiles of other lengths than 144, broadcasting of one number of occupants |
| Conf | datasets/CREST/loader.py:112-159, 496-613, 629-787 | the place of headings and skipped rows in the workbook, warnings, headings that are not numbers, `_parse_controls_tpm` (790-807), which has no caller and stores into a name that is not defined |
| Old | datasets/GermanTOU/parser.py:1340-1504, simulators/crest_simulators.py:39-88, datasets/OpenPowerSystems/loader.py:44-77 | the reading of the files (their numbers are arguments), numbers of residents that are not ints, lines of unequal lengths, the parsing of timestamps |
| Pick | datasets/GermanTOU/loader.py:42-69, 154-238, datasets/Germany/loader.py:58-71, datasets/FfE_Open_Data/__init__.py:105-133, datasets/ExampleData/example_loader.py:39-113 | the parsers that are picked (areas Parse and GTou), the download of Germany, arrays of several dimensions or of numbers that are not integers, raw files of the example without the two columns |
| Xls | datasets/ExcellInputFile/loader.py:38-47, 87-149 | the reading of the workbook (its sheets are arguments), headings or cells that are not numbers where numbers are read |
| ActApp | appliance_simulators.py:1271-1493 | warnings; arrays of a dictionary changed in place by the caller between steps (the simulator keeps references to them) |
| ProbApp | appliance_simulators.py:1496-1968 | initialization steps other than 0; warnings; minus infinity is the same as nan |
| Light | lighting_simulators.py | sampling of Gaussian thresholds (inputs) |
| Car | car_simulators.py | the external travel data |
| Heat, Setpoint | heating_simulators.py | difference between inf and nan |
| LoadMetric, StateMetric, Levenshtein | metrics/*.py | plots; the external Levenshtein library (its documented result is the specification) |
| Subgroup | utils/subgroup_handling.py | string values with special characters other than those stated |
| Loader | datasets/base_loader.py (cache of parsed data) | the raw dataset parsers, ragged or mixed `np.asarray` inputs, legend files |
| Weather, Sun, DayTemp | weather_simulators.py | floating point rounding at the boundary of the arc sine; logarithm in the cooling constants (input) |
| GTou | datasets/GermanTOU/parser.py:49-53, 1506-1933, 1938-2019, datasets/GermanTOU/loader.py:253-404 | reading the survey files, legends, caches |
| GMask | datasets/GermanTOU/parser.py:56-59, 66-245 | reading the survey files, the warning about empty subgroups, numpy values as arguments |
| Switch | crest_simulators.py:229-342, activity_simulators.py:579-632, 700-793, 859-875 | sub-simulators of the class SemiMarkovSimulator, loggers |
| Destatis | datasets/DESTATIS/loader.py:39-323 | reading and downloading the sheet (an input), non-integer revenues |
| Trace | datasets/tracebase/loader.py:134-251 | downloading, reading csv files (their seconds and loads are inputs), negative seconds of times |
| Crest | datasets/CREST/loader.py:169-494, 809-871; datasets/CREST/utils.py; utils/parse_helpers.py:298-308, 401-426 | reading the spreadsheet (its cells are inputs); the labels of the clearness states; the standard deviation of the bulbs is modelled by its square |
| Sheet | datasets/ExcellInputFile/loader.py:60-85, 152-217; datasets/Germany/loader.py:56-69, 136-189, 211-285; utils/parse_helpers.py:341-373 | reading the spreadsheet (cells are inputs; how a text cell reads as a flag is an argument) |
| Store | datasets/base_loader.py:87-125, 219-393, 446-551, 760-844, 873-884, 930-1081; datasets/RenewablesNinja/loader.py:57-166; utils/countries.py; datasets/FfE_Open_Data/__init__.py; datasets/tracebase/loader.py:92-141 | contents of numpy files beyond object or not; servers (their answers are inputs); parsers where not cited elsewhere |
| Law, Sky | probabilities of whole runs of Activity, Sampling and Appliance functions; weather_simulators.py:68-170 | draws are exact rational numbers of [0,1), independent of each other (the volume of a set of draws is its probability); runs of simulators that call several random generators in turn |
| Fit | heating_simulators.py:418-552, 703-789, 950-1005, 1167-1199, 1287-1407, 1649-1714 (construction), 1696-1714, 2016-2022 (external systems and the cached power) | the arrays of draws are one list in the order of the calls; dictionaries by name, with equal lengths not assumed; loaders and loggers are not part of the objects |
| LoadSim | load_simulators.py | warnings; one shared random number generator (each simulator has its own draws) |

Not modelled at all: utils/plotters.py, the raw dataset files and their readers
(datasets/*/loader.py) except where an area cites them, documentation helpers
(utils/cards_doc.py, inherit_getters_docstring), pandas containers and warnings.
In-place mutation and aliasing of numpy arrays are modelled only where the code's
effect depends on them (then the definition says so).

## Disagreements between the documented behaviour and the code

Each is a theorem about the faithful model (`..._refuted`), or is stated by the
positive theorem named.

Base, time and activities

* Markov chains cannot be initialized with `start_time_step > 0`: AttributeError.
* A semi-Markov state sampled with duration zero lasts one step.
* Occupancy: the default number of residents is seven, and a household of more
  members overflows the tables.
* Sparse simulators: a state label lost by an update of the tables becomes the
  *value* of `labels[0]` used as an index; a start time which is not the table's
  first time uses the tables of the wrong time.
* Attaching a logger to a simulator that updates its state after `super().step()`
  makes cached getters return the previous value (C11_late_update_refuted).

Appliances, lighting, cars

* Occupancy driven appliances run one step less than their cycle (C37).
* The sampled hot water volume is not delivered completely (C66).
* The closest type is never the empty type (C40).
* The Fisher lighting simulator starts with a single number as power (C70).
* A charging car gets one reading less than it needs (C72), short trips build up a
  debt; the documented method 'timers' cannot be simulated (C73); a car can leave
  and come back in one step (C44).
* `sample_real_load_profiles('uniform')`: the second pass overwrites the profiles of
  switched-on appliances that share the type of a whole-day appliance (C103);
  a 'full' profile of one value is a ValueError, and a whole-day appliance with a
  constant load can start in use (C104).
* The ten-minute slot of the activity profiles is right only for steps of whole
  minutes that divide ten minutes and a start aligned with the refresh time: quarter
  hours skip slots, half minutes advance twice, a start off the ten-minute grid
  fails with AttributeError or keeps the profiles of the first day forever (C176).
* The day type given by the user for a subgroup of occupancy appliances is
  overwritten and the quarter removed (C178); the day type is that of one step after
  the refresh.
* Activity appliances without 'inactive_switch_off' stay in use after their activity
  ended (C105); the first value of a load profile is skipped when an activity
  begins (C107).
* Probabilistic appliances: 'after_cycle_delay' is ignored, appliances that are not
  owned run unseen and start their followers (C111), whole-day appliances stop after
  their profile (C113), reading the usage changes the next step when an appliance is
  in its last step (C114), steps raise unless exactly one appliance has a previous
  type (C115), probabilities can exceed 1 and depend on the order of the data (C116),
  and the 'probabilistic' column of the dictionary is left negated (C117).
* The usage is cached while the appliances are sampled and the cache is not cleared
  before the first step: what AppliancesSimulator and its subclasses report right
  after the construction is that of appliances that are all off (C114_first_refuted;
  C104 is about the values without cache).

Heating and thermostats

* HeatDemand is built without step size (C48, C78); the demand of an external
  cylinder is stale in steps that do not name it (C109); with 'room_estimation' the
  demand for the room is given to the emitters and the room stays colder (C48).
* A nan in an external heat array marks the household as external (C75); totals are
  stale with external outputs (C76); gas energy is 3600 times too large, zero
  ratings give nan, and the rating can be exceeded (C77); the cylinder flag lags
  by one step and sticks (C79); a five litre cylinder is unstable (C49).
* Constructor options of the thermostat simulator are unusable (C82); households
  empty at the start are heated (C80); schedules off the ten minute grid never
  change, and returns can come after the bed time (C81).

Metrics

* load_duration of a one dimensional profile fails (C53); normalised changes are
  binned in watts, unit edges refused, changes at the first edge dropped, and the
  distribution is shorter than the bins when the last ones are empty (C84).
* Constant tables make the duration metric fail (C51); a state in only one table is
  a KeyError and the divisor is T + 1 (C85); graph metrics: wrong time, density
  above one, division by zero (C87); two digit states and Levenshtein (C54).

Subgroups and loaders

* The household type wins over a contradicting number of residents (C56); a number
  and the list of that number share a name (C89); the order is the reverse of the
  documented one (C90).
* Number keys become texts (C57); single precision becomes double (C91); dense and
  sparse transition matrices share a file, so that one cannot be loaded after the
  other (C92); historical data before the start are accepted silently (C93); names
  with '&' are split (C94).

Climate and load

* The simulated climate stops with StopIteration at the end of a month (C58).
* Irradiances of a start after midnight are ahead by the time of day of the start;
  the first reading is zero (C95).
* Dark minutes of the day have zero degrees, a day without light is a ValueError,
  one without night nan, and the night does not end at the temperature of the
  sunrise (C97); gaps in the data shift all later values (C98); the initial clearness
  is that of midnight before the start, not of the start (C170).
* The activities of a LoadSimulator are ahead of its clock by up to nine minutes
  (C59_activities_ahead). Its `step_size` reaches only the climate simulator.

German time of use survey

* 'other' is cut to the width of the longest label (C119); the secondary activities
  are never read although asked for (C120); two states can share a label (C121).
* Daily starts are no distributions and those of active occupancy count its ends
  (C123); coming home between two travels is never seen, and a missing answer about
  the start means home (C125); the missing place at the end is taken from the
  previous diary (C133).
* Seven active members are the same sparse state as one at work (C128); 'last' of
  the sparse matrices overwrites the first observed matrix by the wrap-around (C129);
  a household with one member asleep at home and one awake outside has one active
  occupant in the activity profiles (C130).
* The choice of diaries looks at every second report of a missing day only (C135);
  lists and '1_retired' switch the three flags on again (C136); family_situation is
  accepted and ignored (C137).
* Crest4StatesModel: before the first change between week and weekend the step of slot j
  uses matrix j+1, afterwards matrix j; the first ten minutes of Saturday and Monday use
  the tables of the day before; a start that is not a multiple of ten minutes away from
  the refresh time never changes tables (C140).
* SubgroupsIndividualsActivitySimulator: with a calendar flag the first two steps use
  the same matrix and all later steps are shifted by one slot with respect to a simulator
  without calendar (C143); contradictory flags are accepted by the constructor when the
  start is the refresh time and raise at the first step (C142).
* DESTATIS: a revenue of zero and households of six or more are refused although the
  sheet has a column for them, and a lone parent with four children is read in the column
  of five-person households (C145); a type listed twice in the sheet, as laptop_computer,
  mixes the copies of both rows so that the average agrees with neither (C146).
* A measured profile whose length is a multiple of the step gets a further step of
  zero load, and fractions of a second in the step size are dropped (C147). Two
  tracebase directories of one demod type ('Projector', 'VideoProjector') overwrite
  each other's profiles when file names agree (C148).
* A dish washer is switched off when nobody is active, although the code means to exempt
  it: the third argument of `np.logical_or` is the output array (C150). Types that look
  like a numbered copy of another type break the ownership dictionary (C151). A first
  clearness row with up to a tenth of mass elsewhere is accepted and rescaled, so that
  the first state does not always go to the second (C154).
* Input sheets: an empty flag cell is true and columns whose names differ only in
  spaces collide (C155); a type repeated in the sheet (C156); fisher lighting is refused
  by an IndexError (C162).
* The parsed climate of a country is kept without its weighting, and under the spelling
  used: another weighting, or an update under the code, gives stale data (C158).
* An array saved as archive is hidden by an npy file of the same name, and a name with
  the suffix is written but not found (C159).
* FfE: labels can be loaded once without pickle and never again, and the labels returned
  cannot be given to load_labels_name (C160).
* Tracebase: fractions of a second are dropped; an update leaves profiles of other step
  sizes stale and files removed from the archive in place; an update before the first
  download deletes the parsed profiles and fails (C161).
* Populations are arrays when parsed and lists when read back; a numpy number in a
  dictionary written without conversion leaves a broken file, so that every later load
  fails; ownership is kept without the time attributes (C163).
* set_external_heating_system is forgotten by the next step that names no external heat:
  the internal system heats again, with the cylinder of the new one, and its power is
  reported; a power read before the call is still reported after it (C174).
* Transitions of the time use survey: the number of states cannot be given without
  initial states, and the number of times deduced from the transitions drops what follows
  the last one (C180); the number of states deduced from the transitions ignores the
  initial states (C181, an IndexError).
* stack_states: a number of states smaller than that of the data gives a ValueError or
  proportions that do not sum to one, when the greatest state is not seen at all times
  (C184).
* RMSE accepts arrays of different shapes that can be broadcast (C185);
  profiles_variety does not return an array of n_profiles times n_profiles, and is nan
  for one profile (C187).
* SubgroupsActivitySimulator forgets the households of a longer list of numbers, and
  refuses by a TypeError of the call the objects that its check accepts (C188).
* SparseActivitySimulator can never be created (C189).
* The example simulators enforce no maximum of residents and no minimum of zero, and never
  start with a full household (C193).
* GTOU: parsed data on the disk do not spare the download (only the survey and the zip are
  looked for), `clear_parsed_data` fails for an activity without a folder, and when the zip
  is there the folder is left as it is: empty for a second version or after a download that
  was no archive (C198).
* Crest and Tracebase: an interrupted download leaves a part of the file, which the next
  construction uses (C199, C200).
* Tracebase: `update_raw_data` fails when there is no archive yet, after erasing the parsed
  data; it leaves the parsed data of other step sizes, and raw files which the new archive
  does not have (C200).
* The older lighting simulator keeps fractions of minutes: a bulb goes out with a negative
  time left, is no longer "off" for the test `== 0`, and cannot be lit again before the
  household has been empty (C201).  It may also give no bulb to anybody (C202).
* The older heating simulators cannot be used as they are: the constructor of the system calls
  `read_heating_system`, which no class has, the pumps look for keys which the controls do not
  return, the controls fail unless the first minute is a half hour, their tables count from the
  start, the list `[p, 1 - p]` is used as a cumulative distribution, and the thermostat of the
  cylinder never switches off (C203, C204).
* The older appliance simulator cannot be created with "CREST" or "GTOU": its dictionaries lack
  keys the base class reads.  Its steps left go below zero for fractional cycles, and the two
  washing machines are then read as drying, 2500 W (C205).
* Helpers: an appliance whose activity is unknown keeps its whole chance of being switched on,
  and file names of subgroups are not unique (C207, C208).
* CREST: version 2.3.3 has a place (India) but no model of the temperatures (C210).
* FfE: household labels in an array have no names, since numpy integers are not ints; a text that is not empty recurses without end (C215).
* Bulbs: the CREST loader reads at most 100 configurations of 38 bulbs, the Excel input file all of them (C217).

## Axioms

`Print Assumptions` was executed for every theorem of the manifest. All theorems of the
manifest are closed under the global context (no axiom), except

* `C96_bounds`, `C96_higher`, `C96_noon`, `C96_symmetric`, `C96_summer` (real
  analysis) and the theorems `C185_*`, `C186_*`, `C187_*` about square roots and `C192_*` about logarithms, which depend on the axioms of the standard library's real numbers:
  `ClassicalDedekindReals.sig_forall_dec`, `ClassicalDedekindReals.sig_not_dec`,
  `FunctionalExtensionality.functional_extensionality_dep` and
  `Classical_Prop.classic` (the last for `C96_*` and `C192_*` only).

`coqchk` also lists the opaque definitions of `Coq.Reals.Rdefinitions` and of
`Coq.ssr.ssrunder`, which are sealed by module types of the standard library.
