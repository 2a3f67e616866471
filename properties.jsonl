{"id": "C01", "title": "Inverse-CDF sampling hits exactly the right interval", "statement": "monte_carlo_from_cdf / monte_carlo_from_1d_cdf return state i for a uniform draw r exactly when cdf[i] is the first cumulative value strictly above r; for a non-decreasing cdf whose last value exceeds r this is the half-open interval cdf[i-1] <= r < cdf[i], so the set of draws producing state i has length equal to the probability of i.", "quantifier": "every cdf row of every length, every draw r in [0,1), every number of samples", "why_tests_cant": "The draw is continuous and internal to numpy; a test observes a handful of random outputs and cannot exclude a boundary draw or a long row.", "anchors": ["demod/utils/monte_carlo.py: monte_carlo_from_1d_cdf, monte_carlo_from_cdf, monte_carlo_from_1d_pdf, monte_carlo_from_pdf"]}
{"id": "C02", "title": "Sampling never returns a state of probability zero", "statement": "Whatever the draw, a state whose probability in the given pdf is zero is never returned by monte_carlo_from_pdf / monte_carlo_from_1d_pdf when the pdf sums to one; and for cumulative rows that end below the draw (rounding, rows accepted by check_valid_cdf) the behaviour is that state 0 is returned even if its probability is zero.", "quantifier": "every non-negative pdf, every draw in [0,1)", "why_tests_cant": "The offending draws form a tiny interval next to 1; random tests practically never hit it.", "anchors": ["demod/utils/monte_carlo.py: monte_carlo_from_1d_cdf, monte_carlo_from_1d_pdf", "demod/utils/distribution_functions.py: check_valid_cdf"]}
{"id": "C03", "title": "rescale_pdf returns genuine distributions and rejects the rest", "statement": "rescale_pdf raises ValueError iff some row sum lies outside the open tolerance interval (1-eps, 1+eps); otherwise every returned row sums to exactly one, has the shape of the input, keeps zero entries zero, keeps the ratios of entries within a row, and rescaling again changes nothing.", "quantifier": "every table of rows, every eps in (0,1]", "why_tests_cant": "Acceptance and preservation are statements about all tables and all tolerances, including rows exactly on the boundary.", "anchors": ["demod/utils/distribution_functions.py: rescale_pdf"]}
{"id": "C04", "title": "check_valid_cdf / rescale_cdf accept exactly the admissible tables", "statement": "check_valid_cdf returns True iff each row is non-decreasing, lies in [0, 1+1e-6] and ends strictly within 1e-6 of one, and raises ValueError otherwise; rescale_cdf maps an accepted row to one that ends exactly at one and stays non-decreasing.", "quantifier": "every table of cumulative rows", "why_tests_cant": "An iff over all tables cannot be covered by examples; boundary rows decide it.", "anchors": ["demod/utils/distribution_functions.py: check_valid_cdf, rescale_cdf"]}
{"id": "C05", "title": "Population sampling conserves the number of households", "statement": "For either sampling algorithm, when sample_population returns, the subgroup sizes are non-negative and sum to exactly the requested number of households.", "quantifier": "every number of households, every pdf accepted by the validity check, every sequence of draws", "why_tests_cant": "The sum must hold for every pdf, including those with rounding error, and for all random draws.", "anchors": ["demod/simulators/util.py: sample_population"]}
{"id": "C06", "title": "Deterministic population split follows the requested shares", "statement": "With population_sampling_algo='real_population' and a pdf summing to one, subgroup i receives a number of households that differs from p_i*(n-1) by less than one for every subgroup but the first, which receives floor(p_0*(n-1))+1; the result always has one entry per subgroup; in particular non-first subgroups with share zero receive nobody.", "quantifier": "every number of households n, every exact pdf", "why_tests_cant": "Quota error bounds quantify over all populations and all n.", "anchors": ["demod/simulators/util.py: sample_population"]}
{"id": "C07", "title": "External overrides replace exactly the specified entries", "statement": "assign_external_array returns the base values when no external array is given; otherwise each entry is the external one where it is not NaN and the base one elsewhere; an external array of another length is refused with IndexError. assign_external_dict does this key by key, leaves the other keys alone, and fails on an unknown key.", "quantifier": "every base/external array of equal length, every dictionary of arrays", "why_tests_cant": "Frame conditions (nothing else changes) range over all entries and keys.", "anchors": ["demod/simulators/util.py: assign_external_array, assign_external_dict"]}
{"id": "C08", "title": "Step counting of a simulator", "statement": "After initialize_starting_state(s) and k calls of step, current_time_step equals s+k, exactly s steps were performed during the initialization, and negative or non-integer s is rejected before anything runs.", "quantifier": "every start step s, every number k of steps, every simulator state update", "why_tests_cant": "Unbounded step counts and arbitrary subclass behaviour.", "anchors": ["demod/simulators/base_simulators.py: Simulator.initialize_starting_state, Simulator.step"]}
{"id": "C09", "title": "Logger records are aligned with steps", "statement": "For a simulator with a logger initialised at any start step and then stepped k times, logger.get(attr) has exactly k entries and entry j is the value of the attribute observed after initialization and j steps; logging during the initialization steps leaves no trace.", "quantifier": "every history of steps, every attribute, every start step, aggregated or not", "why_tests_cant": "Alignment is a statement about every position of an unbounded history.", "anchors": ["demod/simulators/base_simulators.py: SimLogger.visit_simulator, SimLogger.get, SimLogger.clear, Simulator.initialize_starting_state, Simulator.step"]}
{"id": "C10", "title": "Logger clear, merge and copy keep data consistent", "statement": "After clear every attribute is empty; clearing one attribute leaves the others' data alone; adding two loggers succeeds iff their lengths agree and then exposes both sets of attributes; a copy has the same attributes and no data.", "quantifier": "every logger state reachable by visits, clears, copies and additions", "why_tests_cant": "Interleavings of the logger operations are unbounded.", "anchors": ["demod/simulators/base_simulators.py: SimLogger.clear, SimLogger.__add__, SimLogger.copy"]}
{"id": "C11", "title": "Cached getters are transparent", "statement": "A getter decorated with cached_getter returns, for every sequence of getter calls and steps in which state changes only happen before the base step() of each step, the same value as the undecorated getter would; attaching a logger does not change what the getters return.", "quantifier": "every interleaving of getter calls and steps, every state, every getter", "why_tests_cant": "Cache staleness shows only for particular interleavings of getters, loggers and steps.", "anchors": ["demod/simulators/base_simulators.py: cached_getter, Simulator.step, SimLogger.visit_simulator", "demod/simulators/sparse_simulators.py: SparseStatesSimulator.step"]}
{"id": "C12", "title": "A multi-simulator behaves like its sub-simulators side by side", "statement": "For every list of sub-simulators and every sequence of step arguments, the multi-simulator gives each sub-simulator exactly its own contiguous slice of each argument, its number of households is the sum, and each of its getters is the concatenation of the sub-simulators' getters, so household j of the multi-simulator evolves as the corresponding household of the corresponding sub-simulator run alone.", "quantifier": "every number and size of sub-simulators, every history of per-household arguments", "why_tests_cant": "Ranges over all partitions of households and all argument histories.", "anchors": ["demod/simulators/base_simulators.py: MultiSimulator.step, MultiSimulator._create_multi_getter"]}
{"id": "C13", "title": "Subgroup masks select exactly the matching households", "statement": "get_mask_subgroup has one entry per household, and the entry is true iff the sub-simulator holding that household has every requested key with the requested value.", "quantifier": "every list of sub-simulators with arbitrary subgroup dictionaries, every requested subgroup", "why_tests_cant": "Ranges over all dictionaries and household layouts.", "anchors": ["demod/simulators/base_simulators.py: MultiSimulator.get_mask_subgroup"]}
{"id": "C14", "title": "Time-aware initialization lands on the requested start", "statement": "Whatever the initialization time (time of day, earlier datetime, or none), after initialize_starting_state the current time equals the start datetime given at construction, the steps performed cover floor((start-init)/step) steps, a time of day is resolved to its latest occurrence not after the start, and a later datetime is rejected.", "quantifier": "every start datetime, step size and initialization time", "why_tests_cant": "All combinations of step sizes and times, including non-dividing ones.", "anchors": ["demod/simulators/base_simulators.py: TimeAwareSimulator.initialize_starting_state, TimeAwareSimulator.step"]}
{"id": "C15", "title": "Simulated clock never drifts", "statement": "After k steps of a time-aware simulator the current time is start + k*step_size, and two time-aware simulators started together with step sizes a and b show the same time after m and n steps iff m*a = n*b.", "quantifier": "every start, step size and number of steps", "why_tests_cant": "Unbounded number of steps.", "anchors": ["demod/simulators/base_simulators.py: TimeAwareSimulator.step"]}
{"id": "C16", "title": "After-next-day callback fires once per calendar day", "statement": "With Callbacks.after_next_day and a positive step of at most one day, the callback runs in a step iff the calendar date changes in that step, hence exactly once per midnight crossed, over any number of steps, months and years.", "quantifier": "every start datetime, every step size of at most 24h, every number of steps", "why_tests_cant": "Month ends, leap years and step alignment give unboundedly many cases.", "anchors": ["demod/simulators/base_simulators.py: Callbacks.after_next_day"]}
{"id": "C17", "title": "Before-next-day callback fires before every new day", "statement": "With Callbacks.before_next_day and a positive step of at most one day, the callback runs in a step iff that step moves to a new calendar day.", "quantifier": "every datetime and step size of at most 24h", "why_tests_cant": "Only particular calendar days (the last of a month) reveal a failure.", "anchors": ["demod/simulators/base_simulators.py: Callbacks.before_next_day", "demod/simulators/weather_simulators.py: CrestClimateSimulator.step"]}
{"id": "C18", "title": "4am callbacks fire exactly once per day", "statement": "With Callbacks.before_next_day_4am / after_next_day_4am and a positive step of at most one hour, the callback runs exactly in the steps that cross 4 am from before to at-or-after, i.e. once per day; for larger steps it can be missed.", "quantifier": "every datetime, every step size up to one hour, every number of steps", "why_tests_cant": "Every alignment of the step grid relative to 4 am must be covered.", "anchors": ["demod/simulators/base_simulators.py: Callbacks.before_next_day_4am, Callbacks.after_next_day_4am"]}
{"id": "C19", "title": "Refresh-time callbacks fire exactly once per day", "statement": "If the step size divides 24h and the start is aligned with data.refresh_time, the before/after_refresh_time callbacks run in exactly one step per 24h, namely the step starting at the refresh time; if the grid is misaligned they never run.", "quantifier": "every start, refresh time and step size dividing a day, any number of days", "why_tests_cant": "Unbounded horizon and all alignments.", "anchors": ["demod/simulators/base_simulators.py: Callbacks.before_refresh_time, Callbacks.after_refresh_time"]}
{"id": "C20", "title": "Sparse matrices read back what was written", "statement": "After tpm[t] = M, reading tpm[t] gives M, reading any other time gives what it gave before, and times are understood modulo the number of times, including negative ones; matrices of the wrong shape are rejected and change nothing.", "quantifier": "every sparse TPM, every time index (also negative or past the end), every matrix", "why_tests_cant": "Read-over-write laws quantify over all contents, times and histories.", "anchors": ["demod/utils/sparse.py: SparseTPM.__getitem__, SparseTPM.__setitem__, SparseTPM._check_int_time_value"]}
{"id": "C21", "title": "Sparse Monte Carlo equals dense Monte Carlo", "statement": "When the stored transitions of the time are ordered by origin, non-negative and each origin's probabilities sum to one, sparse_monte_carlo with given draws returns for each household the state that inverse-CDF sampling of that household's own row with its own draw gives; households do not influence one another.", "quantifier": "every number of households and states, every state vector, every draws in (0,1)", "why_tests_cant": "The flattened cumulative search mixes all origins; independence must hold for all combinations.", "anchors": ["demod/utils/sparse.py: SparseTPM.sparse_monte_carlo"]}
{"id": "C22", "title": "Dead states are resolved", "statement": "If a household sits in a state without outgoing transition and a dead_state_value with outgoing transitions is configured, sparse_monte_carlo samples that household as if it was in dead_state_value and the others as if nothing happened; if the dead_state_value is itself dead the call never returns.", "quantifier": "every state vector and transition set", "why_tests_cant": "Termination and frame conditions over all inputs.", "anchors": ["demod/utils/sparse.py: SparseTPM.sparse_monte_carlo"]}
{"id": "C23", "title": "Inconsistent sparse inputs are rejected", "statement": "SparseTPM raises ValueError when the four arrays do not have the same length.", "quantifier": "every four lengths", "why_tests_cant": "The chained comparison is right on many lengths and wrong on particular bit patterns.", "anchors": ["demod/utils/sparse.py: SparseTPM.__init__"]}
{"id": "C24", "title": "Sparse save/load round trip", "statement": "Loading a saved SparseTPM gives the same transitions, and the same matrix at every time, provided its size was inferred from the data.", "quantifier": "every sparse TPM", "why_tests_cant": "Round trip over all contents; sizes given explicitly are the failing case.", "anchors": ["demod/utils/sparse.py: SparseTPM.save, SparseTPM.load"]}
{"id": "C25", "title": "Transition extraction is complete and exact", "statement": "states_to_transitions lists exactly the (time, person) pairs where the person's state differs from their previous state (cyclically), each once, with the correct old and new state.", "quantifier": "every diary table: any number of persons and time steps", "why_tests_cant": "Completeness and exactness over all diaries.", "anchors": ["demod/utils/parse_helpers.py: states_to_transitions"]}
{"id": "C26", "title": "Episode durations tile the day", "statement": "With return_duration, for every person with at least one transition the durations of their episodes are positive and sum to the number of time steps of the diary, and each duration is the number of steps the new state lasts (cyclically).", "quantifier": "every diary table", "why_tests_cant": "A sum over an arbitrary number of episodes.", "anchors": ["demod/utils/parse_helpers.py: states_to_transitions"]}
{"id": "C27", "title": "Estimated TPMs are stochastic matrices of empirical frequencies", "statement": "Every row of every matrix returned by states_to_tpms is a probability distribution; where the origin state was observed the entry is the number of observed transitions over the number of observations of the origin, and unobserved states stay put with probability one.", "quantifier": "every diary table with valid states, both supported first-matrix algorithms", "why_tests_cant": "Row sums and frequencies over all data sets.", "anchors": ["demod/utils/parse_helpers.py: states_to_tpms, first_tpm_change"]}
{"id": "C28", "title": "counts_to_pdf normalises every row", "statement": "counts_to_pdf returns non-negative rows summing to one, proportional to the counts where there are any, and concentrated on the first bin otherwise.", "quantifier": "every table of non-negative counts", "why_tests_cant": "All tables; zero rows mixed with non-zero rows.", "anchors": ["demod/utils/parse_helpers.py: counts_to_pdf"]}
{"id": "C29", "title": "State relabelling is a faithful encoding", "statement": "convert_states returns dense state indices and labels such that label[index] is the merged raw label of every original entry, equal merged labels get equal indices, and every index below the number of labels occurs.", "quantifier": "every diary table, every merging dictionary defined on its labels", "why_tests_cant": "All tables and dictionaries.", "anchors": ["demod/utils/parse_helpers.py: convert_states"]}
{"id": "C30", "title": "Initial duration pdfs", "statement": "get_initial_durations_pdfs returns for every initial state a probability distribution of the length of the first episode: the fraction of persons starting in that state whose first run has that length.", "quantifier": "every diary table", "why_tests_cant": "All diaries.", "anchors": ["demod/utils/parse_helpers.py: get_initial_durations_pdfs"]}
{"id": "C31", "title": "Markov chain activity step follows the transition matrix of the time of day", "statement": "A step of the first-order Markov activity simulator moves each household from its state s to a state of positive probability in row s of the matrix of the current time of day; the matrices are cycled with the day and the number of households is unchanged.", "quantifier": "every state vector, every tpm set with stochastic rows, every draw, every number of steps", "why_tests_cant": "All histories of draws.", "anchors": ["demod/simulators/activity_simulators.py: MarkovChain1rstOrder.step"]}
{"id": "C32", "title": "Semi-Markov states last exactly their sampled duration", "statement": "In the semi-Markov activity simulator each episode entered with a sampled duration d >= 1 lasts exactly d steps for that household and other households are not affected.", "quantifier": "every sequence of sampled states and durations, every household", "why_tests_cant": "An off-by-one shows over unbounded episodes only as a bias.", "anchors": ["demod/simulators/activity_simulators.py: SemiMarkovSimulator.step, SemiMarkovSimulator.initialize_starting_state"]}
{"id": "C33", "title": "Sparse state labels encode occupant counts", "statement": "For household states built as the sum of the members' base-7 codes, get_n_doing_state(a) is the number of members in activity a as long as there are at most 6 members; with 7 members a count can overflow into another activity.", "quantifier": "every household composition, every number of activities", "why_tests_cant": "All multisets of members.", "anchors": ["demod/simulators/sparse_simulators.py: SparseStatesSimulator.get_n_doing_state", "demod/datasets/GermanTOU/parser.py: get_data_sparse9states"]}
{"id": "C34", "title": "Occupancy bounds of the transit-state simulator", "statement": "For every reachable label, 0 <= get_active_occupancy <= get_occupancy <= n_residents, and thermal gains are 147 W per active and 84 W per passive present occupant.", "quantifier": "every household state label of at most n_residents members", "why_tests_cant": "All states.", "anchors": ["demod/simulators/sparse_simulators.py: SparseTransitStatesSimulator.get_occupancy, get_active_occupancy, get_thermal_gains"]}
{"id": "C35", "title": "CREST occupancy bounds", "statement": "For every four-state label 10*h+a of a household with n residents (h, a <= n <= 9), active occupancy <= occupancy <= n, active occupancy <= number of active people, and thermal gains are non-negative and equal 147 per active plus 84 per remaining present occupant.", "quantifier": "every label", "why_tests_cant": "All labels and household sizes.", "anchors": ["demod/simulators/crest_simulators.py: CrestOccupancySimulator.get_occupancy, get_active_occupancy, get_thermal_gains"]}
{"id": "C36", "title": "Time of day to 10-minute index", "statement": "The start index computed from a datetime is the number of whole ten-minute slots since 4 am, lies in [0,144), and advances by one (modulo 144) when the time advances by ten minutes.", "quantifier": "every time of day", "why_tests_cant": "All times of day including the 4 am wrap.", "anchors": ["demod/simulators/sparse_simulators.py: SparseStatesSimulator._getstart_time_step_from_datetime"]}
{"id": "C37", "title": "Appliance usage runs for the sampled cycle then rests for the delay", "statement": "An appliance switched on with a cycle of d steps is reported in use for exactly d steps, then is unavailable for the restart delay, and only then may be switched on again; other appliances and households are not affected.", "quantifier": "every household/appliance, every duration and delay, every number of steps", "why_tests_cant": "Per-appliance timers over unbounded histories.", "anchors": ["demod/simulators/appliance_simulators.py: AppliancesSimulator.switch_on, update_iteration_variables, get_mask_available_appliances, get_current_usage"]}
{"id": "C38", "title": "Appliance power accounting", "statement": "Household electric power is non-negative, is zero for appliances the household does not own, is standby power for owned idle appliances and the cycle power for appliances in use; the household demand is the sum over its appliances.", "quantifier": "every usage state, availability mask and non-negative power table", "why_tests_cant": "All states.", "anchors": ["demod/simulators/appliance_simulators.py: AppliancesSimulator.get_current_power_consumptions, get_power_demand"]}
{"id": "C39", "title": "Only owned and free appliances are switched on", "statement": "In the occupancy-driven appliance simulator an appliance starts in a step only if it is owned, idle, past its restart delay and the draw is below its switch-on probability.", "quantifier": "every state, every draw", "why_tests_cant": "All states and draws.", "anchors": ["demod/simulators/appliance_simulators.py: OccupancyApplianceSimulator.step, AppliancesSimulator.get_mask_available_appliances"]}
{"id": "C40", "title": "Appliance type matching", "statement": "find_closest_type returns the longest non-empty suffix (in underscore-separated words) of the type that is present in the available types, or False when there is none.", "quantifier": "every type name and list of available types", "why_tests_cant": "All strings.", "anchors": ["demod/utils/appliances.py: remove_start, find_closest_type"]}
{"id": "C41", "title": "Fisher lighting bounds", "statement": "Lighting power of the Fisher model is between 0 and max-per-occupant times active occupancy, is monotone decreasing in irradiance, full below the lower threshold and zero above the upper one or when nobody is active.", "quantifier": "every irradiance, occupancy and parameters with min < max", "why_tests_cant": "Continuous inputs.", "anchors": ["demod/simulators/lighting_simulators.py: FisherLightingSimulator.step, get_power_consumption"]}
{"id": "C42", "title": "Bulbs need an active occupant and stop on time", "statement": "In the CREST lighting simulator no bulb is lit in a household without active occupants; a lit bulb with sampled duration d stays lit for exactly d steps while occupants stay active; consumption is the sum of the powers of lit bulbs.", "quantifier": "every bulb configuration, every history of occupancy, irradiance and draws", "why_tests_cant": "Unbounded histories.", "anchors": ["demod/simulators/lighting_simulators.py: CrestLightingSimulator.step, get_electric_consumptions"]}
{"id": "C43", "title": "A car is never charging while away", "statement": "At all times a car that is in use is not charging, and charging cars have remaining charging time at least one; the household's charging demand is its station power times the number of its charging cars.", "quantifier": "every history of occupancies and draws, every fleet", "why_tests_cant": "An invariant over unbounded histories.", "anchors": ["demod/simulators/car_simulator.py: ElectricCarSimulator.step, start_charging, update_charging, get_electric_consumption"]}
{"id": "C44", "title": "Cars are conserved and move one at a time", "statement": "In each step at most one car per household arrives and at most one leaves, no car arrives that was not away and none leaves that was away, and no car moves in the ignored transition step of the day.", "quantifier": "every state and draw", "why_tests_cant": "All fleets and histories.", "anchors": ["demod/simulators/car_simulator.py: ElectricCarSimulator.step"]}
{"id": "C45", "title": "Thermostat hysteresis", "statement": "A thermostat that is on stays on while the temperature is below target plus dead band and switches off otherwise; one that is off switches on iff the temperature is at most target minus dead band; so within the dead band it never switches, for any temperature trajectory.", "quantifier": "every trajectory of temperatures and targets", "why_tests_cant": "Continuous trajectories.", "anchors": ["demod/simulators/heating_simulators.py: Thermostats.step"]}
{"id": "C46", "title": "Heating system output limits", "statement": "The domestic-hot-water output is between 0 and the hot-water maximum, the space-heating output between 0 and the space maximum, their sum never exceeds the larger of the two maxima, an output is zero when its control is off, and the total is their sum.", "quantifier": "every demand, control state and non-negative ratings", "why_tests_cant": "Continuous demands, all control combinations.", "anchors": ["demod/simulators/heating_simulators.py: HeatingSystem.step"]}
{"id": "C47", "title": "Heat split conserves energy", "statement": "Splitting an externally supplied heat output between hot water and space heating conserves it: dhw + space = supplied, both non-negative, demands are met in the documented priority when there is enough.", "quantifier": "every supplied output and demands", "why_tests_cant": "Continuous inputs.", "anchors": ["demod/simulators/heating_simulators.py: FiveModulesHeatingSimulator._split_heat_outputs_dhw_sh"]}
{"id": "C48", "title": "Heat demand reaches the target in one step", "statement": "If the computed hot-water (emitter) heat demand is delivered exactly, the thermal model's cylinder (emitter) temperature after one step is exactly target plus dead band (target plus five degrees), whatever the other temperatures, provided both use the same step size.", "quantifier": "every temperature state, thermal parameters and step size", "why_tests_cant": "An identity over real parameters.", "anchors": ["demod/simulators/heating_simulators.py: HeatDemand.step, BuildingThermalDynamics.step"]}
{"id": "C49", "title": "Thermal model conserves energy and is stable", "statement": "One step of the building thermal dynamics changes total stored heat by exactly the step times (inputs minus losses to outside and cold water); with a sufficiently small step the temperatures stay within the range spanned by previous temperatures, outside temperature and cold water when no heat is added.", "quantifier": "every temperature state and non-negative parameters", "why_tests_cant": "Real-valued identity and invariant over unbounded steps.", "anchors": ["demod/simulators/heating_simulators.py: BuildingThermalDynamics.step"]}
{"id": "C50", "title": "Thermostat set-points stay in their documented ranges", "statement": "For the fluctuating patterns the set-point after every step is the low temperature or within mean +/- deviation of the household; on-off households have the mean when occupied and the low temperature when empty.", "quantifier": "every occupancy history and draws", "why_tests_cant": "Unbounded histories.", "anchors": ["demod/simulators/heating_simulators.py: VariableThermostatTemperatureSimulator.step, update_fluctuators, update_onoff, update_constant"]}
{"id": "C51", "title": "State durations tile every profile", "statement": "get_states_durations returns for every profile the lengths of its cyclic runs: positive, summing to the profile length, with labels equal to the state of the run, consecutive labels distinct.", "quantifier": "every table of states", "why_tests_cant": "All profiles.", "anchors": ["demod/metrics/states.py: get_states_durations, get_durations_by_states"]}
{"id": "C52", "title": "Diversity and coincidence factors", "statement": "For non-negative load profiles with positive peak, the diversity factor is at least one, the coincidence factor is its inverse, at most one, and both equal one iff all peaks coincide.", "quantifier": "every number of profiles and time steps", "why_tests_cant": "All load tables.", "anchors": ["demod/metrics/loads.py: diversity_factor, coincidence_factor"]}
{"id": "C53", "title": "Load duration curves", "statement": "load_duration returns for each profile and load the number of steps with at least this load; it is non-increasing in the load and equals the profile length at the smallest load.", "quantifier": "every load table", "why_tests_cant": "All tables.", "anchors": ["demod/metrics/loads.py: load_duration"]}
{"id": "C54", "title": "Levenshtein edit distance", "statement": "levenshtein_edit_distance is the minimal number of insertions, deletions and substitutions transforming one profile into the other; it is a metric.", "quantifier": "every pair of sequences", "why_tests_cant": "Minimality over all edit scripts.", "anchors": ["demod/metrics/states.py: levenshtein_edit_distance"]}
{"id": "C55", "title": "Time attributes of a subgroup", "statement": "add_time sets weekday to the week-day or week-end list (or the day number) and quarter to 1..4 according to the date, touches no other key, and rejects contradictory flags; removing the time attributes afterwards restores a subgroup that had none.", "quantifier": "every subgroup and date, every flag combination", "why_tests_cant": "All dates and dictionaries.", "anchors": ["demod/utils/subgroup_handling.py: add_time, remove_time_attributues"]}
{"id": "C56", "title": "Household subgroups to persons", "statement": "subgroup_households_to_persons yields as many persons as residents in the household and only subgroups derived from it.", "quantifier": "every accepted household subgroup", "why_tests_cant": "All subgroups.", "anchors": ["demod/utils/subgroup_handling.py: subgroup_households_to_persons"]}
{"id": "C57", "title": "Dataset caching is transparent", "statement": "A load method that finds no parsed file parses, saves and returns the data; every later load returns the same data without parsing, for any interleaving of loads of different keys, and distinct subgroups never share a file.", "quantifier": "every sequence of loads and keys", "why_tests_cant": "Interleavings are unbounded and file names must be injective over all subgroups.", "anchors": ["demod/datasets/base_loader.py: DatasetLoader._load_parsed_data, _save_parsed_data", "demod/datasets/tou_loader.py: LoaderTOU.load_tpm", "demod/utils/subgroup_handling.py: subgroup_string"]}
{"id": "C58", "title": "Daily climate never runs dry", "statement": "The CREST climate simulator has a value for every minute: its minute iterators are refilled before each new day, so stepping never fails however long the simulation runs.", "quantifier": "every start datetime and number of steps", "why_tests_cant": "Only month ends fail.", "anchors": ["demod/simulators/weather_simulators.py: CrestClimateSimulator.on_before_next_day, step", "demod/simulators/base_simulators.py: Callbacks.before_next_day"]}
{"id": "C59", "title": "Total load is the sum of its components", "statement": "LoadSimulator.get_power_demand is, at every step and for every household, the sum of the appliance, lighting and heating simulators' demands (of those included), and activities advance every tenth step only.", "quantifier": "every combination of included simulators, every number of steps", "why_tests_cant": "All configurations and histories.", "anchors": ["demod/simulators/load_simulators.py: LoadSimulator.step, get_power_demand"]}
{"id": "C60", "title": "Semi-Markov estimates are shares of the listed transitions", "statement": "Every row of the three arrays returned by states_to_tpms_with_durations is a probability distribution; each entry is the share of the transitions listed by states_to_transitions with that time, state(s) and duration, the first time step counts the persons that keep one state the whole day as staying, and rows without data stay put (matrices) or have duration zero (durations).", "quantifier": "every diary table, any number of labels, both supported first-matrix algorithms, with or without the midnight transitions", "why_tests_cant": "Ties three arrays of up to four dimensions to the transitions of all data sets.", "anchors": ["demod/utils/parse_helpers.py: states_to_tpms_with_durations"]}
{"id": "C61", "title": "Secondary transitions are attributed to the person that makes them", "statement": "Every line listed by states_to_transitions_secondary names a person whose (primary or secondary) state was the old state just before and whose current state is the new state.", "quantifier": "every pair of diary tables of the same shape", "why_tests_cant": "The order of the concatenated arrays only matters when primary and secondary states vanish at the same time step for different persons.", "anchors": ["demod/utils/parse_helpers.py: states_to_transitions_secondary"]}
{"id": "C62", "title": "Household transitions count their members", "statement": "group_hh_transitions lists every (time, new, old, household, day) for which some member makes that transition, each once, with the number of members that make it.", "quantifier": "every diary table, every assignment of diaries to households and days", "why_tests_cant": "Exact counts for all tables and groupings.", "anchors": ["demod/utils/parse_helpers.py: group_hh_transitions"]}
{"id": "C63", "title": "Changing the transition tables keeps every subject's activity", "statement": "When an activity simulator is given the tables of another day type, whose state labels may differ, each subject keeps the label it had if the new labels hold it exactly once and goes to state 0 otherwise; all states stay valid indices.", "quantifier": "every list of old and new labels, every state vector", "why_tests_cant": "All pairs of label lists, with lost and repeated labels.", "anchors": ["demod/simulators/activity_simulators.py: MarkovChain1rstOrder._assign_new_labels", "demod/simulators/sparse_simulators.py: SparseTransitStatesSimulator.update_new_day"]}
{"id": "C64", "title": "Individuals are counted in their own household", "statement": "A simulator of individuals simulates, for each household of each subgroup, exactly the persons of the description of the subgroup; counts per household count exactly the persons of that household doing the activity, so 0 <= active occupancy <= occupancy <= residents.", "quantifier": "every list of subgroups, every number of households, every state of the persons", "why_tests_cant": "The mapping of persons to households depends on all subgroups together.", "anchors": ["demod/simulators/activity_simulators.py: MultiSimulator of individuals, _parse_subgroups_input, get_n_doing_activity, get_occupancy, get_active_occupancy"]}
{"id": "C65", "title": "The clock after construction is the start time", "statement": "After construction with start_datetime, the time of a time-aware sparse activity simulator is start_datetime.", "quantifier": "every start time, every draws", "why_tests_cant": "All start times; the tests do not look at the time.", "anchors": ["demod/simulators/sparse_simulators.py: SparseStatesSimulator.initialize_starting_state"]}
{"id": "C66", "title": "The sampled hot water volume is delivered", "statement": "In the occupancy-driven appliance simulator, the hot water readings taken after each step of the cycle of a fixture sum to the volume that was drawn for the switch-on event; idle fixtures use no water; the heat demand is the water flow times the heat capacity of water.", "quantifier": "every state, every sequence of steps, every drawn volume and flow", "why_tests_cant": "The balance is over a whole cycle with fractional durations; tests look at single steps with random volumes.", "anchors": ["demod/simulators/appliance_simulators.py: OccupancyApplianceSimulator.switch_on, _switch_on_water_fixtures, get_current_water_consumptions, get_dhw_heating_demand"]}
{"id": "C67", "title": "Ownership and targets are assigned by type and occurrence", "statement": "get_ownership_from_dict / get_target_from_dict give the n-th appliance whose closest type is t the value of key t (n = 1) or t_n (n > 1), 0 when that key is missing, and the default of the appliance dictionary when no parent type is known.", "quantifier": "every list of types, every dictionary", "why_tests_cant": "The counter depends on the whole list of types and on all keys.", "anchors": ["demod/utils/appliances.py: get_ownership_from_dict, get_target_from_dict"]}
{"id": "C68", "title": "Ownership probabilities of copies sum to the average number owned", "statement": "assign_ownership_from_prob1_and_number returns probabilities in [0,1] that start with prob_1, sum to number (prob_1 when number is NaN), with all copies strictly between the first and the last owned with probability 1; it raises ValueError exactly when not 0 <= prob_1 <= min(1, number) or the algorithm is unknown.", "quantifier": "every probability and number", "why_tests_cant": "A sum over a list of unbounded length, for all rationals.", "anchors": ["demod/utils/appliances.py: assign_ownership_from_prob1_and_number"]}
{"id": "C69", "title": "Merging appliance dictionaries keeps exactly the common columns", "statement": "merge_appliance_dict keeps the keys present in both dictionaries, concatenates their arrays in order and adds the numbers of appliances.", "quantifier": "every pair of dictionaries", "why_tests_cant": "All key sets.", "anchors": ["demod/utils/appliances.py: merge_appliance_dict"]}
{"id": "C70", "title": "Lighting power has one entry per household", "statement": "The power consumption of the Fisher lighting simulator has one entry per household, right after construction and after every step.", "quantifier": "every number of households, every initial occupancy (given or not), every step", "why_tests_cant": "The default initial occupancy is a scalar that broadcasts silently, so tests that only sum or compare pass.", "anchors": ["demod/simulators/lighting_simulators.py: FisherLightingSimulator.initialize_starting_state, get_power_consumption"]}
{"id": "C71", "title": "Sampled bulbs come from the data", "statement": "Sampling the bulbs by 'randn' gives each household the integer part of its Gaussian number of bulbs, at least one, each bulb taken from the list of consumptions and zero power in the remaining places of the rectangular array; sampling by 'config' gives each household exactly the drawn configuration.", "quantifier": "every mean, deviation, penetration, consumption list, Gaussian numbers and uniform draws", "why_tests_cant": "Random numbers of bulbs and ragged rows.", "anchors": ["demod/simulators/lighting_simulators.py: CrestLightingSimulator.sample_bulbs_configuration"]}
{"id": "C72", "title": "A trip is recharged completely", "statement": "A car charged after use that comes back with so many charging steps to do and stays at home is charging for exactly this number of steps.", "quantifier": "every fleet, every trip length, consumption and station power, every later history in which the car stays at home", "why_tests_cant": "The energy balance involves the whole history of trips.", "anchors": ["demod/simulators/car_simulator.py: ElectricCarSimulator.compute_time_to_charge, start_charging, update_charging"]}
{"id": "C73", "title": "Every documented charging method can be simulated", "statement": "A simulator created with charging method 'after use', 'timers' or 'mixed' can be stepped; any other method is refused with ValueError.", "quantifier": "every number of households, every input", "why_tests_cant": "The failing method only fails at the first step.", "anchors": ["demod/simulators/car_simulator.py: ElectricCarSimulator.attributes_charging_strategy"]}
{"id": "C74", "title": "Fleet construction", "statement": "The sampled number of cars of a household, at most three, is the number of cars whose owner is that household.", "quantifier": "every number of households and every draw", "why_tests_cant": "All draws.", "anchors": ["demod/simulators/car_simulator.py: ElectricCarSimulator.sample_number_of_cars, __init__"]}
{"id": "C75", "title": "Households without external components are unaffected", "statement": "Passing external heating arrays or target temperatures that are nan for a household leaves the evolution of this household as if nothing had been passed.", "quantifier": "every household, state and input", "why_tests_cant": "Compares two executions for all states; nan propagates through thermostats and demands.", "anchors": ["demod/simulators/heating_simulators.py: FiveModulesHeatingSimulator.step, assign_external_array"]}
{"id": "C76", "title": "Reported heat outputs are consistent", "statement": "The heat outputs after a step are the external values where given, and the reported total is the sum of hot water and space heating.", "quantifier": "every state and input", "why_tests_cant": "All combinations of internal and external outputs.", "anchors": ["demod/simulators/heating_simulators.py: FiveModulesHeatingSimulator.step"]}
{"id": "C77", "title": "Energy consumption of the heating system", "statement": "The electricity demand of a household is its pump or standby power plus, for an electric heater in use, its rating times the load fraction; it never exceeds the rating; energy consumption of a fuel heater at full load equals its rated power; it is a number for every household with known fuel.", "quantifier": "every population, outputs and ratings", "why_tests_cant": "Continuous ratings and outputs, all fuels.", "anchors": ["demod/simulators/heating_simulators.py: HeatingSystem.get_power_demand, get_energy_consumption, _get_fuel_consumptions"]}
{"id": "C78", "title": "The closed loop neither overheats nor undercools", "statement": "Stepping the five modules together for any time keeps all temperatures between the lowest and highest of start, surroundings and heating goals.", "quantifier": "every number of steps, weather and hot water use; ratings and parameters of every building", "why_tests_cant": "Invariant of unbounded closed-loop executions.", "anchors": ["demod/simulators/heating_simulators.py: FiveModulesHeatingSimulator.step"]}
{"id": "C79", "title": "Heating controls", "statement": "The heater runs iff hot water or space is to be heated; space iff room and emitter thermostats are on; hot water iff its thermostat is on, or for combi boilers and external cylinders iff there is a demand; unknown demand algorithms are refused.", "quantifier": "every thermostat state, demand and configuration", "why_tests_cant": "All combinations along executions.", "anchors": ["demod/simulators/heating_simulators.py: SystemControls.step, HeatDemand.step"]}
{"id": "C80", "title": "Fluctuating set-points follow the people", "statement": "When the last resident leaves the set-point drops to the low temperature and stays there until somebody is back; arrival and waking up raise it to mean plus deviation, going to bed lowers it to the mean; otherwise it only changes for comfort, upwards from the mean; an empty household is at the low temperature.", "quantifier": "every occupancy history and draws", "why_tests_cant": "Unbounded histories.", "anchors": ["demod/simulators/heating_simulators.py: VariableThermostatTemperatureSimulator.update_fluctuators"]}
{"id": "C81", "title": "Scheduled set-points", "statement": "The sampled times are valid times of the day; a scheduled household has at any time the set-point of the latest event of its schedule, repeats every day, and has the mean temperature during the night.", "quantifier": "every draw, start time and number of steps", "why_tests_cant": "Depends on the alignment of the start time with the schedule and on rare draws.", "anchors": ["demod/simulators/heating_simulators.py: VariableThermostatTemperatureSimulator.initialize_fixed_patterns, update_constant_patterns"]}
{"id": "C82", "title": "Options of the thermostat simulator", "statement": "The documented options logger and pattern_attribution_method can be given to the constructor.", "quantifier": "every option value", "why_tests_cant": "The simulator is not covered by any test.", "anchors": ["demod/simulators/heating_simulators.py: VariableThermostatTemperatureSimulator.__init__, attribute_patterns"]}
{"id": "C83", "title": "Energy, units and coincident demand", "statement": "total_energy_consumed is the sum of the load times the step size for each profile, and adding it over profiles equals integrating the total load; J/kWh conversions are inverse to each other; time_coincident_demand is the peak of the total load per profile, and times the diversity factor gives the mean individual peak.", "quantifier": "every load table and step size", "why_tests_cant": "Identities over all tables.", "anchors": ["demod/metrics/loads.py: total_energy_consumed, time_coincident_demand", "demod/utils/converters.py"]}
{"id": "C84", "title": "Distribution of the changes in demand", "statement": "cumulative_changes_in_demand returns for each bin the share of the changes between neighbouring steps of the same profile that lie below the upper edge; it reaches one, also for normalised changes and given edges.", "quantifier": "every load table, number of bins and edges", "why_tests_cant": "All tables; the wrap-around difference must never be counted.", "anchors": ["demod/metrics/loads.py: cumulative_changes_in_demand"]}
{"id": "C85", "title": "Distribution of the state durations", "statement": "The duration distribution metric gives for every state occurring in the two tables and every duration 0..T the distance between the shares of runs of that state that last at most this long: within [0,1], zero on identical tables; the averaged variant is the mean over the T durations.", "quantifier": "every pair of state tables of equal width", "why_tests_cant": "All tables, all states, all durations.", "anchors": ["demod/metrics/states.py: state_duration_distribution_metric"]}
{"id": "C86", "title": "Average state metric", "statement": "average_state_metric is the mean over the time steps of the distance between the mean profiles; it is a pseudo-metric (nonnegative, zero on itself, symmetric, triangle inequality), and profiles of different lengths are refused.", "quantifier": "every pair/triple of tables", "why_tests_cant": "Metric laws quantify over all tables.", "anchors": ["demod/metrics/states.py: average_state_metric"]}
{"id": "C87", "title": "Graph metrics", "statement": "graph_metrics counts the distinct (time, state) nodes and the distinct transitions: network size, density (share of the possible transitions, so at most one), centrality (transitions per distinct transition, at least one) and homophily (share of transitions that keep the state; one exactly when no profile ever changes).", "quantifier": "every table of states", "why_tests_cant": "Counts over all tables.", "anchors": ["demod/metrics/states.py: graph_metrics"]}
{"id": "C88", "title": "Sparsity of a transition matrix", "statement": "sparsity is the share of entries that are not positive: 0 exactly when all are positive, 1 exactly when none is.", "quantifier": "every non-empty matrix", "why_tests_cant": "All matrices.", "anchors": ["demod/metrics/states.py: sparsity"]}
{"id": "C89", "title": "Names of subgroups", "statement": "subgroup_string does not depend on the order of the keys, and two different subgroups have different names, so that they never share a parsed file.", "quantifier": "every pair of subgroups", "why_tests_cant": "Injectivity over all dictionaries.", "anchors": ["demod/utils/subgroup_handling.py: sort_subgroup, subgroup_string"]}
{"id": "C90", "title": "Order of subgroups", "statement": "Subgroup.__gt__ is a strict total order on subgroups (equal ones are neither greater), so sorting and np.unique work; more keys are greater, then the larger value, as documented.", "quantifier": "every pair and triple of subgroups with comparable values", "why_tests_cant": "Order laws over all dictionaries.", "anchors": ["demod/utils/subgroup_handling.py: Subgroup.__gt__"]}
{"id": "C91", "title": "JSON storage keeps the data", "statement": "make_jsonable accepts every object built from dictionaries, lists, arrays, numbers, texts and None and refuses all others; what was dumped and loaded again, converted by lists_to_numpy_array, equals the converted original for nested dictionaries with text keys.", "quantifier": "every nested object", "why_tests_cant": "Arbitrarily nested objects.", "anchors": ["demod/utils/parse_helpers.py: make_jsonable, lists_to_numpy_array"]}
{"id": "C92", "title": "Transition matrices survive other loads", "statement": "After a successful load of transition matrices (dense, with durations, sparse) or of an activity dictionary, later loads of the same kind and name return the same arrays without parsing, whatever else is loaded in between.", "quantifier": "every file system, every sequence of calls and names", "why_tests_cant": "All interleavings of calls of four load methods.", "anchors": ["demod/datasets/tou_loader.py: load_tpm, load_tpm_with_duration, load_sparse_tpm, load_activity_probability_profiles", "demod/utils/sparse.py: SparseTPM.save, SparseTPM.load", "demod/datasets/base_loader.py: _load_parsed_data"]}
{"id": "C93", "title": "Historical climate begins at the requested time", "statement": "load_historical_climate_data returns the recorded points from the last one not after the requested start onwards, and raises ValueError if the start is not covered by the data.", "quantifier": "every regular series, start and step size", "why_tests_cant": "Starts on, between and around all points.", "anchors": ["demod/datasets/base_loader.py: load_historical_climate_data"]}
{"id": "C94", "title": "Real profiles keep their names", "statement": "The nested dictionary of real load profiles returned by later loads equals the one parsed at the first load, with the same types, names, order and arrays.", "quantifier": "every dictionary of profiles", "why_tests_cant": "All names, including those with the separator.", "anchors": ["demod/datasets/base_loader.py: load_real_profiles_dict"]}
{"id": "C95", "title": "Simulated irradiance belongs to the current time", "statement": "At every step of CrestIrradianceSimulator and CrestClimateSimulator, get_irradiance is the irradiance computed for the simulator's current_time, up to the one-minute step.", "quantifier": "all start times, all numbers of steps, all irradiance formulas and random numbers", "why_tests_cant": "The two clocks only drift apart for starts later than midnight; tests start at midnight or do not compare the reading with the sun's position.", "anchors": ["demod/simulators/weather_simulators.py:127-150", "demod/simulators/weather_simulators.py:205-276", "demod/simulators/weather_simulators.py:347-406"]}
{"id": "C96", "title": "Irradiance follows the sun", "statement": "The irradiance formula never raises, gives non-negative values bounded by the extraterrestrial radiation times clearness and sun height, is zero exactly when the sun is not above the horizon (or clearness is zero), grows with the height of the sun, is largest at solar noon and symmetric around it; in summer the clock is one hour ahead.", "quantifier": "all latitudes, longitudes, days of the year, times and clearness values", "why_tests_cant": "A continuum of positions and times; the domain of the arc sine depends on an inequality for all angles.", "anchors": ["demod/simulators/weather_simulators.py:167-190", "demod/simulators/weather_simulators.py:205-274"]}
{"id": "C97", "title": "Temperatures of a day", "statement": "_step_day returns one temperature per minute; while the sun shines it follows the received share of the radiation between Td_min and Td_max, reaching Td_max at the maximum; at night every minute is cooler than the one before by its cooling, and the night leads back to the temperature at sunrise.", "quantifier": "all days of non-negative irradiances and clearness values of any length, all parameters", "why_tests_cant": "Depends on the shape of the day: gaps in the light, no light, no night; unit tests only check that a run works.", "anchors": ["demod/simulators/weather_simulators.py:445-559"]}
{"id": "C98", "title": "Recorded climate shows the last data point", "statement": "RealClimate shows at every step the irradiance and temperature of the last data point not after current_time; it stops with StopIteration after the data and refuses starts outside of the data.", "quantifier": "all regularly spaced data, all starts, all numbers of steps", "why_tests_cant": "The alignment between iterator and clock matters for starts between data points and at any distance.", "anchors": ["demod/simulators/weather_simulators.py:562-680", "demod/datasets/base_loader.py:852-911"]}
{"id": "C99", "title": "Interpolated climate lies on the line between data points", "statement": "RealInterpolatedClimate shows at every step the value on the line between the two neighbouring data points (the recorded value at a data point), and raises ValueError as soon as current_time is past the data.", "quantifier": "all regularly spaced data at whole minutes, all starts in the data, all step sizes and numbers of steps", "why_tests_cant": "Every combination of start, step size and data has its own neighbours; slicing may drop a neighbour.", "anchors": ["demod/simulators/weather_simulators.py:683-812", "demod/datasets/base_loader.py:852-911"]}
{"id": "C100", "title": "External weather of the load simulator", "statement": "LoadSimulator.step uses the external temperature and irradiance when given, whatever the climate simulator shows, and the climate simulator's otherwise; without climate simulator a step missing one of them raises ValueError before any simulator moves, and with them every step succeeds as long as the sub-simulators do.", "quantifier": "all sub-simulators, all states, all combinations of given values", "why_tests_cant": "All combinations of missing values with and without climate, in every state of arbitrary sub-simulators.", "anchors": ["demod/simulators/load_simulators.py:264-344"]}
{"id": "C101", "title": "Construction of the load simulator", "statement": "A constructed LoadSimulator has the requested number of households in every sub-simulator, uses the first activity and climate class supporting the data (only NotImplementedError leads to the second one), starts its heating at the climate's temperature and its counter at zero; populations not summing to one are refused.", "quantifier": "all household counts, shares, sub-simulator constructors and their errors", "why_tests_cant": "The splitting of households into subgroups must add up for every share vector; errors of constructors cannot be enumerated.", "anchors": ["demod/simulators/load_simulators.py:26-88", "demod/simulators/load_simulators.py:186-262", "demod/simulators/util.py:83-123"]}
{"id": "C102", "title": "Ownership of appliances", "statement": "With subgroups, household h belongs to subgroup i iff the counts before i add up to at most h and with i to more than h; counts must be non-negative and add up to the number of households. Each household owns exactly the appliances whose draw is below the probability of the appliance ('basic'), of its subgroup's entry ('subgroup'), exactly those named for its subgroup ('set_defined'), or all of them ('all').", "quantifier": "all household counts, subgroup counts, dictionaries, sets and draws", "why_tests_cant": "Each household must be matched with its own subgroup for every split of the population; sampled outcomes hide a mismatch.", "anchors": ["demod/simulators/appliance_simulators.py:172-308", "demod/utils/appliances.py:71-159"]}
{"id": "C103", "title": "Assignment of load profiles", "statement": "After sample_real_load_profiles an appliance has a variable load iff its type is in the profiles of its kind ('full' for 'level' and 'constant' activities, 'switchedON' otherwise); in every household owning it, its stored number, duration and table row are those of one profile of that data, padded with zeros; unowned appliances and types without profiles have none.", "quantifier": "all appliance lists, activities, profile data, algorithms, owners and draws", "why_tests_cant": "The two passes write the same arrays; only some combinations of types and activities make them interfere.", "anchors": ["demod/simulators/appliance_simulators.py:310-530"]}
{"id": "C104", "title": "Initial state of the appliances", "statement": "A new appliance simulator has whole-day appliances with a profile in use somewhere inside the profile and everything else off, with the drawn restart delays; from there the power readings are defined after any number of steps (parent class) and after any run of the occupancy simulator.", "quantifier": "all appliance lists, profiles, owners, draws, and all runs", "why_tests_cant": "The index into the profile must stay in range in every reachable state.", "anchors": ["demod/simulators/appliance_simulators.py:110-170", "demod/simulators/appliance_simulators.py:532-551", "demod/simulators/appliance_simulators.py:983-996"]}
{"id": "C105", "title": "Activity appliances are in use while their activity is performed", "statement": "In ActivityApplianceSimulator an appliance that a household owns is in use after a step iff some resident performs its related activity in that step. Appliances of whole-day activities are always in use. A step that names the activities of the previous step never fails.", "quantifier": "all appliance dictionaries, ownerships and sequences of activity dictionaries", "why_tests_cant": "Usage depends on the whole history of counts: only changes from or to zero are acted on, so every sequence matters.", "anchors": ["demod/simulators/appliance_simulators.py:1311-1493"]}
{"id": "C106", "title": "Activity appliances always have a power reading", "statement": "After construction and any sequence of steps the power of every appliance of every household can be read: zero when not owned, stand-by power when not in use, mean power when in use without load profile, and a value of the assigned load profile otherwise; no index is out of range.", "quantifier": "all ownerships, profile data with non-empty profiles, draws and activity sequences", "why_tests_cant": "The index into the profile is a counter that is reset by several code paths; an out-of-range index needs a rare coincidence.", "anchors": ["demod/simulators/appliance_simulators.py:1375-1493", "demod/simulators/appliance_simulators.py:673-784"]}
{"id": "C107", "title": "Activity appliances go round their load profile", "statement": "When an activity begins in a household, its appliances with load profile start at the first value of the profile and read one value after the other, starting again at the end, as long as the activity lasts; whole-day appliances go round their profile for ever from the drawn position.", "quantifier": "all profiles, all durations of activities", "why_tests_cant": "The position is a counter modulo the profile length after an arbitrary number of steps and restarts.", "anchors": ["demod/simulators/appliance_simulators.py:1461-1483", "demod/simulators/appliance_simulators.py:603-621"]}
{"id": "C108", "title": "Initial temperatures of a building", "statement": "A new building has its room within one degree of the target, its walls halfway between target and outside, its emitters at room temperature where the target is reached and at nominal temperature elsewhere, its cylinder between 50 and 52 degrees and cold water at 10; a simulator started like this and stepped by minutes under mild weather stays between the extremes of outside, cold water, targets and nominal temperatures for ever.", "quantifier": "all outside temperatures, targets, nominal temperatures, draws, parameters and any number of steps", "why_tests_cant": "The start is random and the claim covers all later states.", "anchors": ["demod/simulators/heating_simulators.py:500-552", "demod/simulators/heating_simulators.py:1844-1963"]}
{"id": "C109", "title": "Reported heat demands", "statement": "After a step the demands for hot water and space heating reported by the five-module simulator are the powers that bring cylinder and emitters to their goals within a minute where they are being heated, and zero where they are not; with an external cylinder the hot water demand is the heat of the drawn water up to the target plus the cylinder losses; the total is the sum of both.", "quantifier": "all states, inputs and parameters", "why_tests_cant": "Depends on control flags, thermostats and external inputs of the whole state space.", "anchors": ["demod/simulators/heating_simulators.py:1955-2014"]}
{"id": "C110", "title": "Running probabilistic appliances are not restarted", "statement": "In ProbabiliticActivityAppliancesSimulator an owned appliance with more than one step of its cycle left is not started again by a step: it runs on with one step less, or is switched off because its activity ended.", "quantifier": "all households, appliances, activities and random draws, in all states reached by any sequence of steps and readings", "why_tests_cant": "The start decision multiplies a cached usage with random draws; tests see a few draws.", "anchors": ["demod/simulators/appliance_simulators.py:1764-1888"]}
{"id": "C111", "title": "Reasons to start of probabilistic appliances", "statement": "An appliance that is not running starts exactly if (1) somebody performs its related activity, it has no previous activity or appliance type and the draw is below its probability, (2) its previous activity ends in this step and the draw is below, or (3) an appliance of its previous type ends its cycle in this step and the draw is below. A started cycle has the sampled length. Nothing else lengthens the remaining time.", "quantifier": "all states, draws and activities, one appliance with a previous type", "why_tests_cant": "Needs the product of three trigger mechanisms over all interleavings of activities.", "anchors": ["demod/simulators/appliance_simulators.py:1764-1968"]}
{"id": "C112", "title": "End of an activity switches appliances off", "statement": "When the last resident stops an activity, the 'inactive_switch_off' appliances related to it are off after the step, with their waiting time set.", "quantifier": "all states, draws and activities", "why_tests_cant": "The outcome depends on the order of switching off and on in the loop.", "anchors": ["demod/simulators/appliance_simulators.py:1800-1843", "demod/simulators/appliance_simulators.py:1882-1888"]}
{"id": "C113", "title": "Whole-day appliances of the probabilistic simulator", "statement": "Appliances of the activities 'level' and 'constant' run all day. In this simulator they run for the time left of the sampled load profile and are off for ever after that.", "quantifier": "all runs of any length", "why_tests_cant": "Needs runs longer than any test.", "anchors": ["demod/simulators/appliance_simulators.py:1543-1572", "demod/simulators/appliance_simulators.py:1764-1847"]}
{"id": "C114", "title": "Readings do not influence the probabilistic simulator", "statement": "Reading usage or power between steps does not change later states, and what is read is in use exactly where the appliance is owned and has time left; households without the appliance read no power.", "quantifier": "all states and sequences of readings", "why_tests_cant": "The cache is filled or not depending on the caller.", "anchors": ["demod/simulators/appliance_simulators.py:662-701", "demod/simulators/base_simulators.py:16-36"]}
{"id": "C115", "title": "Steps of the probabilistic simulator are defined", "statement": "A step never raises if the activities related to appliances were also given in the previous step.", "quantifier": "all runs of steps and readings", "why_tests_cant": "Broadcasting of the arrays of stopped and following appliances depends on their lengths.", "anchors": ["demod/simulators/appliance_simulators.py:1764-1847", "demod/simulators/appliance_simulators.py:1890-1956"]}
{"id": "C116", "title": "Probabilities of starts match the targets", "statement": "The probability of an appliance times the number of steps of a year in which it could start is its yearly target; after an activity it is the target divided by the yearly starts of this activity, after an appliance the target divided by the targets of its type, and zero for unknown activities.", "quantifier": "all dictionaries, subgroups and data", "why_tests_cant": "Depends on arbitrary data tables.", "anchors": ["demod/simulators/appliance_simulators.py:1616-1750"]}
{"id": "C117", "title": "Appliances kept by the probabilistic simulator", "statement": "The simulator keeps exactly the appliances marked 'probabilistic' whose activity is simulated; together with ActivityApplianceSimulator each appliance of the dictionary with a simulated activity is simulated exactly once.", "quantifier": "all dictionaries", "why_tests_cant": "Depends on the dictionary being read before or after another simulator negated its column.", "anchors": ["demod/simulators/appliance_simulators.py:1589-1614", "demod/simulators/appliance_simulators.py:1338-1373"]}
{"id": "C118", "title": "Energy of driving and recharging", "statement": "get_car_electric_consumption reads zero for parked cars and the consumption at 23 km per hour for cars away; the charging steps a trip adds are the energy read over the whole trip divided by the power of the station, rounded down.", "quantifier": "all fleets, all runs, trips of any length", "why_tests_cant": "Energy balance over trips of unbounded length.", "anchors": ["demod/simulators/car_simulator.py:105-116", "demod/simulators/car_simulator.py:150-156", "demod/simulators/car_simulator.py:231-243"]}
{"id": "C119", "title": "Labelled diaries of the survey", "statement": "GTOU.get_states returns, for every diary of the subgroup and every time, the activity named by the dictionary for the code, 'away' for somebody not at home, and 'other' for codes without a name; unknown codes raise KeyError.", "quantifier": "all surveys, subgroups and activity dictionaries", "why_tests_cant": "Tests use the one survey file and a few dictionaries; array string widths only cut names for particular dictionaries.", "anchors": ["demod/datasets/GermanTOU/loader.py:253-333", "demod/utils/parse_helpers.py"]}
{"id": "C120", "title": "Use of secondary activities", "statement": "With use_sec_states the activity 'other' is replaced by the secondary activity of the same time when that one is not 'other'.", "quantifier": "all surveys and subgroups", "why_tests_cant": "The result always looks plausible; only comparing two surveys differing in the secondary activities shows it.", "anchors": ["demod/datasets/GermanTOU/loader.py:276-314", "demod/datasets/GermanTOU/parser.py:1765-1785"]}
{"id": "C121", "title": "Transition matrices of activities", "statement": "get_tpms_activity returns labels naming the states, each activity of the dictionary among them, the distribution at the first time and matrices with the observed frequencies.", "quantifier": "all surveys, subgroups, dictionaries, options", "why_tests_cant": "Relation between three returned arrays and the diaries for all inputs.", "anchors": ["demod/datasets/GermanTOU/parser.py:1732-1822"]}
{"id": "C122", "title": "Durations of activities", "statement": "_parse_activity_duration gives for every activity that occurs the distribution of the lengths of its runs in the diaries, going round the clock.", "quantifier": "all tables of labels with a diary that is not constant", "why_tests_cant": "Runs over the midnight boundary for arbitrary diaries.", "anchors": ["demod/datasets/GermanTOU/loader.py:335-344"]}
{"id": "C123", "title": "Daily starts of activities", "statement": "_parse_daily_activity_starts gives for every activity the distribution of the number of times a household starts it on a day; active occupancy starts when somebody wakes up or comes back.", "quantifier": "all tables, households and days", "why_tests_cant": "Household numbers with gaps and days without starts are rarely tested.", "anchors": ["demod/datasets/GermanTOU/loader.py:346-385"]}
{"id": "C124", "title": "Shares of activities over the day", "statement": "_parse_activity_probabilities gives for every activity and time the share of the diaries; the shares sum to one and active_occupancy is the share of those neither away nor asleep.", "quantifier": "all tables with somebody away and somebody asleep", "why_tests_cant": "Sum over all labels at all times for all tables.", "anchors": ["demod/datasets/GermanTOU/loader.py:387-404"]}
{"id": "C125", "title": "Occupancy from travels", "statement": "states_to_occupancy has a person at home before the first travel according to the start answer, out while travelling, and after the last travel according to the end answer; between travels the rating of the activity decides.", "quantifier": "all diaries, ratings and answers", "why_tests_cant": "Depends on the whole sequence of travels of each diary.", "anchors": ["demod/datasets/GermanTOU/parser.py:1506-1596"]}
{"id": "C126", "title": "Reason to be out", "statement": "states_to_out_for_what_model is 0 for somebody at home, 1 for somebody out with a work or school code, 2 otherwise.", "quantifier": "all tables", "why_tests_cant": "All code combinations.", "anchors": ["demod/datasets/GermanTOU/parser.py:1519-1528", "demod/datasets/GermanTOU/parser.py:1598-1615"]}
{"id": "C127", "title": "Grouping by household", "statement": "group_in_household_activity returns one row per household and day, ordered by day then household, summing the rows of its members; other lengths raise AssertionError.", "quantifier": "all tables, ids and days", "why_tests_cant": "Arbitrary interleavings of ids.", "anchors": ["demod/datasets/GermanTOU/parser.py:1668-1709"]}
{"id": "C128", "title": "States of the sparse model", "statement": "The state of a household is a + 7 wk + 49 ot with a members active at home, wk out for work or school, ot out otherwise, and determines these numbers.", "quantifier": "all surveys and subgroups", "why_tests_cant": "Uniqueness of decoding over all household compositions.", "anchors": ["demod/datasets/GermanTOU/parser.py:1875-1933"]}
{"id": "C129", "title": "Sparse transition matrices", "statement": "states_to_sparse_tpm stores for every time, state and next state the observed frequency and nothing else; option 'last' replaces the transitions of the unobserved wrap-around.", "quantifier": "all tables of states", "why_tests_cant": "Rows of all times and states sum to one for all tables.", "anchors": ["demod/datasets/GermanTOU/parser.py:1619-1666"]}
{"id": "C130", "title": "Activity profiles", "statement": "create_data_activity_profile gives for every time and number of active occupants the share of households in which somebody performs the activity.", "quantifier": "all surveys, subgroups, activities", "why_tests_cant": "Ratios over all households and times.", "anchors": ["demod/datasets/GermanTOU/parser.py:1938-2019"]}
{"id": "C131", "title": "Data of the household models", "statement": "get_data_4states and get_data_sparse9states return labels for the states of all households and days (10 home + awake; sparse digits), the initial distribution and the observed transition frequencies.", "quantifier": "all surveys and subgroups", "why_tests_cant": "End to end relation from diaries to matrices.", "anchors": ["demod/datasets/GermanTOU/parser.py:1826-1933"]}
{"id": "C132", "title": "Active occupancy of the survey", "statement": "get_active_occupancy counts at every time the persons of the subgroup at home and awake.", "quantifier": "all surveys and subgroups", "why_tests_cant": "Sum over all households equals the count over diaries.", "anchors": ["demod/datasets/GermanTOU/parser.py:1719-1730"]}
{"id": "C133", "title": "Place at the end of the diary", "statement": "A missing end place is replaced by the start place of the next day.", "quantifier": "all tables of answers", "why_tests_cant": "Only visible on particular sequences of diaries.", "anchors": ["demod/datasets/GermanTOU/parser.py:49-53"]}
{"id": "C134", "title": "Choice of diaries", "statement": "get_mask_subgroup marks exactly the diaries that satisfy every condition asked for: fully recorded households, no missing day, same day, quarter, weekday, residents, type, work type, life situation, salary, revenue, position, age, mean age, country of birth, gender.", "quantifier": "all tables of households, persons and diaries and all questions", "why_tests_cant": "Conjunction of sixteen filters over three joined tables; tests use the one survey.", "anchors": ["demod/datasets/GermanTOU/parser.py:53-59", "demod/datasets/GermanTOU/parser.py:66-245"]}
{"id": "C135", "title": "Missing days", "statement": "With remove_missing_days no diary of a day that a member of the household misses is chosen, and no other diary is left out for it.", "quantifier": "all tables", "why_tests_cant": "The trick of taking every second report depends on the order and number of the reports.", "anchors": ["demod/datasets/GermanTOU/parser.py:122-126"]}
{"id": "C136", "title": "Lists of codes", "statement": "A list of weekdays, numbers of residents or life situations chooses the union of what its elements choose.", "quantifier": "all tables, questions and lists", "why_tests_cant": "Relation between several calls with all combinations of the other arguments.", "anchors": ["demod/datasets/GermanTOU/parser.py:136-148", "demod/datasets/GermanTOU/parser.py:192-203"]}
{"id": "C137", "title": "Questions that cannot be answered", "statement": "Codes out of range, reversed intervals, unknown work types and dictionaries raise an error that fits; tables with a diary of an unknown person or a household without diaries cannot be loaded; family_situation and is_travelling have no effect.", "quantifier": "all tables and questions", "why_tests_cant": "Which of several wrong arguments is reported, for all of them.", "anchors": ["demod/datasets/GermanTOU/parser.py:56-57", "demod/datasets/GermanTOU/parser.py:66-245"]}
{"id": "C138", "title": "Population of Crest4StatesModel", "statement": "Crest4StatesModel succeeds for every positive number of households whenever the sampling gives one count per subgroup and tables exist; its clock shows the start, the whole steps since the last refresh time have been made, and n_residents lists the households subgroup by subgroup. A step_size argument, no household and an unknown algorithm are refused.", "quantifier": "all datasets with fitting tables, starts, numbers of households, draws", "why_tests_cant": "Construction runs up to 144 steps over sampled subgroups; tests build a handful of populations.", "anchors": ["demod/simulators/crest_simulators.py:229-303"]}
{"id": "C139", "title": "Runs of Crest4StatesModel", "statement": "A run of any length succeeds. The step that begins at t moves every household with the matrix designated by the calendar (tables in force, number counted from their last change) and replaces the tables exactly after the steps begun at the refresh time that end in a day of the other kind; households keep their labels through the replacement.", "quantifier": "all datasets with fitting tables, starts, draws, all numbers of steps", "why_tests_cant": "Weekly behaviour over unbounded runs and every start.", "anchors": ["demod/simulators/crest_simulators.py:305-342", "demod/simulators/activity_simulators.py:165-330", "demod/simulators/base_simulators.py:904-920"]}
{"id": "C140", "title": "Tables of the day in CREST", "statement": "At each instant the four-state model uses the matrix of that ten-minute slot for the kind of that day, whatever the start of the simulation.", "quantifier": "all starts and instants", "why_tests_cant": "The shift by one slot appears only after the first change between week and weekend.", "anchors": ["demod/simulators/crest_simulators.py:305-327", "demod/simulators/activity_simulators.py:281-330"]}
{"id": "C141", "title": "Occupancy reported by CREST", "statement": "Along every run get_states_labeled and the getters have one entry per household, the label being one loaded for its number of residents and the tables in force; with labels of two digits active occupants are between 0 and the occupants, occupants at most the residents, and thermal gains are 147 W per active and 84 W per dormant occupant.", "quantifier": "all datasets, starts, runs", "why_tests_cant": "Bounds along unbounded runs and table changes.", "anchors": ["demod/simulators/crest_simulators.py:161-189", "demod/simulators/crest_simulators.py:329-333"]}
{"id": "C142", "title": "Runs of SubgroupsIndividualsActivitySimulator", "statement": "With first-order chains a run of any length succeeds; the tables in force for each person are those of the subgroup, with the day and quarter of the end of the last step begun at the refresh time when a calendar flag is set; the matrix number is counted from that step. A step size other than ten minutes is refused, contradictory flags only when tables are first renewed.", "quantifier": "all datasets with fitting tables, persons, starts, flags, runs", "why_tests_cant": "Depends on the calendar over unbounded runs.", "anchors": ["demod/simulators/activity_simulators.py:579-632", "demod/simulators/activity_simulators.py:700-745", "demod/simulators/activity_simulators.py:770-793", "demod/simulators/activity_simulators.py:859-875"]}
{"id": "C143", "title": "Calendar of individuals", "statement": "A simulator of individuals that follows the calendar uses at each instant the tables of the current date and slot, and following the calendar with tables that do not depend on the date changes nothing.", "quantifier": "all starts and instants", "why_tests_cant": "Needs comparison of two simulators over runs.", "anchors": ["demod/simulators/activity_simulators.py:770-793", "demod/simulators/activity_simulators.py:865-875"]}
{"id": "C144", "title": "Population of the German office", "statement": "_parse_population_subgroups accepts exactly six names. Each population has pairwise different subgroups, one share per subgroup, shares that are positive and sum to one, and can be sampled for any number of households; every subgroup splits into as many persons as it has residents and has a column in the appliance sheet. Any other name is a NotImplementedError. The shares and the total number are the published ones.", "quantifier": "all names, numbers of households, sampling algorithms and draws", "why_tests_cant": "All strings and all population sizes; chains the population with the samplers, the person split and the ownership loader.", "anchors": ["demod/datasets/DESTATIS/loader.py:39-124"]}
{"id": "C145", "title": "Column of a household in the appliance sheet", "statement": "The column that _get_column_appliance_subgroup reads for a subgroup is one whose heading (transcribed from the sheet) describes it: the heading agrees with household type, number of residents, gender of a person living alone, revenue bracket or year, family types taking precedence over size, size over revenue, revenue over year. Every subgroup that fits a heading by one of these attributes gets a column.", "quantifier": "all subgroups", "why_tests_cant": "Infinitely many combinations of attributes.", "anchors": ["demod/datasets/DESTATIS/loader.py:198-323"]}
{"id": "C146", "title": "Ownership read from the appliance sheet", "statement": "For a sheet with distinct types, _parse_appliance_ownership_dict gives, for each type with both statistics, probabilities in [0, 1] for the copies type, type_2, ...; the first is the share of households owning one and, read through get_ownership_from_dict by a list with enough copies, they sum to the average number owned. A missing share gives zero, a missing number gives the share alone.", "quantifier": "all sheets, subgroups, types", "why_tests_cant": "Arbitrary sheets; composition of two functions of different modules.", "anchors": ["demod/datasets/DESTATIS/loader.py:126-196", "demod/utils/appliances.py:85-211"]}
{"id": "C147", "title": "Resampling of measured profiles", "statement": "A measured load, given at irregular seconds, is interpolated linearly at every second between its first and last reading and averaged over steps: each value is the mean of its step, the energy of the measurement is conserved, the values stay between the smallest and largest reading (and zero), and there are as many values as steps begun. Steps below one second are refused.", "quantifier": "all readings in order of time, all step sizes", "why_tests_cant": "Infinitely many measurements and step sizes; edge cases are lengths that are multiples of the step and fractional steps.", "anchors": ["demod/datasets/tracebase/loader.py:171-203"]}
{"id": "C148", "title": "Dictionaries of measured profiles", "statement": "load_real_profiles_dict gives every file of every known directory under the demod type of the directory, and nothing else; for 'switchedON' exactly the chosen files, cut to the part between the first and the last value above 6 W, which is not empty. A chosen file without such a value is an IndexError, another kind of profiles a NotImplementedError.", "quantifier": "all directories, files, tables of types, chosen files", "why_tests_cant": "Arbitrary directory trees and profiles.", "anchors": ["demod/datasets/tracebase/loader.py:134-169", "demod/datasets/tracebase/loader.py:205-251"]}
{"id": "C149", "title": "CREST transition matrices and starting states", "statement": "For a subgroup with 1 to 6 residents and weekdays or weekend, Crest.load_tpm reads the sheet of that size and day type and gives 144 matrices over the (n+1)^2 states; every row is a probability distribution proportional to the row of the sheet, or stays in its state when the sheet has only zeros. The starting distribution and the labels are aligned with the states: state a*(n+1)+b is 'a at home, b active' for all a, b up to n, and the starting mass is that of the sheet when the sheet puts nothing on other states. Any other subgroup, and sheets with another number of rows or with rows far from one, are a ValueError.", "quantifier": "all subgroups, all sheets", "why_tests_cant": "All sizes, day types and sheet contents; zero rows and rounding vary by sheet.", "anchors": ["demod/datasets/CREST/loader.py:169-299", "demod/utils/distribution_functions.py:10-40"]}
{"id": "C150", "title": "CREST appliances", "statement": "The appliance dictionary of CREST has one entry per appliance in every column: types and activities are the translations of the names (unknown ones are a KeyError), exactly the last four appliances use water and have no electric power, all others have no water use, missing power factors are one, and appliances used for washing and dressing, used at any time, or dish washers are not switched off when nobody is active, all others are.", "quantifier": "all appliance sheets", "why_tests_cant": "Arbitrary sheets; masks on columns.", "anchors": ["demod/datasets/CREST/loader.py:301-377", "demod/datasets/CREST/utils.py:5-67", "demod/utils/parse_helpers.py:298-308"]}
{"id": "C151", "title": "CREST ownership dictionary", "statement": "The ownership dictionary of CREST names the copies of a type t, t_2, t_3, ... in order, so that reading it back with get_ownership_from_dict for the same appliances gives the equipment probability of each appliance exactly.", "quantifier": "all lists of types none of which is a numbered copy of another, all probabilities", "why_tests_cant": "Arbitrary multisets of types.", "anchors": ["demod/datasets/CREST/loader.py:439-461", "demod/utils/appliances.py:71-159"]}
{"id": "C152", "title": "CREST activity profiles", "statement": "The activity profiles of CREST give for each activity of the sheet, time and number of active occupants the number in the sheet's row of that occupancy and activity; 'level' is always one and 'active_occupancy' is one exactly when somebody is active. The weekday rows are read for weekdays and the weekend rows for weekends; other days are a ValueError and unknown activities a KeyError.", "quantifier": "all sheets, labels, subgroups", "why_tests_cant": "All positions of a three-dimensional array after transpose, reshape, concatenation and moving axes.", "anchors": ["demod/datasets/CREST/loader.py:379-437", "demod/datasets/CREST/utils.py:5-21"]}
{"id": "C153", "title": "Bulb statistics from a configuration", "statement": "bulbs_stats_from_config gives the mean number of bulbs of a house, the consumptions present in increasing order without repetition, and their shares, a probability distribution; the mean number times the mean consumption is the installed power per house. Empty or NaN sockets do not count.", "quantifier": "all configurations", "why_tests_cant": "Arbitrary arrays with repetitions and gaps.", "anchors": ["demod/utils/parse_helpers.py:401-426", "demod/datasets/CREST/loader.py:615-627"]}
{"id": "C154", "title": "CREST clearness and washing profiles", "statement": "The clearness matrix of CREST has distributions as rows, those of the sheet up to rounding, and the first state always goes to the second; the matrix is refused when the sheet gives mass to other transitions of the first state. The washing machine profile has 138 and the washer-dryer profile 198 minutes, the former being the start of the latter; another kind of profile or version is a NotImplementedError.", "quantifier": "all sheets, versions, kinds", "why_tests_cant": "Arbitrary sheets.", "anchors": ["demod/datasets/CREST/loader.py:463-494", "demod/datasets/CREST/loader.py:809-871"]}
{"id": "C155", "title": "Sheets become dictionaries", "statement": "The dictionary made from the sheet of appliances (and buildings and heating systems) has, for every column with a name, an entry under that name without spaces, holding the cells of the column in order without spaces in their texts; unnamed columns are left out, 'number' is the number of rows, and the flags are true exactly where the sheet says so. A sheet without a column 'name' is a KeyError, and cells that are neither numbers nor texts a NotImplementedError.", "quantifier": "all sheets", "why_tests_cant": "Arbitrary column names, colliding after spaces are removed, and arbitrary cells.", "anchors": ["demod/datasets/ExcellInputFile/loader.py:60-85", "demod/datasets/ExcellInputFile/loader.py:152-193", "demod/datasets/Germany/loader.py:136-174", "demod/utils/parse_helpers.py:341-373"]}
{"id": "C156", "title": "Yearly targets of the input sheet", "statement": "load_yearly_target_switchons gives for each type the target in the sheet, so that get_target_from_dict for the appliances of the same sheet gives back the column of targets.", "quantifier": "all sheets of appliances", "why_tests_cant": "Arbitrary lists of types with repetitions.", "anchors": ["demod/datasets/ExcellInputFile/loader.py:208-217", "demod/utils/appliances.py:214-304"]}
{"id": "C157", "title": "Thermostat data of Germany", "statement": "The thermostat data of GermanDataHerus can be sampled: both cumulative distributions increase and end at one, have one value per entry, and for all draws the target temperatures of the rooms are between 13 and 27 degrees, those of the water between 42 and 62, with each temperature drawn exactly on an interval whose length is its share.", "quantifier": "all draws in [0,1)", "why_tests_cant": "A statement on all random draws.", "anchors": ["demod/datasets/Germany/loader.py:211-285", "demod/simulators/heating_simulators.py"]}
{"id": "C158", "title": "Climate of a country and weighting", "statement": "NinjaRenewablesClimate returns the data of the country and weighting asked for, in the newest version downloaded: names and codes of the same country give the same data, and an update replaces what was parsed before.", "quantifier": "all sequences of constructions and loads, all contents of the server over time", "why_tests_cant": "State on disk over arbitrary sequences of calls.", "anchors": ["demod/datasets/RenewablesNinja/loader.py:57-166", "demod/utils/countries.py:8-37", "demod/datasets/base_loader.py:873-884"]}
{"id": "C159", "title": "Saved arrays and step sizes", "statement": "What _save_parsed_data and _save_step_size write, _load_parsed_data and _load_step_size read back, whatever other files are there: an array, or the list of arrays when saved as npz, and every step size exactly.", "quantifier": "all arrays, lists, step sizes and contents of the folder", "why_tests_cant": "Arbitrary previous files and both formats.", "anchors": ["demod/datasets/base_loader.py:215-347"]}
{"id": "C160", "title": "Profiles of the FfE", "statement": "The FfE loader returns one profile per household type: the total of the phases for electricity, in watts 1000 times the values of the file; the second load returns what the first returned, with or without labels, and load_labels_name names the types 1 to 11.", "quantifier": "all raw files, all sequences of loads", "why_tests_cant": "Sequences of loads with files written by earlier ones.", "anchors": ["demod/datasets/FfE_Open_Data/__init__.py:23-218", "demod/datasets/base_loader.py:164-213", "demod/datasets/base_loader.py:249-292"]}
{"id": "C161", "title": "Measured profiles of a step size", "statement": "Tracebase(step_size) returns profiles resampled from the newest raw data to that step size, for every sequence of constructions with any step sizes and updates.", "quantifier": "all sequences of constructions and loads", "why_tests_cant": "State on disk over arbitrary sequences of calls.", "anchors": ["demod/datasets/tracebase/loader.py:92-132", "demod/datasets/base_loader.py:100-125", "demod/datasets/base_loader.py:446-487"]}
{"id": "C162", "title": "Versions of the German data", "statement": "GermanDataHerus accepts exactly the versions 'v0.1' and 'vBottaccioli', others are a ValueError; data that a version does not have are a NotImplementedError.", "quantifier": "all version names", "why_tests_cant": "All strings.", "anchors": ["demod/datasets/Germany/loader.py:56-96", "demod/datasets/Germany/loader.py:176-189"]}
{"id": "C163", "title": "Caches of population, ownership, clearness and bulbs", "statement": "Loading a population, an ownership dictionary, clearness matrices with step size, bulbs or bulb statistics returns what the parser returns, both when parsed and when read back later, for every sequence of loads on one folder.", "quantifier": "all sequences of loads, all parsed contents", "why_tests_cant": "Sequences of loads with files written by earlier ones.", "anchors": ["demod/datasets/base_loader.py:349-396", "demod/datasets/base_loader.py:513-551", "demod/datasets/base_loader.py:757-790", "demod/datasets/base_loader.py:958-1087"]}
{"id": "C164", "title": "Law of a Markov chain simulator", "statement": "After n calls of step() on a MarkovChain1rstOrder, the probability that a given household is in state j is exactly entry j of the initial distribution times the n transition matrices that follow each other cyclically from the second one on; the probability that it went through given states s0, ..., sn is the product of the initial and transition probabilities.", "quantifier": "all numbers of households and states, all stochastic matrices, all n, all draws in [0,1)", "why_tests_cant": "The law of a random simulator cannot be observed on finitely many runs; the probabilities are exact, and over all lengths of runs.", "anchors": ["demod/simulators/activity_simulators.py:76-283", "demod/utils/monte_carlo.py:26-80"]}
{"id": "C165", "title": "Households are independent", "statement": "The states of the households of a MarkovChain1rstOrder after n steps are independent: the probability that household i is in state j_i for all i together is the product of the probabilities of each; the same for their whole paths.", "quantifier": "all numbers of households, all target states, all n", "why_tests_cant": "Independence is a statement on the joint law of all draws.", "anchors": ["demod/simulators/activity_simulators.py:147-283"]}
{"id": "C166", "title": "Law of the sparse simulators", "statement": "After n steps of a SparseStatesSimulator the probability of each state of a household is the vector-matrix product of the rows stored for the times of the steps, independently of the other households.", "quantifier": "all sparse matrices with stochastic rows stored by origin, all n, all draws in (0,1]", "why_tests_cant": "As C164; rows are stored as lists of transitions.", "anchors": ["demod/simulators/sparse_simulators.py:219-303", "demod/utils/sparse.py:360-430"]}
{"id": "C167", "title": "Law of a sampled population", "statement": "With the algorithm 'monte_carlo', sample_population gives the households independent subgroups with the probabilities of the pdf: the number of households of a subgroup of probability p is binomial, choose(n,k) p^k (1-p)^(n-k).", "quantifier": "all n, pdfs, subgroups and counts", "why_tests_cant": "Exact probabilities over all draws.", "anchors": ["demod/simulators/util.py:83-123", "demod/utils/monte_carlo.py:26-60"]}
{"id": "C168", "title": "Law of ownership and switch-ons", "statement": "The number of households that own an appliance sampled with the algorithm 'basic' is binomial with the equipped probability, and households and appliances are independent; for given probabilities the appliances switched on in a step are independent, each with its own switch-on probability.", "quantifier": "all probabilities in [0,1], all numbers of households and appliances", "why_tests_cant": "Exact joint law of a matrix of draws.", "anchors": ["demod/simulators/appliance_simulators.py:207-238", "demod/simulators/appliance_simulators.py:1216-1252"]}
{"id": "C169", "title": "Law of a semi-Markov simulator", "statement": "The probability that the households of a SemiMarkovSimulator start with given states and timers and go through given states and timers is the product, over steps and households, of the start, transition and duration probabilities of the tables of those steps; a household whose timer has not run out keeps its state for certain. So for one household the probability of a sequence of episodes is the product of their transition and duration probabilities, taken at the steps where they begin.", "quantifier": "all tables, all numbers of households, all sequences of states and timers", "why_tests_cant": "The tables used depend on the durations drawn before.", "anchors": ["demod/simulators/activity_simulators.py:288-476"]}
{"id": "C170", "title": "Law of the sky clearness", "statement": "CrestIrradianceSimulator draws its clearness from the Markov chain of load_clearness_tpms: k steps after midnight the probability of each clearness is the row of the k-th power of the matrix of the initial clearness; the simulator starts with the given initial clearness.", "quantifier": "all matrices, values, start times and draws", "why_tests_cant": "Exact probabilities over all lengths of runs.", "anchors": ["demod/simulators/weather_simulators.py:68-170"]}
{"id": "C171", "title": "Equipment of a household comes from one row of the data", "statement": "Every parameter that HeatingSystem and BuildingThermalDynamics give to a household comes from one and the same row of the heating system (building) dictionary: no household mixes two types, whatever is drawn; the cylinder holds volume x 4200 J/K. Construction succeeds for every complete dictionary whose probabilities are valid, and refuses invalid probabilities before drawing.", "quantifier": "all dictionaries, numbers of types and households, all draws in [0,1)", "why_tests_cant": "Each of the twenty parameters is indexed separately; a test sees the types it draws only.", "anchors": ["demod/simulators/heating_simulators.py:454-495", "demod/simulators/heating_simulators.py:1362-1407", "demod/utils/distribution_functions.py:72-105"]}
{"id": "C172", "title": "Law of the equipment", "statement": "The heating systems and the buildings of the households of a FiveModulesHeatingSimulator are independent of each other and between households, and have the probabilities of the data: the number of households with a type of probability p is binomial; a type of probability zero is never given. When the stored probabilities add up to less than one the missing mass goes to the first type.", "quantifier": "all n, dictionaries and draws", "why_tests_cant": "Exact probabilities over all draws.", "anchors": ["demod/simulators/heating_simulators.py:458-466", "demod/simulators/heating_simulators.py:1362-1376", "demod/simulators/heating_simulators.py:1649-1690", "demod/utils/monte_carlo.py:26-43"]}
{"id": "C173", "title": "A fresh heating simulator is consistent", "statement": "In a new FiveModulesHeatingSimulator the building, the heat demand and the controls use the cylinder and the combi flag of the household's own heating system, the deadbands are those of the data, the targets are values of the data, the room starts within one degree of its target and the emitters accordingly; nothing is on, all heat demands are zero and the power demand is the standby power.", "quantifier": "all data sets, numbers of households, outside temperatures and draws", "why_tests_cant": "Five objects share parameters by copying; holds for every household of every draw.", "anchors": ["demod/simulators/heating_simulators.py:1649-1694", "demod/simulators/heating_simulators.py:501-552", "demod/simulators/heating_simulators.py:761-786", "demod/simulators/heating_simulators.py:1167-1199", "demod/simulators/heating_simulators.py:950-1005"]}
{"id": "C174", "title": "An external heating system replaces the internal one", "statement": "After set_external_heating_system the building, the heat demand and the controls use the new system's cylinder and combi flags in all later steps, temperatures and demands are unchanged by the call, and the simulator reports no power for heating as long as the external system is used.", "quantifier": "all simulators, new systems, and following steps", "why_tests_cant": "Over all later runs.", "anchors": ["demod/simulators/heating_simulators.py:1696-1714", "demod/simulators/heating_simulators.py:1899-1906", "demod/simulators/heating_simulators.py:2016-2022"]}
{"id": "C175", "title": "Starting outputs of a heating system", "statement": "A HeatingSystem created with initial controls and an initial heat demand starts with the outputs of a step under these controls and this demand; without a demand the outputs are zero whatever the controls; without controls they are zero whatever the demand.", "quantifier": "all systems, controls and demands", "why_tests_cant": "All combinations of optional arguments and all values.", "anchors": ["demod/simulators/heating_simulators.py:1311-1347", "demod/simulators/base_simulators.py:486-518"]}
{"id": "C176", "title": "The activity profile in force follows the clock", "statement": "At every step of an OccupancyApplianceSimulator the activity probabilities used are those of the ten-minute slot that contains the current time, counted from the last refresh time of the data, in the profiles loaded at that refresh; this does not depend on when the simulation started.", "quantifier": "all data sets, start times, step sizes and runs of any length", "why_tests_cant": "The slot comes from an iterator that is advanced as a side effect; agreement with the clock is an invariant over all runs and start times.", "anchors": ["demod/simulators/appliance_simulators.py:955-981", "demod/simulators/appliance_simulators.py:1004-1058", "demod/simulators/appliance_simulators.py:1216-1236", "demod/simulators/base_simulators.py:868-903"]}
{"id": "C177", "title": "Appliances start with the probability of their own activity", "statement": "In a step an available appliance starts exactly when its random number is below its switch-on probability times the probability of its own related activity, for the household's own subgroup and occupancy, in the profile in force; a related activity missing from the data is reported when the simulator is created.", "quantifier": "all appliance dictionaries, subgroups, households, times and draws", "why_tests_cant": "The activity is found through sorted unique labels and an inverse index, the subgroup through another index; all combinations.", "anchors": ["demod/simulators/appliance_simulators.py:997-1003", "demod/simulators/appliance_simulators.py:1011-1058", "demod/simulators/appliance_simulators.py:1181-1252"]}
{"id": "C178", "title": "Day type of the subgroups", "statement": "The subgroups of an OccupancyApplianceSimulator carry the day type (week days or week end) of the last refresh; other attributes are those given by the user.", "quantifier": "all subgroups, start times and runs", "why_tests_cant": "Over all runs and calendar dates.", "anchors": ["demod/simulators/appliance_simulators.py:1004-1009", "demod/simulators/appliance_simulators.py:1060-1077", "demod/utils/subgroup_handling.py:252-300"]}
{"id": "C179", "title": "A new occupancy appliance simulator", "statement": "A new OccupancyApplianceSimulator is at the requested start time, has run exactly the steps since the last refresh time, and has every array of the size of the population; a step size other than that of the data, or an initial occupancy of another length when initialization steps are needed, is refused.", "quantifier": "all constructor arguments and draws", "why_tests_cant": "All combinations of start time, step size and data.", "anchors": ["demod/simulators/appliance_simulators.py:913-981", "demod/simulators/base_simulators.py:721-792"]}
{"id": "C180", "title": "Diaries are rebuilt from their transitions", "statement": "transitions_to_states gives every person, at every time, the state of that person's latest transition (the initial state before the first one), whatever the order of the transitions; the transitions of any table of diaries give the table back.", "quantifier": "all lists of transitions, initial states and sizes; all tables of diaries", "why_tests_cant": "The loop carries the states of all persons; agreement with the transitions is an invariant over time and persons.", "anchors": ["demod/datasets/ATUS/parse_data.py:441-495"]}
{"id": "C181", "title": "Transition matrices of transition lists", "statement": "Entry (t, a, b) of build_transition_matrices is the proportion, among the persons in state a before time t, of those that are in state b at time t (not a number if there is nobody in a); the first matrix is that of the last time for the strategy 'last' and the identity on the initial states for 'nothing'; an unknown strategy is refused.", "quantifier": "all lists of transitions, initial states, sizes and strategies", "why_tests_cant": "All tables of diaries.", "anchors": ["demod/datasets/ATUS/parse_data.py:498-575"]}
{"id": "C182", "title": "Removing fake transitions changes nothing", "statement": "get_mask_remove_fake_transitions keeps exactly the first transition of each person and those to another state than that of the person's previous transition; the transitions kept describe the same diaries, and applying the function again keeps them all; lists not sorted by person and then time are refused.", "quantifier": "all lists of transitions", "why_tests_cant": "Equality of the diaries before and after is a statement about all lists.", "anchors": ["demod/datasets/ATUS/parse_data.py:579-646"]}
{"id": "C183", "title": "Time dependent transition and duration matrices", "statement": "For the transitions of a table of diaries, build_timed_based_transition_matrices gives for each time after the first the proportions of the new states among the persons that leave a state then, and the proportions of the durations of the stays that begin then: a stay that reaches the end of the day goes on at the start of the day if the state is the same there and is left out otherwise; the first matrices are those of the last time for the strategy 'last'.", "quantifier": "all tables of diaries and strategies", "why_tests_cant": "Index arithmetic with rolled arrays and first and last positions of each person, for all tables.", "anchors": ["demod/datasets/ATUS/parse_data.py:649-784"]}
{"id": "C184", "title": "Stacked states", "statement": "stack_states gives for each time the proportion of the persons in each state: numbers between 0 and 1 that sum to one; a number of states smaller than that of the data is not applied.", "quantifier": "all tables of states", "why_tests_cant": "All tables.", "anchors": ["demod/datasets/ATUS/parse_data.py:970-975"]}
{"id": "C185", "title": "RMSE is a distance", "statement": "RMSE of two arrays of the same shape is the square root of the mean of the squared differences: it is never negative, zero exactly for equal arrays, symmetric, satisfies the triangle inequality, does not change when the same array is added to both and scales with both; arrays whose shapes cannot be broadcast are refused.", "quantifier": "all arrays of real numbers of one or two dimensions", "why_tests_cant": "The triangle inequality and the other laws range over all arrays.", "anchors": ["demod/metrics/errors.py:8-21"]}
{"id": "C186", "title": "Similarity of profiles", "statement": "Element [i, j] of profiles_similarity is the euclidean distance of simulated profile i to target profile j: zero exactly for equal profiles; exchanging the arguments transposes the result; profiles of different numbers of times are refused.", "quantifier": "all sets of profiles", "why_tests_cant": "All sets of profiles.", "anchors": ["demod/metrics/loads.py:40-67"]}
{"id": "C187", "title": "Variety of profiles", "statement": "profiles_variety is the distance of each profile to every other, or its average: it is the mean over pairs of different profiles, does not depend on the order of the profiles, is zero exactly when all profiles are the same and scales with the profiles.", "quantifier": "all sets of profiles", "why_tests_cant": "Independence of the order ranges over all permutations.", "anchors": ["demod/metrics/loads.py:70-98"]}
{"id": "C188", "title": "Households of a simulator of subgroups", "statement": "SubgroupsActivitySimulator simulates, for each subgroup with a positive number of households and in the order of the list, that number of households; get_n_doing_state is the concatenation of the numbers of the subgroups, so that a household keeps its position; a list of states gives the list of the numbers.", "quantifier": "all lists of subgroups and numbers of households, all subsimulators", "why_tests_cant": "Positions of households are sums over all earlier subgroups.", "anchors": ["demod/simulators/sparse_simulators.py:623-681"]}
{"id": "C189", "title": "SparseActivitySimulator cannot be created", "statement": "A SparseActivitySimulator is created for a subgroup of the German data.", "quantifier": "all arguments", "why_tests_cant": "The constructor fails for every argument; tests see one.", "anchors": ["demod/simulators/sparse_simulators.py:319-376"]}
{"id": "C190", "title": "Waiting time of a bulb", "statement": "A dark bulb of a household with active occupants is lit by a step with probability effective occupancy times relative use times calibration (at most one), and with a twentieth of it when the irradiance is not below the threshold; steps are independent, so that it stays dark for n steps with the product of the complements, a geometric law when occupancy and light do not change.", "quantifier": "all households, bulbs, occupancies and irradiances over time", "why_tests_cant": "A probability is not visible in one run.", "anchors": ["demod/simulators/lighting_simulators.py:402-451"]}
{"id": "C191", "title": "Law of the lighting durations", "statement": "The number of minutes a bulb is lit has the documented mixture law: the interval is chosen with the probability given by the cdf, then the time is uniform in the interval and truncated to whole minutes.", "quantifier": "all tables of intervals, all bulbs", "why_tests_cant": "A probability is not visible in one run.", "anchors": ["demod/simulators/lighting_simulators.py:381-389", "demod/simulators/lighting_simulators.py:446-449"]}
{"id": "C192", "title": "Relative use of bulbs", "statement": "The relative use of a bulb is exponentially distributed with mean 2.30258509299404: it exceeds t exactly when the uniform draw is below exp(-t/2.30258509299404); it is positive for draws in (0,1), decreasing in the draw, and unbounded.", "quantifier": "all draws and all shapes of the bulb table", "why_tests_cant": "The logarithm is not rational; the law is an equivalence for all thresholds.", "anchors": ["demod/simulators/lighting_simulators.py:366-375"]}
{"id": "C193", "title": "Occupants of the example simulators", "statement": "The documented example simulators count occupants: after any run the number of occupants of a household is the initial number plus arrivals minus departures; the time aware one has all residents inside at the last 4 am before the start and reports the share of empty households once every day, before 4 am.", "quantifier": "all runs, all arrivals and departures", "why_tests_cant": "All runs; the number of initial steps depends on the start time.", "anchors": ["demod/simulators/base_simulators.py:1018-1158"]}
{"id": "C194", "title": "Readings of the appliances", "statement": "The water consumption of an appliance is its flow exactly when it is owned and in use; the heat for it is 70 W per litre per minute; an appliance that follows a load profile draws the value of its profile at the number of whole steps since its start (with python's meaning of negative positions); the reading fails only when such an appliance has no profile or the position lies outside it; switching on an appliance or household that does not exist is refused.", "quantifier": "all states of all appliance simulators whose arrays have one row per household and one column per appliance, all profiles", "why_tests_cant": "Depends on every elapsed time, every profile and every pattern of use.", "anchors": ["demod/simulators/appliance_simulators.py:571-636", "demod/simulators/appliance_simulators.py:671-846"]}
{"id": "C195", "title": "Reading loggers and one household", "statement": "A logger returns the records of one of its attributes but the last observation, and refuses other names; a getter with a household number returns that household's element and refuses numbers outside the array; records of new dictionary keys or unknown attributes are refused; the example simulator adds arrivals and subtracts departures of each household.", "quantifier": "all loggers, attributes, values and household numbers", "why_tests_cant": "All contents of the logger and all kinds of values.", "anchors": ["demod/simulators/base_simulators.py:16-36", "demod/simulators/base_simulators.py:137-260", "demod/simulators/base_simulators.py:1060-1070"]}
{"id": "C196", "title": "New heating simulators and missing values", "statement": "A new heating simulator takes the targets that its draws designate in the tables, delivers and demands no heat and draws the standby power; a temperature that is not a number switches off its thermostat; a heater without rating uses no fuel, and one with a rating for the water only has an undefined consumption; external heat under an unknown name is refused.", "quantifier": "all tables, draws, targets, systems and external dictionaries", "why_tests_cant": "Missing values and tables of every length.", "anchors": ["demod/simulators/heating_simulators.py:716-906", "demod/simulators/heating_simulators.py:1428-1467", "demod/simulators/heating_simulators.py:1649-1694", "demod/simulators/util.py:41-58"]}
{"id": "C197", "title": "Constructing a loader never loses data it was not told to clear", "statement": "Constructing a dataset loader makes its missing folders and changes nothing else; clear_parsed_data with a version empties the folder of that version only, without a question; without a version the user is asked until the answer is yes or no, no keeps everything, yes erases the parsed data of all versions and leaves the raw data.", "quantifier": "all disks, names, versions and typed answers", "why_tests_cant": "The effect on files anywhere on the disk, for every state of it and every sequence of answers.", "anchors": ["demod/datasets/base_loader.py:48-127", "demod/datasets/base_loader.py:337-352"]}
{"id": "C198", "title": "Parsed data of the German survey", "statement": "GTOU downloads and unpacks the archive of the activity only when neither the survey nor its zip is there; clear_parsed_data erases the folder of the activity and its zip and nothing else, after which the folder is empty (with the survey) or holds exactly the files of the archive; failing downloads write nothing and say why; parsed data that are there are usable offline; a successful construction leaves data in the folder.", "quantifier": "all disks, activities, versions, archives and servers", "why_tests_cant": "The state of a disk, of a server and of earlier failed attempts.", "anchors": ["demod/datasets/GermanTOU/loader.py:71-151", "demod/datasets/tou_loader.py:31-44"]}
{"id": "C199", "title": "Workbooks of CREST", "statement": "Crest downloads the workbook of versions 2.2 and 2.3.3 only if it is missing; other versions without a workbook are refused; clearing leaves the five empty folders of this version and touches no other version; refused downloads leave no workbook; a workbook on the disk is a whole one.", "quantifier": "all disks, versions and servers", "why_tests_cant": "Interrupted downloads and every state of the disk.", "anchors": ["demod/datasets/CREST/loader.py:78-104"]}
{"id": "C200", "title": "Raw data of tracebase", "statement": "Tracebase downloads and unpacks its archive only if it is missing; clearing erases the parsed data of this step size only; an update fetches the archive again and unpacks it over the raw data; after an update no parsed data of the old archive are left, an update is possible at first, and a construction that succeeds has raw data.", "quantifier": "all disks, step sizes, archives and servers", "why_tests_cant": "Several step sizes parsed before an update; interrupted downloads.", "anchors": ["demod/datasets/tracebase/loader.py:96-130"]}
{"id": "C201", "title": "Lighting of the older CREST simulator", "statement": "CRESTLightingSimulator of crest_simulators.py: after a step a household without active occupants has no bulb lit and consumes nothing; the consumption is the sum of the powers of the lit bulbs, missing bulbs count for nothing; a bulb that is not switched on loses one minute; a new simulator has no bulb lit; another number of occupancies and unknown names are refused; and a dark bulb of an occupied household is lit whenever the draws of a step switch it on.", "quantifier": "all configurations, parameters, draws, occupancies and numbers of steps", "why_tests_cant": "Bulbs run for durations drawn from continuous distributions over any number of steps.", "anchors": ["demod/simulators/crest_simulators.py:720-943"]}
{"id": "C202", "title": "Bulbs drawn by the older CREST simulator", "statement": "GTOU_sample_bulbs_config gives every household at least one bulb, each with a consumption of the list, the integer part of the number drawn if it is at least one; the rest of its row is zero; lists of different lengths are refused.", "quantifier": "all means, deviations, lists and draws", "why_tests_cant": "The numbers of bulbs are Gaussian draws.", "anchors": ["demod/simulators/crest_simulators.py:751-774"]}
{"id": "C203", "title": "Older heating controls", "statement": "HeatingControlsSimulator: with one update per minute the space heating timer of every dwelling is redrawn exactly once in every half hour, at its own minute, from the row of its state in the table of that half hour of the day; updates never fail; the thermostats follow their hysteresis; hot water is heated by timer and thermostat, for a combi boiler when hot water is drawn; rooms are heated when timer, room and emitter thermostats agree; a dwelling without heating system is never heated; new set points replace the old ones when there is one for each dwelling; and the timers start switched on with the probability of the kind of day.", "quantifier": "all tables, dwellings, draws, starts and numbers of minutes", "why_tests_cant": "The timers are random and depend on the whole past of the simulation.", "anchors": ["demod/simulators/crest_simulators.py:947-1240"]}
{"id": "C204", "title": "Older heating system", "statement": "HeatingSystemSimulator: the heat for water and for rooms is never negative and together at most the rated output, none when switched off, water first; a minute moves the temperatures by the heat flows and conserves energy; a need within the output brings the cylinder to its set point and the emitters to 5 degrees above nominal; fuel is in proportion to the heat and booked under the fuel of the dwelling; unknown fuels are refused; the temperatures at the start lie in their ranges; the thermostat of the cylinder switches off once it has been heated; the power of the pumps can be asked with the controls of the control simulator; and the simulator can be created.", "quantifier": "all buildings, systems, temperatures, weathers, controls and draws", "why_tests_cant": "Physical states are real numbers and the heat depends on all of them.", "anchors": ["demod/simulators/crest_simulators.py:1243-1686"]}
{"id": "C205", "title": "Older appliances: switching and power", "statement": "CRESTAppliancesSimulator can be created; switching on starts exactly the appliances asked for, electrical ones for their mean cycle, and refreshes them after their delay; without active occupants everything but laundry, dishes and fridges goes off; washing machines and washer dryers follow their programme and a whole wash uses 55113 watt minutes, then standby; others use their mean power while running and standby of their owners when not; fixtures use no electricity.", "quantifier": "all appliances, households, draws, states and numbers of minutes", "why_tests_cant": "Every appliance of every household has its own state and programme minute.", "anchors": ["demod/simulators/crest_simulators.py:344-594", "demod/simulators/crest_simulators.py:637-689"]}
{"id": "C206", "title": "Older appliances: hot water", "statement": "CRESTAppliancesSimulator: a fixture that is switched on delivers exactly the volume drawn from its distribution, at its flow, and nothing afterwards; electrical appliances use no water; the heat transfer coefficient is 70 W/K per litre in a minute.", "quantifier": "all distributions, draws, volumes, flows and numbers of minutes", "why_tests_cant": "The volume is split over minutes of which the last is a fraction.", "anchors": ["demod/simulators/crest_simulators.py:466-524", "demod/simulators/crest_simulators.py:595-635"]}
{"id": "C207", "title": "Helpers: chances of activities and of switching on", "statement": "The older helpers read the chance of every activity for every ten minutes, number of active occupants and activity from the right line of the CREST sheet or from the right saved profile, none without active occupants, and LEVEL always; the chance of switching an appliance on is its own one times that of its activity, never more than its own, and with nobody active only LEVEL appliances are switched on.", "quantifier": "all sheets, profiles, appliances, occupancies and times", "why_tests_cant": "Tables of 144 x 6 x 9 numbers are rearranged by reshapes and axis moves.", "anchors": ["demod/helpers.py:49-156"]}
{"id": "C208", "title": "Helpers: occupancy of a day, absorbing states, file names", "statement": "A household counts as occupied for 24 hours exactly if all its 144 labels have somebody at home; the check of transition matrices reports for every time exactly the states which can be arrived at but not left, and at the end the ones never left again; file names contain the values of the subgroup.", "quantifier": "all states, labels, numbers of matrices and states", "why_tests_cant": "Absorbing states depend on all matrices before and after.", "anchors": ["demod/helpers.py:14-46", "demod/helpers.py:161-208"]}
{"id": "C209", "title": "Heating data of a CREST workbook", "statement": "Every parameter of heating system or building i is the cell of row i under its own heading, for the three systems of version 2.2 or the five of version 2.3.3; a system is a combi boiler exactly if its type is 2; shares of temperatures become running sums. A workbook with all headings and valid shares builds the five-module heating simulator for any number of households and all draws, each household having all its parameters from one row; other versions and missing headings are refused.", "quantifier": "all versions, workbooks, numbers of households and draws", "why_tests_cant": "Thirty parameters are copied one by one from columns with long names; a wrong column gives plausible numbers.", "anchors": ["demod/datasets/CREST/loader.py:629-787"]}
{"id": "C210", "title": "Climate, lighting and population of a CREST version", "statement": "Each version has the place, temperature model, bulbs, lighting parameters and dwelling shares of its own country or column; the temperature model is stationary; other versions and population types are refused.", "quantifier": "all versions and sheets", "why_tests_cant": "Constants and positions in sheets, chosen by the version.", "anchors": ["demod/datasets/CREST/loader.py:112-159", "demod/datasets/CREST/loader.py:496-613"]}
{"id": "C211", "title": "Who is active in a German diary", "statement": "Every cell of a table of diaries is turned into active, except sleeping and being ill in bed; the table keeps its shape and no cell depends on another; a table with an unknown code, or without any code, is refused.", "quantifier": "all tables of diaries", "why_tests_cant": "The conversion goes through the sorted codes and labels which occur in the whole table.", "anchors": ["demod/datasets/GermanTOU/parser.py:1340-1504"]}
{"id": "C212", "title": "Transition matrices of the older CREST simulators", "statement": "For one to six residents, every row of every loaded matrix is one line of the file of that number of residents and type of day, divided by its sum, or staying when it has no numbers, and adds up to one; exactly the files of whole matrices with lines near one or zero are accepted; other numbers of residents are refused before a file is opened.", "quantifier": "all files, numbers of residents and types of day", "why_tests_cant": "Up to 49 states and 144 times are cut out of one flat array.", "anchors": ["demod/simulators/crest_simulators.py:39-88"]}
{"id": "C213", "title": "Weather of Open Power System Data", "statement": "The outside temperature is that of the country asked for and the irradiance of every hour is the sum of its direct and diffuse radiation, unknown exactly when one of them is; countries without data are refused.", "quantifier": "all files and countries", "why_tests_cant": "Holds for every hour of the file.", "anchors": ["demod/datasets/OpenPowerSystems/loader.py:44-77"]}
{"id": "C214", "title": "Parsers of the German time use survey", "statement": "Transition matrices with and without durations exist for the same types of activities and use the dictionary that the statistics of this type use; every other type is refused; sparse matrices exist for Sparse9States only, which has no others; each version of the German dataset has exactly one kind of matrices and unknown versions are refused.", "quantifier": "all types of activities and versions", "why_tests_cant": "Four methods must agree on every name, known or not.", "anchors": ["demod/datasets/GermanTOU/loader.py:42-69", "demod/datasets/GermanTOU/loader.py:154-238", "demod/datasets/Germany/loader.py:58-71"]}
{"id": "C215", "title": "Names of the FfE household types", "statement": "An int has a name exactly if it is one of the eleven household types, and different types have different names; lists are named element by element. Labels in an array have names as well.", "quantifier": "all labels, lists and arrays", "why_tests_cant": "The result depends on the Python type of each element.", "anchors": ["demod/datasets/FfE_Open_Data/__init__.py:105-133"]}
{"id": "C216", "title": "The example of a loader", "statement": "The two arrays of the example are both the saved ones or both those of the raw file; after they were read from the raw file they are saved and given again by every later call; without a raw file there is an error exactly if an array that was asked for is not saved, and nothing changes.", "quantifier": "all contents of the folder", "why_tests_cant": "Covers folders with only one of the files.", "anchors": ["demod/datasets/ExampleData/example_loader.py:39-113"]}
{"id": "C217", "title": "Lighting of the Excel input file", "statement": "The file is the one asked for, or inputs.xlsx beside the module, and must exist. Every number of the lighting is that of its cell and equals what the CREST loader of version 2.2 reads from the same sheet; the power and penetration of a bulb come from the same row; the configurations are all rows without the two leading columns, as those of CREST.", "quantifier": "all files and sheets", "why_tests_cant": "The cells are found by position in four readings of one sheet.", "anchors": ["demod/datasets/ExcellInputFile/loader.py:38-47", "demod/datasets/ExcellInputFile/loader.py:87-149"]}
