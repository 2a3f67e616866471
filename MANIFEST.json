{
 "claims": [
  {
   "property": "C01",
   "status": "proved",
   "theorems": [
    "C01_first_above",
    "C01_first_above_rows",
    "C01_interval",
    "C01_pdf_interval",
    "C01_interval_length"
   ],
   "note": ""
  },
  {
   "property": "C02",
   "status": "proved",
   "theorems": [
    "C02_no_zero_probability_state",
    "C02_no_zero_probability_state_rows",
    "C02_accepted_cdf_refuted"
   ],
   "note": "Proved for pdfs of total at least one. C02_accepted_cdf_refuted shows the hypothesis cannot be weakened to passing check_valid_cdf."
  },
  {
   "property": "C03",
   "status": "proved",
   "theorems": [
    "C03_rejects",
    "C03_no_other_outcome",
    "C03_rescales",
    "C03_idempotent"
   ],
   "note": ""
  },
  {
   "property": "C04",
   "status": "proved",
   "theorems": [
    "C04_check_accepts",
    "C04_check_rejects",
    "C04_rescale_cdf_rejects",
    "C04_rescale_cdf"
   ],
   "note": ""
  },
  {
   "property": "C05",
   "status": "proved",
   "theorems": [
    "C05_population_conserved"
   ],
   "note": ""
  },
  {
   "property": "C06",
   "status": "proved",
   "theorems": [
    "C06_deterministic_split",
    "C06_exact_sizes",
    "C06_first_share_zero_refuted",
    "C06_accepted_pdf_refuted"
   ],
   "note": "The two refuted theorems record that natural strengthenings fail: a first subgroup of share zero gets a household, and a pdf accepted within tolerance yields an extra entry."
  },
  {
   "property": "C07",
   "status": "proved",
   "theorems": [
    "C07_array",
    "C07_dict_keys_kept",
    "C07_dict_other_keys",
    "C07_dict_values",
    "C07_dict_unknown_key"
   ],
   "note": "Aliasing is not modelled: that the base array object is left untouched is outside the model."
  },
  {
   "property": "C08",
   "status": "proved",
   "theorems": [
    "C08_step_counting",
    "C08_bad_start_rejected",
    "C08_households"
   ],
   "note": ""
  },
  {
   "property": "C09",
   "status": "proved",
   "theorems": [
    "C09_logger_aligned",
    "C09_logger_aligned_dict",
    "C09_constructed_loggers",
    "C09_aggregation_flags",
    "C09_repeated_attribute_refuted"
   ],
   "note": "C09_repeated_attribute_refuted: listing an attribute twice breaks the alignment of the logged series, so the theorem assumes distinct names."
  },
  {
   "property": "C10",
   "status": "proved",
   "theorems": [
    "C10_clear_all",
    "C10_clear_one",
    "C10_clear_list",
    "C10_add",
    "C10_copy",
    "C10_length_after_clear_one_refuted",
    "C10_length_of_copy_refuted"
   ],
   "note": "The two refuted theorems record that the logger length is wrong after clearing a single attribute and in a copy."
  },
  {
   "property": "C11",
   "status": "proved",
   "theorems": [
    "C11_cache_transparent",
    "C11_cache_never_fails",
    "C11_late_update_refuted"
   ],
   "note": "Proved for simulators that update their state before calling the base step; C11_late_update_refuted shows a stale cached value otherwise."
  },
  {
   "property": "C12",
   "status": "proved",
   "theorems": [
    "C12_step_slices",
    "C12_step_succeeds",
    "C12_history",
    "C12_household_value",
    "C12_outside",
    "C12_cache_coherent",
    "C12_number_of_households"
   ],
   "note": "Sub-simulators are arbitrary functions on states that keep their number of households."
  },
  {
   "property": "C13",
   "status": "proved",
   "theorems": [
    "C13_mask"
   ],
   "note": ""
  },
  {
   "property": "C14",
   "status": "proved",
   "theorems": [
    "C14_lands_on_start",
    "C14_succeeds",
    "C14_rejected",
    "C14_decorated_steps_advance"
   ],
   "note": "int(timedelta/step) is exact in the model; Python rounds through a float."
  },
  {
   "property": "C15",
   "status": "proved",
   "theorems": [
    "C15_clock",
    "C15_two_clocks"
   ],
   "note": ""
  },
  {
   "property": "C16",
   "status": "proved",
   "theorems": [
    "C16_calendar",
    "C16_after_next_day",
    "C16_one_call_per_midnight",
    "C16_long_steps_refuted"
   ],
   "note": "C16_long_steps_refuted: a step of more than one day can land on the same day number and miss the callback."
  },
  {
   "property": "C17",
   "status": "partial",
   "theorems": [
    "C17_month_end_refuted",
    "C17_before_next_day_exact",
    "C17_before_next_day_partial"
   ],
   "note": "False as stated: the comparison of day numbers misses every first day of a month (C17_month_end_refuted). C17_before_next_day_exact gives the exact behaviour, C17_before_next_day_partial the claim away from month ends."
  },
  {
   "property": "C18",
   "status": "proved",
   "theorems": [
    "C18_after_4am",
    "C18_before_4am",
    "C18_one_call_per_day",
    "C18_long_steps_refuted"
   ],
   "note": "C18_long_steps_refuted shows the bound of one hour on the step is needed."
  },
  {
   "property": "C19",
   "status": "proved",
   "theorems": [
    "C19_after_refresh",
    "C19_before_refresh",
    "C19_one_call_per_day",
    "C19_every_24h",
    "C19_misaligned_never"
   ],
   "note": ""
  },
  {
   "property": "C20",
   "status": "proved",
   "theorems": [
    "C20_read_back",
    "C20_other_times_unchanged",
    "C20_wrong_shape_rejected",
    "C20_right_shape_accepted",
    "C20_modulo",
    "C20_iteration",
    "C20_other_key",
    "C20_outside"
   ],
   "note": ""
  },
  {
   "property": "C21",
   "status": "proved",
   "theorems": [
    "C21_own_row",
    "C21_dense",
    "C21_assigned_matrix",
    "C21_outcome_unique",
    "C21_zero_draw_refuted"
   ],
   "note": "Draws in (0,1]; C21_zero_draw_refuted shows the draw 0 crosses into another household's row."
  },
  {
   "property": "C22",
   "status": "proved",
   "theorems": [
    "C22_dead_states_resolved",
    "C22_dead_replacement_never_returns",
    "C22_no_replacement_refuted"
   ],
   "note": "Mutation of the caller's state array on replacement is not modelled. C22_no_replacement_refuted: without a configured replacement one dead household spoils the others."
  },
  {
   "property": "C23",
   "status": "partial",
   "theorems": [
    "C23_lengths_refuted",
    "C23_accepted_exactly",
    "C23_rejected_partial",
    "C23_equal_lengths_accepted",
    "C23_sizes"
   ],
   "note": "False as stated: operator precedence in the length test accepts some mismatched lengths (C23_lengths_refuted). C23_accepted_exactly characterises what is accepted, C23_rejected_partial the mismatches that are rejected."
  },
  {
   "property": "C24",
   "status": "proved",
   "theorems": [
    "C24_save_load",
    "C24_sizes_refuted"
   ],
   "note": "C24_sizes_refuted: explicit sizes and dead_state_value are lost."
  },
  {
   "property": "C25",
   "status": "proved",
   "theorems": [
    "C25_exact",
    "C25_exact_without_end_start",
    "C25_exact_same_state"
   ],
   "note": ""
  },
  {
   "property": "C26",
   "status": "proved",
   "theorems": [
    "C26_durations",
    "C26_durations_without_end_start"
   ],
   "note": ""
  },
  {
   "property": "C27",
   "status": "proved",
   "theorems": [
    "C27_frequencies",
    "C27_unknown_algorithm",
    "C27_too_few_labels"
   ],
   "note": "Index [[array, array]] of line 654 read as a tuple (numpy before 1.23)."
  },
  {
   "property": "C28",
   "status": "proved",
   "theorems": [
    "C28_normalised",
    "C28_nan_without_ensure",
    "C28_no_bins"
   ],
   "note": ""
  },
  {
   "property": "C29",
   "status": "proved",
   "theorems": [
    "C29_faithful",
    "C29_equal_labels",
    "C29_missing_label"
   ],
   "note": ""
  },
  {
   "property": "C30",
   "status": "proved",
   "theorems": [
    "C30_first_episodes"
   ],
   "note": ""
  },
  {
   "property": "C31",
   "status": "proved",
   "theorems": [
    "C31_execution",
    "C31_constructor",
    "C31_start_step"
   ],
   "note": "Table S k mod T is used at step k: table 0 holds the transitions into the first slot. C31_start_step: start_time_step > 0 fails."
  },
  {
   "property": "C32",
   "status": "proved",
   "theorems": [
    "C32_episodes"
   ],
   "note": "A sampled duration of 0 lasts one step (Nat.max 1 e)."
  },
  {
   "property": "C33",
   "status": "proved",
   "theorems": [
    "C33_counts",
    "C33_names",
    "C33_seven_members_refuted"
   ],
   "note": "C33_seven_members_refuted: overflow with seven members, as stated."
  },
  {
   "property": "C34",
   "status": "proved",
   "theorems": [
    "C34_occupancy",
    "C34_default_residents_refuted"
   ],
   "note": "C34_default_residents_refuted: the default n_residents of 7 counts absent persons as present."
  },
  {
   "property": "C35",
   "status": "proved",
   "theorems": [
    "C35_occupancy"
   ],
   "note": ""
  },
  {
   "property": "C36",
   "status": "proved",
   "theorems": [
    "C36_slots",
    "C36_advance"
   ],
   "note": ""
  },
  {
   "property": "C37",
   "status": "partial",
   "theorems": [
    "C37_parent_cycle",
    "C37_parent_whole",
    "C37_parent_others",
    "C37_occupancy_partial",
    "C37_occupancy_refuted",
    "C37_forced_off"
   ],
   "note": "Holds for the parent class (exact duration, restart delay, frame). Refuted for the occupancy simulator: the step that starts an appliance already consumes one step of its cycle (C37_occupancy_refuted); C37_occupancy_partial gives the exact reading."
  },
  {
   "property": "C38",
   "status": "proved",
   "theorems": [
    "C38_power",
    "C38_demand",
    "C38_nonneg",
    "C38_defined"
   ],
   "note": ""
  },
  {
   "property": "C39",
   "status": "proved",
   "theorems": [
    "C39_only_if",
    "C39_if",
    "C39_others",
    "C39_shape",
    "C39_bad_argument"
   ],
   "note": "C39_only_if/if/others describe each cell after a step; the activity profile in force is an input."
  },
  {
   "property": "C40",
   "status": "proved",
   "theorems": [
    "C40_found",
    "C40_longest",
    "C40_not_found",
    "C40_remove_start"
   ],
   "note": ""
  },
  {
   "property": "C41",
   "status": "proved",
   "theorems": [
    "C41_bounds",
    "C41_monotone",
    "C41_thresholds",
    "C41_equal_thresholds"
   ],
   "note": ""
  },
  {
   "property": "C42",
   "status": "proved",
   "theorems": [
    "C42_step",
    "C42_nobody",
    "C42_duration",
    "C42_lit_for_duration",
    "C42_consumption",
    "C42_no_error",
    "C42_start",
    "C42_method"
   ],
   "note": ""
  },
  {
   "property": "C43",
   "status": "proved",
   "theorems": [
    "C43_invariant",
    "C43_demand",
    "C43_no_error",
    "C43_start",
    "C43_charges"
   ],
   "note": ""
  },
  {
   "property": "C44",
   "status": "proved",
   "theorems": [
    "C44_exact",
    "C44_conserved",
    "C44_one_at_a_time",
    "C44_reasons",
    "C44_turnaround_refuted",
    "C44_used"
   ],
   "note": "C44_turnaround_refuted: the clause 'none leaves that was away' reads: a car away may come back and leave in the same step; it is never counted twice (C44_exact)."
  },
  {
   "property": "C45",
   "status": "proved",
   "theorems": [
    "C45_step",
    "C45_within_band",
    "C45_switching",
    "C45_new_targets",
    "C45_initial"
   ],
   "note": ""
  },
  {
   "property": "C46",
   "status": "proved",
   "theorems": [
    "C46_limits",
    "C46_priority"
   ],
   "note": ""
  },
  {
   "property": "C47",
   "status": "proved",
   "theorems": [
    "C47_conserved",
    "C47_priority",
    "C47_delivered"
   ],
   "note": ""
  },
  {
   "property": "C48",
   "status": "proved",
   "theorems": [
    "C48_hot_water",
    "C48_emitters",
    "C48_room",
    "C48_room_refuted",
    "C48_closed_loop",
    "C48_step_size_refuted"
   ],
   "note": "Proved for equal step sizes, as stated. C48_step_size_refuted: the five modules build HeatDemand without the step size, so the proviso only holds for one-minute steps. C48_room covers the room estimation algorithm, whose demand is heat for the room; the system gives it to the emitters (C48_room_refuted)."
  },
  {
   "property": "C49",
   "status": "proved",
   "theorems": [
    "C49_flows",
    "C49_energy",
    "C49_comparison",
    "C49_range",
    "C49_coarse_step_refuted"
   ],
   "note": "'Sufficiently small' is short_step. C49_coarse_step_refuted: the default one-minute step is not small enough for the five litre cylinder of a combi boiler."
  },
  {
   "property": "C50",
   "status": "proved",
   "theorems": [
    "C50_fluctuating",
    "C50_on_off",
    "C50_scheduled",
    "C50_households"
   ],
   "note": ""
  },
  {
   "property": "C51",
   "status": "partial",
   "theorems": [
    "C51_runs",
    "C51_time",
    "C51_by_states",
    "C51_all_constant_refuted"
   ],
   "note": "Proved for tables in which some profile changes; refuted (IndexError) when no profile changes."
  },
  {
   "property": "C52",
   "status": "proved",
   "theorems": [
    "C52_value",
    "C52_bounds",
    "C52_empty"
   ],
   "note": ""
  },
  {
   "property": "C53",
   "status": "partial",
   "theorems": [
    "C53_counts",
    "C53_curve",
    "C53_one_profile_refuted"
   ],
   "note": "Two dimensional tables proved in full; the announced one dimensional input raises IndexError (C53_one_profile_refuted)."
  },
  {
   "property": "C54",
   "status": "partial",
   "theorems": [
    "C54_least_partial",
    "C54_text",
    "C54_metric_partial",
    "C54_pseudo",
    "C54_bounds",
    "C54_one_state",
    "C54_empty",
    "C54_two_digits_refuted"
   ],
   "note": "Least edits and metric proved for single digit states (and for printed texts in general); refuted for states of two digits. The external distance function is modelled by the usual dynamic program."
  },
  {
   "property": "C55",
   "status": "proved",
   "theorems": [
    "C55_add_time",
    "C55_defined",
    "C55_flags",
    "C55_remove",
    "C55_restore",
    "C55_latest",
    "C55_week_format",
    "C55_week_values"
   ],
   "note": ""
  },
  {
   "property": "C56",
   "status": "partial",
   "theorems": [
    "C56_count_partial",
    "C56_inherit",
    "C56_roles",
    "C56_list",
    "C56_contradiction_refuted",
    "C56_no_number"
   ],
   "note": "Proved when the household type does not contradict the number of residents; refuted otherwise (the type wins)."
  },
  {
   "property": "C57",
   "status": "partial",
   "theorems": [
    "C57_first",
    "C57_frozen",
    "C57_names",
    "C57_any_order",
    "C57_time_attributes_refuted",
    "C57_abandoned_refuted",
    "C57_refused",
    "C57_numpy_number_refuted",
    "C57_number_keys_refuted"
   ],
   "note": "First load, later loads, names and any order proved for data of the stored kind. Refuted: time attributes are dropped from the names of the target files, a failed conversion leaves an empty file, numpy integers and number keys change between first and second load."
  },
  {
   "property": "C58",
   "status": "partial",
   "theorems": [
    "C58_within_month_partial",
    "C58_stops_at_month_end",
    "C58_month_end_refuted"
   ],
   "note": "Proved while the month does not change (every step succeeds and shows the next reading and temperature); every run leaving the month of its start raises StopIteration (proved, refutes the full claim)."
  },
  {
   "property": "C59",
   "status": "proved",
   "theorems": [
    "C59_power_is_sum",
    "C59_trajectory",
    "C59_activities_ahead",
    "C59_heat_getters"
   ],
   "note": "Sub-simulators are arbitrary state machines keeping their number of households. The activities are ahead of the clock by up to nine minutes (C59_activities_ahead)."
  },
  {
   "property": "C60",
   "status": "proved",
   "theorems": [
    "C60_estimates"
   ],
   "note": ""
  },
  {
   "property": "C61",
   "status": "partial",
   "theorems": [
    "C61_refuted",
    "C61_listed_partial"
   ],
   "note": "Refuted as stated (C61_refuted: persons are listed secondary first, states primary first); C61_listed_partial gives what holds."
  },
  {
   "property": "C62",
   "status": "proved",
   "theorems": [
    "C62_counts",
    "C62_missing_household"
   ],
   "note": ""
  },
  {
   "property": "C63",
   "status": "partial",
   "theorems": [
    "C63_chain",
    "C63_set_tpm",
    "C63_set_tpm_same_labels",
    "C63_sparse_partial",
    "C63_sparse_refuted"
   ],
   "note": "Proved for the Markov chain (C63_chain); refuted for the sparse simulator (C63_sparse_refuted), exact behaviour in C63_sparse_partial."
  },
  {
   "property": "C64",
   "status": "proved",
   "theorems": [
    "C64_persons",
    "C64_counts",
    "C64_counts_mismatch",
    "C64_doing",
    "C64_unknown_activity",
    "C64_residents",
    "C64_occupancy"
   ],
   "note": ""
  },
  {
   "property": "C65",
   "status": "partial",
   "theorems": [
    "C65_time_partial",
    "C65_time_refuted"
   ],
   "note": "Refuted (C65_time_refuted); C65_time_partial gives the exact offset."
  },
  {
   "property": "C66",
   "status": "partial",
   "theorems": [
    "C66_volume_partial",
    "C66_volume_refuted",
    "C66_idle",
    "C66_heat"
   ],
   "note": "Refuted: one minute of flow is lost per event (C66_volume_refuted); C66_volume_partial gives the exact volume delivered."
  },
  {
   "property": "C67",
   "status": "proved",
   "theorems": [
    "C67_values",
    "C67_defined",
    "C67_ownership"
   ],
   "note": ""
  },
  {
   "property": "C68",
   "status": "proved",
   "theorems": [
    "C68_sum",
    "C68_middle",
    "C68_domain",
    "C68_error"
   ],
   "note": ""
  },
  {
   "property": "C69",
   "status": "proved",
   "theorems": [
    "C69_merge"
   ],
   "note": ""
  },
  {
   "property": "C70",
   "status": "partial",
   "theorems": [
    "C70_after_step_partial",
    "C70_initial_refuted",
    "C70_new"
   ],
   "note": "Holds after every step; refuted for a simulator built without initial occupancy (a scalar is returned)."
  },
  {
   "property": "C71",
   "status": "proved",
   "theorems": [
    "C71_randn",
    "C71_config"
   ],
   "note": ""
  },
  {
   "property": "C72",
   "status": "partial",
   "theorems": [
    "C72_recharge_partial",
    "C72_recharge_refuted",
    "C72_debt_refuted"
   ],
   "note": "Refuted: one reading less than needed, and short trips drive the counter negative. C72_recharge_partial is the exact number of readings."
  },
  {
   "property": "C73",
   "status": "partial",
   "theorems": [
    "C73_methods_partial",
    "C73_timers_refuted",
    "C73_timers_error"
   ],
   "note": "'timers' sets a bare integer and every step fails (C73_timers_refuted); the two other methods and the refusal hold (C73_methods_partial, stepping by C43_no_error)."
  },
  {
   "property": "C74",
   "status": "proved",
   "theorems": [
    "C74_owners",
    "C74_at_most_three"
   ],
   "note": ""
  },
  {
   "property": "C75",
   "status": "partial",
   "theorems": [
    "C75_absent_partial",
    "C75_heat_array_refuted",
    "C75_target_refuted"
   ],
   "note": "Holds for dictionaries and separate arrays (C75_absent_partial); refuted for one heat array and for target temperatures."
  },
  {
   "property": "C76",
   "status": "partial",
   "theorems": [
    "C76_total_partial",
    "C76_total_refuted",
    "C76_external"
   ],
   "note": "Total proved without external outputs; refuted with them."
  },
  {
   "property": "C77",
   "status": "partial",
   "theorems": [
    "C77_power",
    "C77_rating_partial",
    "C77_rating_refuted",
    "C77_nan_refuted",
    "C77_energy_refuted",
    "C77_fuels"
   ],
   "note": "Exact value proved; the bound needs max_dhw >= max_sh > 0 and is refuted otherwise; gas energy refuted."
  },
  {
   "property": "C78",
   "status": "partial",
   "theorems": [
    "C78_closed_loop",
    "C78_step_size_refuted"
   ],
   "note": "Proved for steps of one minute and algorithm heat_max_emmiters; refuted for other step sizes."
  },
  {
   "property": "C79",
   "status": "proved",
   "theorems": [
    "C79_controls",
    "C79_algorithms",
    "C79_external_cylinder_refuted"
   ],
   "note": "Controls and algorithms as stated for the flag seen by the controls; C79_external_cylinder_refuted shows the flag is one step late."
  },
  {
   "property": "C80",
   "status": "partial",
   "theorems": [
    "C80_events",
    "C80_empty_partial",
    "C80_empty_start_refuted"
   ],
   "note": "Refuted for households empty at the start; everything else proved."
  },
  {
   "property": "C81",
   "status": "partial",
   "theorems": [
    "C81_times",
    "C81_latest",
    "C81_periodic_partial",
    "C81_off_grid_refuted",
    "C81_night_refuted"
   ],
   "note": "Times and latest event proved; daily repetition only for starts on the ten minute grid; the night clause is refuted."
  },
  {
   "property": "C82",
   "status": "partial",
   "theorems": [
    "C82_default",
    "C82_options_refuted",
    "C82_methods_partial"
   ],
   "note": "Refuted: the same arguments go to two functions that accept different names. Defaults and attribute_patterns proved."
  },
  {
   "property": "C83",
   "status": "proved",
   "theorems": [
    "C83_energy",
    "C83_units",
    "C83_coincident"
   ],
   "note": ""
  },
  {
   "property": "C84",
   "status": "partial",
   "theorems": [
    "C84_distribution_partial",
    "C84_normalize_refuted",
    "C84_normalize_drops_refuted",
    "C84_unit_edges_refuted",
    "C84_edges_partial",
    "C84_short_refuted",
    "C84_zero_changes_refuted"
   ],
   "note": "Proved for normalize=False, with computed edges and with given edges. Refuted: normalised changes use the range in watts, edges from 0 to 1 are refused, changes equal to the first edge are dropped, empty last bins are left out."
  },
  {
   "property": "C85",
   "status": "partial",
   "theorems": [
    "C85_errors",
    "C85_bounds",
    "C85_self",
    "C85_missing_state_refuted",
    "C85_average_partial",
    "C85_average_refuted"
   ],
   "note": "Shares, bounds and zero on itself proved for tables with the same states; refuted: KeyError for a state in one table only, average divides by T+1."
  },
  {
   "property": "C86",
   "status": "proved",
   "theorems": [
    "C86_value",
    "C86_metric",
    "C86_shape"
   ],
   "note": ""
  },
  {
   "property": "C87",
   "status": "partial",
   "theorems": [
    "C87_values",
    "C87_homophily",
    "C87_size_refuted",
    "C87_density_refuted",
    "C87_one_step_refuted"
   ],
   "note": "Centrality and homophily proved; network size, density bound and single time step refuted; the exact values computed are proved."
  },
  {
   "property": "C88",
   "status": "proved",
   "theorems": [
    "C88_sparsity"
   ],
   "note": ""
  },
  {
   "property": "C89",
   "status": "partial",
   "theorems": [
    "C89_order_free",
    "C89_injective_partial",
    "C89_collision_refuted"
   ],
   "note": "Exact for keys of words joined by single underscores and non-empty lists; refuted: a number and the list of this number share a name."
  },
  {
   "property": "C90",
   "status": "partial",
   "theorems": [
    "C90_order",
    "C90_strict_total",
    "C90_documented_refuted",
    "C90_kinds"
   ],
   "note": "Strict total order proved; the documented direction is refuted."
  },
  {
   "property": "C91",
   "status": "proved",
   "theorems": [
    "C91_accepts",
    "C91_plain",
    "C91_arrays",
    "C91_keys",
    "C91_precision_refuted"
   ],
   "note": "Mixed or ragged lists and integer widths are not represented; single precision changes (C91_precision_refuted)."
  },
  {
   "property": "C92",
   "status": "partial",
   "theorems": [
    "C92_tpm_partial",
    "C92_duration",
    "C92_dict",
    "C92_sparse",
    "C92_shared_file_refuted"
   ],
   "note": "Proved except for dense and sparse matrices of the same name, which share one file (C92_shared_file_refuted)."
  },
  {
   "property": "C93",
   "status": "partial",
   "theorems": [
    "C93_slice_partial",
    "C93_early_refuted"
   ],
   "note": "Proved for starts not before the data; earlier starts return all data without error (C93_early_refuted)."
  },
  {
   "property": "C94",
   "status": "partial",
   "theorems": [
    "C94_profiles_partial",
    "C94_separator_refuted",
    "C94_empty_refuted"
   ],
   "note": "Proved for names without '&' and types with at least one profile; refuted otherwise."
  },
  {
   "property": "C95",
   "status": "partial",
   "theorems": [
    "C95_simulator_partial",
    "C95_start_refuted",
    "C95_midnight_partial",
    "C95_offset",
    "C95_afternoon_refuted"
   ],
   "note": "Refuted for starts after midnight and for the first reading; exact offset proved; midnight starts proved with a lag of one minute."
  },
  {
   "property": "C96",
   "status": "proved",
   "theorems": [
    "C96_bounds",
    "C96_higher",
    "C96_noon",
    "C96_symmetric",
    "C96_summer"
   ],
   "note": "Over the reals: uses the axioms of Coq's Reals (sig_forall_dec, sig_not_dec, functional_extensionality_dep, classic)."
  },
  {
   "property": "C97",
   "status": "partial",
   "theorems": [
    "C97_no_light",
    "C97_daylight",
    "C97_range",
    "C97_night",
    "C97_night_end_partial",
    "C97_dark_minute",
    "C97_dark_minute_refuted",
    "C97_no_night",
    "C97_night_end_refuted"
   ],
   "note": "Daylight temperatures, range and night recurrence proved; end of the night and dark minutes during the day refuted, with exact values."
  },
  {
   "property": "C98",
   "status": "proved",
   "theorems": [
    "C98_recorded",
    "C98_outside",
    "C98_gap_refuted"
   ],
   "note": "For regularly spaced data; with missing points refuted (C98_gap_refuted)."
  },
  {
   "property": "C99",
   "status": "proved",
   "theorems": [
    "C99_interpolated",
    "C99_at_points"
   ],
   "note": "For regularly spaced data at whole minutes and starts before the last point."
  },
  {
   "property": "C100",
   "status": "proved",
   "theorems": [
    "C100_missing_weather_refused",
    "C100_external_weather_wins",
    "C100_partial_override",
    "C100_runs"
   ],
   "note": ""
  },
  {
   "property": "C101",
   "status": "proved",
   "theorems": [
    "C101_construction",
    "C101_fallback",
    "C101_bad_population"
   ],
   "note": ""
  },
  {
   "property": "C102",
   "status": "proved",
   "theorems": [
    "C102_households",
    "C102_households_domain",
    "C102_households_other",
    "C102_basic",
    "C102_basic_certain",
    "C102_all",
    "C102_refused",
    "C102_subgroup",
    "C102_subgroup_defined",
    "C102_subgroup_missing",
    "C102_set",
    "C102_set_none"
   ],
   "note": ""
  },
  {
   "property": "C103",
   "status": "partial",
   "theorems": [
    "C103_variable",
    "C103_profile_partial",
    "C103_consistent",
    "C103_profile_refuted",
    "C103_constant",
    "C103_defined",
    "C103_errors"
   ],
   "note": "Fails for 'uniform' when an appliance that is switched on shares its type with a whole-day appliance (C103_profile_refuted); otherwise proved."
  },
  {
   "property": "C104",
   "status": "partial",
   "theorems": [
    "C104_parent",
    "C104_running",
    "C104_occupancy",
    "C104_defined_partial",
    "C104_defined_refuted",
    "C104_constant_refuted",
    "C104_parent_readings",
    "C104_occupancy_readings_partial",
    "C104_occupancy_readings_refuted"
   ],
   "note": "Construction fails for 'full' profiles of a single value (C104_defined_refuted); an appliance with constant load can start in use (C104_constant_refuted); readings of water appliances with a profile can be out of range (C104_occupancy_readings_refuted)."
  },
  {
   "property": "C105",
   "status": "partial",
   "theorems": [
    "C105_follows_partial",
    "C105_sticks",
    "C105_whole_day",
    "C105_follows_refuted",
    "C105_kept",
    "C105_step_defined",
    "C105_left_out"
   ],
   "note": "Fails for appliances without 'inactive_switch_off', which stay in use (C105_follows_refuted, exact behaviour in C105_sticks); proved for the others. Activities left out of a step raise KeyError when they return (C105_left_out)."
  },
  {
   "property": "C106",
   "status": "proved",
   "theorems": [
    "C106_defined",
    "C106_power",
    "C106_constructed"
   ],
   "note": ""
  },
  {
   "property": "C107",
   "status": "partial",
   "theorems": [
    "C107_begins",
    "C107_initial",
    "C107_whole_day",
    "C107_first_refuted"
   ],
   "note": "The value read when the activity begins is the second one (C107_first_refuted); all later positions are proved."
  },
  {
   "property": "C108",
   "status": "proved",
   "theorems": [
    "C108_ranges",
    "C108_run"
   ],
   "note": ""
  },
  {
   "property": "C109",
   "status": "partial",
   "theorems": [
    "C109_reported",
    "C109_external",
    "C109_total",
    "C109_stale_refuted"
   ],
   "note": "Proved for steps that name the external cylinder or have none; C109_stale_refuted shows that a step without the argument keeps the demand of an earlier step."
  },
  {
   "property": "C110",
   "status": "proved",
   "theorems": [
    "C110_running",
    "C110_reached"
   ],
   "note": ""
  },
  {
   "property": "C111",
   "status": "partial",
   "theorems": [
    "C111_idle",
    "C111_only",
    "C111_delay_refuted",
    "C111_unowned_refuted"
   ],
   "note": "Exact reasons proved for dictionaries with exactly one appliance that has a previous type; the waiting time is ignored (C111_delay_refuted) and appliances not owned start their followers (C111_unowned_refuted)."
  },
  {
   "property": "C112",
   "status": "partial",
   "theorems": [
    "C112_stops_partial",
    "C112_stops_refuted"
   ],
   "note": "Proved for appliances that do not start after the activity; C112_stops_refuted for the others."
  },
  {
   "property": "C113",
   "status": "partial",
   "theorems": [
    "C113_runs_out",
    "C113_whole_day_refuted"
   ],
   "note": "The documented behaviour is refuted (C113_whole_day_refuted); the exact behaviour is C113_runs_out."
  },
  {
   "property": "C114",
   "status": "partial",
   "theorems": [
    "C114_look_partial",
    "C114_look_refuted",
    "C114_reading",
    "C114_first_refuted"
   ],
   "note": "Independence of readings holds unless an owned appliance is in its last step (C114_look_partial, C114_look_refuted); the first reading after the construction is stale (C114_first_refuted)."
  },
  {
   "property": "C115",
   "status": "partial",
   "theorems": [
    "C115_defined",
    "C115_runs",
    "C115_left_out",
    "C115_two_followers",
    "C115_no_follower",
    "C115_columns"
   ],
   "note": "Proved for exactly one appliance with a previous type; with two or none steps fail as stated in C115_two_followers and C115_no_follower."
  },
  {
   "property": "C116",
   "status": "partial",
   "theorems": [
    "C116_values",
    "C116_defined",
    "C116_range_refuted",
    "C116_order_refuted"
   ],
   "note": "Values proved except when both the related and the previous activity are known and different, where the order of the data decides (C116_order_refuted); values can be above 1 (C116_range_refuted)."
  },
  {
   "property": "C117",
   "status": "partial",
   "theorems": [
    "C117_kept",
    "C117_split",
    "C117_left",
    "C117_again_refuted"
   ],
   "note": "Holds when the dictionary is read once; the 'probabilistic' column is left negated (C117_again_refuted)."
  },
  {
   "property": "C118",
   "status": "proved",
   "theorems": [
    "C118_power",
    "C118_trip"
   ],
   "note": ""
  },
  {
   "property": "C119",
   "status": "partial",
   "theorems": [
    "C119_states_partial",
    "C119_unknown_code",
    "C119_nobody",
    "C119_no_dictionary",
    "C119_other_refuted"
   ],
   "note": "Proved except that 'other' needs a label of at least five letters; otherwise the name is cut (refuted)."
  },
  {
   "property": "C120",
   "status": "partial",
   "theorems": [
    "C120_ignored",
    "C120_replaced_refuted"
   ],
   "note": "Refuted: the secondary activities are never read; proved that results do not depend on them."
  },
  {
   "property": "C121",
   "status": "partial",
   "theorems": [
    "C121_tpms_partial",
    "C121_labels_refuted"
   ],
   "note": "Proved; distinct labels only with use_sec_states (refuted otherwise)."
  },
  {
   "property": "C122",
   "status": "proved",
   "theorems": [
    "C122_durations"
   ],
   "note": ""
  },
  {
   "property": "C123",
   "status": "partial",
   "theorems": [
    "C123_starts_partial",
    "C123_short",
    "C123_pdf_refuted",
    "C123_wake_up_refuted"
   ],
   "note": "Entries above 0 proved; the arrays are no distributions and active_occupancy counts falling asleep and leaving (refuted)."
  },
  {
   "property": "C124",
   "status": "proved",
   "theorems": [
    "C124_shares",
    "C124_missing"
   ],
   "note": ""
  },
  {
   "property": "C125",
   "status": "partial",
   "theorems": [
    "C125_occupancy_partial",
    "C125_between_travels_refuted",
    "C125_start_refuted"
   ],
   "note": "Proved before the first and after the last travel; between travels always out, missing start answers always home (refuted)."
  },
  {
   "property": "C126",
   "status": "proved",
   "theorems": [
    "C126_out"
   ],
   "note": ""
  },
  {
   "property": "C127",
   "status": "proved",
   "theorems": [
    "C127_grouped",
    "C127_lengths"
   ],
   "note": ""
  },
  {
   "property": "C128",
   "status": "partial",
   "theorems": [
    "C128_state_partial",
    "C128_decoded_partial",
    "C128_seven_refuted"
   ],
   "note": "Composition of the state proved for all households; decoding for at most six members, refuted for seven."
  },
  {
   "property": "C129",
   "status": "partial",
   "theorems": [
    "C129_sparse_partial",
    "C129_last_refuted"
   ],
   "note": "Proved for 'nothing'; 'last' refuted."
  },
  {
   "property": "C130",
   "status": "partial",
   "theorems": [
    "C130_profile_partial",
    "C130_active_refuted"
   ],
   "note": "Proved with min(home, awake) for households of at most nine members; this is not the number of active occupants (refuted)."
  },
  {
   "property": "C131",
   "status": "proved",
   "theorems": [
    "C131_data",
    "C131_sparse_data"
   ],
   "note": ""
  },
  {
   "property": "C132",
   "status": "proved",
   "theorems": [
    "C132_active"
   ],
   "note": ""
  },
  {
   "property": "C133",
   "status": "partial",
   "theorems": [
    "C133_final_partial",
    "C133_next_day_refuted"
   ],
   "note": "Refuted: the previous diary is used, which is what is proved."
  },
  {
   "property": "C134",
   "status": "partial",
   "theorems": [
    "C134_mask_partial"
   ],
   "note": "Exact mask for well-formed tables when reports of missing days come in pairs and, with lists or '1_retired', the three flags are on."
  },
  {
   "property": "C135",
   "status": "partial",
   "theorems": [
    "C135_days_partial",
    "C135_reason",
    "C135_days_refuted"
   ],
   "note": "Proved when the reports come in pairs; refuted otherwise (every second report is skipped). No diary is left out without a reason for all tables."
  },
  {
   "property": "C136",
   "status": "partial",
   "theorems": [
    "C136_weekdays_partial",
    "C136_residents_partial",
    "C136_life_partial",
    "C136_flags_refuted"
   ],
   "note": "Union proved with the three flags on; refuted when they are off (the calls for the elements switch them on again)."
  },
  {
   "property": "C137",
   "status": "proved",
   "theorems": [
    "C137_errors",
    "C137_persons",
    "C137_households",
    "C137_unused"
   ],
   "note": ""
  },
  {
   "property": "C138",
   "status": "proved",
   "theorems": [
    "C138_population",
    "C138_starting",
    "C138_default",
    "C138_errors",
    "C138_nobody",
    "C138_unknown_algorithm"
   ],
   "note": ""
  },
  {
   "property": "C139",
   "status": "proved",
   "theorems": [
    "C139_execution",
    "C139_functional"
   ],
   "note": ""
  },
  {
   "property": "C140",
   "status": "partial",
   "theorems": [
    "C140_slots_partial",
    "C140_history_refuted",
    "C140_midnight_refuted",
    "C140_misaligned"
   ],
   "note": "The tables and matrix number actually used are proved for all runs; the claim itself is refuted (dependence on the start; first ten minutes of a new kind of day)."
  },
  {
   "property": "C141",
   "status": "proved",
   "theorems": [
    "C141_labels",
    "C141_occupancy"
   ],
   "note": ""
  },
  {
   "property": "C142",
   "status": "proved",
   "theorems": [
    "C142_population",
    "C142_starting",
    "C142_execution",
    "C142_step_size",
    "C142_flags",
    "C142_aware"
   ],
   "note": ""
  },
  {
   "property": "C143",
   "status": "partial",
   "theorems": [
    "C143_fresh_partial",
    "C143_misaligned",
    "C143_neutral_refuted"
   ],
   "note": "Date at most one day old and number of steps since, proved on the grid; neutrality of the calendar refuted; off the grid the calendar is ignored."
  },
  {
   "property": "C144",
   "status": "proved",
   "theorems": [
    "C144_names",
    "C144_latest",
    "C144_population",
    "C144_sampling",
    "C144_published"
   ],
   "note": ""
  },
  {
   "property": "C145",
   "status": "partial",
   "theorems": [
    "C145_fits",
    "C145_unique",
    "C145_best_partial",
    "C145_found_partial",
    "C145_revenue_refuted",
    "C145_large_refuted",
    "C145_precedence_refuted",
    "C145_errors",
    "C145_lists"
   ],
   "note": "Correctness of the chosen column for all subgroups; completeness refuted for revenue zero and for six or more residents."
  },
  {
   "property": "C146",
   "status": "partial",
   "theorems": [
    "C146_succeeds",
    "C146_errors",
    "C146_entries_partial",
    "C146_average_partial",
    "C146_time",
    "C146_duplicate_refuted"
   ],
   "note": "Proved for sheets whose types are distinct and none is a numbered copy of another; refuted for a type listed twice (as in the shipped sheet)."
  },
  {
   "property": "C147",
   "status": "partial",
   "theorems": [
    "C147_interpolation",
    "C147_average_partial",
    "C147_second",
    "C147_bounds",
    "C147_errors",
    "C147_zero_step_refuted",
    "C147_fraction_refuted"
   ],
   "note": "All clauses proved for whole-second steps; the number of steps is refuted when the length is a multiple of the step (a zero step is appended) and conservation is refuted for fractional seconds."
  },
  {
   "property": "C148",
   "status": "partial",
   "theorems": [
    "C148_full_partial",
    "C148_names",
    "C148_lost_refuted",
    "C148_on",
    "C148_part",
    "C148_errors",
    "C148_same_error"
   ],
   "note": "Proved when no two directories of one type share a file name; refuted otherwise."
  },
  {
   "property": "C149",
   "status": "proved",
   "theorems": [
    "C149_matrices",
    "C149_states",
    "C149_short",
    "C149_accepts",
    "C149_refused"
   ],
   "note": ""
  },
  {
   "property": "C150",
   "status": "partial",
   "theorems": [
    "C150_columns",
    "C150_litres",
    "C150_errors",
    "C150_switch_off_partial",
    "C150_dish_washer_refuted"
   ],
   "note": "All clauses proved except that dish washers are not exempt from being switched off (refuted)."
  },
  {
   "property": "C151",
   "status": "proved",
   "theorems": [
    "C151_round_trip",
    "C151_entries",
    "C151_crest",
    "C151_condition_needed"
   ],
   "note": "The condition on the types is part of the statement; it is checked for the types of CREST and shown to be needed."
  },
  {
   "property": "C152",
   "status": "proved",
   "theorems": [
    "C152_profiles",
    "C152_errors"
   ],
   "note": ""
  },
  {
   "property": "C153",
   "status": "proved",
   "theorems": [
    "C153_numbers",
    "C153_shares",
    "C153_power"
   ],
   "note": ""
  },
  {
   "property": "C154",
   "status": "partial",
   "theorems": [
    "C154_rows",
    "C154_first_row_partial",
    "C154_first_row_refuted",
    "C154_errors",
    "C154_washing",
    "C154_phases"
   ],
   "note": "The first state goes to the second only if the sheet has zeros elsewhere in its row; otherwise refuted."
  },
  {
   "property": "C155",
   "status": "partial",
   "theorems": [
    "C155_entries_partial",
    "C155_stripped",
    "C155_flags_partial",
    "C155_number",
    "C155_errors",
    "C155_empty_flag_refuted",
    "C155_collision_refuted"
   ],
   "note": "Proved with flags of empty cells true and the later of two colliding columns kept; the full claims are refuted."
  },
  {
   "property": "C156",
   "status": "partial",
   "theorems": [
    "C156_round_trip_partial",
    "C156_sheet_partial",
    "C156_missing",
    "C156_repeated",
    "C156_repeated_refuted"
   ],
   "note": "Proved for pairwise different types; refuted for repeated types."
  },
  {
   "property": "C157",
   "status": "proved",
   "theorems": [
    "C157_temperatures",
    "C157_distributions",
    "C157_deadbands"
   ],
   "note": ""
  },
  {
   "property": "C158",
   "status": "partial",
   "theorems": [
    "C158_newest_partial",
    "C158_raw",
    "C158_refused",
    "C158_weighting_refuted",
    "C158_spelling_refuted",
    "C158_columns"
   ],
   "note": "One spelling and weighting per country; refuted otherwise. Raw files without conditions."
  },
  {
   "property": "C159",
   "status": "partial",
   "theorems": [
    "C159_array",
    "C159_one_array",
    "C159_archive_partial",
    "C159_hidden_refuted",
    "C159_suffix_refuted",
    "C159_frame",
    "C159_refused",
    "C159_step",
    "C159_step_refused"
   ],
   "note": "Arrays, step sizes and frames proved; archives when no npy file of the name exists; refuted otherwise."
  },
  {
   "property": "C160",
   "status": "partial",
   "theorems": [
    "C160_profiles_partial",
    "C160_labels_refuted",
    "C160_missing",
    "C160_names",
    "C160_dictionaries_refuted",
    "C160_numpy_refuted"
   ],
   "note": "Loads without labels, with pickle allowed, or the first of the kind; refuted for labels otherwise."
  },
  {
   "property": "C161",
   "status": "partial",
   "theorems": [
    "C161_newest_partial",
    "C161_folders",
    "C161_seconds_refuted",
    "C161_update_refuted",
    "C161_removed_refuted",
    "C161_failed_update_refuted",
    "C161_update_first_refuted"
   ],
   "note": "Proved for whole seconds when updates are made with this version and step size and archives keep their files; refuted otherwise."
  },
  {
   "property": "C162",
   "status": "partial",
   "theorems": [
    "C162_versions",
    "C162_activities",
    "C162_appliances",
    "C162_flags",
    "C162_fisher_refuted",
    "C162_fisher_partial"
   ],
   "note": "Versions proved; the error of fisher lighting is refuted."
  },
  {
   "property": "C163",
   "status": "partial",
   "theorems": [
    "C163_any_order_partial",
    "C163_frozen",
    "C163_names",
    "C163_population",
    "C163_population_refuted",
    "C163_numpy_refuted",
    "C163_ownership_refuted",
    "C163_incomplete"
   ],
   "note": "Any order of loads for data json can hold; refuted for arrays in populations, numpy numbers and ownership with time attributes."
  },
  {
   "property": "C164",
   "status": "proved",
   "theorems": [
    "C164_probability_unique",
    "C164_bounds",
    "C164_law",
    "C164_distribution",
    "C164_path"
   ],
   "note": ""
  },
  {
   "property": "C165",
   "status": "proved",
   "theorems": [
    "C165_states",
    "C165_paths"
   ],
   "note": ""
  },
  {
   "property": "C166",
   "status": "proved",
   "theorems": [
    "C166_law",
    "C166_joint"
   ],
   "note": ""
  },
  {
   "property": "C167",
   "status": "proved",
   "theorems": [
    "C167_binomial",
    "C167_assignment"
   ],
   "note": ""
  },
  {
   "property": "C168",
   "status": "proved",
   "theorems": [
    "C168_ownership",
    "C168_owners",
    "C168_switch_on"
   ],
   "note": ""
  },
  {
   "property": "C169",
   "status": "proved",
   "theorems": [
    "C169_law",
    "C169_episodes"
   ],
   "note": ""
  },
  {
   "property": "C170",
   "status": "partial",
   "theorems": [
    "C170_law",
    "C170_index",
    "C170_start_partial",
    "C170_start_refuted"
   ],
   "note": "The law is proved; that the simulator starts with the given clearness is refuted (it is that of midnight)."
  },
  {
   "property": "C171",
   "status": "proved",
   "theorems": [
    "C171_system",
    "C171_building",
    "C171_complete",
    "C171_refused",
    "C171_missing"
   ],
   "note": ""
  },
  {
   "property": "C172",
   "status": "proved",
   "theorems": [
    "C172_law",
    "C172_binomial",
    "C172_shares",
    "C172_zero"
   ],
   "note": ""
  },
  {
   "property": "C173",
   "status": "proved",
   "theorems": [
    "C173_total",
    "C173_parts",
    "C173_temperatures",
    "C173_off",
    "C173_power"
   ],
   "note": ""
  },
  {
   "property": "C174",
   "status": "partial",
   "theorems": [
    "C174_call",
    "C174_replaced_partial",
    "C174_no_power_partial",
    "C174_no_power_later_partial",
    "C174_power_refuted",
    "C174_cached_refuted"
   ],
   "note": "The flags set by the call last until the next step only (C174_power_refuted); proved for the steps that name external outputs."
  },
  {
   "property": "C175",
   "status": "proved",
   "theorems": [
    "C175_outputs",
    "C175_power"
   ],
   "note": ""
  },
  {
   "property": "C176",
   "status": "partial",
   "theorems": [
    "C176_slot_partial",
    "C176_start_free_partial",
    "C176_errors",
    "C176_never_refreshed",
    "C176_quarter_hours_refuted",
    "C176_half_minutes_refuted",
    "C176_offset_refuted"
   ],
   "note": "Proved (C176_slot_partial, C176_start_free_partial, C176_errors) for steps of whole minutes dividing ten minutes, refresh on a multiple of ten minutes and aligned start; refuted otherwise (C176_quarter_hours_refuted, C176_half_minutes_refuted, C176_offset_refuted); C176_never_refreshed: unaligned runs keep the first profiles."
  },
  {
   "property": "C177",
   "status": "proved",
   "theorems": [
    "C177_labels",
    "C177_only_if",
    "C177_if",
    "C177_otherwise",
    "C177_always",
    "C177_missing",
    "C177_ragged"
   ],
   "note": "Exact conditions where the slot is right (see C176); C177_always for every step size and start: the probability is one of the own activity and own subgroup."
  },
  {
   "property": "C178",
   "status": "partial",
   "theorems": [
    "C178_day_type_partial",
    "C178_other_attributes",
    "C178_own_day_refuted"
   ],
   "note": "The day type of the refresh is proved for aligned runs (C178_day_type_partial), other attributes for all runs; the user's own 'weekday' and 'quarter' are overwritten (C178_own_day_refuted)."
  },
  {
   "property": "C179",
   "status": "proved",
   "theorems": [
    "C179_new",
    "C179_step_size",
    "C179_occupancy"
   ],
   "note": ""
  },
  {
   "property": "C180",
   "status": "partial",
   "theorems": [
    "C180_states",
    "C180_accepted",
    "C180_round_trip",
    "C180_no_lines",
    "C180_states_given_refuted",
    "C180_times_deduced_refuted"
   ],
   "note": "Proved for all lists of transitions (C180_states, C180_accepted, C180_round_trip); refuted for the optional sizes: n_states without initial states (C180_states_given_refuted), default n_times (C180_times_deduced_refuted)."
  },
  {
   "property": "C181",
   "status": "proved",
   "theorems": [
    "C181_matrices",
    "C181_rows",
    "C181_first",
    "C181_accepted",
    "C181_unknown",
    "C181_initial_above"
   ],
   "note": ""
  },
  {
   "property": "C182",
   "status": "proved",
   "theorems": [
    "C182_mask",
    "C182_accepted",
    "C182_refused",
    "C182_same",
    "C182_again"
   ],
   "note": ""
  },
  {
   "property": "C183",
   "status": "proved",
   "theorems": [
    "C183_timed",
    "C183_unknown",
    "C183_refused"
   ],
   "note": ""
  },
  {
   "property": "C184",
   "status": "partial",
   "theorems": [
    "C184_stacked",
    "C184_smaller_partial",
    "C184_smaller_refuted",
    "C184_nothing",
    "C184_ragged"
   ],
   "note": "Proved (C184_stacked) for all tables when the number of states is deduced or large enough; a smaller number of states is ignored only if the greatest state is seen at all times (C184_smaller_partial), otherwise sums differ from one (C184_smaller_refuted)."
  },
  {
   "property": "C185",
   "status": "partial",
   "theorems": [
    "C185_value",
    "C185_zero",
    "C185_symmetric",
    "C185_triangle",
    "C185_shift",
    "C185_scale",
    "C185_bound",
    "C185_refused",
    "C185_same_shape_refuted"
   ],
   "note": "A metric on arrays of one shape, with its value, shift, scale and bounds, for all arrays; the documented requirement of the same shape is not enforced (C185_same_shape_refuted)."
  },
  {
   "property": "C186",
   "status": "proved",
   "theorems": [
    "C186_similarity",
    "C186_exchange",
    "C186_triangle",
    "C186_refused"
   ],
   "note": ""
  },
  {
   "property": "C187",
   "status": "partial",
   "theorems": [
    "C187_distances",
    "C187_number",
    "C187_average",
    "C187_order",
    "C187_zero",
    "C187_scale",
    "C187_single",
    "C187_shape_refuted"
   ],
   "note": "The value over pairs proved for all profiles; the documented shape of the result is refuted (C187_shape_refuted)."
  },
  {
   "property": "C188",
   "status": "partial",
   "theorems": [
    "C188_simulators",
    "C188_total",
    "C188_positions",
    "C188_lists",
    "C188_errors",
    "C188_all_subgroups_refuted"
   ],
   "note": "Positions and totals proved for all subgroups and numbers; lists of different lengths and objects of SparseStatesSimulator are refuted (C188_all_subgroups_refuted)."
  },
  {
   "property": "C189",
   "status": "partial",
   "theorems": [
    "C189_created_refuted",
    "C189_errors"
   ],
   "note": "Refuted for all arguments: the constructor never returns (C189_created_refuted, C189_errors)."
  },
  {
   "property": "C190",
   "status": "proved",
   "theorems": [
    "C190_dark",
    "C190_first",
    "C190_geometric",
    "C190_chance"
   ],
   "note": ""
  },
  {
   "property": "C191",
   "status": "proved",
   "theorems": [
    "C191_minutes",
    "C191_all",
    "C191_share"
   ],
   "note": ""
  },
  {
   "property": "C192",
   "status": "proved",
   "theorems": [
    "C192_law",
    "C192_positive",
    "C192_decreasing",
    "C192_unbounded",
    "C192_mean"
   ],
   "note": ""
  },
  {
   "property": "C193",
   "status": "partial",
   "theorems": [
    "C193_counts",
    "C193_counts_timed",
    "C193_misfit",
    "C193_half_step",
    "C193_random",
    "C193_all_inside",
    "C193_algorithms",
    "C193_report",
    "C193_reports",
    "C193_maximum_refuted"
   ],
   "note": "Counts, clock, initial states and reports proved for all runs; the documented maximum of residents is refuted (C193_maximum_refuted)."
  },
  {
   "property": "C194",
   "status": "proved",
   "theorems": [
    "C194_water",
    "C194_heat",
    "C194_profile",
    "C194_refused",
    "C194_outside"
   ],
   "note": ""
  },
  {
   "property": "C195",
   "status": "proved",
   "theorems": [
    "C195_get",
    "C195_get_default",
    "C195_one_household",
    "C195_new_key",
    "C195_no_record",
    "C195_example_step"
   ],
   "note": ""
  },
  {
   "property": "C196",
   "status": "proved",
   "theorems": [
    "C196_targets",
    "C196_short_table",
    "C196_new",
    "C196_new_power",
    "C196_nan",
    "C196_no_rating",
    "C196_unknown_output"
   ],
   "note": ""
  },
  {
   "property": "C197",
   "status": "proved",
   "theorems": [
    "C197_new",
    "C197_version",
    "C197_no",
    "C197_yes",
    "C197_silent",
    "C197_refused"
   ],
   "note": ""
  },
  {
   "property": "C198",
   "status": "partial",
   "theorems": [
    "C198_kept",
    "C198_download",
    "C198_refused",
    "C198_clear_survey",
    "C198_clear_download",
    "C198_clear_new",
    "C198_broken",
    "C198_offline_refuted",
    "C198_data_refuted"
   ],
   "note": "Kept data, downloads, refusals and clearing proved for all disks and servers; refuted: offline use of parsed data, clearing a new activity, data after a successful construction."
  },
  {
   "property": "C199",
   "status": "partial",
   "theorems": [
    "C199_kept",
    "C199_clear",
    "C199_download",
    "C199_unknown",
    "C199_failed",
    "C199_cut",
    "C199_whole_refuted"
   ],
   "note": "All but the last part proved for all disks and servers; a whole workbook is refuted after a lost connection (C199_whole_refuted)."
  },
  {
   "property": "C200",
   "status": "partial",
   "theorems": [
    "C200_kept",
    "C200_clear",
    "C200_first",
    "C200_update",
    "C200_update_new",
    "C200_stale_refuted",
    "C200_data_refuted"
   ],
   "note": "Kept data, clearing, first download and update proved for all disks and servers; refuted: no stale parsed data, a first update, raw data after success."
  },
  {
   "property": "C201",
   "status": "partial",
   "theorems": [
    "C201_step",
    "C201_nobody",
    "C201_consumption",
    "C201_no_error",
    "C201_new",
    "C201_names",
    "C201_relit_refuted",
    "C201_fraction_partial",
    "C201_whole_partial"
   ],
   "note": "All but the last part proved; lighting a dark bulb again is refuted after a duration with a fractional part (C201_relit_refuted), and described for every time left."
  },
  {
   "property": "C202",
   "status": "partial",
   "theorems": [
    "C202_sampled_partial",
    "C202_none",
    "C202_at_least_one_refuted",
    "C202_refused"
   ],
   "note": "Proved when one of the numbers drawn is at least one; at least one bulb is refuted otherwise (C202_at_least_one_refuted, C202_none)."
  },
  {
   "property": "C203",
   "status": "partial",
   "theorems": [
    "C203_timers",
    "C203_other_starts",
    "C203_any_start_refuted",
    "C203_by_the_clock_refuted",
    "C203_initial_timer",
    "C203_initial_share_refuted",
    "C203_day_tables",
    "C203_initial_states",
    "C203_controls",
    "C203_no_system",
    "C203_settings_kept",
    "C203_set_points",
    "C203_change_set_points"
   ],
   "note": "Timers (for starts at a half hour), thermostats, controls and set points proved; other starts, tables by the clock and the share of timers on at the start are refuted."
  },
  {
   "property": "C204",
   "status": "partial",
   "theorems": [
    "C204_heat",
    "C204_heat_applies",
    "C204_neither_refuted",
    "C204_minute",
    "C204_never_off",
    "C204_fuel",
    "C204_unknown_fuel",
    "C204_pump",
    "C204_pump_with_controls_refuted",
    "C204_pump_never",
    "C204_constructor",
    "C204_constructor_refuted",
    "C204_initial",
    "C204_cylinder",
    "C204_kinds"
   ],
   "note": "Heat, temperatures, fuel and starting values proved; switching off of the cylinder thermostat, pump power with the controls returned and creation of the simulator are refuted."
  },
  {
   "property": "C205",
   "status": "partial",
   "theorems": [
    "C205_created",
    "C205_named_data",
    "C205_created_refuted",
    "C205_other_name",
    "C205_switch_on",
    "C205_switch_on_works",
    "C205_switch_off",
    "C205_programme",
    "C205_powers",
    "C205_columns",
    "C205_idle_machine_refuted",
    "C205_whole_cycles_partial",
    "C205_energy"
   ],
   "note": "Switching, programmes, powers and the energy of a wash proved; creation with the named data sets and standby after fractional cycles are refuted."
  },
  {
   "property": "C206",
   "status": "proved",
   "theorems": [
    "C206_volume",
    "C206_water",
    "C206_transfer"
   ],
   "note": ""
  },
  {
   "property": "C207",
   "status": "partial",
   "theorems": [
    "C207_crest",
    "C207_crest_refused",
    "C207_gtou",
    "C207_gtou_names",
    "C207_gtou_refused",
    "C207_rows",
    "C207_switch_on",
    "C207_bounds",
    "C207_nobody",
    "C207_unknown_refuted"
   ],
   "note": "Tables, rows and chances proved; that unknown activities are refused is refuted."
  },
  {
   "property": "C208",
   "status": "partial",
   "theorems": [
    "C208_occupied",
    "C208_other_lengths",
    "C208_absorbing",
    "C208_consistent",
    "C208_entries_refuted",
    "C208_file_parts",
    "C208_file_name",
    "C208_file_names_refuted"
   ],
   "note": "Occupancy and absorbing states proved; entries only for absorbing states and unique file names are refuted."
  },
  {
   "property": "C209",
   "status": "proved",
   "theorems": [
    "C209_systems",
    "C209_buildings",
    "C209_thermostat",
    "C209_construct",
    "C209_household",
    "C209_refused"
   ],
   "note": ""
  },
  {
   "property": "C210",
   "status": "partial",
   "theorems": [
    "C210_places",
    "C210_temperatures",
    "C210_climate_refuted",
    "C210_climate_partial",
    "C210_bulbs",
    "C210_lighting",
    "C210_lighting_refused",
    "C210_population",
    "C210_population_refused"
   ],
   "note": "Places, temperatures, lighting and population proved; that every version with a place has a temperature model is refuted."
  },
  {
   "property": "C211",
   "status": "proved",
   "theorems": [
    "C211_active",
    "C211_refused",
    "C211_codes"
   ],
   "note": ""
  },
  {
   "property": "C212",
   "status": "proved",
   "theorems": [
    "C212_rows",
    "C212_raw",
    "C212_refused",
    "C212_accepted",
    "C212_files"
   ],
   "note": ""
  },
  {
   "property": "C213",
   "status": "proved",
   "theorems": [
    "C213_climate",
    "C213_refused"
   ],
   "note": ""
  },
  {
   "property": "C214",
   "status": "proved",
   "theorems": [
    "C214_chains",
    "C214_others",
    "C214_sparse",
    "C214_germany",
    "C214_germany_refused"
   ],
   "note": ""
  },
  {
   "property": "C215",
   "status": "partial",
   "theorems": [
    "C215_ints",
    "C215_names",
    "C215_lists",
    "C215_arrays_refuted",
    "C215_arrays_partial",
    "C215_texts",
    "C215_scalars"
   ],
   "note": "Ints and lists proved; that labels in an array have names is refuted: numpy integers are not ints."
  },
  {
   "property": "C216",
   "status": "proved",
   "theorems": [
    "C216_pair",
    "C216_one",
    "C216_one_parsed",
    "C216_asked",
    "C216_missing"
   ],
   "note": ""
  },
  {
   "property": "C217",
   "status": "partial",
   "theorems": [
    "C217_path",
    "C217_lighting",
    "C217_lighting_accepted",
    "C217_lighting_refused",
    "C217_crest",
    "C217_bulbs",
    "C217_bulbs_accepted",
    "C217_config",
    "C217_config_crest_refuted",
    "C217_config_crest_partial"
   ],
   "note": "File, lighting, bulbs and configurations proved; that the configurations are those of CREST is refuted for sheets that are too large, and proved for the others."
  }
 ]
}