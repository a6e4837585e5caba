{
 "claims": [
  {
   "property": "C01",
   "status": "proved",
   "theorems": [
    "duration_accepted_iff",
    "duration_accepted_only_phrases"
   ],
   "note": "Counts above INT_MAX are undefined behaviour in atoi and excluded by numbers_fit."
  },
  {
   "property": "C02",
   "status": "partial",
   "theorems": [
    "duration_value_partial",
    "duration_value_charged",
    "duration_value_refuted"
   ],
   "note": "False in general: \"1h2m3s\" is read as 1h+3m+3s. Proved for separated items; exact value proved for all phrases."
  },
  {
   "property": "C03",
   "status": "partial",
   "theorems": [
    "duration_compose_partial",
    "duration_compose_accepted",
    "duration_compose_refuted"
   ],
   "note": "False when the second text has glued items; proved otherwise."
  },
  {
   "property": "C04",
   "status": "proved",
   "theorems": [
    "schema_exact"
   ],
   "note": ""
  },
  {
   "property": "C05",
   "status": "partial",
   "theorems": [
    "schema_error_located_partial",
    "schema_error_refuted"
   ],
   "note": "False for a performance or duration map with wrong attributes: it is reported as 'has invalid type' at the map instead of naming the missing or unexpected attribute inside. Proved for all other errors."
  },
  {
   "property": "C06",
   "status": "proved",
   "theorems": [
    "loaded_agents",
    "duplicate_agent"
   ],
   "note": ""
  },
  {
   "property": "C07",
   "status": "partial",
   "theorems": [
    "loaded_performance_partial",
    "loaded_performance_refuted"
   ],
   "note": "False: a performance of .nan passes the check and later violates a contract. Proved for all numbers."
  },
  {
   "property": "C08",
   "status": "proved",
   "theorems": [
    "loaded_groups"
   ],
   "note": ""
  },
  {
   "property": "C09",
   "status": "proved",
   "theorems": [
    "loaded_tasks",
    "flattening_unique"
   ],
   "note": ""
  },
  {
   "property": "C10",
   "status": "proved",
   "theorems": [
    "loaded_dependencies",
    "unknown_dependency"
   ],
   "note": ""
  },
  {
   "property": "C11",
   "status": "proved",
   "theorems": [
    "loaded_ids_unique",
    "duplicate_id"
   ],
   "note": ""
  },
  {
   "property": "C12",
   "status": "proved",
   "theorems": [
    "cycle_check",
    "cycle_reported",
    "cycle_reported_iff"
   ],
   "note": "Documents with another error report that error instead; more than 127 tasks throw."
  },
  {
   "property": "C13",
   "status": "proved",
   "theorems": [
    "loaded_durations"
   ],
   "note": "The value denoted by a text is that of C02."
  },
  {
   "property": "C14",
   "status": "proved",
   "theorems": [
    "loaded_assignment"
   ],
   "note": ""
  },
  {
   "property": "C15",
   "status": "partial",
   "theorems": [
    "able_agent_partial",
    "able_agent_refuted"
   ],
   "note": "False for tasks without groups and for tasks with several groups when no agent is without groups. Proved for tasks that name an agent or one group and for projects with an agent without groups."
  },
  {
   "property": "C16",
   "status": "partial",
   "theorems": [
    "can_work_partial",
    "can_work_refuted"
   ],
   "note": "False: can_work_on refuses a task without groups to an agent with groups, against the README. Proved for all other tasks."
  },
  {
   "property": "C17",
   "status": "partial",
   "theorems": [
    "load_terminates",
    "load_total_partial",
    "load_total_refuted"
   ],
   "note": "Termination holds for every tree. Documents that are 'ordinary' (LoadSpec.v: non-empty agent and group names, at most 128 agents, 127 tasks and 128 groups, no empty depends_on list, duration numbers that fit an int) load or are rejected with a validation error. The full statement is false: load_total_refuted gives nine documents that violate a contract or overflow an index."
  },
  {
   "property": "C18",
   "status": "partial",
   "theorems": [
    "loaded_sizes",
    "loaded_predictable_partial",
    "loaded_predictable_refuted"
   ],
   "note": "Proved when no performance is NaN, no duration is zero and durations fit 64 bits; then the scheduling parameters are computed and, if every task has an able agent, form a scheduling problem. The full statement is false: a duration of '0s' loads and violates the contract of the average."
  },
  {
   "property": "C19",
   "status": "proved",
   "theorems": [
    "available_agents_exact"
   ],
   "note": ""
  },
  {
   "property": "C20",
   "status": "proved",
   "theorems": [
    "dependencies_exact"
   ],
   "note": ""
  },
  {
   "property": "C21",
   "status": "proved",
   "theorems": [
    "normalised_durations"
   ],
   "note": "Rounding made explicit: at most two roundings per task and one per task plus three for the sum."
  },
  {
   "property": "C22",
   "status": "proved",
   "theorems": [
    "tables_are_values",
    "copy_faithful",
    "table_independent",
    "assign_faithful",
    "move_self",
    "packing"
   ],
   "note": ""
  },
  {
   "property": "C23",
   "status": "proved",
   "theorems": [
    "initial_schedule_valid"
   ],
   "note": ""
  },
  {
   "property": "C24",
   "status": "proved",
   "theorems": [
    "mutation_keeps_validity"
   ],
   "note": ""
  },
  {
   "property": "C25",
   "status": "proved",
   "theorems": [
    "mutation_is_local"
   ],
   "note": ""
  },
  {
   "property": "C26",
   "status": "proved",
   "theorems": [
    "mutation_reaches_all"
   ],
   "note": ""
  },
  {
   "property": "C27",
   "status": "proved",
   "theorems": [
    "makespan_history_independent",
    "makespan_history_total"
   ],
   "note": ""
  },
  {
   "property": "C28",
   "status": "proved",
   "theorems": [
    "makespan_is_timeline_length",
    "timeline_is_feasible"
   ],
   "note": ""
  },
  {
   "property": "C29",
   "status": "proved",
   "theorems": [
    "makespan_bounded"
   ],
   "note": ""
  },
  {
   "property": "C30",
   "status": "proved",
   "theorems": [
    "best_makespan_belongs",
    "optimizer_makespan_belongs"
   ],
   "note": ""
  },
  {
   "property": "C31",
   "status": "proved",
   "theorems": [
    "best_is_minimum_seen",
    "optimizer_best_is_minimum_seen"
   ],
   "note": ""
  },
  {
   "property": "C32",
   "status": "proved",
   "theorems": [
    "reported_schedule_valid",
    "optimizer_schedule_valid",
    "job_never_fails"
   ],
   "note": ""
  },
  {
   "property": "C33",
   "status": "proved",
   "theorems": [
    "update_reports_minimum",
    "interleaving_irrelevant"
   ],
   "note": "Iterations of different jobs are atomic here; C70 shows that they share no memory that is written."
  },
  {
   "property": "C34",
   "status": "partial",
   "theorems": [
    "copy_reports_the_same",
    "copy_continues_partial",
    "copy_continues_refuted",
    "optimizer_copy_reports_the_same",
    "optimizers_independent_partial",
    "copy_independent_refuted",
    "copy_outlives_refuted"
   ],
   "note": "False: after an odd number of accepted candidates a copy continues from another schedule; the jobs of a copied optimizer draw from the random number sources of the original, so that updates of the copy change later results of the original, and a copy that outlives the original uses released memory. Values of different optimizers never affect each other (C70), and optimizers whose jobs draw from their own sources are fully independent."
  },
  {
   "property": "C35",
   "status": "partial",
   "theorems": [
    "update_loop_ends_or_fails",
    "update_loop_ends_partial",
    "update_loop_refuted"
   ],
   "note": "False as stated: a beta scale of 40 makes an update violate a contract. Ends for every stream unless an update violates a contract. For batch <= 7 max_idle and batch + max_idle <= 2^31, and finite positive durations, no update of a search violates one. Missing: other batch sizes, and scales that violate C41."
  },
  {
   "property": "C36",
   "status": "partial",
   "theorems": [
    "convergence_partial",
    "convergence_refuted"
   ],
   "note": "False: the first update always counts as an improvement. Exact counts proved from the first update on."
  },
  {
   "property": "C37",
   "status": "partial",
   "theorems": [
    "progress_ends",
    "progress_partial",
    "progress_refuted",
    "bad_progress_aborts"
   ],
   "note": "The exact values 0 and 1 and the upper bound are unconditional. In [0,1] proved except for the exact case where the fitted curve is flat and underflows; there it is NaN for some history, so the full claim is false."
  },
  {
   "property": "C38",
   "status": "proved",
   "theorems": [
    "reset_job_is_new",
    "reset_optimizer_is_new"
   ],
   "note": ""
  },
  {
   "property": "C39",
   "status": "partial",
   "theorems": [
    "rebind_partial",
    "rebind_refuted"
   ],
   "note": "False: makespans are still computed from the old parameters."
  },
  {
   "property": "C40",
   "status": "partial",
   "theorems": [
    "metropolis_partial",
    "in_step_at_start",
    "metropolis_refuted"
   ],
   "note": "False right after an improvement; proved while the remembered transformed energy is up to date."
  },
  {
   "property": "C41",
   "status": "partial",
   "theorems": [
    "temperature_nonnegative_partial",
    "temperature_boundary",
    "temperature_refuted"
   ],
   "note": "False as stated, for scale 40. temperature_boundary gives the exact limit: with a mean that is at most e too small, scale * (0.03 + e) < 1 in single precision (scale 33.33 for an exact mean)."
  },
  {
   "property": "C42",
   "status": "partial",
   "theorems": [
    "volatility_follows_period_partial",
    "temperature_update_rule",
    "volatility_refuted"
   ],
   "note": "Proved for periods up to 2^24; false for 2^25."
  },
  {
   "property": "C43",
   "status": "proved",
   "theorems": [
    "fitter_recovers",
    "fitter_reports_zero",
    "fitter_same_scheme"
   ],
   "note": "Exact real arithmetic; rounding of the single precision code is not covered. fitter_same_scheme: the single precision code is the same computation with rounded operations."
  },
  {
   "property": "C44",
   "status": "partial",
   "theorems": [
    "least_squares_partial",
    "least_squares_refuted",
    "fitter_same_scheme"
   ],
   "note": "Exact real arithmetic. Proved, with uniqueness, if two different x have been seen; false for a single x, where the coefficients stay zero and the fitter reports 0."
  },
  {
   "property": "C45",
   "status": "proved",
   "theorems": [
    "histogram_counts",
    "histogram_total"
   ],
   "note": ""
  },
  {
   "property": "C46",
   "status": "proved",
   "theorems": [
    "histogram_order_irrelevant"
   ],
   "note": ""
  },
  {
   "property": "C47",
   "status": "proved",
   "theorems": [
    "histogram_iteration"
   ],
   "note": ""
  },
  {
   "property": "C48",
   "status": "partial",
   "theorems": [
    "percentiles_ordered",
    "percentiles_cover_partial",
    "percentiles_cover_refuted",
    "stats_total"
   ],
   "note": "Order proved for all. The exact fraction holds up to 2^18 samples, within one sample up to 2^24; false at 300099 samples."
  },
  {
   "property": "C49",
   "status": "partial",
   "theorems": [
    "percentiles_partial",
    "percentiles_when_distinct_partial",
    "percentiles_refuted"
   ],
   "note": "False: the percentiles share one cursor, so a bin serves only one of them."
  },
  {
   "property": "C50",
   "status": "proved",
   "theorems": [
    "bin_width",
    "bin_width_monotone"
   ],
   "note": ""
  },
  {
   "property": "C51",
   "status": "proved",
   "theorems": [
    "samples_positive",
    "run_total"
   ],
   "note": "Random numbers are any finite numbers."
  },
  {
   "property": "C52",
   "status": "proved",
   "theorems": [
    "run_is_timeline",
    "run_history_independent",
    "run_total",
    "histogram_of_runs"
   ],
   "note": ""
  },
  {
   "property": "C53",
   "status": "proved",
   "theorems": [
    "certain_run",
    "certain_histogram"
   ],
   "note": ""
  },
  {
   "property": "C54",
   "status": "proved",
   "theorems": [
    "prediction_events_in_order",
    "schedule_events_in_order",
    "stops_iff_finished"
   ],
   "note": "Queue modelled as an atomic FIFO list; liveness under fair schedulers."
  },
  {
   "property": "C55",
   "status": "partial",
   "theorems": [
    "stops_iff_finished",
    "failed_worker_never_stops",
    "worker_failure_refuted",
    "quiet_worker_failure_partial",
    "shown_worker_failure_refuted"
   ],
   "note": "False: when progress is shown and the worker throws, the consumer never stops, under any scheduler; worker_failure_refuted gives a project. With --quiet the exception ends the program. The consumer stops exactly when Finished is enqueued."
  },
  {
   "property": "C56",
   "status": "proved",
   "theorems": [
    "verbose_exact"
   ],
   "note": ""
  },
  {
   "property": "C57",
   "status": "proved",
   "theorems": [
    "verbose_round_trip"
   ],
   "note": ""
  },
  {
   "property": "C58",
   "status": "proved",
   "theorems": [
    "humanize_half_unit"
   ],
   "note": ""
  },
  {
   "property": "C59",
   "status": "proved",
   "theorems": [
    "json_in_order",
    "json_complete"
   ],
   "note": ""
  },
  {
   "property": "C60",
   "status": "proved",
   "theorems": [
    "json_times",
    "json_total",
    "json_total_refuted"
   ],
   "note": "Holds whenever the call succeeds; it succeeds if all tasks finish before 2^31 s and the reported makespan is at least one second. json_total_refuted: a valid project whose truncated makespan is 0 violates the postcondition of to_json (finding)."
  },
  {
   "property": "C61",
   "status": "proved",
   "theorems": [
    "histogram_json_exact",
    "histogram_json_total"
   ],
   "note": ""
  },
  {
   "property": "C62",
   "status": "proved",
   "theorems": [
    "quiet_silent",
    "errors_reported"
   ],
   "note": "--help and --version are handled by CLI11 before the quiet option is read and print to standard output."
  },
  {
   "property": "C63",
   "status": "partial",
   "theorems": [
    "exit_zero_partial",
    "rejected_arguments",
    "exit_failure_iff",
    "exit_status_refuted"
   ],
   "note": "False: a write that fails on an opened output file (a full disk) exits with 0 and saves nothing; proved for disks without such failures."
  },
  {
   "property": "C64",
   "status": "partial",
   "theorems": [
    "restart_period_partial",
    "restart_period_accepts",
    "restart_period_refuted",
    "options_unchanged",
    "positive_number_checks_sign"
   ],
   "note": "False for texts with a leading zero: 0256 is checked as 256 and stored as octal 174. Proved for all other texts; the option values reach the worker unchanged."
  },
  {
   "property": "C65",
   "status": "partial",
   "theorems": [
    "cursor_restored_partial",
    "cursor_restored_refuted"
   ],
   "note": "False: a signal between the clearing of the flag and the flushing of the cursor sequence, or one handled by another thread, leaves the cursor hidden. Proved outside that window."
  },
  {
   "property": "C66",
   "status": "proved",
   "theorems": [
    "printed_when_due",
    "lines_apart"
   ],
   "note": ""
  },
  {
   "property": "C67",
   "status": "proved",
   "theorems": [
    "predicted_makespan",
    "schedule_makespan"
   ],
   "note": "For projects with positive, moderate (C68) numbers, up to 2^20 tasks."
  },
  {
   "property": "C68",
   "status": "proved",
   "theorems": [
    "average_performance_between",
    "average_performance_refuted"
   ],
   "note": "Proved for every maximum below 2^127, half of the float range; at 2^127 the sum overflows (average_performance_refuted)."
  },
  {
   "property": "C69",
   "status": "partial",
   "theorems": [
    "error_estimate_partial",
    "error_estimate_of_runs",
    "error_estimate_refuted",
    "error_estimate_of_runs_refuted"
   ],
   "note": "False: runs of zero whole seconds make the quantiles zero and the estimate 0/0, with exact quantiles and with Boost's estimator. Proved if the earlier quantile estimates are not zero, and, for the quantile estimator of Boost that the program uses, if every run takes at least one second."
  },
  {
   "property": "C70",
   "status": "proved",
   "theorems": [
    "jobs_use_own_parts",
    "sources_stay_own",
    "iterations_are_local",
    "commands_act_on_values",
    "optimizers_in_memory"
   ],
   "note": ""
  },
  {
   "property": "C71",
   "status": "proved",
   "theorems": [
    "file_holds_result",
    "estimates_shown"
   ],
   "note": "The text of the JSON tree (boost::json serialisation) is an argument of the model."
  },
  {
   "property": "C72",
   "status": "partial",
   "theorems": [
    "counter_bounds",
    "counters_fit_partial",
    "counters_refuted"
   ],
   "note": "Exact bounds for all options; 32 bits are enough if batch + max_idle <= 2^31, and not enough for a batch size of 2^30 with max_idle 2^31 - 1. The counters have 64 bits with glibc on x86-64, see C79."
  },
  {
   "property": "C73",
   "status": "proved",
   "theorems": [
    "stops_at_threshold"
   ],
   "note": "The quantile estimators and the rolling mean of Boost.Accumulators are arbitrary functions."
  },
  {
   "property": "C74",
   "status": "proved",
   "theorems": [
    "views_stay_safe",
    "buffers_are_values"
   ],
   "note": "Self move assignment of Simulation (defaulted) is unspecified and not modelled."
  },
  {
   "property": "C75",
   "status": "partial",
   "theorems": [
    "log_is_complete_partial",
    "log_only_on_demand",
    "log_refuted"
   ],
   "note": "Proved without --quiet for the name the program really uses, optimization_log.csv. The full claim is false: optimization.csv is never written, and with --quiet nothing is logged although the option was given."
  },
  {
   "property": "C76",
   "status": "proved",
   "theorems": [
    "iterators_are_positions",
    "loops_see_all_bins",
    "minus_left_is_minus"
   ],
   "note": "The odd operator i - it means it - i; it is not used."
  },
  {
   "property": "C77",
   "status": "proved",
   "theorems": [
    "histogram_fits",
    "histogram_operations_fit",
    "large_value_overflows"
   ],
   "note": "std::int_fast32_t has 64 bits (glibc on x86-64). large_value_overflows shows that the condition on the bins is needed for arbitrary values."
  },
  {
   "property": "C78",
   "status": "proved",
   "theorems": [
    "serial_update_is_parallel",
    "serial_build_agrees"
   ],
   "note": ""
  },
  {
   "property": "C79",
   "status": "proved",
   "theorems": [
    "counters_never_overflow",
    "checked_search_is_exact"
   ],
   "note": "std::int_fast32_t has 64 bits (glibc on x86-64)."
  },
  {
   "property": "C80",
   "status": "partial",
   "theorems": [
    "rolling_mean_partial",
    "rolling_mean_refuted",
    "temperature_drift_refuted",
    "rolling_temperature_partial",
    "rolling_search_partial"
   ],
   "note": "False as stated: rounding errors add up, 20480 energies make the mean of non-negative numbers less than -2^-12, and beta scale 33, safe for an exact mean, aborts the program. Proved: the distance is at most 2^-23 per energy for up to 2^21 energies; so for a scale that tolerates an error of 1/4 (the default does, up to about 3.5) no update of a search of up to 2^21 iterations per thread violates a contract. Missing: longer searches."
  },
  {
   "property": "C81",
   "status": "proved",
   "theorems": [
    "generator_full_period",
    "random_integer",
    "integers_equally_likely",
    "random_unit",
    "search_with_generator",
    "search_with_generator_succeeds"
   ],
   "note": "pcg32 and the distributions of Boost are modelled from these libraries, which are not in /repo; the first six numbers of the model are those the PCG library documents. Equally likely is about numbers that are not drawn again; the correlation of successive numbers is not covered. RandomUtils::normal is in C83."
  },
  {
   "property": "C82",
   "status": "proved",
   "theorems": [
    "iterations_apart",
    "order_irrelevant",
    "parallel_is_sequential",
    "histories_deterministic"
   ],
   "note": "One iteration of a job is one step; iterations_apart shows that the iterations of different jobs touch different memory, so a finer interleaving would not matter. An update of an optimizer and one of its copy at the same time, which share generators, is not covered; the program has one optimizer."
  },
  {
   "property": "C83",
   "status": "proved",
   "theorems": [
    "normal_draw_ends",
    "positive_draw_ends",
    "positive_draw_ends_refuted",
    "simulation_with_generator",
    "simulation_with_generator_succeeds",
    "runs_with_generator"
   ],
   "note": "Boost's normal distribution is transcribed from Boost, which is not in /repo; the model reproduces all numbers of test/simulation.cpp. Nothing is claimed about the shape of the distribution. positive_draw_ends_refuted: with the bounds 0 and 2^-149 the loop never ends, so the size of the bounds matters."
  },
  {
   "property": "C84",
   "status": "proved",
   "theorems": [
    "histogram_with_generator",
    "histogram_with_generator_runs"
   ],
   "note": "Boost's accumulators are arbitrary functions."
  },
  {
   "property": "C85",
   "status": "proved",
   "theorems": [
    "estimates_in_order"
   ],
   "note": "Boost's estimator is transcribed from Boost, which is not in /repo."
  },
  {
   "property": "C86",
   "status": "partial",
   "theorems": [
    "marker_ranks_partial",
    "marker_ranks_refuted"
   ],
   "note": "Proved up to 2^24 runs. False beyond: the positions are floats and stop growing, so with more runs the last marker's rank is below the number of runs."
  },
  {
   "property": "C87",
   "status": "partial",
   "theorems": [
    "simulation_ends_partial",
    "simulation_ends_refuted"
   ],
   "note": "Proved for runs of up to 2^17 seconds (36 hours). False in general: for a single task of exactly 30 days the rounding residue of Boost's rolling mean stays above the threshold of one percent and the loop never ends."
  },
  {
   "property": "C88",
   "status": "proved",
   "theorems": [
    "int_option_positive",
    "int_option_accepts"
   ],
   "note": "CLI11's check and conversion are transcribed from CLI11, which is not in /repo. As usual in C, 0144 means 100. positive_number_checks_sign shows that this check is one the theorems of C64 apply to."
  },
  {
   "property": "C89",
   "status": "partial",
   "theorems": [
    "float_option_partial",
    "float_option_only_positive",
    "float_option_refuted",
    "accepted_temperature_partial"
   ],
   "note": "False for extreme texts: 0x1p-200 passes the check as a double and becomes 0 as a float, nan passes it too, and with either as --beta-scale the construction of every optimizer job violates a contract; 0x1p200 becomes infinite. Proved for numbers from 2^-149 to 2^127, which arrive rounded once, and what is accepted is positive or NaN before it is stored as a float."
  },
  {
   "property": "C90",
   "status": "partial",
   "theorems": [
    "json_no_overlap_partial",
    "json_no_overlap_refuted"
   ],
   "note": "False: single precision holds whole seconds only up to 2^24, so after a task of 194 days a task of one second and the task that depends on it start at the same second. Proved for tasks that start within the first 2^24 seconds; later ones do not start before the others start."
  },
  {
   "property": "C91",
   "status": "proved",
   "theorems": [
    "file_is_plan"
   ],
   "note": "Overlaps are excluded within the first 2^24 seconds only, see C90; how the file's text is made from the JSON object is nlohmann's part and stays abstract."
  },
  {
   "property": "C92",
   "status": "proved",
   "theorems": [
    "ordinary_schedule_completes",
    "schedule_completes"
   ],
   "note": "schedule_completes is the more general form, for projects all of whose schedules fit the numbers of the program (schedules_fit). Options and library functions are restricted as in C35. Only with --quiet, since without it a progress that is not a number ends the program (C37). That the file can be written is assumed."
  },
  {
   "property": "C93",
   "status": "proved",
   "theorems": [
    "default_options_usable",
    "default_texts_accepted",
    "defaults_schedule_completes"
   ],
   "note": "That the mean of the program, Boost's rolling mean, has an error of at most 1/4 is shown for searches of at most 2^21 iterations per thread (rolling_search_partial, C80)."
  }
 ]
}