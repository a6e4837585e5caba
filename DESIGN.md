# Design: a formal model of angonoka in Rocq

The model is written in Gallina (Coq 8.16.1) under `rocq/theories`.
Source lines cited in comments refer to `/repo` at the pinned commit; paths without a directory are below `/repo/src`.

## 1. Shape of the development

For every area there are up to four kinds of files.

* `XModel.v`: definitions that transcribe the C++ functions. Each definition cites the file and lines it models and names every simplification. Definitions marked "no source counterpart" are plumbing (sequencing, lists of calls).
* `XSpec.v`: the small, independent vocabulary in which properties are stated (grammars, timelines, document shapes, orders, counts). Nothing in a spec file calls a model function.
* `XFacts.v`, `XProofs.v` and files with more specific names: lemmas and proofs.
* `XProps.v`: the property theorems. `Print Assumptions` stands below each theorem, and an `Example` (or a lemma named `ex_...`) next to it shows a concrete, non-trivial case that meets the hypotheses.

A theorem whose name ends in `_partial` proves a part of the property and says what is missing. A theorem whose name ends in `_refuted` gives a concrete input for which the property, as stated, is false of the model; these are the findings of section 6.

Results of C++ functions are values of `outcome` (`Base.v`): `Ok`, `Broken` (a violated `Expects`/`Ensures`, an access out of range, undefined behaviour or an exception nobody expects) and `NoFuel` (the recursion bound of the model is exhausted; theorems show that it suffices, or quantify over it). The loader has the finer type `loading` (`LoadModel.v`): a value, a validation error, another exception, a violated contract, unfinished. The command line program has `act` (`CliModel.v`): the sequence of effects and how the function ends.

## 2. What is modelled and how

| area | source | model | simplifications |
|------|--------|-------|-----------------|
| durations | `config/parse_duration.rl.cpp` | `DurationModel.v`: the Ragel grammar as an annotated expression, the determinised machine with its action lists, the driver function | the order of actions on a transition follows the Ragel 6.10 guide (embedding order, duplicates dropped); `atoi` beyond `INT_MAX` is undefined |
| schema check | `config/validation.h`, `config/load.cpp` | `ValidationModel.v` on the trees of `YamlModel.v` | YAML text parsing is yaml-cpp's; documents are finite trees (no self-containing anchors); `node[key]` finds the first scalar key with that text |
| loader | `config/load.cpp`, `agents.cpp`, `tasks.cpp` | `LoadModel.v` | `as<float>` is an arbitrary function of the text; a task is appended when complete except for its subtasks; optimisation parameters in the file do not exist |
| project | `project.h`, `project.cpp` | `ProjectModel.v` | indices are naturals (range checks of `int8` in the loader); durations are `Z` seconds |
| schedule parameters | `stun/schedule_params.cpp` | `ScheduleModel.v` | tables are lists of rows; `int16` indices are naturals |
| packed tables | `stun/schedule_params.{h,cpp}`, `Vector2D` | `Vector2DModel.v`: heap of blocks, spans as raw pointers, programs over objects | allocation never fails |
| mutation | `stun/utils.cpp`, `stun/random_utils.cpp` | `MutatorModel.v` | each draw is an arbitrary number reduced to the documented range; no probabilities (but see `RandomModel.v`) |
| makespan | `stun/utils.cpp` | `MakespanModel.v` with its buffers | the two spans of one buffer are two lists (justified by C74) |
| buffers with spans | `stun/utils.cpp`, `simulation.cpp`, `stun/stochastic_tunneling.cpp` (constructors, assignments, span swap) | `BufferModel.v`: store of blocks, views as block, offset and length, programs over objects | one model for the three classes; allocation never fails; whether a resize reallocates is an argument |
| temperature | `stun/temperature.cpp` | `TemperatureModel.v`, `RollingModel.v` | Boost's rolling mean is an arbitrary function in `TemperatureModel.v`; `RollingModel.v` models Boost's `immediate_rolling_mean` in single precision (from the Boost sources, which are not in /repo) and C80 uses it |
| tunneling and jobs | `stun/stochastic_tunneling.cpp`, `stun/optimizer_job.cpp` | `StunModel.v` with the three buffer segments and the span swap | `exp` and `log` are arbitrary functions; the members that the constructor leaves uninitialised start as 0 (they are written before they are read); moves keep values |
| random number sources | `stun/random_utils.h`, `stun/optimizer.{h,cpp}` | `BindingModel.v`: which generator each job reads, under construction, copy, move and update of optimizers | a generator is a stream with a position |
| random numbers | `stun/random_utils.{h,cpp}` | `RandomModel.v`: `pcg32`, `uniform_int`, `uniform_01`, and mutation and iteration with them | generator and distributions are transcribed from the PCG and Boost libraries, which are not in /repo; loops that draw again have fuel, and all fuel above 2^64 gives the same result |
| normal distribution | `stun/random_utils.cpp` (`normal`), `simulation.cpp` | `NormalModel.v`: Boost's ziggurat method with its tables, and the simulation with the generator; `NormalHistogramModel.v`: the histogram with the generator | transcribed from Boost, which is not in /repo; `exp` is an arbitrary function; fuel bounds every loop |
| optimizer | `stun/optimizer.cpp`, `stun/exp_curve_fitter.cpp` (single precision) | `OptimizerModel.v`, including an interleaving semantics of the parallel loop; `SerialModel.v` for builds without OpenMP; `CheckedModel.v` with checked 64 bit counters | one iteration of a job is atomic (the jobs of an optimizer share nothing that is written, see C82); counters are unbounded; C79 says that they are the checked ones, C72 when 32 bits suffice |
| curve fitter | `stun/exp_curve_fitter.cpp` | `FitterModel.v` | exact real arithmetic; `FitterScheme.v` proves that the single precision fitter of `OptimizerModel.v` is the same computation |
| histogram, percentiles, bin width | `histogram.{h,cpp}`, `simulation.cpp` | `HistogramModel.v`; iterators and the checked `int32` arithmetic in `IteratorModel.v` | numbers are exact integers in `HistogramModel.v`; C77 shows that checking makes no difference; `int_fast32_t` has 64 bits; `gsl::narrow` that throws is `Broken` |
| simulation | `simulation.cpp` | `SimulationModel.v` with its buffer | normal draws are arbitrary numbers (but see `NormalModel.v`); Boost's quantile and rolling mean accumulators are arbitrary functions (but see `PSquareModel.v`) |
| accumulators of the simulation | `simulation.cpp` (`PSquareAcc`, `RollingMeanAcc`) | `PSquareModel.v`: Boost's `extended_p_square` with the five probabilities of the program, and `boost_accumulators`, which joins it to the rolling mean of `RollingModel.v` | transcribed from Boost, which is not in /repo; samples are single precision, the desired positions double precision, as in Boost |
| worker and events | `predict.cpp`, `cli/events.h` | `PredictModel.v`: the worker as an event list with a result; worker and consumer as a transition system | the queue is an atomic unbounded FIFO |
| durations as text | `cli/verbose.h`, `cli/humanize.h` | `FormatModel.v` | whole seconds; no 64 bit overflow |
| JSON | `cli/schedule.cpp`, `cli/cli.cpp` | `JsonModel.v` | JSON values are records; the text written by nlohmann::json is not modelled; a priority does not overflow `int` |
| command line program | `main.cpp`, `cli/cli.cpp`, `cli/schedule.cpp`, `cli/events.cpp`, `cli/utils.h` | `CliModel.v` as effect traces | CLI11 parsing is an argument; texts of floats are arbitrary; a log is complete only when the program ends normally (fmt buffers it); a stream write error sets `badbit` silently; an uncaught exception ends in `std::terminate` |
| option check | `main.cpp` (the numeric options) | `OptionsModel.v` with `stoi`, `strtoll` and CLI11's conversion on character lists, `OptionValuesModel.v` with `CLI::PositiveNumber` as a range of doubles and the conversion to `float` | `strtold` is an argument, assumed to read integers correctly where needed (`reads_integers`); `long double` has 64 bits of precision |
| terminal | `cli/terminal.cpp`, `cli/progress.cpp` | `TerminalModel.v`: cursor flag, stdio buffer, signals between any two steps, throttling | async-signal-safety of stdio is not modelled; a bar is a text that ends a line or not |

Common decisions:

* **Floats** are IEEE binary32 values from Flocq (`binary_float 24 128`) with round to nearest even, including infinities and NaN. Release builds use `-ffast-math` (`meson.build`), which gives the compiler licence to change results; that is outside the model.
* **Integers** are `Z` or `nat`. Overflow is modelled where the code checks it or a property is about it: `int8` indices in the loader, `atoi`, casts to `int` and to 64 bit seconds, the mask of the restart period.
* **Loops** are structural recursion or recursion on explicit fuel with a distinct out-of-fuel result.
* **Randomness** is an arbitrary stream; theorems quantify over all streams. `RandomModel.v` is the exception: `search_with_generator` shows that what the program's own generator does is covered by the theorems about all streams.

Not modelled: YAML text syntax, CLI11 parsing beyond the validators, fmt's formatting of floats, nlohmann's text output, indicators' drawing, memory exhaustion, thread scheduling below the level of the steps named above, compiler optimisations, coverage builds.

How faithful the models are is tested, not proved, by replaying the repository's own unit tests in them: `RepoTestsLoad.v` (all texts of `test/load_agents.cpp` and `test/load_tasks.cpp`), `RepoTests.v` (durations, histogram, project, makespan, mutation, schedule parameters, curve fitter, temperature, JSON, validation and parts of the functional suite) and `RepoTestsSimulation.v` (the numbers of seconds in `test/simulation.cpp`, which depend on the generator and the distributions bit by bit). All expected values come out. Tests of type traits and of the mere existence of special members have no counterpart.

## 3. Trusted base

* Coq's kernel (also checked once with `coqchk`).
* Axioms. Every theorem is either closed under the global context or uses exactly the four axioms that Coq's standard library needs for the real numbers, which enter through Flocq and `Reals`: `ClassicalDedekindReals.sig_forall_dec`, `ClassicalDedekindReals.sig_not_dec`, `FunctionalExtensionality.functional_extensionality_dep`, `Classical_Prop.classic`. The table of section 5 says which. (A listing of all axioms of all loaded library files also shows `Coq.Reals.Rdefinitions` and `Coq.ssr.ssrunder`: opaque module interfaces of the standard library that no theorem depends on.)
* The hand transcription from C++ to Gallina, and the behaviour of libraries as stated in section 2: Ragel's action order, yaml-cpp's node interface, Boost.Container flat sets, range-v3 algorithms, gsl-lite contracts, CLI11's number check and conversions, stdio's buffering, the atomicity of the queue.
* No axioms of our own, no plugins, no functors or module types.

## 4. How the properties are proved

* Durations (C01-C03): an inductive grammar; the machine is characterised by an invariant that relates live states to grammar positions, then soundness and completeness by induction on the text. The "charged" value describes exactly what the actions add up.
* Schema and loader (C04-C18): a declarative document shape and a pre-order flattening with paths; each loader function is related to it by induction on the fuel and the entry lists; the depth first search is proved sound and complete against the existence of a cycle.
* Parameters, schedules, mutation, makespan (C19-C29): refinement to a timeline over binary32; validity is an invariant of mutation; reachability constructs the draws explicitly (bubble sort on linear extensions).
* Jobs and optimizer (C30-C42): invariants over all operation sequences; termination by well-foundedness of the finite set of makespans of valid schedules; commutation of steps of different jobs for the interleavings. Without OpenMP (C78): replication of a single job is the identity, as its makespan is not NaN. Progress and counters (C35, C37, C72, `CurveProofs.v`, `SearchedProofs.v`): the makespans of improvements are bounded by the number of binary32 values, and the five float sums of the fitter stay in ranges where rounding cannot produce NaN or overflow.
* Fitter (C43, C44): algebra of the normal equations, completion of the square.
* Histogram and simulation (C45-C53, C69, C76, C77): counting invariants; floats below 2^63 are at most 2^63 - 2^39; refinement to the same timeline.
* Stopping rule (C73): induction on the batches. Buffers (C74): an invariant that ties each object to a list of parts and an order of views; both directions of the refinement step by step.
* Normal distribution (C83, C84): a counting argument gives, for every increment, a state from which six numbers in a row lie in intervals that make every nested loop end; the generator's full period leads there from every state. The bounds of the intervals are checked for all 256 layers by computation and extended to all numbers by monotonicity of rounding. The runs are linked call by call to runs with a list of numbers.
* Worker, command line, terminal (C54-C67, C71, C75): trace invariants over all interleavings and all signal positions.

## 5. Properties, theorems and their assumptions

`closed`: closed under the global context. `reals`: exactly the four axioms of section 3.

| id | property | status | theorems | file | note |
|----|----------|--------|----------|------|------|
| C01 | Duration text is accepted exactly when it follows the documented grammar | proved | `duration_accepted_iff` (closed), `duration_accepted_only_phrases` (closed) | DurationProps | Counts above INT_MAX are undefined behaviour in atoi and excluded by numbers_fit. |
| C02 | Duration value is the sum of its items | partial | `duration_value_partial` (closed), `duration_value_charged` (closed), `duration_value_refuted` (closed) | DurationProps | False in general: "1h2m3s" is read as 1h+3m+3s. Proved for separated items; exact value proved for all phrases. |
| C03 | Durations compose by concatenation | partial | `duration_compose_partial` (closed), `duration_compose_accepted` (closed), `duration_compose_refuted` (closed) | DurationProps | False when the second text has glued items; proved otherwise. |
| C04 | Documents are accepted by the schema check exactly when they have the documented shape | proved | `schema_exact` (closed) | ValidationProps |  |
| C05 | A schema error always names a real location | partial | `schema_error_located_partial` (closed), `schema_error_refuted` (closed) | ValidationProps | False for a performance or duration map with wrong attributes: it is reported as 'has invalid type' at the map instead of naming the missing or unexpected attribute inside. Proved for all other errors. |
| C06 | Loaded agents mirror the document | proved | `loaded_agents` (reals), `duplicate_agent` (reals) | LoadProps |  |
| C07 | Loaded agent performance is positive and ordered | partial | `loaded_performance_partial` (reals), `loaded_performance_refuted` (reals) | LoadProps | False: a performance of .nan passes the check and later violates a contract. Proved for all numbers. |
| C08 | Group table is duplicate free and group references are faithful | proved | `loaded_groups` (reals) | LoadProps |  |
| C09 | Nested tasks are flattened in document order | proved | `loaded_tasks` (reals), `flattening_unique` (closed) | LoadProps |  |
| C10 | Loaded dependencies are exactly the declared ones | proved | `loaded_dependencies` (reals), `unknown_dependency` (reals) | LoadProps |  |
| C11 | Task ids are unique | proved | `loaded_ids_unique` (reals), `duplicate_id` (reals) | LoadProps |  |
| C12 | Dependency cycles are rejected, and only cycles are | proved | `cycle_check` (closed), `cycle_reported` (reals), `cycle_reported_iff` (reals) | LoadProps | Documents with another error report that error instead; more than 127 tasks throw. |
| C13 | Loaded task duration bounds are ordered and come from the text | proved | `loaded_durations` (reals) | LoadProps | The value denoted by a text is that of C02. |
| C14 | A task is assigned by at most one of group, groups, agent, and an assigned agent is the named one | proved | `loaded_assignment` (reals) | LoadProps |  |
| C15 | Every task of a loaded project has an agent able to do it | partial | `able_agent_partial` (reals), `able_agent_refuted` (reals) | LoadProps | False for tasks without groups and for tasks with several groups when no agent is without groups. Proved for tasks that name an agent or one group and for projects with an agent without groups. |
| C16 | Agents restricted to groups may still do tasks without groups | partial | `can_work_partial` (closed), `can_work_refuted` (reals) | LoadProps | False: can_work_on refuses a task without groups to an agent with groups, against the README. Proved for all other tasks. |
| C17 | Loading any document ends in a project or a validation error | partial | `load_terminates` (reals), `load_total_partial` (reals), `load_total_refuted` (reals) | LoadTotalProps | Termination holds for every tree. Documents that are 'ordinary' (LoadSpec.v: non-empty agent and group names, at most 128 agents, 127 tasks and 128 groups, no empty depends_on list, duration numbers that fit an int) load or are rejected with a validation error. The full statement is false: load_total_refuted gives nine documents that violate a contract or overflow an index. |
| C18 | A loaded project can always be handed to the predictor | partial | `loaded_sizes` (reals), `loaded_predictable_partial` (reals), `loaded_predictable_refuted` (reals) | LoadTotalProps | Proved when no performance is NaN, no duration is zero and durations fit 64 bits; then the scheduling parameters are computed and, if every task has an able agent, form a scheduling problem. The full statement is false: a duration of '0s' loads and violates the contract of the average. |
| C19 | The optimizer's list of available agents is exact | proved | `available_agents_exact` (reals) | ScheduleProps |  |
| C20 | The optimizer's dependency table is exact and sorted | proved | `dependencies_exact` (reals) | ScheduleProps |  |
| C21 | Normalised durations are proportional to average durations | proved | `normalised_durations` (reals) | ScheduleProps | Rounding made explicit: at most two roundings per task and one per task plus three for the sum. |
| C22 | Copies of packed tables are deep and faithful | proved | `tables_are_values` (closed), `copy_faithful` (closed), `table_independent` (closed), `assign_faithful` (closed), `move_self` (closed), `packing` (closed) | Vector2DProps |  |
| C23 | The initial schedule is complete, ordered and feasible | proved | `initial_schedule_valid` (closed) | ScheduleProps |  |
| C24 | Mutation preserves schedule validity for all random choices | proved | `mutation_keeps_validity` (closed) | MutatorProps |  |
| C25 | A mutation changes at most two neighbours and one assignment | proved | `mutation_is_local` (closed) | MutatorProps |  |
| C26 | Every valid schedule is reachable by mutation | proved | `mutation_reaches_all` (closed) | MutatorProps |  |
| C27 | Makespan evaluation does not depend on history | proved | `makespan_history_independent` (reals), `makespan_history_total` (reals) | MakespanProps |  |
| C28 | Makespan is the length of the greedy timeline | proved | `makespan_is_timeline_length` (reals), `timeline_is_feasible` (reals) | MakespanProps |  |
| C29 | Makespan bounds | proved | `makespan_bounded` (reals) | MakespanProps |  |
| C30 | Reported best makespan belongs to the reported best schedule | proved | `best_makespan_belongs` (reals), `optimizer_makespan_belongs` (reals) | StunProps, OptimizerProps |  |
| C31 | Reported best makespan never gets worse and is the best one seen | proved | `best_is_minimum_seen` (reals), `optimizer_best_is_minimum_seen` (reals) | StunProps, OptimizerProps |  |
| C32 | The reported schedule is always valid | proved | `reported_schedule_valid` (reals), `optimizer_schedule_valid` (reals), `job_never_fails` (reals) | StunProps, OptimizerProps |  |
| C33 | After every update the optimizer reports the best of all parallel jobs | proved | `update_reports_minimum` (reals), `interleaving_irrelevant` (reals) | OptimizerProps | Iterations of different jobs are atomic here; C70 shows that they share no memory that is written. |
| C34 | Copies of optimization jobs are faithful and independent | partial | `copy_reports_the_same` (reals), `copy_continues_partial` (reals), `copy_continues_refuted` (reals), `optimizer_copy_reports_the_same` (reals), `optimizers_independent_partial` (reals), `copy_independent_refuted` (reals), `copy_outlives_refuted` (reals) | StunProps, OptimizerProps, BindingProps | False: after an odd number of accepted candidates a copy continues from another schedule; the jobs of a copied optimizer draw from the random number sources of the original, so that updates of the copy change later results of the original, and a copy that outlives the original uses released memory. Values of different optimizers never affect each other (C70), and optimizers whose jobs draw from their own sources are fully independent. |
| C35 | The optimization loop terminates | partial | `update_loop_ends_or_fails` (reals), `update_loop_ends_partial` (reals), `update_loop_refuted` (reals) | OptimizerProps | False as stated: a beta scale of 40 makes an update violate a contract. Ends for every stream unless an update violates a contract. For batch <= 7 max_idle and batch + max_idle <= 2^31, and finite positive durations, no update of a search violates one. Missing: other batch sizes, and scales that violate C41. |
| C36 | Convergence means max_idle_iters iterations without improvement | partial | `convergence_partial` (reals), `convergence_refuted` (reals) | OptimizerProps | False: the first update always counts as an improvement. Exact counts proved from the first update on. |
| C37 | Reported progress is always between 0 and 1, and is 1 when converged | partial | `progress_ends` (reals), `progress_partial` (reals), `progress_refuted` (reals), `bad_progress_aborts` (reals) | OptimizerProps, CurveProps, CliProps | The exact values 0 and 1 and the upper bound are unconditional. In [0,1] proved except for the exact case where the fitted curve is flat and underflows; there it is NaN for some history, so the full claim is false. |
| C38 | Reset returns to the initial state | proved | `reset_job_is_new` (reals), `reset_optimizer_is_new` (reals) | OptimizerProps |  |
| C39 | Rebinding parameters affects all later results | partial | `rebind_partial` (reals), `rebind_refuted` (reals) | StunProps | False: makespans are still computed from the old parameters. |
| C40 | The Metropolis step compares against the current schedule | partial | `metropolis_partial` (reals), `in_step_at_start` (reals), `metropolis_refuted` (reals) | StunProps | False right after an improvement; proved while the remembered transformed energy is up to date. |
| C41 | The temperature stays non-negative | partial | `temperature_nonnegative_partial` (reals), `temperature_boundary` (reals), `temperature_refuted` (reals) | TemperatureProps | False as stated, for scale 40. temperature_boundary gives the exact limit: with a mean that is at most e too small, scale * (0.03 + e) < 1 in single precision (scale 33.33 for an exact mean). |
| C42 | Temperature volatility follows the restart period | partial | `volatility_follows_period_partial` (reals), `temperature_update_rule` (reals), `volatility_refuted` (reals) | TemperatureProps | Proved for periods up to 2^24; false for 2^25. |
| C43 | The curve fitter recovers exponential data | proved | `fitter_recovers` (reals), `fitter_reports_zero` (reals), `fitter_same_scheme` (reals) | FitterProps, FitterSchemeProps | Exact real arithmetic; rounding of the single precision code is not covered. fitter_same_scheme: the single precision code is the same computation with rounded operations. |
| C44 | The curve fitter computes the weighted least squares fit | partial | `least_squares_partial` (reals), `least_squares_refuted` (reals), `fitter_same_scheme` (reals) | FitterProps, FitterSchemeProps | Exact real arithmetic. Proved, with uniqueness, if two different x have been seen; false for a single x, where the coefficients stay zero and the fitter reports 0. |
| C45 | Histogram bins contain the values added to them | proved | `histogram_counts` (closed), `histogram_total` (closed) | HistogramProps |  |
| C46 | Histogram does not depend on insertion order | proved | `histogram_order_irrelevant` (closed) | HistogramProps |  |
| C47 | Histogram iteration is sorted, gap free of empty bins and agrees with indexing | proved | `histogram_iteration` (closed) | HistogramProps |  |
| C48 | Percentiles are ordered and never under-estimate | partial | `percentiles_ordered` (reals), `percentiles_cover_partial` (reals), `percentiles_cover_refuted` (reals), `stats_total` (reals) | HistogramProps | Order proved for all. The exact fraction holds up to 2^18 samples, within one sample up to 2^24; false at 300099 samples. |
| C49 | Percentiles are the histogram quantiles | partial | `percentiles_partial` (reals), `percentiles_when_distinct_partial` (reals), `percentiles_refuted` (reals) | HistogramProps | False: the percentiles share one cursor, so a bin serves only one of them. |
| C50 | Histogram bin width follows the makespan | proved | `bin_width` (closed), `bin_width_monotone` (closed) | HistogramProps |  |
| C51 | Simulated durations and performances are positive | proved | `samples_positive` (reals), `run_total` (reals) | SimulationProps | Random numbers are any finite numbers. |
| C52 | A simulation run is the timeline of its samples, independent of earlier runs | proved | `run_is_timeline` (reals), `run_history_independent` (reals), `run_total` (reals), `histogram_of_runs` (reals) | SimulationProps |  |
| C53 | Without uncertainty the simulation is deterministic | proved | `certain_run` (reals), `certain_histogram` (reals) | SimulationProps |  |
| C54 | Progress events arrive in order with a single final event | proved | `prediction_events_in_order` (reals), `schedule_events_in_order` (reals), `stops_iff_finished` (closed) | PredictProps | Queue modelled as an atomic FIFO list; liveness under fair schedulers. |
| C55 | The consumer stops even if the worker fails | partial | `stops_iff_finished` (closed), `failed_worker_never_stops` (reals), `worker_failure_refuted` (reals), `quiet_worker_failure_partial` (reals), `shown_worker_failure_refuted` (reals) | PredictProps, CliProps | False: when progress is shown and the worker throws, the consumer never stops, under any scheduler; worker_failure_refuted gives a project. With --quiet the exception ends the program. The consumer stops exactly when Finished is enqueued. |
| C56 | Verbose durations are exact | proved | `verbose_exact` (closed) | FormatProps |  |
| C57 | Verbose durations can be read back | proved | `verbose_round_trip` (closed) | FormatProps |  |
| C58 | Humanized durations are right to half a unit | proved | `humanize_half_unit` (closed) | FormatProps |  |
| C59 | The schedule JSON lists each task once with consistent priorities | proved | `json_in_order` (reals), `json_complete` (reals) | JsonProps |  |
| C60 | The schedule JSON start times respect dependencies and agents | proved | `json_times` (reals), `json_total` (reals), `json_total_refuted` (reals) | JsonProps | Holds whenever the call succeeds; it succeeds if all tasks finish before 2^31 s and the reported makespan is at least one second. json_total_refuted: a valid project whose truncated makespan is 0 violates the postcondition of to_json (finding). |
| C61 | The histogram JSON accounts for every simulation | proved | `histogram_json_exact` (closed), `histogram_json_total` (closed) | JsonProps |  |
| C62 | Quiet mode prints nothing on standard output | proved | `quiet_silent` (reals), `errors_reported` (reals) | CliProps | --help and --version are handled by CLI11 before the quiet option is read and print to standard output. |
| C63 | Exit status tells success from user error | partial | `exit_zero_partial` (reals), `rejected_arguments` (reals), `exit_failure_iff` (reals), `exit_status_refuted` (reals) | CliProps | False: a write that fails on an opened output file (a full disk) exits with 0 and saves nothing; proved for disks without such failures. |
| C64 | Accepted command line parameters satisfy the optimizer's preconditions | partial | `restart_period_partial` (closed), `restart_period_accepts` (closed), `restart_period_refuted` (closed), `options_unchanged` (reals), `positive_number_checks_sign` (reals) | OptionsProps, OptionValuesProps | False for texts with a leading zero: 0256 is checked as 256 and stored as octal 174. Proved for all other texts; the option values reach the worker unchanged. |
| C65 | The terminal cursor is restored on every exit path | partial | `cursor_restored_partial` (closed), `cursor_restored_refuted` (closed) | TerminalProps | False: a signal between the clearing of the flag and the flushing of the cursor sequence, or one handled by another thread, leaves the cursor hidden. Proved outside that window. |
| C66 | Textual progress is printed at most once per second | proved | `printed_when_due` (closed), `lines_apart` (closed) | TerminalProps |  |
| C67 | The reported project makespan is the optimizer's makespan in seconds | proved | `predicted_makespan` (reals), `schedule_makespan` (reals) | PredictProps | For projects with positive, moderate (C68) numbers, up to 2^20 tasks. |
| C68 | An agent's expected performance lies between its minimum and maximum | proved | `average_performance_between` (reals), `average_performance_refuted` (reals) | ScheduleProps | Proved for every maximum below 2^127, half of the float range; at 2^127 the sum overflows (average_performance_refuted). |
| C69 | The simulation's accuracy estimate is a number | partial | `error_estimate_partial` (reals), `error_estimate_of_runs` (reals), `error_estimate_refuted` (reals), `error_estimate_of_runs_refuted` (reals) | SimulationProps, PSquareProps, ZeroRunsProps | False: runs of zero whole seconds make the quantiles zero and the estimate 0/0, with exact quantiles and with Boost's estimator. Proved if the earlier quantile estimates are not zero, and, for the quantile estimator of Boost that the program uses, if every run takes at least one second. |
| C70 | Parallel jobs of an optimizer share no memory | proved | `jobs_use_own_parts` (reals), `sources_stay_own` (reals), `iterations_are_local` (reals), `commands_act_on_values` (reals), `optimizers_in_memory` (reals) | BindingProps |  |
| C71 | The file written holds the worker's result | proved | `file_holds_result` (reals), `estimates_shown` (reals) | ResultProps | The text of the JSON tree (boost::json serialisation) is an argument of the model. |
| C72 | The 32-bit counters of the optimizer never overflow | partial | `counter_bounds` (reals), `counters_fit_partial` (reals), `counters_refuted` (reals) | OptimizerProps, CounterProps | Exact bounds for all options; 32 bits are enough if batch + max_idle <= 2^31, and not enough for a batch size of 2^30 with max_idle 2^31 - 1. The counters have 64 bits with glibc on x86-64, see C79. |
| C73 | The simulation stops with the first batch that meets the accuracy threshold | proved | `stops_at_threshold` (reals) | StoppingProps | The quantile estimators and the rolling mean of Boost.Accumulators are arbitrary functions. |
| C74 | Views into a buffer stay inside the object's own buffer and never overlap | proved | `views_stay_safe` (closed), `buffers_are_values` (closed) | BufferProps | Self move assignment of Simulation (defaulted) is unspecified and not modelled. |
| C75 | The optimization log lists every optimizer update | partial | `log_is_complete_partial` (reals), `log_only_on_demand` (reals), `log_refuted` (reals) | LogProps | Proved without --quiet for the name the program really uses, optimization_log.csv. The full claim is false: optimization.csv is never written, and with --quiet nothing is logged although the option was given. |
| C76 | Histogram iterators behave like positions | proved | `iterators_are_positions` (closed), `loops_see_all_bins` (closed), `minus_left_is_minus` (closed) | IteratorProps | The odd operator i - it means it - i; it is not used. |
| C77 | The histogram's checked arithmetic never overflows in the program | proved | `histogram_fits` (reals), `histogram_operations_fit` (closed), `large_value_overflows` (closed) | IteratorProps | std::int_fast32_t has 64 bits (glibc on x86-64). large_value_overflows shows that the condition on the bins is needed for arbitrary values. |
| C78 | A build without OpenMP agrees with a build that runs one thread | proved | `serial_update_is_parallel` (reals), `serial_build_agrees` (reals) | SerialProps |  |
| C79 | The optimizer's own counters never overflow | proved | `counters_never_overflow` (reals), `checked_search_is_exact` (reals) | CheckedProps | std::int_fast32_t has 64 bits (glibc on x86-64). |
| C80 | The rolling mean of the temperature follows the mean of its window | partial | `rolling_mean_partial` (reals), `rolling_mean_refuted` (reals), `temperature_drift_refuted` (reals), `rolling_temperature_partial` (reals), `rolling_search_partial` (reals) | RollingProps | False as stated: rounding errors add up, 20480 energies make the mean of non-negative numbers less than -2^-12, and beta scale 33, safe for an exact mean, aborts the program. Proved: the distance is at most 2^-23 per energy for up to 2^21 energies; so for a scale that tolerates an error of 1/4 (the default does, up to about 3.5) no update of a search of up to 2^21 iterations per thread violates a contract. Missing: longer searches. |
| C81 | Random integers are in range and equally likely, and every draw ends | proved | `generator_full_period` (closed), `random_integer` (closed), `integers_equally_likely` (closed), `random_unit` (reals), `search_with_generator` (reals), `search_with_generator_succeeds` (reals) | RandomProps | pcg32 and the distributions of Boost are modelled from these libraries, which are not in /repo; the first six numbers of the model are those the PCG library documents. Equally likely is about numbers that are not drawn again; the correlation of successive numbers is not covered. RandomUtils::normal is in C83. |
| C82 | The result of parallel jobs does not depend on how threads interleave | proved | `iterations_apart` (reals), `order_irrelevant` (reals), `parallel_is_sequential` (reals), `histories_deterministic` (reals) | OrderProps | One iteration of a job is one step; iterations_apart shows that the iterations of different jobs touch different memory, so a finer interleaving would not matter. An update of an optimizer and one of its copy at the same time, which share generators, is not covered; the program has one optimizer. |
| C83 | Normally distributed numbers are drawn in finite time, and a simulation uses exactly those | proved | `normal_draw_ends` (reals), `positive_draw_ends` (reals), `positive_draw_ends_refuted` (reals), `simulation_with_generator` (reals), `simulation_with_generator_succeeds` (reals), `runs_with_generator` (reals) | NormalProps | Boost's normal distribution is transcribed from Boost, which is not in /repo; the model reproduces all numbers of test/simulation.cpp. Nothing is claimed about the shape of the distribution. positive_draw_ends_refuted: with the bounds 0 and 2^-149 the loop never ends, so the size of the bounds matters. |
| C84 | The histogram made with the generator is the one for the numbers drawn | proved | `histogram_with_generator` (reals), `histogram_with_generator_runs` (reals) | NormalHistogramProps | Boost's accumulators are arbitrary functions. |
| C85 | Estimated quantiles are ordered and lie between the shortest and the longest run | proved | `estimates_in_order` (reals) | PSquareProps | Boost's estimator is transcribed from Boost, which is not in /repo. |
| C86 | The quantile estimator's markers have different ranks | partial | `marker_ranks_partial` (reals), `marker_ranks_refuted` (reals) | PSquareProps | Proved up to 2^24 runs. False beyond: the positions are floats and stop growing, so with more runs the last marker's rank is below the number of runs. |
| C87 | The simulation of a project without uncertainty ends | partial | `simulation_ends_partial` (reals), `simulation_ends_refuted` (reals) | EndingProps | Proved for runs of up to 2^17 seconds (36 hours). False in general: for a single task of exactly 30 days the rounding residue of Boost's rolling mean stays above the threshold of one percent and the loop never ends. |
| C88 | Accepted whole-number options are positive | proved | `int_option_positive` (reals), `int_option_accepts` (reals) | OptionValuesProps | CLI11's check and conversion are transcribed from CLI11, which is not in /repo. As usual in C, 0144 means 100. positive_number_checks_sign shows that this check is one the theorems of C64 apply to. |
| C89 | Accepted values of --beta-scale and --gamma are positive finite numbers | partial | `float_option_partial` (reals), `float_option_only_positive` (reals), `float_option_refuted` (reals), `accepted_temperature_partial` (reals) | OptionValuesProps | False for extreme texts: 0x1p-200 passes the check as a double and becomes 0 as a float, nan passes it too, and with either as --beta-scale the construction of every optimizer job violates a contract; 0x1p200 becomes infinite. Proved for numbers from 2^-149 to 2^127, which arrive rounded once, and what is accepted is positive or NaN before it is stored as a float. |
| C90 | Tasks in the schedule file do not overlap | partial | `json_no_overlap_partial` (reals), `json_no_overlap_refuted` (reals) | PlanProps | False: single precision holds whole seconds only up to 2^24, so after a task of 194 days a task of one second and the task that depends on it start at the same second. Proved for tasks that start within the first 2^24 seconds; later ones do not start before the others start. |
| C91 | The file written for a document is a plan of its tasks | proved | `file_is_plan` (reals) | PlanProps | Overlaps are excluded within the first 2^24 seconds only, see C90; how the file's text is made from the JSON object is nlohmann's part and stays abstract. |
| C92 | Scheduling a document ends with a plan in the file | proved | `ordinary_schedule_completes` (reals), `schedule_completes` (reals) | CompletionProps | schedule_completes is the more general form, for projects all of whose schedules fit the numbers of the program (schedules_fit). Options and library functions are restricted as in C35. Only with --quiet, since without it a progress that is not a number ends the program (C37). That the file can be written is assumed. |
| C93 | The program works with its default options | proved | `default_options_usable` (reals), `default_texts_accepted` (reals), `defaults_schedule_completes` (reals) | DefaultsProps | That the mean of the program, Boost's rolling mean, has an error of at most 1/4 is shown for searches of at most 2^21 iterations per thread (rolling_search_partial, C80). |

## 6. Findings

Inputs for which the program, as modelled, violates a property. Each is a theorem.

| property | theorem | what happens |
|----------|---------|--------------|
| C02, C03 | `duration_value_refuted`, `duration_compose_refuted` | an item that is not the first and is not separated from the next one is added with the count of the next one: `1h2m3s` is read as 1 h + 3 min + 3 s. `duration_value_charged` gives the exact value of every text |
| C05 | `schema_error_refuted` | a performance or duration map with a wrong attribute is reported as "has invalid type" |
| C07 | `loaded_performance_refuted` | `performance: .nan` passes the checks |
| C15 | `able_agent_refuted` | tasks without groups, and tasks with several groups, may be left without any able agent |
| C16 | `can_work_refuted` | an agent with groups is refused a task without groups, against the README |
| C17 | `load_total_refuted` | nine documents violate a contract or overflow an index: empty or non-text agent name, empty group name, `depends_on: []`, a number that does not fit `int`, 128 tasks, 129 agents, 129 groups |
| C18 | `loaded_predictable_refuted` | a duration of `0s` loads and then violates the contract of the average duration |
| C34 | `copy_continues_refuted` | after an odd number of accepted candidates a copied job continues from another schedule (the copy resets the span order but not the contents) |
| C34 | `copy_independent_refuted`, `copy_outlives_refuted` | the jobs of a copied `Optimizer` keep drawing from the generators inside the original: an update of the copy changes later results of the original, and after the destruction of the original it is a use after free |
| C36 | `convergence_refuted` | the first update always counts as an improvement |
| C37 | `progress_refuted` | after improvements 1, 3, 8388825, 1 and 2 updates apart (batch 1, max_idle 2^27) the fitted curve is flat and its exponential underflows to 0: the progress is 0 times infinity, NaN. The event then violates the contract of `EventHandler` (cli/events.cpp:34), and the command aborts unless it is quiet (`bad_progress_aborts`) |
| C39 | `rebind_refuted` | `params(p)` rebinds the mutator but the makespan evaluator keeps the old parameters |
| C40 | `metropolis_refuted` | right after a better candidate that is not the best one, the transformed energy of the current schedule is stale |
| C35 | `update_loop_refuted` | `--beta-scale` 40: an update of the loop violates the contract of the temperature |
| C41 | `temperature_refuted` | a large `--beta-scale` (40) makes the temperature negative, which violates the contract; `temperature_boundary`: the limit is 33.33 for an exact mean |
| C80 | `rolling_mean_refuted`, `temperature_drift_refuted` | Boost's rolling mean is updated incrementally in `float`: repeating four energies makes the mean drift by 2^-24 per repetition, so it becomes negative, and with `--beta-scale` 33 and a window of 1 the contract of the temperature is violated after about 20000 iterations |
| C86 | `marker_ranks_refuted` | the ranks of the quantile estimator's markers are single precision numbers: after 2^24 runs the last rank no longer grows |
| C87 | `simulation_ends_refuted` | a document with one task of `duration: 30 days` and one agent with `performance: 1` makes `histogram` loop for ever: the first accuracy estimate is 2591999, all later ones are 0, and what rounding leaves of the rolling mean over 15 batches is 0.015625, above the threshold of 0.01, and never changes again. About a third of the makespans above two months behave like this (counted by running the model, not proved) |
| C89 | `float_option_refuted` | `--beta-scale 0x1p-200` (or 1e-60) is positive as the `double` that is checked and zero as the `float` that is stored, and `--beta-scale nan` passes the check because it is neither below nor above the range; both violate `Expects(beta_scale > 0)` for every project |
| C42 | `volatility_refuted` | with a restart period of 2^25 the damping factor reaches 0 |
| C44 | `least_squares_refuted` | data with a single x: the coefficients stay 0 |
| C48 | `percentiles_cover_refuted` | single precision: at 300099 samples p99 covers fewer samples than stated |
| C49 | `percentiles_refuted` | the five percentiles share one cursor, so a bin can serve only one of them: with one dominant bin the median is the next bin |
| C55 | `worker_failure_refuted`, `shown_worker_failure_refuted` | an exception in the worker leaves the consumer waiting for ever unless `--quiet` is given |
| C60 | `json_total_refuted` | a valid project whose makespan is below one second violates the postcondition of `to_json` |
| C63 | `exit_status_refuted` | a failed write to the output file exits with 0 |
| C64 | `restart_period_refuted` | `--restart-period 0256` is checked as 256 and stored as octal 174, no power of two |
| C65 | `cursor_restored_refuted` | a signal between the clearing of the flag and the flush of the cursor sequence, or handled by another thread, leaves the cursor hidden |
| C68 | `average_performance_refuted` | performances of 2^127 and more: the sum overflows to infinity |
| C69 | `error_estimate_refuted`, `error_estimate_of_runs_refuted` | runs of zero whole seconds make the estimate 0/0 |
| C72 | `counters_refuted` | `--batch-size` 2^30 with `--max-idle-iters` 2^31 - 1: the idle counter passes 2^31 in the third update; harmless where `std::int_fast32_t` has 64 bits (C79) |
| C83 | `positive_draw_ends_refuted` | the loop that draws until the number is positive never ends for the bounds 0 and 2^-149, which meet the contract of `normal`; the contract of the average performance (project.cpp:40) excludes a minimum of 0 |
| C75 | `log_refuted` | the help text promises `optimization.csv`, the program writes `optimization_log.csv`; with `--quiet` the option `--log-optimization-progress` has no effect |
| C90 | `json_no_overlap_refuted` | three tasks in a row of 16777216, 1 and 1 seconds: in the file the last two both start after 16777216 seconds and take one second, so the same agent does both at once |

## 7. Wrong programs

`seeded/LOG.jsonl` lists edits of the model that imitate bugs, the claims they break and the theorems whose proofs then failed. The edits are made in a scratch copy; a proof that fails is replaced there by `Admitted`, and theorems that rest on such a lemma count as failed.
