{"id": "C01", "title": "Duration text is accepted exactly when it follows the documented grammar", "statement": "Loading a task whose duration text is T succeeds in parsing T if and only if T is a non-empty sequence of `<digits><optional spaces><unit>` items separated by optional white space or by ` and `, where the unit is one of s/sec/second(s), m/min/minute(s), h/hour(s), d/day(s), w/week(s), month(s) and the long spellings are preceded by white space. Every other text is rejected with a duration parse error, and no text makes the parser loop or crash.", "quantifier": "all byte strings", "why_tests_cant": "the set of texts is infinite; tests only try a few spellings", "anchors": ["src/config/parse_duration.rl.cpp: parse_duration, duration_parser"]}
{"id": "C02", "title": "Duration value is the sum of its items", "statement": "When a duration text is accepted its value is exactly the sum over its items of count times unit length (second 1, minute 60, hour 3600, day 86400, week 604800, month 2629746 seconds), every item counted exactly once, whatever white space and `and` separators are used, as long as each count fits a 32 bit int.", "quantifier": "all accepted texts whose counts fit an int", "why_tests_cant": "infinitely many texts, item counts, paddings and separators", "anchors": ["src/config/parse_duration.rl.cpp: parse_duration, actions add_seconds..add_months, num"]}
{"id": "C03", "title": "Durations compose by concatenation", "statement": "If texts A and B are accepted durations with values a and b, then A followed by any amount of white space (or white space, `and`, white space) followed by B is accepted with value a+b.", "quantifier": "all pairs of accepted texts and all separators", "why_tests_cant": "an algebraic law over an infinite language", "anchors": ["src/config/parse_duration.rl.cpp: main"]}
{"id": "C04", "title": "Documents are accepted by the schema check exactly when they have the documented shape", "statement": "load_text raises a schema error if and only if the YAML tree does not have the documented shape (top level map with exactly the keys agents and tasks, agent attributes performance/groups, task attributes group/groups/agent/name/id/depends_on/duration/subtasks with the documented value kinds, no duplicate, empty or unknown attribute), with subtasks checked recursively to any depth.", "quantifier": "all YAML trees of any size and nesting depth", "why_tests_cant": "recursive structure of unbounded depth", "anchors": ["src/config/load.cpp: validate_configuration, validate_task_list", "src/config/validation.h: scalar, required, optional, sequence, attributes, values, any_of"]}
{"id": "C05", "title": "A schema error always names a real location", "statement": "Whenever the schema check fails, the error message quotes a scope path that denotes a node of the given document (for a missing attribute: the parent of the missing attribute), and the complaint in the message is true of that node.", "quantifier": "all rejected YAML trees", "why_tests_cant": "infinitely many documents and error positions", "anchors": ["src/config/validation.h: required, optional, sequence, attributes, values, any_of, join"]}
{"id": "C06", "title": "Loaded agents mirror the document", "statement": "In a successfully loaded project the agents are, in document order, exactly the keys of the agents map; the id of each agent is its position; names are pairwise distinct; a document that names an agent twice is rejected.", "quantifier": "all documents that load", "why_tests_cant": "must hold for any number and order of agents", "anchors": ["src/config/agents.cpp: parse_agent, parse_agents, check_for_duplicates"]}
{"id": "C07", "title": "Loaded agent performance is positive and ordered", "statement": "Every agent of a loaded project has 0 < performance.min <= performance.max; an agent without a performance section has 1.0 for both; a scalar sets both bounds. Documents that would violate this are rejected with a validation error.", "quantifier": "all documents that load, all float texts", "why_tests_cant": "floating point inputs include zero, negative, infinite and NaN values", "anchors": ["src/config/agents.cpp: validate_performance, parse_agent_performance"]}
{"id": "C08", "title": "Group table is duplicate free and group references are faithful", "statement": "In a loaded project the group table has no duplicate names, lists names in order of first mention, and the group indices stored on every agent and every task resolve, through the table, to exactly the set of group names written for that agent or task.", "quantifier": "all documents that load", "why_tests_cant": "an invariant of an incremental, order dependent interning table", "anchors": ["src/config/load.cpp: find_or_insert_group", "src/config/agents.cpp: parse_agent_groups", "src/config/tasks.cpp: parse_task_group, parse_task_groups"]}
{"id": "C09", "title": "Nested tasks are flattened in document order", "statement": "The task list of a loaded project is the pre-order traversal of the nested task tree: one project task per task node, a parent immediately followed by its flattened subtasks, names preserved.", "quantifier": "all nested task trees of any depth and width", "why_tests_cant": "unbounded nesting", "anchors": ["src/config/tasks.cpp: parse_task, parse_subtasks, parse_tasks"]}
{"id": "C10", "title": "Loaded dependencies are exactly the declared ones", "statement": "The dependency set of a loaded task is exactly the set of its direct subtasks plus the tasks whose id is listed in its depends_on, including ids defined later in the document; a depends_on entry naming no task is rejected; every stored index is a valid task position.", "quantifier": "all documents that load", "why_tests_cant": "two-phase name resolution over arbitrary trees and forward references", "anchors": ["src/config/tasks.cpp: parse_dependencies, parse_dependencies_2nd_phase, parse_subtasks, find_task_index_by_id"]}
{"id": "C11", "title": "Task ids are unique", "statement": "In a loaded project no two tasks have the same non-empty id, and a document that defines the same id twice at any nesting levels is rejected.", "quantifier": "all documents", "why_tests_cant": "duplicates can be at any two positions in the tree", "anchors": ["src/config/tasks.cpp: parse_task_id, check_for_duplicates"]}
{"id": "C12", "title": "Dependency cycles are rejected, and only cycles are", "statement": "load reports a dependency cycle if and only if the dependency graph of the document (depends_on plus subtasks) has a directed cycle; consequently the dependency graph of every loaded project is acyclic.", "quantifier": "all dependency graphs", "why_tests_cant": "a graph property over all graphs; tests try two cycles", "anchors": ["src/config/tasks.cpp: depth_first_search, check_for_cycles"]}
{"id": "C13", "title": "Loaded task duration bounds are ordered and come from the text", "statement": "Every loaded task has duration.min <= duration.max, with the values denoted by its duration text or by its min and max texts; documents with min greater than max or with unparsable texts are rejected.", "quantifier": "all documents", "why_tests_cant": "combination of all duration texts", "anchors": ["src/config/tasks.cpp: parse_duration"]}
{"id": "C14", "title": "A task is assigned by at most one of group, groups, agent, and an assigned agent is the named one", "statement": "Documents in which a task has more than one of group, groups and agent are rejected; when a loaded task has an assigned agent, the index denotes the agent whose name was written.", "quantifier": "all documents that load", "why_tests_cant": "holds for every position in a nested tree and every agent table", "anchors": ["src/config/tasks.cpp: parse_groups_and_agents, parse_task_agent, find_agent_index_by_name"]}
{"id": "C15", "title": "Every task of a loaded project has an agent able to do it", "statement": "If load succeeds then for every task there is at least one agent that can work on it.", "quantifier": "all documents that load", "why_tests_cant": "interaction of all agents' groups with all tasks' groups", "anchors": ["src/config/tasks.cpp: parse_task_group", "src/project.cpp: can_work_on"]}
{"id": "C16", "title": "Agents restricted to groups may still do tasks without groups", "statement": "As documented (README, project.h), an agent can work on a task iff: the task names that agent; or the task names no agent and either the agent has no groups, or the task has no groups, or the agent has all of the task's groups.", "quantifier": "all agents and tasks", "why_tests_cant": "a decision rule over arbitrary sets of groups", "anchors": ["src/project.cpp: can_work_on", "README.md: Agent, Task"]}
{"id": "C17", "title": "Loading any document ends in a project or a validation error", "statement": "For every YAML tree load either returns a project or raises a validation error; it never violates an internal contract, indexes out of range or overflows an index.", "quantifier": "all YAML trees", "why_tests_cant": "totality over all inputs", "anchors": ["src/config/load.cpp: parse_yaml", "src/config/agents.cpp", "src/config/tasks.cpp"]}
{"id": "C18", "title": "A loaded project can always be handed to the predictor", "statement": "Every project returned by load satisfies the documented preconditions of the later stages: at least one agent and task, positive average durations, positive average performance, and a non-zero total duration.", "quantifier": "all documents that load", "why_tests_cant": "preconditions of later stages must follow from validation for all inputs", "anchors": ["src/project.cpp: average", "src/stun/schedule_params.cpp: to_schedule_params", "src/config/load.cpp: parse_yaml"]}
{"id": "C19", "title": "The optimizer's list of available agents is exact", "statement": "For every project, the schedule parameters list for each task exactly the indices of the agents that can work on it, in increasing order without duplicates.", "quantifier": "all projects", "why_tests_cant": "all combinations of agents and tasks", "anchors": ["src/stun/schedule_params.cpp: available_agents, to_schedule_params"]}
{"id": "C20", "title": "The optimizer's dependency table is exact and sorted", "statement": "For every project, the schedule parameters list for each task exactly the task's dependencies, strictly increasing (so the binary search used by mutation is correct).", "quantifier": "all projects", "why_tests_cant": "all graphs", "anchors": ["src/stun/schedule_params.cpp: dependencies, to_schedule_params", "src/stun/utils.cpp: is_swappable"]}
{"id": "C21", "title": "Normalised durations are proportional to average durations", "statement": "For every project with positive durations the normalised task durations times the duration multiplier give back the average task durations (up to floating point rounding), sum to the number of agents, and are finite and non-negative.", "quantifier": "all projects with positive durations", "why_tests_cant": "all real-valued inputs", "anchors": ["src/stun/schedule_params.cpp: task_duration"]}
{"id": "C22", "title": "Copies of packed tables are deep and faithful", "statement": "A copy of a packed 2D table has the same rows as the original, and later changes to or destruction of the original do not change the copy; self assignment keeps the contents.", "quantifier": "all tables (including empty rows, empty tables) and all later histories of the original", "why_tests_cant": "aliasing over all shapes and histories", "anchors": ["src/stun/schedule_params.cpp: Vector2D copy/move constructors and assignments"]}
{"id": "C23", "title": "The initial schedule is complete, ordered and feasible", "statement": "For every set of schedule parameters with acyclic dependencies and an available agent for each task, the initial schedule is produced (the recursion terminates), contains every task exactly once, puts each task after all of its dependencies and gives each task one of its available agents.", "quantifier": "all acyclic dependency graphs of any size", "why_tests_cant": "all graphs; termination of a recursive traversal", "anchors": ["src/stun/schedule_params.cpp: initial_schedule, push_task"]}
{"id": "C24", "title": "Mutation preserves schedule validity for all random choices", "statement": "Starting from a valid schedule (every task once, dependencies first, available agents only), any number of mutations with any random numbers yields a valid schedule.", "quantifier": "all parameter sets, valid schedules, mutation counts and random number streams", "why_tests_cant": "an invariant over all random streams", "anchors": ["src/stun/utils.cpp: Mutator::operator(), try_swap, update_agent, is_swappable"]}
{"id": "C25", "title": "A mutation changes at most two neighbours and one assignment", "statement": "One mutation changes the order of at most one adjacent pair of tasks and the agent of at most one task; everything else in the schedule is unchanged, and schedules of length one never change order.", "quantifier": "all schedules and random choices", "why_tests_cant": "frame condition over all inputs", "anchors": ["src/stun/utils.cpp: Mutator"]}
{"id": "C26", "title": "Every valid schedule is reachable by mutation", "statement": "For any two valid schedules of the same project there is a finite sequence of random choices by which repeated mutation turns the first into the second, so the optimizer's search space is connected.", "quantifier": "all parameter sets and all pairs of valid schedules", "why_tests_cant": "existence of a path between arbitrary elements of an exponentially large set", "anchors": ["src/stun/utils.cpp: Mutator::operator()"]}
{"id": "C27", "title": "Makespan evaluation does not depend on history", "statement": "The makespan of a schedule is the same no matter which schedules were evaluated before with the same evaluator.", "quantifier": "all sequences of evaluated schedules", "why_tests_cant": "all call histories of a stateful object with reused buffers", "anchors": ["src/stun/utils.cpp: Makespan::operator()"]}
{"id": "C28", "title": "Makespan is the length of the greedy timeline", "statement": "For every valid schedule the evaluator's result is the latest finish time of the timeline in which each task starts as soon as its dependencies and the previous task of its agent are finished and lasts duration/performance; in that timeline no agent does two tasks at once and no task starts before its dependencies end.", "quantifier": "all parameters and valid schedules (with IEEE single precision arithmetic)", "why_tests_cant": "all schedules and float values", "anchors": ["src/stun/utils.cpp: Makespan::operator(), dependencies_done, task_duration"]}
{"id": "C29", "title": "Makespan bounds", "statement": "The makespan of a valid schedule is at least the duration of each scheduled task on its agent and at least the finish time along every dependency chain, and is never NaN or negative.", "quantifier": "all parameters and valid schedules", "why_tests_cant": "all float inputs and chains", "anchors": ["src/stun/utils.cpp: Makespan::operator()"]}
{"id": "C30", "title": "Reported best makespan belongs to the reported best schedule", "statement": "At every moment of an optimization the reported normalized makespan is exactly the makespan of the reported schedule.", "quantifier": "all parameters, random streams, temperatures, gamma values, numbers of updates and resets", "why_tests_cant": "all random histories of a stateful search", "anchors": ["src/stun/stochastic_tunneling.cpp: update, reset, schedule, normalized_makespan"]}
{"id": "C31", "title": "Reported best makespan never gets worse and is the best one seen", "statement": "Along any run the reported makespan never increases, and equals the minimum of the makespans of all schedules evaluated since the last reset.", "quantifier": "all random histories", "why_tests_cant": "all histories", "anchors": ["src/stun/stochastic_tunneling.cpp: neighbor_is_better, perform_stun", "src/stun/optimizer_job.cpp: update"]}
{"id": "C32", "title": "The reported schedule is always valid", "statement": "At every moment of an optimization (single job or the parallel optimizer, including after copies between jobs and resets) the reported schedule contains every task once, respects dependencies and uses available agents only.", "quantifier": "all parameters, random streams, numbers of jobs and histories", "why_tests_cant": "all histories of a buffer juggling algorithm", "anchors": ["src/stun/stochastic_tunneling.cpp", "src/stun/optimizer_job.cpp", "src/stun/optimizer.cpp"]}
{"id": "C33", "title": "After every update the optimizer reports the best of all parallel jobs", "statement": "After an update the reported makespan is the minimum over all parallel jobs, whatever the number of threads and the order in which jobs run, and never exceeds the makespan reported before.", "quantifier": "all thread counts, interleavings and random streams", "why_tests_cant": "all interleavings", "anchors": ["src/stun/optimizer.cpp: update, replicate_best_job"]}
{"id": "C34", "title": "Copies of optimization jobs are faithful and independent", "statement": "A copy of an optimization job or of the optimizer reports the same best schedule and makespan, continues from the same current state, and neither object's later updates affect the other.", "quantifier": "all histories before and after the copy", "why_tests_cant": "aliasing over all histories", "anchors": ["src/stun/stochastic_tunneling.cpp: copy constructor", "src/stun/optimizer_job.cpp: copy constructor, operator=", "src/stun/optimizer.h: JobSlot"]}
{"id": "C35", "title": "The optimization loop terminates", "statement": "For every loaded project and every option setting the loop `while not converged: update` ends after finitely many updates, for every random stream.", "quantifier": "all projects, options and infinite random streams", "why_tests_cant": "liveness over all infinite random streams", "anchors": ["src/predict.cpp: optimize", "src/stun/optimizer.cpp: update, has_converged"]}
{"id": "C36", "title": "Convergence means max_idle_iters iterations without improvement", "statement": "The optimizer reports convergence exactly when the number of iterations since the last improvement of the best makespan (or since the start) has reached max_idle_iters; the epoch counter equals the number of updates that improved the best makespan.", "quantifier": "all histories", "why_tests_cant": "all histories of a counter protocol", "anchors": ["src/stun/optimizer.cpp: update, has_converged, current_epoch"]}
{"id": "C37", "title": "Reported progress is always between 0 and 1, and is 1 when converged", "statement": "At any time the estimated progress is a number in [0,1]; it is exactly 1 once the optimizer has converged and 0 during the first five epochs.", "quantifier": "all histories and all float results of the curve fitter", "why_tests_cant": "float corner cases (zero division, overflow, NaN) over all histories", "anchors": ["src/stun/optimizer.cpp: estimated_progress, interpolate_progress, estimate_progress", "src/cli/events.cpp: EventHandler"]}
{"id": "C38", "title": "Reset returns to the initial state", "statement": "After reset an optimizer (or job) is indistinguishable from a freshly constructed one with the same parameters: same schedule, makespan, progress and epoch, whatever happened before.", "quantifier": "all histories before the reset", "why_tests_cant": "all histories", "anchors": ["src/stun/optimizer.cpp: reset", "src/stun/optimizer_job.cpp: reset", "src/stun/stochastic_tunneling.cpp: reset", "src/stun/temperature.cpp: reset"]}
{"id": "C39", "title": "Rebinding parameters affects all later results", "statement": "After params(p) every later makespan and schedule is computed from p.", "quantifier": "all old and new parameter sets", "why_tests_cant": "all pairs of parameter sets", "anchors": ["src/stun/optimizer_job.cpp: params", "src/stun/optimizer.cpp: params", "src/stun/utils.cpp: Makespan::params"]}
{"id": "C40", "title": "The Metropolis step compares against the current schedule", "statement": "In every update in which the candidate is not better, the acceptance probability is min(1, exp(-beta*(f(candidate)-f(current)))) where f is the tunneling transform relative to the best makespan so far.", "quantifier": "all histories", "why_tests_cant": "depends on all preceding updates", "anchors": ["src/stun/stochastic_tunneling.cpp: perform_stun, neighbor_is_better, stun_fn"]}
{"id": "C41", "title": "The temperature stays non-negative", "statement": "For every positive beta scale accepted by the command line and any sequence of tunneling energies in [0,1], the temperature stays a non-negative number.", "quantifier": "all positive beta scales and all update sequences", "why_tests_cant": "all infinite sequences of floats", "anchors": ["src/stun/temperature.cpp: update", "src/main.cpp: optimization_options"]}
{"id": "C42", "title": "Temperature volatility follows the restart period", "statement": "The damping factor is in (0,1], decreases by 1/restart_period with each update and returns to 1 exactly at every restart_period-th update, for every power of two restart period.", "quantifier": "all powers of two and all update counts", "why_tests_cant": "arithmetic for all counts", "anchors": ["src/stun/temperature.cpp: update"]}
{"id": "C43", "title": "The curve fitter recovers exponential data", "statement": "If all data points lie on y = exp(a + b x) with at least two distinct x, the fitter reproduces the curve exactly (in exact arithmetic); with fewer it reports 0.", "quantifier": "all a, b and all finite point sets", "why_tests_cant": "all real data sets", "anchors": ["src/stun/exp_curve_fitter.cpp: operator(), at"]}
{"id": "C44", "title": "The curve fitter computes the weighted least squares fit", "statement": "For all data with positive y the coefficients a, b minimise the sum of y_i (log y_i - a - b x_i)^2 over all real pairs (in exact arithmetic).", "quantifier": "all positive data sets and all competing coefficient pairs", "why_tests_cant": "optimality over all competitors", "anchors": ["src/stun/exp_curve_fitter.cpp: operator()"]}
{"id": "C45", "title": "Histogram bins contain the values added to them", "statement": "After adding any values, the count of the bin with lower bound low is exactly the number of added values v with low <= v < low + bin_size, every added value falls in exactly one bin, and the counts sum to the number of added values.", "quantifier": "all value sequences and bin sizes >= 1", "why_tests_cant": "all sequences", "anchors": ["src/histogram.cpp: operator(), to_bin"]}
{"id": "C46", "title": "Histogram does not depend on insertion order", "statement": "Two histories that add the same multiset of values give the same histogram.", "quantifier": "all permutations of all value sequences", "why_tests_cant": "all permutations", "anchors": ["src/histogram.cpp: operator()"]}
{"id": "C47", "title": "Histogram iteration is sorted, gap free of empty bins and agrees with indexing", "statement": "Iterating yields bins in strictly increasing order of low, each with positive count, high = low + bin_size and low <= middle < high; size() is the number of distinct bins; histogram[i] is the i-th iterated bin.", "quantifier": "all histograms", "why_tests_cant": "all value sequences", "anchors": ["src/histogram.cpp: Iterator, operator[], size"]}
{"id": "C48", "title": "Percentiles are ordered and never under-estimate", "statement": "For every non-empty histogram p25 <= p50 <= p75 <= p95 <= p99, each is the middle of an existing bin, and at least the stated fraction of samples lies at or below that bin.", "quantifier": "all non-empty histograms", "why_tests_cant": "all histograms", "anchors": ["src/simulation.cpp: stats"]}
{"id": "C49", "title": "Percentiles are the histogram quantiles", "statement": "Each percentile is the middle of the first bin at which the cumulative count reaches the stated fraction of the total.", "quantifier": "all non-empty histograms", "why_tests_cant": "all histograms", "anchors": ["src/simulation.cpp: stats", "src/simulation.h: stats"]}
{"id": "C50", "title": "Histogram bin width follows the makespan", "statement": "Without an explicit bin size the bin width is 60 s for makespans below 5 hours, 3600 s below 13 days and 86400 s otherwise; an explicit bin size is used unchanged; the width never decreases as the makespan grows.", "quantifier": "all makespans >= 1 s and all bin sizes", "why_tests_cant": "boundary behaviour over all values", "anchors": ["src/simulation.cpp: granularity, parse_granularity"]}
{"id": "C51", "title": "Simulated durations and performances are positive", "statement": "In each simulation run every sampled performance and duration is positive for every random stream, and equals the configured value when min = max.", "quantifier": "all projects with positive bounds and all random streams", "why_tests_cant": "all random streams", "anchors": ["src/simulation.cpp: random_agent_performances, random_task_durations"]}
{"id": "C52", "title": "A simulation run is the timeline of its samples, independent of earlier runs", "statement": "Each simulated makespan is the whole-second part of the makespan of the schedule under that run's sampled durations and performances, whatever runs were done before with the same object.", "quantifier": "all histories of runs and random streams", "why_tests_cant": "all call histories with reused buffers", "anchors": ["src/simulation.cpp: Simulation::operator()"]}
{"id": "C53", "title": "Without uncertainty the simulation is deterministic", "statement": "If every agent and task has min = max then every run returns the same value, the histogram has one bin, and all percentiles are equal.", "quantifier": "all projects without uncertainty and all random streams", "why_tests_cant": "all random streams", "anchors": ["src/simulation.cpp: Simulation::operator(), stats"]}
{"id": "C54", "title": "Progress events arrive in order with a single final event", "statement": "For every interleaving of the worker and the consumer, the consumer handles ScheduleOptimizationStart, then the optimization events, then one ScheduleOptimizationComplete, then (for prediction) SimulationStart, then Finished, without loss or duplication, and stops right after Finished.", "quantifier": "all interleavings and all numbers of optimization events", "why_tests_cant": "all thread interleavings", "anchors": ["src/predict.cpp: predict, schedule, optimize", "src/cli/events.h: consume_events"]}
{"id": "C55", "title": "The consumer stops even if the worker fails", "statement": "If the worker ends with an exception at any point, the command still terminates and reports the failure.", "quantifier": "all failure points and interleavings", "why_tests_cant": "all crash points", "anchors": ["src/cli/events.h: consume_events", "src/cli/cli.cpp: run_prediction", "src/predict.cpp: predict"]}
{"id": "C56", "title": "Verbose durations are exact", "statement": "The verbose rendering of a non-negative duration determines the duration: the printed months, days, hours, minutes and seconds add up to it, with days below one month, hours below 24, minutes and seconds below 60, and different durations print differently.", "quantifier": "all non-negative durations", "why_tests_cant": "all integers", "anchors": ["src/cli/verbose.h: verbose_duration, formatter::format"]}
{"id": "C57", "title": "Verbose durations can be read back", "statement": "For every duration from 0 up to one month, parsing the verbose rendering with the duration parser gives back the duration; longer ones are rejected because `mo` is not an accepted unit.", "quantifier": "all durations", "why_tests_cant": "round trip for all values", "anchors": ["src/cli/verbose.h", "src/config/parse_duration.rl.cpp: parse_duration"]}
{"id": "C58", "title": "Humanized durations are right to half a unit", "statement": "The humanized rendering of a duration above 5 s uses the largest unit that rounds to a non-zero amount, and the printed amount differs from the true duration by at most half that unit; it always prints something.", "quantifier": "all durations", "why_tests_cant": "rounding over all integers", "anchors": ["src/cli/humanize.h: humanize_duration, formatter::format"]}
{"id": "C59", "title": "The schedule JSON lists each task once with consistent priorities", "statement": "In the JSON output every task appears once, in schedule order; the priorities of each agent's tasks are 0,1,2,... in that order.", "quantifier": "all projects and schedules", "why_tests_cant": "all schedules", "anchors": ["src/cli/schedule.cpp: to_json"]}
{"id": "C60", "title": "The schedule JSON start times respect dependencies and agents", "statement": "In the JSON output each task's expected start is not before the whole-second finish of its dependencies and of the previous task of the same agent, and start times and durations are those of the greedy timeline, for all projects whose times fit an int.", "quantifier": "all projects and valid schedules", "why_tests_cant": "all schedules and float values", "anchors": ["src/cli/schedule.cpp: TaskDurations, to_json"]}
{"id": "C61", "title": "The histogram JSON accounts for every simulation", "statement": "The histogram JSON lists exactly the non-empty bins in increasing order as [low, count], low being a multiple of bin_size, and the counts add up to the number of simulations.", "quantifier": "all histograms", "why_tests_cant": "all histograms", "anchors": ["src/cli/cli.cpp: to_json"]}
{"id": "C62", "title": "Quiet mode prints nothing on standard output", "statement": "With --quiet nothing is written to standard output on any path, including every error path; errors still go to standard error.", "quantifier": "all inputs, outcomes and option combinations", "why_tests_cant": "all paths", "anchors": ["src/cli/utils.h: print, die, print_error", "src/cli/cli.cpp", "src/cli/schedule.cpp", "src/main.cpp"]}
{"id": "C63", "title": "Exit status tells success from user error", "statement": "The process exits with status 0 exactly when the result file was written, with EXIT_FAILURE for unreadable, unparsable or invalid input and for output errors.", "quantifier": "all outcomes of each stage", "why_tests_cant": "all combinations of stage outcomes", "anchors": ["src/main.cpp: main", "src/cli/cli.cpp: parse_config, save_prediction_json", "src/cli/schedule.cpp: save_schedule_json"]}
{"id": "C64", "title": "Accepted command line parameters satisfy the optimizer's preconditions", "statement": "Every restart period that passes the command line checks is a positive power of two, and the accepted option values reach the optimizer unchanged.", "quantifier": "all argument strings", "why_tests_cant": "all strings", "anchors": ["src/main.cpp: power_of_2_validator, optimization_options", "src/cli/cli.cpp: parse_opt_params"]}
{"id": "C65", "title": "The terminal cursor is restored on every exit path", "statement": "If the process gets SIGINT or SIGTERM at any point of drawing the progress bar, the cursor is visible when the process exits and the exit status is 128 plus the signal number.", "quantifier": "all points at which a signal can arrive", "why_tests_cant": "all crash points", "anchors": ["src/cli/terminal.cpp: abort_handler, at_exit, hide_cursor, show_cursor", "src/cli/progress.cpp: ProgressBar"]}
{"id": "C66", "title": "Textual progress is printed at most once per second", "statement": "In non-terminal mode two printed progress lines are at least one second apart, and an update at least one second after the last printed line is printed, for all clock readings.", "quantifier": "all monotone sequences of clock readings", "why_tests_cant": "all timings", "anchors": ["src/cli/progress.cpp: ProgressText::update"]}
{"id": "C67", "title": "The reported project makespan is the optimizer's makespan in seconds", "statement": "The makespan in the result and in the last optimization event is the normalized makespan of the returned schedule times the duration multiplier, truncated to whole seconds, and the makespans in successive events never increase.", "quantifier": "all projects and random streams", "why_tests_cant": "all histories", "anchors": ["src/predict.cpp: makespan, optimize"]}
{"id": "C68", "title": "An agent's expected performance lies between its minimum and maximum", "statement": "The performance the optimizer assumes for an agent is at least the configured minimum and at most the configured maximum, and finite.", "quantifier": "all performance ranges up to half of the float range", "why_tests_cant": "all float pairs", "anchors": ["src/project.cpp: Agent::Performance::average", "src/stun/schedule_params.cpp: agent_performance"]}
{"id": "C69", "title": "The simulation's accuracy estimate is a number", "statement": "While the histogram is collected, the accuracy estimate compared with the threshold is never NaN and its contract (error >= 0) holds, for all projects with positive bounds and all random streams.", "quantifier": "all projects with positive bounds and all random streams", "why_tests_cant": "needs runs of zero whole seconds in two successive batches", "anchors": ["src/simulation.cpp: mean_absolute_pct_error, HistogramOp::operator()"]}
{"id": "C70", "title": "Parallel jobs of an optimizer share no memory", "statement": "Whatever is done with optimizers (construction, update with any interleaving of its jobs, reset, rebinding, copy, move, destruction), the pointers inside a job lead to its own mutator, makespan evaluator and temperature; the jobs of an optimizer that is not an un-rebound copy draw only from the random number sources of their own slots; one iteration of such a job reads and writes its own slot only; and every command changes the value of the optimizer it is applied to as if jobs were plain values, and no other.", "quantifier": "all histories, interleavings and random number sources", "why_tests_cant": "pointers after all histories of copies, moves and replications", "anchors": ["src/stun/optimizer.cpp: update, replicate_best_job, params", "src/stun/optimizer_job.cpp: copy, move, params", "src/stun/optimizer.h: JobSlot", "src/stun/stochastic_tunneling.cpp: options"]}
{"id": "C71", "title": "The file written holds the worker's result", "statement": "The command writes at most one file, the one named on the command line; it holds the JSON text of what the worker returned for the loaded project, the bin size and the parameters of the command line: schedule and makespan, and for a prediction the five percentiles under their names and the histogram. Unless it is quiet, a successful prediction prints the same percentiles.", "quantifier": "all projects, options and results of the worker", "why_tests_cant": "all results", "anchors": ["src/cli/cli.cpp: parse_config, run_prediction, print_histogram_stats, to_json, save_prediction_json", "src/cli/schedule.cpp: json_schedule, save_schedule_json"]}
{"id": "C72", "title": "The 32-bit counters of the optimizer never overflow", "statement": "During a search the idle iteration counter and the epoch counter stay within [0, 2^31), for all accepted option values and all random streams.", "quantifier": "all histories, options and random streams", "why_tests_cant": "the epoch counter is bounded only through the number of distinct float makespans", "anchors": ["src/stun/optimizer.h: Optimizer", "src/stun/optimizer.cpp: update, estimate_progress"]}
{"id": "C73", "title": "The simulation stops with the first batch that meets the accuracy threshold", "statement": "The histogram holds the makespans of successive runs in batches of 10000; after every batch but the last the rolling mean of the relative changes of the five quantile estimates is above one percent, after the last batch it is not, and there is at least one batch.", "quantifier": "all projects, random streams, quantile estimators and rolling means", "why_tests_cant": "the number of batches is unbounded", "anchors": ["src/simulation.cpp: HistogramOp::operator(), run_simulation_batch, mean_absolute_pct_error"]}
{"id": "C74", "title": "Views into a buffer stay inside the object's own buffer and never overlap", "statement": "However makespan evaluators, simulations and tunneling objects are created, copied, moved, resized, swapped, written and destroyed without violating a contract, each of their spans lies inside the object's own buffer, which has no other owner and is not freed, different spans of one object do not overlap, and the objects behave like plain values with separate lists.", "quantifier": "all sequences of operations and all element types", "why_tests_cant": "dangling or shared spans show only after particular histories of copies, moves and resizes", "anchors": ["src/stun/utils.cpp: Makespan", "src/simulation.cpp: Simulation, assign_buffers", "src/stun/stochastic_tunneling.cpp: prepare_schedules, copy, move, std::swap of spans"]}
{"id": "C75", "title": "The optimization log lists every optimizer update", "statement": "A successful command with --log-optimization-progress writes to optimization.csv, the file its help text names, the header and one row per optimizer update, in order, with the progress, the makespan in seconds and the epoch; without the option nothing is logged.", "quantifier": "all projects, options, random streams and results of the worker", "why_tests_cant": "all histories of updates, and combinations of options", "anchors": ["src/cli/events.cpp: EventHandler::operator()", "src/cli/events.h: consume_events", "src/cli/cli.cpp: run_prediction", "src/cli/schedule.cpp: json_schedule", "src/main.cpp: common_options"]}
{"id": "C76", "title": "Histogram iterators behave like positions", "statement": "Iterators obtained from a histogram by any sequence of operations are positions between begin and end in the list of bins; increments, decrements, sums, differences, subscripts and comparisons act on them as on integers and are defined exactly inside the range; the order of iterators is the order of the bins; loops in either direction see every bin exactly once.", "quantifier": "all histograms, all iterators and all offsets", "why_tests_cant": "all sequences of iterator operations", "anchors": ["src/histogram.cpp: Histogram::Iterator", "src/histogram.h: Histogram::Iterator"]}
{"id": "C77", "title": "The histogram's checked arithmetic never overflows in the program", "statement": "The histogram built from simulated makespans, with a computed bin size or any bin size of the command line, never makes the checked 64-bit arithmetic throw, while adding values or while reading bins, as long as there are fewer than 2^63 runs; its contents are those of exact arithmetic.", "quantifier": "all projects, bin sizes and random streams", "why_tests_cant": "needs makespans near 2^63 seconds", "anchors": ["src/common.h: int32", "src/histogram.cpp: Histogram::operator(), to_bin", "src/simulation.cpp: run_simulation_batch"]}
{"id": "C78", "title": "A build without OpenMP agrees with a build that runs one thread", "statement": "Given the same random numbers, the workers of a build without OpenMP send the same events and end with the same result, or the same violated contract, as those of an OpenMP build with one thread, for all projects that make a scheduling problem.", "quantifier": "all projects, options and random streams", "why_tests_cant": "needs two builds and all random streams", "anchors": ["src/stun/optimizer.cpp: Optimizer::Optimizer, update, replicate_best_job", "src/predict.cpp: optimize, predict, schedule"]}
{"id": "C79", "title": "The optimizer's own counters never overflow", "statement": "With any values of the options --batch-size and --max-idle-iters that fit an int, the optimizer and its jobs never overflow the 64-bit counters they use (checked in a debug build, unchecked in a release build): every update during a search, and the whole search, gives the result of exact arithmetic.", "quantifier": "all problems, options, histories and random streams", "why_tests_cant": "the epoch counter is bounded only through the number of distinct float makespans, and overflow needs very long searches", "anchors": ["src/stun/schedule.h: int32", "src/stun/optimizer.cpp: update, interpolate_progress, estimate_progress", "src/stun/optimizer_job.cpp: update"]}
{"id": "C80", "title": "The rolling mean of the temperature follows the mean of its window", "statement": "The rolling mean of tunneling energies that the temperature uses stays within a small fixed distance of the exact mean of the last energies of the window, for every number of energies, so a beta scale that is safe for an exact mean is safe for the program and no update of a search violates the contract of the temperature.", "quantifier": "all windows and all sequences of energies between 0 and 1; all searches", "why_tests_cant": "rounding errors pile up over millions of iterations, and how they do depends on the energies", "anchors": ["src/stun/temperature.h: acc", "src/stun/temperature.cpp: average_stun, update"]}
{"id": "C81", "title": "Random integers are in range and equally likely, and every draw ends", "statement": "Whatever the state of the random number generator, drawing an integer from 0 to max or a number from the unit interval ends and gives an integer from 0 to max or a number from 0 to less than 1; each integer is the direct result of equally many states; iterations of a search with the generator end and are iterations for some admissible random numbers.", "quantifier": "all 2^64 states, all increments and all ranges below 2^32; all problems and all searches", "why_tests_cant": "the state space is 2^64 and the loops of the distributions have no bound", "anchors": ["src/stun/random_utils.cpp: RandomUtils::uniform_01, uniform_int", "src/stun/random_utils.h: generator", "src/stun/utils.cpp: Mutator", "src/stun/stochastic_tunneling.cpp: update, perform_stun"]}
{"id": "C82", "title": "The result of parallel jobs does not depend on how threads interleave", "statement": "Given the states of the random number generators, an update of an optimizer leaves the same jobs, the same generators and the same progress however the iterations of its jobs are interleaved, in particular as if the jobs ran one after the other; so it is for whole histories of constructions, updates, resets, rebindings, copies, moves and destructions. An iteration touches only one job and one generator, and different jobs of an optimizer use different generators.", "quantifier": "all histories, all interleavings, all problems and all generators", "why_tests_cant": "the interleavings are too many to try, and races show only under load", "anchors": ["src/stun/optimizer.cpp: Optimizer::update, replicate_best_job, params", "src/stun/optimizer.h: JobSlot", "src/stun/optimizer_job.cpp: OptimizerJob, update, params", "src/stun/stochastic_tunneling.cpp: update"]}
{"id": "C83", "title": "Normally distributed numbers are drawn in finite time, and a simulation uses exactly those", "statement": "Whatever the state of the random number generator and whatever std::exp answers, RandomUtils::normal ends for all bounds that meet its contract, and the loop that draws until the number is positive ends with a positive finite number for bounds of ordinary size; so a run of a simulation with the generator ends, succeeds for every valid schedule whose makespan fits the result, and is the run for the numbers that successive calls of RandomUtils::normal return, with the bounds of the agents and tasks in order; further runs go on where the generator stopped.", "quantifier": "all 2^64 states, all increments, all functions exp, all bounds (for the loop: maximum between 2^-96 and 2^96), all projects with positive durations and such performances, all schedules and histories of the simulation object", "why_tests_cant": "the loops have no bound, they nest, and rejected numbers are rare", "anchors": ["src/stun/random_utils.cpp: RandomUtils::normal", "src/simulation.cpp: random_agent_performances, random_task_durations, Simulation::operator()"]}
{"id": "C84", "title": "The histogram made with the generator is the one for the numbers drawn", "statement": "The histogram of simulated makespans made with the random number generator equals the histogram made with the numbers that successive calls of RandomUtils::normal return, and it fails exactly when that one does; its entries are the results of successive runs with these numbers.", "quantifier": "all states and increments of the generator, all projects of ordinary size, bin sizes, schedules, quantile estimators and rolling means", "why_tests_cant": "tens of thousands of runs with one generator", "anchors": ["src/simulation.cpp: HistogramOp, run_simulation_batch, histogram", "src/stun/random_utils.cpp: RandomUtils::normal"]}
{"id": "C85", "title": "Estimated quantiles are ordered and lie between the shortest and the longest run", "statement": "After thirteen or more simulated runs, of any length that fits 64 bits, the five quantile estimates that Boost's extended P-square estimator computes in single precision are numbers in ascending order between the shortest and the longest run; the estimator never meets NaN.", "quantifier": "all sequences of run lengths", "why_tests_cant": "rounding in the parabolic and linear formulas depends on the whole history of runs", "anchors": ["src/simulation.cpp: PSquareAcc, HistogramOp, mean_absolute_pct_error"]}
{"id": "C86", "title": "The quantile estimator's markers have different ranks", "statement": "Before and after every run beyond the thirteenth, the positions of the thirteen markers of the quantile estimator are different whole numbers in ascending order, the first is 1 and the last is the number of runs, so its formulas never divide by zero and no rank is used twice.", "quantifier": "all sequences of run lengths", "why_tests_cant": "needs tens of millions of runs", "anchors": ["src/simulation.cpp: PSquareAcc, HistogramOp"]}
{"id": "C87", "title": "The simulation of a project without uncertainty ends", "statement": "If every duration and every performance has equal minimum and maximum and a run takes at least a second, then the loop over batches of simulated runs ends, with Boost's quantile estimator and rolling mean.", "quantifier": "all such projects, schedules, bin sizes and random streams", "why_tests_cant": "it depends on the rounding of a running mean for the particular makespan; for most makespans the loop ends", "anchors": ["src/simulation.cpp: histogram, HistogramOp, mean_absolute_pct_error, PSquareAcc, RollingMeanAcc"]}
{"id": "C88", "title": "Accepted whole-number options are positive", "statement": "A value that the command line accepts for --batch-size, --max-idle-iters, --stun-window or --histogram-bin-size is a positive int and is the number written, and every positive int written in decimal without leading zeros is accepted and arrives unchanged.", "quantifier": "all texts, and all functions strtold that read integers correctly", "why_tests_cant": "the texts are unbounded, and the check and the conversion read them by different rules", "anchors": ["src/main.cpp: optimization_options, main (PositiveNumber checks)"]}
{"id": "C89", "title": "Accepted values of --beta-scale and --gamma are positive finite numbers", "statement": "A value that the command line accepts for --beta-scale or --gamma is a positive finite float when it reaches the optimizer, so with it the optimizer's contracts about options hold.", "quantifier": "all texts, and all functions strtold", "why_tests_cant": "the check is done in double precision and the value is stored in single precision, which differ only for extreme numbers", "anchors": ["src/main.cpp: optimization_options (PositiveNumber checks)", "src/stun/temperature.cpp: Temperature::Temperature"]}
{"id": "C90", "title": "Tasks in the schedule file do not overlap", "statement": "In the file, a task that depends on another one, or that follows another one of the same agent, does not start before the other one is over: its expected start is at least the expected start plus the expected duration of the other one.", "quantifier": "all projects with positive durations and performances of ordinary size, all valid schedules", "why_tests_cant": "the starts are sums of rounded single precision durations; overlaps appear only in projects longer than half a year", "anchors": ["src/cli/schedule.cpp: to_json (expected_start, expected_duration)", "src/project.cpp: Task::Duration::average"]}
{"id": "C91", "title": "The file written for a document is a plan of its tasks", "statement": "If the program writes a file for a document, whether it only schedules or also simulates, then the array of tasks in the file is a plan for the document: every task and subtask of the document occurs exactly once under its name, with an agent of the document that may do it by the documented rules, with the average of its durations divided by the average performance of the agent as its expected duration (rounded down, with a relative error of at most 2^-22), after its subtasks and dependencies; these are over when it starts, and no agent does two tasks at once (as far as C90 holds).", "quantifier": "all documents the loader accepts with finite performances below 2^127 and durations up to 2^63 seconds, all command lines, random streams, batch sizes and step limits", "why_tests_cant": "the chain runs from YAML through loading, optimization and JSON, and each test covers one link", "anchors": ["src/config/load.cpp: load_text, load_file", "src/main.cpp: main", "src/cli/schedule.cpp: to_json, json_schedule, save_schedule_json", "src/predict.cpp: schedule, predict", "src/cli/cli.cpp: run_prediction"]}
{"id": "C92", "title": "Scheduling a document ends with a plan in the file", "statement": "For a document the loader accepts, whose tasks all have an agent that may do them, each needing at least two seconds for the task on average, and whose tasks take less than 2^28 seconds in total even if each took as long as the longest, the subcommand schedule with --quiet ends after finitely many updates of the optimizer: the process exits with status 0 and has written exactly one file, the one named on the command line, which holds a plan of the document's tasks in the sense of C91.", "quantifier": "all such documents, all command lines with usable options, all random streams and numbers of threads, all functions exp and log with their usual signs and ranges", "why_tests_cant": "that the search ends at all depends on the random stream, and a test covers one stream on one machine", "anchors": ["src/main.cpp: main", "src/predict.cpp: schedule, optimize", "src/stun/optimizer.cpp: Optimizer::update, Optimizer::has_converged", "src/cli/schedule.cpp: json_schedule, to_json, save_schedule_json"]}
{"id": "C93", "title": "The program works with its default options", "statement": "The default values of --batch-size, --max-idle-iters, --beta-scale, --stun-window, --gamma and --restart-period satisfy all conditions the optimizer has on its options and are accepted, written as numbers, by the options themselves, so under the conditions of C92 on the document the subcommand schedule with --quiet and no other option about the optimization ends with status 0 and a plan in the file.", "quantifier": "all documents of C92, all random streams and numbers of threads, all running means with an error of at most 1/4, all functions exp and log with their usual signs and ranges", "why_tests_cant": "that the search ends at all depends on the random stream, and a test covers one stream on one machine", "anchors": ["src/project.h: OptimizationParameters", "src/main.cpp: optimization_options, main", "src/predict.cpp: schedule, optimize"]}
