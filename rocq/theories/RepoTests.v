(** * Unit tests of the repository, replayed in the model

    These examples are tests of the model, not proofs about the program:
    they show that the model gives the answers that the authors' own tests
    (/repo/test) demand of the program.  The tests of the loader are in
    RepoTestsLoad.v, those of the simulation in RepoTestsSimulation.v.
    Tests of C++ type traits and of special member functions are left
    out; copies are the subject of Vector2DProps.v and BufferProps.v. *)

From Coq Require Import String List Bool Arith ZArith Ascii SpecFloat.
From Flocq Require Import BinarySingleNaN.
From Verif Require Import Base F32 ProjectModel ScheduleModel MutatorModel MakespanModel
  TemperatureModel RollingModel OptimizerModel HistogramModel DurationModel FormatModel YamlModel
  ValidationModel LoadModel JsonModel RandomModel SimulationModel
  RepoTestsLoad.
Import ListNotations.
Local Open Scope string_scope.
Local Open Scope nat_scope.

(** A literal of type [float] (test/stun/exp_curve_fitter.cpp:33-43). *)
Definition flt (m e : Z) : f32 := binary_normalize 24 128 eq_refl eq_refl mode_NE m e false.

(** The outcome of a computation, or nothing (no source counterpart). *)
Definition value {A B} (x : outcome A) (f : A -> B) : option B :=
  match x with Ok a => Some (f a) | _ => None end.

(** ** test/parse_duration.cpp *)

(** The texts that parse, test/parse_duration.cpp:11-22 and 29-31. *)
Example durations_parse :
  map (fun s => parse_duration (list_ascii_of_string s))
    ["123 s"; "123    s"; "123 seconds"; "123 h"; "1 h 15 minutes"; "1 h 1 s"; "01h15m"; "1 h 1 m 1 s"; "1h 1m 1s"; "1 min"; "5 mins"; "12 days 15s"; "5 min 1h"; "1h 5 min"; "1h and 5 min"] =
  map Parsed [123; 123; 123; 123 * 3600; 3600 + 15 * 60; 3600 + 1; 3600 + 15 * 60; 3600 + 60 + 1; 3600 + 60 + 1; 60; 5 * 60; 12 * 86400 + 15; 5 * 60 + 3600; 3600 + 5 * 60; 3600 + 5 * 60]%Z.
Proof. vm_compute. reflexivity. Qed.

(** The texts that do not, test/parse_duration.cpp:23-28 and 32-37. *)
Example durations_fail :
  map (fun s => parse_duration (list_ascii_of_string s)) [""; "asdf"; "-5 sec"; "s"] =
  repeat ParseError 4.
Proof. vm_compute. reflexivity. Qed.

(** ** test/cli/duration.cpp *)

(** "human duration", test/cli/duration.cpp:5-82. *)
Example humanize_texts :
  map (fun z => string_of_list_ascii (humanize z))
    [5; 15; 60 + 15; 60 + 50; 3600 + 15; 2 * 3600; 23 * 3600; 12 * 86400 + 3600 + 15; 35 * 86400; 70 * 86400; 0]%Z =
  ["a few seconds"; "15 seconds"; "about a minute"; "2 minutes"; "about an hour"; "2 hours"; "about a day"; "12 days"; "about a month"; "2 months"; "a few seconds"].
Proof. vm_compute. reflexivity. Qed.

(** "verbose duration", test/cli/duration.cpp:84-138. *)
Example verbose_texts :
  map (fun z => string_of_list_ascii (verbose z))
    [5; 60 + 15; 60 + 50; 3600 + 15; 12 * 86400 + 3600 + 15; 35 * 86400; 0]%Z =
  ["5s"; "1m 15s"; "1m 50s"; "1h 15s"; "12d 1h 15s"; "1mo 4d 13h 30m 54s"; "0s"].
Proof. vm_compute. reflexivity. Qed.

(** ** test/histogram.cpp and test/histogram/histogram.cpp *)

(** A histogram of some values (test/histogram.cpp:13-21). *)
Definition histogram_of (bin_size : Z) (l : list Z) : outcome histogram :=
  h <- hist_new bin_size ;; hist_run h (map Add l).

(** "Histogram basic operations", test/histogram.cpp:5-49. *)
Example histogram_basic :
  value (h <- histogram_of 40 [1; 43; 44; 45; 45; 80; 80]%Z ;; l <- hist_iterate h ;; Ok (h, l))
    (fun r => (hist_size (fst r), h_bin_size (fst r), firstn 2 (snd r))) =
  Some (3, 40%Z, [{| b_count := 1; b_low := 0; b_middle := 20; b_high := 40 |};
                  {| b_count := 4; b_low := 40; b_middle := 60; b_high := 80 |}]) /\
  value (h <- histogram_of 40 [1; 43; 44; 45; 45; 80; 80]%Z ;; l <- hist_iterate h ;; sum_bins f_zero l)
    (fun x => f_eq x (f_of_Z 7)) = Some true.
Proof. vm_compute. split; reflexivity. Qed.

(** "granularity", test/histogram/histogram.cpp:42-52. *)
Example granularity_test :
  map granularity [3600; 4 * 3600; 5 * 3600; 12 * 86400; 13 * 86400]%Z = map (@Ok Z) [60; 60; 3600; 3600; 86400]%Z.
Proof. vm_compute. reflexivity. Qed.

(** "regular", test/histogram/histogram.cpp:91-112. *)
Example stats_regular :
  (h <- histogram_of 10 [1; 101; 101; 201; 201; 201; 301; 301; 401]%Z ;; stats h) =
  Ok {| p25 := 105; p50 := 205; p75 := 305; p95 := 405; p99 := 405 |}.
Proof. vm_compute. reflexivity. Qed.

(** "rounding bug", test/histogram/histogram.cpp:114-127. *)
Example stats_rounding :
  (h <- histogram_of 11 [1]%Z ;; stats h) = Ok {| p25 := 5; p50 := 5; p75 := 5; p95 := 5; p99 := 5 |}.
Proof. vm_compute. reflexivity. Qed.

(** ** test/project.cpp *)

(** A new task and a new agent (test/project.cpp:64-65). *)
Definition plain_task (groups : list nat) : task :=
  {| tk_name := ""; tk_id := ""; tk_groups := groups; tk_agent := None; tk_deps := [];
     tk_min := 1; tk_max := 3 |}.
(** test/project.cpp:64-65 *)
Definition plain_agent (groups : list nat) : agent :=
  {| ag_id := 0; ag_name := ""; ag_groups := groups;
     ag_perf := {| perf_min := f_one; perf_max := f_one |} |}.
(** test/project.cpp:61-65 *)
Definition plain_project (agent_groups task_groups : list nat) : project :=
  {| pr_groups := ["Test Group"]; pr_agents := [plain_agent agent_groups];
     pr_tasks := [plain_task task_groups] |}.

(** "configuration utility functions", test/project.cpp:59-79. *)
Example project_utilities :
  (has_universal_agents (plain_project [] []), can_work_on (plain_agent []) (plain_task [])) = (Ok true, true) /\
  (has_universal_agents (plain_project [0] []), can_work_on (plain_agent [0]) (plain_task [])) = (Ok false, false) /\
  can_work_on (plain_agent [0]) (plain_task [0]) = true.
Proof. vm_compute. repeat split; reflexivity. Qed.

(** "agent utility functions", test/project.cpp:81-93. *)
Example agent_utilities :
  (is_universal (plain_agent []), can_work_on (plain_agent []) (plain_task [0])) = (true, true) /\
  (is_universal (plain_agent [1]), can_work_on (plain_agent [1]) (plain_task [0]),
   can_work_on (plain_agent [1]) (plain_task [1])) = (false, false, true).
Proof. vm_compute. repeat split; reflexivity. Qed.

(** "agent member functions" and "task member functions",
    test/project.cpp:95-113. *)
Example averages :
  value (perf_average {| perf_min := f_one; perf_max := f_one |}) (fun x => f_eq x f_one) = Some true /\
  value (perf_average {| perf_min := (flt (13421773) (-28)); perf_max := (flt (5033165) (-25)) |})
    (fun x => f_eq x (flt (13421773) (-27))) = Some true /\
  duration_average (plain_task []) = Ok 2%Z.
Proof. vm_compute. repeat split; reflexivity. Qed.

(** ** test/stun/makespan.cpp *)

(** [make_test_schedule_params], test/stun/makespan.cpp:10-32, for the
    first [n] tasks and agents (test/stun/makespan.cpp:62-64). *)
Definition makespan_params (n : nat) : params :=
  {| sp_perf := firstn n [f_of_Z 1; f_of_Z 2; f_of_Z 3]; sp_dur := firstn n [f_of_Z 1; f_of_Z 2; f_of_Z 3];
     sp_agents := [[0; 1]; [0; 1]; [0; 1]]; sp_deps := [[]; [0]; [1]]; sp_mult := f_one |}.

(** test/stun/makespan.cpp:57-60 *)
Definition test_schedule : list item := [Item 0 0; Item 1 1; Item 2 2].

(** "Makespan special member functions" and "Makespan estimation",
    test/stun/makespan.cpp:52-75 and 126-136. *)
Example makespan_estimation :
  value (makespan (makespan_params 3) test_schedule) (fun x => f_eq x (f_of_Z 3)) = Some true /\
  value (makespan (makespan_params 2) (firstn 2 test_schedule)) (fun x => f_eq x (f_of_Z 2)) = Some true.
Proof. vm_compute. split; reflexivity. Qed.

(** ** test/stun/mutate.cpp *)

(** The parameters of the tests, with the generator of the program
    (test/stun/mutate.cpp). *)
Definition mutate_params (agents deps : list (list nat)) : params :=
  {| sp_perf := [f_of_Z 1; f_of_Z 2; f_of_Z 3]; sp_dur := [f_of_Z 1; f_of_Z 2; f_of_Z 3];
     sp_agents := agents; sp_deps := deps; sp_mult := f_one |}.

(** [n] mutations one after the other (test/stun/mutate.cpp:36-200). *)
Fixpoint mutations (n : nat) (p : params) (g : generator) (s : list item) : outcome (list item * generator) :=
  match n with
  | O => Ok (s, g)
  | S n' => r <- mutate_random 9 p g s ;; mutations n' p (snd r) (fst r)
  end.

(** The schedule after [n] mutations with a generator made from a seed
    (test/stun/mutate.cpp:36-200). *)
Definition mutated (n : nat) (seed : Z) (p : params) (s : list item) : outcome (list item) :=
  r <- mutations n p (seeded seed 1442695040888963407) s ;; Ok (fst r).

(** The schedules that the tests expect from the generator of the PCG
    library and the distribution of Boost after 1 and after 101
    mutations. *)
Definition free_agents : list (list nat) := [[0; 1; 2]; [0; 1; 2]; [0; 1; 2]].

Example mutate_no_dependencies :
  mutated 1 0 (mutate_params free_agents [[]; []; []]) test_schedule = Ok [Item 0 0; Item 2 1; Item 1 1] /\
  mutated 101 0 (mutate_params free_agents [[]; []; []]) test_schedule = Ok [Item 1 2; Item 0 2; Item 2 2].
Proof. vm_compute. split; reflexivity. Qed.

Example mutate_dependencies :
  mutated 1 1 (mutate_params free_agents [[]; [0]; [1]]) test_schedule = Ok [Item 0 0; Item 1 0; Item 2 2] /\
  mutated 101 1 (mutate_params free_agents [[]; [0]; [1]]) test_schedule = Ok [Item 0 0; Item 1 0; Item 2 1].
Proof. vm_compute. split; reflexivity. Qed.

Example mutate_single_task :
  mutated 1 0 (mutate_params [[0; 1; 2]] [[]]) [Item 0 0] = Ok [Item 0 2] /\
  mutated 101 0 (mutate_params [[0; 1; 2]] [[]]) [Item 0 0] = Ok [Item 0 0].
Proof. vm_compute. split; reflexivity. Qed.

Example mutate_limited_agents :
  mutated 1 0 (mutate_params [[0]; [1]; [2]] [[]; []; []]) test_schedule = Ok [Item 0 0; Item 2 2; Item 1 1] /\
  mutated 101 0 (mutate_params [[0]; [1]; [2]] [[]; []; []]) test_schedule = Ok [Item 2 2; Item 1 1; Item 0 0].
Proof. vm_compute. split; reflexivity. Qed.

(** ** test/stun/schedule_params.cpp *)

(** "initial schedule", test/stun/schedule_params.cpp:267-294. *)
Example initial_schedule_test :
  initial_schedule
    {| sp_perf := repeat f_one 3; sp_dur := repeat f_one 6; sp_agents := [[0]; [1]; [2]; [0]; [1]; [2]];
       sp_deps := [[1]; [2]; [3]; [4]; [5]; []]; sp_mult := f_one |} =
  Ok [Item 5 2; Item 4 1; Item 3 0; Item 2 2; Item 1 1; Item 0 0].
Proof. vm_compute. reflexivity. Qed.

(** The project of test/stun/schedule_params.cpp:285-300. *)
Definition params_project : yaml :=
  Map [(Scalar "agents", Map [(Scalar "Bob", Map [(Scalar "performance", Map [(Scalar "min", Scalar
    "0.5"); (Scalar "max", Scalar "1.5")])]); (Scalar "Jack", Map [(Scalar "groups", Seq [Scalar
    "A"])])]); (Scalar "tasks", Seq [Map [(Scalar "name", Scalar "Task 1"); (Scalar "duration",
    Scalar "1h"); (Scalar "id", Scalar "1"); (Scalar "group", Scalar "A")]; Map [(Scalar "name",
    Scalar "Task 2"); (Scalar "duration", Scalar "1h"); (Scalar "depends_on", Scalar "1")]])].

(** The numbers of this text (config/agents.cpp:89). *)
Definition halves (s : string) : option f32 :=
  if String.eqb s "0.5" then Some (f_div f_one (f_of_Z 2))
  else if String.eqb s "1.5" then Some (f_div (f_of_Z 3) (f_of_Z 2))
  else None.

(** The parameters of a loaded text (test/stun/schedule_params.cpp:319-321). *)
Definition params_of (y : yaml) : outcome params :=
  match load halves y with Loads p => to_schedule_params p | _ => Broken end.

(** "ScheduleParams from Project",
    test/stun/schedule_params.cpp:296-339. *)
Example params_from_project :
  value (params_of params_project)
    (fun p => (map (f_eq f_one) (sp_perf p), map (f_eq f_one) (sp_dur p), map (@length nat) (sp_agents p), sp_deps p)) =
  Some ([true; true], [true; true], [2; 1], [[]; [0]]).
Proof. vm_compute. reflexivity. Qed.

(** ** test/stun/exp_curve_fitter.cpp *)

(** The logarithms of the numbers of the test, rounded to single
    precision, and that of 0, as [std::log] returns them. *)
Definition logarithms : list (f32 * f32) :=
  [(f_zero, B754_infinity true);
   ((flt (5964097) (-29)), (flt (-9) (-1)));
   ((flt (4916567) (-28)), (flt (-4) (0)));
   ((flt (16212097) (-29)), (flt (-7) (-1)));
   ((flt (6682307) (-27)), (flt (-3) (0)));
   ((flt (5508631) (-26)), (flt (-5) (-1)));
   ((flt (9082197) (-26)), (flt (-2) (0)));
   ((flt (3743503) (-24)), (flt (-3) (-1)));
   ((flt (6171993) (-24)), (flt (-1) (0)));
   ((flt (1271987) (-21)), (flt (-1) (-1)));
   ((flt (1) (0)), f_zero)].

(** [std::log] on these numbers.  Instead of [std::exp], the identity: the
    test compares logarithms. *)
Definition log_oracles : oracles :=
  {| or_exp := fun x => x;
     or_log := fun x => match find (fun l => f_eq (fst l) x) logarithms with Some l => snd l | None => B754_nan end;
     or_mean := fun _ _ => f_zero |}.

(** [fit(x, y)] for the points of test/stun/exp_curve_fitter.cpp:33-43: the
    logarithm of the value returned for each, and the last state. *)
Fixpoint fits (c : curve) (x : Z) (l : list f32) : outcome (list f32 * curve) :=
  match l with
  | [] => Ok ([], c)
  | y :: l' =>
      r <- curve_add log_oracles c (f_of_Z x) y ;;
      rs <- fits (snd r) (x + 1) l' ;;
      Ok (fst r :: fst rs, snd rs)
  end.

(** [Approx] of Catch2 on the exponentials of two numbers: they differ by
    less than a hundred thousandth (test/stun/exp_curve_fitter.cpp:37). *)
Definition near (x y : f32) : bool :=
  f_lt (f_max (f_sub x y) (f_sub y x)) (f_div f_one (f_of_Z 100000)).

(** "ExpCurveFitter basic operations",
    test/stun/exp_curve_fitter.cpp:23-54: the values at 5 and 10, and
    afterwards those at 10, 0 and 1. *)
Example curve_fitter_test :
  value (fits curve_new 1 (map fst (tl logarithms)))
    (fun r => map (fun p => near (fst p) (snd p))
      [(nth 4 (fst r) f_zero, (flt (-5) (-1))); (nth 9 (fst r) f_zero, f_zero);
       (curve_at log_oracles (snd r) (f_of_Z 10), f_zero);
       (curve_at log_oracles (snd r) f_zero, f_of_Z (-5));
       (curve_at log_oracles (snd r) f_one, (flt (-9) (-1)))]) =
  Some [true; true; true; true; true].
Proof. vm_compute. reflexivity. Qed.

(** [fit(0.F, 0.F) == Approx(0.)], test/stun/exp_curve_fitter.cpp:28 and
    53. *)
Example curve_fitter_zero :
  value (curve_add log_oracles curve_new f_zero f_zero) (fun r => f_eq (fst r) f_zero) = Some true.
Proof. vm_compute. reflexivity. Qed.

(** ** test/stun/temperature.cpp *)

(** The temperature of test/stun/temperature.cpp:29-32. *)
Definition test_temperature : outcome temperature := temperature_new (flt (8589935) (-33)) 5 64.

(** Boost's rolling mean (stun/temperature.cpp:47-51). *)
Definition mean_oracles : oracles :=
  with_rolling {| or_exp := fun x => x; or_log := fun x => x; or_mean := fun _ _ => f_zero |}.

(** "Temperature update", test/stun/temperature.cpp:24-46. *)
Example temperature_test :
  value (t <- test_temperature ;; temperature_run mean_oracles t (repeat f_one 10))
    (fun t => (f_eq (average_stun mean_oracles t) f_one, f_lt f_one (tp_value t))) = Some (true, true) /\
  value (t <- test_temperature ;; temperature_run mean_oracles t (repeat f_one 10 ++ repeat f_zero 1000))
    (fun t => (f_lt (average_stun mean_oracles t) (flt (8589935) (-33)), f_lt (tp_value t) f_one)) = Some (true, true).
Proof. vm_compute. split; reflexivity. Qed.

(** "copy assignment", test/stun/temperature.cpp:57-70. *)
Example temperature_hot :
  value (t <- test_temperature ;; temperature_run mean_oracles t (repeat (f_of_Z 1000) 10))
    (fun t => f_lt (f_of_Z 2) (tp_value t)) = Some true.
Proof. vm_compute. reflexivity. Qed.

(** ** test/cli/predict.cpp and test/cli/schedule.cpp *)

(** "histogram stats" and "histogram", test/cli/predict.cpp:11-44. *)
Example json_prediction :
  stats_json {| p25 := 1; p50 := 2; p75 := 3; p95 := 4; p99 := 5 |} =
  {| jt_p25 := 1; jt_p50 := 2; jt_p75 := 3; jt_p95 := 4; jt_p99 := 5 |} /\
  (h <- histogram_of 10 [50; 60; 60; 60; 70; 90; 90]%Z ;; histogram_json h) =
  Ok {| jh_bin_size := 10; jh_bins := [(50, 1); (60, 3); (70, 1); (90, 2)]%Z |}.
Proof. vm_compute. split; reflexivity. Qed.

(** The texts of test/cli/schedule.cpp:11-16 and 38-56. *)
Definition basic_project : yaml :=
  Map [(Scalar "agents", Map [(Scalar "agent1", Null)]); (Scalar "tasks", Seq [Map [(Scalar "name",
    Scalar "task 1"); (Scalar "duration", Scalar "1h")]])].
(** test/cli/schedule.cpp:38-56 *)
Definition advanced_project : yaml :=
  Map [(Scalar "agents", Map [(Scalar "agent1", Null); (Scalar "agent2", Null)]); (Scalar "tasks",
    Seq [Map [(Scalar "name", Scalar "task 1"); (Scalar "duration", Scalar "1h"); (Scalar "id",
    Scalar "A")]; Map [(Scalar "name", Scalar "task 2"); (Scalar "duration", Scalar "1h"); (Scalar
    "depends_on", Scalar "A"); (Scalar "id", Scalar "B")]; Map [(Scalar "name", Scalar "task 3");
    (Scalar "duration", Scalar "1h"); (Scalar "depends_on", Scalar "B"); (Scalar "id", Scalar "C")];
    Map [(Scalar "name", Scalar "task 4"); (Scalar "duration", Scalar "1h"); (Scalar "depends_on",
    Scalar "C")]])].

(** [to_json] for a loaded text (test/cli/schedule.cpp:18-22). *)
Definition json_of (y : yaml) (s : list item) (makespan : Z) : outcome json_result :=
  match load halves y with Loads p => schedule_json p s makespan | _ => Broken end.

(** One object of the array "tasks" (test/cli/schedule.cpp:76-80). *)
Definition entry (task agent : string) (priority : nat) (duration start : Z) : json_item :=
  {| ji_task := task; ji_agent := agent; ji_priority := priority; ji_duration := duration; ji_start := start |}.

(** "basic schedule", test/cli/schedule.cpp:8-34. *)
Example json_basic_schedule :
  json_of basic_project [Item 0 0] 3600 =
  Ok {| jr_makespan := 3600; jr_tasks := [entry "task 1" "agent1" 0 3600 0] |}.
Proof. vm_compute. reflexivity. Qed.

(** "advanced schedule", test/cli/schedule.cpp:36-98. *)
Example json_advanced_schedule :
  json_of advanced_project [Item 0 0; Item 1 1; Item 2 1; Item 3 0] 3600 =
  Ok {| jr_makespan := 3600;
        jr_tasks := [entry "task 1" "agent1" 0 3600 0; entry "task 2" "agent2" 0 3600 3600;
                     entry "task 3" "agent2" 1 3600 7200; entry "task 4" "agent1" 1 3600 10800] |}.
Proof. vm_compute. reflexivity. Qed.

(** ** test/validation.cpp *)

(** The text of the error of a schema, if there is one
    (test/validation.cpp:80-85). *)
Definition schema_error (c : check) (y : yaml) : option (option string) :=
  value (c y "") (option_map message_text).

(** "basic map", test/validation.cpp:11-32. *)
Example schema_map_basic :
  schema_error
  (attributes [Required "map" (attributes [Required "val1" scalar; Required "val2" scalar])])
  (Map [(Scalar "map", Map [(Scalar "val1", Scalar "1"); (Scalar "val2", Scalar "2")])]) =
  Some None.
Proof. vm_compute. reflexivity. Qed.

(** "implicit required", test/validation.cpp:34-57. *)
Example schema_map_implicit :
  schema_error
  (attributes [Required "map" (attributes [Required "val1" scalar; Required "val2" scalar; Optional
    "val3" scalar])])
  (Map [(Scalar "map", Map [(Scalar "val1", Scalar "1"); (Scalar "val2", Scalar "2"); (Scalar
    "val3", Scalar "3")])]) =
  Some None.
Proof. vm_compute. reflexivity. Qed.

(** "basic map with extra arg", test/validation.cpp:59-86. *)
Example schema_map_extra :
  schema_error
  (attributes [Required "map" (attributes [Required "val1" scalar; Required "val2" scalar])])
  (Map [(Scalar "map", Map [(Scalar "val1", Scalar "1"); (Scalar "val2", Scalar "2"); (Scalar
    "val3", Scalar "3")])]) =
  Some (Some "Unexpected attribute ""val3"" in ""map"".").
Proof. vm_compute. reflexivity. Qed.

(** "empty attributes", test/validation.cpp:88-112. *)
Example schema_map_empty_attribute :
  schema_error
  (attributes [Required "foobar" (attributes [Required "val1" scalar])])
  (Map [(Scalar "foobar", Map [(Scalar "val1", Scalar "3"); (Null, Scalar "3")])]) =
  Some (Some "Empty attribute in ""foobar"".").
Proof. vm_compute. reflexivity. Qed.

(** "map values", test/validation.cpp:114-134. *)
Example schema_map_values :
  schema_error
  (attributes [Required "map" (values scalar)])
  (Map [(Scalar "map", Map [(Scalar "val1", Scalar "1"); (Scalar "val2", Scalar "2"); (Scalar
    "val3", Scalar "3")])]) =
  Some None.
Proof. vm_compute. reflexivity. Qed.

(** "first variant", test/validation.cpp:153-166. *)
Example schema_any_of_first :
  schema_error
  (attributes [Required "map" (any_of (attributes [Required "val3" (attributes [Required "val1"
    scalar; Required "val2" scalar])]) (attributes [Required "val3" scalar]))])
  (Map [(Scalar "map", Map [(Scalar "val3", Map [(Scalar "val1", Scalar "1"); (Scalar "val2", Scalar
    "2")])])]) =
  Some None.
Proof. vm_compute. reflexivity. Qed.

(** "second variant", test/validation.cpp:168-178. *)
Example schema_any_of_second :
  schema_error
  (attributes [Required "map" (any_of (attributes [Required "val3" (attributes [Required "val1"
    scalar; Required "val2" scalar])]) (attributes [Required "val3" scalar]))])
  (Map [(Scalar "map", Map [(Scalar "val3", Scalar "3")])]) =
  Some None.
Proof. vm_compute. reflexivity. Qed.

(** "no attributes", test/validation.cpp:180-190. *)
Example schema_any_of_none :
  schema_error
  (attributes [Required "map" (any_of (attributes [Required "val3" (attributes [Required "val1"
    scalar; Required "val2" scalar])]) (attributes [Required "val3" scalar]))])
  (Map [(Scalar "map", Null)]) =
  Some (Some """map"" is missing a ""val3"" attribute.").
Proof. vm_compute. reflexivity. Qed.

(** "extra args", test/validation.cpp:192-209. *)
Example schema_any_of_extra :
  schema_error
  (attributes [Required "map" (any_of (attributes [Required "val3" (attributes [Required "val1"
    scalar; Required "val2" scalar])]) (attributes [Required "val3" scalar]))])
  (Map [(Scalar "map", Map [(Scalar "val3", Scalar "3"); (Scalar "val2", Scalar "2")])]) =
  Some (Some "Unexpected attribute ""val2"" in ""map"".").
Proof. vm_compute. reflexivity. Qed.

(** "deep nesting", test/validation.cpp:224-241. *)
Example schema_nested_deep :
  schema_error
  (attributes [Required "first" (attributes [Required "second" (attributes [Required "third"
    scalar])])])
  (Map [(Scalar "first", Map [(Scalar "second", Map [(Scalar "third", Map [(Scalar "error", Scalar
    "123")])])])]) =
  Some (Some """first.second.third"" has invalid type.").
Proof. vm_compute. reflexivity. Qed.

(** "shallow", test/validation.cpp:243-258. *)
Example schema_nested_shallow :
  schema_error
  (attributes [Required "first" (attributes [Required "second" (attributes [Required "third"
    scalar])])])
  (Map [(Scalar "first", Map [(Scalar "a", Scalar "123")])]) =
  Some (Some "Unexpected attribute ""a"" in ""first"".").
Proof. vm_compute. reflexivity. Qed.

(** "invalid type", test/validation.cpp:268-281. *)
Example schema_attr_type :
  schema_error
  (attributes [Required "attr" scalar])
  (Map [(Scalar "attr", Seq [])]) =
  Some (Some """attr"" has invalid type.").
Proof. vm_compute. reflexivity. Qed.

(** "empty", test/validation.cpp:283-296. *)
Example schema_attr_empty :
  schema_error
  (attributes [Required "attr" scalar])
  (Map [(Scalar "attr", Null)]) =
  Some (Some """attr"" can't be empty.").
Proof. vm_compute. reflexivity. Qed.

(** "empty attribute name", test/validation.cpp:298-311. *)
Example schema_attr_no_name :
  schema_error
  (attributes [Required "attr" scalar])
  (Map [(Null, Scalar "hello")]) =
  Some (Some "Empty attribute in """".").
Proof. vm_compute. reflexivity. Qed.

(** ** test/functional/suite.py *)

(** test/functional/tasks.yml and test/functional/invalid.yml. *)
Definition functional_tasks : yaml :=
  Map [(Scalar "agents", Map [(Scalar "Agent", Map [(Scalar "performance", Map [(Scalar "min",
    Scalar "0.52"); (Scalar "max", Scalar "0.76")])])]); (Scalar "tasks", Seq [Map [(Scalar "name",
    Scalar "Task"); (Scalar "duration", Map [(Scalar "min", Scalar "20 minutes"); (Scalar "max",
    Scalar "33 minutes")])]])].
(** test/functional/invalid.yml *)
Definition functional_invalid : yaml :=
  Map [(Scalar "agents", Map [(Scalar "Agent", Map [(Scalar "performance", Map [(Scalar "min",
    Scalar "0.52"); (Scalar "max", Scalar "0.76")])])]); (Scalar "tasks", Map [(Scalar "duration",
    Map [(Scalar "min", Scalar "20 minutes"); (Scalar "max", Scalar "33 minutes")])])].

(** The numbers of these files (config/agents.cpp:89). *)
Definition percents (s : string) : option f32 :=
  if String.eqb s "0.52" then Some (flt (1090519) (-21))
  else if String.eqb s "0.76" then Some (flt (3187671) (-22))
  else None.

(** The makespan of the first schedule in seconds (predict.cpp:28-38): as
    there is one task and one agent, there is no other schedule. *)
Definition first_makespan (p : project) : outcome Z :=
  q <- to_schedule_params p ;;
  l <- initial_schedule q ;;
  m <- makespan q l ;;
  to_rep (f_mul m (sp_mult q)).

(** [test_schedule], [test_run], [test_verbose] and the optimization log,
    test/functional/suite.py:108-210, 340-370 and 445. *)
Example functional_schedule :
  match load percents functional_tasks with
  | Loads p =>
      value (z <- first_makespan p ;; l <- (q <- to_schedule_params p ;; initial_schedule q) ;;
             j <- schedule_json p l z ;; Ok (z, j))
        (fun r => (snd r, string_of_list_ascii (humanize (fst r)), string_of_list_ascii (verbose (fst r))))
  | _ => None
  end =
  Some ({| jr_makespan := 2484; jr_tasks := [entry "Task" "Agent" 0 2484 0] |}, "about an hour", "41m 24s").
Proof. vm_compute. reflexivity. Qed.

(** [test_invalid_yaml], test/functional/suite.py:230-242. *)
Example functional_invalid_file :
  complaint_of (load percents functional_invalid) = Some """tasks"" is expected to be a sequence.".
Proof. vm_compute. reflexivity. Qed.
