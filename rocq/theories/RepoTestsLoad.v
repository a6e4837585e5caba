(** * The unit tests test/load_agents.cpp and test/load_tasks.cpp of the
      repository, replayed in the model

    These examples are tests of the model, not proofs about the program:
    they show that the model gives the answers that the authors' own tests
    demand of the program.  A test text in YAML is replaced by the tree
    that yaml-cpp makes of it. *)

From Coq Require Import String List Bool Arith ZArith.
From Verif Require Import Base F32 ProjectModel YamlModel ValidationModel LoadModel.
Import ListNotations.
Local Open Scope string_scope.
Local Open Scope nat_scope.

(** The numbers that occur in the texts, as [Node::as<float>] reads them
    (config/agents.cpp:89). *)
Definition numbers (s : string) : option f32 :=
  if String.eqb s "0.8" then Some (f_div (f_of_Z 8) (f_of_Z 10))
  else if String.eqb s "1.8" then Some (f_div (f_of_Z 18) (f_of_Z 10))
  else if String.eqb s "1" then Some (f_of_Z 1)
  else if String.eqb s "1.0" then Some (f_of_Z 1)
  else if String.eqb s "2.0" then Some (f_of_Z 2)
  else if String.eqb s "-1.0" then Some (f_of_Z (-1))
  else None.

(** A comparison with a number of tenths; the tests ask for [Approx]
    (test/load_agents.cpp:286-290). *)
Definition tenths (z : Z) (x : f32) : bool := f_eq x (f_div (f_of_Z z) (f_of_Z 10)).

(** [REQUIRE_THROWS_AS(load_text(text), ValidationError)]
    (test/load_agents.cpp:20-22). *)
Definition rejected (r : loading project) : bool :=
  match r with Rejects _ => true | _ => false end.

(** The message of [REQUIRE_THROWS_MATCHES]
    (test/load_agents.cpp:225-228). *)
Definition complaint_of (r : loading project) : option string :=
  match r with Rejects e => Some (rejection_text e) | _ => None end.

(** What the [REQUIRE] lines look at when the text loads
    (test/load_agents.cpp:112-123). *)
Definition observe {A} (r : loading project) (f : project -> A) : option A :=
  match r with Loads p => Some (f p) | _ => None end.

(** A task of one group, for [can_work_on(agent, group)]
    (test/load_agents.cpp:148-149). *)
Definition in_group (g : nat) : task :=
  {| tk_name := "task"; tk_id := ""; tk_groups := [g]; tk_agent := None; tk_deps := [];
     tk_min := 1; tk_max := 1 |}.

(** ** test/load_agents.cpp *)

(** "no 'agents' section", test/load_agents.cpp:17-24. *)
Definition agents_no_agents_section : yaml :=
  Map [(Scalar "tasks", Seq [Map [(Scalar "name", Scalar "task1"); (Scalar "duration", Map [(Scalar
    "min", Scalar "1 day"); (Scalar "max", Scalar "3 days")])]])].
Example agents_no_agents_section_test : rejected (load numbers agents_no_agents_section) = true.
Proof. vm_compute. reflexivity. Qed.

(** "empty section", test/load_agents.cpp:26-37. *)
Definition agents_empty_section : yaml :=
  Map [(Scalar "tasks", Seq [Map [(Scalar "name", Scalar "task1"); (Scalar "duration", Map [(Scalar
    "min", Scalar "1 day"); (Scalar "max", Scalar "3 days")])]]); (Scalar "agents", Map [])].
Example agents_empty_section_test : rejected (load numbers agents_empty_section) = true.
Proof. vm_compute. reflexivity. Qed.

(** "section 'agents' has an invalid type", test/load_agents.cpp:39-50. *)
Definition agents_section_agents_has_an_invalid_type : yaml :=
  Map [(Scalar "tasks", Seq [Map [(Scalar "name", Scalar "task1"); (Scalar "duration", Map [(Scalar
    "min", Scalar "1 day"); (Scalar "max", Scalar "3 days")])]]); (Scalar "agents", Scalar "123")].
Example agents_section_agents_has_an_invalid_type_test : rejected (load numbers agents_section_agents_has_an_invalid_type) = true.
Proof. vm_compute. reflexivity. Qed.

(** "invalid agent spec", test/load_agents.cpp:52-64. *)
Definition agents_invalid_agent_spec : yaml :=
  Map [(Scalar "tasks", Seq [Map [(Scalar "name", Scalar "task1"); (Scalar "duration", Map [(Scalar
    "min", Scalar "1 day"); (Scalar "max", Scalar "3 days")])]]); (Scalar "agents", Map [(Scalar
    "agent 1", Scalar "123")])].
Example agents_invalid_agent_spec_test : rejected (load numbers agents_invalid_agent_spec) = true.
Proof. vm_compute. reflexivity. Qed.

(** "invalid group spec", test/load_agents.cpp:66-79. *)
Definition agents_invalid_group_spec : yaml :=
  Map [(Scalar "tasks", Seq [Map [(Scalar "name", Scalar "task1"); (Scalar "duration", Map [(Scalar
    "min", Scalar "1 day"); (Scalar "max", Scalar "3 days")])]]); (Scalar "agents", Map [(Scalar
    "agent 1", Map [(Scalar "groups", Scalar "123")])])].
Example agents_invalid_group_spec_test : rejected (load numbers agents_invalid_group_spec) = true.
Proof. vm_compute. reflexivity. Qed.

(** "extra attributes", test/load_agents.cpp:81-94. *)
Definition agents_extra_attributes : yaml :=
  Map [(Scalar "tasks", Seq [Map [(Scalar "name", Scalar "task1"); (Scalar "duration", Map [(Scalar
    "min", Scalar "1 day"); (Scalar "max", Scalar "3 days")])]]); (Scalar "agents", Map [(Scalar
    "agent 1", Map [(Scalar "asdf", Scalar "123")])])].
Example agents_extra_attributes_test : rejected (load numbers agents_extra_attributes) = true.
Proof. vm_compute. reflexivity. Qed.

(** "parse groups", test/load_agents.cpp:96-124. *)
Definition agents_parse_groups : yaml :=
  Map [(Scalar "tasks", Seq [Map [(Scalar "name", Scalar "task1"); (Scalar "duration", Map [(Scalar
    "min", Scalar "1 day"); (Scalar "max", Scalar "3 days")])]]); (Scalar "agents", Map [(Scalar
    "agent 1", Map [(Scalar "groups", Seq [Scalar "A"; Scalar "B"])]); (Scalar "agent 2", Map
    [(Scalar "groups", Seq [Scalar "A"; Scalar "C"])])])].
Example agents_parse_groups_test :
  observe (load numbers agents_parse_groups) (fun p =>
    (pr_groups p, length (pr_agents p), map ag_groups (pr_agents p))) =
  Some (["A"; "B"; "C"], 2, [[0; 1]; [0; 2]]).
Proof. vm_compute. reflexivity. Qed.

(** "universal agents", test/load_agents.cpp:126-149. *)
Definition agents_universal_agents : yaml :=
  Map [(Scalar "tasks", Seq [Map [(Scalar "name", Scalar "task1"); (Scalar "duration", Map [(Scalar
    "min", Scalar "1 day"); (Scalar "max", Scalar "3 days")])]]); (Scalar "agents", Map [(Scalar
    "agent 1", Map [(Scalar "groups", Seq [Scalar "A"; Scalar "B"])]); (Scalar "agent 2", Null)])].
Example agents_universal_agents_test :
  observe (load numbers agents_universal_agents) (fun p =>
    (map ag_groups (firstn 1 (pr_agents p)), map is_universal (skipn 1 (pr_agents p)),
     map (fun g => map (fun a => can_work_on a (in_group g)) (skipn 1 (pr_agents p))) [0; 1])) =
  Some ([[0; 1]], [true], [[true]; [true]]).
Proof. vm_compute. reflexivity. Qed.

(** "no groups", test/load_agents.cpp:151-165. *)
Definition agents_no_groups : yaml :=
  Map [(Scalar "tasks", Seq [Map [(Scalar "name", Scalar "task1"); (Scalar "duration", Map [(Scalar
    "min", Scalar "1 day"); (Scalar "max", Scalar "3 days")])]]); (Scalar "agents", Map [(Scalar
    "agent 1", Null); (Scalar "agent 2", Null)])].
Example agents_no_groups_test :
  observe (load numbers agents_no_groups) (fun p =>
    map ag_groups (pr_agents p)) =
  Some [[]; []].
Proof. vm_compute. reflexivity. Qed.

(** "agent ids", test/load_agents.cpp:167-183. *)
Definition agents_agent_ids : yaml :=
  Map [(Scalar "tasks", Seq [Map [(Scalar "name", Scalar "task1"); (Scalar "duration", Map [(Scalar
    "min", Scalar "1 day"); (Scalar "max", Scalar "3 days")])]]); (Scalar "agents", Map [(Scalar
    "agent 1", Null); (Scalar "agent 2", Null)])].
Example agents_agent_ids_test :
  observe (load numbers agents_agent_ids) (fun p =>
    map ag_id (pr_agents p)) =
  Some [0; 1].
Proof. vm_compute. reflexivity. Qed.

(** "invalid performance section", test/load_agents.cpp:185-198. *)
Definition agents_invalid_performance_section : yaml :=
  Map [(Scalar "tasks", Seq [Map [(Scalar "name", Scalar "task1"); (Scalar "duration", Map [(Scalar
    "min", Scalar "1 day"); (Scalar "max", Scalar "3 days")])]]); (Scalar "agents", Map [(Scalar
    "agent 1", Map [(Scalar "performance", Null)])])].
Example agents_invalid_performance_section_test : rejected (load numbers agents_invalid_performance_section) = true.
Proof. vm_compute. reflexivity. Qed.

(** "missing performance value", test/load_agents.cpp:200-214. *)
Definition agents_missing_performance_value : yaml :=
  Map [(Scalar "tasks", Seq [Map [(Scalar "name", Scalar "task1"); (Scalar "duration", Map [(Scalar
    "min", Scalar "1 day"); (Scalar "max", Scalar "3 days")])]]); (Scalar "agents", Map [(Scalar
    "agent 1", Map [(Scalar "performance", Map [(Scalar "min", Scalar "1.0")])])])].
Example agents_missing_performance_value_test : rejected (load numbers agents_missing_performance_value) = true.
Proof. vm_compute. reflexivity. Qed.

(** "invalid performance type, text", test/load_agents.cpp:216-232. *)
Definition agents_invalid_performance_type_text : yaml :=
  Map [(Scalar "tasks", Seq [Map [(Scalar "name", Scalar "task1"); (Scalar "duration", Map [(Scalar
    "min", Scalar "1 day"); (Scalar "max", Scalar "3 days")])]]); (Scalar "agents", Map [(Scalar
    "agent 1", Map [(Scalar "performance", Map [(Scalar "min", Scalar "text"); (Scalar "max", Scalar
    "text")])])])].
Example agents_invalid_performance_type_text_test :
  complaint_of (load numbers agents_invalid_performance_type_text) = Some "Agent ""agent 1"" has invalid performance.".
Proof. vm_compute. reflexivity. Qed.

(** "invalid performance type, dict", test/load_agents.cpp:234-250. *)
Definition agents_invalid_performance_type_dict : yaml :=
  Map [(Scalar "tasks", Seq [Map [(Scalar "name", Scalar "task1"); (Scalar "duration", Map [(Scalar
    "min", Scalar "1 day"); (Scalar "max", Scalar "3 days")])]]); (Scalar "agents", Map [(Scalar
    "agent 1", Map [(Scalar "performance", Map [(Scalar "min", Scalar "1"); (Scalar "max", Seq
    [Scalar "2"])])])])].
Example agents_invalid_performance_type_dict_test : rejected (load numbers agents_invalid_performance_type_dict) = true.
Proof. vm_compute. reflexivity. Qed.

(** "invalid performance values", test/load_agents.cpp:252-269. *)
Definition agents_invalid_performance_values : yaml :=
  Map [(Scalar "tasks", Seq [Map [(Scalar "name", Scalar "task1"); (Scalar "duration", Map [(Scalar
    "min", Scalar "1 day"); (Scalar "max", Scalar "3 days")])]]); (Scalar "agents", Map [(Scalar
    "agent 1", Map [(Scalar "performance", Map [(Scalar "min", Scalar "2.0"); (Scalar "max", Scalar
    "1.0")])])])].
Example agents_invalid_performance_values_test :
  complaint_of (load numbers agents_invalid_performance_values) = Some "The minimum performance of the agent ""agent 1"" is greater than maximum.".
Proof. vm_compute. reflexivity. Qed.

(** "parse performance", test/load_agents.cpp:271-292. *)
Definition agents_parse_performance : yaml :=
  Map [(Scalar "tasks", Seq [Map [(Scalar "name", Scalar "task1"); (Scalar "duration", Map [(Scalar
    "min", Scalar "1 day"); (Scalar "max", Scalar "3 days")])]]); (Scalar "agents", Map [(Scalar
    "agent 1", Map [(Scalar "performance", Map [(Scalar "min", Scalar "0.8"); (Scalar "max", Scalar
    "1.8")])]); (Scalar "agent 2", Null)])].
Example agents_parse_performance_test :
  observe (load numbers agents_parse_performance) (fun p =>
    map (fun l => map (fun a => (tenths (fst l) (perf_min (ag_perf a)), tenths (snd l) (perf_max (ag_perf a))))
     (pr_agents p)) [(8, 18); (10, 10)]%Z) =
  Some [[(true, true); (false, false)]; [(false, false); (true, true)]].
Proof. vm_compute. reflexivity. Qed.

(** "duplicate agents", test/load_agents.cpp:294-309. *)
Definition agents_duplicate_agents : yaml :=
  Map [(Scalar "tasks", Seq [Map [(Scalar "name", Scalar "task1"); (Scalar "duration", Map [(Scalar
    "min", Scalar "1 day"); (Scalar "max", Scalar "3 days")])]]); (Scalar "agents", Map [(Scalar
    "agent 1", Null); (Scalar "agent 1", Null)])].
Example agents_duplicate_agents_test :
  complaint_of (load numbers agents_duplicate_agents) = Some "Agent ""agent 1"" is specified more than once.".
Proof. vm_compute. reflexivity. Qed.

(** "duplicate agent sections", test/load_agents.cpp:311-325. *)
Definition agents_duplicate_agent_sections : yaml :=
  Map [(Scalar "tasks", Seq [Map [(Scalar "name", Scalar "task1"); (Scalar "duration", Map [(Scalar
    "min", Scalar "1 day"); (Scalar "max", Scalar "3 days")])]]); (Scalar "agents", Map [(Scalar
    "agent 1", Null)]); (Scalar "agents", Map [(Scalar "agent 2", Null)])].
Example agents_duplicate_agent_sections_test : rejected (load numbers agents_duplicate_agent_sections) = true.
Proof. vm_compute. reflexivity. Qed.

(** "exact performance", test/load_agents.cpp:327-342. *)
Definition agents_exact_performance : yaml :=
  Map [(Scalar "tasks", Seq [Map [(Scalar "name", Scalar "task1"); (Scalar "duration", Map [(Scalar
    "min", Scalar "1 day"); (Scalar "max", Scalar "3 days")])]]); (Scalar "agents", Map [(Scalar
    "agent 1", Map [(Scalar "performance", Scalar "1.0")])])].
Example agents_exact_performance_test :
  observe (load numbers agents_exact_performance) (fun p =>
    map (fun a => (tenths 10 (perf_min (ag_perf a)), tenths 10 (perf_max (ag_perf a)))) (pr_agents p)) =
  Some [(true, true)].
Proof. vm_compute. reflexivity. Qed.

(** "agent performance validation", test/load_agents.cpp:344-359. *)
Definition agents_agent_performance_validation : yaml :=
  Map [(Scalar "tasks", Seq [Map [(Scalar "name", Scalar "task1"); (Scalar "duration", Map [(Scalar
    "min", Scalar "1 day"); (Scalar "max", Scalar "3 days")])]]); (Scalar "agents", Map [(Scalar
    "agent 1", Map [(Scalar "performance", Scalar "-1.0")])])].
Example agents_agent_performance_validation_test :
  complaint_of (load numbers agents_agent_performance_validation) = Some "Agent ""agent 1"" can't have a negative performance value.".
Proof. vm_compute. reflexivity. Qed.

(** ** test/load_tasks.cpp *)

(** "no 'tasks' section", test/load_tasks.cpp:16-23. *)
Definition tasks_no_tasks_section : yaml :=
  Map [(Scalar "agents", Map [(Scalar "agent1", Null)])].
Example tasks_no_tasks_section_test : rejected (load numbers tasks_no_tasks_section) = true.
Proof. vm_compute. reflexivity. Qed.

(** "empty 'tasks' section", test/load_tasks.cpp:25-36. *)
Definition tasks_empty_tasks_section : yaml :=
  Map [(Scalar "agents", Map [(Scalar "agent1", Null)]); (Scalar "tasks", Null)].
Example tasks_empty_tasks_section_test : rejected (load numbers tasks_empty_tasks_section) = true.
Proof. vm_compute. reflexivity. Qed.

(** "empty array", test/load_tasks.cpp:38-49. *)
Definition tasks_empty_array : yaml :=
  Map [(Scalar "agents", Map [(Scalar "agent1", Null)]); (Scalar "tasks", Seq [])].
Example tasks_empty_array_test : rejected (load numbers tasks_empty_array) = true.
Proof. vm_compute. reflexivity. Qed.

(** "invalid 'tasks' format", test/load_tasks.cpp:51-62. *)
Definition tasks_invalid_tasks_format : yaml :=
  Map [(Scalar "agents", Map [(Scalar "agent1", Null)]); (Scalar "tasks", Scalar "123")].
Example tasks_invalid_tasks_format_test : rejected (load numbers tasks_invalid_tasks_format) = true.
Proof. vm_compute. reflexivity. Qed.

(** "a single task", test/load_tasks.cpp:64-84. *)
Definition tasks_a_single_task : yaml :=
  Map [(Scalar "agents", Map [(Scalar "agent1", Null)]); (Scalar "tasks", Seq [Map [(Scalar "name",
    Scalar "task 1"); (Scalar "duration", Map [(Scalar "min", Scalar "1 day"); (Scalar "max", Scalar
    "3 days")])]])].
Example tasks_a_single_task_test :
  observe (load numbers tasks_a_single_task) (fun p =>
    map (fun t => (tk_name t, tk_groups t, tk_min t, tk_max t)) (pr_tasks p)) =
  Some [("task 1", [], 86400%Z, 259200%Z)].
Proof. vm_compute. reflexivity. Qed.

(** "invalid task duration type", test/load_tasks.cpp:86-102. *)
Definition tasks_invalid_task_duration_type : yaml :=
  Map [(Scalar "agents", Map [(Scalar "agent1", Null)]); (Scalar "tasks", Seq [Map [(Scalar "name",
    Scalar "task 1"); (Scalar "duration", Map [(Scalar "min", Scalar "as"); (Scalar "max", Scalar
    "a")])]])].
Example tasks_invalid_task_duration_type_test :
  complaint_of (load numbers tasks_invalid_task_duration_type) = Some "Task ""task 1"" has invalid duration ""as"".".
Proof. vm_compute. reflexivity. Qed.

(** "invalid task duration", test/load_tasks.cpp:104-121. *)
Definition tasks_invalid_task_duration : yaml :=
  Map [(Scalar "agents", Map [(Scalar "agent1", Null)]); (Scalar "tasks", Seq [Map [(Scalar "name",
    Scalar "task 1"); (Scalar "duration", Map [(Scalar "min", Scalar "5 days"); (Scalar "max",
    Scalar "2 days")])]])].
Example tasks_invalid_task_duration_test :
  complaint_of (load numbers tasks_invalid_task_duration) = Some "Task ""task 1"" has min duration that is greater than max duration.".
Proof. vm_compute. reflexivity. Qed.

(** "missing task duration", test/load_tasks.cpp:123-135. *)
Definition tasks_missing_task_duration : yaml :=
  Map [(Scalar "agents", Map [(Scalar "agent1", Null)]); (Scalar "tasks", Seq [Map [(Scalar "name",
    Scalar "task 1")]])].
Example tasks_missing_task_duration_test : rejected (load numbers tasks_missing_task_duration) = true.
Proof. vm_compute. reflexivity. Qed.

(** "exact duration", test/load_tasks.cpp:137-153. *)
Definition tasks_exact_duration : yaml :=
  Map [(Scalar "agents", Map [(Scalar "agent1", Null)]); (Scalar "tasks", Seq [Map [(Scalar "name",
    Scalar "task 1"); (Scalar "duration", Scalar "3h")]])].
Example tasks_exact_duration_test :
  observe (load numbers tasks_exact_duration) (fun p =>
    map (fun t => (tk_min t, tk_max t)) (pr_tasks p)) =
  Some [(10800, 10800)]%Z.
Proof. vm_compute. reflexivity. Qed.

(** "valid group id", test/load_tasks.cpp:155-178. *)
Definition tasks_valid_group_id : yaml :=
  Map [(Scalar "agents", Map [(Scalar "agent1", Map [(Scalar "groups", Seq [Scalar "A"])])]);
    (Scalar "tasks", Seq [Map [(Scalar "name", Scalar "task 1"); (Scalar "group", Scalar "A");
    (Scalar "duration", Map [(Scalar "min", Scalar "1 day"); (Scalar "max", Scalar "2 days")])]])].
Example tasks_valid_group_id_test :
  observe (load numbers tasks_valid_group_id) (fun p =>
    map tk_groups (pr_tasks p)) =
  Some [[0]].
Proof. vm_compute. reflexivity. Qed.

(** "multiple groups", test/load_tasks.cpp:180-213. *)
Definition tasks_multiple_groups : yaml :=
  Map [(Scalar "agents", Map [(Scalar "agent1", Map [(Scalar "groups", Seq [Scalar "A"; Scalar "B";
    Scalar "C"])]); (Scalar "agent2", Map [(Scalar "groups", Seq [Scalar "A"])])]); (Scalar "tasks",
    Seq [Map [(Scalar "name", Scalar "task 1"); (Scalar "groups", Seq [Scalar "A"; Scalar "B"]);
    (Scalar "duration", Map [(Scalar "min", Scalar "1 day"); (Scalar "max", Scalar "2 days")])]])].
Example tasks_multiple_groups_test :
  observe (load numbers tasks_multiple_groups) (fun p =>
    (map tk_groups (pr_tasks p), map (fun a => map (can_work_on a) (pr_tasks p)) (pr_agents p))) =
  Some ([[0; 1]], [[true]; [false]]).
Proof. vm_compute. reflexivity. Qed.

(** "groups and group", test/load_tasks.cpp:215-240. *)
Definition tasks_groups_and_group : yaml :=
  Map [(Scalar "agents", Map [(Scalar "agent1", Map [(Scalar "groups", Seq [Scalar "A"; Scalar
    "B"])])]); (Scalar "tasks", Seq [Map [(Scalar "name", Scalar "task 1"); (Scalar "group", Scalar
    "A"); (Scalar "groups", Seq [Scalar "A"; Scalar "B"]); (Scalar "duration", Map [(Scalar "min",
    Scalar "1 day"); (Scalar "max", Scalar "2 days")])]])].
Example tasks_groups_and_group_test :
  complaint_of (load numbers tasks_groups_and_group) = Some "Task ""task 1"" must have at most one of: agent, group, groups.".
Proof. vm_compute. reflexivity. Qed.

(** "invalid groups format", test/load_tasks.cpp:242-262. *)
Definition tasks_invalid_groups_format : yaml :=
  Map [(Scalar "agents", Map [(Scalar "agent1", Map [(Scalar "groups", Seq [Scalar "A"; Scalar
    "B"])])]); (Scalar "tasks", Seq [Map [(Scalar "name", Scalar "task 1"); (Scalar "groups", Scalar
    "asdf"); (Scalar "duration", Map [(Scalar "min", Scalar "1 day"); (Scalar "max", Scalar
    "2 days")])]])].
Example tasks_invalid_groups_format_test : rejected (load numbers tasks_invalid_groups_format) = true.
Proof. vm_compute. reflexivity. Qed.

(** "invalid group in groups", test/load_tasks.cpp:264-285. *)
Definition tasks_invalid_group_in_groups : yaml :=
  Map [(Scalar "agents", Map [(Scalar "agent1", Map [(Scalar "groups", Seq [Scalar "A"; Scalar
    "B"])])]); (Scalar "tasks", Seq [Map [(Scalar "name", Scalar "task 1"); (Scalar "groups", Seq
    [Scalar "C"]); (Scalar "duration", Map [(Scalar "min", Scalar "1 day"); (Scalar "max", Scalar
    "2 days")])]])].
Example tasks_invalid_group_in_groups_test : rejected (load numbers tasks_invalid_group_in_groups) = true.
Proof. vm_compute. reflexivity. Qed.

(** "two tasks, one group", test/load_tasks.cpp:287-316. *)
Definition tasks_two_tasks_one_group : yaml :=
  Map [(Scalar "agents", Map [(Scalar "agent1", Map [(Scalar "groups", Seq [Scalar "A"])])]);
    (Scalar "tasks", Seq [Map [(Scalar "name", Scalar "task 1"); (Scalar "group", Scalar "A");
    (Scalar "duration", Map [(Scalar "min", Scalar "1 day"); (Scalar "max", Scalar "2 days")])]; Map
    [(Scalar "name", Scalar "task 2"); (Scalar "group", Scalar "A"); (Scalar "duration", Map
    [(Scalar "min", Scalar "1 day"); (Scalar "max", Scalar "2 days")])]])].
Example tasks_two_tasks_one_group_test :
  observe (load numbers tasks_two_tasks_one_group) (fun p =>
    map tk_groups (pr_tasks p)) =
  Some [[0]; [0]].
Proof. vm_compute. reflexivity. Qed.

(** "duplicate tasks", test/load_tasks.cpp:318-339. *)
Definition tasks_duplicate_tasks : yaml :=
  Map [(Scalar "agents", Map [(Scalar "agent1", Null)]); (Scalar "tasks", Seq [Map [(Scalar "name",
    Scalar "task 1"); (Scalar "duration", Map [(Scalar "min", Scalar "1 day"); (Scalar "max", Scalar
    "2 days")])]; Map [(Scalar "name", Scalar "task 1"); (Scalar "duration", Map [(Scalar "min",
    Scalar "1 day"); (Scalar "max", Scalar "2 days")])]])].
Example tasks_duplicate_tasks_test :
  observe (load numbers tasks_duplicate_tasks) (fun p =>
    map tk_name (pr_tasks p)) =
  Some ["task 1"; "task 1"].
Proof. vm_compute. reflexivity. Qed.

(** "duplicate attributes", test/load_tasks.cpp:341-364. *)
Definition tasks_duplicate_attributes : yaml :=
  Map [(Scalar "agents", Map [(Scalar "agent1", Map [(Scalar "groups", Seq [Scalar "A"])]); (Scalar
    "agent2", Map [(Scalar "groups", Seq [Scalar "B"])])]); (Scalar "tasks", Seq [Map [(Scalar
    "name", Scalar "task 1"); (Scalar "group", Scalar "A"); (Scalar "group", Scalar "B"); (Scalar
    "duration", Map [(Scalar "min", Scalar "1 day"); (Scalar "max", Scalar "3 days")])]])].
Example tasks_duplicate_attributes_test : rejected (load numbers tasks_duplicate_attributes) = true.
Proof. vm_compute. reflexivity. Qed.

(** "no suitable agents", test/load_tasks.cpp:366-387. *)
Definition tasks_no_suitable_agents : yaml :=
  Map [(Scalar "agents", Map [(Scalar "agent1", Map [(Scalar "groups", Seq [Scalar "A"])])]);
    (Scalar "tasks", Seq [Map [(Scalar "name", Scalar "task 1"); (Scalar "group", Scalar "B");
    (Scalar "duration", Map [(Scalar "min", Scalar "1 day"); (Scalar "max", Scalar "3 days")])]])].
Example tasks_no_suitable_agents_test : rejected (load numbers tasks_no_suitable_agents) = true.
Proof. vm_compute. reflexivity. Qed.

(** "task with id", test/load_tasks.cpp:389-405. *)
Definition tasks_task_with_id : yaml :=
  Map [(Scalar "agents", Map [(Scalar "agent1", Null)]); (Scalar "tasks", Seq [Map [(Scalar "name",
    Scalar "task 1"); (Scalar "id", Scalar "task_1"); (Scalar "duration", Scalar "1h")]])].
Example tasks_task_with_id_test :
  observe (load numbers tasks_task_with_id) (fun p =>
    map (fun t => (tk_id t, tk_name t)) (pr_tasks p)) =
  Some [("task_1", "task 1")].
Proof. vm_compute. reflexivity. Qed.

(** "empty id", test/load_tasks.cpp:407-423. *)
Definition tasks_empty_id : yaml :=
  Map [(Scalar "agents", Map [(Scalar "agent1", Null)]); (Scalar "tasks", Seq [Map [(Scalar "name",
    Scalar "task 1"); (Scalar "id", Scalar ""); (Scalar "duration", Scalar "1h")]])].
Example tasks_empty_id_test :
  complaint_of (load numbers tasks_empty_id) = Some "Task id for the task ""task 1"" can't be empty.".
Proof. vm_compute. reflexivity. Qed.

(** "missing name", test/load_tasks.cpp:425-438. *)
Definition tasks_missing_name : yaml :=
  Map [(Scalar "agents", Map [(Scalar "agent1", Null)]); (Scalar "tasks", Seq [Map [(Scalar "id",
    Scalar "hello"); (Scalar "duration", Scalar "1h")]])].
Example tasks_missing_name_test : rejected (load numbers tasks_missing_name) = true.
Proof. vm_compute. reflexivity. Qed.

(** "empty name", test/load_tasks.cpp:440-454. *)
Definition tasks_empty_name : yaml :=
  Map [(Scalar "agents", Map [(Scalar "agent1", Null)]); (Scalar "tasks", Seq [Map [(Scalar "id",
    Scalar "hello"); (Scalar "name", Scalar ""); (Scalar "duration", Scalar "1h")]])].
Example tasks_empty_name_test : rejected (load numbers tasks_empty_name) = true.
Proof. vm_compute. reflexivity. Qed.

(** "optional id", test/load_tasks.cpp:456-471. *)
Definition tasks_optional_id : yaml :=
  Map [(Scalar "agents", Map [(Scalar "agent1", Null)]); (Scalar "tasks", Seq [Map [(Scalar "name",
    Scalar "task 1"); (Scalar "duration", Scalar "1h")]])].
Example tasks_optional_id_test :
  observe (load numbers tasks_optional_id) (fun p =>
    map (fun t => (tk_id t, tk_name t)) (pr_tasks p)) =
  Some [("", "task 1")].
Proof. vm_compute. reflexivity. Qed.

(** "dedicated agent", test/load_tasks.cpp:473-496. *)
Definition tasks_dedicated_agent : yaml :=
  Map [(Scalar "agents", Map [(Scalar "agent1", Null); (Scalar "agent2", Null)]); (Scalar "tasks",
    Seq [Map [(Scalar "name", Scalar "task 1"); (Scalar "agent", Scalar "agent1"); (Scalar
    "duration", Scalar "1h")]])].
Example tasks_dedicated_agent_test :
  observe (load numbers tasks_dedicated_agent) (fun p =>
    (map tk_groups (pr_tasks p), map tk_agent (pr_tasks p),
     map (fun a => map (can_work_on a) (pr_tasks p)) (pr_agents p))) =
  Some ([[]], [Some 0], [[true]; [false]]).
Proof. vm_compute. reflexivity. Qed.

(** "dedicated agent and a group", test/load_tasks.cpp:498-521. *)
Definition tasks_dedicated_agent_and_a_group : yaml :=
  Map [(Scalar "agents", Map [(Scalar "agent1", Map [(Scalar "groups", Seq [Scalar "A"])]); (Scalar
    "agent2", Map [(Scalar "groups", Seq [Scalar "A"])])]); (Scalar "tasks", Seq [Map [(Scalar
    "name", Scalar "task 1"); (Scalar "agent", Scalar "agent1"); (Scalar "group", Scalar "A");
    (Scalar "duration", Scalar "1h")]])].
Example tasks_dedicated_agent_and_a_group_test :
  complaint_of (load numbers tasks_dedicated_agent_and_a_group) = Some "Task ""task 1"" must have at most one of: agent, group, groups.".
Proof. vm_compute. reflexivity. Qed.

(** "dedicated agent and subtasks", test/load_tasks.cpp:523-546. *)
Definition tasks_dedicated_agent_and_subtasks : yaml :=
  Map [(Scalar "agents", Map [(Scalar "agent1", Null); (Scalar "agent2", Null)]); (Scalar "tasks",
    Seq [Map [(Scalar "name", Scalar "task 1"); (Scalar "agent", Scalar "agent1"); (Scalar
    "duration", Scalar "1h"); (Scalar "subtasks", Seq [Map [(Scalar "name", Scalar "task 2");
    (Scalar "duration", Scalar "2h")]])]])].
Example tasks_dedicated_agent_and_subtasks_test :
  observe (load numbers tasks_dedicated_agent_and_subtasks) (fun p =>
    map tk_agent (pr_tasks p)) =
  Some [Some 0; None].
Proof. vm_compute. reflexivity. Qed.

(** "empty dedicated agent", test/load_tasks.cpp:548-563. *)
Definition tasks_empty_dedicated_agent : yaml :=
  Map [(Scalar "agents", Map [(Scalar "agent1", Null)]); (Scalar "tasks", Seq [Map [(Scalar "name",
    Scalar "task 1"); (Scalar "agent", Scalar ""); (Scalar "duration", Scalar "1h")]])].
Example tasks_empty_dedicated_agent_test :
  complaint_of (load numbers tasks_empty_dedicated_agent) = Some "Assigned agents name can't be empty.".
Proof. vm_compute. reflexivity. Qed.

(** "dedicated agent not found", test/load_tasks.cpp:565-580. *)
Definition tasks_dedicated_agent_not_found : yaml :=
  Map [(Scalar "agents", Map [(Scalar "agent1", Null)]); (Scalar "tasks", Seq [Map [(Scalar "name",
    Scalar "task 1"); (Scalar "agent", Scalar "asdf"); (Scalar "duration", Scalar "1h")]])].
Example tasks_dedicated_agent_not_found_test :
  complaint_of (load numbers tasks_dedicated_agent_not_found) = Some "Agent ""asdf"" doesn't exist.".
Proof. vm_compute. reflexivity. Qed.

(** "depends on single task", test/load_tasks.cpp:582-605. *)
Definition tasks_depends_on_single_task : yaml :=
  Map [(Scalar "agents", Map [(Scalar "agent1", Null)]); (Scalar "tasks", Seq [Map [(Scalar "name",
    Scalar "task 1"); (Scalar "id", Scalar "A"); (Scalar "duration", Scalar "1h")]; Map [(Scalar
    "name", Scalar "task 2"); (Scalar "depends_on", Scalar "A"); (Scalar "duration", Scalar
    "2h")]])].
Example tasks_depends_on_single_task_test :
  observe (load numbers tasks_depends_on_single_task) (fun p =>
    map (fun t => (tk_id t, tk_name t, tk_deps t)) (pr_tasks p)) =
  Some [("A", "task 1", []); ("", "task 2", [0])].
Proof. vm_compute. reflexivity. Qed.

(** "empty dependency id", test/load_tasks.cpp:607-623. *)
Definition tasks_empty_dependency_id : yaml :=
  Map [(Scalar "agents", Map [(Scalar "agent1", Null)]); (Scalar "tasks", Seq [Map [(Scalar "name",
    Scalar "task 1"); (Scalar "depends_on", Scalar ""); (Scalar "duration", Scalar "1h")]])].
Example tasks_empty_dependency_id_test :
  complaint_of (load numbers tasks_empty_dependency_id) = Some "Dependency id of the task ""task 1"" can't be empty.".
Proof. vm_compute. reflexivity. Qed.

(** "invalid dependency id", test/load_tasks.cpp:625-639. *)
Definition tasks_invalid_dependency_id : yaml :=
  Map [(Scalar "agents", Map [(Scalar "agent1", Null)]); (Scalar "tasks", Seq [Map [(Scalar "name",
    Scalar "task 1"); (Scalar "depends_on", Scalar "A"); (Scalar "duration", Scalar "1h")]])].
Example tasks_invalid_dependency_id_test : rejected (load numbers tasks_invalid_dependency_id) = true.
Proof. vm_compute. reflexivity. Qed.

(** "duplicate id", test/load_tasks.cpp:641-659. *)
Definition tasks_duplicate_id : yaml :=
  Map [(Scalar "agents", Map [(Scalar "agent1", Null)]); (Scalar "tasks", Seq [Map [(Scalar "name",
    Scalar "task 1"); (Scalar "id", Scalar "A"); (Scalar "duration", Scalar "1h")]; Map [(Scalar
    "name", Scalar "task 2"); (Scalar "id", Scalar "A"); (Scalar "duration", Scalar "1h")]])].
Example tasks_duplicate_id_test :
  complaint_of (load numbers tasks_duplicate_id) = Some "Duplicate task id ""A"".".
Proof. vm_compute. reflexivity. Qed.

(** "out of order dependencies", test/load_tasks.cpp:661-681. *)
Definition tasks_out_of_order_dependencies : yaml :=
  Map [(Scalar "agents", Map [(Scalar "agent1", Null)]); (Scalar "tasks", Seq [Map [(Scalar "name",
    Scalar "task 1"); (Scalar "depends_on", Scalar "B"); (Scalar "duration", Scalar "1h")]; Map
    [(Scalar "name", Scalar "task 2"); (Scalar "id", Scalar "B"); (Scalar "duration", Scalar
    "2h")]])].
Example tasks_out_of_order_dependencies_test :
  observe (load numbers tasks_out_of_order_dependencies) (fun p =>
    map tk_deps (pr_tasks p)) =
  Some [[1]; []].
Proof. vm_compute. reflexivity. Qed.

(** "multiple dependencies", test/load_tasks.cpp:683-710. *)
Definition tasks_multiple_dependencies : yaml :=
  Map [(Scalar "agents", Map [(Scalar "agent1", Null)]); (Scalar "tasks", Seq [Map [(Scalar "name",
    Scalar "task 1"); (Scalar "depends_on", Seq [Scalar "A"; Scalar "B"]); (Scalar "duration",
    Scalar "1h")]; Map [(Scalar "name", Scalar "task 2"); (Scalar "id", Scalar "B"); (Scalar
    "duration", Scalar "2h")]; Map [(Scalar "name", Scalar "task 3"); (Scalar "id", Scalar "A");
    (Scalar "duration", Scalar "3h")]])].
Example tasks_multiple_dependencies_test :
  observe (load numbers tasks_multiple_dependencies) (fun p =>
    map tk_deps (pr_tasks p)) =
  Some [[1; 2]; []; []].
Proof. vm_compute. reflexivity. Qed.

(** "dependency cycle", test/load_tasks.cpp:712-735. *)
Definition tasks_dependency_cycle : yaml :=
  Map [(Scalar "agents", Map [(Scalar "agent1", Null)]); (Scalar "tasks", Seq [Map [(Scalar "name",
    Scalar "task 1"); (Scalar "depends_on", Scalar "B"); (Scalar "id", Scalar "A"); (Scalar
    "duration", Scalar "1h")]; Map [(Scalar "name", Scalar "task 1"); (Scalar "depends_on", Scalar
    "C"); (Scalar "id", Scalar "B"); (Scalar "duration", Scalar "1h")]; Map [(Scalar "name", Scalar
    "task 2"); (Scalar "id", Scalar "C"); (Scalar "depends_on", Scalar "A"); (Scalar "duration",
    Scalar "3h")]])].
Example tasks_dependency_cycle_test : rejected (load numbers tasks_dependency_cycle) = true.
Proof. vm_compute. reflexivity. Qed.

(** "depends on itself", test/load_tasks.cpp:737-752. *)
Definition tasks_depends_on_itself : yaml :=
  Map [(Scalar "agents", Map [(Scalar "agent1", Null)]); (Scalar "tasks", Seq [Map [(Scalar "name",
    Scalar "task 1"); (Scalar "depends_on", Scalar "A"); (Scalar "id", Scalar "A"); (Scalar
    "duration", Scalar "1h")]])].
Example tasks_depends_on_itself_test : rejected (load numbers tasks_depends_on_itself) = true.
Proof. vm_compute. reflexivity. Qed.

(** "subtasks", test/load_tasks.cpp:754-775. *)
Definition tasks_subtasks : yaml :=
  Map [(Scalar "agents", Map [(Scalar "agent1", Null)]); (Scalar "tasks", Seq [Map [(Scalar "name",
    Scalar "task 1"); (Scalar "duration", Scalar "1h"); (Scalar "subtasks", Seq [Map [(Scalar
    "name", Scalar "task 2"); (Scalar "duration", Scalar "2h")]])]])].
Example tasks_subtasks_test :
  observe (load numbers tasks_subtasks) (fun p =>
    map (fun t => (tk_name t, tk_deps t)) (pr_tasks p)) =
  Some [("task 1", [1]); ("task 2", [])].
Proof. vm_compute. reflexivity. Qed.

(** "deep subtasks", test/load_tasks.cpp:777-828. *)
Definition tasks_deep_subtasks : yaml :=
  Map [(Scalar "agents", Map [(Scalar "agent1", Null)]); (Scalar "tasks", Seq [Map [(Scalar "name",
    Scalar "task 1"); (Scalar "duration", Scalar "1h"); (Scalar "subtasks", Seq [Map [(Scalar
    "name", Scalar "task 1.1"); (Scalar "duration", Scalar "2h"); (Scalar "subtasks", Seq [Map
    [(Scalar "name", Scalar "task 1.1.1"); (Scalar "duration", Scalar "2h")]; Map [(Scalar "name",
    Scalar "task 1.1.2"); (Scalar "id", Scalar "X"); (Scalar "duration", Scalar "2h")]])]; Map
    [(Scalar "name", Scalar "task 1.2"); (Scalar "duration", Scalar "2h"); (Scalar "subtasks", Seq
    [Map [(Scalar "name", Scalar "task 1.2.1"); (Scalar "duration", Scalar "2h")]; Map [(Scalar
    "name", Scalar "task 1.2.2"); (Scalar "depends_on", Scalar "X"); (Scalar "duration", Scalar
    "2h")]])]])]])].
Example tasks_deep_subtasks_test :
  observe (load numbers tasks_deep_subtasks) (fun p =>
    map (fun t => (tk_name t, tk_deps t)) (pr_tasks p)) =
  Some [("task 1", [1; 4]); ("task 1.1", [2; 3]); ("task 1.1.1", []); ("task 1.1.2", []);
        ("task 1.2", [5; 6]); ("task 1.2.1", []); ("task 1.2.2", [3])].
Proof. vm_compute. reflexivity. Qed.
