(** * Model of src/config/load.cpp, agents.cpp and tasks.cpp

    The loader reads a YAML tree; reading YAML text is yaml-cpp's. *)

From Coq Require Import String List Bool Arith ZArith Ascii.
From Verif Require Import Base F32 ProjectModel YamlModel ValidationModel DurationModel.
Import ListNotations.
Local Open Scope string_scope.
Local Open Scope nat_scope.

(** The validation errors, exceptions.h:10-58. *)
Inductive rejection :=
| SchemaError (m : message)
| CantBeEmpty (what : string)
| DuplicateAgent (name : string)
| InvalidPerformance (agent : string)
| NegativePerformance (agent : string)
| PerformanceMinMax (agent : string)
| InvalidDuration (task text : string)
| DurationMinMax (task : string)
| NoSuitableAgent (group : string)
| DuplicateTask (id : string)
| InvalidAssignment (task : string)
| TaskNotFound (id : string)
| AgentNotFound (name : string)
| DependencyCycle.

(** Their texts, exceptions.cpp:10-83. *)
Definition rejection_text (e : rejection) : string :=
  match e with
  | SchemaError m => message_text m
  | CantBeEmpty w => w ++ " can't be empty."
  | DuplicateAgent n => "Agent " ++ quoted n ++ " is specified more than once."
  | InvalidPerformance n => "Agent " ++ quoted n ++ " has invalid performance."
  | NegativePerformance n => "Agent " ++ quoted n ++ " can't have a negative performance value."
  | PerformanceMinMax n => "The minimum performance of the agent " ++ quoted n ++ " is greater than maximum."
  | InvalidDuration t x => "Task " ++ quoted t ++ " has invalid duration " ++ quoted x ++ "."
  | DurationMinMax t => "Task " ++ quoted t ++ " has min duration that is greater than max duration."
  | NoSuitableAgent g => "No suitable agent for task " ++ quoted g ++ "."
  | DuplicateTask i => "Duplicate task id " ++ quoted i ++ "."
  | InvalidAssignment t => "Task " ++ quoted t ++ " must have at most one of: agent, group, groups."
  | TaskNotFound i => "Task with id " ++ quoted i ++ " doesn't exist."
  | AgentNotFound n => "Agent " ++ quoted n ++ " doesn't exist."
  | DependencyCycle => "Dependency cycle detected."
  end.

(** How a step of the loader ends: with a value, with a validation error,
    with another exception ([std::system_error] of an index that does not
    fit [int8], or an exception of yaml-cpp), in a violated contract, or
    not at all (the recursion bound of the model is exhausted); config/
    load.cpp:84-97. *)
Inductive loading (A : Type) :=
| Loads (a : A)
| Rejects (e : rejection)
| Throws
| Violates
| Unfinished.
Arguments Loads {A} a.
Arguments Rejects {A} e.
Arguments Throws {A}.
Arguments Violates {A}.
Arguments Unfinished {A}.

(** Sequencing (no source counterpart). *)
Definition next {A B} (x : loading A) (f : A -> loading B) : loading B :=
  match x with
  | Loads a => f a
  | Rejects e => Rejects e
  | Throws => Throws
  | Violates => Violates
  | Unfinished => Unfinished
  end.

(** Notation for sequencing (no source counterpart). *)
Notation "'do' x <- e ; k" := (next e (fun x => k))
  (at level 61, x pattern, e at next level, right associativity).

(** [Expects] and [Ensures], e.g. tasks.cpp:417-418. *)
Definition demand (b : bool) : loading unit := if b then Loads tt else Violates.

(** A range-for loop that changes a state, e.g. agents.cpp:30-34. *)
Fixpoint each {A S} (f : S -> A -> loading S) (s : S) (l : list A) : loading S :=
  match l with
  | [] => Loads s
  | a :: l' => do s' <- f s a ; each f s' l'
  end.

(** Conversion to [int8], [safe<std::int_fast8_t>] (common.h:8): larger
    values throw.  Indices are never negative. *)
Definition to_int8 (n : nat) : loading nat := if n <=? 127 then Loads n else Throws.

(** [node[name]], e.g. load.cpp:90-91. *)
Definition get (y : yaml) (name : string) : loading (option yaml) :=
  match subscript y name with Ok o => Loads o | _ => Throws end.

(** [node[name].Scalar()]: an undefined node throws, e.g.
    tasks.cpp:378. *)
Definition get_text (y : yaml) (name : string) : loading string :=
  do o <- get y name ;
  match o with Some v => Loads (scalar_of v) | None => Throws end.

(** [text.empty()], e.g. tasks.cpp:379. *)
Definition is_empty (s : string) : bool := match s with "" => true | _ => false end.

(** The position of a string in a list ([ranges::find] at load.cpp:121,
    agents.cpp:99, tasks.cpp:104, 120 and 140). *)
Fixpoint position (x : string) (l : list string) : option nat :=
  match l with
  | [] => None
  | y :: l' =>
      if String.eqb y x then Some 0
      else match position x l' with Some i => Some (S i) | None => None end
  end.

(** [find_or_insert_group], load.cpp:116-128: the table afterwards, the
    index, and whether the group is new. *)
Definition find_or_insert_group (groups : list string) (g : string) : loading (list string * nat * bool) :=
  do _ <- demand (negb (is_empty g)) ;
  match position g groups with
  | Some i => do i8 <- to_int8 i ; Loads (groups, i8, false)
  | None => do i8 <- to_int8 (length groups) ; Loads ((groups ++ [g])%list, i8, true)
  end.

(** ** Agents, agents.cpp *)

(** [parse_agent_groups], agents.cpp:25-35: the group table and the groups
    of the agent. *)
Definition parse_agent_groups (nodes : yaml) (groups : list string) (ids : list nat)
  : loading (list string * list nat) :=
  each (fun s g =>
    do (groups', i, _) <- find_or_insert_group (fst s) (scalar_of g) ;
    Loads (groups', set_insert i (snd s))) (groups, ids) (items_of nodes).

(** [validate_performance], agents.cpp:45-50; [None] is the
    [std::domain_error]. *)
Definition validate_performance (x : f32) : option f32 :=
  if f_le x f_zero then None else Some x.

(** [node.as<float>()] of a possibly undefined node, agents.cpp:71, 76 and
    78.  [as_float] is the conversion of a text; [None] is an exception of
    yaml-cpp. *)
Definition node_float (as_float : string -> option f32) (o : option yaml) : option f32 :=
  match o with Some (Scalar s) => as_float s | _ => None end.

(** One value of [parse_agent_performance], agents.cpp:70-71 and 75-83. *)
Definition performance_value (as_float : string -> option f32) (name : string) (o : option yaml) : loading f32 :=
  match node_float as_float o with
  | None => Rejects (InvalidPerformance name)
  | Some x =>
      match validate_performance x with
      | None => Rejects (NegativePerformance name)
      | Some x => Loads x
      end
  end.

(** [parse_agent_performance], agents.cpp:64-87. *)
Definition parse_agent_performance (as_float : string -> option f32) (name : string) (node : yaml)
  : loading performance :=
  do p <- match node with
          | Scalar _ => do x <- performance_value as_float name (Some node) ;
                        Loads {| perf_min := x; perf_max := x |}
          | _ => do lo_node <- get node "min" ;
                 do lo <- performance_value as_float name lo_node ;
                 do hi_node <- get node "max" ;
                 do hi <- performance_value as_float name hi_node ;
                 Loads {| perf_min := lo; perf_max := hi |}
          end ;
  if f_lt (perf_max p) (perf_min p) then Rejects (PerformanceMinMax name) else Loads p.

(** [check_for_duplicates], agents.cpp:95-102. *)
Definition check_agent_name (agents : list agent) (name : string) : loading unit :=
  do _ <- demand (negb (is_empty name)) ;
  match position name (map ag_name agents) with
  | Some _ => Rejects (DuplicateAgent name)
  | None => Loads tt
  end.

(** [parse_agent], agents.cpp:155-180; the default performance is that of
    project.h:34-37. *)
Definition parse_agent (as_float : string -> option f32) (p : project) (e : yaml * yaml) : loading project :=
  let name := scalar_of (fst e) in
  do _ <- demand (negb (is_empty name)) ;
  do _ <- check_agent_name (pr_agents p) name ;
  do id <- to_int8 (length (pr_agents p)) ;
  do groups_node <- get (snd e) "groups" ;
  do (groups, ids) <- match groups_node with
                       | Some g => parse_agent_groups g (pr_groups p) []
                       | None => Loads (pr_groups p, [])
                       end ;
  do perf_node <- get (snd e) "performance" ;
  do perf <- match perf_node with
             | Some n => parse_agent_performance as_float name n
             | None => Loads {| perf_min := f_one; perf_max := f_one |}
             end ;
  Loads {| pr_groups := groups;
           pr_agents := (pr_agents p ++
             [{| ag_id := id; ag_name := name; ag_groups := ids; ag_perf := perf |}])%list;
           pr_tasks := pr_tasks p |}.

(** [parse_agents], agents.cpp:184-197. *)
Definition parse_agents (as_float : string -> option f32) (node : yaml) (p : project) : loading project :=
  do _ <- demand (match pr_agents p with [] => true | _ => false end) ;
  if size_of node =? 0 then Rejects (CantBeEmpty (quoted "agents"))
  else
    do p' <- each (parse_agent as_float) p (entries_of node) ;
    do _ <- demand (match pr_agents p' with [] => false | _ => true end) ;
    Loads p'.

(** ** Tasks, tasks.cpp *)

(** [detail::parse_duration], parse_duration.rl.cpp:35-52, in
    tasks.cpp:30-41. *)
Definition duration_text (task text : string) : loading Z :=
  match DurationModel.parse_duration (list_ascii_of_string text) with
  | Parsed z => Loads z
  | ParseError => Rejects (InvalidDuration task text)
  | Undefined => Violates
  end.

(** [parse_duration], tasks.cpp:26-43: minimum and maximum. *)
Definition parse_task_duration (name : string) (node : option yaml) : loading (Z * Z) :=
  match node with
  | None => Throws
  | Some node =>
      do (lo, hi) <- match node with
                      | Scalar s => do z <- duration_text name s ; Loads (z, z)
                      | _ => do s <- get_text node "min" ;
                             do lo <- duration_text name s ;
                             do s <- get_text node "max" ;
                             do hi <- duration_text name s ;
                             Loads (lo, hi)
                      end ;
      if (hi <? lo)%Z then Rejects (DurationMinMax name) else Loads (lo, hi)
  end.

(** [has_universal_agents] in tasks.cpp:65. *)
Definition universal_agents (p : project) : loading bool :=
  match has_universal_agents p with Ok b => Loads b | _ => Violates end.

(** [parse_task_group], tasks.cpp:56-70: the project with the group table
    afterwards and the groups of the task. *)
Definition parse_task_group (s : project * list nat) (node : yaml) : loading (project * list nat) :=
  let (p, ids) := s in
  let g := scalar_of node in
  do _ <- demand (negb (is_empty g)) ;
  do (groups, i, inserted) <- find_or_insert_group (pr_groups p) g ;
  let p' := {| pr_groups := groups; pr_agents := pr_agents p; pr_tasks := pr_tasks p |} in
  do universal <- (if inserted then universal_agents p' else Loads true) ;
  if negb universal then Rejects (NoSuitableAgent g)
  else Loads (p', set_insert i ids).

(** [parse_task_groups], tasks.cpp:85-92. *)
Definition parse_task_groups (node : yaml) (s : project * list nat) : loading (project * list nat) :=
  each parse_task_group s (items_of node).

(** [check_for_duplicates], tasks.cpp:100-106. *)
Definition check_task_id (tasks : list task) (id : string) : loading unit :=
  do _ <- demand (negb (is_empty id)) ;
  match position id (map tk_id tasks) with
  | Some _ => Rejects (DuplicateTask id)
  | None => Loads tt
  end.

(** [find_task_index_by_id], tasks.cpp:116-124. *)
Definition find_task_index (tasks : list task) (id : string) : loading nat :=
  do _ <- demand (negb (is_empty id)) ;
  match position id (map tk_id tasks) with
  | Some i => to_int8 i
  | None => Rejects (TaskNotFound id)
  end.

(** [find_agent_index_by_name], tasks.cpp:134-144. *)
Definition find_agent_index (agents : list agent) (name : string) : loading nat :=
  do _ <- demand (match agents with [] => false | _ => true end) ;
  do _ <- demand (negb (is_empty name)) ;
  match position name (map ag_name agents) with
  | Some i => match nth_error agents i with Some a => Loads (ag_id a) | None => Violates end
  | None => Rejects (AgentNotFound name)
  end.

(** [parse_task_id], tasks.cpp:157-171. *)
Definition parse_task_id (node : yaml) (tasks : list task) (name : string) : loading string :=
  let id := scalar_of node in
  if is_empty id then Rejects (CantBeEmpty ("Task id for the task " ++ quoted name))
  else do _ <- check_task_id tasks id ; Loads id.

(** [validate_task_id], tasks.cpp:181-189. *)
Definition validate_task_id (id name : string) : loading string :=
  if is_empty id then Rejects (CantBeEmpty ("Dependency id of the task " ++ quoted name))
  else Loads id.

(** [parse_dependencies], tasks.cpp:207-225. *)
Definition parse_dependencies (node : yaml) (name : string) : loading (list string) :=
  do ids <- match node with
            | Seq l => each (fun ids d => do i <- validate_task_id (scalar_of d) name ; Loads (ids ++ [i])%list) [] l
            | Scalar s => do i <- validate_task_id s name ; Loads [i]
            | _ => Violates
            end ;
  do _ <- demand (match ids with [] => false | _ => true end) ;
  Loads ids.

(** [parse_task_agent], tasks.cpp:275-288. *)
Definition parse_task_agent (node : yaml) (agents : list agent) : loading nat :=
  do _ <- demand (match agents with [] => false | _ => true end) ;
  match node with
  | Scalar name =>
      if is_empty name then Rejects (CantBeEmpty "Assigned agents name") else find_agent_index agents name
  | _ => Violates
  end.

(** [count_defined], tasks.cpp:297-301. *)
Definition count_defined (l : list (option yaml)) : nat :=
  length (filter (fun o => match o with Some _ => true | None => false end) l).

(** [parse_groups_and_agents], tasks.cpp:319-350: the project with the
    group table afterwards, the groups and the agent of the task. *)
Definition parse_groups_and_agents (node : yaml) (name : string) (p : project)
  : loading (project * list nat * option nat) :=
  do _ <- demand (negb (is_empty name)) ;
  do group <- get node "group" ;
  do groups <- get node "groups" ;
  do ag <- get node "agent" ;
  if 1 <? count_defined [group; groups; ag] then Rejects (InvalidAssignment name)
  else
    match group, groups, ag with
    | Some g, _, _ => do (p', ids) <- parse_task_group (p, []) g ; Loads (p', ids, None)
    | None, Some g, _ => do (p', ids) <- parse_task_groups g (p, []) ; Loads (p', ids, None)
    | None, None, Some a => do i <- parse_task_agent a (pr_agents p) ; Loads (p, [], Some i)
    | None, None, None => Loads (p, [], None)
    end.

(** The project under construction and the dependency names
    (tasks.cpp:13, 367-370). *)
Record building := { bd_project : project; bd_deps : list (list string) }.

(** [config.tasks[i].dependencies.emplace(j)], tasks.cpp:257-258. *)
Definition add_dependency (p : project) (i j : nat) : loading project :=
  match nth_error (pr_tasks p) i with
  | None => Violates
  | Some t =>
      Loads {| pr_groups := pr_groups p; pr_agents := pr_agents p;
               pr_tasks := set_nth (pr_tasks p) i
                 {| tk_name := tk_name t; tk_id := tk_id t; tk_groups := tk_groups t; tk_agent := tk_agent t;
                    tk_deps := set_insert j (tk_deps t); tk_min := tk_min t; tk_max := tk_max t |} |}
  end.

(** [parse_subtasks], tasks.cpp:246-261, for a given [parse_task]. *)
Definition parse_subtasks (parse : building -> yaml -> loading building) (b : building) (index : nat) (node : yaml)
  : loading building :=
  do _ <- demand (match pr_tasks (bd_project b) with [] => false | _ => true end) ;
  do _ <- demand (index <? length (pr_tasks (bd_project b))) ;
  each (fun b sub =>
    do j <- to_int8 (length (pr_tasks (bd_project b))) ;
    do p <- add_dependency (bd_project b) index j ;
    parse {| bd_project := p; bd_deps := bd_deps b |} sub) b (items_of node).

(** A task with a name only, tasks.cpp:378-381. *)
Definition blank_task (name : string) : task :=
  {| tk_name := name; tk_id := ""; tk_groups := []; tk_agent := None; tk_deps := []; tk_min := 0%Z; tk_max := 0%Z |}.

(** [parse_task], tasks.cpp:367-401.  The task is the last element of
    [config.tasks] while it is filled in; here it is added when it is
    complete except for its subtasks.  Of the functions called before only
    [check_for_duplicates] looks at [config.tasks]. *)
Fixpoint parse_task (fuel : nat) (b : building) (node : yaml) : loading building :=
  match fuel with
  | O => Unfinished
  | S fuel' =>
      do _ <- demand (match node with Null => false | _ => true end) ;
      do _ <- demand (length (pr_tasks (bd_project b)) =? length (bd_deps b)) ;
      do name <- get_text node "name" ;
      if is_empty name then Rejects (CantBeEmpty "Task name")
      else
        do id_node <- get node "id" ;
        do id <- match id_node with
                 | Some n => parse_task_id n (pr_tasks (bd_project b) ++ [blank_task name])%list name
                 | None => Loads ""
                 end ;
        do duration <- get node "duration" ;
        do (lo, hi) <- parse_task_duration name duration ;
        do (p, groups, ag) <- parse_groups_and_agents node name (bd_project b) ;
        do depends_on <- get node "depends_on" ;
        do deps <- match depends_on with
                   | Some n => parse_dependencies n name
                   | None => Loads []
                   end ;
        let t := {| tk_name := name; tk_id := id; tk_groups := groups; tk_agent := ag; tk_deps := [];
                    tk_min := lo; tk_max := hi |} in
        let b' := {| bd_project := {| pr_groups := pr_groups p; pr_agents := pr_agents p;
                                      pr_tasks := (pr_tasks p ++ [t])%list |};
                     bd_deps := (bd_deps b ++ [deps])%list |} in
        do subtasks <- get node "subtasks" ;
        do b'' <- match subtasks with
                  | Some n =>
                      do index <- to_int8 (length (pr_tasks (bd_project b')) - 1) ;
                      parse_subtasks (parse_task fuel') b' index n
                  | None => Loads b'
                  end ;
        do _ <- demand (length (pr_tasks (bd_project b'')) =? length (bd_deps b'')) ;
        Loads b''
  end.

(** [parse_dependencies_2nd_phase], tasks.cpp:413-427.  The search only
    looks at the ids, which do not change. *)
Definition resolve_task (tasks : list task) (t : task) (deps : list string) : loading task :=
  each (fun t d =>
    do i <- find_task_index tasks d ;
    Loads {| tk_name := tk_name t; tk_id := tk_id t; tk_groups := tk_groups t; tk_agent := tk_agent t;
             tk_deps := set_insert i (tk_deps t); tk_min := tk_min t; tk_max := tk_max t |}) t deps.

(** The outer loop, tasks.cpp:421-426. *)
Fixpoint resolve_all (tasks : list task) (l : list task) (deps : list (list string)) : loading (list task) :=
  match l, deps with
  | t :: l', d :: deps' =>
      do t' <- resolve_task tasks t d ;
      do r <- resolve_all tasks l' deps' ;
      Loads (t' :: r)
  | _, _ => Loads []
  end.

(** The function itself, tasks.cpp:413-427. *)
Definition resolve_dependencies (tasks : list task) (deps : list (list string)) : loading (list task) :=
  do _ <- demand (match tasks with [] => false | _ => true end) ;
  do _ <- demand (length tasks =? length deps) ;
  resolve_all tasks tasks deps.

(** [VertexState], tasks.cpp:432-436. *)
Inductive vertex := NotVisited | Visited | Complete.

(** [depth_first_search], tasks.cpp:445-465. *)
Fixpoint depth_first_search (fuel : nat) (tasks : list task) (state : list vertex) (id : nat)
  : loading (list vertex) :=
  match fuel with
  | O => Unfinished
  | S fuel' =>
      do _ <- demand (match tasks with [] => false | _ => true end) ;
      do _ <- demand (length tasks =? length state) ;
      do _ <- demand (match nth_error state id with Some NotVisited => true | _ => false end) ;
      do _ <- demand (id <? length tasks) ;
      match nth_error tasks id with
      | None => Violates
      | Some t =>
          do state' <- each (fun s dep =>
              match nth_error s dep with
              | None => Violates
              | Some Visited => Rejects DependencyCycle
              | Some NotVisited => depth_first_search fuel' tasks s dep
              | Some Complete => Loads s
              end) (set_nth state id Visited) (tk_deps t) ;
          Loads (set_nth state' id Complete)
      end
  end.

(** The loop of [check_for_cycles], tasks.cpp:477-480; the increment of
    [task_id] may leave the range of [int8]. *)
Fixpoint cycles_loop (tasks : list task) (left id : nat) (state : list vertex) : loading unit :=
  match left with
  | O => Loads tt
  | S left' =>
      do state' <- match nth_error state id with
                   | None => Violates
                   | Some NotVisited => depth_first_search (length tasks) tasks state id
                   | Some _ => Loads state
                   end ;
      do id' <- to_int8 (S id) ;
      cycles_loop tasks left' id' state'
  end.

(** [check_for_cycles], tasks.cpp:472-481. *)
Definition check_for_cycles (tasks : list task) : loading unit :=
  do _ <- demand (match tasks with [] => false | _ => true end) ;
  cycles_loop tasks (length tasks) 0 (repeat NotVisited (length tasks)).

(** [parse_tasks], tasks.cpp:485-496. *)
Definition parse_tasks (node : yaml) (p : project) : loading project :=
  do _ <- demand (match pr_tasks p with [] => true | _ => false end) ;
  if size_of node =? 0 then Rejects (CantBeEmpty (quoted "tasks"))
  else
    do b <- each (parse_task (height node)) {| bd_project := p; bd_deps := [] |} (items_of node) ;
    do tasks <- resolve_dependencies (pr_tasks (bd_project b)) (bd_deps b) ;
    do _ <- check_for_cycles tasks ;
    do _ <- demand (match tasks with [] => false | _ => true end) ;
    Loads {| pr_groups := pr_groups (bd_project b); pr_agents := pr_agents (bd_project b); pr_tasks := tasks |}.

(** [parse_yaml], load.cpp:84-97. *)
Definition load (as_float : string -> option f32) (root : yaml) : loading project :=
  match validate_configuration root with
  | Ok (Some m) => Rejects (SchemaError m)
  | Ok None =>
      do agents <- get root "agents" ;
      do p <- match agents with
              | Some n => parse_agents as_float n {| pr_groups := []; pr_agents := []; pr_tasks := [] |}
              | None => Throws
              end ;
      do tasks <- get root "tasks" ;
      do p' <- match tasks with Some n => parse_tasks n p | None => Throws end ;
      do _ <- demand (match pr_tasks p' with [] => false | _ => true end) ;
      do _ <- demand (match pr_agents p' with [] => false | _ => true end) ;
      Loads p'
  | Broken => Throws
  | NoFuel => Unfinished
  end.
