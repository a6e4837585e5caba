(** * Model of src/stun/schedule_params.cpp: schedule parameters and the
      initial schedule *)

From Coq Require Import List ZArith Bool Arith.
From Verif Require Import Base F32 ProjectModel.
Import ListNotations.

(** [ScheduleItem], stun/schedule.h:32-36.  [int16] indices are natural
    numbers. *)
Record item := Item { it_task : nat; it_agent : nat }.

(** [ScheduleParams], stun/schedule_params.h:99-105.  The packed tables
    ([Vector2D]) are lists of rows here; the packing itself is modelled in
    Vector2DModel.v. *)
Record params := {
  sp_perf : list f32;
  sp_dur : list f32;
  sp_agents : list (list nat);
  sp_deps : list (list nat);
  sp_mult : f32
}.

(** Row of a packed table, [Vector2D::operator[]],
    stun/schedule_params.h:59-63. *)
Definition row (v : list (list nat)) (i : nat) : outcome (list nat) :=
  at_index v i.

(** [agent_performance], schedule_params.cpp:33-40. *)
Definition agent_performance (l : list agent) : outcome (list f32) :=
  _ <- expects (negb (match l with [] => true | _ => false end)) ;;
  map_outcome (fun a => perf_average (ag_perf a)) l.

(** [task_duration], schedule_params.cpp:53-77: durations are collected
    and summed as floats, then divided by the average per agent. *)
Definition task_duration (l : list task) (agent_count : nat)
  : outcome (list f32 * f32) :=
  _ <- expects (negb (match l with [] => true | _ => false end)) ;;
  _ <- expects (0 <? agent_count) ;;
  avgs <- map_outcome duration_average l ;;
  let durations := map f_of_Z avgs in
  let total := fold_left f_add durations f_zero in
  let average := f_div total (f_of_Z (Z.of_nat agent_count)) in
  Ok (map (fun d => f_div d average) durations, average).

(** Indices of the agents that pass the test, from position [i] on
    (the [enumerate] loop of schedule_params.cpp:98-102). *)
Fixpoint agents_for (t : task) (l : list agent) (i : nat) : list nat :=
  match l with
  | [] => []
  | a :: l' =>
      if can_work_on a t then i :: agents_for t l' (S i)
      else agents_for t l' (S i)
  end.

(** [available_agents], schedule_params.cpp:86-110. *)
Definition available_agents (p : project) : outcome (list (list nat)) :=
  _ <- expects (negb (match pr_tasks p with [] => true | _ => false end)) ;;
  _ <- expects (negb (match pr_agents p with [] => true | _ => false end)) ;;
  Ok (map (fun t => agents_for t (pr_agents p) 0) (pr_tasks p)).

(** [dependencies], schedule_params.cpp:119-137. *)
Definition dependencies (l : list task) : outcome (list (list nat)) :=
  _ <- expects (negb (match l with [] => true | _ => false end)) ;;
  Ok (map tk_deps l).

(** [to_schedule_params], schedule_params.cpp:276-293. *)
Definition to_schedule_params (p : project) : outcome params :=
  _ <- expects (negb (match pr_agents p with [] => true | _ => false end)) ;;
  _ <- expects (negb (match pr_tasks p with [] => true | _ => false end)) ;;
  td <- task_duration (pr_tasks p) (length (pr_agents p)) ;;
  ap <- agent_performance (pr_agents p) ;;
  av <- available_agents p ;;
  dp <- dependencies (pr_tasks p) ;;
  Ok {| sp_perf := ap; sp_dur := fst td; sp_agents := av; sp_deps := dp;
        sp_mult := snd td |}.

(** State of the construction of the initial schedule: the schedule so far
    and the set of tasks not yet scheduled (schedule_params.cpp:231-235). *)
Definition push_state := (list item * list nat)%type.

(** [flat_set::contains], schedule_params.cpp:242. *)
Definition contains (x : nat) (l : list nat) : bool := existsb (Nat.eqb x) l.

(** [flat_set::erase], schedule_params.cpp:249. *)
Definition erase (x : nat) (l : list nat) : list nat :=
  filter (fun y => negb (x =? y)) l.

(** The contract of schedule_params.cpp:238-240 and 251-253. *)
Definition push_sizes (p : params) (s : push_state) : bool :=
  length (snd s) + length (fst s) =? length (sp_dur p).

(** The loop over dependencies, schedule_params.cpp:244-245, for a given
    recursive call. *)
Fixpoint push_deps (push : nat -> push_state -> outcome push_state)
  (deps : list nat) (s : push_state) : outcome push_state :=
  match deps with
  | [] => Ok s
  | d :: deps' => s' <- push d s ;; push_deps push deps' s'
  end.

(** [push_task], schedule_params.cpp:231-254.  Fuel bounds the recursion
    depth. *)
Fixpoint push_task (fuel : nat) (p : params) (i : nat) (s : push_state)
  : outcome push_state :=
  match fuel with
  | O => NoFuel
  | S fuel' =>
      _ <- expects (negb (match snd s with [] => true | _ => false end)) ;;
      _ <- expects (push_sizes p s) ;;
      if negb (contains i (snd s)) then Ok s
      else
        deps <- row (sp_deps p) i ;;
        s1 <- push_deps (push_task fuel' p) deps s ;;
        av <- row (sp_agents p) i ;;
        a <- at_index av 0 ;;
        let s2 := (fst s1 ++ [Item i a], erase i (snd s1)) in
        _ <- expects (push_sizes p s2) ;;
        Ok s2
  end.

(** The [while] loop of schedule_params.cpp:268-269; [n] bounds the number
    of iterations. *)
Fixpoint push_all (n fuel : nat) (p : params) (s : push_state)
  : outcome push_state :=
  match snd s with
  | [] => Ok s
  | t :: _ =>
      match n with
      | O => NoFuel
      | S n' => s' <- push_task fuel p t s ;; push_all n' fuel p s'
      end
  end.

(** [initial_schedule], schedule_params.cpp:256-274.  The fuel given to
    the loop and the recursion is the number of tasks plus one. *)
Definition initial_schedule (p : params) : outcome (list item) :=
  let n := length (sp_dur p) in
  _ <- expects (negb (n =? 0)) ;;
  s <- push_all n (S n) p ([], seq 0 n) ;;
  _ <- expects (length (fst s) =? n) ;;
  Ok (fst s).
