(** * Model of src/project.h and src/project.cpp *)

From Coq Require Import List ZArith String Bool Arith.
From Verif Require Import Base F32.
Import ListNotations.

(** [Agent::Performance], project.h:34-45. *)
Record performance := { perf_min : f32; perf_max : f32 }.

(** [Agent], project.h:30-47.  Indices ([int8], project.h:12-16) are
    natural numbers; they are never negative.  [group_ids] is a
    [flat_set], a strictly increasing list. *)
Record agent := {
  ag_id : nat;
  ag_name : string;
  ag_groups : list nat;
  ag_perf : performance
}.

(** [Task], project.h:85-101.  Durations are whole seconds; 64 bit
    overflow is not modelled. *)
Record task := {
  tk_name : string;
  tk_id : string;
  tk_groups : list nat;
  tk_agent : option nat;
  tk_deps : list nat;
  tk_min : Z;
  tk_max : Z
}.

(** [Project], project.h:114-116 and 133-151, without the optimisation
    parameters (they do not influence loading). *)
Record project := {
  pr_groups : list string;
  pr_agents : list agent;
  pr_tasks : list task
}.

(** Insertion into a [flat_set] of indices (project.h:15-16): sorted,
    without duplicates. *)
Fixpoint set_insert (x : nat) (l : list nat) : list nat :=
  match l with
  | [] => [x]
  | y :: l' =>
      if x <? y then x :: l
      else if x =? y then l
      else y :: set_insert x l'
  end.

(** [is_universal], project.cpp:8-11. *)
Definition is_universal (a : agent) : bool :=
  match ag_groups a with [] => true | _ => false end.

(** [ranges::includes] on two sorted ranges, used at project.cpp:28:
    advances through both ranges in step. *)
Fixpoint includes (a b : list nat) : bool :=
  match b with
  | [] => true
  | y :: b' =>
      match a with
      | [] => false
      | x :: a' =>
          if y <? x then false
          else if x <? y then includes a' b
          else includes a' b'
      end
  end.

(** [can_work_on(agent, task)], project.cpp:21-29. *)
Definition can_work_on (a : agent) (t : task) : bool :=
  match tk_agent t with
  | Some i => i =? ag_id a
  | None =>
      is_universal a ||
      (negb (match tk_groups t with [] => true | _ => false end) &&
       includes (ag_groups a) (tk_groups t))
  end.

(** [has_universal_agents], project.cpp:31-36. *)
Definition has_universal_agents (p : project) : outcome bool :=
  match pr_agents p with
  | [] => Broken
  | l => Ok (existsb is_universal l)
  end.

(** [Agent::Performance::average], project.cpp:38-44. *)
Definition perf_average (p : performance) : outcome f32 :=
  _ <- expects (f_lt f_zero (perf_min p)) ;;
  _ <- expects (f_le (perf_min p) (perf_max p)) ;;
  Ok (f_div (f_add (perf_min p) (perf_max p)) (f_of_Z 2)).

(** [Task::Duration::average], project.cpp:46-52; C++ integer division
    truncates. *)
Definition duration_average (t : task) : outcome Z :=
  _ <- expects (0 <? tk_min t)%Z ;;
  _ <- expects (tk_min t <=? tk_max t)%Z ;;
  Ok (Z.quot (tk_min t + tk_max t) 2).
