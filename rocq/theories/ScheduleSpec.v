(** * What a well-formed scheduling problem and a valid schedule are

    Vocabulary for C19-C34.  Nothing here calls a model function; only the
    data types of the model are used. *)

From Coq Require Import List ZArith Bool Arith Relations Permutation Sorted Reals.
From Flocq Require Import Core.
From Verif Require Import ProjectModel ScheduleModel F32.
Import ListNotations.

(** Task [t] directly depends on task [d]. *)
Definition depends_in (deps : list (list nat)) (t d : nat) : Prop :=
  exists r, nth_error deps t = Some r /\ In d r.

Definition depends (p : params) : nat -> nat -> Prop := depends_in (sp_deps p).

(** Agent [a] is listed as available for task [t]. *)
Definition allowed (p : params) (t a : nat) : Prop :=
  exists r, nth_error (sp_agents p) t = Some r /\ In a r.

(** No task depends on itself, directly or through others. *)
Definition acyclic (R : nat -> nat -> Prop) : Prop :=
  forall t, ~ clos_trans nat R t t.

Definition task_count (p : params) : nat := length (sp_dur p).

(** A scheduling problem: at least one task and one agent, one row of
    agents and of dependencies per task, dependencies are tasks and are
    listed in increasing order, every task has at least one available
    agent, available agents exist, dependencies are acyclic. *)
Record problem (p : params) : Prop := {
  pb_tasks : 0 < task_count p;
  pb_agents_len : length (sp_agents p) = task_count p;
  pb_deps_len : length (sp_deps p) = task_count p;
  pb_deps_range : forall t d, depends p t d -> d < task_count p;
  pb_deps_sorted : Forall (StronglySorted lt) (sp_deps p);
  pb_agents_some : forall t, t < task_count p -> exists a, allowed p t a;
  pb_agents_range : forall t a, allowed p t a -> a < length (sp_perf p);
  pb_acyclic : acyclic (depends p)
}.

(** Every task is preceded by all of its dependencies. *)
Definition dependencies_first (p : params) (s : list item) : Prop :=
  forall pre x post, s = pre ++ x :: post ->
  forall d, depends p (it_task x) d -> In d (map it_task pre).

(** A valid schedule: every task exactly once, dependencies first, only
    available agents. *)
Record valid_schedule (p : params) (s : list item) : Prop := {
  vs_complete : Permutation (map it_task s) (seq 0 (task_count p));
  vs_order : dependencies_first p s;
  vs_agents : forall x, In x s -> allowed p (it_task x) (it_agent x)
}.

(** ** Projects *)

(** Sets of indices are strictly increasing lists. *)
Definition index_set (l : list nat) : Prop := StronglySorted lt l.

(** The rule by which the implementation decides whether an agent may do a
    task: the task names that agent, or it names nobody and the agent
    either has no groups, or the task has groups and the agent is in all
    of them. *)
Definition may_work_impl (a : agent) (t : task) : Prop :=
  match tk_agent t with
  | Some i => i = ag_id a
  | None =>
      ag_groups a = [] \/
      (tk_groups t <> [] /\ incl (tk_groups t) (ag_groups a))
  end.

(** The rule documented in README.md and project.h: additionally, a task
    without groups can be done by anybody. *)
Definition may_work_doc (a : agent) (t : task) : Prop :=
  match tk_agent t with
  | Some i => i = ag_id a
  | None => ag_groups a = [] \/ incl (tk_groups t) (ag_groups a)
  end.

(** ** Durations *)

(** [x] and [y] agree up to [k] roundings to single precision (each
    rounding changes a value by a factor of at most 1 - 2^-24 or its
    inverse). *)
Definition uq : R := (1 - bpow radix2 (-24))%R.

Definition near (k : nat) (x y : R) : Prop :=
  (y * uq ^ k <= x)%R /\ (x * uq ^ k <= y)%R.

Fixpoint rsum (l : list R) : R :=
  match l with [] => 0%R | x :: l' => (x + rsum l')%R end.

(** The average of a task's duration, in whole seconds. *)
Definition mean (t : task) : Z := ((tk_min t + tk_max t) / 2)%Z.

(** Durations are positive, ordered and fit 64 bits. *)
Definition sane_durations (l : list task) : Prop :=
  forall t, In t l -> (0 < tk_min t <= tk_max t /\ tk_max t <= 2 ^ 63)%Z.

(** ** Mutation *)

(** [s'] is [s] with at most one adjacent pair exchanged and then at most
    one agent changed. *)
Definition swapped_once (s s' : list item) : Prop :=
  s' = s \/
  exists l a b r, s = l ++ a :: b :: r /\ s' = l ++ b :: a :: r.

Definition reassigned_once (s s' : list item) : Prop :=
  exists l x r a, s = l ++ x :: r /\ s' = l ++ Item (it_task x) a :: r.

Definition neighbour (s s' : list item) : Prop :=
  exists m, swapped_once s m /\ reassigned_once m s'.
