(** * The timeline of a schedule (vocabulary of C28, C29) *)

From Coq Require Import List ZArith Bool Arith.
From Flocq Require Import BinarySingleNaN.
From Verif Require Import F32 ProjectModel ScheduleModel ScheduleSpec.
Import ListNotations.

(** Durations are finite and not negative, performances are positive. *)
Definition sane_numbers (p : params) : Prop :=
  Forall (fun d : f32 => is_finite d = true /\ f_le f_zero d = true) (sp_dur p) /\
  Forall (fun q : f32 => f_lt f_zero q = true) (sp_perf p).

(** How long agent [a] needs for task [t]: duration over performance. *)
Definition work_time (p : params) (t a : nat) : f32 :=
  f_div (nth t (sp_dur p) f_zero) (nth a (sp_perf p) f_zero).

(** Something that must be over before item [x], preceded by the items
    [pre], can start: a dependency, or an earlier task of the same
    agent. *)
Definition must_precede (p : params) (pre : list item) (x y : item) : Prop :=
  In y pre /\
  (depends p (it_task x) (it_task y) \/ it_agent y = it_agent x).

(** Start and finish times of tasks. *)
Record timeline := { tl_start : nat -> f32; tl_finish : nat -> f32 }.

(** The greedy timeline of a schedule: every task starts at the earliest
    moment at which all the tasks that must precede it are finished (time
    zero if there are none) and takes its work time. *)
Definition greedy_timeline (p : params) (s : list item) (tl : timeline) : Prop :=
  forall pre x post, s = pre ++ x :: post ->
    tl_finish tl (it_task x)
      = f_add (tl_start tl (it_task x)) (work_time p (it_task x) (it_agent x)) /\
    f_le f_zero (tl_start tl (it_task x)) = true /\
    (forall y, must_precede p pre x y ->
       f_le (tl_finish tl (it_task y)) (tl_start tl (it_task x)) = true) /\
    (tl_start tl (it_task x) = f_zero \/
     exists y, must_precede p pre x y /\
       tl_start tl (it_task x) = tl_finish tl (it_task y)).

(** [m] is the time at which the last task finishes. *)
Definition last_finish (s : list item) (tl : timeline) (m : f32) : Prop :=
  (forall x, In x s -> f_le (tl_finish tl (it_task x)) m = true) /\
  exists x, In x s /\ f_eq m (tl_finish tl (it_task x)) = true.

(** A dependency chain: each task depends on the one before it. *)
Fixpoint chain (p : params) (l : list item) : Prop :=
  match l with
  | x :: ((y :: _) as l') => depends p (it_task y) (it_task x) /\ chain p l'
  | _ => True
  end.

(** Single precision sum of work times. *)
Definition total_time (p : params) (l : list item) : f32 :=
  fold_left (fun t x => f_add t (work_time p (it_task x) (it_agent x))) l f_zero.
