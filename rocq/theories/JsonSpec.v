(** * Vocabulary of C59-C61: what the JSON results must say *)

From Coq Require Import List ZArith Bool Arith Reals.
From Flocq Require Import Core BinarySingleNaN.
From Verif Require Import F32 ProjectModel ScheduleModel ScheduleSpec SimulationSpec.
Import ListNotations.

(** Performances are finite and below 2^127, so that their averages are
    finite (see C68). *)
Definition moderate_performance (p : project) : Prop :=
  Forall (fun a => is_finite (perf_max (ag_perf a)) = true /\
                   (B2R (perf_max (ag_perf a)) < bpow radix2 127)%R) (pr_agents p).

(** The scheduling problem with average durations in seconds (not
    normalised); [p] are the schedule parameters of the project. *)
Definition in_seconds (pr : project) (p : params) : params :=
  under p (sp_perf p) (map (fun t => f_of_Z (mean t)) (pr_tasks pr)).

(** How many items of a list are done by agent [a]. *)
Definition tasks_of (a : nat) (l : list item) : nat :=
  length (filter (fun y => it_agent y =? a) l).
