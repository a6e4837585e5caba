(** * Specification: projects with ordinary times *)

From Coq Require Import List ZArith Reals.
From Flocq Require Import Core BinarySingleNaN.
From Verif Require Import Base F32 ProjectModel ScheduleModel ScheduleSpec.
Import ListNotations.

Local Open Scope R_scope.

(** Whoever may do a task needs at least two seconds for it on average, and
    all the tasks together take less than [2 ^ 28] seconds, 8.5 years, even
    if each one takes as long as the longest one at the lowest
    performance, [w]. *)
Definition ordinary_times (pr : project) (p : params) : Prop :=
  exists w : R, INR (length (pr_tasks pr)) * w <= bpow radix2 28 /\
  forall i j t a, nth_error (pr_tasks pr) i = Some t -> nth_error (pr_agents pr) j = Some a -> allowed p i j ->
    2 * B2R (perf_max (ag_perf a)) <= IZR (mean t) <= w * B2R (perf_min (ag_perf a)).
