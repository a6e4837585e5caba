(** * Vocabulary of C30-C38 for the optimizer *)

From Coq Require Import List ZArith Bool.
From Flocq Require Import BinarySingleNaN.
From Verif Require Import Base F32 ProjectModel ScheduleModel ScheduleSpec MutatorModel TimelineSpec
  TemperatureModel StunModel
  SearchSpec OptimizerModel.
Import ListNotations.

(** The optimizers that exist at some moment of some history: new ones with
    any number of threads, and what becomes of them by updates, resets and
    copies, in any order and with any random numbers. *)
Inductive optimizer_reached (o : oracles) (p : params) (op : options) (threads : nat)
  : optimizer -> Prop :=
| or_new : forall z, optimizer_new o p op threads = Ok z -> optimizer_reached o p op threads z
| or_update : forall z ks z', optimizer_reached o p op threads z ->
    optimizer_update o z ks = Ok z' -> optimizer_reached o p op threads z'
| or_reset : forall z z', optimizer_reached o p op threads z ->
    optimizer_reset o z = Ok z' -> optimizer_reached o p op threads z'
| or_copy : forall z z', optimizer_reached o p op threads z ->
    optimizer_copy z = Ok z' -> optimizer_reached o p op threads z'.

(** The candidates evaluated by all jobs in one update. *)
Fixpoint job_candidates (o : oracles) (i : nat) (jobs : list job) (ks : nat -> nat -> luck)
  : list (list item) :=
  match jobs with
  | [] => []
  | j :: rest =>
      candidates o j (map (ks i) (seq 0 (Z.to_nat (jb_batch j))))
      ++ job_candidates o (S i) rest ks
  end.

(** The candidates evaluated in [n] updates. *)
Fixpoint evaluated (o : oracles) (z : optimizer) (ks : nat -> nat -> nat -> luck) (n : nat)
  : list (list item) :=
  match n with
  | O => []
  | S n' =>
      evaluated o z ks n' ++
      match optimizer_run o z ks n' with
      | Ok z' => job_candidates o 0 (oz_jobs z') (ks n')
      | _ => []
      end
  end.

(** [reports o z ks n ms]: [ms] are the makespans reported before the first
    and after each of [n] updates. *)
Inductive reports (o : oracles) (z : optimizer) (ks : nat -> nat -> nat -> luck)
  : nat -> list f32 -> Prop :=
| rp_start : forall m, optimizer_best z = Ok m -> reports o z ks 0 [m]
| rp_next : forall n ms z' m, reports o z ks n ms -> optimizer_run o z ks (S n) = Ok z' ->
    optimizer_best z' = Ok m -> reports o z ks (S n) (ms ++ [m]).

(** How often a number is smaller than its predecessor. *)
Fixpoint improvements (ms : list f32) : nat :=
  match ms with
  | a :: ((b :: _) as r) => (if f_lt b a then 1 else 0) + improvements r
  | _ => 0
  end.

(** How many numbers follow the last one that is smaller than its
    predecessor; all but the first if there is none. *)
Fixpoint quiet_from (c : nat) (ms : list f32) : nat :=
  match ms with
  | a :: ((b :: _) as r) => quiet_from (if f_lt b a then 0 else S c) r
  | _ => c
  end.
Definition quiet (ms : list f32) : nat := quiet_from 0 ms.

(** All work takes some time. *)
Definition positive_work (p : params) : Prop :=
  forall t a, allowed p t a -> f_lt f_zero (work_time p t a) = true.

(** Two optimizers that differ at most in memory that is written before it
    is read. *)
Record same_optimizer (y z : optimizer) : Prop := {
  so_batch_eq : oz_batch y = oz_batch z;
  so_max_idle_eq : oz_max_idle y = oz_max_idle z;
  so_idle_eq : oz_idle y = oz_idle z;
  so_epochs_eq : oz_epochs y = oz_epochs z;
  so_progress_eq : oz_progress y = oz_progress z;
  so_last_eq : oz_last y = oz_last z;
  so_curve_eq : oz_curve y = oz_curve z;
  so_jobs_same : Forall2 same_job (oz_jobs y) (oz_jobs z)
}.

(** Everything a user of the optimizer can ask for. *)
Definition observed (z : optimizer) : outcome (list item * f32 * f32 * Z * bool) :=
  s <- optimizer_schedule z ;;
  m <- optimizer_best z ;;
  Ok (s, m, estimated_progress z, oz_epochs z, has_converged z).

(** The loop "while not converged: update" fed by [ks] never reaches an
    update that fails. *)
Definition loop_runs (o : oracles) (z : optimizer) (ks : nat -> nat -> nat -> luck) : Prop :=
  forall n z', optimizer_run o z ks n = Ok z' ->
    (forall i y, i <= n -> optimizer_run o z ks i = Ok y -> has_converged y = false) ->
    exists z'', optimizer_update o z' (ks n) = Ok z''.

(** The loop ends after [n] updates. *)
Definition loop_stops (o : oracles) (z : optimizer) (ks : nat -> nat -> nat -> luck) (n : nat) : Prop :=
  (exists z', optimizer_run o z ks n = Ok z' /\ has_converged z' = true) /\
  forall i, i < n -> exists z', optimizer_run o z ks i = Ok z' /\ has_converged z' = false.
