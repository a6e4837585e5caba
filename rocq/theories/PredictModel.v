(** * Model of src/predict.cpp and of the event loop, src/cli/events.h

    A worker thread produces progress events and a result; the main thread
    consumes the events.  The queue (moodycamel::ReaderWriterQueue, one
    producer and one consumer) is a list; enqueueing and dequeueing are
    atomic and never fail for lack of memory. *)

From Coq Require Import List ZArith Bool Arith.
From Verif Require Import Base F32 ProjectModel ScheduleModel TemperatureModel StunModel OptimizerModel
  HistogramModel SimulationModel.
Import ListNotations.

(** [ProgressEvent], predict.h:68-102. *)
Inductive event :=
| ScheduleOptimizationStart
| ScheduleOptimization (progress : f32) (makespan : Z) (epoch : Z)
| ScheduleOptimizationComplete (makespan : Z)
| SimulationStart
| Finished.

(** What the worker does: the events it has enqueued, and how it ends.
    [Broken] is an exception or a violated contract (predict.cpp:96-114,
    125-135). *)
Definition work (A : Type) : Type := (list event * outcome A)%type.

(** [events.enqueue(e)], predict.cpp:75, 97, 102, 104, 108. *)
Definition enqueue (e : event) : work unit := ([e], Ok tt).

(** A call that produces no events (no source counterpart). *)
Definition quietly {A} (x : outcome A) : work A := ([], x).

(** Sequencing of statements of the worker (no source counterpart). *)
Definition andthen {A B} (w : work A) (f : A -> work B) : work B :=
  match snd w with
  | Ok a => let (events, result) := f a in (fst w ++ events, result)
  | Broken => (fst w, Broken)
  | NoFuel => (fst w, NoFuel)
  end.

(** [makespan], predict.cpp:28-38.  [gsl::narrow] throws when the
    truncated number does not fit 64 bits. *)
Definition makespan_seconds (z : optimizer) (p : params) : outcome Z :=
  m <- optimizer_best z ;;
  to_rep (f_mul m (sp_mult p)).

(** The loop of predict.cpp:73-79.  [ks n] are the random numbers of
    update [n]; fuel bounds the number of iterations. *)
Fixpoint optimize_loop (fuel : nat) (o : oracles) (p : params)
  (ks : nat -> nat -> nat -> luck) (n : nat) (z : optimizer) : work optimizer :=
  if has_converged z then quietly (Ok z)
  else
    match fuel with
    | O => quietly NoFuel
    | S fuel' =>
        andthen (quietly (optimizer_update o z (ks n))) (fun z' =>
        andthen (quietly (makespan_seconds z' p)) (fun s =>
        andthen (enqueue (ScheduleOptimization (estimated_progress z') s (oz_epochs z'))) (fun _ =>
        optimize_loop fuel' o p ks (S n) z')))
    end.

(** [OptimizedSchedule], predict.h:34-37. *)
Record optimized := { os_schedule : list item; os_makespan : Z }.

(** [optimize], predict.cpp:48-85.  [op] holds the fields of
    [OptimizationParameters] (predict.cpp:64-71). *)
Definition optimize (fuel : nat) (o : oracles) (p : params) (op : options) (threads : nat)
  (ks : nat -> nat -> nat -> luck) : work optimized :=
  andthen (quietly (expects (negb (length (sp_perf p) =? 0)))) (fun _ =>
  andthen (quietly (expects (negb (length (sp_dur p) =? 0)))) (fun _ =>
  andthen (quietly (expects (negb (length (sp_agents p) =? 0)))) (fun _ =>
  andthen (quietly (expects (length (sp_agents p) =? length (sp_dur p)))) (fun _ =>
  andthen (quietly (optimizer_new o p op threads)) (fun z =>
  andthen (optimize_loop fuel o p ks 0 z) (fun z' =>
  andthen (quietly (optimizer_schedule z')) (fun s =>
  andthen (quietly (makespan_seconds z' p)) (fun m =>
  quietly (Ok {| os_schedule := s; os_makespan := m |}))))))))).

(** [Prediction], predict.h:55-60. *)
Record prediction := {
  pd_histogram : histogram;
  pd_stats : hist_stats;
  pd_schedule : list item;
  pd_makespan : Z
}.

(** The worker of [predict], predict.cpp:96-114. *)
Definition predict (fuel : nat) (o : oracles) (ac : accumulators) (pr : project)
  (bin_size : option Z) (op : options) (threads : nat)
  (ks : nat -> nat -> nat -> luck) (draws : list f32) : work prediction :=
  andthen (enqueue ScheduleOptimizationStart) (fun _ =>
  andthen (quietly (to_schedule_params pr)) (fun p =>
  andthen (optimize fuel o p op threads ks) (fun r =>
  andthen (enqueue (ScheduleOptimizationComplete (os_makespan r))) (fun _ =>
  andthen (enqueue SimulationStart) (fun _ =>
  andthen (quietly (make_histogram fuel ac pr bin_size (os_makespan r) (os_schedule r) draws)) (fun h =>
  andthen (quietly (stats h)) (fun st =>
  andthen (enqueue Finished) (fun _ =>
  quietly (Ok {| pd_histogram := h; pd_stats := st; pd_schedule := os_schedule r;
                 pd_makespan := os_makespan r |}))))))))).

(** The worker of [schedule], predict.cpp:125-135. *)
Definition schedule (fuel : nat) (o : oracles) (pr : project) (op : options) (threads : nat)
  (ks : nat -> nat -> nat -> luck) : work optimized :=
  andthen (enqueue ScheduleOptimizationStart) (fun _ =>
  andthen (quietly (to_schedule_params pr)) (fun p =>
  andthen (optimize fuel o p op threads ks) (fun r =>
  andthen (enqueue (ScheduleOptimizationComplete (os_makespan r))) (fun _ =>
  andthen (enqueue Finished) (fun _ =>
  quietly (Ok r)))))).

(** ** The two threads *)

(** [is_final_event], cli/events.cpp:8-14. *)
Definition is_final_event (e : event) : bool :=
  match e with Finished => true | _ => false end.

(** Worker and consumer: the events the worker will still enqueue, the
    queue, and the local variable [evt] of [consume_events]
    (cli/events.h:77); [sy_handled] records the calls of the handler
    (cli/events.h:83). *)
Record system := {
  sy_todo : list event;
  sy_queue : list event;
  sy_last : event;
  sy_handled : list event
}.

(** The start: nothing enqueued yet.  A default constructed event is the
    first alternative with the first enumerator (predict.h:68-72, 99-102),
    cli/events.h:77. *)
Definition system_start (todo : list event) : system :=
  {| sy_todo := todo; sy_queue := []; sy_last := ScheduleOptimizationStart; sy_handled := [] |}.

(** Who makes the next step (no source counterpart). *)
Inductive turn := Worker | Consumer.

(** One step of a thread: the worker enqueues its next event; the consumer
    runs one iteration of the loop of cli/events.h:78-84 (it waits when the
    queue is empty, and does nothing when it has left the loop). *)
Definition take_turn (t : turn) (s : system) : system :=
  match t with
  | Worker =>
      match sy_todo s with
      | [] => s
      | e :: todo =>
          {| sy_todo := todo; sy_queue := sy_queue s ++ [e]; sy_last := sy_last s;
             sy_handled := sy_handled s |}
      end
  | Consumer =>
      if is_final_event (sy_last s) then s
      else
        match sy_queue s with
        | [] => s
        | e :: queue =>
            {| sy_todo := sy_todo s; sy_queue := queue; sy_last := e;
               sy_handled := sy_handled s ++ [e] |}
        end
  end.

(** The consumer has left the loop (cli/events.h:78). *)
Definition stopped (s : system) : bool := is_final_event (sy_last s).

(** The state after [n] steps of an execution (no source counterpart). *)
Fixpoint after (sched : nat -> turn) (s : system) (n : nat) : system :=
  match n with
  | O => s
  | S n' => take_turn (sched n') (after sched s n')
  end.
