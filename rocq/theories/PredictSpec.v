(** * Vocabulary of C54, C55, C67: executions, order of events *)

From Coq Require Import List ZArith Bool Arith.
From Verif Require Import Base F32 PredictModel.
Import ListNotations.

(** Both threads get to run again and again. *)
Definition fair (sched : nat -> turn) : Prop :=
  (forall n, exists m, n <= m /\ sched m = Worker) /\
  (forall n, exists m, n <= m /\ sched m = Consumer).

(** An optimization event. *)
Definition optimization (e : event) : Prop :=
  exists q m k, e = ScheduleOptimization q m k.

(** The order of events: the start, optimization events, one completion,
    the given events, the end. *)
Definition in_order (final : list event) (l : list event) (m : Z) : Prop :=
  exists opts, Forall optimization opts /\
    l = ScheduleOptimizationStart :: opts ++ ScheduleOptimizationComplete m :: final ++ [Finished].

(** The makespans of the optimization events. *)
Fixpoint reported_makespans (l : list event) : list Z :=
  match l with
  | [] => []
  | ScheduleOptimization _ m _ :: l' => m :: reported_makespans l'
  | _ :: l' => reported_makespans l'
  end.

(** [a] is a prefix of [b]. *)
Definition prefix {A} (a b : list A) : Prop := exists c, b = a ++ c.
