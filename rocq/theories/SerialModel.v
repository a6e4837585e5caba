(** * Model of a build without OpenMP, the other branches of
      src/stun/optimizer.cpp:159-163 and 175-181 *)

From Coq Require Import List ZArith Bool Arith.
From Verif Require Import Base F32 ProjectModel ScheduleModel TemperatureModel StunModel OptimizerModel
  HistogramModel SimulationModel PredictModel.
Import ListNotations.

(** [Optimizer::Optimizer] without OpenMP, stun/optimizer.cpp:152-168: the
    number of jobs is the constant of line 162. *)
Definition optimizer_new_serial (o : oracles) (p : params) (op : options) : outcome optimizer :=
  optimizer_new o p op 1.

(** [Optimizer::update] without OpenMP, stun/optimizer.cpp:170-190: line 180
    updates the first job in place, and nothing is replicated. *)
Definition optimizer_update_serial (o : oracles) (z : optimizer) (ks : nat -> luck)
  : outcome optimizer :=
  _ <- expects (0 <? oz_batch z)%Z ;;
  _ <- expects (negb (length (oz_jobs z) =? 0)) ;;
  j <- at_index (oz_jobs z) 0 ;;
  j' <- job_update o j ks ;;
  let z1 := {| oz_batch := oz_batch z; oz_max_idle := oz_max_idle z;
               oz_idle := (oz_idle z + oz_batch z)%Z; oz_epochs := oz_epochs z;
               oz_progress := oz_progress z; oz_last := oz_last z;
               oz_curve := oz_curve z; oz_jobs := set_nth (oz_jobs z) 0 j' |} in
  m <- optimizer_best z1 ;;
  if f_eq m (oz_last z1) then interpolate_progress o z1
  else estimate_progress o z1.

(** The loop of predict.cpp:73-79 in such a build; [ks n] are the random
    numbers of update [n]. *)
Fixpoint optimize_loop_serial (fuel : nat) (o : oracles) (p : params)
  (ks : nat -> nat -> luck) (n : nat) (z : optimizer) : work optimizer :=
  if has_converged z then quietly (Ok z)
  else
    match fuel with
    | O => quietly NoFuel
    | S fuel' =>
        andthen (quietly (optimizer_update_serial o z (ks n))) (fun z' =>
        andthen (quietly (makespan_seconds z' p)) (fun s =>
        andthen (enqueue (ScheduleOptimization (estimated_progress z') s (oz_epochs z'))) (fun _ =>
        optimize_loop_serial fuel' o p ks (S n) z')))
    end.

(** [optimize], predict.cpp:48-85, in such a build. *)
Definition optimize_serial (fuel : nat) (o : oracles) (p : params) (op : options)
  (ks : nat -> nat -> luck) : work optimized :=
  andthen (quietly (expects (negb (length (sp_perf p) =? 0)))) (fun _ =>
  andthen (quietly (expects (negb (length (sp_dur p) =? 0)))) (fun _ =>
  andthen (quietly (expects (negb (length (sp_agents p) =? 0)))) (fun _ =>
  andthen (quietly (expects (length (sp_agents p) =? length (sp_dur p)))) (fun _ =>
  andthen (quietly (optimizer_new_serial o p op)) (fun z =>
  andthen (optimize_loop_serial fuel o p ks 0 z) (fun z' =>
  andthen (quietly (optimizer_schedule z')) (fun s =>
  andthen (quietly (makespan_seconds z' p)) (fun m =>
  quietly (Ok {| os_schedule := s; os_makespan := m |}))))))))).

(** The worker of [predict], predict.cpp:96-114, in such a build. *)
Definition predict_serial (fuel : nat) (o : oracles) (ac : accumulators) (pr : project)
  (bin_size : option Z) (op : options) (ks : nat -> nat -> luck) (draws : list f32) : work prediction :=
  andthen (enqueue ScheduleOptimizationStart) (fun _ =>
  andthen (quietly (to_schedule_params pr)) (fun p =>
  andthen (optimize_serial fuel o p op ks) (fun r =>
  andthen (enqueue (ScheduleOptimizationComplete (os_makespan r))) (fun _ =>
  andthen (enqueue SimulationStart) (fun _ =>
  andthen (quietly (make_histogram fuel ac pr bin_size (os_makespan r) (os_schedule r) draws)) (fun h =>
  andthen (quietly (stats h)) (fun st =>
  andthen (enqueue Finished) (fun _ =>
  quietly (Ok {| pd_histogram := h; pd_stats := st; pd_schedule := os_schedule r;
                 pd_makespan := os_makespan r |}))))))))).

(** The worker of [schedule], predict.cpp:125-135, in such a build. *)
Definition schedule_serial (fuel : nat) (o : oracles) (pr : project) (op : options)
  (ks : nat -> nat -> luck) : work optimized :=
  andthen (enqueue ScheduleOptimizationStart) (fun _ =>
  andthen (quietly (to_schedule_params pr)) (fun p =>
  andthen (optimize_serial fuel o p op ks) (fun r =>
  andthen (enqueue (ScheduleOptimizationComplete (os_makespan r))) (fun _ =>
  andthen (enqueue Finished) (fun _ =>
  quietly (Ok r)))))).
