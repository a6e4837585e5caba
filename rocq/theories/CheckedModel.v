(** * Model of the checked counters of the optimizer, src/stun/optimizer.cpp
      and src/stun/optimizer_job.cpp

    In a debug build [int32] is [boost::safe_numerics::safe] over
    [std::int_fast32_t] (stun/schedule.h:15), which has 64 bits with glibc on
    x86-64; a result out of range throws.  In a release build it is the plain
    integer (stun/schedule.h:19), and a result out of range is undefined.
    Both are [Broken] here.  OptimizerModel.v computes the counters in [Z]. *)

From Coq Require Import List ZArith Bool Arith.
From Verif Require Import Base F32 ProjectModel ScheduleModel TemperatureModel StunModel OptimizerModel
  HistogramModel IteratorModel.
Import ListNotations.

(** The loop of [OptimizerJob::update], stun/optimizer_job.cpp:46. *)
Fixpoint batch_loop_safe (fuel : nat) (o : oracles) (ks : nat -> luck) (i : Z) (j : job) : outcome job :=
  if (i <? jb_batch j)%Z then
    match fuel with
    | O => NoFuel
    | S fuel' =>
        j' <- stun_update o j (ks (Z.to_nat i)) ;;
        i' <- safe (i + 1)%Z ;;
        batch_loop_safe fuel' o ks i' j'
    end
  else Ok j.

(** [OptimizerJob::update], stun/optimizer_job.cpp:42-47, with the checks. *)
Definition job_update_safe (fuel : nat) (o : oracles) (j : job) (ks : nat -> luck) : outcome job :=
  _ <- expects (0 <? jb_batch j)%Z ;;
  batch_loop_safe fuel o ks 0 j.

(** The parallel loop, stun/optimizer.cpp:175-177, with the checks. *)
Fixpoint update_jobs_safe (fuel : nat) (o : oracles) (i : nat) (jobs : list job)
  (ks : nat -> nat -> luck) : outcome (list job) :=
  match jobs with
  | [] => Ok []
  | j :: rest =>
      j' <- job_update_safe fuel o j (ks i) ;;
      rest' <- update_jobs_safe fuel o (S i) rest ks ;;
      Ok (j' :: rest')
  end.

(** [Impl::interpolate_progress], stun/optimizer.cpp:56-67, with the check of
    line 62. *)
Definition interpolate_progress_safe (o : oracles) (z : optimizer) : outcome optimizer :=
  _ <- expects (0 <=? oz_epochs z)%Z ;;
  p <- idle_progress z ;;
  next <- safe (oz_epochs z + 1)%Z ;;
  let next_expected := curve_at o (oz_curve z) (f_of_Z next) in
  let next_epoch := f_add (f_of_Z (oz_epochs z)) (f_div p next_expected) in
  Ok {| oz_batch := oz_batch z; oz_max_idle := oz_max_idle z;
        oz_idle := oz_idle z; oz_epochs := oz_epochs z;
        oz_progress := f_min (curve_at o (oz_curve z) next_epoch) f_one;
        oz_last := oz_last z; oz_curve := oz_curve z; oz_jobs := oz_jobs z |}.

(** [Impl::estimate_progress], stun/optimizer.cpp:75-89, with the check of
    line 82. *)
Definition estimate_progress_safe (o : oracles) (z : optimizer) : outcome optimizer :=
  _ <- expects (0 <=? oz_epochs z)%Z ;;
  p <- idle_progress z ;;
  m <- optimizer_best z ;;
  epochs <- safe (oz_epochs z + 1)%Z ;;
  r <- curve_add o (oz_curve z) (f_of_Z epochs) p ;;
  let progress := f_min (fst r) f_one in
  _ <- expects (0 <? epochs)%Z ;;
  _ <- expects (f_le f_zero progress) ;;
  Ok {| oz_batch := oz_batch z; oz_max_idle := oz_max_idle z;
        oz_idle := 0; oz_epochs := epochs; oz_progress := progress;
        oz_last := m; oz_curve := snd r; oz_jobs := oz_jobs z |}.

(** [Optimizer::update], stun/optimizer.cpp:170-190, with the check of
    line 182. *)
Definition optimizer_update_safe (fuel : nat) (o : oracles) (z : optimizer)
  (ks : nat -> nat -> luck) : outcome optimizer :=
  _ <- expects (0 <? oz_batch z)%Z ;;
  _ <- expects (negb (length (oz_jobs z) =? 0)) ;;
  jobs <- update_jobs_safe fuel o 0 (oz_jobs z) ks ;;
  jobs <- replicate_best_job jobs ;;
  idle <- safe (oz_idle z + oz_batch z)%Z ;;
  let z1 := {| oz_batch := oz_batch z; oz_max_idle := oz_max_idle z;
               oz_idle := idle; oz_epochs := oz_epochs z;
               oz_progress := oz_progress z; oz_last := oz_last z;
               oz_curve := oz_curve z; oz_jobs := jobs |} in
  m <- optimizer_best z1 ;;
  if f_eq m (oz_last z1) then interpolate_progress_safe o z1
  else estimate_progress_safe o z1.

(** The loop of predict.cpp:73-79 with checked counters, without its
    events; [ks n] are the random numbers of update [n]. *)
Fixpoint optimize_safe (fuel inner : nat) (o : oracles) (ks : nat -> nat -> nat -> luck) (n : nat) (z : optimizer)
  : outcome optimizer :=
  if has_converged z then Ok z
  else match fuel with
  | O => NoFuel
  | S fuel' => z' <- optimizer_update_safe inner o z (ks n) ;; optimize_safe fuel' inner o ks (S n) z'
  end.

(** The same loop with exact counters, predict.cpp:73-79. *)
Fixpoint optimize_exact (fuel : nat) (o : oracles) (ks : nat -> nat -> nat -> luck) (n : nat) (z : optimizer)
  : outcome optimizer :=
  if has_converged z then Ok z
  else match fuel with
  | O => NoFuel
  | S fuel' => z' <- optimizer_update o z (ks n) ;; optimize_exact fuel' o ks (S n) z'
  end.
