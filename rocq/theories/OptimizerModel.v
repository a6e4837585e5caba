(** * Model of the Optimizer, src/stun/optimizer.cpp, and of the single
      precision curve fitter, src/stun/exp_curve_fitter.cpp *)

From Coq Require Import List ZArith Bool Arith.
From Flocq Require Import BinarySingleNaN.
From Verif Require Import Base F32 ProjectModel ScheduleModel TemperatureModel
  StunModel.
Import ListNotations.

(** [std::fma] (stun/exp_curve_fitter.cpp:33, 37, 43). *)
Definition f_fma (x y z : f32) : f32 := Bfma mode_NE x y z.

(** [ExpCurveFitter], stun/exp_curve_fitter.h. *)
Record curve := {
  cv_xxy : f32; cv_ylogy : f32; cv_xy : f32; cv_xylogy : f32; cv_sumy : f32;
  cv_a : f32; cv_b : f32; cv_divisor : f32
}.

(** The default constructor, stun/exp_curve_fitter.h, and
    [ExpCurveFitter::reset], stun/exp_curve_fitter.cpp:6-18. *)
Definition curve_new : curve :=
  {| cv_xxy := f_zero; cv_ylogy := f_zero; cv_xy := f_zero;
     cv_xylogy := f_zero; cv_sumy := f_zero; cv_a := f_zero; cv_b := f_zero;
     cv_divisor := f_zero |}.

(** [ExpCurveFitter::operator()], stun/exp_curve_fitter.cpp:20-38. *)
Definition curve_add (o : oracles) (c : curve) (x y : f32)
  : outcome (f32 * curve) :=
  _ <- expects (f_le f_zero x) ;;
  _ <- expects (f_le f_zero y) ;;
  let xy1 := f_mul x y in
  let ylogy1 := f_mul y (or_log o y) in
  let xxy := f_add (cv_xxy c) (f_mul x xy1) in
  let ylogy := f_add (cv_ylogy c) ylogy1 in
  let xy := f_add (cv_xy c) xy1 in
  let xylogy := f_add (cv_xylogy c) (f_mul x ylogy1) in
  let sumy := f_add (cv_sumy c) y in
  let divisor := f_fma sumy xxy (f_mul (f_opp xy) xy) in
  if f_eq divisor f_zero then
    Ok (f_zero,
        {| cv_xxy := xxy; cv_ylogy := ylogy; cv_xy := xy; cv_xylogy := xylogy;
           cv_sumy := sumy; cv_a := cv_a c; cv_b := cv_b c;
           cv_divisor := divisor |})
  else
    let a := f_div (f_sub (f_mul xxy ylogy) (f_mul xy xylogy)) divisor in
    let b := f_div (f_sub (f_mul sumy xylogy) (f_mul xy ylogy)) divisor in
    Ok (or_exp o (f_fma b x a),
        {| cv_xxy := xxy; cv_ylogy := ylogy; cv_xy := xy; cv_xylogy := xylogy;
           cv_sumy := sumy; cv_a := a; cv_b := b; cv_divisor := divisor |}).

(** [ExpCurveFitter::at], stun/exp_curve_fitter.cpp:40-44. *)
Definition curve_at (o : oracles) (c : curve) (x : f32) : f32 :=
  if f_eq (cv_divisor c) f_zero then f_zero
  else or_exp o (f_fma (cv_b c) x (cv_a c)).

(** [Optimizer], stun/optimizer.h:112-138.  The [RandomUtils] of the job
    slots are outside the model: every iteration is given its random
    numbers ([luck]). *)
Record optimizer := {
  oz_batch : Z;
  oz_max_idle : Z;
  oz_idle : Z;
  oz_epochs : Z;
  oz_progress : f32;
  oz_last : f32;
  oz_curve : curve;
  oz_jobs : list job
}.

(** [Optimizer::Optimizer], stun/optimizer.cpp:152-168, with [threads] the
    result of [omp_get_max_threads()] (1 without OpenMP), and
    [JobSlot::JobSlot], stun/optimizer.cpp:134-150. *)
Definition optimizer_new (o : oracles) (p : params) (op : options)
  (threads : nat) : outcome optimizer :=
  _ <- expects (0 <? op_batch op)%Z ;;
  _ <- expects (0 <? op_max_idle op)%Z ;;
  jobs <- map_outcome (fun _ => job_new o p op) (seq 0 threads) ;;
  _ <- expects (negb (length jobs =? 0)) ;;
  Ok {| oz_batch := op_batch op; oz_max_idle := op_max_idle op;
        oz_idle := 0; oz_epochs := 0; oz_progress := f_zero;
        oz_last := f_zero; oz_curve := curve_new; oz_jobs := jobs |}.

(** [Impl::best_job], stun/optimizer.cpp:96-101. *)
Definition best_job (z : optimizer) : outcome job := at_index (oz_jobs z) 0.

(** [Optimizer::schedule], [Optimizer::normalized_makespan],
    [Optimizer::current_epoch], stun/optimizer.cpp:210-222, 255-260. *)
Definition optimizer_schedule (z : optimizer) : outcome (list item) :=
  j <- best_job z ;; Ok (job_schedule j).
(** stun/optimizer.cpp:216-222. *)
Definition optimizer_best (z : optimizer) : outcome f32 :=
  j <- best_job z ;; Ok (job_best j).

(** [ranges::min] of stun/optimizer.cpp:117-120: keeps the running result
    unless the next job is better. *)
Definition min_job (j : job) (l : list job) : job :=
  fold_left (fun r k => if f_lt (job_best k) (job_best r) then k else r) l j.

(** [Impl::replicate_best_job], stun/optimizer.cpp:113-130.  [ranges::min]
    returns a copy of the best slot; every job that is worse becomes a copy
    of that copy and is rebound to the parameters of the first job. *)
Definition replicate_best_job (jobs : list job) : outcome (list job) :=
  match jobs with
  | [] => Broken
  | j0 :: rest =>
      target <- job_copy (min_job j0 rest) ;;
      let params := jb_mutator j0 in
      map_outcome
        (fun j =>
           if f_eq (job_best j) (job_best target) then Ok j
           else c <- job_copy target ;; Ok (job_set_params c params)) jobs
  end.

(** [Impl::progress], stun/optimizer.cpp:41-48. *)
Definition idle_progress (z : optimizer) : outcome f32 :=
  _ <- expects (0 <? oz_max_idle z)%Z ;;
  _ <- expects (0 <=? oz_idle z)%Z ;;
  Ok (f_div (f_of_Z (oz_idle z)) (f_of_Z (oz_max_idle z))).

(** [Impl::interpolate_progress], stun/optimizer.cpp:56-67. *)
Definition interpolate_progress (o : oracles) (z : optimizer)
  : outcome optimizer :=
  _ <- expects (0 <=? oz_epochs z)%Z ;;
  p <- idle_progress z ;;
  let next_expected := curve_at o (oz_curve z) (f_of_Z (oz_epochs z + 1)) in
  let next_epoch := f_add (f_of_Z (oz_epochs z)) (f_div p next_expected) in
  Ok {| oz_batch := oz_batch z; oz_max_idle := oz_max_idle z;
        oz_idle := oz_idle z; oz_epochs := oz_epochs z;
        oz_progress := f_min (curve_at o (oz_curve z) next_epoch) f_one;
        oz_last := oz_last z; oz_curve := oz_curve z; oz_jobs := oz_jobs z |}.

(** [Impl::estimate_progress], stun/optimizer.cpp:75-89. *)
Definition estimate_progress (o : oracles) (z : optimizer)
  : outcome optimizer :=
  _ <- expects (0 <=? oz_epochs z)%Z ;;
  p <- idle_progress z ;;
  m <- optimizer_best z ;;
  let epochs := (oz_epochs z + 1)%Z in
  r <- curve_add o (oz_curve z) (f_of_Z epochs) p ;;
  let progress := f_min (fst r) f_one in
  _ <- expects (0 <? epochs)%Z ;;
  _ <- expects (f_le f_zero progress) ;;
  Ok {| oz_batch := oz_batch z; oz_max_idle := oz_max_idle z;
        oz_idle := 0; oz_epochs := epochs; oz_progress := progress;
        oz_last := m; oz_curve := snd r; oz_jobs := oz_jobs z |}.

(** The jobs are updated in parallel (stun/optimizer.cpp:175-181).  They
    share nothing that is written, so here they are updated one after the
    other; see [interleaved] below and OptimizerProps.v.  [ks i] are the random
    numbers of job [i]. *)
Fixpoint update_jobs (o : oracles) (i : nat) (jobs : list job)
  (ks : nat -> nat -> luck) : outcome (list job) :=
  match jobs with
  | [] => Ok []
  | j :: rest =>
      j' <- job_update o j (ks i) ;;
      rest' <- update_jobs o (S i) rest ks ;;
      Ok (j' :: rest')
  end.

(** [Optimizer::update], stun/optimizer.cpp:170-190, as built with OpenMP
    (the default).  The other branch is in SerialModel.v. *)
Definition optimizer_update (o : oracles) (z : optimizer)
  (ks : nat -> nat -> luck) : outcome optimizer :=
  _ <- expects (0 <? oz_batch z)%Z ;;
  _ <- expects (negb (length (oz_jobs z) =? 0)) ;;
  jobs <- update_jobs o 0 (oz_jobs z) ks ;;
  jobs <- replicate_best_job jobs ;;
  let z1 := {| oz_batch := oz_batch z; oz_max_idle := oz_max_idle z;
               oz_idle := (oz_idle z + oz_batch z)%Z; oz_epochs := oz_epochs z;
               oz_progress := oz_progress z; oz_last := oz_last z;
               oz_curve := oz_curve z; oz_jobs := jobs |} in
  m <- optimizer_best z1 ;;
  if f_eq m (oz_last z1) then interpolate_progress o z1
  else estimate_progress o z1.

(** [Optimizer::has_converged], stun/optimizer.cpp:192-197. *)
Definition has_converged (z : optimizer) : bool :=
  (oz_max_idle z <=? oz_idle z)%Z.

(** [Optimizer::estimated_progress], stun/optimizer.cpp:199-208. *)
Definition estimated_progress (z : optimizer) : f32 :=
  if has_converged z then f_one
  else if (oz_epochs z <? 5)%Z then f_zero
  else oz_progress z.

(** [Optimizer::reset], stun/optimizer.cpp:224-237. *)
Definition optimizer_reset (o : oracles) (z : optimizer) : outcome optimizer :=
  _ <- expects (0 <? oz_max_idle z)%Z ;;
  _ <- expects (0 <? oz_batch z)%Z ;;
  _ <- expects (negb (length (oz_jobs z) =? 0)) ;;
  jobs <- map_outcome (job_reset o) (oz_jobs z) ;;
  Ok {| oz_batch := oz_batch z; oz_max_idle := oz_max_idle z;
        oz_idle := 0; oz_epochs := 0; oz_progress := f_zero;
        oz_last := f_zero; oz_curve := curve_new; oz_jobs := jobs |}.

(** [Optimizer::params(const ScheduleParams&)], stun/optimizer.cpp:239-246. *)
Definition optimizer_set_params (z : optimizer) (p : params)
  : outcome optimizer :=
  _ <- expects (negb (length (oz_jobs z) =? 0)) ;;
  Ok {| oz_batch := oz_batch z; oz_max_idle := oz_max_idle z;
        oz_idle := oz_idle z; oz_epochs := oz_epochs z;
        oz_progress := oz_progress z; oz_last := oz_last z;
        oz_curve := oz_curve z;
        oz_jobs := map (fun j => job_set_params j p) (oz_jobs z) |}.

(** The implicit copy constructor of [Optimizer], stun/optimizer.h:112-138:
    every job is copied.  (The copied jobs keep pointing to the random
    number sources of the original slots, see BindingModel.v.) *)
Definition optimizer_copy (z : optimizer) : outcome optimizer :=
  jobs <- map_outcome job_copy (oz_jobs z) ;;
  Ok {| oz_batch := oz_batch z; oz_max_idle := oz_max_idle z;
        oz_idle := oz_idle z; oz_epochs := oz_epochs z;
        oz_progress := oz_progress z; oz_last := oz_last z;
        oz_curve := oz_curve z; oz_jobs := jobs |}.

(** The parallel loop of stun/optimizer.cpp:176-177 as threads may execute
    it: [order] says which job does its next iteration.  [done] counts the
    iterations of each job. *)
Fixpoint interleaved (o : oracles) (jobs : list job) (done : list nat)
  (ks : nat -> nat -> luck) (order : list nat) : outcome (list job) :=
  match order with
  | [] => Ok jobs
  | i :: order' =>
      j <- at_index jobs i ;;
      c <- at_index done i ;;
      j' <- stun_update o j (ks i c) ;;
      interleaved o (set_nth jobs i j') (set_nth done i (S c)) ks order'
  end.

(** [n] updates in a row, predict.cpp:73-79; [ks i] are the random numbers
    of update [i]. *)
Fixpoint optimizer_run (o : oracles) (z : optimizer)
  (ks : nat -> nat -> nat -> luck) (n : nat) : outcome optimizer :=
  match n with
  | O => Ok z
  | S n' => z' <- optimizer_run o z ks n' ;; optimizer_update o z' (ks n')
  end.
