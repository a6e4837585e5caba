(** * Model of StochasticTunneling and OptimizerJob,
      src/stun/stochastic_tunneling.cpp, src/stun/optimizer_job.cpp

    A [StochasticTunneling] object points to a mutator, a makespan
    evaluator, a temperature and a random number source; an [OptimizerJob]
    owns the first three next to its [StochasticTunneling] and rebinds the
    pointers after every copy.  Here the job is one value, so the pointers
    always reach the job's own parts; the rebinding itself is the subject
    of BindingModel.v. *)

From Coq Require Import List ZArith Bool Arith.
From Flocq Require Import BinarySingleNaN.
From Verif Require Import Base F32 ProjectModel ScheduleModel MutatorModel
  MakespanModel TemperatureModel.
Import ListNotations.

(** [StochasticTunneling], stun/stochastic_tunneling.h:115-134.
    [schedule_buffer] is the concatenation of its three segments.
    [best_schedule] is always the first; [current_schedule] and
    [target_schedule] are the second and the third, or the third and the
    second if [st_swapped] (stun/stochastic_tunneling.cpp:83, 107 exchange
    the spans, not the contents).  [target_e] and [target_s] are
    uninitialised in a new object; they are 0 here and never read before
    being written. *)
Record stun_state := {
  st_best : list item;
  st_one : list item;
  st_two : list item;
  st_swapped : bool;
  st_current_e : f32;
  st_lowest_e : f32;
  st_target_e : f32;
  st_gamma : f32;
  st_current_s : f32;
  st_target_s : f32
}.

(** [current_schedule] and [target_schedule],
    stun/stochastic_tunneling.h:123-124. *)
Definition st_current (s : stun_state) : list item :=
  if st_swapped s then st_two s else st_one s.
(** [target_schedule], stun/stochastic_tunneling.h. *)
Definition st_target (s : stun_state) : list item :=
  if st_swapped s then st_one s else st_two s.

(** [OptimizerJob], stun/optimizer_job.h.  [jb_mutator] are the parameters
    the mutator points to, [jb_params] those the makespan evaluator points
    to. *)
Record job := {
  jb_batch : Z;
  jb_mutator : params;
  jb_params : params;
  jb_makespan : makespan_state;
  jb_temp : temperature;
  jb_stun : stun_state
}.

(** What one iteration takes from the random number source: the draws of
    the mutation (stun/utils.cpp:184-185, 205-210) and the result of
    [uniform_01] (stun/stochastic_tunneling.cpp:106, used only when the
    candidate is not better). *)
Record luck := Luck { lk_draws : draws; lk_uniform : f32 }.

(** Replace the [StochasticTunneling] part (no source counterpart). *)
Definition with_stun (j : job) (s : stun_state) : job :=
  {| jb_batch := jb_batch j; jb_mutator := jb_mutator j;
     jb_params := jb_params j; jb_makespan := jb_makespan j;
     jb_temp := jb_temp j; jb_stun := s |}.

(** [stun_fn], stun/stochastic_tunneling.cpp:19-28. *)
Definition stun_fn (o : oracles) (lowest energy gamma : f32) : outcome f32 :=
  _ <- expects (f_le f_zero lowest) ;;
  _ <- expects (f_le lowest energy) ;;
  let r := f_sub f_one (or_exp o (f_mul (f_opp gamma) (f_sub energy lowest))) in
  _ <- expects (f_le f_zero r && f_le r f_one) ;;
  Ok r.

(** Store a schedule in [target_schedule] (no source counterpart). *)
Definition set_target (s : stun_state) (t : list item) (e : f32) : stun_state :=
  {| st_best := st_best s;
     st_one := if st_swapped s then t else st_one s;
     st_two := if st_swapped s then st_two s else t;
     st_swapped := st_swapped s;
     st_current_e := st_current_e s; st_lowest_e := st_lowest_e s;
     st_target_e := e; st_gamma := st_gamma s;
     st_current_s := st_current_s s; st_target_s := st_target_s s |}.

(** [Impl::get_new_neighbor], stun/stochastic_tunneling.cpp:41-53. *)
Definition get_new_neighbor (j : job) (d : draws) : outcome job :=
  let s := jb_stun j in
  _ <- expects (negb (length (st_current s) =? 0)) ;;
  _ <- expects (negb (length (st_target s) =? 0)) ;;
  _ <- expects (length (st_current s) =? length (st_target s)) ;;
  t <- mutate (jb_mutator j) d (st_current s) ;;
  r <- makespan_eval (jb_params j) (jb_makespan j) t ;;
  _ <- expects (f_le f_zero (fst r)) ;;
  Ok {| jb_batch := jb_batch j; jb_mutator := jb_mutator j;
        jb_params := jb_params j; jb_makespan := snd r;
        jb_temp := jb_temp j; jb_stun := set_target s t (fst r) |}.

(** [Impl::neighbor_is_better], stun/stochastic_tunneling.cpp:62-88. *)
Definition neighbor_is_better (o : oracles) (s : stun_state)
  : outcome (bool * stun_state) :=
  _ <- expects (f_le f_zero (st_target_e s)) ;;
  _ <- expects (f_le f_zero (st_current_e s)) ;;
  _ <- expects (f_le f_zero (st_lowest_e s)) ;;
  _ <- expects (f_le (st_lowest_e s) (st_current_e s)) ;;
  _ <- expects (negb (length (st_target s) =? 0)) ;;
  _ <- expects (negb (length (st_current s) =? 0)) ;;
  _ <- expects (negb (length (st_best s) =? 0)) ;;
  if f_lt (st_target_e s) (st_current_e s) then
    if f_lt (st_target_e s) (st_lowest_e s) then
      cs <- stun_fn o (st_target_e s) (st_current_e s) (st_gamma s) ;;
      Ok (true,
          {| st_best := st_target s;
             st_one := st_one s; st_two := st_two s;
             st_swapped := negb (st_swapped s);
             st_current_e := st_target_e s; st_lowest_e := st_target_e s;
             st_target_e := st_target_e s; st_gamma := st_gamma s;
             st_current_s := cs; st_target_s := st_target_s s |})
    else
      Ok (true,
          {| st_best := st_best s;
             st_one := st_one s; st_two := st_two s;
             st_swapped := negb (st_swapped s);
             st_current_e := st_target_e s; st_lowest_e := st_lowest_e s;
             st_target_e := st_target_e s; st_gamma := st_gamma s;
             st_current_s := st_current_s s; st_target_s := st_target_s s |})
  else Ok (false, s).

(** [pr] of stun/stochastic_tunneling.cpp:103-105. *)
Definition acceptance (o : oracles) (temp target_s current_s : f32) : f32 :=
  f_min f_one (or_exp o (f_mul (f_opp temp) (f_sub target_s current_s))).

(** [Impl::perform_stun], stun/stochastic_tunneling.cpp:93-115. *)
Definition perform_stun (o : oracles) (u : f32) (j : job) : outcome job :=
  let s := jb_stun j in
  _ <- expects (f_le f_zero (st_target_e s)) ;;
  _ <- expects (f_le f_zero (st_lowest_e s)) ;;
  _ <- expects (f_le f_zero (st_current_s s)) ;;
  _ <- expects (negb (length (st_target s) =? 0)) ;;
  _ <- expects (negb (length (st_current s) =? 0)) ;;
  ts <- stun_fn o (st_lowest_e s) (st_target_e s) (st_gamma s) ;;
  if f_le u (acceptance o (tp_value (jb_temp j)) ts (st_current_s s)) then
    temp <- temperature_update o (jb_temp j) ts ;;
    _ <- expects (f_le f_zero ts) ;;
    Ok {| jb_batch := jb_batch j; jb_mutator := jb_mutator j;
          jb_params := jb_params j; jb_makespan := jb_makespan j;
          jb_temp := temp;
          jb_stun :=
            {| st_best := st_best s;
               st_one := st_one s; st_two := st_two s;
               st_swapped := negb (st_swapped s);
               st_current_e := st_target_e s; st_lowest_e := st_lowest_e s;
               st_target_e := st_target_e s; st_gamma := st_gamma s;
               st_current_s := ts; st_target_s := ts |} |}
  else
    _ <- expects (f_le f_zero ts) ;;
    _ <- expects (f_le f_zero (st_current_s s)) ;;
    Ok (with_stun j
          {| st_best := st_best s;
             st_one := st_one s; st_two := st_two s;
             st_swapped := st_swapped s;
             st_current_e := st_current_e s; st_lowest_e := st_lowest_e s;
             st_target_e := st_target_e s; st_gamma := st_gamma s;
             st_current_s := st_current_s s; st_target_s := ts |}).

(** [StochasticTunneling::update], stun/stochastic_tunneling.cpp:180-187. *)
Definition stun_update (o : oracles) (j : job) (k : luck) : outcome job :=
  _ <- expects (negb (length (st_current (jb_stun j)) =? 0)) ;;
  j1 <- get_new_neighbor j (lk_draws k) ;;
  r <- neighbor_is_better o (jb_stun j1) ;;
  let j2 := with_stun j1 (snd r) in
  if fst r then Ok j2 else perform_stun o (lk_uniform k) j2.

(** [Impl::prepare_schedules], stun/stochastic_tunneling.cpp:139-159:
    [schedule_buffer.resize(3 * n)] keeps the old contents and appends
    zeroed items; the spans go back to segments 0, 1, 2. *)
Definition prepare_schedules (s : stun_state) (n : nat) : outcome stun_state :=
  _ <- expects (0 <? n) ;;
  let buffer :=
    firstn (3 * n) (st_best s ++ st_one s ++ st_two s ++ repeat (Item 0 0) (3 * n)) in
  Ok {| st_best := firstn n buffer;
        st_one := firstn n (skipn n buffer);
        st_two := firstn n (skipn (2 * n) buffer);
        st_swapped := false;
        st_current_e := st_current_e s; st_lowest_e := st_lowest_e s;
        st_target_e := st_target_e s; st_gamma := st_gamma s;
        st_current_s := st_current_s s; st_target_s := st_target_s s |}.

(** [Impl::init_schedules], stun/stochastic_tunneling.cpp:166-177, called
    right after [prepare_schedules]. *)
Definition init_schedules (s : stun_state) (src : list item)
  : outcome stun_state :=
  _ <- expects (length src =? length (st_best s)) ;;
  _ <- expects (length src =? length (st_current s)) ;;
  _ <- expects (negb (length src =? 0)) ;;
  Ok {| st_best := src;
        st_one := if st_swapped s then st_one s else src;
        st_two := if st_swapped s then src else st_two s;
        st_swapped := st_swapped s;
        st_current_e := st_current_e s; st_lowest_e := st_lowest_e s;
        st_target_e := st_target_e s; st_gamma := st_gamma s;
        st_current_s := st_current_s s; st_target_s := st_target_s s |}.

(** [Impl::init_energies], stun/stochastic_tunneling.cpp:120-132. *)
Definition init_energies (o : oracles) (j : job) : outcome job :=
  let s := jb_stun j in
  _ <- expects (negb (length (st_current s) =? 0)) ;;
  r <- makespan_eval (jb_params j) (jb_makespan j) (st_current s) ;;
  let e := fst r in
  cs <- stun_fn o e e (st_gamma s) ;;
  _ <- expects (f_le f_zero e) ;;
  _ <- expects (f_le f_zero cs && f_le cs f_one) ;;
  Ok {| jb_batch := jb_batch j; jb_mutator := jb_mutator j;
        jb_params := jb_params j; jb_makespan := snd r;
        jb_temp := jb_temp j;
        jb_stun :=
          {| st_best := st_best s; st_one := st_one s; st_two := st_two s;
             st_swapped := st_swapped s;
             st_current_e := e; st_lowest_e := e;
             st_target_e := st_target_e s; st_gamma := st_gamma s;
             st_current_s := cs; st_target_s := st_target_s s |} |}.

(** [StochasticTunneling::reset], stun/stochastic_tunneling.cpp:189-195. *)
Definition stun_reset (o : oracles) (j : job) (src : list item) : outcome job :=
  _ <- expects (negb (length src =? 0)) ;;
  s1 <- prepare_schedules (jb_stun j) (length src) ;;
  s2 <- init_schedules s1 src ;;
  init_energies o (with_stun j s2).

(** [StochasticTunneling(const Options&)],
    stun/stochastic_tunneling.cpp:210-217: no schedules yet. *)
Definition stun_new (gamma : f32) : stun_state :=
  {| st_best := []; st_one := []; st_two := []; st_swapped := false;
     st_current_e := f_zero; st_lowest_e := f_zero; st_target_e := f_zero;
     st_gamma := gamma; st_current_s := f_zero; st_target_s := f_zero |}.

(** [OptimizerJob::Options], stun/optimizer_job.h, without the pointers. *)
Record options := {
  op_batch : Z;
  op_max_idle : Z;
  op_scale : f32;
  op_window : Z;
  op_gamma : f32;
  op_period : Z
}.

(** [OptimizerJob::OptimizerJob], stun/optimizer_job.cpp:20-40 (with
    [Mutator::Mutator], stun/utils.cpp:216-222, and the
    [StochasticTunneling] constructor of
    stun/stochastic_tunneling.cpp:219-226). *)
Definition job_new (o : oracles) (p : params) (op : options) : outcome job :=
  _ <- expects (negb (length (sp_deps p) =? 0)) ;;
  _ <- expects (negb (length (sp_agents p) =? 0)) ;;
  mk <- makespan_new p ;;
  temp <- temperature_new (op_scale op) (op_window op) (op_period op) ;;
  src <- initial_schedule p ;;
  _ <- expects (negb (length src =? 0)) ;;
  j <- stun_reset o
         {| jb_batch := op_batch op; jb_mutator := p; jb_params := p;
            jb_makespan := mk; jb_temp := temp;
            jb_stun := stun_new (op_gamma op) |} src ;;
  _ <- expects (0 <? op_batch op)%Z ;;
  Ok j.

(** The loop of stun/optimizer_job.cpp:46 over the given iterations. *)
Fixpoint stun_run (o : oracles) (j : job) (ks : list luck) : outcome job :=
  match ks with
  | [] => Ok j
  | k :: ks' => j' <- stun_update o j k ;; stun_run o j' ks'
  end.

(** [OptimizerJob::update], stun/optimizer_job.cpp:42-47: [batch_size]
    iterations, fed by the stream [ks]. *)
Definition job_update (o : oracles) (j : job) (ks : nat -> luck) : outcome job :=
  _ <- expects (0 <? jb_batch j)%Z ;;
  stun_run o j (map ks (seq 0 (Z.to_nat (jb_batch j)))).

(** [OptimizerJob::schedule], [OptimizerJob::normalized_makespan],
    stun/optimizer_job.cpp:49-57, stun/stochastic_tunneling.cpp:197-208. *)
Definition job_schedule (j : job) : list item := st_best (jb_stun j).
(** stun/optimizer_job.cpp:54-57. *)
Definition job_best (j : job) : f32 := st_lowest_e (jb_stun j).

(** [OptimizerJob::reset], stun/optimizer_job.cpp:59-65. *)
Definition job_reset (o : oracles) (j : job) : outcome job :=
  _ <- expects (0 <? jb_batch j)%Z ;;
  src <- initial_schedule (jb_mutator j) ;;
  j1 <- stun_reset o j src ;;
  temp <- temperature_reset (jb_temp j1) ;;
  Ok {| jb_batch := jb_batch j1; jb_mutator := jb_mutator j1;
        jb_params := jb_params j1; jb_makespan := jb_makespan j1;
        jb_temp := temp; jb_stun := jb_stun j1 |}.

(** [StochasticTunneling(const StochasticTunneling&)],
    stun/stochastic_tunneling.cpp:228-244. *)
Definition stun_copy (s : stun_state) : outcome stun_state :=
  if length (st_best s) =? 0 then Ok s
  else prepare_schedules s (length (st_best s)).

(** [Makespan(const Makespan&)], stun/utils.cpp:93-97. *)
Definition makespan_copy (p : params) (m : makespan_state)
  : outcome makespan_state :=
  m' <- makespan_new p ;;
  _ <- expects (length (mk_task m') + length (mk_work m')
                =? length (mk_task m) + length (mk_work m)) ;;
  Ok m'.

(** [OptimizerJob(const OptimizerJob&)], stun/optimizer_job.cpp:67-81; also
    the copy assignment, stun/optimizer_job.cpp:99-104, which moves such a
    copy into place (moves keep all values: stun/optimizer_job.cpp:106-122,
    stun/stochastic_tunneling.cpp:256-277, stun/utils.cpp:107-118,
    stun/temperature.cpp:81-89). *)
Definition job_copy (j : job) : outcome job :=
  m <- makespan_copy (jb_params j) (jb_makespan j) ;;
  s <- stun_copy (jb_stun j) ;;
  Ok {| jb_batch := jb_batch j; jb_mutator := jb_mutator j;
        jb_params := jb_params j; jb_makespan := m;
        jb_temp := jb_temp j; jb_stun := s |}.

(** [OptimizerJob::params(const Params&)], stun/optimizer_job.cpp:124-135:
    the mutator gets the new parameters, the makespan evaluator keeps the
    old ones. *)
Definition job_set_params (j : job) (p : params) : job :=
  {| jb_batch := jb_batch j; jb_mutator := p;
     jb_params := jb_params j; jb_makespan := jb_makespan j;
     jb_temp := jb_temp j; jb_stun := jb_stun j |}.
