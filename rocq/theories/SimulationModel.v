(** * Model of src/simulation.cpp: the simulation and the histogram of its
      runs

    Random numbers are the elements of a list that is consumed; the list is
    the sequence of values produced by [RandomUtils::normal]
    (stun/random_utils.cpp:23-32), whatever the distribution is.  An
    exhausted list is [NoFuel].  The four spans of one buffer are four
    lists. *)

From Coq Require Import List ZArith Bool Arith.
From Flocq Require Import BinarySingleNaN.
From Verif Require Import Base F32 ProjectModel ScheduleModel HistogramModel.
Import ListNotations.

(** [Simulation], simulation.h:71-79: the project and the spans
    [agent_performance], [task_duration], [agent_work_end], [task_done]. *)
Record simulation := {
  si_config : project;
  si_perf : list f32;
  si_dur : list f32;
  si_work : list f32;
  si_done : list f32
}.

(** [buffer.resize(...)] followed by reassigning the spans,
    simulation.cpp:91-122, for the old contents [old] of the whole
    buffer: what was there stays, new places are zero. *)
Definition assign_buffers (p : project) (old : list f32) : outcome simulation :=
  let na := length (pr_agents p) in
  let nt := length (pr_tasks p) in
  _ <- expects (negb (na =? 0)) ;;
  _ <- expects (negb (nt =? 0)) ;;
  let size := na * 2 + nt * 2 in
  let buffer := firstn size (old ++ repeat f_zero size) in
  Ok {| si_config := p;
        si_perf := firstn na buffer;
        si_dur := firstn nt (skipn na buffer);
        si_work := firstn na (skipn (na + nt) buffer);
        si_done := firstn nt (skipn (na + nt + na) buffer) |}.

(** The whole buffer of a simulation, simulation.h:75. *)
Definition si_buffer (s : simulation) : list f32 :=
  si_perf s ++ si_dur s ++ si_work s ++ si_done s.

(** [Simulation::Simulation(params)], simulation.cpp:233-250. *)
Definition sim_new (p : project) : outcome simulation := assign_buffers p [].

(** [Simulation::params(params)], simulation.cpp:257-274: the buffer is
    resized, its contents stay. *)
Definition sim_rebind (s : simulation) (p : project) : outcome simulation :=
  _ <- expects (negb (length (pr_agents (si_config s)) =? 0)) ;;
  _ <- expects (negb (length (pr_tasks (si_config s)) =? 0)) ;;
  assign_buffers p (si_buffer s).

(** Copy construction and assignment, simulation.cpp:305-316 and
    320-334. *)
Definition sim_copy (s : simulation) : outcome simulation :=
  _ <- expects (negb (length (si_buffer s) =? 0)) ;;
  assign_buffers (si_config s) (si_buffer s).

(** [RandomUtils::normal], stun/random_utils.cpp:23-32. *)
Definition normal (lo hi : f32) (draws : list f32) : outcome (f32 * list f32) :=
  _ <- expects (f_lt lo hi) ;;
  _ <- expects (f_le f_zero lo) ;;
  match draws with
  | [] => NoFuel
  | x :: rest => Ok (x, rest)
  end.

(** [x = normal(min, max); while (x <= 0.F) x = normal(min, max);],
    simulation.cpp:144-145 and 173-175. *)
Fixpoint draw_positive (lo hi : f32) (draws : list f32) : outcome (f32 * list f32) :=
  r <- normal lo hi draws ;;
  if f_le (fst r) f_zero
  then match draws with [] => NoFuel | _ :: rest => draw_positive lo hi rest end
  else Ok r.

(** One value: the bound itself if both bounds are equal, else a random
    one; the bodies of the loops of simulation.cpp:136-148 and 163-178. *)
Definition sample (lo hi : f32) (draws : list f32) : outcome (f32 * list f32) :=
  if f_eq lo hi then Ok (lo, draws) else draw_positive lo hi draws.

(** A range-for loop that fills a span with samples, simulation.cpp:136
    and 163. *)
Fixpoint samples_for (bounds : list (f32 * f32)) (draws : list f32)
  : outcome (list f32 * list f32) :=
  match bounds with
  | [] => Ok ([], draws)
  | b :: bounds' =>
      r <- sample (fst b) (snd b) draws ;;
      rs <- samples_for bounds' (snd r) ;;
      Ok (fst r :: fst rs, snd rs)
  end.

(** The bounds used by [random_agent_performances],
    simulation.cpp:137-138. *)
Definition perf_bounds (a : agent) : f32 * f32 :=
  (perf_min (ag_perf a), perf_max (ag_perf a)).

(** The bounds used by [random_task_durations], simulation.cpp:164-167. *)
Definition duration_bounds (t : task) : f32 * f32 :=
  (f_of_Z (tk_min t), f_of_Z (tk_max t)).

(** [random_agent_performances], simulation.cpp:129-149. *)
Definition random_agent_performances (s : simulation) (draws : list f32)
  : outcome (list f32 * list f32) :=
  _ <- expects (negb (length (pr_agents (si_config s)) =? 0)) ;;
  _ <- expects (length (pr_agents (si_config s)) =? length (si_perf s)) ;;
  samples_for (map perf_bounds (pr_agents (si_config s))) draws.

(** [random_task_durations], simulation.cpp:156-179. *)
Definition random_task_durations (s : simulation) (draws : list f32)
  : outcome (list f32 * list f32) :=
  _ <- expects (negb (length (pr_tasks (si_config s)) =? 0)) ;;
  _ <- expects (length (pr_tasks (si_config s)) =? length (si_dur s)) ;;
  samples_for (map duration_bounds (pr_tasks (si_config s))) draws.

(** [task_duration], simulation.cpp:192-209. *)
Definition sim_task_duration (s : simulation) (t a : nat) : outcome f32 :=
  _ <- expects (a <? length (pr_agents (si_config s))) ;;
  _ <- expects (t <? length (pr_tasks (si_config s))) ;;
  q <- at_index (si_perf s) a ;;
  d <- at_index (si_dur s) t ;;
  _ <- expects (f_lt f_zero q) ;;
  _ <- expects (f_lt f_zero d) ;;
  Ok (f_div d q).

(** [dependencies_done], simulation.cpp:219-230. *)
Definition sim_dependencies_done (s : simulation) (deps : list nat) : outcome f32 :=
  _ <- expects (negb (length (si_done s) =? 0)) ;;
  match deps with
  | [] => Ok f_zero
  | _ =>
      ends <- map_outcome (at_index (si_done s)) deps ;;
      Ok (f_max_list f_zero ends)
  end.

(** One iteration of the loop of simulation.cpp:290-299. *)
Definition sim_step (s : simulation) (x : item) : outcome simulation :=
  t <- at_index (pr_tasks (si_config s)) (it_task x) ;;
  dd <- sim_dependencies_done s (tk_deps t) ;;
  w <- at_index (si_work s) (it_agent x) ;;
  d <- sim_task_duration s (it_task x) (it_agent x) ;;
  let done := f_add (f_max dd w) d in
  _ <- at_index (si_done s) (it_task x) ;;
  Ok {| si_config := si_config s; si_perf := si_perf s; si_dur := si_dur s;
        si_work := set_nth (si_work s) (it_agent x) done;
        si_done := set_nth (si_done s) (it_task x) done |}.

(** The loop of simulation.cpp:290-299. *)
Fixpoint sim_loop (s : simulation) (l : list item) : outcome simulation :=
  match l with
  | [] => Ok s
  | x :: l' => s' <- sim_step s x ;; sim_loop s' l'
  end.

(** [static_cast<rep>], simulation.cpp:300-302: undefined unless the
    truncated value fits 64 bits. *)
Definition to_rep (x : f32) : outcome Z :=
  match f_trunc x with
  | Some z => _ <- expects ((- 2 ^ 63 <=? z) && (z <? 2 ^ 63))%Z ;; Ok z
  | None => Broken
  end.

(** What a run of the simulation leaves behind: its result, the state of
    the object and the random numbers not yet used (simulation.cpp:276-303). *)
Record sim_result := { sr_makespan : Z; sr_state : simulation; sr_draws : list f32 }.

(** [Simulation::operator()], simulation.cpp:276-303. *)
Definition sim_run (s : simulation) (l : list item) (draws : list f32)
  : outcome sim_result :=
  _ <- expects (negb (length (si_buffer s) =? 0)) ;;
  _ <- expects (negb (length (si_perf s) =? 0)) ;;
  _ <- expects (negb (length (si_dur s) =? 0)) ;;
  _ <- expects (negb (length (si_work s) =? 0)) ;;
  _ <- expects (negb (length (si_done s) =? 0)) ;;
  _ <- expects (length l =? length (si_done s)) ;;
  let s0 := {| si_config := si_config s;
               si_perf := repeat f_zero (length (si_perf s));
               si_dur := repeat f_zero (length (si_dur s));
               si_work := repeat f_zero (length (si_work s));
               si_done := repeat f_zero (length (si_done s)) |} in
  perfs <- random_agent_performances s0 draws ;;
  durs <- random_task_durations s0 (snd perfs) ;;
  let s1 := {| si_config := si_config s; si_perf := fst perfs; si_dur := fst durs;
               si_work := si_work s0; si_done := si_done s0 |} in
  s2 <- sim_loop s1 l ;;
  z <- to_rep (f_max_list f_zero (si_work s2)) ;;
  Ok {| sr_makespan := z; sr_state := s2; sr_draws := snd durs |}.

(** ** The histogram of the runs, simulation.cpp:386-456 *)

(** Boost.Accumulators, simulation.cpp:16-19: the five quantile estimates
    after the given samples, and the rolling mean of the given errors.
    Arbitrary functions. *)
Record accumulators := {
  ac_quantiles : list Z -> list f32;
  ac_rolling_mean : list f32 -> f32
}.

(** One term of simulation.cpp:51. *)
Definition pct_error (a b : f32) : f32 := Babs (f_div (f_sub a b) a).

(** The loop of simulation.cpp:48-52. *)
Fixpoint error_sum (error : f32) (l : list (f32 * f32)) : f32 :=
  match l with
  | [] => error
  | ab :: l' => error_sum (f_add error (pct_error (fst ab) (snd ab))) l'
  end.

(** [mean_absolute_pct_error], simulation.cpp:41-59: the error and the new
    contents of [quantiles]. *)
Definition mean_absolute_pct_error (p_square quantiles : list f32)
  : outcome (f32 * list f32) :=
  _ <- expects (negb (length quantiles =? 0)) ;;
  _ <- expects (length quantiles <=? length p_square) ;;
  let error := error_sum f_zero (combine quantiles p_square) in
  _ <- expects (f_le f_zero error) ;;
  Ok (f_div error (f_of_Z (Z.of_nat (length quantiles))), p_square).

(** The members of [HistogramOp] that change, simulation.cpp:392-402; the
    samples given to the quantile estimator are kept newest first. *)
Record hist_state := {
  hs_draws : list f32;
  hs_sim : simulation;
  hs_hist : histogram;
  hs_samples : list Z;
  hs_errors : list f32;
  hs_quantiles : list f32
}.

(** [run_simulation_batch], simulation.cpp:410-419, with [n] runs left. *)
Fixpoint run_batch (n : nat) (l : list item) (st : hist_state) : outcome hist_state :=
  match n with
  | O => Ok st
  | S n' =>
      r <- sim_run (hs_sim st) l (hs_draws st) ;;
      h <- hist_add (hs_hist st) (sr_makespan r) ;;
      run_batch n' l
        {| hs_draws := sr_draws r; hs_sim := sr_state r; hs_hist := h;
           hs_samples := sr_makespan r :: hs_samples st;
           hs_errors := hs_errors st; hs_quantiles := hs_quantiles st |}
  end.

(** [batch_size], simulation.cpp:403. *)
Definition sim_batch_size : nat := Z.to_nat 10000.

(** [rolling_error(mean_absolute_pct_error(acc, quantiles))],
    simulation.cpp:435 and 439. *)
Definition log_error (ac : accumulators) (st : hist_state) : outcome hist_state :=
  r <- mean_absolute_pct_error (ac_quantiles ac (rev (hs_samples st))) (hs_quantiles st) ;;
  Ok {| hs_draws := hs_draws st; hs_sim := hs_sim st; hs_hist := hs_hist st;
        hs_samples := hs_samples st; hs_errors := hs_errors st ++ [fst r];
        hs_quantiles := snd r |}.

(** A batch and its error, simulation.cpp:434-435 and 438-439. *)
Definition one_batch (ac : accumulators) (l : list item) (st : hist_state)
  : outcome hist_state :=
  _ <- expects (negb (length l =? 0)) ;;
  st' <- run_batch sim_batch_size l st ;;
  log_error ac st'.

(** [error_threshold], simulation.cpp:436. *)
Definition error_threshold : f32 := f_div (f_of_Z 1) (f_of_Z 100).

(** The loop of simulation.cpp:437-440; fuel bounds the number of
    batches. *)
Fixpoint batches (fuel : nat) (ac : accumulators) (l : list item) (st : hist_state)
  : outcome hist_state :=
  if f_lt error_threshold (ac_rolling_mean ac (hs_errors st))
  then
    match fuel with
    | O => NoFuel
    | S fuel' => st' <- one_batch ac l st ;; batches fuel' ac l st'
    end
  else Ok st.

(** [HistogramOp] and [histogram], simulation.cpp:389-456.  The bin size is
    [config.bin_size]; the makespan is [schedule.makespan]. *)
Definition make_histogram (fuel : nat) (ac : accumulators) (p : project)
  (bin_size : option Z) (makespan : Z) (l : list item) (draws : list f32)
  : outcome histogram :=
  _ <- expects (negb (length (pr_tasks p) =? 0)) ;;
  _ <- expects (negb (length (pr_agents p) =? 0)) ;;
  _ <- expects (negb (length l =? 0)) ;;
  s <- sim_new p ;;
  w <- parse_granularity bin_size makespan ;;
  h <- hist_new w ;;
  let st := {| hs_draws := draws; hs_sim := s; hs_hist := h; hs_samples := [];
               hs_errors := []; hs_quantiles := repeat f_one 5 |} in
  st1 <- one_batch ac l st ;;
  st2 <- batches fuel ac l st1 ;;
  _ <- expects (0 <? hist_size (hs_hist st2)) ;;
  Ok (hs_hist st2).
