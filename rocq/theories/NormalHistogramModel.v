(** * The histogram of simulated makespans with the generator

    [HistogramOp] (simulation.cpp:389-456) as in [SimulationModel], but its
    runs draw from the generator.  The member [hs_draws] of the state, the
    numbers still to come, is not used and stays empty. *)

From Coq Require Import List ZArith Bool Arith.
From Verif Require Import Base F32 ProjectModel ScheduleModel HistogramModel SimulationModel RandomModel NormalModel.
Import ListNotations.

(** [run_simulation_batch], simulation.cpp:410-419, with [n] runs left. *)
Fixpoint run_batch_random (n : nat) (fuel : nat) (exp : f32 -> f32) (l : list item) (st : hist_state) (g : generator)
  : outcome (hist_state * generator) :=
  match n with
  | O => Ok (st, g)
  | S n' =>
      r <- sim_run_random fuel exp (hs_sim st) l g ;;
      h <- hist_add (hs_hist st) (fst (fst r)) ;;
      run_batch_random n' fuel exp l
        {| hs_draws := hs_draws st; hs_sim := snd (fst r); hs_hist := h;
           hs_samples := fst (fst r) :: hs_samples st;
           hs_errors := hs_errors st; hs_quantiles := hs_quantiles st |} (snd r)
  end.

(** A batch and its error, simulation.cpp:434-435 and 438-439. *)
Definition one_batch_random (fuel : nat) (exp : f32 -> f32) (ac : accumulators) (l : list item) (st : hist_state) (g : generator)
  : outcome (hist_state * generator) :=
  _ <- expects (negb (length l =? 0)) ;;
  r <- run_batch_random sim_batch_size fuel exp l st g ;;
  st' <- log_error ac (fst r) ;;
  Ok (st', snd r).

(** The loop of simulation.cpp:437-440; [turns] bounds the number of
    batches. *)
Fixpoint batches_random (turns : nat) (fuel : nat) (exp : f32 -> f32) (ac : accumulators) (l : list item)
  (st : hist_state) (g : generator) : outcome (hist_state * generator) :=
  if f_lt error_threshold (ac_rolling_mean ac (hs_errors st))
  then
    match turns with
    | O => NoFuel
    | S turns' => r <- one_batch_random fuel exp ac l st g ;; batches_random turns' fuel exp ac l (fst r) (snd r)
    end
  else Ok (st, g).

(** [HistogramOp] and [histogram], simulation.cpp:389-456: the histogram and
    the generator. *)
Definition make_histogram_random (turns : nat) (fuel : nat) (exp : f32 -> f32) (ac : accumulators) (p : project)
  (bin_size : option Z) (makespan : Z) (l : list item) (g : generator)
  : outcome (histogram * generator) :=
  _ <- expects (negb (length (pr_tasks p) =? 0)) ;;
  _ <- expects (negb (length (pr_agents p) =? 0)) ;;
  _ <- expects (negb (length l =? 0)) ;;
  s <- sim_new p ;;
  w <- parse_granularity bin_size makespan ;;
  h <- hist_new w ;;
  let st := {| hs_draws := []; hs_sim := s; hs_hist := h; hs_samples := [];
               hs_errors := []; hs_quantiles := repeat f_one 5 |} in
  r1 <- one_batch_random fuel exp ac l st g ;;
  r2 <- batches_random turns fuel exp ac l (fst r1) (snd r1) ;;
  _ <- expects (0 <? hist_size (hs_hist (fst r2))) ;;
  Ok (hs_hist (fst r2), snd r2).
