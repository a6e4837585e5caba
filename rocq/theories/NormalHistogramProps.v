(** * The histogram of simulated makespans with the generator (C84) *)

From Coq Require Import String List ZArith Bool Arith Lia Reals Lra.
From Flocq Require Import Core BinarySingleNaN.
From Verif Require Import Base F32 F32Facts F32Signed NormaliseProofs ProjectModel ScheduleModel ScheduleSpec ScheduleProofs ScheduleProps
  HistogramModel HistogramSpec HistogramProofs HistogramProps SimulationModel SimulationSpec SimulationProofs SimulationProps
  RandomModel RandomSpec RandomProofs RandomProps NormalModel NormalFloats NormalWindow NormalSpec NormalProofs NormalProps
  NormalHistogramModel.
Import ListNotations.

(** A state that still has the given numbers to draw. *)
Definition with_draws (st : hist_state) (d : list f32) : hist_state :=
  {| hs_draws := d; hs_sim := hs_sim st; hs_hist := hs_hist st; hs_samples := hs_samples st;
     hs_errors := hs_errors st; hs_quantiles := hs_quantiles st |}.

Section Linked.
  Context (exp : f32 -> f32) (p : project) (fuel : nat).
  Context (B : positive_bounds p) (M : moderate_performances p) (F : (2 ^ 64 + 5 <= Z.of_nat fuel)%Z).

  (** [f], given the numbers drawn by [r], does what [r] does. *)
  Definition linked (g : generator) (r : outcome (hist_state * generator)) (f : list f32 -> outcome hist_state) : Prop :=
    exists log g', called exp g log g' /\ proper g' /\ finite_draws (map snd log) /\
    match r with
    | Ok (st', g2) => g2 = g' /\ sim_reached p (hs_sim st') /\ forall rest, f (map snd log ++ rest) = Ok (with_draws st' rest)
    | Broken => forall rest, f (map snd log ++ rest) = Broken
    | NoFuel => forall rest, f (map snd log ++ rest) = NoFuel
    end.

  Lemma linked_bind : forall g r f k h, linked g r f ->
    (forall st g1, proper g1 -> sim_reached p (hs_sim st) -> linked g1 (k (st, g1)) (fun d => h (with_draws st d))) ->
    linked g (x <- r ;; k x) (fun d => x <- f d ;; h x).
  Proof.
    intros g r f k h (log & g' & C & P & FD & R) K. destruct r as [[st g2]| |]; cbn [bind].
    - destruct R as (-> & H & R). destruct (K st g' P H) as (log2 & g'' & C2 & P2 & FD2 & R2).
      exists (log ++ log2), g''. split; [eapply called_app; eassumption|]. split; [exact P2|].
      rewrite map_app. split; [apply Forall_app; split; assumption|].
      destruct (k (st, g')) as [[st3 g3]| |].
      + destruct R2 as (-> & H3 & R2). split; [reflexivity|]. split; [exact H3|]. intro rest.
        rewrite <- app_assoc, R. cbn [bind]. apply R2.
      + intro rest. rewrite <- app_assoc, R. cbn [bind]. apply R2.
      + intro rest. rewrite <- app_assoc, R. cbn [bind]. apply R2.
    - exists log, g'. split; [exact C|]. split; [exact P|]. split; [exact FD|]. intro rest. rewrite R. reflexivity.
    - exists log, g'. split; [exact C|]. split; [exact P|]. split; [exact FD|]. intro rest. rewrite R. reflexivity.
  Qed.

  Lemma linked_ok : forall g st, proper g -> sim_reached p (hs_sim st) -> linked g (Ok (st, g)) (fun d => Ok (with_draws st d)).
  Proof.
    intros g st P H. exists [], g. split; [constructor|]. split; [exact P|]. split; [constructor|]. split; [reflexivity|].
    split; [exact H|]. reflexivity.
  Qed.

  Lemma linked_broken : forall g, proper g -> linked g Broken (fun _ => Broken).
  Proof. intros g P. exists [], g. split; [constructor|]. split; [exact P|]. split; [constructor|]. reflexivity. Qed.

  Lemma linked_nofuel : forall g, proper g -> linked g NoFuel (fun _ => NoFuel).
  Proof. intros g P. exists [], g. split; [constructor|]. split; [exact P|]. split; [constructor|]. reflexivity. Qed.

  (** Same calls for a function that agrees on all lists. *)
  Lemma linked_ext : forall g r f f', linked g r f -> (forall d, f d = f' d) -> linked g r f'.
  Proof.
    intros g r f f' (log & g' & C & P & FD & R) E. exists log, g'. split; [exact C|]. split; [exact P|]. split; [exact FD|].
    destruct r as [[st g2]| |]; [destruct R as (R1 & R2 & R); split; [exact R1|]; split; [exact R2|]| |]; intro rest; rewrite <- E; apply R.
  Qed.

  (** One run and its entry in the histogram. *)
  Definition step_random (l : list item) (st : hist_state) (g : generator) : outcome (hist_state * generator) :=
    r <- sim_run_random fuel exp (hs_sim st) l g ;;
    h <- hist_add (hs_hist st) (fst (fst r)) ;;
    Ok ({| hs_draws := hs_draws st; hs_sim := snd (fst r); hs_hist := h;
           hs_samples := fst (fst r) :: hs_samples st;
           hs_errors := hs_errors st; hs_quantiles := hs_quantiles st |}, snd r).

  Definition step_list (l : list item) (st : hist_state) : outcome hist_state :=
    r <- sim_run (hs_sim st) l (hs_draws st) ;;
    h <- hist_add (hs_hist st) (sr_makespan r) ;;
    Ok {| hs_draws := sr_draws r; hs_sim := sr_state r; hs_hist := h;
          hs_samples := sr_makespan r :: hs_samples st;
          hs_errors := hs_errors st; hs_quantiles := hs_quantiles st |}.

  Lemma step_linked : forall l st g, proper g -> sim_reached p (hs_sim st) ->
    linked g (step_random l st g) (fun d => step_list l (with_draws st d)).
  Proof.
    intros l st g P H. destruct (run_linked exp p (hs_sim st) l g P B M H) as (log & pf & df & g' & C & _ & _ & _ & P' & FD & _ & R & K).
    exists log, g'. split; [exact C|]. split; [exact P'|]. split; [exact FD|].
    unfold step_random, step_list. cbn [with_draws hs_sim hs_draws hs_hist hs_samples hs_errors hs_quantiles].
    pose proof (R fuel [] F) as R0. rewrite R0.
    assert (SAME : forall rest, (r <- sim_run (hs_sim st) l (map snd log ++ rest) ;; Ok ((sr_makespan r, sr_state r), g')) =
                                (r <- sim_run (hs_sim st) l (map snd log ++ []) ;; Ok ((sr_makespan r, sr_state r), g'))).
    { intro rest. rewrite <- (R fuel rest F). exact R0. }
    destruct (sim_run (hs_sim st) l (map snd log ++ [])) as [r| |] eqn:Q; cbn [bind fst snd].
    - assert (EACH : forall rest, sim_run (hs_sim st) l (map snd log ++ rest) =
        Ok {| sr_makespan := sr_makespan r; sr_state := sr_state r; sr_draws := rest |}).
      { intro rest. specialize (SAME rest). destruct (sim_run (hs_sim st) l (map snd log ++ rest)) as [r2| |] eqn:Q2; try discriminate SAME.
        cbn [bind] in SAME. destruct (K _ _ Q2) as (_ & _ & E). destruct r2 as [a b c]. cbn [sr_makespan sr_state sr_draws] in *. congruence. }
      destruct (hist_add (hs_hist st) (sr_makespan r)) as [h| |] eqn:A; cbn [bind].
      + split; [reflexivity|]. split; [cbn [hs_sim]; eapply sr_run; eassumption|].
        intro rest. rewrite EACH. cbn [bind sr_makespan sr_state sr_draws]. rewrite A. reflexivity.
      + intro rest. rewrite EACH. cbn [bind sr_makespan sr_state sr_draws]. rewrite A. reflexivity.
      + intro rest. rewrite EACH. cbn [bind sr_makespan sr_state sr_draws]. rewrite A. reflexivity.
    - intro rest. specialize (SAME rest). destruct (sim_run (hs_sim st) l (map snd log ++ rest)); try discriminate SAME. reflexivity.
    - intro rest. specialize (SAME rest). destruct (sim_run (hs_sim st) l (map snd log ++ rest)); try discriminate SAME. reflexivity.
  Qed.

  Lemma run_batch_step : forall n l st, run_batch (S n) l st = (st' <- step_list l st ;; run_batch n l st').
  Proof.
    intros n l st. cbn [run_batch]. unfold step_list. destruct (sim_run _ _ _) as [r| |]; cbn [bind]; [|reflexivity|reflexivity].
    destruct (hist_add _ _); reflexivity.
  Qed.

  Lemma run_batch_random_step : forall n l st g, run_batch_random (S n) fuel exp l st g =
    (x <- step_random l st g ;; run_batch_random n fuel exp l (fst x) (snd x)).
  Proof.
    intros n l st g. cbn [run_batch_random]. unfold step_random. destruct (sim_run_random _ _ _ _ _) as [r| |]; cbn [bind]; [|reflexivity|reflexivity].
    destruct (hist_add _ _); reflexivity.
  Qed.

  Lemma batch_linked : forall l n st g, proper g -> sim_reached p (hs_sim st) ->
    linked g (run_batch_random n fuel exp l st g) (fun d => run_batch n l (with_draws st d)).
  Proof.
    intro l. induction n as [|n IH]; intros st g P H.
    - apply linked_ok; assumption.
    - rewrite run_batch_random_step. eapply linked_ext; [|intro d; symmetry; apply run_batch_step].
      apply (linked_bind g (step_random l st g) (fun d => step_list l (with_draws st d))
               (fun x => run_batch_random n fuel exp l (fst x) (snd x)) (run_batch n l)); [apply step_linked; assumption|].
      intros st1 g1 P1 H1. cbn [fst snd]. apply IH; assumption.
  Qed.

  Lemma one_linked : forall ac l st g, proper g -> sim_reached p (hs_sim st) ->
    linked g (one_batch_random fuel exp ac l st g) (fun d => one_batch ac l (with_draws st d)).
  Proof.
    intros ac l st g P H. unfold one_batch_random, one_batch. destruct (negb (length l =? 0)); cbn [expects bind]; [|apply linked_broken, P].
    apply (linked_bind g (run_batch_random sim_batch_size fuel exp l st g) (fun d => run_batch sim_batch_size l (with_draws st d))
             (fun r => st' <- log_error ac (fst r) ;; Ok (st', snd r)) (log_error ac)); [apply batch_linked; assumption|].
    intros st1 g1 P1 H1. cbn [fst snd]. unfold log_error. cbn [with_draws hs_draws hs_sim hs_hist hs_samples hs_errors hs_quantiles].
    destruct (mean_absolute_pct_error _ _) as [r| |]; cbn [bind]; [|apply linked_broken, P1|apply linked_nofuel, P1].
    apply (linked_ok g1 {| hs_draws := hs_draws st1; hs_sim := hs_sim st1; hs_hist := hs_hist st1;
        hs_samples := hs_samples st1; hs_errors := hs_errors st1 ++ [fst r]; hs_quantiles := snd r |}); assumption.
  Qed.

  Lemma batches_linked : forall ac l turns st g, proper g -> sim_reached p (hs_sim st) ->
    linked g (batches_random turns fuel exp ac l st g) (fun d => batches turns ac l (with_draws st d)).
  Proof.
    intros ac l. induction turns as [|turns IH]; intros st g P H; cbn [batches_random batches];
      cbn [with_draws hs_draws hs_sim hs_hist hs_samples hs_errors hs_quantiles]; destruct (f_lt _ _).
    - apply linked_nofuel, P.
    - apply linked_ok; assumption.
    - apply (linked_bind g (one_batch_random fuel exp ac l st g) (fun d => one_batch ac l (with_draws st d))
               (fun r => batches_random turns fuel exp ac l (fst r) (snd r)) (batches turns ac l)); [apply one_linked; assumption|].
      intros st1 g1 P1 H1. cbn [fst snd]. apply IH; assumption.
    - apply linked_ok; assumption.
  Qed.
End Linked.

(** C84: the histogram made with the generator is the one made with the
    numbers drawn, and fails exactly as that one does; the generator goes on
    after the last of them. *)
Theorem histogram_with_generator : forall exp turns fuel ac p bs mk l g,
  proper g -> positive_bounds p -> moderate_performances p -> (2 ^ 64 + 5 <= Z.of_nat fuel)%Z ->
  exists log g', called exp g log g' /\ proper g' /\ finite_draws (map snd log) /\
    forall rest,
      make_histogram_random turns fuel exp ac p bs mk l g =
        (h <- make_histogram turns ac p bs mk l (map snd log ++ rest) ;; Ok (h, g')).
Proof.
  intros exp turns fuel ac p bs mk l g P B M F.
  assert (TRIV : forall o : outcome (histogram * generator), (o = Broken \/ o = NoFuel) ->
    (forall d, make_histogram turns ac p bs mk l d = match o with Broken => Broken | _ => NoFuel end) ->
    make_histogram_random turns fuel exp ac p bs mk l g = o ->
    exists log g', called exp g log g' /\ proper g' /\ finite_draws (map snd log) /\
    forall rest,
      make_histogram_random turns fuel exp ac p bs mk l g =
        (h <- make_histogram turns ac p bs mk l (map snd log ++ rest) ;; Ok (h, g'))).
  { intros o O E1 E2. exists [], g. split; [constructor|]. split; [exact P|]. split; [constructor|]. intro rest.
    rewrite E1, E2. destruct O as [-> | ->]; reflexivity. }
  unfold make_histogram_random, make_histogram in *.
  destruct (negb (length (pr_tasks p) =? 0)); cbn [expects bind] in *; [|apply (TRIV Broken); auto].
  destruct (negb (length (pr_agents p) =? 0)); cbn [expects bind] in *; [|apply (TRIV Broken); auto].
  destruct (negb (length l =? 0)) eqn:LE; cbn [expects bind] in *; [|apply (TRIV Broken); auto].
  destruct (sim_new p) as [s| |] eqn:SN; cbn [bind] in *; [|apply (TRIV Broken); auto|apply (TRIV NoFuel); auto].
  destruct (parse_granularity bs mk) as [w| |]; cbn [bind] in *; [|apply (TRIV Broken); auto|apply (TRIV NoFuel); auto].
  destruct (hist_new w) as [h0| |]; cbn [bind] in *; [|apply (TRIV Broken); auto|apply (TRIV NoFuel); auto].
  clear TRIV.
  set (st := {| hs_draws := []; hs_sim := s; hs_hist := h0; hs_samples := []; hs_errors := []; hs_quantiles := repeat f_one 5 |}).
  assert (L : linked exp p g
    (r1 <- one_batch_random fuel exp ac l st g ;; batches_random turns fuel exp ac l (fst r1) (snd r1))
    (fun d => st1 <- one_batch ac l (with_draws st d) ;; batches turns ac l st1)).
  { apply (linked_bind exp p g (one_batch_random fuel exp ac l st g) (fun d => one_batch ac l (with_draws st d))
             (fun r => batches_random turns fuel exp ac l (fst r) (snd r)) (batches turns ac l)).
    - apply one_linked; try assumption. apply sr_new, SN.
    - intros st1 g1 P1 H1. cbn [fst snd]. apply batches_linked; assumption. }
  destruct L as (log & g' & C & P' & FD & R). exists log, g'. split; [exact C|]. split; [exact P'|]. split; [exact FD|]. intro rest.
  destruct (one_batch_random fuel exp ac l st g) as [[st1 g1]| |]; cbn [bind fst snd] in *.
  - destruct (batches_random turns fuel exp ac l st1 g1) as [[st2 g2]| |]; cbn [bind fst snd] in *.
    + destruct R as (-> & _ & R). specialize (R rest). unfold with_draws at 1, st in R. cbn [hs_sim hs_hist hs_samples hs_errors hs_quantiles] in R.
      destruct (one_batch ac l _) as [x| |]; try discriminate R. cbn [bind] in *. rewrite R. cbn [bind with_draws hs_hist].
      destruct (0 <? hist_size (hs_hist st2)); reflexivity.
    + specialize (R rest). unfold with_draws, st in R. cbn [hs_sim hs_hist hs_samples hs_errors hs_quantiles] in R.
      destruct (one_batch ac l _) as [x| |]; try discriminate R; cbn [bind] in *; [rewrite R|]; reflexivity.
    + specialize (R rest). unfold with_draws, st in R. cbn [hs_sim hs_hist hs_samples hs_errors hs_quantiles] in R.
      destruct (one_batch ac l _) as [x| |]; try discriminate R; cbn [bind] in *; [rewrite R|]; reflexivity.
  - specialize (R rest). unfold with_draws, st in R. cbn [hs_sim hs_hist hs_samples hs_errors hs_quantiles] in R.
    destruct (one_batch ac l _) as [x| |]; try discriminate R; cbn [bind] in *; [rewrite R|]; reflexivity.
  - specialize (R rest). unfold with_draws, st in R. cbn [hs_sim hs_hist hs_samples hs_errors hs_quantiles] in R.
    destruct (one_batch ac l _) as [x| |]; try discriminate R; cbn [bind] in *; [rewrite R|]; reflexivity.
Qed.
Print Assumptions histogram_with_generator.

(** For the project of the examples. *)
Example ex_histogram_with_generator : forall fuel, (2 ^ 64 + 5 <= Z.of_nat fuel)%Z ->
  exists log g', called (fun x => x) ex_g log g' /\
  make_histogram_random 5 fuel (fun x => x) ex_acc ex_project (Some 60%Z) 7200 [Item 2 0; Item 1 1; Item 0 1] ex_g =
    (h <- make_histogram 5 ex_acc ex_project (Some 60%Z) 7200 [Item 2 0; Item 1 1; Item 0 1] (map snd log) ;; Ok (h, g')).
Proof.
  intros fuel F.
  destruct (histogram_with_generator (fun x => x) 5 fuel ex_acc ex_project (Some 60%Z) 7200 [Item 2 0; Item 1 1; Item 0 1] ex_g
    ex_g_proper ex_positive_bounds ex_moderate_performances F) as (log & g' & C & _ & _ & R).
  exists log, g'. split; [exact C|]. rewrite (R []), app_nil_r. reflexivity.
Qed.

Example ex_certain_moderate : moderate_performances ex_certain.
Proof. apply Forall_forall. intros a [<-|[]]. left. vm_compute. reflexivity. Qed.

(** C84: the entries of a histogram made with the generator are the results
    of runs with the numbers drawn, one after the other. *)
Theorem histogram_with_generator_runs : forall exp turns fuel ac p bs mk l g h g',
  proper g -> positive_bounds p -> moderate_performances p -> (2 ^ 64 + 5 <= Z.of_nat fuel)%Z ->
  make_histogram_random turns fuel exp ac p bs mk l g = Ok (h, g') ->
  exists log w zs rest k, called exp g log g' /\ finite_draws (map snd log) /\
    used w (map Add zs) h /\ successive_runs p l (map snd log) zs rest /\ length zs = S k * sim_batch_size /\
    (forall b, bs = Some b -> w = b) /\ (bs = None -> granularity mk = Ok w).
Proof.
  intros exp turns fuel ac p bs mk l g h g' P B M F E.
  destruct (histogram_with_generator exp turns fuel ac p bs mk l g P B M F) as (log & g2 & C & _ & FD & R).
  specialize (R []). rewrite app_nil_r, E in R.
  destruct (make_histogram turns ac p bs mk l (map snd log)) as [h2| |] eqn:H; try discriminate R. cbn [bind] in R.
  assert (Z : h = h2 /\ g' = g2) by (split; congruence). destruct Z as [-> ->].
  destruct (histogram_of_runs _ _ _ _ _ _ _ _ H) as (w & zs & rest & k & A1 & A2 & A3 & A4 & A5).
  exists log, w, zs, rest, k. auto 10.
Qed.
Print Assumptions histogram_with_generator_runs.

(** For a project without uncertainty the histogram is made. *)
Example ex_histogram_with_generator_runs : forall fuel, (2 ^ 64 + 5 <= Z.of_nat fuel)%Z -> exists h g',
  make_histogram_random 1 fuel (fun x => x) ex_acc ex_certain None 45 [Item 0 0] ex_g = Ok (h, g').
Proof.
  intros fuel F.
  destruct (histogram_with_generator (fun x => x) 1 fuel ex_acc ex_certain None 45 [Item 0 0] ex_g
    ex_g_proper (proj2 ex_certain_ok) ex_certain_moderate F) as (log & g' & _ & _ & _ & R).
  destruct (certain_histogram_made (map snd log ++ [])) as [h E]. exists h, g'. rewrite (R []), E. reflexivity.
Qed.

(** A batch of four runs, computed with little fuel. *)
Definition ex_batch : outcome histogram :=
  h <- hist_new 600 ;;
  r <- run_batch_random 4 20 (fun x => x) [Item 2 0; Item 1 1; Item 0 1]
         {| hs_draws := []; hs_sim := ex_sim; hs_hist := h; hs_samples := []; hs_errors := []; hs_quantiles := [] |} ex_g ;;
  Ok (hs_hist (fst r)).

Example ex_batch_value : ex_batch = Ok {| h_bin_size := 600; h_bins := [(3, 1); (6, 1); (7, 1); (8, 1)]%Z |}.
Proof. vm_compute. reflexivity. Qed.
