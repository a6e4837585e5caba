(** * Property theorems C51-C53: the simulation *)

From Coq Require Import String List ZArith Bool Arith Lia Reals Lra.
From Flocq Require Import Core BinarySingleNaN.
From Verif Require Import Base F32 F32Facts F32Signed NormaliseProofs ProjectModel ScheduleModel
  ScheduleSpec ScheduleProofs ScheduleProps MakespanModel TimelineSpec MakespanProofs MutatorProps MakespanProps
  OptimizerProofs HistogramModel HistogramSpec HistogramProofs StatsProofs HistogramProps
  SimulationModel SimulationSpec SimulationProofs.
Import ListNotations.

(** ** C51 *)

Lemma agent_bounds_pos : forall p, positive_bounds p ->
  Forall (fun b => f_lt f_zero (fst b) = true /\ f_le (fst b) (snd b) = true) (agent_bounds p).
Proof.
  intros p [A _]. unfold agent_bounds. rewrite Forall_map. cbn [fst snd]. exact A.
Qed.

Lemma of_Z_mono : forall a b, (0 <= a <= b)%Z -> f_le (f_of_Z a) (f_of_Z b) = true.
Proof.
  intros a b H. destruct (of_Z_spec a) as [N1 V1]; [lia|]. destruct (of_Z_spec b) as [N2 V2]; [lia|].
  destruct N1 as [N1 _]. destruct N2 as [N2 _]. rewrite le_key by assumption. apply Z.leb_le. apply val_le_key. rewrite V1, V2.
  apply clamp_le, rnd_le, IZR_le. lia.
Qed.

Lemma task_bounds_pos : forall p, positive_bounds p ->
  Forall (fun b => f_lt f_zero (fst b) = true /\ f_le (fst b) (snd b) = true /\
                   is_finite (fst b) = true) (task_bounds p).
Proof.
  intros p [_ B]. unfold task_bounds. apply Forall_map. cbn [fst snd]. apply Forall_forall.
  intros t Ht. destruct (B t Ht) as [B1 B2].
  destruct (of_Z_near (tk_min t)) as (P & F & _); [lia|].
  split; [apply pos_iff, P|]. split; [apply of_Z_mono; lia|exact F].
Qed.

Lemma eq_refl_num : forall x, num x -> f_eq x x = true.
Proof. intros x N. rewrite eq_key by assumption. apply Z.eqb_refl. Qed.

(** What a run does, in terms of the project. *)
Lemma run_parts : forall p s l draws r, sim_reached p s -> finite_draws draws ->
  sim_run s l draws = Ok r ->
  exists perfs durs mid s2,
    all_drawn (agent_bounds p) draws perfs mid /\
    all_drawn (task_bounds p) mid durs (sr_draws r) /\ finite_draws mid /\
    length l = length (pr_tasks p) /\
    sim_loop {| si_config := p; si_perf := perfs; si_dur := durs;
                si_work := repeat f_zero (length (pr_agents p));
                si_done := repeat f_zero (length (pr_tasks p)) |} l = Ok s2 /\
    sr_state r = s2 /\ si_perf s2 = perfs /\ si_dur s2 = durs /\
    to_rep (f_max_list f_zero (si_work s2)) = Ok (sr_makespan r).
Proof.
  intros p s l draws r H F E. pose proof (reached_shaped p s H) as SH.
  rewrite (run_fresh p s l draws SH) in E. unfold fresh_run in E.
  destruct (Nat.eqb_spec (length l) (length (pr_tasks p))) as [L|]; [|discriminate]. cbn [expects bind] in E.
  destruct (samples_for (map perf_bounds (pr_agents p)) draws) as [[perfs mid]| |] eqn:Q1; try discriminate.
  cbn [bind fst snd] in E.
  destruct (samples_for (map duration_bounds (pr_tasks p)) mid) as [[durs rest]| |] eqn:Q2; try discriminate.
  cbn [bind fst snd] in E. destruct (sim_loop _ l) as [s2| |] eqn:Q3; try discriminate. cbn [bind] in E.
  destruct (to_rep _) as [z| |] eqn:Q4; try discriminate. cbn [bind] in E. injection E as <-.
  destruct (samples_drawn _ _ _ _ F Q1) as [D1 F1]. destruct (samples_drawn _ _ _ _ F1 Q2) as [D2 _].
  exists perfs, durs, mid, s2. cbn [sr_state sr_draws sr_makespan].
  pose proof (samples_length _ _ _ Q1) as L1. pose proof (samples_length _ _ _ Q2) as L2.
  cbn [fst] in L1, L2. rewrite map_length in L1, L2.
  match type of Q3 with sim_loop ?a _ = _ => assert (SA : shaped p a) end.
  { split; cbn [si_config si_perf si_dur si_work si_done]; rewrite ?repeat_length; auto; apply SH. }
  destruct (loop_shaped p l _ s2 SA Q3) as (_ & S1 & S2).
  repeat split; assumption.
Qed.

(** C51: in every run, with any object and any finite random numbers, the
    performances and durations used are obtained as specified by
    [all_drawn]; every one of them is positive and equals the configured
    value if minimum and maximum are the same. *)
Theorem samples_positive : forall p s l draws r,
  sim_reached p s -> positive_bounds p -> finite_draws draws -> sim_run s l draws = Ok r ->
  exists mid,
    all_drawn (agent_bounds p) draws (si_perf (sr_state r)) mid /\
    all_drawn (task_bounds p) mid (si_dur (sr_state r)) (sr_draws r) /\
    Forall2 (fun a x => f_lt f_zero x = true /\
                (f_eq (perf_min (ag_perf a)) (perf_max (ag_perf a)) = true -> x = perf_min (ag_perf a)))
      (pr_agents p) (si_perf (sr_state r)) /\
    Forall2 (fun t x => f_lt f_zero x = true /\ (tk_min t = tk_max t -> x = f_of_Z (tk_min t)))
      (pr_tasks p) (si_dur (sr_state r)).
Proof.
  intros p s l draws r H B F E.
  destruct (run_parts p s l draws r H F E) as (perfs & durs & mid & s2 & D1 & D2 & _ & _ & _ & -> & -> & -> & _).
  exists mid. split; [exact D1|]. split; [exact D2|].
  apply all_drawn_pos in D1; [|eapply Forall_impl; [|apply agent_bounds_pos, B]; cbn; tauto].
  apply all_drawn_pos in D2; [|eapply Forall_impl; [|apply task_bounds_pos, B]; cbn; tauto].
  clear - D1 D2 B. unfold agent_bounds in D1. unfold task_bounds in D2. split.
  - revert D1. generalize perfs as xs. induction (pr_agents p) as [|a l' IH]; intros xs D; cbn [map] in D;
      inversion D; subst; constructor; auto.
  - destruct B as [_ B]. revert D2 B. generalize durs as xs.
    induction (pr_tasks p) as [|t l' IH]; intros xs D B; cbn [map] in D;
      inversion D as [|? ? ? ? [P1 P2] D']; subst; constructor.
    + cbn [fst snd] in P1, P2. split; [exact P1|]. intro Q. apply P2. rewrite <- Q. apply eq_refl_num.
      destruct (B t (or_introl eq_refl)) as [B1 B2].
      destruct (of_Z_near (tk_min t)) as (_ & F & _); [lia|]. apply finite_num, F.
    + apply IH; [exact D'|]. intros u Hu. apply B. right. exact Hu.
Qed.
Print Assumptions samples_positive.

(** ** C52 *)

Lemma agent_performance_length : forall l r, agent_performance l = Ok r -> length r = length l.
Proof.
  intros l r E. unfold agent_performance in E. destruct l as [|a l]; [discriminate|].
  cbn [negb expects bind] in E. apply map_outcome_forall2 in E. symmetry. apply (Forall2_length E).
Qed.

Lemma params_shape : forall pr p0, to_schedule_params pr = Ok p0 -> problem p0 ->
  sp_deps p0 = map tk_deps (pr_tasks pr) /\ length (sp_perf p0) = length (pr_agents pr) /\
  length (sp_dur p0) = length (pr_tasks pr) /\ 0 < length (pr_tasks pr).
Proof.
  intros pr p0 E HP. destruct (params_Ok pr p0 E) as (_ & NT & _ & A & _ & D).
  split; [exact D|]. split; [apply agent_performance_length, A|].
  pose proof (pb_deps_len p0 HP) as L. rewrite D, map_length in L. unfold task_count in L.
  split; [congruence|]. destruct (pr_tasks pr); [congruence|cbn; lia].
Qed.

(** Facts about samples needed by the refinement. *)
Lemma drawn_sane : forall p draws perfs mid durs rest, positive_bounds p ->
  finite_draws mid ->
  all_drawn (agent_bounds p) draws perfs mid -> all_drawn (task_bounds p) mid durs rest ->
  length perfs = length (pr_agents p) /\ length durs = length (pr_tasks p) /\
  Forall (fun x : f32 => f_lt f_zero x = true) perfs /\
  Forall (fun x : f32 => f_lt f_zero x = true /\ is_finite x = true) durs.
Proof.
  intros p draws perfs mid durs rest B F D1 D2.
  pose proof (all_drawn_length _ _ _ _ D1) as L1. pose proof (all_drawn_length _ _ _ _ D2) as L2.
  unfold agent_bounds in L1. unfold task_bounds in L2. rewrite map_length in L1, L2.
  assert (F2 : Forall (fun x : f32 => is_finite x = true) durs).
  { apply (all_drawn_finite _ _ _ _ D2 F). eapply Forall_impl; [|apply task_bounds_pos, B]; cbn; tauto. }
  apply all_drawn_pos in D1; [|eapply Forall_impl; [|apply agent_bounds_pos, B]; cbn; tauto].
  apply all_drawn_pos in D2; [|eapply Forall_impl; [|apply task_bounds_pos, B]; cbn; tauto].
  split; [exact L1|]. split; [exact L2|]. split.
  - clear - D1. induction D1; constructor; tauto.
  - rewrite Forall_forall in F2 |- *. intros x Hx. split; [|apply F2, Hx].
    clear - D2 Hx. induction D2 as [|b y bs ys [Y _] D2 IH]; cbn in Hx; [destruct Hx|].
    destruct Hx as [->|Hx]; [exact Y|apply IH, Hx].
Qed.

(** C52: the result of a run is the whole-second part of the makespan of
    the schedule when agents and tasks have this run's sampled values:
    the time at which the last task of the greedy timeline finishes. *)
Theorem run_is_timeline : forall p p0 s l draws r,
  to_schedule_params p = Ok p0 -> problem p0 -> positive_bounds p -> valid_schedule p0 l ->
  finite_draws draws -> sim_reached p s -> sim_run s l draws = Ok r ->
  let q := under p0 (si_perf (sr_state r)) (si_dur (sr_state r)) in
  exists m, makespan q l = Ok m /\ whole_seconds m (sr_makespan r) /\
    (exists tl, greedy_timeline q l tl) /\
    (forall tl, greedy_timeline q l tl -> last_finish l tl m).
Proof.
  intros p p0 s l draws r HE HP HB V F H E q.
  destruct (run_parts p s l draws r H F E) as
    (perfs & durs & mid & s2 & D1 & D2 & FM & L & EL & Es & Ep & Ed & ER).
  unfold q. rewrite Es, Ep, Ed. clear q.
  destruct (drawn_sane p draws perfs mid durs _ HB FM D1 D2) as (L1 & L2 & P1 & P2).
  destruct (params_shape p p0 HE HP) as (SD & SP & SL & ST).
  destruct (simulated p p0 HP SD SP SL perfs durs L1 L2 P1 P2 l V ST) as (m & s2' & EM & N & EL' & EW).
  rewrite EL in EL'. injection EL' as <-. rewrite EW in ER.
  exists m. split; [exact EM|]. split; [apply (to_rep_whole m _ N ER)|].
  destruct (makespan_is_timeline_length (under p0 perfs durs) l) as (m' & EM' & _ & T1 & T2).
  - apply (under_problem p p0 HP SP SL perfs durs L1 L2).
  - apply under_sane; assumption.
  - apply (under_valid p p0 SL perfs durs L2 l V).
  - rewrite EM in EM'. injection EM' as <-. split; assumption.
Qed.
Print Assumptions run_is_timeline.

(** C52: earlier runs, copies and changes of the project do not matter:
    any object for a project behaves as a new one. *)
Theorem run_history_independent : forall p s s' l draws,
  sim_reached p s -> sim_reached p s' -> sim_run s l draws = sim_run s' l draws.
Proof.
  intros p s s' l draws H H'.
  rewrite (run_fresh p s l draws (reached_shaped p s H)).
  rewrite (run_fresh p s' l draws (reached_shaped p s' H')). reflexivity.
Qed.
Print Assumptions run_history_independent.

(** C51, C52: a run succeeds, given enough positive random numbers, unless
    the makespan is too large for the 64 bit result. *)
Theorem run_total : forall p p0 s l draws,
  to_schedule_params p = Ok p0 -> problem p0 -> positive_bounds p -> valid_schedule p0 l ->
  finite_draws draws -> Forall (fun x => f_lt f_zero x = true) draws ->
  length (pr_agents p) + length (pr_tasks p) <= length draws ->
  sim_reached p s ->
  exists perfs durs mid rest m,
    all_drawn (agent_bounds p) draws perfs mid /\ all_drawn (task_bounds p) mid durs rest /\
    makespan (under p0 perfs durs) l = Ok m /\
    (forall z, whole_seconds m z -> (z < 2 ^ 63)%Z ->
     exists r, sim_run s l draws = Ok r /\ sr_makespan r = z).
Proof.
  intros p p0 s l draws HE HP HB V F PD LD H.
  destruct (params_shape p p0 HE HP) as (SD & SP & SL & ST).
  destruct (samples_total (agent_bounds p) draws) as (perfs & mid & E1 & PM & LM).
  { eapply Forall_impl; [|apply agent_bounds_pos, HB]. cbn. intros b [X Y]. split; [|exact Y].
    apply nn_iff, pos_nn, pos_iff, X. }
  { exact PD. }
  { unfold agent_bounds. rewrite map_length. lia. }
  unfold agent_bounds in LM. rewrite map_length in LM.
  destruct (samples_total (task_bounds p) mid) as (durs & rest & E2 & _).
  { eapply Forall_impl; [|apply task_bounds_pos, HB]. cbn. intros b (X & Y & _). split; [|exact Y].
    apply nn_iff, pos_nn, pos_iff, X. }
  { exact PM. }
  { unfold task_bounds. rewrite map_length. lia. }
  destruct (samples_drawn _ _ _ _ F E1) as [D1 F1]. destruct (samples_drawn _ _ _ _ F1 E2) as [D2 _].
  destruct (drawn_sane p draws perfs mid durs rest HB F1 D1 D2) as (L1 & L2 & P1 & P2).
  destruct (simulated p p0 HP SD SP SL perfs durs L1 L2 P1 P2 l V ST) as (m & s2 & EM & N & EL & EW).
  exists perfs, durs, mid, rest, m. split; [exact D1|]. split; [exact D2|]. split; [exact EM|].
  intros z W Z63. rewrite (run_fresh p s l draws (reached_shaped p s H)). unfold fresh_run.
  assert (LL : length l = length (pr_tasks p)).
  { destruct V as [V _ _]. apply Permutation.Permutation_length in V.
    rewrite map_length, seq_length in V. unfold task_count in V. congruence. }
  rewrite LL, Nat.eqb_refl. cbn [expects bind].
  change (map perf_bounds (pr_agents p)) with (agent_bounds p). rewrite E1. cbn [bind fst snd].
  change (map duration_bounds (pr_tasks p)) with (task_bounds p). rewrite E2. cbn [bind fst snd].
  rewrite EL. cbn [bind]. rewrite EW, (whole_to_rep m z N W Z63). cbn [bind].
  eexists. split; reflexivity.
Qed.
Print Assumptions run_total.

(** ** The histogram of the runs *)

Lemma hist_run_app : forall a b h, hist_run h (a ++ b) = (h' <- hist_run h a ;; hist_run h' b).
Proof.
  induction a as [|x a IH]; intros b h; cbn [app hist_run]; [reflexivity|].
  destruct (hist_step h x); cbn [bind]; auto.
Qed.

Lemma runs_app : forall p l draws a mid b rest, successive_runs p l draws a mid ->
  successive_runs p l mid b rest -> successive_runs p l draws (a ++ b) rest.
Proof. induction 1; intro HB; cbn [app]; [exact HB|]. econstructor; eauto. Qed.

(** The state of the loop: the histogram holds the runs so far. *)
Definition collected (p : project) (l : list item) (draws : list f32) (h0 : histogram) (st : hist_state) : Prop :=
  sim_reached p (hs_sim st) /\
  successive_runs p l draws (rev (hs_samples st)) (hs_draws st) /\
  hist_run h0 (map Add (rev (hs_samples st))) = Ok (hs_hist st).

Lemma batch_collected : forall p l draws h0 n st st', collected p l draws h0 st ->
  run_batch n l st = Ok st' ->
  collected p l draws h0 st' /\ length (hs_samples st') = length (hs_samples st) + n.
Proof.
  intros p l draws h0. induction n as [|n IH]; intros st st' C E; cbn [run_batch] in E.
  - injection E as <-. split; [exact C|lia].
  - destruct C as (R & S & H).
    destruct (sim_run (hs_sim st) l (hs_draws st)) as [r| |] eqn:Q; try discriminate. cbn [bind] in E.
    destruct (hist_add (hs_hist st) (sr_makespan r)) as [h| |] eqn:A; try discriminate. cbn [bind] in E.
    apply IH in E.
    + destruct E as [C' L]. split; [exact C'|]. rewrite L. cbn [hs_samples length]. lia.
    + unfold collected. cbn [hs_sim hs_samples hs_draws hs_hist rev]. split; [eapply sr_run; eassumption|]. split.
      * eapply runs_app; [exact S|]. econstructor; [exact R|exact Q|constructor].
      * rewrite map_app, hist_run_app, H. cbn [bind map hist_run hist_step]. rewrite A. reflexivity.
Qed.

Lemma one_collected : forall ac p l draws h0 st st', collected p l draws h0 st ->
  one_batch ac l st = Ok st' ->
  collected p l draws h0 st' /\ length (hs_samples st') = length (hs_samples st) + sim_batch_size.
Proof.
  intros ac p l draws h0 st st' C E. unfold one_batch in E.
  generalize dependent sim_batch_size. intros n E. destruct (negb (length l =? 0)); [|discriminate]. cbn [expects bind] in E.
  destruct (run_batch n l st) as [st1| |] eqn:Q; try discriminate. cbn [bind] in E.
  destruct (batch_collected p l draws h0 _ _ _ C Q) as [C1 L1].
  unfold log_error in E. destruct (mean_absolute_pct_error _ _) as [e| |]; try discriminate.
  cbn [bind] in E. injection E as <-. unfold collected in *. cbn [hs_sim hs_samples hs_draws hs_hist]. auto.
Qed.

Lemma batches_collected : forall ac p l draws h0 fuel st st', collected p l draws h0 st ->
  batches fuel ac l st = Ok st' ->
  collected p l draws h0 st' /\
  exists k, length (hs_samples st') = length (hs_samples st) + k * sim_batch_size.
Proof.
  intros ac p l draws h0. induction fuel as [|fuel IH]; intros st st' C E; cbn [batches] in E;
    destruct (f_lt error_threshold (ac_rolling_mean ac (hs_errors st))).
  - discriminate.
  - injection E as <-. split; [exact C|]. exists 0. lia.
  - destruct (one_batch ac l st) as [st1| |] eqn:Q; try discriminate. cbn [bind] in E.
    destruct (one_collected ac p l draws h0 _ _ C Q) as [C1 L1]. destruct (IH _ _ C1 E) as (C2 & k & L2).
    split; [exact C2|]. exists (S k). rewrite L2, L1. rewrite Nat.mul_succ_l. lia.
  - injection E as <-. split; [exact C|]. exists 0. lia.
Qed.

(** The histogram holds exactly the results of successive runs, some whole
    number of batches of ten thousand, at least one. *)
Theorem histogram_of_runs : forall fuel ac p bs mk l draws h,
  make_histogram fuel ac p bs mk l draws = Ok h ->
  exists w zs rest k, used w (map Add zs) h /\ successive_runs p l draws zs rest /\
    length zs = S k * sim_batch_size /\
    (forall b, bs = Some b -> w = b) /\ (bs = None -> granularity mk = Ok w).
Proof.
  intros fuel ac p bs mk l draws h E. unfold make_histogram in E.
  destruct (negb (length (pr_tasks p) =? 0)); [|discriminate]. cbn [expects bind] in E.
  destruct (negb (length (pr_agents p) =? 0)); [|discriminate]. cbn [expects bind] in E.
  destruct (negb (length l =? 0)); [|discriminate]. cbn [expects bind] in E.
  destruct (sim_new p) as [s| |] eqn:SN; try discriminate. cbn [bind] in E.
  destruct (parse_granularity bs mk) as [w| |] eqn:G; try discriminate. cbn [bind] in E.
  destruct (hist_new w) as [h0| |] eqn:HN; try discriminate. cbn [bind] in E.
  destruct (one_batch ac l _) as [st1| |] eqn:B1; try discriminate. cbn [bind] in E.
  destruct (batches fuel ac l st1) as [st2| |] eqn:B2; try discriminate. cbn [bind] in E.
  destruct (0 <? hist_size (hs_hist st2)); [|discriminate]. cbn [expects bind] in E. injection E as <-.
  eapply (one_collected ac p l draws h0) in B1.
  2:{ split; [apply sr_new, SN|]. split; [constructor|reflexivity]. }
  destruct B1 as [C1 L1]. cbn [hs_samples length] in L1.
  destruct (batches_collected ac p l draws h0 _ _ _ C1 B2) as ((_ & R & H) & k & L2).
  exists w, (rev (hs_samples st2)), (hs_draws st2), k. split; [exists h0; split; assumption|].
  split; [exact R|]. split; [rewrite rev_length, L2, L1, Nat.mul_succ_l; lia|].
  unfold parse_granularity in G. destruct (1 <=? mk)%Z; [|discriminate]. cbn [expects bind] in G.
  split; intros; subst bs; congruence.
Qed.
Print Assumptions histogram_of_runs.

(** ** C53 *)

Lemma certain_samples : forall p, certain p -> positive_bounds p ->
  Forall (fun b => f_eq (fst b) (snd b) = true) (agent_bounds p) /\
  Forall (fun b => f_eq (fst b) (snd b) = true) (task_bounds p).
Proof.
  intros p [A T] [_ B]. split.
  - unfold agent_bounds. rewrite Forall_map. exact A.
  - unfold task_bounds. rewrite Forall_map. cbn [fst snd]. rewrite Forall_forall in T |- *. intros t Ht.
    rewrite <- (T t Ht). apply eq_refl_num. destruct (B t Ht) as [B1 B2].
    destruct (of_Z_near (tk_min t)) as (_ & F & _); [lia|]. apply finite_num, F.
Qed.

(** C53: without uncertainty runs use no random numbers: any run with any
    object and any random numbers gives what a run of a new object gives
    without any. *)
Theorem certain_run : forall p s s0 l draws, certain p -> positive_bounds p ->
  sim_reached p s -> sim_new p = Ok s0 ->
  sim_run s l draws =
    (r <- sim_run s0 l [] ;;
     Ok {| sr_makespan := sr_makespan r; sr_state := sr_state r; sr_draws := draws |}).
Proof.
  intros p s s0 l draws C B H N. destruct (certain_samples p C B) as [CA CT].
  rewrite (run_fresh p s l draws (reached_shaped p s H)).
  rewrite (run_fresh p s0 l [] (reached_shaped p s0 (sr_new p s0 N))). unfold fresh_run.
  change (map perf_bounds (pr_agents p)) with (agent_bounds p).
  change (map duration_bounds (pr_tasks p)) with (task_bounds p).
  rewrite !(samples_certain _ _ CA). destruct (length l =? length (pr_tasks p)); [|reflexivity].
  cbn [expects bind fst snd]. rewrite !(samples_certain _ _ CT). cbn [bind fst snd].
  destruct (sim_loop _ l) as [s2| |]; try reflexivity. cbn [bind].
  destruct (to_rep _); reflexivity.
Qed.
Print Assumptions certain_run.

Lemma certain_runs_equal : forall p l draws zs rest, certain p -> positive_bounds p ->
  successive_runs p l draws zs rest -> exists z, Forall (fun x => x = z) zs.
Proof.
  intros p l draws zs rest C B H. induction H as [|s draws r zs rest R E H IH]; [exists 0%Z; constructor|].
  exists (sr_makespan r). constructor; [reflexivity|]. clear IH.
  induction H as [|s' draws' r' zs rest' R' E' H IH]; constructor; [|exact IH].
  pose proof (reached_shaped p s R) as SH.
  assert (N : exists s0, sim_new p = Ok s0).
  { unfold sim_new, assign_buffers. destruct (Nat.eqb_spec (length (pr_agents p)) 0) as [Z|].
    - pose proof (sh_agents _ _ SH). lia.
    - destruct (Nat.eqb_spec (length (pr_tasks p)) 0) as [Z|]; [pose proof (sh_tasks _ _ SH); lia|].
      eexists. reflexivity. }
  destruct N as [s0 N].
  rewrite (certain_run p s s0 l draws C B R N) in E. rewrite (certain_run p s' s0 l draws' C B R' N) in E'.
  destruct (sim_run s0 l []) as [r0| |]; try discriminate. cbn [bind] in E, E'.
  injection E as <-. injection E' as <-. reflexivity.
Qed.

Lemma nodup_const : forall (z : Z) l, l <> [] -> Forall (fun x => x = z) l -> nodup Z.eq_dec l = [z].
Proof.
  intros z l NE H. induction H as [|x l E H IH]; [congruence|]. subst x. cbn [nodup].
  destruct l as [|y l]; [reflexivity|]. inversion H; subst.
  destruct (in_dec Z.eq_dec z (z :: l)) as [I|I]; [|destruct I; left; reflexivity].
  apply IH. discriminate.
Qed.

(** C53: the histogram of such a project has one bin, and its percentiles
    are all equal. *)
Theorem certain_histogram : forall fuel ac p bs mk l draws h,
  certain p -> positive_bounds p -> make_histogram fuel ac p bs mk l draws = Ok h ->
  hist_size h = 1 /\
  forall s, stats h = Ok s ->
    p50 s = p25 s /\ p75 s = p25 s /\ p95 s = p25 s /\ p99 s = p25 s.
Proof.
  intros fuel ac p bs mk l draws h C B E.
  destruct (histogram_of_runs fuel ac p bs mk l draws h E) as (w & zs & rest & k & U & R & L & _).
  destruct (certain_runs_equal p l draws zs rest C B R) as [z Z].
  assert (NE : zs <> []).
  { intro Q. subst zs. cbn [length] in L. unfold sim_batch_size in L. lia. }
  pose proof (values_of_adds zs) as VA.
  destruct (histogram_iteration w (map Add zs) h U) as (bins & I & _ & _ & S1 & S2 & _).
  assert (S : hist_size h = 1).
  { rewrite S2, VA. rewrite (nodup_const (z / w)%Z); [reflexivity| |].
    - destruct zs; [congruence|discriminate].
    - rewrite Forall_map. eapply Forall_impl; [|exact Z]. intros x ->. reflexivity. }
  split; [exact S|]. intros s Q.
  destruct (percentiles_ordered w (map Add zs) h s bins U) as (_ & _ & P); auto; [rewrite VA; exact NE|].
  rewrite S in S1. destruct bins as [|b [|b' bins]]; try discriminate.
  assert (A : forall q x, In (q, x) (reported s) -> x = b_middle b).
  { intros q x Hq. destruct (P q x Hq) as (b' & [<-|[]] & M). auto. }
  unfold reported in A. cbn [In] in A.
  rewrite (A 25%Z (p25 s)), (A 50%Z (p50 s)), (A 75%Z (p75 s)), (A 95%Z (p95 s)), (A 99%Z (p99 s)); tauto.
Qed.
Print Assumptions certain_histogram.

(** ** Concrete cases *)

Example ex_positive_bounds : positive_bounds ex_project.
Proof.
  split.
  - repeat constructor.
  - intros t [<-|[<-|[<-|[]]]]; cbn; lia.
Qed.

Definition ex_draws : list f32 := map f_of_Z [-1; 2; 1; 0; 4000; 3; 7; 7]%Z.

Example ex_finite_draws : finite_draws ex_draws.
Proof. repeat constructor. Qed.

Definition ex_sim_default : simulation :=
  {| si_config := ex_project; si_perf := []; si_dur := []; si_work := []; si_done := [] |}.

Definition ex_sim : simulation := result_or ex_sim_default (sim_new ex_project).

Example ex_sim_ok : sim_new ex_project = Ok ex_sim.
Proof. apply result_or_ok. vm_compute. reflexivity. Qed.

Definition ex_run : sim_result :=
  result_or {| sr_makespan := 0; sr_state := ex_sim_default; sr_draws := [] |}
    (sim_run ex_sim [Item 2 0; Item 1 1; Item 0 1] ex_draws).

Example ex_run_ok : sim_run ex_sim [Item 2 0; Item 1 1; Item 0 1] ex_draws = Ok ex_run.
Proof. apply result_or_ok. vm_compute. reflexivity. Qed.

(** The performances are 2 and 1; task 2 takes 3 / 2 s, task 1 takes 60 s,
    task 0 takes 4000 s; two numbers are left. *)
Example ex_run_value : sr_makespan ex_run = 4061%Z /\ length (sr_draws ex_run) = 2.
Proof. split; vm_compute; reflexivity. Qed.

Example ex_run_timeline : exists m,
  makespan (under ex_params (si_perf (sr_state ex_run)) (si_dur (sr_state ex_run)))
    [Item 2 0; Item 1 1; Item 0 1] = Ok m /\ whole_seconds m (sr_makespan ex_run).
Proof.
  destruct (run_is_timeline ex_project ex_params ex_sim [Item 2 0; Item 1 1; Item 0 1] ex_draws ex_run
    ex_params_ok ex_problem ex_positive_bounds (ex_valid 0 (or_introl eq_refl)) ex_finite_draws
    (sr_new _ _ ex_sim_ok) ex_run_ok) as (m & A & B & _).
  exists m. auto.
Qed.

Example ex_run_total : exists r,
  sim_run ex_sim [Item 2 0; Item 1 1; Item 0 1] (map f_of_Z [2; 1; 4000; 3; 5]%Z) = Ok r /\
  sr_makespan r = 4061%Z.
Proof.
  destruct (run_total ex_project ex_params ex_sim [Item 2 0; Item 1 1; Item 0 1] (map f_of_Z [2; 1; 4000; 3; 5]%Z)
    ex_params_ok ex_problem ex_positive_bounds (ex_valid 0 (or_introl eq_refl))) as (pf & df & mid & rest & m & _).
  - repeat constructor.
  - repeat constructor.
  - cbn. lia.
  - exact (sr_new _ _ ex_sim_ok).
  - exists (result_or ex_run (sim_run ex_sim [Item 2 0; Item 1 1; Item 0 1] (map f_of_Z [2; 1; 4000; 3; 5]%Z))).
    split; [apply result_or_ok; vm_compute; reflexivity|vm_compute; reflexivity].
Qed.

(** A second run of the used object, another project in between. *)
Definition ex_certain : project := {|
  pr_groups := [];
  pr_agents := [{| ag_id := 0; ag_name := "Bob"; ag_groups := [];
                   ag_perf := {| perf_min := f_of_Z 2; perf_max := f_of_Z 2 |} |}];
  pr_tasks := [{| tk_name := "x"; tk_id := ""; tk_groups := []; tk_agent := None;
                  tk_deps := []; tk_min := 90; tk_max := 90 |}] |}.

Definition ex_again : outcome sim_result :=
  s <- sim_rebind (sr_state ex_run) ex_certain ;;
  r <- sim_run s [Item 0 0] ex_draws ;;
  s' <- sim_rebind (sr_state r) ex_project ;;
  sim_run s' [Item 2 0; Item 1 1; Item 0 1] (sr_draws r).

Example ex_history_runs : (r <- ex_again ;; Ok (sr_makespan r)) = Ok 4061%Z.
Proof. vm_compute. reflexivity. Qed.

Example ex_certain_ok : certain ex_certain /\ positive_bounds ex_certain.
Proof.
  split.
  - split; repeat constructor.
  - split; [repeat constructor|]. intros t [<-|[]]; cbn; lia.
Qed.

(** An estimator that counts: quantiles equal to one, error small after the
    first batch. *)
Definition ex_acc : accumulators :=
  {| ac_quantiles := fun _ => repeat f_one 5; ac_rolling_mean := fun _ => f_zero |}.

(** Batches of runs that all give the same value; [draws n] are the random
    numbers left when [n] runs are still to come. *)
Lemma constant_batch : forall p l z (draws : nat -> list f32), (0 <= z)%Z ->
  (forall n s, sim_reached p s -> exists r, sim_run s l (draws (S n)) = Ok r /\
     sr_makespan r = z /\ sr_draws r = draws n) ->
  forall k n st, sim_reached p (hs_sim st) -> hs_draws st = draws (k + n) ->
  (1 <= h_bin_size (hs_hist st))%Z -> Forall (fun x => x = z) (hs_samples st) ->
  exists st', run_batch k l st = Ok st' /\ sim_reached p (hs_sim st') /\ hs_draws st' = draws n /\
    (1 <= h_bin_size (hs_hist st'))%Z /\ Forall (fun x => x = z) (hs_samples st') /\
    length (hs_samples st') = k + length (hs_samples st) /\
    hs_errors st' = hs_errors st /\ hs_quantiles st' = hs_quantiles st.
Proof.
  intros p l z draws HZ HR. induction k as [|k IH]; intros n st R D B S; cbn [run_batch].
  - exists st. repeat split; auto.
  - destruct (HR (k + n) (hs_sim st) R) as (r & E & Ez & Ed). rewrite D.
    change (Datatypes.S k + n) with (Datatypes.S (k + n)). rewrite E. cbn [bind].
    unfold hist_add. destruct (Z.leb_spec 1 (h_bin_size (hs_hist st))); [|lia].
    rewrite Ez. destruct (Z.leb_spec 0 z); [|lia]. cbn [expects bind].
    match goal with |- context [run_batch k l ?x] => destruct (IH n x) as (st' & A1 & A2 & A3 & A4 & A5 & A6 & A7 & A8) end.
    + cbn [hs_sim]. eapply sr_run; eassumption.
    + exact Ed.
    + exact B.
    + cbn [hs_samples]. constructor; auto.
    + exists st'. cbn [hs_samples hs_errors hs_quantiles length] in *. repeat split; auto. lia.
Qed.

Lemma hd_const : forall (z : Z) l, l <> [] -> Forall (fun x => x = z) l -> hd 0%Z l = z.
Proof. intros z l NE H. destruct H; [congruence|assumption]. Qed.

Lemma rev_const : forall (z : Z) l n, 0 < n -> length l = n -> Forall (fun x => x = z) l -> hd 0%Z (rev l) = z.
Proof.
  intros z l n P L H. apply hd_const; [|apply Forall_rev, H].
  intro Q. apply (f_equal (@length Z)) in Q. rewrite rev_length in Q. cbn in Q. lia.
Qed.

Definition ex_csim : simulation := result_or ex_sim_default (sim_new ex_certain).

Example ex_csim_ok : sim_new ex_certain = Ok ex_csim.
Proof. apply result_or_ok. vm_compute. reflexivity. Qed.

Example ex_certain_run : exists r, sim_run ex_csim [Item 0 0] [] = Ok r /\ sr_makespan r = 45%Z.
Proof.
  exists (result_or ex_run (sim_run ex_csim [Item 0 0] [])).
  split; [apply result_or_ok; vm_compute; reflexivity|vm_compute; reflexivity].
Qed.

Lemma batch_size_pos : 0 < sim_batch_size.
Proof. unfold sim_batch_size. lia. Qed.

Lemma certain_histogram_made : forall d, exists h,
  make_histogram 1 ex_acc ex_certain None 45 [Item 0 0] d = Ok h.
Proof.
  intro d. unfold make_histogram. cbn [ex_certain pr_tasks pr_agents length Nat.eqb negb expects bind].
  fold ex_certain. rewrite ex_csim_ok. cbn [bind].
  change (parse_granularity None 45) with (Ok 60%Z). cbn [bind].
  change (hist_new 60) with (Ok {| h_bin_size := 60; h_bins := [] |}). cbn [bind].
  pose proof batch_size_pos as BP. set (n := sim_batch_size) in *.
  unfold one_batch at 1. fold n. clearbody n. cbn [length Nat.eqb negb expects bind].
  match goal with |- context [run_batch n ?l ?x] =>
    destruct (constant_batch ex_certain l 45 (fun _ => d) ltac:(lia)) with (k := n) (n := 0) (st := x)
      as (st & E & R & _ & B & S & L & _ & Q) end.
  - intros m s R. rewrite (certain_run ex_certain s ex_csim [Item 0 0] d (proj1 ex_certain_ok) (proj2 ex_certain_ok) R ex_csim_ok).
    destruct ex_certain_run as (r & E & V). rewrite E. cbn [bind].
    eexists. split; [reflexivity|]. split; [exact V|reflexivity].
  - apply sr_new, ex_csim_ok.
  - reflexivity.
  - cbn. lia.
  - constructor.
  - cbn [hs_samples length] in L.
    assert (HS : 0 < hist_size (hs_hist st)).
    { match type of E with run_batch _ _ ?x = _ => pose proof (batch_collected ex_certain [Item 0 0] d
        {| h_bin_size := 60; h_bins := [] |} n x st) as C end.
      destruct C as [(_ & RR & HC) _].
      - split; [apply sr_new, ex_csim_ok|]. split; [constructor|reflexivity].
      - exact E.
      - assert (U : used 60 (map Add (rev (hs_samples st))) (hs_hist st)) by (eexists; split; [reflexivity|exact HC]).
        destruct (hs_hist st) as [w bins] eqn:HH. destruct bins as [|b bins]; [|cbn; lia].
        exfalso. apply (used_nonempty _ _ _ U); [|reflexivity]. rewrite values_of_adds.
        intro NE. apply (f_equal (@length Z)) in NE. rewrite rev_length in NE. cbn in NE. lia. }
    rewrite E. cbn [bind]. unfold log_error. rewrite Q. cbn [hs_quantiles ex_acc ac_quantiles].
    match goal with |- context [mean_absolute_pct_error ?a ?b] =>
      destruct (mean_absolute_pct_error a b) as [e| |] eqn:ME end.
    2:{ exfalso. assert (O : is_ok (mean_absolute_pct_error (repeat f_one 5) (repeat f_one 5)) = true)
          by (vm_compute; reflexivity). rewrite ME in O. discriminate O. }
    2:{ exfalso. assert (O : is_ok (mean_absolute_pct_error (repeat f_one 5) (repeat f_one 5)) = true)
          by (vm_compute; reflexivity). rewrite ME in O. discriminate O. }
    cbn [bind batches ex_acc ac_rolling_mean hs_errors hs_hist].
    change (f_lt error_threshold f_zero) with false. cbv iota. cbn [bind hs_hist].
    destruct (Nat.ltb_spec 0 (hist_size (hs_hist st))); [|lia]. cbn [expects bind]. eexists. reflexivity.
Qed.

Example ex_certain_histogram : exists h,
  make_histogram 1 ex_acc ex_certain None 45 [Item 0 0] [] = Ok h.
Proof. exact (certain_histogram_made []). Qed.

(** ** C69: the accuracy estimate *)

Lemma nn_abs : forall x : f32, num x -> nn (Babs x).
Proof.
  intros x N. destruct x as [s|s| |s m e B]; [| |discriminate N|]; (split; [reflexivity|]).
  - apply Z.le_refl.
  - vm_compute. discriminate.
  - unfold key. cbn [Babs cond_Zopp]. apply Z.mul_nonneg_nonneg; [lia|]. apply Z.pow_nonneg. lia.
Qed.

Lemma pct_error_nn : forall a b : f32, is_finite a = true -> is_finite b = true ->
  (Rabs (B2R a) <= bpow radix2 126)%R -> (Rabs (B2R b) <= bpow radix2 126)%R ->
  (B2R a <> 0)%R -> nn (pct_error a b).
Proof.
  intros a b Fa Fb La Lb NZ. unfold pct_error. apply nn_abs.
  destruct (sub_fin a b Fa Fb) as [F V].
  { assert (T : (bpow radix2 127 = bpow radix2 126 + bpow radix2 126)%R).
    { change 127%Z with (126 + 1)%Z. rewrite bpow_plus. change (bpow radix2 1) with 2%R. lra. }
    rewrite T. eapply Rle_trans; [apply Rabs_triang|]. rewrite Rabs_Ropp. lra. }
  pose proof (Bdiv_correct 24 128 _ _ mode_NE (f_sub a b) a NZ) as D.
  change (Bdiv mode_NE (f_sub a b) a) with (f_div (f_sub a b) a) in D.
  destruct (Rlt_bool _ _).
  - destruct D as (_ & FD & _). apply finite_num. rewrite FD. exact F.
  - unfold num. destruct (f_div (f_sub a b) a); try reflexivity. discriminate D.
Qed.

Lemma error_sum_nn : forall l e, nn e -> Forall (fun ab => nn (pct_error (fst ab) (snd ab))) l ->
  nn (error_sum e l).
Proof.
  induction l as [|ab l IH]; intros e N H; cbn [error_sum]; [exact N|].
  inversion H as [|? ? H1 H2]; subst. apply IH; [|exact H2]. apply add_nn; assumption.
Qed.

(** An estimate that can be compared: finite and below 2^126 in size. *)
Definition moderate (x : f32) : Prop :=
  is_finite x = true /\ (Rabs (B2R x) <= bpow radix2 126)%R.

(** C69, as far as it is true: if no earlier estimate is zero, the error is
    a number and no contract is violated. *)
Theorem error_estimate_partial : forall now before,
  before <> [] -> length before <= length now ->
  Forall moderate now -> Forall (fun x => moderate x /\ (B2R x <> 0)%R) before ->
  exists e, mean_absolute_pct_error now before = Ok (e, now).
Proof.
  intros now before NE L HN HB. unfold mean_absolute_pct_error.
  destruct (Nat.eqb_spec (length before) 0) as [Z|_]; [destruct before; [congruence|discriminate]|].
  destruct (Nat.leb_spec (length before) (length now)); [|lia]. cbn [negb expects bind].
  assert (N : nn (error_sum f_zero (combine before now))).
  { apply error_sum_nn; [exact nn_zero|]. apply Forall_forall. intros [a b] Hab. cbn [fst snd].
    rewrite Forall_forall in HN, HB. destruct (HB a (in_combine_l _ _ _ _ Hab)) as [[Fa La] NZ].
    destruct (HN b (in_combine_r _ _ _ _ Hab)) as [Fb Lb]. apply pct_error_nn; assumption. }
  apply nn_iff in N. rewrite N. cbn [expects bind]. eexists. reflexivity.
Qed.
Print Assumptions error_estimate_partial.

Example ex_error : exists e,
  mean_absolute_pct_error (map f_of_Z [10; 20; 30; 40; 50]%Z) (map f_of_Z [12; 20; 28; 44; 51]%Z) =
  Ok (e, map f_of_Z [10; 20; 30; 40; 50]%Z).
Proof.
  apply error_estimate_partial; [discriminate|cbn; lia| |].
  - apply Forall_forall. intros x Hx. apply in_map_iff in Hx. destruct Hx as (z & <- & Hz).
    destruct (of_Z_exact z) as [F V]; [cbn in Hz; lia|]. split; [exact F|]. rewrite V, <- abs_IZR.
    apply Rle_trans with (IZR (2 ^ 10)); [apply IZR_le; cbn in Hz; lia|].
    change (IZR (2 ^ 10)) with (bpow radix2 10). apply bpow_le. lia.
  - apply Forall_forall. intros x Hx. apply in_map_iff in Hx. destruct Hx as (z & <- & Hz).
    destruct (of_Z_exact z) as [F V]; [cbn in Hz; lia|]. split; [split; [exact F|]|].
    + rewrite V, <- abs_IZR. apply Rle_trans with (IZR (2 ^ 10)); [apply IZR_le; cbn in Hz; lia|].
      change (IZR (2 ^ 10)) with (bpow radix2 10). apply bpow_le. lia.
    + rewrite V. apply not_0_IZR. cbn in Hz. lia.
Qed.

(** C69, refuted: one task of 2 s, one agent with performance 1 to 3; the
    predicted makespan is 1 s.  If the random performances are all 3 then
    every run takes 0 whole seconds, the exact quantiles are zero, and the
    second batch divides zero by zero: [Ensures(error >= 0)] is
    violated. *)
Definition ex_short : project := {|
  pr_groups := [];
  pr_agents := [{| ag_id := 0; ag_name := "Bob"; ag_groups := [];
                   ag_perf := {| perf_min := f_of_Z 1; perf_max := f_of_Z 3 |} |}];
  pr_tasks := [{| tk_name := "x"; tk_id := ""; tk_groups := []; tk_agent := None;
                  tk_deps := []; tk_min := 2; tk_max := 2 |}] |}.

(** Exact quantiles of equal samples; the mean of the last error. *)
Definition ex_exact : accumulators :=
  {| ac_quantiles := fun zs => repeat (f_of_Z (hd 0%Z zs)) 5;
     ac_rolling_mean := fun es => hd f_zero es |}.

Lemma ex_short_run : forall rest s, sim_reached ex_short s ->
  exists r, sim_run s [Item 0 0] (f_of_Z 3 :: rest) = Ok r /\ sr_makespan r = 0%Z /\ sr_draws r = rest.
Proof.
  intros rest s R. rewrite (run_fresh ex_short s _ _ (reached_shaped _ _ R)). unfold fresh_run.
  change (map perf_bounds (pr_agents ex_short)) with [(f_of_Z 1, f_of_Z 3)].
  change (map duration_bounds (pr_tasks ex_short)) with [(f_of_Z 2, f_of_Z 2)].
  change (length [Item 0 0] =? length (pr_tasks ex_short)) with true. cbn [expects bind].
  cbn [samples_for fst snd]. unfold sample.
  change (f_eq (f_of_Z 1) (f_of_Z 3)) with false. change (f_eq (f_of_Z 2) (f_of_Z 2)) with true. cbv iota.
  cbn [draw_positive]. unfold normal.
  change (f_lt (f_of_Z 1) (f_of_Z 3)) with true. change (f_le f_zero (f_of_Z 1)) with true. cbn [expects bind fst snd].
  change (f_le (f_of_Z 3) f_zero) with false. cbv iota. cbn [bind fst snd].
  match goal with |- context [sim_loop ?a ?b] => set (s1 := a) end.
  assert (E1 : sim_loop s1 [Item 0 0] = Ok (result_or ex_sim_default (sim_loop s1 [Item 0 0])))
    by (apply result_or_ok; vm_compute; reflexivity).
  assert (E2 : to_rep (f_max_list f_zero (si_work (result_or ex_sim_default (sim_loop s1 [Item 0 0])))) = Ok 0%Z)
    by (vm_compute; reflexivity).
  rewrite E1. cbn [bind]. rewrite E2. cbn [bind]. eexists. split; [reflexivity|]. split; reflexivity.
Qed.

Definition ex_ssim : simulation := result_or ex_sim_default (sim_new ex_short).

Lemma ex_ssim_ok : sim_new ex_short = Ok ex_ssim.
Proof. apply result_or_ok. vm_compute. reflexivity. Qed.

Lemma error_keeps : forall a b e, mean_absolute_pct_error a b = Ok e -> snd e = a.
Proof.
  intros a b e E. unfold mean_absolute_pct_error in E.
  destruct (negb (length b =? 0)); [|discriminate]. destruct (length b <=? length a); [|discriminate].
  cbn [expects bind] in E. destruct (f_le f_zero _); [|discriminate]. cbn [expects bind] in E.
  injection E as <-. reflexivity.
Qed.

Lemma constant_one : forall ac p l z (draws : nat -> list f32), (0 <= z)%Z -> l <> [] ->
  (forall n s, sim_reached p s -> exists r, sim_run s l (draws (S n)) = Ok r /\
     sr_makespan r = z /\ sr_draws r = draws n) ->
  forall n st, sim_reached p (hs_sim st) -> hs_draws st = draws (sim_batch_size + n) ->
  (1 <= h_bin_size (hs_hist st))%Z -> Forall (fun x => x = z) (hs_samples st) ->
  exists st', one_batch ac l st = log_error ac st' /\ sim_reached p (hs_sim st') /\ hs_draws st' = draws n /\
    (1 <= h_bin_size (hs_hist st'))%Z /\ Forall (fun x => x = z) (hs_samples st') /\
    hd 0%Z (rev (hs_samples st')) = z /\
    hs_errors st' = hs_errors st /\ hs_quantiles st' = hs_quantiles st.
Proof.
  intros ac p l z draws HZ HL HR n st R D B S. unfold one_batch.
  pose proof batch_size_pos as BP. revert D BP. generalize sim_batch_size. intros k D BP.
  destruct l as [|x l]; [congruence|]. cbn [length Nat.eqb negb expects bind].
  destruct (constant_batch p (x :: l) z draws HZ HR k n st R D B S)
    as (st' & E & A1 & A2 & A3 & A4 & A5 & A6 & A7).
  rewrite E. cbn [bind]. exists st'. repeat split; auto.
  apply (rev_const z _ (length (hs_samples st'))); auto. lia.
Qed.

Theorem error_estimate_refuted : exists p l draws, positive_bounds p /\ finite_draws draws /\
  Forall (fun x => f_lt f_zero x = true) draws /\
  (exists p0, to_schedule_params p = Ok p0 /\
    (m <- makespan p0 l ;; to_rep (f_mul m (sp_mult p0))) = Ok 1%Z) /\
  make_histogram 5 ex_exact p None 1 l draws = Broken.
Proof.
  exists ex_short, [Item 0 0], (repeat (f_of_Z 3) (sim_batch_size + sim_batch_size)).
  split. { split; [repeat constructor|]. intros t [<-|[]]; cbn; lia. }
  split. { apply Forall_forall. intros x Hx. apply repeat_spec in Hx. subst x. reflexivity. }
  split. { apply Forall_forall. intros x Hx. apply repeat_spec in Hx. subst x. reflexivity. }
  split.
  - exists (result_or ex_params (to_schedule_params ex_short)).
    split; [apply result_or_ok; vm_compute; reflexivity|vm_compute; reflexivity].
  - unfold make_histogram. cbn [ex_short pr_tasks pr_agents length Nat.eqb negb expects bind].
    fold ex_short. rewrite ex_ssim_ok. cbn [bind].
    change (parse_granularity None 1) with (Ok 60%Z). cbn [bind].
    change (hist_new 60) with (Ok {| h_bin_size := 60; h_bins := [] |}). cbn [bind].
    set (draws := fun n => repeat (f_of_Z 3) n).
    change (repeat (f_of_Z 3) (sim_batch_size + sim_batch_size)) with (draws (sim_batch_size + sim_batch_size)).
    assert (HR : forall n s, sim_reached ex_short s -> exists r,
      sim_run s [Item 0 0] (draws (S n)) = Ok r /\ sr_makespan r = 0%Z /\ sr_draws r = draws n).
    { intros n s R. apply ex_short_run, R. }
    assert (NL : [Item 0 0] <> []) by discriminate. clearbody draws.
    assert (NN : sim_batch_size + 0 = sim_batch_size) by apply Nat.add_0_r.
    pose proof (constant_one ex_exact ex_short [Item 0 0] 0 draws (Z.le_refl 0) NL HR) as CO. clear HR.
    generalize dependent sim_batch_size. intros n NN CO.
    match goal with |- context [one_batch ex_exact _ ?x] =>
      destruct (CO n x) as (st & E & R & D & B & S & H & EE & Q) end.
    { apply sr_new, ex_ssim_ok. } { reflexivity. } { cbn. lia. } { constructor. }
    cbn [hs_errors hs_quantiles] in EE, Q.
    rewrite E. unfold log_error. rewrite Q. cbn [ex_exact ac_quantiles]. rewrite H.
    set (zs := repeat (f_of_Z 0) 5).
    destruct (mean_absolute_pct_error zs (repeat f_one 5)) as [e| |] eqn:ME.
    2:{ exfalso. assert (O : is_ok (mean_absolute_pct_error zs (repeat f_one 5)) = true)
          by (vm_compute; reflexivity). rewrite ME in O. discriminate O. }
    2:{ exfalso. assert (O : is_ok (mean_absolute_pct_error zs (repeat f_one 5)) = true)
          by (vm_compute; reflexivity). rewrite ME in O. discriminate O. }
    assert (E1 : f_lt error_threshold (fst (result_or (f_zero, zs) (mean_absolute_pct_error zs (repeat f_one 5)))) = true)
      by (vm_compute; reflexivity).
    rewrite ME in E1. cbn [result_or] in E1.
    assert (SQ : snd e = zs) by exact (error_keeps _ _ _ ME).
    cbn [bind batches hs_errors ex_exact ac_rolling_mean]. rewrite EE. cbn [app hd]. rewrite E1.
    match goal with |- context [one_batch _ _ ?x] =>
      destruct (CO 0 x) as (st2 & E' & R2 & D2 & B2 & S2 & H2 & EE2 & Q2) end.
    { exact R. } { cbn [hs_draws]. rewrite NN. exact D. } { exact B. } { exact S. }
    cbn [hs_errors hs_quantiles] in EE2, Q2.
    rewrite E'. unfold log_error. rewrite Q2, SQ. cbn [ex_exact ac_quantiles]. rewrite H2. fold zs.
    assert (BR : mean_absolute_pct_error zs zs = Broken) by (vm_compute; reflexivity).
    rewrite BR. reflexivity.
Qed.
Print Assumptions error_estimate_refuted.
