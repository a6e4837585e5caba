(** * Property theorem C92: scheduling a document ends with a plan *)

From Coq Require Import String List ZArith Bool Arith Lia Permutation Reals Lra.
From Flocq Require Import Core BinarySingleNaN.
From Verif Require Import Base F32 F32Facts F32Signed ProjectModel ScheduleModel ScheduleSpec ScheduleProofs MutatorModel MakespanModel
  TimelineSpec MakespanProofs TemperatureModel TemperatureSpec SimulationModel SimulationSpec SimulationProofs JsonSpec JsonProps StunModel SearchSpec
  StunProofs SameProofs StunProps OptimizerModel OptimizerSpec OptimizerProofs OptimizerSame CurveSpec SearchedProofs OptimizerProps
  PredictModel PredictSpec PredictProps BindingProofs CliModel CliProps ResultProps YamlModel DocumentSpec LoadSpec LoadModel LoadFacts
  LoadProps LoadTotalProps PlanSpec PlanProofs PlanProps OrdinarySpec OrdinaryProofs.
From Verif Require Import JsonModel.
Import ListNotations.
Local Open Scope nat_scope.

(** ** The optimization ends *)

Section Optimization.
  Context (o : oracles) (p : params) (op : options) (threads : nat) (ks : nat -> nat -> nat -> luck).
  Context (HP : problem p) (HN : sane_numbers p) (HF : finite_work p) (HE : exp_sane o) (HM : mean_sane o op)
    (HO : sane_options op) (HX : exp_nonneg o) (HL : log_sane o) (HI : iteration_range op).
  Context (MF : is_finite (sp_mult p) = true) (MP : (0 < B2R (sp_mult p))%R).
  Context (SEC : forall s, valid_schedule p s -> exists z, seconds_of p s z /\ (0 < z < 2 ^ 63)%Z).

  Lemma seconds_known : forall z, optimizer_reached o p op threads z ->
    exists t, makespan_seconds z p = Ok t /\ (0 < t)%Z.
  Proof.
    intros z R. destruct (optimizer_makespan_belongs o p op threads z HP HN R) as (s & m & S & B & _ & M).
    destruct (optimizer_schedule_valid o p op threads z HP R) as (s' & S' & V).
    assert (s' = s) by congruence. subst s'. destruct (SEC s V) as (t & (m' & M' & _ & W) & T).
    assert (m' = m) by congruence. subst m'. exists t. split; [|lia].
    unfold makespan_seconds. rewrite B. cbn [bind]. apply whole_to_rep; [|exact W|lia].
    apply mul_nn; [exact (best_nn o p op threads HP HN z m R B)|exact MF|exact MP].
  Qed.

  (** The loop, from update [i] of a search that stops after [n] updates. *)
  Lemma loop_total : forall z n, optimizer_searched o p op threads z -> loop_stops o z ks n ->
    forall k i y, i + k = n -> optimizer_run o z ks i = Ok y ->
    forall fuel, k <= fuel -> exists y', snd (optimize_loop fuel o p ks i y) = Ok y' /\ optimizer_reached o p op threads y'.
  Proof.
    intros z n R ((e & HR & HC) & A). induction k as [|k IH]; intros i y Hi Y fuel Hf.
    - assert (i = n) by lia. subst i. assert (y = e) by congruence. subst y. exists e. split.
      + destruct fuel; cbn [optimize_loop]; rewrite HC; reflexivity.
      + apply searched_reached. apply (searched_run o p op threads z ks n e R HR).
        intros i y Hi' Y'. destruct (A i Hi') as (y' & Y'' & C). congruence.
    - destruct (A i ltac:(lia)) as (y' & Y' & C). assert (y' = y) by congruence. subst y'.
      destruct fuel as [|fuel]; [lia|]. cbn [optimize_loop]. rewrite C.
      assert (X : exists y1, optimizer_run o z ks (S i) = Ok y1).
      { destruct k as [|k]; [exists e; replace (S i) with n by lia; exact HR|].
        destruct (A (S i) ltac:(lia)) as (y1 & Y1 & _). eauto. }
      destruct X as (y1 & Y1). pose proof Y1 as U. cbn [optimizer_run] in U. rewrite Y in U. cbn [bind] in U.
      rewrite andthen_quietly, U.
      assert (R1 : optimizer_reached o p op threads y1).
      { apply searched_reached. apply (searched_run o p op threads z ks (S i) y1 R Y1).
        intros q w Hq W. destruct (A q ltac:(lia)) as (w' & W' & C'). congruence. }
      destruct (seconds_known y1 R1) as (t & T & _). rewrite andthen_quietly, T, andthen_enqueue. cbn [snd].
      apply (IH (S i) y1); [lia|exact Y1|lia].
  Qed.

  Lemma optimize_total : 0 < threads -> exists n, forall fuel, n <= fuel ->
    exists r, snd (optimize fuel o p op threads ks) = Ok r /\ (0 < os_makespan r)%Z.
  Proof.
    intro TH. destruct (optimizer_new_total o p op HP HN HF HE HM HO threads TH) as (z & Z).
    pose proof (os_new o p op threads z Z) as R.
    destruct (update_loop_ends_partial o p op threads z ks HP HN HF HE HM HO HX HL HI R) as (n & N).
    exists n. intros fuel Hf.
    destruct (loop_total z n R N n 0 z eq_refl eq_refl fuel Hf) as (y & Y & RY).
    destruct (optimizer_schedule_valid o p op threads y HP RY) as (s & S & _).
    destruct (seconds_known y RY) as (t & T & P).
    exists {| os_schedule := s; os_makespan := t |}. split; [|exact P]. unfold optimize.
    pose proof (pb_tasks p HP) as P0. destruct (pb_agents_some p HP 0 P0) as (a & AL). pose proof (pb_agents_range p HP 0 a AL) as PA.
    pose proof (pb_agents_len p HP) as LA. unfold task_count in *.
    assert (NE : forall k, 0 < k -> expects (negb (k =? 0)) = Ok tt)
      by (intros k K; destruct k; [lia|reflexivity]).
    rewrite andthen_quietly, NE by lia. rewrite andthen_quietly, NE by lia. rewrite andthen_quietly, NE by lia.
    rewrite andthen_quietly, LA, Nat.eqb_refl. cbn [expects]. rewrite andthen_quietly, Z.
    destruct (optimize_loop fuel o p ks 0 z) as [evs res]. cbn [snd] in Y. subst res. rewrite andthen_pair. cbn [snd].
    rewrite andthen_quietly, S, andthen_quietly, T. reflexivity.
  Qed.
End Optimization.

Lemma seq_now : forall A B (a : A) (f : A -> act B), seq (done a) f = f a.
Proof. intros A B a f. unfold seq, done. cbn [fst snd app]. destruct (f a). reflexivity. Qed.

Lemma saved_in_files : forall l name content, In (Saved name content) l -> In (name, content) (files l).
Proof.
  induction l as [|e l IH]; intros name content I; [destruct I|]. destruct I as [->|I]; cbn [files]; [left; reflexivity|].
  destruct e; try right; apply IH, I.
Qed.

(** ** C92 *)

(** Every schedule of the project fits the numbers of the program: its
    makespan is at least one second and fits 64 bits, and its tasks are over
    within [2 ^ 31] seconds. *)
Definition schedules_fit (pr : project) (p : params) : Prop :=
  forall s, valid_schedule p s ->
  (exists z, seconds_of p s z /\ (0 < z < 2 ^ 63)%Z) /\
  forall tl, greedy_timeline (in_seconds pr p) s tl -> forall x, In x s ->
    f_lt (tl_finish tl (it_task x)) (f_of_Z (2 ^ 31)) = true.

(** C92: total correctness of the subcommand schedule with [--quiet].  There
    is a number of updates after which the optimization is over; the program
    then exits with status 0, and has written one file, the one named on
    the command line, with a plan for the tasks of the document. *)
Theorem schedule_completes : forall as_float d ags es p ps o l op orac threads ks,
  document_agents d ags -> document_tasks d es ->
  (forall s x, as_float s = Some x -> is_finite x = true /\ (B2R x < bpow radix2 127)%R) ->
  load as_float d = Loads p -> (forall t, In t (pr_tasks p) -> (tk_max t <= 2 ^ 63)%Z) ->
  to_schedule_params p = Ok ps -> (forall i, i < task_count ps -> exists a, allowed ps i a) ->
  finite_work ps -> schedules_fit p ps ->
  exp_sane orac -> mean_sane orac op -> sane_options op -> exp_nonneg orac -> log_sane orac -> iteration_range op ->
  0 < threads -> cf_project l = p -> op = parse_opt_params (co_opt o) (cf_opt l) ->
  co_quiet o = true -> co_output o <> ""%string ->
  exists n, forall fuel w, n <= fuel ->
    wd_arguments w = Run o true -> wd_load w (co_filename o) = Loaded l -> wd_disk w (co_output o) = DiskOk ->
    (forall c, wd_schedule w c = schedule fuel orac (cf_project c) (cf_opt c) threads ks) ->
    snd (main w) = Exited 0 /\
    exists j at_, files (fst (main w)) = [(co_output o, wd_dump w j)] /\ plan as_float ags es (written_tasks j) at_.
Proof.
  intros as_float d ags es p ps o l op orac threads ks A T NUM H MX HE AB HF FIT HX HM HO HP0 HL HI TH CP EO Q NO.
  pose proof (loaded_problem as_float d p NUM H MX ps HE AB) as HP.
  pose proof (params_positive p ps HE MX) as PB. pose proof (loaded_moderate as_float d p NUM H) as MO.
  destruct (small as_float d p H) as [S1 S2].
  destruct (usable p ps HE HP PB MO S1 S2) as (HN & MF & M0).
  destruct (optimize_total orac ps op threads ks HP HN HF HX HM HO HP0 HL HI MF M0 (fun s V => proj1 (FIT s V)) TH) as (n & N).
  exists n. intros fuel w Hf WA WL WD WS. destruct (N fuel Hf) as (r & R & PM).
  assert (SR : snd (schedule fuel orac p op threads ks) = Ok r).
  { unfold schedule. rewrite andthen_enqueue, andthen_quietly, HE.
    destruct (optimize fuel orac ps op threads ks) as [evs res]. cbn [snd] in R. subst res.
    rewrite andthen_pair. reflexivity. }
  destruct (schedule_makespan fuel orac p op threads ks ps HE HP PB MO S1 S2) as (_ & V).
  destruct (V r SR) as (VS & _).
  destruct (json_total p ps (os_schedule r) (os_makespan r) HE HP PB MO VS PM (proj2 (FIT _ VS))) as (jr & J).
  destruct (params_Ok p ps HE) as (NA & NT & _).
  assert (PC : let c := match co_bin_size o with
                | Some z => {| cf_project := cf_project l; cf_bin_size := Some z; cf_opt := cf_opt l |} | None => l end in
    snd (parse_config o (wd_load w)) = Value c /\ cf_project c = cf_project l /\ cf_opt c = cf_opt l).
  { cbv zeta. unfold parse_config, print. rewrite WL, Q. split; [reflexivity|]. destruct (co_bin_size o); split; reflexivity. }
  cbv zeta in PC.
  assert (C : snd (compute w o true) = Value (ScheduleJson jr)).
  { unfold compute. rewrite (proj1 (seq_step _ _ _ _ _ (proj1 PC))). cbv zeta. rewrite (proj1 (proj2 PC)), (proj2 (proj2 PC)), CP, <- EO.
    unfold json_schedule, await. cbn [cf_project]. rewrite Q.
    assert (NE : forall X (x : list X), x <> [] -> expects (negb (length x =? 0)) = Ok tt)
      by (intros X [|x0 x] K; [destruct (K eq_refl)|reflexivity]).
    rewrite (NE _ _ NT), (NE _ _ NA), WS. cbn [cf_project cf_opt attempt]. rewrite !seq_now, SR. cbn [attempt]. rewrite seq_now, J. reflexivity. }
  pose proof (save_cases w o true (ScheduleJson jr)) as SC. cbv zeta in SC. rewrite WD in SC.
  destruct (co_output o) as [|ch rest] eqn:CO; [destruct (NO eq_refl)|]. rewrite <- CO in *. destruct SC as [SV SI].
  destruct (seq_step _ _ _ (save w o true) _ C) as [E1 E2]. rewrite <- command_split in E1, E2. split.
  - unfold main. rewrite WA. destruct (run_command w o true) as [effs e]. cbn [snd] in E1. rewrite E1, SV. reflexivity.
  - rewrite (main_files w o true WA), E2, files_app, (not_saved_files _ (compute_not_saved w o true)). cbn [app].
    destruct (schedule_plan as_float d p ags es NUM H A T MX _ _ _ _ _ _ _ SR J) as (at_ & P).
    exists (ScheduleJson jr), at_. split; [|exact P].
    destruct (save_files w o true (ScheduleJson jr)) as [F|F]; [|exact F]. apply saved_in_files in SI. rewrite F in SI. destruct SI.
Qed.
Print Assumptions schedule_completes.

(** The conditions on the numbers hold for a project with ordinary times:
    whoever may do a task needs at least two seconds for it, and the project
    takes less than 8.5 years even if one does the tasks in sequence. *)
Theorem ordinary_schedule_completes : forall as_float d ags es p ps o l op orac threads ks,
  document_agents d ags -> document_tasks d es ->
  (forall s x, as_float s = Some x -> is_finite x = true /\ (B2R x < bpow radix2 127)%R) ->
  load as_float d = Loads p -> (forall t, In t (pr_tasks p) -> (tk_max t <= 2 ^ 63)%Z) ->
  to_schedule_params p = Ok ps -> (forall i, i < task_count ps -> exists a, allowed ps i a) ->
  ordinary_times p ps ->
  exp_sane orac -> mean_sane orac op -> sane_options op -> exp_nonneg orac -> log_sane orac -> iteration_range op ->
  0 < threads -> cf_project l = p -> op = parse_opt_params (co_opt o) (cf_opt l) ->
  co_quiet o = true -> co_output o <> ""%string ->
  exists n, forall fuel w, n <= fuel ->
    wd_arguments w = Run o true -> wd_load w (co_filename o) = Loaded l -> wd_disk w (co_output o) = DiskOk ->
    (forall c, wd_schedule w c = schedule fuel orac (cf_project c) (cf_opt c) threads ks) ->
    snd (main w) = Exited 0 /\
    exists j at_, files (fst (main w)) = [(co_output o, wd_dump w j)] /\ plan as_float ags es (written_tasks j) at_.
Proof.
  intros as_float d ags es p ps o l op orac threads ks A T NUM H MX HE AB ORD HX HM HO HP0 HL HI TH CP EO Q NO.
  pose proof (loaded_problem as_float d p NUM H MX ps HE AB) as HP.
  pose proof (params_positive p ps HE MX) as PB. pose proof (loaded_moderate as_float d p NUM H) as MO.
  destruct (small as_float d p H) as [S1 S2].
  apply (schedule_completes as_float d ags es p ps o l op orac threads ks); auto.
  - exact (ordinary_finite p ps HE HP PB MO S1 S2 ORD).
  - intros s V. split; [exact (ordinary_seconds p ps HE HP PB MO S1 S2 ORD s V)|].
    exact (ordinary_timeline p ps HE HP PB MO S1 ORD s V).
Qed.
Print Assumptions ordinary_schedule_completes.

(** For instance the document of PlanProps.v, for the options, the random
    numbers and the mathematical functions of the other examples. *)
Lemma plan_params_ok : to_schedule_params plan_project = Ok plan_params.
Proof. apply result_or_ok. vm_compute. reflexivity. Qed.

Lemma plan_loads : load (fun _ => None) plan_doc = Loads plan_project.
Proof. apply loads_loaded. vm_compute. reflexivity. Qed.

Lemma plan_max : forall t, In t (pr_tasks plan_project) -> (tk_max t <= 2 ^ 63)%Z.
Proof.
  assert (X : forallb (fun t => (tk_max t <=? 2 ^ 63)%Z) (pr_tasks plan_project) = true) by (vm_compute; reflexivity).
  intros t I. rewrite forallb_forall in X. apply Z.leb_le. exact (X t I).
Qed.

Lemma no_numbers : forall s x, (fun _ : string => @None f32) s = Some x -> is_finite x = true /\ (B2R x < bpow radix2 127)%R.
Proof. intros s x X. discriminate X. Qed.

Lemma plan_allowed : forall i, i < task_count plan_params -> exists a, allowed plan_params i a.
Proof.
  assert (Ea : sp_agents plan_params = [[1]; [0; 1]]) by (vm_compute; reflexivity).
  assert (Et : task_count plan_params = 2) by (vm_compute; reflexivity).
  intros i B. rewrite Et in B. exists 1. unfold allowed. rewrite Ea.
  destruct i as [|[|i]]; [eexists; split; [reflexivity|cbn; auto]..|lia].
Qed.

Lemma plan_schedules : forall s, valid_schedule plan_params s -> s = [Item 0 1; Item 1 0] \/ s = [Item 0 1; Item 1 1].
Proof.
  assert (Ea : sp_agents plan_params = [[1]; [0; 1]]) by (vm_compute; reflexivity).
  assert (Ed : sp_deps plan_params = [[]; [0]]) by (vm_compute; reflexivity).
  assert (Et : task_count plan_params = 2) by (vm_compute; reflexivity).
  intros s [P D G]. rewrite Et in P. pose proof (Permutation_length P) as L. rewrite map_length in L. cbn in L.
  destruct s as [|[t1 a1] [|[t2 a2] [|]]]; try discriminate L.
  assert (I : In t1 [0; 1] /\ In t2 [0; 1] /\ t1 <> t2).
  { split; [apply (Permutation_in _ P); left; reflexivity|].
    split; [apply (Permutation_in _ P); right; left; reflexivity|].
    apply Permutation_sym in P. assert (N : NoDup [0; 1]) by (repeat constructor; cbn; intuition lia).
    apply (Permutation_NoDup P) in N. cbn in N. inversion N as [|? ? X _]; subst. cbn in X. intro E. apply X. left. auto. }
  destruct I as (I1 & I2 & NE).
  assert (t1 = 0).
  { destruct I1 as [<-|[<-|[]]]; [reflexivity|]. destruct (D [] (Item 1 a1) [Item t2 a2] eq_refl 0).
    unfold depends, depends_in. rewrite Ed. exists [0]. split; [reflexivity|left; reflexivity]. }
  subst t1. assert (t2 = 1) by (destruct I2 as [<-|[<-|[]]]; [destruct (NE eq_refl)|reflexivity]). subst t2.
  destruct (G (Item 0 a1) ltac:(left; reflexivity)) as (r & R & J). rewrite Ea in R. injection R as <-.
  destruct J as [J|[]]; cbn [it_agent] in J; subst a1.
  destruct (G (Item 1 a2) ltac:(right; left; reflexivity)) as (r & R & J). rewrite Ea in R. injection R as <-.
  destruct J as [J|[J|[]]]; cbn [it_agent] in J; subst a2; auto.
Qed.

Lemma plan_problem : problem plan_params.
Proof. exact (loaded_problem _ _ _ no_numbers plan_loads plan_max _ plan_params_ok plan_allowed). Qed.

Lemma plan_usable : sane_numbers plan_params /\ is_finite (sp_mult plan_params) = true /\ (0 < B2R (sp_mult plan_params))%R.
Proof.
  destruct (small _ _ _ plan_loads) as [S1 S2].
  exact (usable _ _ plan_params_ok plan_problem (params_positive _ _ plan_params_ok plan_max)
    (loaded_moderate _ _ _ no_numbers plan_loads) S1 S2).
Qed.

Example plan_fits : schedules_fit plan_project plan_params.
Proof.
  destruct plan_usable as (HN & MF & M0). intros s V. split.
  - destruct (makespan_ok plan_params plan_problem HN s V) as (m & tl & E & G & N & L).
    assert (T : to_rep (f_mul m (sp_mult plan_params)) = Ok 10800%Z).
    { assert (X : (m <- makespan plan_params s ;; to_rep (f_mul m (sp_mult plan_params))) = Ok 10800%Z)
        by (destruct (plan_schedules s V) as [->| ->]; vm_compute; reflexivity).
      rewrite E in X. exact X. }
    destruct (to_rep_whole _ _ (mul_nn _ _ N MF M0) T) as [W _].
    exists 10800%Z. split; [|lia]. exists m. split; [exact E|]. split; [exists tl; auto|exact W].
  - intros tl G x I.
    assert (S : exists a, s = [Item 0 1; Item 1 a] /\ (a = 0 \/ a = 1))
      by (destruct (plan_schedules s V) as [->| ->]; eauto).
    destruct S as (a & -> & Ha). set (P := in_seconds plan_project plan_params) in *.
    destruct (G [] (Item 0 1) [Item 1 a] eq_refl) as (F0 & _ & _ & B0).
    destruct (G [Item 0 1] (Item 1 a) [] eq_refl) as (F1 & _ & _ & B1). cbn [it_task it_agent] in *.
    destruct B0 as [B0|(y & ([] & _) & _)]. rewrite B0 in F0.
    assert (C : f_lt (f_add f_zero (work_time P 0 1)) (f_of_Z (2 ^ 31)) = true) by (vm_compute; reflexivity).
    destruct I as [<-|[<-|[]]]; cbn [it_task]; [rewrite F0; exact C|]. rewrite F1.
    destruct B1 as [B1|(y & ([<-|[]] & _) & B1)]; cbn [it_task] in B1; rewrite B1; [|rewrite F0];
      destruct Ha as [->| ->]; vm_compute; reflexivity.
Qed.

Example plan_finite : finite_work plan_params.
Proof. intros s V. destruct (plan_schedules s V) as [->| ->]; vm_compute; reflexivity. Qed.

Example plan_ordinary : ordinary_times plan_project plan_params.
Proof.
  assert (E : pr_tasks plan_project <> [] /\ length (pr_tasks plan_project) = 2) by (split; vm_compute; [discriminate|reflexivity]).
  assert (M : forallb (fun t => (2 <=? mean t)%Z && (mean t <=? 7200)%Z) (pr_tasks plan_project) = true) by (vm_compute; reflexivity).
  assert (A : forallb (fun a => f_eq (perf_min (ag_perf a)) f_one && f_eq (perf_max (ag_perf a)) f_one &&
    is_finite (perf_min (ag_perf a)) && is_finite (perf_max (ag_perf a))) (pr_agents plan_project) = true) by (vm_compute; reflexivity).
  rewrite forallb_forall in M, A. exists 7200%R. split.
  - rewrite (proj2 E). change (bpow radix2 28) with (IZR (2 ^ 28)). cbn [INR]. apply Rle_trans with (IZR 14400); [lra|].
    apply IZR_le. lia.
  - intros i j t a T G _. specialize (M t (nth_error_In _ _ T)). specialize (A a (nth_error_In _ _ G)).
    apply andb_true_iff in M. destruct M as [M1 M2]. apply Z.leb_le in M1, M2. apply IZR_le in M1, M2.
    apply andb_true_iff in A. destruct A as [A A4]. apply andb_true_iff in A. destruct A as [A A3]. apply andb_true_iff in A. destruct A as [A1 A2].
    destruct one_fin as [F1 V1].
    assert (EQ : forall x y : f32, is_finite x = true -> is_finite y = true -> f_eq x y = true -> B2R x = B2R y).
    { intros x y Fx Fy X. unfold f_eq in X. rewrite Beqb_correct in X by assumption.
      destruct (Req_bool_spec (B2R x) (B2R y)); [assumption|discriminate]. }
    rewrite (EQ _ _ A3 F1 A1), (EQ _ _ A4 F1 A2), V1. lra.
Qed.

Example ex_ordinary : exists n, forall fuel w, n <= fuel ->
  wd_arguments w = Run (ex_cli true) true ->
  wd_load w "tasks.yml"%string = Loaded {| cf_project := plan_project; cf_bin_size := None; cf_opt := ex_options |} ->
  wd_disk w "out.json"%string = DiskOk ->
  (forall c, wd_schedule w c = schedule fuel step_exp (cf_project c) (cf_opt c) 2 (fun _ _ _ => ex_stuck)) ->
  snd (main w) = Exited 0 /\ exists j, files (fst (main w)) = [("out.json"%string, wd_dump w j)].
Proof.
  pose proof plan_loads as L. facts L ags es F.
  destruct (ordinary_schedule_completes (fun _ => None) plan_doc ags es plan_project plan_params (ex_cli true)
    {| cf_project := plan_project; cf_bin_size := None; cf_opt := ex_options |} ex_options step_exp 2 (fun _ _ _ => ex_stuck)
    (fa_ags _ _ _ _ _ F) (fa_es _ _ _ _ _ F)
    no_numbers plan_loads plan_max plan_params_ok plan_allowed plan_ordinary step_exp_sane ex_mean_sane ex_options_sane
    step_exp_nonneg step_log_sane ex_iteration_range ltac:(lia) eq_refl eq_refl eq_refl ltac:(discriminate)) as (n & N).
  exists n. intros fuel w Hf WA WL WD WS. destruct (N fuel w Hf WA WL WD WS) as (X & j & _ & Y & _). eauto.
Qed.

Example ex_completes : exists ags es n, forall fuel, n <= fuel ->
  let w := {| wd_arguments := Run (ex_cli true) true; wd_load := wd_load plan_world; wd_predict := wd_predict plan_world;
              wd_schedule := fun c => schedule fuel step_exp (cf_project c) (cf_opt c) 2 (fun _ _ _ => ex_stuck);
              wd_display := wd_display plan_world; wd_log_ok := true; wd_dump := wd_dump plan_world;
              wd_disk := fun _ => DiskOk; wd_terminate := ""%string |} in
  length es = 2 /\ snd (main w) = Exited 0 /\
  exists j at_, files (fst (main w)) = [("out.json"%string, wd_dump w j)] /\ plan (fun _ => None) ags es (written_tasks j) at_.
Proof.
  pose (tx := Map [(Scalar "name", Scalar "x"); (Scalar "duration", Scalar "1h"); (Scalar "id", Scalar "x")]%string).
  pose (ty := Map [(Scalar "name", Scalar "y"); (Scalar "duration", Scalar "2h"); (Scalar "depends_on", Scalar "x");
              (Scalar "group", Scalar "A")]%string).
  pose (ags := [(Scalar "Bob", Map [(Scalar "groups", Seq [Scalar "A"])]); (Scalar "Jack", Null)]%string).
  assert (A : document_agents plan_doc ags) by (eexists; split; [reflexivity|left; reflexivity]).
  assert (NS : forall t, t = tx \/ t = ty -> absent t "subtasks").
  { intros t [->| ->] v (l & E & I); injection E as <-; cbn in I; repeat destruct I as [I|I]; try discriminate I; exact I. }
  assert (T : document_tasks plan_doc [(tx, []); (ty, [])]).
  { exists [tx; ty], [0; 1]. split; [eexists; split; [reflexivity|right; left; reflexivity]|].
    apply (lays_cons 0 tx [ty] [(tx, [])] [1] [(ty, [])]); [apply lay_leaf, NS; auto|].
    apply (lays_cons 1 ty [] [(ty, [])] [] []); [apply lay_leaf, NS; auto|constructor]. }
  destruct (schedule_completes (fun _ => None) plan_doc ags [(tx, []); (ty, [])] plan_project plan_params (ex_cli true)
    {| cf_project := plan_project; cf_bin_size := None; cf_opt := ex_options |} ex_options step_exp 2 (fun _ _ _ => ex_stuck)
    A T no_numbers plan_loads plan_max plan_params_ok plan_allowed plan_finite plan_fits step_exp_sane ex_mean_sane ex_options_sane
    step_exp_nonneg step_log_sane ex_iteration_range ltac:(lia) eq_refl eq_refl eq_refl ltac:(discriminate)) as (n & N).
  exists ags, [(tx, []); (ty, [])], n. intros fuel Hf. cbv zeta. split; [reflexivity|].
  apply (N fuel); [exact Hf|reflexivity..].
Qed.
