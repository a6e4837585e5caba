(** * Property theorems C30-C38 for the optimizer *)

From Coq Require Import List ZArith Bool Arith Lia Lra.
From Flocq Require Import BinarySingleNaN.
From Verif Require Import Base F32 F32Facts ProjectModel ScheduleModel ScheduleSpec MutatorModel MakespanModel
  TimelineSpec TemperatureModel TemperatureSpec StunModel SearchSpec StunProofs SameProofs StunProps
  OptimizerModel OptimizerSpec OptimizerProofs OptimizerSame CurveSpec SearchedProofs.
Import ListNotations.

(** ** Examples: two jobs for the problem [ex2_params] *)

Definition no_optimizer : optimizer :=
  {| oz_batch := 0; oz_max_idle := 0; oz_idle := 0; oz_epochs := 0; oz_progress := f_zero;
     oz_last := f_zero; oz_curve := curve_new; oz_jobs := [] |}.

Definition ex_z0 : optimizer := result_or no_optimizer (optimizer_new step_exp ex2_params ex_options 2).

Example ex_z0_new : optimizer_new step_exp ex2_params ex_options 2 = Ok ex_z0.
Proof. apply result_or_ok. vm_compute. reflexivity. Qed.

Example ex_z0_reached : optimizer_reached step_exp ex2_params ex_options 2 ex_z0.
Proof. apply or_new, ex_z0_new. Qed.

(** Only the second job finds the better schedule. *)
Definition ex_stuck : luck := Luck (Draws 0 0 0) f_half.
Definition ex_ks : nat -> nat -> luck := fun i _ => if i =? 1 then ex_improve else ex_stuck.
Definition ex_z1 : optimizer := result_or no_optimizer (optimizer_update step_exp ex_z0 ex_ks).

Example ex_z1_update : optimizer_update step_exp ex_z0 ex_ks = Ok ex_z1.
Proof. apply result_or_ok. vm_compute. reflexivity. Qed.

Example ex_z1_reached : optimizer_reached step_exp ex2_params ex_options 2 ex_z1.
Proof. apply or_update with ex_z0 ex_ks; [exact ex_z0_reached|exact ex_z1_update]. Qed.

(** ** C30, C32 *)

(** C30 for the optimizer. *)
Theorem optimizer_makespan_belongs : forall o p op threads z,
  problem p -> sane_numbers p -> optimizer_reached o p op threads z ->
  exists s m, optimizer_schedule z = Ok s /\ optimizer_best z = Ok m /\
    project_length p s m /\ makespan p s = Ok m.
Proof.
  intros o p op threads z HP HN R.
  destruct (oi_front o p op threads z (oreached_inv o p op HP threads z R)) as (j & _ & _ & Rj & B & S).
  exists (job_schedule j), (job_best j). split; [exact S|]. split; [exact B|].
  apply (best_makespan_belongs o p op j HP HN Rj).
Qed.
Print Assumptions optimizer_makespan_belongs.

Example ex_optimizer_makespan : exists s m, optimizer_schedule ex_z1 = Ok s /\
  optimizer_best ex_z1 = Ok m /\ project_length ex2_params s m /\ makespan ex2_params s = Ok m.
Proof. exact (optimizer_makespan_belongs _ _ _ _ _ ex2_problem ex2_numbers ex_z1_reached). Qed.

(** C32 for the optimizer. *)
Theorem optimizer_schedule_valid : forall o p op threads z,
  problem p -> optimizer_reached o p op threads z ->
  exists s, optimizer_schedule z = Ok s /\ valid_schedule p s.
Proof.
  intros o p op threads z HP R.
  destruct (oi_front o p op threads z (oreached_inv o p op HP threads z R)) as (j & _ & _ & Rj & _ & S).
  exists (job_schedule j). split; [exact S|]. apply (reported_schedule_valid o p op j HP Rj).
Qed.
Print Assumptions optimizer_schedule_valid.

Example ex_optimizer_schedule :
  optimizer_schedule ex_z0 = Ok [Item 0 0; Item 1 0] /\
  optimizer_schedule ex_z1 = Ok [Item 1 1; Item 0 0].
Proof. split; vm_compute; reflexivity. Qed.

(** ** C31 *)

(** C31 for the optimizer: the reported makespan never increases; after [n]
    updates it is at most the makespan of every candidate evaluated by any
    of the jobs, and the reported schedule is one of these or one of those
    the jobs held at the beginning. *)
Theorem optimizer_best_is_minimum_seen : forall o p op threads z ks n z',
  problem p -> optimizer_reached o p op threads z -> optimizer_run o z ks n = Ok z' ->
  exists m0 s m, optimizer_best z = Ok m0 /\ optimizer_schedule z' = Ok s /\ optimizer_best z' = Ok m /\
    f_le m m0 = true /\
    length (evaluated o z ks n) = n * (threads * Z.to_nat (op_batch op)) /\
    Forall (valid_schedule p) (evaluated o z ks n) /\
    In s (map job_schedule (oz_jobs z) ++ evaluated o z ks n) /\
    forall c mc, In c (evaluated o z ks n) -> makespan p c = Ok mc -> f_le m mc = true.
Proof.
  intros o p op threads z ks n z' HP R H. pose proof (oreached_inv o p op HP threads z R) as I.
  destruct (orun_seen o p op HP threads ks n z z' I H) as (m0 & m & B0 & B & L & LEN & V & S & M).
  destruct (oi_front o p op threads z' (orun_inv o p op HP threads ks n z z' I H)) as (j & _ & Ij & _ & _ & Sj).
  exists m0, (job_schedule j), m. repeat split; auto.
Qed.
Print Assumptions optimizer_best_is_minimum_seen.

Example ex_evaluated : evaluated step_exp ex_z0 (fun _ => ex_ks) 1 =
  [[Item 1 0; Item 0 0]; [Item 0 0; Item 1 0]; [Item 1 0; Item 0 0];
   [Item 1 1; Item 0 0]; [Item 0 1; Item 1 1]; [Item 1 1; Item 0 1]].
Proof. vm_compute. reflexivity. Qed.

(** ** C33 *)

(** C33: after an update the reported makespan is the least among the
    updated jobs, all jobs have it, and it is at most the one reported
    before.  The number of jobs is any [threads]. *)
Theorem update_reports_minimum : forall o p op threads z ks z',
  problem p -> optimizer_reached o p op threads z -> optimizer_update o z ks = Ok z' ->
  exists jobs m m0, update_jobs o 0 (oz_jobs z) ks = Ok jobs /\ length jobs = threads /\
    optimizer_best z' = Ok m /\ optimizer_best z = Ok m0 /\
    (exists j, In j jobs /\ job_best j = m /\ optimizer_schedule z' = Ok (job_schedule j)) /\
    (forall j, In j jobs -> f_le m (job_best j) = true) /\
    (forall j, In j (oz_jobs z') -> f_eq (job_best j) m = true) /\
    f_le m m0 = true.
Proof.
  intros o p op threads z ks z' HP R H. pose proof (oreached_inv o p op HP threads z R) as I.
  destruct (update_best o p op HP threads z ks z' I H) as (jobs & m & m0 & U & B & B0 & J & L & E & M).
  exists jobs, m, m0. split; [exact U|]. split.
  - destruct (update_jobs_reached o p op HP ks _ 0 jobs (oi_jobs _ _ _ _ z I) U) as [_ L1].
    rewrite <- (Forall2_length L1). apply I.
  - repeat split; auto. intros j Hj. apply (E j Hj).
Qed.
Print Assumptions update_reports_minimum.

Example ex_update_minimum :
  match update_jobs step_exp 0 (oz_jobs ex_z0) ex_ks with
  | Ok [a; b] => f_lt (job_best b) (job_best a)
  | _ => false
  end = true.
Proof. vm_compute. reflexivity. Qed.

(** C33, interleavings: however the iterations of the jobs are interleaved,
    as long as every job does its batch, the jobs end as in the model of
    [Optimizer::update]. *)
Theorem interleaving_irrelevant : forall o p op threads z ks order jobs,
  problem p -> optimizer_reached o p op threads z ->
  (forall i, In i order -> i < threads) ->
  (forall i, i < threads -> count_occ Nat.eq_dec order i = Z.to_nat (op_batch op)) ->
  (interleaved o (oz_jobs z) (repeat 0 threads) ks order = Ok jobs <->
   update_jobs o 0 (oz_jobs z) ks = Ok jobs).
Proof.
  intros o p op threads z ks order jobs HP R HI HC. pose proof (oreached_inv o p op HP threads z R) as I.
  rewrite <- (oi_count _ _ _ _ z I) in *. apply (interleaved_update o _ ks order jobs (op_batch op)); auto.
  - eapply Forall_impl; [|apply (oi_jobs _ _ _ _ z I)]. intros j Rj. apply (reached_batch o p op HP j Rj).
  - apply (oi_batch_pos _ _ _ _ z I).
Qed.
Print Assumptions interleaving_irrelevant.

Example ex_interleaving : is_ok (interleaved step_exp (oz_jobs ex_z0) (repeat 0 2) ex_ks [1; 0; 0; 1; 0; 1]) = true /\
  (forall i, i < 2 -> count_occ Nat.eq_dec [1; 0; 0; 1; 0; 1] i = Z.to_nat (op_batch ex_options)).
Proof. split; [vm_compute; reflexivity|]. intros [|[|i]] H; [reflexivity|reflexivity|lia]. Qed.

(** ** C34 *)

(** C34 for the optimizer, first part: a copy reports the same. *)
Theorem optimizer_copy_reports_the_same : forall o p op threads z c,
  problem p -> optimizer_reached o p op threads z -> optimizer_copy z = Ok c ->
  observed c = observed z.
Proof.
  intros o p op threads z c HP R H. pose proof (oreached_inv o p op HP threads z R) as I.
  destruct (oi_front o p op threads z I) as (j & Fj & _ & Rj & B & S).
  unfold optimizer_copy in H. apply bind_ok in H. destruct H as (jobs & E & H). injection H as <-.
  apply map_outcome_forall2 in E. unfold best_job, at_index in Fj.
  destruct E as [|a b l l' Hab E]; [discriminate|]. cbn in Fj. injection Fj as ->.
  destruct (copy_reports_the_same o p op j b HP Rj Hab) as (S' & B' & _).
  unfold observed. rewrite S, B. unfold optimizer_schedule, optimizer_best, best_job, at_index.
  cbn. rewrite S', B'. reflexivity.
Qed.
Print Assumptions optimizer_copy_reports_the_same.

Example ex_optimizer_copy : is_ok (optimizer_copy ex_z1) = true.
Proof. vm_compute. reflexivity. Qed.

(** ** C35 *)

(** C35, full statement: for every loaded project, every option setting
    and every random stream the loop ends.  Proved here for every history
    before the loop and every random stream: the loop ends, unless one of
    its updates violates a contract. *)
Theorem update_loop_ends_or_fails : forall o p op threads z ks,
  problem p -> optimizer_reached o p op threads z -> loop_runs o z ks ->
  exists n, loop_stops o z ks n.
Proof.
  intros o p op threads z ks HP R T.
  apply (loop_ends o p op HP threads z ks); [apply (oreached_inv o p op HP threads z R)|exact T].
Qed.
Print Assumptions update_loop_ends_or_fails.

(** In a search, no update violates a contract, so the loop ends.  What is
    missing for the full statement: the options and the durations are
    restricted ([sane_options], [iteration_range], [sane_numbers],
    [finite_work]); C41 shows that some restriction is necessary. *)
Theorem update_loop_ends_partial : forall o p op threads z ks,
  problem p -> sane_numbers p -> finite_work p -> exp_sane o -> mean_sane o op -> sane_options op ->
  exp_nonneg o -> log_sane o -> iteration_range op ->
  optimizer_searched o p op threads z ->
  exists n, loop_stops o z ks n.
Proof.
  intros o p op threads z ks HP HN HF HE HM HO HX HL HI R.
  apply (update_loop_ends_or_fails o p op threads z ks HP (searched_reached o p op threads z R)).
  intros n z' H NC. apply (si_update o p op threads HP HN HF HE HM HO HX HL HI z' (ks n)).
  - apply (searched_inv o p op threads HP HN HF HE HM HO HX HL HI).
    apply (searched_run o p op threads z ks n z' R H). intros i y Hi. apply NC. lia.
  - apply (NC n z'); [lia|exact H].
Qed.
Print Assumptions update_loop_ends_partial.

Example step_exp_nonneg : exp_nonneg step_exp.
Proof. intros x _. cbn. destruct (f_lt x f_zero); vm_compute; reflexivity. Qed.

Example step_log_sane : log_sane step_exp.
Proof. intros y _ _. cbn. split; vm_compute; reflexivity. Qed.

Example ex_iteration_range : iteration_range ex_options.
Proof. constructor; cbn; lia. Qed.

Example ex_z0_searched : optimizer_searched step_exp ex2_params ex_options 2 ex_z0.
Proof. apply os_new, ex_z0_new. Qed.

Example ex_loop_ends : exists n, loop_stops step_exp ex_z0 (fun _ => ex_ks) n.
Proof.
  apply (update_loop_ends_partial step_exp ex2_params ex_options 2);
    [exact ex2_problem|exact ex2_numbers|exact ex2_finite|exact step_exp_sane|exact ex_mean_sane
    |exact ex_options_sane|exact step_exp_nonneg|exact step_log_sane|exact ex_iteration_range|exact ex_z0_searched].
Qed.

(** C35 is false as stated: with a beta scale of 40, which the command line
    accepts, an update of the loop violates the contract of the temperature
    (C41), so the program is aborted.  All other options are sane. *)
Definition hot_options : options :=
  {| op_batch := 3; op_max_idle := 10; op_scale := f_of_Z 40; op_window := 100;
     op_gamma := f_of_Z 2; op_period := 256 |}.

Definition hot_z0 : optimizer := result_or no_optimizer (optimizer_new step_exp ex2_params hot_options 2).

Example step_mean_within : mean_within f_zero step_exp.
Proof. intros w l _ _ _. split; [reflexivity|]. cbn. lra. Qed.

Theorem update_loop_refuted : exists o p op threads z ks,
  problem p /\ sane_numbers p /\ finite_work p /\ exp_sane o /\ mean_within f_zero o /\ exp_nonneg o /\ log_sane o /\
  iteration_range op /\ f_lt f_zero (op_scale op) = true /\ is_finite (op_scale op) = true /\
  (0 < op_window op)%Z /\ f_lt f_zero (op_gamma op) = true /\ op_period op = (2 ^ 8)%Z /\
  optimizer_new o p op threads = Ok z /\ optimizer_run o z ks 1 = Broken /\
  forall n, ~ loop_stops o z ks n.
Proof.
  exists step_exp, ex2_params, hot_options, 2.
  assert (N : optimizer_new step_exp ex2_params hot_options 2 = Ok hot_z0)
    by (apply result_or_ok; vm_compute; reflexivity).
  assert (B : forall n, optimizer_run step_exp hot_z0 (fun _ => ex_ks) (S n) = Broken).
  { induction n as [|n IH]; [vm_compute; reflexivity|].
    change (bind (optimizer_run step_exp hot_z0 (fun _ => ex_ks) (S n)) (fun z => optimizer_update step_exp z ex_ks)
            = Broken). rewrite IH. reflexivity. }
  assert (C0 : has_converged hot_z0 = false) by (vm_compute; reflexivity).
  assert (R0 : optimizer_run step_exp hot_z0 (fun _ => ex_ks) 0 = Ok hot_z0) by reflexivity.
  generalize dependent hot_z0. intros z N B C0 R0. exists z, (fun _ => ex_ks).
  split; [exact ex2_problem|]. split; [exact ex2_numbers|]. split; [exact ex2_finite|].
  split; [exact step_exp_sane|]. split; [exact step_mean_within|]. split; [exact step_exp_nonneg|].
  split; [exact step_log_sane|]. split; [constructor; cbn; lia|].
  do 2 (split; [vm_compute; reflexivity|]). split; [cbn; lia|]. split; [vm_compute; reflexivity|].
  split; [reflexivity|]. split; [exact N|]. split; [apply B|].
  intros n ((z' & R & C) & _). destruct n as [|n].
  - congruence.
  - rewrite B in R. discriminate.
Qed.
Print Assumptions update_loop_refuted.

(** ** C72 *)

(** C72: how far the counters of the optimizer get in a search, for all
    options, functions and random numbers. *)
Theorem counter_bounds : forall o p op threads z,
  problem p -> optimizer_searched o p op threads z ->
  (0 <= oz_idle z < op_max_idle op + op_batch op)%Z /\ (0 <= oz_epochs z <= 1 + 255 * 2 ^ 23)%Z.
Proof.
  intros o p op threads z HP R. pose proof (counted_inv o p op threads HP z R) as S.
  pose proof (ki_epochs o p op threads z S) as E. pose proof (ki_idle _ _ _ _ z S) as ID.
  pose proof (oi_idle _ _ _ _ z (ki_oi _ _ _ _ z S)). unfold top_rank in E. lia.
Qed.
Print Assumptions counter_bounds.

(** So 32 bit counters never overflow unless the two options are very
    large. *)
Theorem counters_fit_partial : forall o p op threads z,
  problem p -> (op_batch op + op_max_idle op <= 2 ^ 31)%Z ->
  optimizer_searched o p op threads z ->
  (0 <= oz_idle z < 2 ^ 31)%Z /\ (0 <= oz_epochs z < 2 ^ 31)%Z.
Proof.
  intros o p op threads z HP HI R. pose proof (counter_bounds o p op threads z HP R). lia.
Qed.
Print Assumptions counters_fit_partial.

Example ex_z1_searched : optimizer_searched step_exp ex2_params ex_options 2 ex_z1.
Proof. apply os_update with ex_z0 ex_ks; [exact ex_z0_searched|vm_compute; reflexivity|exact ex_z1_update]. Qed.

Example ex_counters : (0 <= oz_idle ex_z1 < 2 ^ 31)%Z /\ (0 <= oz_epochs ex_z1 < 2 ^ 31)%Z.
Proof.
  apply (counters_fit_partial step_exp ex2_params ex_options 2); [exact ex2_problem|vm_compute; discriminate|exact ex_z1_searched].
Qed.

(** ** C36 *)

(** C36, full statement: after [n] updates of a new optimizer that reported
    the makespans [ms], convergence is reported iff
    [max_idle <= batch * quiet ms], and the epoch is [improvements ms].
    False, see [convergence_refuted]: the first update always counts as an
    improvement.  So the counts start with the makespan reported after the
    first update. *)
Theorem convergence_partial : forall o p op threads z ks n z' m0 ms,
  problem p -> sane_numbers p -> positive_work p ->
  optimizer_new o p op threads = Ok z \/
    (exists y, optimizer_reached o p op threads y /\ optimizer_reset o y = Ok z) ->
  optimizer_run o z ks (S n) = Ok z' -> reports o z ks (S n) (m0 :: ms) ->
  oz_epochs z' = Z.of_nat (1 + improvements ms) /\
  (has_converged z' = true <-> (op_max_idle op <= op_batch op * Z.of_nat (quiet ms))%Z).
Proof.
  intros o p op threads z ks n z' m0 ms HP HN HW S H RP.
  assert (I : OI o p op threads z /\ oz_last z = f_zero /\ oz_idle z = 0%Z /\ oz_epochs z = 0%Z).
  { destruct S as [S|(y & R & S)].
    - split; [apply (oi_new o p op threads z S)|].
      unfold optimizer_new in S. ok_step S. ok_step S. apply bind_ok in S. destruct S as (jobs & _ & S).
      ok_step S. injection S as <-. auto.
    - split; [apply (oi_reset o p op threads y z (oreached_inv o p op HP threads y R) S)|].
      unfold optimizer_reset in S. ok_step S. ok_step S. ok_step S. apply bind_ok in S.
      destruct S as (jobs & _ & S). injection S as <-. auto. }
  destruct I as (I & L & ID & EP).
  destruct (counters o p op HP threads z ks HN HW I) with (n := n) (z' := z') (ms := m0 :: ms)
    as (m0' & l & m & E & _ & _ & EE & EI); auto; [rewrite L; reflexivity|].
  injection E as <- ->. split; [exact EE|].
  unfold has_converged. rewrite EI, (oi_max _ _ _ _ z' (orun_inv o p op HP threads ks _ z z' I H)).
  apply Z.leb_le.
Qed.
Print Assumptions convergence_partial.

Example ex2_positive : positive_work ex2_params.
Proof.
  intros t a H. apply ex2_allowed in H. destruct H as [Ht Ha].
  destruct t as [|[|t]]; try lia; destruct a as [|[|a]]; try lia; vm_compute; reflexivity.
Qed.

Theorem convergence_refuted : exists o p op threads z ks z' m0 m1,
  problem p /\ sane_numbers p /\ positive_work p /\ sane_options op /\ exp_sane o /\ mean_sane o op /\
  optimizer_new o p op threads = Ok z /\ optimizer_run o z ks 1 = Ok z' /\
  reports o z ks 1 [m0; m1] /\
  oz_epochs z' <> Z.of_nat (improvements [m0; m1]) /\
  has_converged z' = false /\
  (op_max_idle op <= op_batch op * Z.of_nat (quiet [m0; m1]))%Z.
Proof.
  set (op := {| op_batch := 3; op_max_idle := 3; op_scale := f_one; op_window := 100;
                op_gamma := f_of_Z 2; op_period := 256 |}).
  set (z := result_or no_optimizer (optimizer_new step_exp ex2_params op 1)).
  assert (EZ : optimizer_new step_exp ex2_params op 1 = Ok z) by (apply result_or_ok; vm_compute; reflexivity).
  set (ks := fun (_ : nat) (_ : nat) (_ : nat) => ex_stuck).
  set (z' := result_or no_optimizer (optimizer_run step_exp z ks 1)).
  assert (EZ' : optimizer_run step_exp z ks 1 = Ok z') by (apply result_or_ok; vm_compute; reflexivity).
  set (m0 := result_or f_zero (optimizer_best z)). set (m1 := result_or f_zero (optimizer_best z')).
  exists step_exp, ex2_params, op, 1, z, ks, z', m0, m1.
  split; [exact ex2_problem|]. split; [exact ex2_numbers|]. split; [exact ex2_positive|].
  split.
  { constructor; cbn; try lia; try first [vm_compute; reflexivity|split; vm_compute; reflexivity]. exists 8. split; [reflexivity|lia]. }
  split; [exact step_exp_sane|]. split; [apply step_mean_sane; vm_compute; reflexivity|]. split; [exact EZ|]. split; [exact EZ'|].
  split.
  { change [m0; m1] with ([m0] ++ [m1]). apply rp_next with z'.
    - apply rp_start. apply result_or_ok. vm_compute. reflexivity.
    - exact EZ'.
    - apply result_or_ok. vm_compute. reflexivity. }
  split; [vm_compute; discriminate|]. split; [vm_compute; reflexivity|]. vm_compute. discriminate.
Qed.
Print Assumptions convergence_refuted.

Example ex_convergence : exists z' m0 ms,
  optimizer_run step_exp ex_z0 (fun _ => ex_ks) 2 = Ok z' /\
  reports step_exp ex_z0 (fun _ => ex_ks) 2 (m0 :: ms) /\ oz_epochs z' = 1%Z /\ oz_idle z' = 3%Z.
Proof.
  set (z' := result_or no_optimizer (optimizer_run step_exp ex_z0 (fun _ => ex_ks) 2)).
  exists z', (result_or f_zero (optimizer_best ex_z0)),
    [result_or f_zero (optimizer_best ex_z1); result_or f_zero (optimizer_best z')].
  assert (E : optimizer_run step_exp ex_z0 (fun _ => ex_ks) 2 = Ok z')
    by (apply result_or_ok; vm_compute; reflexivity).
  split; [exact E|]. split; [|split; vm_compute; reflexivity].
  change (?a :: [?b; ?c]) with (([a] ++ [b]) ++ [c]). apply rp_next with z'; [|exact E|].
  - apply rp_next with ex_z1; [|exact ex_z1_update|].
    + apply rp_start. apply result_or_ok. vm_compute. reflexivity.
    + apply result_or_ok. vm_compute. reflexivity.
  - apply result_or_ok. vm_compute. reflexivity.
Qed.

(** ** C37 *)

Lemma progress_limit : forall o p op threads z, problem p -> optimizer_reached o p op threads z ->
  f_lt f_one (oz_progress z) = false.
Proof.
  intros o p op threads z HP R. induction R as [z H|z ks z' R IH H|z z' R IH H|z z' R IH H].
  - unfold optimizer_new in H. ok_step H. ok_step H. apply bind_ok in H. destruct H as (jobs & _ & H).
    ok_step H. injection H as <-. vm_compute. reflexivity.
  - unfold optimizer_update in H. ok_step H. ok_step H. apply bind_ok in H. destruct H as (j1 & _ & H).
    apply bind_ok in H. destruct H as (j2 & _ & H). apply bind_ok in H. destruct H as (m & _ & H).
    assert (MIN : forall x, f_lt f_one (f_min x f_one) = false).
    { intro x. unfold f_min. destruct (f_lt f_one x) eqn:E; [vm_compute; reflexivity|exact E]. }
    destruct (f_eq m _).
    + unfold interpolate_progress in H. ok_step H. apply bind_ok in H. destruct H as (q & _ & H).
      injection H as <-. cbn [oz_progress]. apply MIN.
    + unfold estimate_progress in H. ok_step H. apply bind_ok in H. destruct H as (q & _ & H).
      apply bind_ok in H. destruct H as (m' & _ & H). apply bind_ok in H. destruct H as (r & _ & H).
      ok_step H. ok_step H. injection H as <-. cbn [oz_progress]. apply MIN.
  - unfold optimizer_reset in H. ok_step H. ok_step H. ok_step H. apply bind_ok in H.
    destruct H as (jobs & _ & H). injection H as <-. vm_compute. reflexivity.
  - unfold optimizer_copy in H. apply bind_ok in H. destruct H as (jobs & _ & H). injection H as <-. exact IH.
Qed.

(** C37, full statement: at any time the progress is in [0,1], 1 once
    converged and 0 in the first five epochs.  The last two parts hold
    always, and the progress never exceeds 1. *)
Theorem progress_ends : forall o p op threads z,
  problem p -> optimizer_reached o p op threads z ->
  (has_converged z = true -> estimated_progress z = f_one) /\
  (has_converged z = false -> (oz_epochs z < 5)%Z -> estimated_progress z = f_zero) /\
  f_lt f_one (estimated_progress z) = false.
Proof.
  intros o p op threads z HP R. pose proof (progress_limit o p op threads z HP R) as A.
  unfold estimated_progress. destruct (has_converged z).
  - split; [reflexivity|]. split; [discriminate|]. vm_compute. reflexivity.
  - split; [discriminate|]. destruct (Z.ltb_spec (oz_epochs z) 5) as [L|G].
    + split; [reflexivity|]. vm_compute. reflexivity.
    + split; [intros; lia|exact A].
Qed.
Print Assumptions progress_ends.

Example ex_progress : estimated_progress ex_z1 = f_zero /\ has_converged ex_z1 = false.
Proof.
  assert (C : has_converged ex_z1 = false) by (vm_compute; reflexivity). split; [|exact C].
  apply (proj1 (proj2 (progress_ends step_exp ex2_params ex_options 2 ex_z1 ex2_problem ex_z1_reached)) C).
  vm_compute. reflexivity.
Qed.

(** During a search the progress is in [0,1], unless the curve is flat and
    almost zero; then it may be what [exp] makes of NaN.  This does happen,
    see [progress_refuted]. *)
Theorem progress_partial : forall o p op threads z,
  problem p -> sane_numbers p -> finite_work p -> exp_sane o -> mean_sane o op -> sane_options op ->
  exp_nonneg o -> log_sane o -> iteration_range op ->
  optimizer_searched o p op threads z ->
  in_unit (estimated_progress z) \/
  (flat_at_zero o z /\ estimated_progress z = f_min (or_exp o B754_nan) f_one).
Proof.
  intros o p op threads z HP HN HF HE HM HO HX HL HI R.
  pose proof (searched_inv o p op threads HP HN HF HE HM HO HX HL HI z R) as S.
  pose proof (si_progress _ _ _ _ z S) as PR.
  unfold estimated_progress. destruct (has_converged z); [left; split; vm_compute; reflexivity|].
  destruct (oz_epochs z <? 5)%Z; [left; split; vm_compute; reflexivity|exact PR].
Qed.
Print Assumptions progress_partial.

Example ex_progress_unit : in_unit (estimated_progress ex_z1).
Proof.
  destruct (progress_partial step_exp ex2_params ex_options 2 ex_z1) as [H|[[_ H] _]];
    [exact ex2_problem|exact ex2_numbers|exact ex2_finite|exact step_exp_sane|exact ex_mean_sane
    |exact ex_options_sane|exact step_exp_nonneg|exact step_log_sane|exact ex_iteration_range|exact ex_z1_searched
    |exact H|vm_compute in H; discriminate H].
Qed.

(** ** C38 *)

(** C38 for a job: after a reset all later results are those of a new
    job. *)
Theorem reset_job_is_new : forall o p op j j' j0 ks,
  problem p -> job_reached o p op j -> job_reset o j = Ok j' -> job_new o p op = Ok j0 ->
  job_schedule j' = job_schedule j0 /\ job_best j' = job_best j0 /\
  agree (fun a b => job_schedule a = job_schedule b /\ job_best a = job_best b /\ jb_temp a = jb_temp b)
    (stun_run o j' ks) (stun_run o j0 ks).
Proof.
  intros o p op j j' j0 ks HP R H N. pose proof (reset_same_new o p op HP j j' j0 R H N) as S.
  destruct (same_observed j' j0 S) as [A B]. split; [exact A|]. split; [exact B|].
  pose proof (same_run o ks j' j0 S) as G.
  destruct (stun_run o j' ks); destruct (stun_run o j0 ks); cbn in *; auto.
  destruct (same_observed _ _ G) as [C D]. split; [exact C|]. split; [exact D|apply G].
Qed.
Print Assumptions reset_job_is_new.

Example ex_reset_job : exists j', job_reset step_exp ex_j1 = Ok j' /\ job_schedule j' <> job_schedule ex_j1.
Proof.
  exists (result_or no_job (job_reset step_exp ex_j1)).
  split; [apply result_or_ok|]; vm_compute; [reflexivity|discriminate].
Qed.

(** C38 for the optimizer: everything that can be observed after a reset
    and [n] further updates is what a new optimizer would show. *)
Theorem reset_optimizer_is_new : forall o p op threads z z' z0 ks n,
  problem p -> optimizer_reached o p op threads z ->
  optimizer_reset o z = Ok z' -> optimizer_new o p op threads = Ok z0 ->
  agree (fun a b => observed a = observed b) (optimizer_run o z' ks n) (optimizer_run o z0 ks n).
Proof.
  intros o p op threads z z' z0 ks n HP R H N. pose proof (oreached_inv o p op HP threads z R) as I.
  pose proof (optimizer_reset_same_new o p op HP threads z z' z0 I H N) as S.
  pose proof (same_optimizer_run o p op HP threads ks n z' z0 (oi_reset o p op threads z z' I H) S) as G.
  destruct (optimizer_run o z' ks n); destruct (optimizer_run o z0 ks n); cbn in *; auto.
  apply same_estimated, G.
Qed.
Print Assumptions reset_optimizer_is_new.

Example ex_reset_optimizer : exists z', optimizer_reset step_exp ex_z1 = Ok z' /\
  optimizer_schedule z' <> optimizer_schedule ex_z1 /\ oz_epochs z' <> oz_epochs ex_z1.
Proof.
  exists (result_or no_optimizer (optimizer_reset step_exp ex_z1)).
  split; [apply result_or_ok|split]; vm_compute; [reflexivity|discriminate|discriminate].
Qed.
