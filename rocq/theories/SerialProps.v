(** * C78: a build without OpenMP computes what one thread computes *)

From Coq Require Import List ZArith Bool Arith Lia.
From Flocq Require Import BinarySingleNaN.
From Verif Require Import Base F32 F32Facts ProjectModel ScheduleModel ScheduleSpec MutatorModel MakespanModel
  TimelineSpec TemperatureModel TemperatureSpec StunModel SearchSpec StunProofs SameProofs StunProps
  OptimizerModel OptimizerSpec OptimizerProofs OptimizerProps HistogramModel SimulationModel PredictModel
  PredictSpec PredictProps ScheduleProofs SerialModel.
Import ListNotations.

Section Serial.
Context (o : oracles) (p : params) (op : options) (HP : problem p).

(** A job can always be copied. *)
Lemma reached_copies : forall j, job_reached o p op j -> exists j', job_copy j = Ok j'.
Proof.
  intros j R. pose proof (reached_inv o p op j HP R) as I.
  destruct (makespan_makes_lengths p _ _ (ji_low p p j I)) as [HD HPf].
  unfold job_copy, makespan_copy. rewrite (ji_params p p j I). unfold makespan_new.
  rewrite !nonempty_neg by assumption. cbn [expects bind].
  rewrite expects_Ok.
  - cbn [bind]. unfold stun_copy.
    destruct (Nat.eqb_spec (length (st_best (jb_stun j))) 0) as [Z|NZ].
    + cbn [bind]. eexists. reflexivity.
    + destruct (prepare_ok (jb_stun j) (length (st_best (jb_stun j)))) as (s1 & E & _); [lia|].
      rewrite E. cbn [bind]. eexists. reflexivity.
  - cbn. rewrite !repeat_length, (ji_task p p j I), (ji_work p p j I). apply Nat.eqb_refl.
Qed.

(** Replicating the only job changes nothing. *)
Lemma replicate_one : forall j, job_reached o p op j -> replicate_best_job [j] = Ok [j].
Proof.
  intros j R. destruct (reached_copies j R) as (c & E). unfold replicate_best_job, min_job. cbn [fold_left].
  rewrite E. cbn [bind map_outcome]. destruct (copy_reports_the_same o p op j c HP R E) as (_ & B & _).
  rewrite B. pose proof (reached_num o p op HP j R) as N. rewrite eq_key by exact N.
  rewrite Z.eqb_refl. reflexivity.
Qed.

Lemma one_job : forall z, optimizer_reached o p op 1 z -> exists j, oz_jobs z = [j] /\ job_reached o p op j.
Proof.
  intros z R. pose proof (oreached_inv o p op HP 1 z R) as I. pose proof (oi_count _ _ _ _ z I) as C.
  pose proof (oi_jobs _ _ _ _ z I) as J. destruct (oz_jobs z) as [|j [|k l]]; try discriminate C.
  inversion J; subst. eauto.
Qed.

Lemma update_serial : forall z ks, optimizer_reached o p op 1 z ->
  optimizer_update_serial o z (ks 0) = optimizer_update o z ks.
Proof.
  intros z ks R. destruct (one_job z R) as (j & EJ & RJ). unfold optimizer_update_serial, optimizer_update.
  rewrite EJ. destruct (expects (0 <? oz_batch z)%Z); [|reflexivity|reflexivity].
  cbn [bind length Nat.eqb negb expects at_index nth_error update_jobs].
  destruct (job_update o j (ks 0)) as [j'| |] eqn:E; cbn [bind]; try reflexivity.
  assert (F : Forall (job_reached o p op) [j']).
  { apply (update_jobs_reached o p op HP ks [j] 0 [j']); [constructor; [exact RJ|constructor]|].
    cbn [update_jobs]. rewrite E. reflexivity. }
  inversion F as [|? ? R' _]; subst. rewrite (replicate_one j' R'). reflexivity.
Qed.

Lemma loop_serial : forall ks fuel n z, optimizer_reached o p op 1 z ->
  optimize_loop_serial fuel o p (fun m => ks m 0) n z = optimize_loop fuel o p ks n z.
Proof.
  intros ks fuel. induction fuel as [|fuel IH]; intros n z R; cbn [optimize_loop_serial optimize_loop].
  - reflexivity.
  - destruct (has_converged z); [reflexivity|]. rewrite !andthen_quietly.
    rewrite (update_serial z (ks n) R). destruct (optimizer_update o z (ks n)) as [z'| |] eqn:E; try reflexivity.
    rewrite !andthen_quietly. destruct (makespan_seconds z' p); try reflexivity.
    rewrite !andthen_enqueue. rewrite IH; [reflexivity|]. apply or_update with z (ks n); assumption.
Qed.

Lemma optimize_serial_same : forall ks fuel,
  optimize_serial fuel o p op (fun m => ks m 0) = optimize fuel o p op 1 ks.
Proof.
  intros ks fuel. unfold optimize_serial, optimize, optimizer_new_serial. rewrite !andthen_quietly.
  do 4 (destruct (expects _); [|reflexivity|reflexivity]; rewrite ?andthen_quietly).
  destruct (optimizer_new o p op 1) as [z| |] eqn:E; try reflexivity.
  rewrite loop_serial; [reflexivity|]. apply or_new, E.
Qed.
End Serial.

(** C78 for the optimizer: in every history of an optimizer with one job, an
    update of a build without OpenMP does what an update of a build with
    OpenMP does, also when a contract is violated. *)
Theorem serial_update_is_parallel : forall o p op z ks,
  problem p -> optimizer_reached o p op 1 z ->
  optimizer_update_serial o z (ks 0) = optimizer_update o z ks.
Proof. intros o p op z ks HP R. exact (update_serial o p op HP z ks R). Qed.
Print Assumptions serial_update_is_parallel.

(** C78: both workers send the same events and end in the same way. *)
Theorem serial_build_agrees : forall fuel o ac pr bin_size op ks draws,
  (forall p, to_schedule_params pr = Ok p -> problem p) ->
  schedule_serial fuel o pr op (fun n => ks n 0) = schedule fuel o pr op 1 ks /\
  predict_serial fuel o ac pr bin_size op (fun n => ks n 0) draws = predict fuel o ac pr bin_size op 1 ks draws.
Proof.
  intros fuel o ac pr bin_size op ks draws HP. split.
  - unfold schedule_serial, schedule. rewrite !andthen_enqueue, !andthen_quietly.
    destruct (to_schedule_params pr) as [p| |] eqn:E; try reflexivity.
    rewrite (optimize_serial_same o p op (HP p eq_refl)). reflexivity.
  - unfold predict_serial, predict. rewrite !andthen_enqueue, !andthen_quietly.
    destruct (to_schedule_params pr) as [p| |] eqn:E; try reflexivity.
    rewrite (optimize_serial_same o p op (HP p eq_refl)). reflexivity.
Qed.
Print Assumptions serial_build_agrees.

(** A run that finds a better schedule.  The luck of the second job in
    [ex_worker] is of no use here: there is only one job. *)
Definition ex_lucky : nat -> nat -> nat -> luck :=
  fun n i => if n =? 1 then (fun _ => if i =? 0 then ex_improve else ex_stuck) else fun _ => ex_stuck.

Example ex_serial :
  (forall p, to_schedule_params ex_short = Ok p -> problem p) /\
  (let w := schedule_serial 20 step_exp ex_short ex_options (fun n => ex_lucky n 0) in
   reported_makespans (fst w) = [4800; 2400; 2400; 2400; 2400; 2400]%Z /\
   match snd w with Ok r => os_makespan r = 2400%Z /\ os_schedule r = [Item 0 1; Item 1 0] | _ => False end) /\
  (let w := schedule_serial 20 step_exp ex_short ex_options (fun n _ => if n =? 1 then ex_ks 0 0 else ex_stuck) in
   match snd w with Ok r => os_makespan r = 4800%Z | _ => False end).
Proof.
  split; [|vm_compute; auto]. intros p E. rewrite ex_short_ok in E.
  assert (ex_short_p = p) as <- by congruence. exact ex_short_problem.
Qed.
