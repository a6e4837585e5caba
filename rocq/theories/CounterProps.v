(** * C72: options for which a counter of the optimizer overflows *)

From Coq Require Import List ZArith Bool Arith Lia Reals Lra.
From Flocq Require Import Core BinarySingleNaN.
From Verif Require Import Base F32 F32Facts NormaliseProofs F32Signed ProjectModel ScheduleModel ScheduleSpec
  ScheduleProofs MutatorModel MakespanModel TimelineSpec TemperatureModel TemperatureSpec StunModel SearchSpec
  StunProofs SameProofs StunProps OptimizerModel OptimizerSpec OptimizerProofs CurveSpec SearchedProofs OptimizerProps
  CurveProps.
Import ListNotations.

(** Any number of iterations that change nothing. *)
Lemma run_stuck : forall A o j k (l : list A), stun_update o j k = Ok j -> stun_run o j (map (fun _ => k) l) = Ok j.
Proof.
  intros A o j k l U. induction l as [|a l IH]; cbn [map stun_run]; [reflexivity|]. rewrite U. exact IH.
Qed.

(** An update of a single job with the same random numbers in every
    iteration, after the first of which nothing changes. *)
Lemma batch_update : forall o z j j' t k, oz_jobs z = [j] -> (0 < oz_batch z)%Z -> (0 < jb_batch j)%Z ->
  stun_update o j k = Ok j' -> stun_update o j' k = Ok j' ->
  job_copy j' = Ok t -> f_eq (job_best j') (job_best t) = true ->
  optimizer_update o z (fun _ _ => k) =
  let z1 := {| oz_batch := oz_batch z; oz_max_idle := oz_max_idle z; oz_idle := (oz_idle z + oz_batch z)%Z;
               oz_epochs := oz_epochs z; oz_progress := oz_progress z; oz_last := oz_last z;
               oz_curve := oz_curve z; oz_jobs := [j'] |} in
  if f_eq (job_best j') (oz_last z) then interpolate_progress o z1 else estimate_progress o z1.
Proof.
  intros o z j j' t k EJ HB BJ U U' EC EQ. unfold optimizer_update.
  rewrite expects_Ok by (apply Z.ltb_lt, HB). rewrite expects_Ok by (rewrite EJ; reflexivity).
  rewrite EJ. cbn [update_jobs]. unfold job_update. rewrite expects_Ok by (apply Z.ltb_lt, BJ).
  assert (E : stun_run o j (map (fun _ => k) (seq 0 (Z.to_nat (jb_batch j)))) = Ok j').
  { destruct (Z.to_nat (jb_batch j)) as [|n] eqn:N; [lia|]. cbn [seq map stun_run]. rewrite U. cbn [bind].
    apply run_stuck, U'. }
  rewrite E. cbn [bind]. unfold replicate_best_job, min_job. cbn [fold_left]. rewrite EC. cbn [bind map_outcome].
  rewrite EQ. cbn [bind]. reflexivity.
Qed.

(** One task; the second agent is slower than the first. *)
Definition over_params : params :=
  {| sp_perf := map f_of_Z [2; 1]%Z; sp_dur := [f_one];
     sp_agents := [[0; 1]]; sp_deps := [[]]; sp_mult := f_one |}.

Definition over_options : options :=
  {| op_batch := 2 ^ 30; op_max_idle := 2 ^ 31 - 1; op_scale := f_one; op_window := 100;
     op_gamma := f_of_Z 2; op_period := 256 |}.

(** Give the task to the slow agent: not accepted. *)
Definition slower : luck := Luck (Draws 0 0 1) (dyadic 3 (-2)).

Definition over_j0 : job := result_or no_job (job_new step_exp over_params over_options).
Definition over_j1 : job := result_or no_job (stun_update step_exp over_j0 slower).

Definition over_z0 : optimizer :=
  {| oz_batch := 2 ^ 30; oz_max_idle := 2 ^ 31 - 1; oz_idle := 0; oz_epochs := 0; oz_progress := f_zero;
     oz_last := f_zero; oz_curve := curve_new; oz_jobs := [over_j0] |}.
Definition over_y0 : optimizer :=
  {| oz_batch := 2 ^ 30; oz_max_idle := 2 ^ 31 - 1; oz_idle := 2 ^ 30; oz_epochs := 0; oz_progress := f_zero;
     oz_last := f_zero; oz_curve := curve_new; oz_jobs := [over_j1] |}.
Definition over_z1 : optimizer := result_or no_optimizer (estimate_progress step_exp over_y0).

Lemma over_j0_new : job_new step_exp over_params over_options = Ok over_j0.
Proof. apply result_or_ok. vm_compute. reflexivity. Qed.

Lemma over_j1_step : stun_update step_exp over_j0 slower = Ok over_j1.
Proof. apply result_or_ok. vm_compute. reflexivity. Qed.

Lemma over_j1_stuck : stun_update step_exp over_j1 slower = Ok over_j1.
Proof.
  rewrite (result_or_ok _ no_job (stun_update step_exp over_j1 slower)) by (vm_compute; reflexivity).
  apply f_equal. apply plain_job_eq. vm_compute. reflexivity.
Qed.

Lemma over_j1_copy : job_copy over_j1 = Ok (result_or no_job (job_copy over_j1)).
Proof. apply result_or_ok. vm_compute. reflexivity. Qed.

Lemma over_z0_new : optimizer_new step_exp over_params over_options 1 = Ok over_z0.
Proof.
  unfold optimizer_new. rewrite expects_Ok by reflexivity. rewrite expects_Ok by reflexivity.
  cbn [seq map_outcome]. rewrite over_j0_new. reflexivity.
Qed.

Lemma over_z1_update : optimizer_update step_exp over_z0 (fun _ _ => slower) = Ok over_z1.
Proof.
  rewrite (batch_update step_exp over_z0 over_j0 over_j1 (result_or no_job (job_copy over_j1)) slower);
    [|reflexivity|reflexivity|vm_compute; reflexivity|exact over_j1_step|exact over_j1_stuck|exact over_j1_copy
     |vm_compute; reflexivity].
  cbv zeta. change (oz_last over_z0) with f_zero.
  assert (E : f_eq (job_best over_j1) f_zero = false) by (vm_compute; reflexivity). rewrite E.
  apply result_or_ok. vm_compute. reflexivity.
Qed.

(** The estimate keeps the jobs. *)
Lemma estimate_jobs : forall o z z', estimate_progress o z = Ok z' -> oz_jobs z' = oz_jobs z.
Proof.
  intros o z z' E. unfold estimate_progress in E. ok_step E. apply bind_ok in E. destruct E as (q & _ & E).
  apply bind_ok in E. destruct E as (m & _ & E). apply bind_ok in E. destruct E as (r & _ & E).
  ok_step E. ok_step E. injection E as E. rewrite <- E. reflexivity.
Qed.

(** An update after which only the idle counter and the progress differ. *)
Lemma over_stuck : forall z, oz_jobs z = [over_j1] -> oz_batch z = (2 ^ 30)%Z -> (0 < oz_max_idle z)%Z ->
  (0 <= oz_idle z)%Z -> (0 <= oz_epochs z)%Z -> f_eq (job_best over_j1) (oz_last z) = true ->
  exists q, optimizer_update step_exp z (fun _ _ => slower) = Ok (shows (skip z (oz_idle z + 2 ^ 30)) q).
Proof.
  intros z EJ EB HM HI HE EL.
  rewrite (batch_update step_exp z over_j1 over_j1 (result_or no_job (job_copy over_j1)) slower EJ);
    [|lia|vm_compute; reflexivity|exact over_j1_stuck|exact over_j1_stuck|exact over_j1_copy|vm_compute; reflexivity].
  cbv zeta. rewrite EL. unfold interpolate_progress. cbn [oz_epochs]. rewrite expects_Ok by (apply Z.leb_le, HE).
  unfold idle_progress at 1. cbn [oz_max_idle oz_idle]. rewrite expects_Ok by (apply Z.ltb_lt, HM).
  rewrite expects_Ok by (apply Z.leb_le; lia). cbn [bind]. rewrite EB.
  eexists. unfold shows, skip. cbn [oz_batch oz_max_idle oz_idle oz_epochs oz_progress oz_last oz_curve oz_jobs].
  rewrite EJ, EB. reflexivity.
Qed.

Lemma over_problem : problem over_params.
Proof.
  assert (D : forall t d, ~ depends over_params t d).
  { intros t d (r & E & H). destruct t as [|t]; cbn in E; [injection E as <-; exact H|destruct t; discriminate]. }
  assert (A : forall t a, allowed over_params t a <-> t < 1 /\ a < 2).
  { intros t a. split.
    - intros (r & E & H). destruct t as [|t]; cbn in E; [|destruct t; discriminate]. injection E as <-. cbn in H. lia.
    - intros [Ht Ha]. exists [0; 1]. split; [destruct t; [reflexivity|lia]|]. cbn. lia. }
  constructor.
  - cbn. lia.
  - reflexivity.
  - reflexivity.
  - intros t d H. destruct (D t d H).
  - repeat constructor.
  - intros t Ht. exists 0. apply A. cbn in Ht. lia.
  - intros t a H. apply A in H. cbn. lia.
  - intros t H. assert (G : forall x y, Relation_Operators.clos_trans nat (depends over_params) x y -> False).
    { intros x y C. induction C; auto. eapply D; eauto. }
    exact (G _ _ H).
Qed.

(** Without [iteration_range] the idle counter can pass the largest 32 bit
    integer, although both options fit 32 bits. *)
Theorem counters_refuted : exists o p op z,
  problem p /\ sane_numbers p /\ exp_sane o /\ mean_sane o op /\ sane_options op /\
  exp_nonneg o /\ log_sane o /\
  (op_batch op < 2 ^ 31)%Z /\ (op_max_idle op < 2 ^ 31)%Z /\
  optimizer_searched o p op 1 z /\ (2 ^ 31 <= oz_idle z)%Z.
Proof.
  assert (R1 : optimizer_searched step_exp over_params over_options 1 over_z1).
  { apply os_update with over_z0 (fun _ _ => slower); [apply os_new, over_z0_new|reflexivity|exact over_z1_update]. }
  assert (J : oz_jobs over_z1 = [over_j1]).
  { apply (estimate_jobs step_exp over_y0 over_z1). apply result_or_ok. vm_compute. reflexivity. }
  destruct (over_stuck over_z1 J) as (q2 & E2); [vm_compute; reflexivity|vm_compute; reflexivity|vm_compute; discriminate
    |vm_compute; discriminate|vm_compute; reflexivity|].
  set (z2 := shows (skip over_z1 (oz_idle over_z1 + 2 ^ 30)) q2) in *.
  assert (I1 : oz_idle over_z1 = 0%Z) by (vm_compute; reflexivity).
  assert (I2 : oz_idle z2 = (2 ^ 30)%Z) by (unfold z2, shows, skip; cbn [oz_idle]; rewrite I1; reflexivity).
  assert (M2 : oz_max_idle z2 = (2 ^ 31 - 1)%Z) by (vm_compute; reflexivity).
  assert (R2 : optimizer_searched step_exp over_params over_options 1 z2).
  { apply os_update with over_z1 (fun _ _ => slower); [exact R1|vm_compute; reflexivity|exact E2]. }
  destruct (over_stuck z2) as (q3 & E3); [exact J|vm_compute; reflexivity|rewrite M2; reflexivity|rewrite I2; discriminate
    |vm_compute; discriminate|vm_compute; reflexivity|].
  exists step_exp, over_params, over_options, (shows (skip z2 (oz_idle z2 + 2 ^ 30)) q3).
  split; [exact over_problem|]. split; [split; repeat constructor; vm_compute; reflexivity|].
  split; [exact step_exp_sane|]. split; [apply step_mean_sane; vm_compute; reflexivity|]. split.
  { constructor; cbn; try lia; try first [vm_compute; reflexivity|split; vm_compute; reflexivity]. exists 8. split; [reflexivity|lia]. }
  split; [exact step_exp_nonneg|]. split; [exact step_log_sane|]. split; [reflexivity|]. split; [reflexivity|].
  split.
  - apply os_update with z2 (fun _ _ => slower); [exact R2| |exact E3].
    unfold has_converged. rewrite I2, M2. reflexivity.
  - unfold shows, skip. cbn [oz_idle]. rewrite I2. lia.
Qed.
Print Assumptions counters_refuted.
