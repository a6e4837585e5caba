(** * Property theorems C79 for the checked counters of the optimizer *)

From Coq Require Import List ZArith Bool Arith Lia.
From Flocq Require Import BinarySingleNaN.
From Verif Require Import Base F32 F32Facts ProjectModel ScheduleModel ScheduleSpec ScheduleProofs MutatorModel
  MakespanModel TimelineSpec TemperatureModel TemperatureSpec StunModel SearchSpec StunProofs SameProofs StunProps
  OptimizerModel OptimizerSpec OptimizerProofs OptimizerSame CurveSpec SearchedProofs OptimizerProps
  BindingModel BindingProofs HistogramModel IteratorModel CheckedModel.
Import ListNotations.

(** An option of the command line, an [int] (cli/options.h:35-36). *)
Definition fits_int (x : Z) : Prop := (- 2 ^ 31 <= x < 2 ^ 31)%Z.

Lemma safe_in : forall x, (- 2 ^ 63 <= x < 2 ^ 63)%Z -> safe x = Ok x.
Proof. intros x H. unfold safe. rewrite expects_Ok; [reflexivity|]. apply andb_true_iff. lia. Qed.

Lemma batch_loop_exact : forall o ks n fuel i j,
  n <= fuel -> jb_batch j = (Z.of_nat i + Z.of_nat n)%Z -> (jb_batch j < 2 ^ 63)%Z ->
  batch_loop_safe fuel o ks (Z.of_nat i) j = stun_run o j (map ks (seq i n)).
Proof.
  intros o ks. induction n as [|n IH]; intros fuel i j F B L.
  - destruct fuel; cbn [batch_loop_safe seq map stun_run];
      (replace (Z.of_nat i <? jb_batch j)%Z with false by (symmetry; apply Z.ltb_ge; lia)); reflexivity.
  - destruct fuel as [|fuel]; [lia|]. cbn [batch_loop_safe seq map stun_run].
    replace (Z.of_nat i <? jb_batch j)%Z with true by (symmetry; apply Z.ltb_lt; lia). rewrite Nat2Z.id.
    destruct (stun_update o j (ks i)) as [j'| |] eqn:U; try reflexivity. cbn [bind].
    destruct (update_links _ _ _ _ U) as (E & _ & _). rewrite safe_in by lia. cbn [bind].
    replace (Z.of_nat i + 1)%Z with (Z.of_nat (S i)) by lia. apply IH; [lia|rewrite E; lia|rewrite E; exact L].
Qed.

Lemma job_update_exact : forall fuel o j ks,
  Z.to_nat (jb_batch j) <= fuel -> (jb_batch j < 2 ^ 63)%Z -> job_update_safe fuel o j ks = job_update o j ks.
Proof.
  intros fuel o j ks F L. unfold job_update_safe, job_update. destruct (0 <? jb_batch j)%Z eqn:B; [|reflexivity].
  cbn [expects bind]. apply Z.ltb_lt in B. apply (batch_loop_exact o ks (Z.to_nat (jb_batch j)) fuel 0 j F); lia.
Qed.

Lemma update_jobs_exact : forall fuel o ks b jobs i,
  Z.to_nat b <= fuel -> (b < 2 ^ 63)%Z -> Forall (fun j => jb_batch j = b) jobs ->
  update_jobs_safe fuel o i jobs ks = update_jobs o i jobs ks.
Proof.
  intros fuel o ks b. induction jobs as [|j jobs IH]; intros i F L A; [reflexivity|].
  inversion A as [|? ? E A']; subst. cbn [update_jobs_safe update_jobs].
  rewrite job_update_exact by assumption. destruct (job_update o j (ks i)); try reflexivity. cbn [bind].
  rewrite IH by assumption. reflexivity.
Qed.

(** C79: during a search with any option values that the command line can
    pass, no counter overflows, so checked and exact counters give the same
    result.  This holds for all functions and random numbers and also when
    an update violates a contract.  [fuel] bounds the iterations of a job. *)
Theorem counters_never_overflow : forall o p op threads z fuel ks,
  problem p -> fits_int (op_batch op) -> fits_int (op_max_idle op) -> Z.to_nat (op_batch op) <= fuel ->
  optimizer_searched o p op threads z -> has_converged z = false ->
  optimizer_update_safe fuel o z ks = optimizer_update o z ks.
Proof.
  intros o p op threads z fuel ks HP FB FM F R NC. unfold fits_int in *.
  pose proof (counted_inv o p op threads HP z R) as K. pose proof (ki_oi _ _ _ _ z K) as I.
  pose proof (counter_bounds o p op threads z HP R) as (ID & EP).
  pose proof (oi_batch _ _ _ _ z I) as BE.
  assert (JB : Forall (fun j => jb_batch j = op_batch op) (oz_jobs z)).
  { eapply Forall_impl; [|apply (oi_jobs _ _ _ _ z I)]. intros j Rj. apply (reached_batch o p op HP j Rj). }
  unfold optimizer_update_safe, optimizer_update.
  destruct (expects (0 <? oz_batch z)%Z); try reflexivity. cbn [bind].
  destruct (expects (negb (length (oz_jobs z) =? 0))); try reflexivity. cbn [bind].
  rewrite (update_jobs_exact fuel o ks (op_batch op)) by (assumption || lia).
  destruct (update_jobs o 0 (oz_jobs z) ks) as [jobs| |]; try reflexivity. cbn [bind].
  destruct (replicate_best_job jobs) as [jobs'| |]; try reflexivity. cbn [bind].
  rewrite safe_in by lia. cbn [bind]. set (z1 := Build_optimizer _ _ _ _ _ _ _ _).
  destruct (optimizer_best z1) as [m| |] eqn:BM; try reflexivity. cbn [bind].
  assert (E1 : oz_epochs z1 = oz_epochs z) by reflexivity.
  destruct (f_eq m (oz_last z1)).
  - unfold interpolate_progress_safe, interpolate_progress.
    destruct (expects (0 <=? oz_epochs z1)%Z); try reflexivity. cbn [bind].
    destruct (idle_progress z1); try reflexivity. cbn [bind]. rewrite safe_in by lia. reflexivity.
  - unfold estimate_progress_safe, estimate_progress.
    destruct (expects (0 <=? oz_epochs z1)%Z); try reflexivity. cbn [bind].
    destruct (idle_progress z1); try reflexivity. cbn [bind]. rewrite BM. cbn [bind].
    rewrite safe_in by lia. reflexivity.
Qed.
Print Assumptions counters_never_overflow.

(** The whole loop. *)
Theorem checked_search_is_exact : forall o p op threads inner ks fuel n z,
  problem p -> fits_int (op_batch op) -> fits_int (op_max_idle op) -> Z.to_nat (op_batch op) <= inner ->
  optimizer_searched o p op threads z ->
  optimize_safe fuel inner o ks n z = optimize_exact fuel o ks n z.
Proof.
  intros o p op threads inner ks fuel n z HP FB FM F. revert n z.
  induction fuel as [|fuel IH]; intros n z R; cbn [optimize_safe optimize_exact]; [reflexivity|].
  destruct (has_converged z) eqn:NC; [reflexivity|].
  rewrite (counters_never_overflow o p op threads z inner (ks n)) by assumption.
  destruct (optimizer_update o z (ks n)) as [z'| |] eqn:U; try reflexivity. cbn [bind].
  apply IH. apply (os_update o p op threads) with z (ks n); assumption.
Qed.
Print Assumptions checked_search_is_exact.

Example ex_checked : problem ex2_params /\ fits_int (op_batch ex_options) /\ fits_int (op_max_idle ex_options) /\
  Z.to_nat (op_batch ex_options) <= 10 /\ optimizer_searched step_exp ex2_params ex_options 2 ex_z0 /\
  has_converged ex_z0 = false /\
  match optimize_safe 100 10 step_exp (fun _ => ex_ks) 0 ex_z0 with
  | Ok z => (oz_epochs z =? 1)%Z && has_converged z
  | _ => false
  end = true.
Proof.
  split; [exact ex2_problem|]. split; [vm_compute; split; [discriminate|reflexivity]|].
  split; [vm_compute; split; [discriminate|reflexivity]|].
  split; [vm_compute; lia|]. split; [apply os_new, ex_z0_new|]. split; vm_compute; reflexivity.
Qed.
