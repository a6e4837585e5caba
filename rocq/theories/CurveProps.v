(** * C37: a search whose progress is not a number *)

From Coq Require Import List ZArith Bool Arith Lia Reals Lra.
From Flocq Require Import Core BinarySingleNaN.
From Verif Require Import Base F32 F32Facts NormaliseProofs F32Signed ProjectModel ScheduleModel ScheduleSpec ScheduleProofs MutatorModel
  MakespanModel TimelineSpec TemperatureModel TemperatureSpec StunModel SearchSpec StunProofs SameProofs StunProps
  OptimizerModel OptimizerSpec OptimizerProofs CurveSpec SearchedProofs OptimizerProps.
Import ListNotations.

(** One task of duration 1; six agents, each faster than the one before. *)
Definition nan_params : params :=
  {| sp_perf := map f_of_Z [1; 2; 3; 4; 5; 6]%Z; sp_dur := [f_one];
     sp_agents := [[0; 1; 2; 3; 4; 5]]; sp_deps := [[]]; sp_mult := f_one |}.

Definition nan_options : options :=
  {| op_batch := 1; op_max_idle := 2 ^ 27; op_scale := f_one; op_window := 100;
     op_gamma := f_of_Z 2; op_period := 256 |}.

Definition dyadic (m e : Z) : f32 := binary_normalize 24 128 _ _ mode_NE m e false.

(** The logarithms of the four numbers used below, to the nearest float;
    an [exp] that underflows to zero where [std::exp] does. *)
Definition nan_oracles : oracles :=
  {| or_exp := fun x => if is_nan x then B754_nan
                        else if f_lt x (f_of_Z (-104)) then f_zero
                        else if f_lt x f_zero then f_half else f_one;
     or_log := fun y => if f_eq y (dyadic 1 (-27)) then dyadic (-9812036) (-19)
                        else if f_eq y (dyadic 3 (-27)) then dyadic (-9236047) (-19)
                        else if f_eq y (dyadic 8388825 (-27)) then dyadic (-11628971) (-22)
                        else if f_eq y (dyadic 1 (-26)) then dyadic (-9448627) (-19)
                        else f_zero;
     or_mean := fun _ _ => f_zero |}.

(** Give the task to the slowest agent (not accepted when the present
    schedule is the best one); give it to agent [a]. *)
Definition slow : nat -> nat -> luck := fun _ _ => Luck (Draws 0 0 0) (dyadic 3 (-2)).
Definition to_agent (a : nat) : nat -> nat -> luck := fun _ _ => Luck (Draws 0 0 a) (dyadic 3 (-2)).

Definition step (z : optimizer) (ks : nat -> nat -> luck) : optimizer :=
  result_or no_optimizer (optimizer_update nan_oracles z ks).

(** The optimizer after more iterations without an improvement. *)
Definition skip (z : optimizer) (i : Z) : optimizer :=
  {| oz_batch := oz_batch z; oz_max_idle := oz_max_idle z; oz_idle := i; oz_epochs := oz_epochs z;
     oz_progress := oz_progress z; oz_last := oz_last z; oz_curve := oz_curve z; oz_jobs := oz_jobs z |}.
Definition shows (z : optimizer) (q : f32) : optimizer :=
  {| oz_batch := oz_batch z; oz_max_idle := oz_max_idle z; oz_idle := oz_idle z; oz_epochs := oz_epochs z;
     oz_progress := q; oz_last := oz_last z; oz_curve := oz_curve z; oz_jobs := oz_jobs z |}.

Definition nan_z0 : optimizer := result_or no_optimizer (optimizer_new nan_oracles nan_params nan_options 1).
Definition nan_z1 : optimizer := step nan_z0 (to_agent 1).
Definition nan_z2 : optimizer := step (step (step nan_z1 slow) slow) (to_agent 2).
Definition nan_w2 : optimizer := step (step nan_z2 (to_agent 2)) slow.
Definition nan_z3 : optimizer := step (skip nan_w2 8388824) (to_agent 3).
Definition nan_z4 : optimizer := step nan_z3 (to_agent 4).
Definition nan_z5 : optimizer := step (step nan_z4 slow) (to_agent 5).
Definition nan_z6 : optimizer := step nan_z5 slow.

(** ** Equality of jobs, computed without the proofs inside floats *)

Definition plain_params (p : params) :=
  (map B2SF (sp_perf p), map B2SF (sp_dur p), sp_agents p, sp_deps p, B2SF (sp_mult p)).

Definition plain_job (j : job) :=
  (jb_batch j, plain_params (jb_mutator j), plain_params (jb_params j),
   map B2SF (mk_task (jb_makespan j)), map B2SF (mk_work (jb_makespan j)),
   (B2SF (tp_value (jb_temp j)), tp_window (jb_temp j), map B2SF (tp_acc (jb_temp j)),
    B2SF (tp_scale (jb_temp j)), tp_mask (jb_temp j)),
   let s := jb_stun j in
   (st_best s, st_one s, st_two s, st_swapped s, B2SF (st_current_e s), B2SF (st_lowest_e s),
    B2SF (st_target_e s), B2SF (st_gamma s), B2SF (st_current_s s), B2SF (st_target_s s))).

Lemma plain_floats : forall l l' : list f32, map B2SF l = map B2SF l' -> l = l'.
Proof.
  intro l. induction l as [|x l IH]; intros [|y l'] H; try discriminate; [reflexivity|].
  cbn [map] in H. injection H as A B. apply B2SF_inj in A. subst y. f_equal. apply IH, B.
Qed.

Lemma plain_params_eq : forall p q, plain_params p = plain_params q -> p = q.
Proof.
  intros [p1 p2 p3 p4 p5] [q1 q2 q3 q4 q5] H. unfold plain_params in H.
  cbn [sp_perf sp_dur sp_agents sp_deps sp_mult] in H.
  injection H as A B C D E. apply plain_floats in A, B. apply B2SF_inj in E. subst. reflexivity.
Qed.

Lemma plain_job_eq : forall j j', plain_job j = plain_job j' -> j = j'.
Proof.
  intros [b m q [mt mw] [t1 t2 t3 t4 t5] [s1 s2 s3 s4 s5 s6 s7 s8 s9 s10]]
    [b' m' q' [mt' mw'] [t1' t2' t3' t4' t5'] [s1' s2' s3' s4' s5' s6' s7' s8' s9' s10']] H.
  unfold plain_job in H. cbv zeta in H.
  cbn [jb_batch jb_mutator jb_params jb_makespan jb_temp jb_stun mk_task mk_work tp_value tp_window tp_acc tp_scale
       tp_mask st_best st_one st_two st_swapped st_current_e st_lowest_e st_target_e st_gamma st_current_s
       st_target_s] in H.
  remember (plain_params m) as pm eqn:Em. remember (plain_params m') as pm' eqn:Em'.
  remember (plain_params q) as pq eqn:Eq. remember (plain_params q') as pq' eqn:Eq'.
  injection H as -> HM HQ H1 H2 H3 -> H4 H5 -> -> -> -> -> H6 H7 H8 H9 H10 H11.
  subst pm pm' pq pq'. apply plain_params_eq in HM, HQ. apply plain_floats in H1, H2, H4.
  apply B2SF_inj in H3, H5, H6, H7, H8, H9, H10, H11. subst. reflexivity.
Qed.

(** ** Iterations without an improvement *)

Lemma stuck_update : forall o z j t k, oz_jobs z = [j] -> oz_batch z = 1%Z -> (0 < oz_max_idle z)%Z ->
  (0 <= oz_idle z)%Z -> (0 <= oz_epochs z)%Z -> jb_batch j = 1%Z ->
  stun_update o j k = Ok j -> job_copy j = Ok t -> f_eq (job_best j) (job_best t) = true ->
  f_eq (job_best j) (oz_last z) = true ->
  exists q, optimizer_update o z (fun _ _ => k) = Ok (shows (skip z (oz_idle z + 1)) q).
Proof.
  intros o z j t k EJ EB HM HI HE BJ U EC EQ EL. unfold optimizer_update.
  rewrite expects_Ok by (apply Z.ltb_lt; lia). rewrite expects_Ok by (rewrite EJ; reflexivity).
  rewrite EJ. cbn [update_jobs]. unfold job_update. rewrite BJ.
  rewrite expects_Ok by reflexivity. change (Z.to_nat 1) with 1. cbn [seq map stun_run].
  rewrite U. cbn [bind]. unfold replicate_best_job, min_job. cbn [fold_left]. rewrite EC. cbn [bind map_outcome].
  rewrite EQ. cbn [bind]. unfold optimizer_best at 1, best_job at 1, at_index at 1. cbn [oz_jobs nth_error bind oz_last].
  rewrite EL. unfold interpolate_progress. cbn [oz_epochs]. rewrite expects_Ok by (apply Z.leb_le, HE).
  unfold idle_progress at 1. cbn [oz_max_idle oz_idle]. rewrite expects_Ok by (apply Z.ltb_lt, HM).
  rewrite expects_Ok by (apply Z.leb_le; lia). cbn [bind]. rewrite EB.
  eexists. unfold shows, skip. cbn [oz_batch oz_max_idle oz_idle oz_epochs oz_progress oz_last oz_curve oz_jobs].
  rewrite EJ, EB. reflexivity.
Qed.

Lemma stuck_updates : forall o p op threads k j t n z,
  optimizer_searched o p op threads z -> oz_jobs z = [j] -> oz_batch z = 1%Z -> (0 < oz_max_idle z)%Z ->
  (0 <= oz_idle z)%Z -> (0 <= oz_epochs z)%Z -> jb_batch j = 1%Z ->
  stun_update o j k = Ok j -> job_copy j = Ok t -> f_eq (job_best j) (job_best t) = true ->
  f_eq (job_best j) (oz_last z) = true -> (oz_idle z + Z.of_nat n < oz_max_idle z)%Z ->
  exists q, optimizer_searched o p op threads (shows (skip z (oz_idle z + Z.of_nat n)) q).
Proof.
  intros o p op threads k j t n. induction n as [|n IH]; intros z R EJ EB HM HI HE BJ U EC EQ EL HN.
  - exists (oz_progress z). rewrite Z.add_0_r. destruct z. exact R.
  - destruct (IH z R EJ EB HM HI HE BJ U EC EQ EL) as (q & R1); [lia|].
    set (y := shows (skip z (oz_idle z + Z.of_nat n)) q) in *.
    destruct (stuck_update o y j t k) as (q' & E); auto; [cbn; lia|].
    exists q'. apply os_update with y (fun _ _ => k); [exact R1| |].
    + unfold has_converged. cbn. apply Z.leb_gt. lia.
    + rewrite E. f_equal. unfold y, shows, skip.
      cbn [oz_batch oz_max_idle oz_idle oz_epochs oz_progress oz_last oz_curve oz_jobs]. f_equal. lia.
Qed.

Lemma shows_update : forall o z q ks, optimizer_update o (shows z q) ks = optimizer_update o z ks.
Proof. intros o z q ks. reflexivity. Qed.

(** ** The search *)

Notation nan_searched := (optimizer_searched nan_oracles nan_params nan_options 1).

Lemma step_searched : forall z ks, nan_searched z -> has_converged z = false ->
  is_ok (optimizer_update nan_oracles z ks) = true -> nan_searched (step z ks).
Proof.
  intros z ks R C H. apply os_update with z ks; [exact R|exact C|]. apply result_or_ok, H.
Qed.

Definition nan_j2 : job := match oz_jobs nan_w2 with j :: _ => j | [] => no_job end.

Lemma nan_w2_jobs : oz_jobs nan_w2 = [nan_j2].
Proof.
  unfold nan_j2. assert (L : length (oz_jobs nan_w2) = 1) by (vm_compute; reflexivity).
  destruct (oz_jobs nan_w2) as [|j [|j' l]]; try discriminate. reflexivity.
Qed.

Lemma nan_j2_stuck : stun_update nan_oracles nan_j2 (slow 0 0) = Ok nan_j2.
Proof.
  rewrite (result_or_ok _ no_job (stun_update nan_oracles nan_j2 (slow 0 0))) by (vm_compute; reflexivity).
  apply f_equal. apply plain_job_eq. vm_compute. reflexivity.
Qed.

Lemma nan_z0_searched : nan_searched nan_z0.
Proof. apply os_new. apply result_or_ok. vm_compute. reflexivity. Qed.

Lemma nan_w2_searched : nan_searched nan_w2.
Proof.
  unfold nan_w2, nan_z2, nan_z1.
  do 6 (apply step_searched; [|vm_compute; reflexivity|vm_compute; reflexivity]).
  exact nan_z0_searched.
Qed.

Lemma nan_z3_searched : nan_searched nan_z3.
Proof.
  destruct (stuck_updates nan_oracles nan_params nan_options 1 (slow 0 0) nan_j2
              (result_or no_job (job_copy nan_j2)) (Z.to_nat 8388822) nan_w2) as (q & R).
  - exact nan_w2_searched.
  - exact nan_w2_jobs.
  - vm_compute. reflexivity.
  - vm_compute. reflexivity.
  - vm_compute. discriminate.
  - vm_compute. discriminate.
  - vm_compute. reflexivity.
  - exact nan_j2_stuck.
  - apply result_or_ok. vm_compute. reflexivity.
  - vm_compute. reflexivity.
  - vm_compute. reflexivity.
  - rewrite Z2Nat.id by lia. vm_compute. reflexivity.
  - rewrite Z2Nat.id in R by lia.
    assert (E : (oz_idle nan_w2 + 8388822)%Z = 8388824%Z) by (vm_compute; reflexivity). rewrite E in R.
    apply os_update with (shows (skip nan_w2 8388824) q) (to_agent 3); [exact R|vm_compute; reflexivity|].
    rewrite shows_update. apply result_or_ok. vm_compute. reflexivity.
Qed.

Lemma nan_z6_searched : nan_searched nan_z6.
Proof.
  unfold nan_z6, nan_z5, nan_z4.
  do 4 (apply step_searched; [|vm_compute; reflexivity|vm_compute; reflexivity]).
  exact nan_z3_searched.
Qed.

(** ** C37, refuted *)

Lemma nan_problem : problem nan_params.
Proof.
  assert (D : forall t d, ~ depends nan_params t d).
  { intros t d (r & E & H). destruct t as [|t]; cbn in E; [injection E as <-; exact H|destruct t; discriminate]. }
  assert (A : forall t a, allowed nan_params t a <-> t < 1 /\ a < 6).
  { intros t a. split.
    - intros (r & E & H). destruct t as [|t]; cbn in E; [|destruct t; discriminate]. injection E as <-. cbn in H. lia.
    - intros [Ht Ha]. exists [0; 1; 2; 3; 4; 5]. split; [destruct t; [reflexivity|lia]|]. cbn. lia. }
  constructor.
  - cbn. lia.
  - reflexivity.
  - reflexivity.
  - intros t d H. destruct (D t d H).
  - repeat constructor.
  - intros t Ht. exists 0. apply A. cbn in Ht. lia.
  - intros t a H. apply A in H. cbn. lia.
  - intros t H. assert (G : forall x y, Relation_Operators.clos_trans nat (depends nan_params) x y -> False).
    { intros x y C. induction C; auto. eapply D; eauto. }
    exact (G _ _ H).
Qed.

Lemma nan_numbers : sane_numbers nan_params.
Proof. split; repeat constructor; vm_compute; reflexivity. Qed.

Lemma nan_finite : finite_work nan_params.
Proof.
  apply bounded_finite_work; [exact nan_problem|exact nan_numbers|]. split; [vm_compute; discriminate|].
  intros t a Ht Ha.
  assert (B : forallb (fun t => forallb (fun a => is_finite (work_time nan_params t a) &&
      f_le (work_time nan_params t a) f_one) [0; 1; 2; 3; 4; 5]) [0] = true) by (vm_compute; reflexivity).
  rewrite forallb_forall in B. specialize (B t). rewrite forallb_forall in B.
  assert (X : is_finite (work_time nan_params t a) && f_le (work_time nan_params t a) f_one = true).
  { cbn in Ht, Ha. apply B; cbn; lia. }
  apply andb_true_iff in X. destruct X as [F L]. split; [exact F|].
  apply fin_le in L; [|exact F|apply one_fin]. rewrite (proj2 one_fin) in L.
  apply Rle_trans with (1 := L). change 1%R with (bpow radix2 0). apply bpow_le. lia.
Qed.

Lemma nan_exp_sane : exp_sane nan_oracles.
Proof.
  intros x H. assert (N : is_nan x = false) by apply (le_num _ _ H). cbn [or_exp nan_oracles]. rewrite N.
  destruct (f_lt x (f_of_Z (-104))); [split; vm_compute; reflexivity|].
  destruct (f_lt x f_zero); split; vm_compute; reflexivity.
Qed.

Lemma nan_mean_sane : mean_sane nan_oracles nan_options.
Proof.
  exists f_zero. split; [split; [reflexivity|cbn; lra]|]. split; [|vm_compute; reflexivity].
  intros w l _ _ _. split; [reflexivity|]. cbn. lra.
Qed.

Lemma nan_exp_nonneg : exp_nonneg nan_oracles.
Proof.
  intros x N. cbn [or_exp nan_oracles]. rewrite N.
  destruct (f_lt x (f_of_Z (-104))); [vm_compute; reflexivity|].
  destruct (f_lt x f_zero); vm_compute; reflexivity.
Qed.

Lemma nan_log_sane : log_sane nan_oracles.
Proof.
  intros y _ _. cbn [or_log nan_oracles].
  destruct (f_eq y (dyadic 1 (-27))); [split; vm_compute; reflexivity|].
  destruct (f_eq y (dyadic 3 (-27))); [split; vm_compute; reflexivity|].
  destruct (f_eq y (dyadic 8388825 (-27))); [split; vm_compute; reflexivity|].
  destruct (f_eq y (dyadic 1 (-26))); split; vm_compute; reflexivity.
Qed.

Lemma nan_options_sane : sane_options nan_options /\ iteration_range nan_options.
Proof.
  split.
  - constructor; cbn; try lia; try first [vm_compute; reflexivity|split; vm_compute; reflexivity]. exists 8. split; [reflexivity|lia].
  - constructor; cbn; lia.
Qed.

(** The full statement of C37 is false: a search with sane numbers and
    options, and library functions that behave as they should, reports a
    progress that is not a number. *)
Theorem progress_refuted : exists o p op z,
  problem p /\ sane_numbers p /\ finite_work p /\ exp_sane o /\ mean_sane o op /\ sane_options op /\
  exp_nonneg o /\ exp_of_nan o /\ log_sane o /\ iteration_range op /\
  optimizer_searched o p op 1 z /\ has_converged z = false /\ is_nan (estimated_progress z) = true.
Proof.
  exists nan_oracles, nan_params, nan_options, nan_z6.
  split; [exact nan_problem|]. split; [exact nan_numbers|]. split; [exact nan_finite|].
  split; [exact nan_exp_sane|]. split; [exact nan_mean_sane|]. split; [apply nan_options_sane|].
  split; [exact nan_exp_nonneg|]. split; [reflexivity|]. split; [exact nan_log_sane|].
  split; [apply nan_options_sane|]. split; [exact nan_z6_searched|]. split; vm_compute; reflexivity.
Qed.
Print Assumptions progress_refuted.
