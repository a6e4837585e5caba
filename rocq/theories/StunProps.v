(** * Property theorems C30-C32, C34, C39, C40 for single optimization jobs *)

From Coq Require Import String List ZArith Bool Arith Reals Lia Lra.
From Flocq Require Import Core BinarySingleNaN.
From Verif Require Import Base F32 F32Facts NormaliseProofs F32Signed ProjectModel ScheduleModel
  ScheduleSpec ScheduleProofs MutatorModel MutatorProofs MakespanModel TimelineSpec MakespanProofs
  TemperatureModel TemperatureSpec TemperatureProofs StunModel SearchSpec StunProofs SameProofs.
Import ListNotations.

(** ** Invariants of all histories *)

Lemma reached_inv : forall o p op j, problem p -> job_reached o p op j -> JI p p j.
Proof.
  intros o p op j HP H. induction H as [j H|j k j' _ I H|j j' _ I H|j j' _ I H].
  - apply (job_new_cases p p HP o op j eq_refl H).
  - apply (update_cases p p HP o j k j' I H).
  - apply (job_reset_cases p p HP o j j' I H).
  - apply (job_copy_cases p p HP j j' I H).
Qed.

Lemma run_inv : forall o p q ks j j', problem p -> JI p q j -> stun_run o j ks = Ok j' -> JI p q j'.
Proof.
  intros o p q ks. induction ks as [|k ks IH]; intros j j' HP I H; cbn [stun_run] in H.
  - injection H as <-. exact I.
  - apply bind_ok in H. destruct H as (j1 & E & H).
    apply (IH j1); auto. apply (update_cases p q HP o j k j1 I E).
Qed.

Lemma reached_run : forall o p op ks j j', job_reached o p op j -> stun_run o j ks = Ok j' ->
  job_reached o p op j'.
Proof.
  intros o p op ks. induction ks as [|k ks IH]; intros j j' R H; cbn [stun_run] in H.
  - injection H as <-. exact R.
  - apply bind_ok in H. destruct H as (j1 & E & H). apply (IH j1); auto. apply jr_step with j k; auto.
Qed.

(** Work times and the number of tasks are small enough for sums not to
    overflow. *)
Definition bounded_work (p : params) : Prop :=
  (Z.of_nat (task_count p) <= 2 ^ 24)%Z /\
  forall t a, t < task_count p -> a < length (sp_perf p) ->
    is_finite (work_time p t a) = true /\ (B2R (work_time p t a) <= bpow radix2 101)%R.

Lemma bounded_finite_work : forall p, problem p -> sane_numbers p -> bounded_work p -> finite_work p.
Proof.
  intros p HP HN [HL HB] s V. unfold total_time.
  assert (G : forall l k (t : f32), (forall x, In x l -> In x s) ->
    (Z.of_nat (k + length l) <= 2 ^ 24)%Z ->
    is_finite t = true -> (0 <= B2R t <= INR k * bpow radix2 101)%R ->
    is_finite (fold_left (fun t x => f_add t (work_time p (it_task x) (it_agent x))) l t) = true).
  { intro l. induction l as [|x l IH]; intros k t Hin HK F B; cbn [fold_left]; [exact F|].
    assert (Hx : In x s) by (apply Hin; left; reflexivity).
    assert (Rt : it_task x < task_count p) by (apply (valid_range p s x V Hx)).
    assert (Ra : it_agent x < length (sp_perf p)).
    { apply (pb_agents_range p HP (it_task x)). apply (vs_agents p s V x Hx). }
    destruct (HB _ _ Rt Ra) as [Fw Bw].
    assert (Pw : (0 <= B2R (work_time p (it_task x) (it_agent x)))%R).
    { rewrite <- val_finite by exact Fw. apply nn_val. apply (work_time_nn p HN); assumption. }
    assert (E1 : (INR (S k) * bpow radix2 101 = INR k * bpow radix2 101 + bpow radix2 101)%R)
      by (rewrite S_INR; ring).
    assert (KS : (Z.of_nat (S k) <= 2 ^ 24)%Z) by (cbn [length] in HK; lia).
    assert (RB : rnd (INR (S k) * bpow radix2 101) = (INR (S k) * bpow radix2 101)%R).
    { rewrite INR_IZR_INZ. apply rnd_dyadic; lia. }
    assert (MX : (INR (S k) * bpow radix2 101 <= bpow radix2 127)%R).
    { rewrite INR_IZR_INZ. apply Rle_trans with (bpow radix2 24 * bpow radix2 101)%R.
      - apply Rmult_le_compat_r; [apply bpow_ge_0|]. change (bpow radix2 24) with (IZR (2 ^ 24)).
        apply IZR_le. exact KS.
      - rewrite <- bpow_plus. apply bpow_le. lia. }
    destruct (add_fin t (work_time p (it_task x) (it_agent x)) F Fw) as [F' E'].
    { rewrite Rabs_pos_eq; lra. }
    apply (IH (S k)).
    - intros y Hy. apply Hin. right. exact Hy.
    - cbn [length] in HK. lia.
    - exact F'.
    - rewrite E'. apply rnd_between; [apply rnd_0|exact RB|lra]. }
  apply (G s 0); auto.
  - cbn [plus]. rewrite (valid_length p s V). exact HL.
  - cbn. lra.
Qed.

Lemma reached_total : forall e o p op j, problem p -> sane_numbers p -> finite_work p ->
  exp_sane o -> error_ok e -> mean_within e o -> scale_fits e (op_scale op) = true -> sane_options op ->
  job_reached o p op j -> TI e j /\ (0 < jb_batch j)%Z.
Proof.
  intros e o p op j HP HN HF HE HR HM HS HO H.
  induction H as [j H|j k j' R [T B] H|j j' R [T B] H|j j' R [T B] H].
  - destruct (job_new_total p HP HN HF o HE e op HO HS) as (j1 & E & T). rewrite E in H. injection H as <-.
    split; [exact T|]. destruct (job_new_cases p p HP o op j1 eq_refl E) as (_ & EB & B & _). congruence.
  - pose proof (reached_inv o p op j HP R) as I.
    destruct (update_total p HP HN HF o HE e HR HM j k I T) as (j1 & E & T'). rewrite E in H. injection H as <-.
    split; [exact T'|]. destruct (update_cases p p HP o j k j1 I E) as (_ & [KB _ _ _] & _). congruence.
  - pose proof (reached_inv o p op j HP R) as I.
    destruct (job_reset_total p HP HN HF o HE e j I T B) as (j1 & E & T'). rewrite E in H. injection H as <-.
    split; [exact T'|]. destruct (job_reset_cases p p HP o j j1 I E) as (_ & [KB _ _ _] & _). congruence.
  - pose proof (reached_inv o p op j HP R) as I.
    destruct (job_copy_total p HP e j I T) as (j1 & E & T'). rewrite E in H. injection H as <-.
    split; [exact T'|]. destruct (job_copy_cases p p HP j j1 I E) as (_ & [KB _ _ _] & _). congruence.
Qed.

(** ** A second example: two independent tasks, two equal agents *)

Definition ex2_params : params :=
  {| sp_perf := [f_one; f_one]; sp_dur := [f_one; f_one];
     sp_agents := [[0; 1]; [0; 1]]; sp_deps := [[]; []]; sp_mult := f_one |}.

Lemma ex2_depends : forall t d, ~ depends ex2_params t d.
Proof.
  intros t d (r & E & H). destruct t as [|[|t]]; cbn in E.
  - injection E as <-. exact H.
  - injection E as <-. exact H.
  - destruct t; discriminate.
Qed.

Lemma ex2_allowed : forall t a, allowed ex2_params t a <-> t < 2 /\ a < 2.
Proof.
  intros t a. split.
  - intros (r & E & H). destruct t as [|[|t]]; cbn in E.
    + injection E as <-. cbn in H. lia.
    + injection E as <-. cbn in H. lia.
    + destruct t; discriminate.
  - intros [Ht Ha]. exists [0; 1]. split.
    + destruct t as [|[|t]]; [reflexivity|reflexivity|lia].
    + cbn. destruct a as [|[|a]]; lia.
Qed.

Example ex2_problem : problem ex2_params.
Proof.
  constructor.
  - cbn. lia.
  - reflexivity.
  - reflexivity.
  - intros t d H. destruct (ex2_depends t d H).
  - repeat constructor.
  - intros t Ht. exists 0. apply ex2_allowed. cbn in Ht. lia.
  - intros t a H. apply ex2_allowed in H. cbn. lia.
  - intros t H. assert (G : forall x y, Relation_Operators.clos_trans nat (depends ex2_params) x y -> False).
    { intros x y C. induction C; auto. eapply ex2_depends; eauto. }
    exact (G _ _ H).
Qed.

Example ex2_numbers : sane_numbers ex2_params.
Proof. split; repeat constructor; vm_compute; reflexivity. Qed.

Example ex2_finite : finite_work ex2_params.
Proof.
  apply bounded_finite_work; [exact ex2_problem|exact ex2_numbers|]. split; [vm_compute; discriminate|].
  intros t a Ht Ha.
  assert (B : forallb (fun t => forallb (fun a => is_finite (work_time ex2_params t a) &&
      f_le (work_time ex2_params t a) f_one) [0; 1]) [0; 1] = true) by (vm_compute; reflexivity).
  rewrite forallb_forall in B. specialize (B t). rewrite forallb_forall in B.
  assert (X : is_finite (work_time ex2_params t a) && f_le (work_time ex2_params t a) f_one = true).
  { apply B; [cbn in Ht|cbn in Ha]; cbn; [destruct t as [|[|t]]|destruct a as [|[|a]]]; try lia; auto. }
  apply andb_true_iff in X. destruct X as [F L]. split; [exact F|].
  apply fin_le in L; [|exact F|apply one_fin]. rewrite (proj2 one_fin) in L.
  apply Rle_trans with (1 := L). change 1%R with (bpow radix2 0). apply bpow_le. lia.
Qed.

(** An [exp] for the examples: 1/2 below zero, 1 from zero on. *)
Definition f_half : f32 := f_div f_one (f_of_Z 2).
Definition step_exp : oracles :=
  {| or_exp := fun x => if f_lt x f_zero then f_half else f_one;
     or_log := fun _ => f_zero;
     or_mean := fun _ _ => f_zero |}.

Example step_exp_sane : exp_sane step_exp.
Proof.
  intros x _. unfold step_exp, in_unit. cbn [or_exp]. destruct (f_lt x f_zero); split; vm_compute; reflexivity.
Qed.

Example step_mean_sane : forall op, scale_fits slack (op_scale op) = true -> mean_sane step_exp op.
Proof.
  intros op H. exists slack. split; [exact slack_ok|]. split; [|exact H].
  intros w l _ _ _. split; [reflexivity|]. rewrite (proj2 slack_value). cbn. lra.
Qed.

Definition ex_options : options :=
  {| op_batch := 3; op_max_idle := 10; op_scale := f_one; op_window := 100;
     op_gamma := f_of_Z 2; op_period := 256 |}.

Example ex_options_sane : sane_options ex_options.
Proof.
  constructor; cbn; try lia; try (split; vm_compute; reflexivity). exists 8. split; [reflexivity|lia].
Qed.

Example ex_mean_sane : mean_sane step_exp ex_options.
Proof. apply step_mean_sane. vm_compute. reflexivity. Qed.

Definition no_job : job :=
  {| jb_batch := 0; jb_mutator := ex2_params; jb_params := ex2_params;
     jb_makespan := {| mk_task := []; mk_work := [] |};
     jb_temp := {| tp_value := f_zero; tp_window := 0; tp_acc := []; tp_scale := f_zero; tp_mask := 0 |};
     jb_stun := stun_new f_zero |}.

Definition ex_j0 : job := result_or no_job (job_new step_exp ex2_params ex_options).

Example ex_j0_new : job_new step_exp ex2_params ex_options = Ok ex_j0.
Proof. apply result_or_ok. vm_compute. reflexivity. Qed.

Example ex_j0_schedule : job_schedule ex_j0 = [Item 0 0; Item 1 0].
Proof. vm_compute. reflexivity. Qed.

(** Give the second task to the other agent. *)
Definition ex_improve : luck := Luck (Draws 0 0 1) f_half.
Definition ex_j1 : job := result_or no_job (stun_update step_exp ex_j0 ex_improve).

Example ex_j1_step : stun_update step_exp ex_j0 ex_improve = Ok ex_j1.
Proof. apply result_or_ok. vm_compute. reflexivity. Qed.

Example ex_j1_schedule : job_schedule ex_j1 = [Item 1 1; Item 0 0].
Proof. vm_compute. reflexivity. Qed.

Example ex_j1_reached : job_reached step_exp ex2_params ex_options ex_j1.
Proof. apply jr_step with ex_j0 ex_improve; [apply jr_new, ex_j0_new|apply ex_j1_step]. Qed.

(** ** C30 *)

(** C30: in every history the reported makespan is the length of the
    timeline of the reported schedule. *)
Theorem best_makespan_belongs : forall o p op j,
  problem p -> sane_numbers p -> job_reached o p op j ->
  project_length p (job_schedule j) (job_best j) /\
  makespan p (job_schedule j) = Ok (job_best j).
Proof.
  intros o p op j HP HN R. pose proof (reached_inv o p op j HP R) as I.
  pose proof (ji_low p p j I) as L. split; [|exact L].
  destruct (makespan_spec p HP HN _ (ji_best p p j I)) as (m & E & _ & (tl & G) & LF).
  rewrite L in E. injection E as <-. exists tl. split; [exact G|]. apply LF, G.
Qed.
Print Assumptions best_makespan_belongs.

Example ex_best_makespan_belongs :
  project_length ex2_params (job_schedule ex_j1) (job_best ex_j1) /\
  f_lt (job_best ex_j1) (job_best ex_j0) = true.
Proof.
  split; [|vm_compute; reflexivity].
  apply (best_makespan_belongs step_exp ex2_params ex_options);
    [exact ex2_problem|exact ex2_numbers|exact ex_j1_reached].
Qed.

(** ** C32 *)

(** C32 for a job: in every history the reported schedule is valid. *)
Theorem reported_schedule_valid : forall o p op j,
  problem p -> job_reached o p op j -> valid_schedule p (job_schedule j).
Proof. intros o p op j HP R. apply (reached_inv o p op j HP R). Qed.
Print Assumptions reported_schedule_valid.

Example ex_reported_schedule_valid : valid_schedule ex2_params (job_schedule ex_j1).
Proof.
  apply (reported_schedule_valid step_exp ex2_params ex_options); [exact ex2_problem|exact ex_j1_reached].
Qed.

(** C30-C32 are about histories in which nothing failed.  Nothing fails:
    for sane options a job can be created, and whatever happened before,
    the next iteration, reset or copy succeeds. *)
Theorem job_never_fails : forall o p op,
  problem p -> sane_numbers p -> finite_work p -> exp_sane o -> mean_sane o op -> sane_options op ->
  (exists j, job_new o p op = Ok j) /\
  forall j, job_reached o p op j ->
    (forall k, exists j', stun_update o j k = Ok j') /\
    (forall ks, exists j', job_update o j ks = Ok j') /\
    (exists j', job_reset o j = Ok j') /\
    (exists j', job_copy j = Ok j').
Proof.
  intros o p op HP HN HF HE (e & HR & HM & HS) HO. split.
  - destruct (job_new_total p HP HN HF o HE e op HO HS) as (j & E & _). eauto.
  - intros j R. pose proof (reached_inv o p op j HP R) as I.
    destruct (reached_total e o p op j) as [T B]; auto.
    assert (U : forall k, exists j', stun_update o j k = Ok j').
    { intro k. destruct (update_total p HP HN HF o HE e HR HM j k I T) as (j' & E & _). eauto. }
    repeat split; auto.
    + intro ks. unfold job_update. rewrite expects_Ok by (apply Z.ltb_lt, B).
      generalize (map ks (seq 0 (Z.to_nat (jb_batch j)))). intro l. clear U B.
      revert j R I T. induction l as [|k l IH]; intros j R I T; cbn [stun_run]; [eauto|].
      destruct (update_total p HP HN HF o HE e HR HM j k I T) as (j1 & E & T1). rewrite E. cbn [bind].
      apply IH; auto.
      * apply jr_step with j k; auto.
      * apply (update_cases p p HP o j k j1 I E).
    + destruct (job_reset_total p HP HN HF o HE e j I T B) as (j' & E & _). eauto.
    + destruct (job_copy_total p HP e j I T) as (j' & E & _). eauto.
Qed.
Print Assumptions job_never_fails.

Example ex_job_never_fails : exists j', job_update step_exp ex_j1 (fun _ => ex_improve) = Ok j'.
Proof.
  apply (proj2 (job_never_fails step_exp ex2_params ex_options ex2_problem ex2_numbers ex2_finite
    step_exp_sane ex_mean_sane ex_options_sane) ex_j1 ex_j1_reached).
Qed.

(** ** C31 *)

(** C31: whatever happened before, iterations never make the reported
    makespan larger; it is the smallest among the makespan reported at the
    beginning and those of all candidates evaluated, and the reported
    schedule is one of these. *)
Theorem best_is_minimum_seen : forall o p op j ks j',
  problem p -> job_reached o p op j -> stun_run o j ks = Ok j' ->
  let seen := job_schedule j :: candidates o j ks in
  length seen = S (length ks) /\ Forall (valid_schedule p) seen /\
  f_le (job_best j') (job_best j) = true /\
  In (job_schedule j') seen /\
  forall c m, In c seen -> makespan p c = Ok m -> f_le (job_best j') m = true.
Proof.
  intros o p op j ks j' HP R H. pose proof (reached_inv o p op j HP R) as I. clear R.
  revert j j' I H. induction ks as [|k ks IH]; intros j j' I H; cbn [stun_run candidates] in *.
  - injection H as <-. cbv zeta.
    assert (LE : f_le (job_best j) (job_best j) = true).
    { apply f_le_refl. apply (le_num _ _ (ji_nn p p j I)). }
    split; [reflexivity|]. split; [repeat constructor; apply I|]. split; [exact LE|].
    split; [left; reflexivity|]. intros c m [<-|[]] E.
    rewrite (ji_low p p j I : makespan p (job_schedule j) = _) in E. injection E as <-. exact LE.
  - apply bind_ok in H. destruct H as (j1 & E & H).
    destruct (update_cases p p HP o j k j1 I E) as (I1 & _ & t & m & MT & VT & MK & M0 & IT).
    rewrite (ji_mutator p p j I), MT, E.
    destruct (IH j1 j' I1 H) as (L & F & LE & IN & MIN). cbv zeta.
    assert (Step : f_le (job_best j1) (job_best j) = true /\ f_le (job_best j1) m = true /\
                   (job_schedule j1 = t \/ job_schedule j1 = job_schedule j)).
    { pose proof (ji_nn p p j I) as A. pose proof (ji_nn p p j1 I1) as A1. pose proof (ji_cur p p j I) as C.
      unfold job_best, job_schedule.
      destruct IT as [cs LC LL SF B1 L1 C1 CE CS T1|LC LL B1 L1 C1 CE CS T1
                     |ts LC SF AC B1 L1 C1 CE CS TU|ts LC SF AC B1 L1 C1 CE CS T1]; rewrite L1, B1.
      - split; [apply f_lt_le, LL|]. split; [apply f_le_refl, (le_num _ _ M0)|]. auto.
      - split; [apply f_le_refl, (le_num _ _ A)|]. split; [|auto].
        apply f_lt_ge; [apply (le_num _ _ M0)|apply (le_num _ _ A)|exact LL].
      - split; [apply f_le_refl, (le_num _ _ A)|]. split; [|auto].
        unfold stun_fn in SF. ok_step SF. ok_step SF. assumption.
      - split; [apply f_le_refl, (le_num _ _ A)|]. split; [|auto].
        unfold stun_fn in SF. ok_step SF. ok_step SF. assumption. }
    destruct Step as (S1 & S2 & S3).
    split; [cbn [length] in *; lia|].
    inversion F as [|? ? F1 F2]; subst.
    split; [constructor; [apply I|constructor; [exact VT|exact F2]]|].
    split; [exact (f_le_trans _ _ _ LE S1)|].
    split.
    + destruct IN as [IN|IN].
      * rewrite <- IN. destruct S3 as [S3|S3]; rewrite S3; [right; left|left]; reflexivity.
      * right. right. exact IN.
    + intros c m' Hc Em. destruct Hc as [<-|[<-|Hc]].
      * rewrite (ji_low p p j I : makespan p (job_schedule j) = _) in Em. injection Em as <-.
        exact (f_le_trans _ _ _ LE S1).
      * rewrite MK in Em. injection Em as <-. exact (f_le_trans _ _ _ LE S2).
      * apply (MIN c m'); [right; exact Hc|exact Em].
Qed.
Print Assumptions best_is_minimum_seen.

Example ex_best_is_minimum : candidates step_exp ex_j0 [ex_improve; ex_improve]
  = [[Item 1 1; Item 0 0]; [Item 0 1; Item 1 1]].
Proof. vm_compute. reflexivity. Qed.

(** ** C34 *)

(** C34, first part: a copy reports the same schedule and makespan and has
    the same temperature, batch size and parameters. *)
Theorem copy_reports_the_same : forall o p op j c,
  problem p -> job_reached o p op j -> job_copy j = Ok c ->
  job_schedule c = job_schedule j /\ job_best c = job_best j /\
  jb_temp c = jb_temp j /\ jb_batch c = jb_batch j /\
  jb_mutator c = jb_mutator j /\ jb_params c = jb_params j.
Proof.
  intros o p op j c HP R E. pose proof (reached_inv o p op j HP R) as I.
  destruct (job_copy_cases p p HP j c I E) as (_ & [KB KM KP _] & T & B & _ & _ & _ & _ & L & _).
  unfold job_schedule, job_best. auto 10.
Qed.
Print Assumptions copy_reports_the_same.

(** C34, full statement of the second part: a copy continues exactly as
    the original would with the same random numbers.  False, see
    [copy_continues_refuted].  It holds when the original's current
    schedule is in the second segment of the buffer, that is, after an even
    number of accepted candidates. *)
Theorem copy_continues_partial : forall o p op j c ks,
  problem p -> job_reached o p op j -> job_copy j = Ok c ->
  st_swapped (jb_stun j) = false ->
  agree same_job (stun_run o c ks) (stun_run o j ks).
Proof.
  intros o p op j c ks HP R E S. pose proof (reached_inv o p op j HP R) as I.
  destruct (job_copy_cases p p HP j c I E) as
    (I' & [KB KM KP KG] & T & B & O & W & SW & CE & L & CS).
  apply same_run. constructor; auto; try congruence.
  - rewrite (ji_task p p c I'), (ji_task p p j I). reflexivity.
  - rewrite (ji_work p p c I'), (ji_work p p j I). reflexivity.
Qed.
Print Assumptions copy_continues_partial.

Example ex_copy_continues : exists c, job_copy ex_j0 = Ok c /\
  agree same_job (stun_run step_exp c [ex_improve]) (stun_run step_exp ex_j0 [ex_improve]).
Proof.
  exists (result_or no_job (job_copy ex_j0)).
  assert (E : job_copy ex_j0 = Ok (result_or no_job (job_copy ex_j0)))
    by (apply result_or_ok; vm_compute; reflexivity).
  split; [exact E|].
  apply (copy_continues_partial step_exp ex2_params ex_options ex_j0); auto.
  - exact ex2_problem.
  - apply jr_new, ex_j0_new.
Qed.

(** C34 is false: after one accepted candidate the copy goes on from a
    different schedule, whose makespan is not the one it remembers
    ([current_e]). *)
Theorem copy_continues_refuted : exists o p op j c m,
  problem p /\ sane_numbers p /\ finite_work p /\ exp_sane o /\ mean_sane o op /\ sane_options op /\
  job_reached o p op j /\ job_copy j = Ok c /\
  st_current (jb_stun c) <> st_current (jb_stun j) /\
  makespan p (st_current (jb_stun c)) = Ok m /\
  f_eq m (st_current_e (jb_stun c)) = false /\
  exists ks j' c', stun_run o j ks = Ok j' /\ stun_run o c ks = Ok c' /\
    job_schedule j' <> job_schedule c' /\ f_eq (job_best j') (job_best c') = false.
Proof.
  (* three independent unit tasks for three agents *)
  set (p := {| sp_perf := [f_one; f_one; f_one]; sp_dur := [f_one; f_one; f_one];
               sp_agents := [[0; 1; 2]; [0; 1; 2]; [0; 1; 2]]; sp_deps := [[]; []; []];
               sp_mult := f_one |}).
  assert (AL : forall t a, allowed p t a <-> t < 3 /\ a < 3).
  { intros t a. split.
    - intros (r & E & H). destruct t as [|[|[|t]]]; cbn in E; try (destruct t; discriminate);
        injection E as <-; cbn in H; lia.
    - intros [Ht Ha]. exists [0; 1; 2]. split.
      + destruct t as [|[|[|t]]]; try reflexivity; lia.
      + cbn. destruct a as [|[|[|a]]]; lia. }
  assert (DE : forall t d, ~ depends p t d).
  { intros t d (r & E & H). destruct t as [|[|[|t]]]; cbn in E; try (destruct t; discriminate);
      injection E as <-; exact H. }
  assert (HP : problem p).
  { constructor; try reflexivity.
    - cbn. lia.
    - intros t d H. destruct (DE t d H).
    - repeat constructor.
    - intros t Ht. exists 0. apply AL. cbn in Ht. lia.
    - intros t a H. apply AL in H. cbn. lia.
    - intros t H. assert (G : forall x y, Relation_Operators.clos_trans nat (depends p) x y -> False).
      { intros x y C. induction C; auto. eapply DE; eauto. }
      exact (G _ _ H). }
  assert (HN : sane_numbers p) by (split; repeat constructor; vm_compute; reflexivity).
  assert (HF : finite_work p).
  { apply bounded_finite_work; [exact HP|exact HN|]. split; [vm_compute; discriminate|].
    intros t a Ht Ha.
    assert (B : forallb (fun t => forallb (fun a => is_finite (work_time p t a) &&
        f_le (work_time p t a) f_one) [0; 1; 2]) [0; 1; 2] = true) by (vm_compute; reflexivity).
    rewrite forallb_forall in B. specialize (B t). rewrite forallb_forall in B.
    assert (X : is_finite (work_time p t a) && f_le (work_time p t a) f_one = true).
    { apply B; [cbn in Ht|cbn in Ha]; cbn; [destruct t as [|[|[|t]]]|destruct a as [|[|[|a]]]]; try lia; auto. }
    apply andb_true_iff in X. destruct X as [F L]. split; [exact F|].
    apply fin_le in L; [|exact F|apply one_fin]. rewrite (proj2 one_fin) in L.
    apply Rle_trans with (1 := L). change 1%R with (bpow radix2 0). apply bpow_le. lia. }
  set (j0 := result_or no_job (job_new step_exp p ex_options)).
  assert (E0 : job_new step_exp p ex_options = Ok j0) by (apply result_or_ok; vm_compute; reflexivity).
  set (k := Luck (Draws 0 0 1) f_half).
  set (j := result_or no_job (stun_update step_exp j0 k)).
  assert (E1 : stun_update step_exp j0 k = Ok j) by (apply result_or_ok; vm_compute; reflexivity).
  set (c := result_or no_job (job_copy j)).
  assert (E2 : job_copy j = Ok c) by (apply result_or_ok; vm_compute; reflexivity).
  set (m := result_or f_zero (makespan p (st_current (jb_stun c)))).
  set (ks := [Luck (Draws 1 2 2) f_half]).
  exists step_exp, p, ex_options, j, c, m.
  split; [exact HP|]. split; [exact HN|]. split; [exact HF|].
  split; [exact step_exp_sane|]. split; [exact ex_mean_sane|]. split; [exact ex_options_sane|].
  split; [apply jr_step with j0 k; [apply jr_new, E0|exact E1]|]. split; [exact E2|].
  split; [vm_compute; discriminate|].
  split; [apply result_or_ok; vm_compute; reflexivity|].
  split; [vm_compute; reflexivity|].
  exists ks, (result_or no_job (stun_run step_exp j ks)), (result_or no_job (stun_run step_exp c ks)).
  split; [apply result_or_ok; vm_compute; reflexivity|].
  split; [apply result_or_ok; vm_compute; reflexivity|].
  split; [vm_compute; discriminate|]. vm_compute. reflexivity.
Qed.
Print Assumptions copy_continues_refuted.

(** ** C39 *)

(** C39, full statement: after [params(p)] (and a reset) makespans and
    schedules are those of [p].  False for makespans, see
    [rebind_refuted].  Proved here: the schedules are those of the new
    parameters, while makespans remain those of the old ones. *)
Theorem rebind_partial : forall o p q op j j1 ks j2,
  problem q -> job_reached o q op j -> problem p ->
  job_reset o (job_set_params j p) = Ok j1 -> stun_run o j1 ks = Ok j2 ->
  initial_schedule p = Ok (job_schedule j1) /\
  valid_schedule p (job_schedule j2) /\
  makespan q (job_schedule j2) = Ok (job_best j2).
Proof.
  intros o p q op j j1 ks j2 HQ R HP RE RU. pose proof (reached_inv o q op j HQ R) as I.
  assert (I1 : JI p q j1 /\ initial_schedule p = Ok (job_schedule j1)).
  { unfold job_reset in RE. ok_step RE. cbn [job_set_params jb_mutator] in RE.
    destruct (initial_ok p HP) as (src & ES & V). rewrite ES in RE. cbn [bind] in RE.
    apply bind_ok in RE. destruct RE as (j' & SR & RE).
    destruct (makespan_makes_lengths q _ _ (ji_low q q j I)) as [HD HPf].
    destruct (reset_cases p q HP o (job_set_params j p) src j') as (I1 & _ & _ & B1 & _); auto;
      [apply (ji_params q q j I)|apply (ji_task q q j I)|apply (ji_work q q j I)|].
    apply bind_ok in RE. destruct RE as (temp & _ & RE). injection RE as <-. split.
    - destruct I1. constructor; cbn [jb_mutator jb_params jb_makespan jb_stun]; assumption.
    - unfold job_schedule. cbn. rewrite B1. exact ES. }
  destruct I1 as [I1 S1]. pose proof (run_inv o p q ks j1 j2 HP I1 RU) as I2.
  split; [exact S1|]. split; [apply I2|apply (ji_low p q j2 I2)].
Qed.
Print Assumptions rebind_partial.

(** The same tasks and agents, with the first task three times as long. *)
Definition ex3_params : params :=
  {| sp_perf := [f_one; f_one]; sp_dur := [f_of_Z 3; f_one];
     sp_agents := [[0; 1]; [0; 1]]; sp_deps := [[]; []]; sp_mult := f_one |}.

Example ex3_problem : problem ex3_params.
Proof.
  pose proof ex2_problem as [A B C D E F G H]. constructor; auto.
Qed.

(** C39 is false: after rebinding to longer tasks and resetting, the
    reported makespan is still computed from the old durations. *)
Theorem rebind_refuted : exists o p q op j j1 m,
  problem p /\ problem q /\ exp_sane o /\ mean_sane o op /\ sane_options op /\
  job_new o q op = Ok j /\ job_reset o (job_set_params j p) = Ok j1 /\
  makespan p (job_schedule j1) = Ok m /\ f_eq (job_best j1) m = false.
Proof.
  set (j1 := result_or no_job (job_reset step_exp (job_set_params ex_j0 ex3_params))).
  exists step_exp, ex3_params, ex2_params, ex_options, ex_j0, j1,
    (result_or f_zero (makespan ex3_params (job_schedule j1))).
  split; [exact ex3_problem|]. split; [exact ex2_problem|]. split; [exact step_exp_sane|].
  split; [exact ex_mean_sane|]. split; [exact ex_options_sane|]. split; [exact ex_j0_new|].
  split; [apply result_or_ok; vm_compute; reflexivity|].
  split; [apply result_or_ok; vm_compute; reflexivity|]. vm_compute. reflexivity.
Qed.
Print Assumptions rebind_refuted.

Example ex_rebind : exists j1 j2,
  job_reset step_exp (job_set_params ex_j0 ex3_params) = Ok j1 /\
  stun_run step_exp j1 [ex_improve] = Ok j2.
Proof.
  set (j1 := result_or no_job (job_reset step_exp (job_set_params ex_j0 ex3_params))).
  exists j1, (result_or no_job (stun_run step_exp j1 [ex_improve])).
  split; apply result_or_ok; vm_compute; reflexivity.
Qed.

(** ** C40 *)

(** The tunneling transform relative to the best makespan so far, and the
    documented acceptance probability. *)
Definition tunnel (o : oracles) (low g e : f32) : f32 :=
  f_sub f_one (or_exp o (f_mul (f_opp g) (f_sub e low))).
Definition metropolis (o : oracles) (beta low g candidate current : f32) : f32 :=
  f_min f_one (or_exp o (f_mul (f_opp beta)
                          (f_sub (tunnel o low g candidate) (tunnel o low g current)))).

(** The remembered transformed energy of the current schedule is up to
    date. *)
Definition in_step (o : oracles) (j : job) : Prop :=
  let s := jb_stun j in
  st_current_s s = tunnel o (st_lowest_e s) (st_gamma s) (st_current_e s).

Lemma stun_fn_tunnel : forall o low e g r, stun_fn o low e g = Ok r -> r = tunnel o low g e.
Proof.
  intros o low e g r H. unfold stun_fn in H. ok_step H. ok_step H. ok_step H. injection H as <-. reflexivity.
Qed.

(** C40, full statement: in every update in which the candidate is not
    better, the candidate is accepted exactly when the random number is at
    most [metropolis].  False, see [metropolis_refuted].  It holds when the
    remembered transformed energy is up to date, which is so after creation
    and reset, and stays so until a better candidate appears; better
    candidates are always accepted. *)
Theorem metropolis_partial : forall o p op j k j' t m,
  problem p -> job_reached o p op j -> stun_update o j k = Ok j' ->
  mutate p (lk_draws k) (st_current (jb_stun j)) = Ok t -> makespan p t = Ok m ->
  let s := jb_stun j in
  (f_lt m (st_current_e s) = true ->
     st_current (jb_stun j') = t /\ st_current_e (jb_stun j') = m) /\
  (f_lt m (st_current_e s) = false -> in_step o j ->
     in_step o j' /\
     if f_le (lk_uniform k)
          (metropolis o (tp_value (jb_temp j)) (st_lowest_e s) (st_gamma s) m (st_current_e s))
     then st_current (jb_stun j') = t /\ st_current_e (jb_stun j') = m
     else st_current (jb_stun j') = st_current s /\ st_current_e (jb_stun j') = st_current_e s).
Proof.
  intros o p op j k j' t m HP R U MT MK s. pose proof (reached_inv o p op j HP R) as I.
  destruct (update_cases p p HP o j k j' I U) as (_ & [_ _ _ KG] & t' & m' & MT' & _ & MK' & _ & IT).
  rewrite MT in MT'. injection MT' as <-. rewrite MK in MK'. injection MK' as <-.
  unfold s. clear s. split.
  - intro LC. destruct IT; auto; congruence.
  - intros LC IS. unfold in_step in *.
    destruct IT as [cs LC' LL SF B1 L1 C1 CE CS T1|LC' LL B1 L1 C1 CE CS T1
                   |ts _ SF AC B1 L1 C1 CE CS TU|ts _ SF AC B1 L1 C1 CE CS T1]; try congruence.
    + apply stun_fn_tunnel in SF. subst ts. rewrite L1, KG, CE, CS. split; [reflexivity|].
      rewrite IS in AC. unfold metropolis, acceptance in *. rewrite AC. auto.
    + apply stun_fn_tunnel in SF. subst ts. rewrite L1, KG, CE, CS. split; [exact IS|].
      rewrite IS in AC. unfold metropolis, acceptance in *. rewrite AC. auto.
Qed.
Print Assumptions metropolis_partial.

Theorem in_step_at_start : forall o p op j,
  problem p ->
  job_new o p op = Ok j \/ (exists i, job_reached o p op i /\ job_reset o i = Ok j) ->
  in_step o j.
Proof.
  intros o p op j HP [H|(i & R & H)].
  - destruct (job_new_cases p p HP o op j eq_refl H) as (_ & _ & _ & _ & _ & _ & _ & _ & SF & _).
    apply (stun_fn_tunnel _ _ _ _ _ SF).
  - destruct (job_reset_cases p p HP o i j (reached_inv o p op i HP R) H) as (_ & _ & _ & _ & _ & _ & SF & _).
    apply (stun_fn_tunnel _ _ _ _ _ SF).
Qed.
Print Assumptions in_step_at_start.

Example ex_in_step : in_step step_exp ex_j0.
Proof. apply (in_step_at_start step_exp ex2_params ex_options); [exact ex2_problem|]. left. exact ex_j0_new. Qed.

(** C40 is false: right after an improvement the candidate is compared
    with the schedule that was current before it, so a worse candidate that
    the documented rule rejects is accepted. *)
Theorem metropolis_refuted : exists o p op j k j' t m,
  problem p /\ sane_numbers p /\ finite_work p /\ exp_sane o /\ mean_sane o op /\ sane_options op /\
  job_reached o p op j /\ stun_update o j k = Ok j' /\
  mutate p (lk_draws k) (st_current (jb_stun j)) = Ok t /\ makespan p t = Ok m /\
  f_lt m (st_current_e (jb_stun j)) = false /\
  f_le (lk_uniform k)
    (metropolis o (tp_value (jb_temp j)) (st_lowest_e (jb_stun j)) (st_gamma (jb_stun j)) m
       (st_current_e (jb_stun j))) = false /\
  t <> st_current (jb_stun j) /\ st_current (jb_stun j') = t.
Proof.
  set (k := Luck (Draws 0 1 0) f_one).
  set (t := [Item 0 0; Item 1 0]).
  exists step_exp, ex2_params, ex_options, ex_j1, k,
    (result_or no_job (stun_update step_exp ex_j1 k)), t, (result_or f_zero (makespan ex2_params t)).
  split; [exact ex2_problem|]. split; [exact ex2_numbers|]. split; [exact ex2_finite|].
  split; [exact step_exp_sane|]. split; [exact ex_mean_sane|]. split; [exact ex_options_sane|].
  split; [exact ex_j1_reached|].
  split; [apply result_or_ok; vm_compute; reflexivity|].
  split; [vm_compute; reflexivity|].
  split; [apply result_or_ok; vm_compute; reflexivity|].
  split; [vm_compute; reflexivity|]. split; [vm_compute; reflexivity|].
  split; [vm_compute; discriminate|]. vm_compute. reflexivity.
Qed.
Print Assumptions metropolis_refuted.
