(** * Property theorems C27-C29: the makespan *)

From Coq Require Import String List ZArith Bool Arith Permutation Lia.
From Flocq Require Import BinarySingleNaN.
From Verif Require Import Base F32 F32Facts ProjectModel ScheduleModel ScheduleSpec
  ScheduleProofs ScheduleProps MutatorProps MakespanModel TimelineSpec MakespanProofs.
Import ListNotations.

(** C27: after any history of evaluations an evaluator gives the same
    result as a new one. *)
Theorem makespan_history_independent : forall p l st0 st s,
  makespan_new p = Ok st0 -> makespan_history p st0 l = Ok st ->
  makespan_eval p st s = makespan_eval p st0 s.
Proof. exact history_independent. Qed.
Print Assumptions makespan_history_independent.

(** C27, second half: evaluations never fail on valid schedules, whatever
    was evaluated before. *)
Theorem makespan_history_total : forall p l,
  problem p -> sane_numbers p -> Forall (valid_schedule p) l ->
  exists st0 st, makespan_new p = Ok st0 /\ makespan_history p st0 l = Ok st.
Proof.
  intros p l HP HN HV.
  pose proof (perf_nonempty p HP) as A. pose proof (pb_tasks p HP) as B. unfold task_count in B.
  unfold makespan_new.
  destruct (Nat.eqb_spec (length (sp_perf p)) 0); [lia|].
  destruct (Nat.eqb_spec (length (sp_dur p)) 0); [lia|].
  cbn [negb expects bind]. eexists.
  match goal with |- exists st, Ok ?a = _ /\ _ => set (st0 := a) end.
  assert (L : length (mk_task st0) = length (sp_dur p) /\ length (mk_work st0) = length (sp_perf p))
    by (cbn; rewrite !repeat_length; auto).
  cut (exists st, makespan_history p st0 l = Ok st).
  { intros (st & E). exists st. split; [reflexivity|exact E]. }
  clearbody st0. revert st0 L. induction HV as [|s l V HV IH]; intros st0 L; cbn [makespan_history].
  - exists st0. reflexivity.
  - destruct (eval_ok p HP HN st0 s V (proj1 L) (proj2 L)) as (m & st' & tl & E & L1 & L2 & _).
    rewrite E. cbn [bind snd]. apply IH. auto.
Qed.
Print Assumptions makespan_history_total.

Example ex_numbers : sane_numbers ex_params.
Proof.
  assert (B : forallb (fun d : f32 => is_finite d && f_le f_zero d) (sp_dur ex_params) &&
              forallb (fun q : f32 => f_lt f_zero q) (sp_perf ex_params) = true)
    by (vm_compute; reflexivity).
  apply andb_true_iff in B. destruct B as [B1 B2]. rewrite forallb_forall in B1, B2.
  split; apply Forall_forall; intros x Hx.
  - specialize (B1 x Hx). apply andb_true_iff in B1. exact B1.
  - apply B2, Hx.
Qed.

Example ex_history : exists st0 st,
  makespan_new ex_params = Ok st0 /\
  makespan_history ex_params st0
    [[Item 2 1; Item 1 1; Item 0 1]; [Item 2 0; Item 1 1; Item 0 1]] = Ok st.
Proof.
  apply makespan_history_total; [exact ex_problem|exact ex_numbers|].
  constructor; [apply ex_valid; auto|]. constructor; [apply ex_valid; auto|constructor].
Qed.

(** C28: the makespan of a valid schedule is the time at which the last
    task of its greedy timeline finishes; the greedy timeline exists. *)
Theorem makespan_is_timeline_length : forall p s,
  problem p -> sane_numbers p -> valid_schedule p s ->
  exists m, makespan p s = Ok m /\ f_le f_zero m = true /\
    (exists tl, greedy_timeline p s tl) /\
    forall tl, greedy_timeline p s tl -> last_finish s tl m.
Proof. intros p s HP HN V. exact (makespan_spec p HP HN s V). Qed.
Print Assumptions makespan_is_timeline_length.

(** C28: in a greedy timeline no agent works on two tasks at once and no
    task starts before its dependencies are finished. *)
Theorem timeline_is_feasible : forall p s tl,
  greedy_timeline p s tl ->
  forall pre x mid y post, s = pre ++ x :: mid ++ y :: post ->
  it_agent x = it_agent y \/ depends p (it_task y) (it_task x) ->
  f_le (tl_finish tl (it_task x)) (tl_start tl (it_task y)) = true.
Proof.
  intros p s tl G pre x mid y post E H.
  destruct (G (pre ++ x :: mid) y post) as (_ & _ & P & _).
  - rewrite <- app_assoc. exact E.
  - apply P. split; [apply in_or_app; right; left; reflexivity|]. tauto.
Qed.
Print Assumptions timeline_is_feasible.

(** C29: bounds on the makespan: no less than any single task, any
    dependency chain and any agent's total work, no more than doing
    everything one after the other; never negative or NaN ([f_le] is false
    of NaN). *)
Theorem makespan_bounded : forall p s m,
  problem p -> sane_numbers p -> valid_schedule p s -> makespan p s = Ok m ->
  f_le f_zero m = true /\
  (forall x, In x s -> f_le (work_time p (it_task x) (it_agent x)) m = true) /\
  (forall l, incl l s -> chain p l -> f_le (total_time p l) m = true) /\
  (forall a, f_le (total_time p (filter (fun x => it_agent x =? a) s)) m = true) /\
  f_le m (total_time p s) = true.
Proof. intros p s m HP HN V E. exact (makespan_bounds p HP HN s m V E). Qed.
Print Assumptions makespan_bounded.

Example ex_makespan :
  f_lt f_one (result_or f_zero (makespan ex_params [Item 2 0; Item 1 1; Item 0 1])) = true /\
  is_ok (makespan ex_params [Item 2 0; Item 1 1; Item 0 1]) = true /\
  chain ex_params [Item 2 0; Item 1 1; Item 0 1].
Proof.
  split; [vm_compute; reflexivity|]. split; [vm_compute; reflexivity|].
  assert (Ed : sp_deps ex_params = [[1; 2]; [2]; []]) by (vm_compute; reflexivity).
  cbn [chain it_task it_agent]. unfold depends, depends_in. rewrite Ed. repeat split.
  - exists [2]. cbn. auto.
  - exists [1; 2]. cbn. auto.
Qed.
