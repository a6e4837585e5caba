(** * Property theorems C19-C21, C23: schedule parameters and the initial
      schedule *)

From Coq Require Import String List ZArith Bool Arith Relations Permutation Sorted Reals Lia.
From Coq Require Import Relation_Operators Transitive_Closure.
From Flocq Require Import Core BinarySingleNaN.
From Verif Require Import Base F32 ProjectModel ScheduleModel ScheduleSpec
  ScheduleProofs NormaliseProofs.
Import ListNotations.

(** ** A concrete project

    Two agents, one in group 0 and one universal; three tasks: task 2
    needs group 0, task 0 depends on tasks 1 and 2, task 1 on task 2. *)
Definition ex_perf : performance := {| perf_min := f_of_Z 1; perf_max := f_of_Z 2 |}.

Definition ex_project : project := {|
  pr_groups := ["A"]%string;
  pr_agents :=
    [{| ag_id := 0; ag_name := "Bob"; ag_groups := [0]; ag_perf := ex_perf |};
     {| ag_id := 1; ag_name := "Jack"; ag_groups := []; ag_perf := ex_perf |}];
  pr_tasks :=
    [{| tk_name := "x"; tk_id := ""; tk_groups := []; tk_agent := None;
        tk_deps := [1; 2]; tk_min := 3600; tk_max := 7200 |};
     {| tk_name := "y"; tk_id := ""; tk_groups := []; tk_agent := Some 1;
        tk_deps := [2]; tk_min := 60; tk_max := 60 |};
     {| tk_name := "z"; tk_id := ""; tk_groups := [0]; tk_agent := None;
        tk_deps := []; tk_min := 1; tk_max := 2 |}] |}.

(** The sets stored in a project are sorted (they are [flat_set]s). *)
Definition sorted_sets (pr : project) : Prop :=
  (forall a, In a (pr_agents pr) -> index_set (ag_groups a)) /\
  (forall t, In t (pr_tasks pr) -> index_set (tk_groups t) /\ index_set (tk_deps t)).

Example ex_sorted_sets : sorted_sets ex_project.
Proof.
  unfold sorted_sets, index_set. split.
  - intros a [<-|[<-|[]]]; cbn; repeat constructor.
  - intros t [<-|[<-|[<-|[]]]]; cbn; split; repeat constructor.
Qed.

Definition ex_params : params :=
  result_or {| sp_perf := []; sp_dur := []; sp_agents := []; sp_deps := [];
         sp_mult := f_zero |} (to_schedule_params ex_project).

Example ex_params_ok : to_schedule_params ex_project = Ok ex_params.
Proof. apply result_or_ok. vm_compute. reflexivity. Qed.

(** C19: the table of available agents has one row per task; the row lists
    exactly the indices of the agents that may do the task, in increasing
    order. *)
Theorem available_agents_exact : forall pr p,
  sorted_sets pr -> to_schedule_params pr = Ok p ->
  length (sp_agents p) = length (pr_tasks pr) /\
  forall i t, nth_error (pr_tasks pr) i = Some t ->
  exists r, nth_error (sp_agents p) i = Some r /\ StronglySorted lt r /\
    forall k, In k r <->
      exists a, nth_error (pr_agents pr) k = Some a /\ may_work_impl a t.
Proof.
  intros pr p [SA ST] H. destruct (available_exact pr p H) as [L E].
  split; [exact L|]. intros i t Hi. destruct (E i t Hi) as (r & Er & Sr & Hr).
  exists r. split; [exact Er|]. split; [exact Sr|]. intro k. rewrite Hr.
  split; intros (a & Ea & Ha); exists a; (split; [exact Ea|]);
    apply (can_work_on_spec a t); try exact Ha;
    solve [apply SA; eapply nth_error_In; exact Ea
          |apply ST; eapply nth_error_In; exact Hi].
Qed.
Print Assumptions available_agents_exact.

Example ex_available : sp_agents ex_params = [[1]; [1]; [0; 1]].
Proof. vm_compute. reflexivity. Qed.

(** C20: the dependency table has one row per task, holding exactly the
    task's dependencies in strictly increasing order. *)
Theorem dependencies_exact : forall pr p,
  sorted_sets pr -> to_schedule_params pr = Ok p ->
  length (sp_deps p) = length (pr_tasks pr) /\
  forall i t, nth_error (pr_tasks pr) i = Some t ->
  exists r, nth_error (sp_deps p) i = Some r /\ StronglySorted lt r /\
    forall d, In d r <-> In d (tk_deps t).
Proof.
  intros pr p [_ ST] H. rewrite (deps_exact pr p H), map_length.
  split; [reflexivity|]. intros i t Hi. exists (tk_deps t).
  rewrite nth_error_map, Hi. split; [reflexivity|]. split; [|tauto].
  apply ST. eapply nth_error_In. exact Hi.
Qed.
Print Assumptions dependencies_exact.

(** C21: normalised durations times the multiplier give back the average
    durations up to two roundings; they are finite and positive, and they
    sum to the number of agents up to one rounding per task and three
    more.  (2^31 agents is the limit of the C++ type; 2^20 tasks is far
    above the 127 a project can have.) *)
Theorem normalised_durations : forall l m,
  l <> [] -> (0 < m)%nat -> sane_durations l ->
  (Z.of_nat (List.length l) <= 2 ^ 20)%Z -> (Z.of_nat m <= 2 ^ 31)%Z ->
  exists norm mult,
    task_duration l m = Ok (norm, mult) /\
    (is_finite mult = true /\ 0 < B2R mult)%R /\
    Forall (fun d : f32 => is_finite d = true /\ 0 < B2R d)%R norm /\
    Forall2 (fun (d : f32) t => near 2 (B2R d * B2R mult) (IZR (mean t))) norm l /\
    near (List.length l + 3) (rsum (map B2R norm)) (INR m).
Proof. exact normalise_spec. Qed.
Print Assumptions normalised_durations.

Example ex_sane : sane_durations (pr_tasks ex_project).
Proof. intros t [<-|[<-|[<-|[]]]]; cbn; lia. Qed.

(** C68: the performance used for scheduling lies between the agent's
    minimum and maximum. *)
Theorem average_performance_between : forall q,
  f_lt f_zero (perf_min q) = true -> f_le (perf_min q) (perf_max q) = true ->
  (B2R (perf_max q) < bpow radix2 127)%R -> is_finite (perf_max q) = true ->
  exists a, perf_average q = Ok a /\ is_finite a = true /\
    (B2R (perf_min q) <= B2R a <= B2R (perf_max q))%R.
Proof. exact perf_average_spec. Qed.
Print Assumptions average_performance_between.

Example ex_perf_ok :
  f_lt f_zero (perf_min ex_perf) = true /\ f_le (perf_min ex_perf) (perf_max ex_perf) = true /\
  is_finite (perf_max ex_perf) = true /\
  B2SF (result_or f_zero (perf_average ex_perf)) = B2SF (f_div (f_of_Z 3) (f_of_Z 2)).
Proof. vm_compute. auto. Qed.

(** Beyond half of the float range the average overflows to infinity. *)
Theorem average_performance_refuted : exists q,
  f_lt f_zero (perf_min q) = true /\ f_le (perf_min q) (perf_max q) = true /\
  is_finite (perf_max q) = true /\
  exists a, perf_average q = Ok a /\ is_finite a = false.
Proof.
  exists {| perf_min := f_of_Z (2 ^ 127); perf_max := f_of_Z (2 ^ 127) |}.
  split; [|split; [|split]].
  - vm_compute. reflexivity.
  - vm_compute. reflexivity.
  - vm_compute. reflexivity.
  - eexists. split.
    + apply (result_or_ok _ f_zero). vm_compute. reflexivity.
    + vm_compute. reflexivity.
Qed.
Print Assumptions average_performance_refuted.

(** C23: for every scheduling problem the initial schedule is produced
    (the recursion terminates and no contract is violated) and is valid. *)
Theorem initial_schedule_valid : forall p, problem p ->
  exists s, initial_schedule p = Ok s /\ valid_schedule p s.
Proof. exact initial_ok. Qed.
Print Assumptions initial_schedule_valid.

Lemma ex_depends : forall t d, depends ex_params t d ->
  (t = 0 /\ d = 1) \/ (t = 0 /\ d = 2) \/ (t = 1 /\ d = 2).
Proof.
  intros t d (r & E & H).
  assert (Ed : sp_deps ex_params = [[1; 2]; [2]; []]) by (vm_compute; reflexivity).
  rewrite Ed in E. destruct t as [|[|[|t]]]; cbn in E.
  - injection E as <-. cbn in H. intuition auto.
  - injection E as <-. cbn in H. intuition auto.
  - injection E as <-. destruct H.
  - destruct t; discriminate.
Qed.

Lemma increasing_acyclic : forall R : nat -> nat -> Prop,
  (forall t d, R t d -> t < d) -> acyclic R.
Proof.
  intros R H t C.
  assert (L : forall a b, clos_trans nat R a b -> a < b).
  { induction 1; [apply H; assumption|lia]. }
  specialize (L t t C). lia.
Qed.

Example ex_problem : problem ex_params.
Proof.
  assert (Ea : sp_agents ex_params = [[1]; [1]; [0; 1]]) by (vm_compute; reflexivity).
  assert (Ed : sp_deps ex_params = [[1; 2]; [2]; []]) by (vm_compute; reflexivity).
  assert (Et : task_count ex_params = 3) by (vm_compute; reflexivity).
  assert (Ep : List.length (sp_perf ex_params) = 2) by (vm_compute; reflexivity).
  constructor.
  - rewrite Et. lia.
  - rewrite Et, Ea. reflexivity.
  - rewrite Et, Ed. reflexivity.
  - rewrite Et. intros t d H. apply ex_depends in H. lia.
  - rewrite Ed. repeat constructor.
  - rewrite Et. intros t H. unfold allowed. rewrite Ea.
    destruct t as [|[|[|t]]]; [exists 1, [1]|exists 1, [1]|exists 0, [0; 1]|lia];
      cbn; auto.
  - rewrite Ep. intros t a (r & E & H). rewrite Ea in E.
    destruct t as [|[|[|t]]]; cbn in E; [| | |destruct t; discriminate];
      injection E as <-; cbn in H; lia.
  - apply increasing_acyclic. intros t d H. apply ex_depends in H. lia.
Qed.

Example ex_initial : initial_schedule ex_params = Ok [Item 2 0; Item 1 1; Item 0 1].
Proof. vm_compute. reflexivity. Qed.
