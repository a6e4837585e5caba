(** * Property theorems C24-C26: mutation *)

From Coq Require Import String List ZArith Bool Arith Permutation Lia.
From Verif Require Import Base F32 ProjectModel ScheduleModel ScheduleSpec
  ScheduleProofs ScheduleProps MutatorModel MutatorProofs.
Import ListNotations.

(** Two valid schedules of the example problem of ScheduleProps.v (the
    order is forced, the agent of task 2 is free). *)
Lemma ex_valid : forall a, a = 0 \/ a = 1 ->
  valid_schedule ex_params [Item 2 a; Item 1 1; Item 0 1].
Proof.
  intros a Ha.
  assert (Ea : sp_agents ex_params = [[1]; [1]; [0; 1]]) by (vm_compute; reflexivity).
  assert (Et : task_count ex_params = 3) by (vm_compute; reflexivity).
  constructor.
  - rewrite Et. cbn. apply NoDup_Permutation.
    + repeat constructor; cbn; intuition lia.
    + repeat constructor; cbn; intuition lia.
    + intro x. cbn. intuition.
  - intros pre x post E d Hd. apply ex_depends in Hd.
    destruct pre as [|x0 [|x1 [|x2 pre]]]; cbn in E; injection E; intros; subst;
      cbn in *; try lia.
  - unfold allowed. rewrite Ea. intros x [<-|[<-|[<-|[]]]]; cbn.
    + exists [0; 1]. cbn. intuition.
    + exists [1]. cbn. auto.
    + exists [1]. cbn. auto.
Qed.

(** C24: any number of mutations with any random numbers succeeds and
    keeps the schedule valid. *)
Theorem mutation_keeps_validity : forall p s ds,
  problem p -> valid_schedule p s ->
  exists s', mutate_many p ds s = Ok s' /\ valid_schedule p s'.
Proof. intros p s ds HP V. exact (mutate_many_valid p HP ds s V). Qed.
Print Assumptions mutation_keeps_validity.

Example ex_mutation :
  problem ex_params /\ valid_schedule ex_params [Item 2 0; Item 1 1; Item 0 1] /\
  mutate_many ex_params [Draws 0 0 1] [Item 2 0; Item 1 1; Item 0 1]
    = Ok [Item 2 1; Item 1 1; Item 0 1].
Proof.
  split; [exact ex_problem|]. split; [apply ex_valid; auto|]. vm_compute. reflexivity.
Qed.

(** C25: one mutation exchanges at most one adjacent pair and changes at
    most one agent; a schedule with one task keeps its order. *)
Theorem mutation_is_local : forall p s d s',
  problem p -> valid_schedule p s -> mutate p d s = Ok s' ->
  neighbour s s' /\
  (length s = 1 -> map it_task s' = map it_task s).
Proof.
  intros p s d s' HP V E.
  destruct (mutate_split p HP d s V) as (s1 & s2 & _ & _ & W & _ & _ & R & E').
  rewrite E in E'. injection E' as <-. split; [exists s1; auto|].
  intro L. destruct W as [->|(l & a & b & r & -> & _)].
  - destruct R as (l & x & r & a & -> & ->). rewrite !map_app. reflexivity.
  - rewrite app_length in L. cbn in L. lia.
Qed.
Print Assumptions mutation_is_local.

(** C26: every valid schedule can be reached from every other by mutations
    with suitable random numbers. *)
Theorem mutation_reaches_all : forall p s s',
  problem p -> valid_schedule p s -> valid_schedule p s' ->
  exists ds, mutate_many p ds s = Ok s'.
Proof. intros p s s' HP V V'. exact (reach_all p HP s' [] s V V'). Qed.
Print Assumptions mutation_reaches_all.

Example ex_reach : exists ds,
  mutate_many ex_params ds [Item 2 0; Item 1 1; Item 0 1]
    = Ok [Item 2 1; Item 1 1; Item 0 1].
Proof.
  apply mutation_reaches_all; [exact ex_problem|apply ex_valid; auto|apply ex_valid; auto].
Qed.
