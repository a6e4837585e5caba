(** * Property theorems C90 and C91: the file is a plan *)

From Coq Require Import String List ZArith Bool Arith Lia Permutation Sorted Reals Lra.
From Flocq Require Import Core BinarySingleNaN.
From Verif Require Import Base F32 F32Facts F32Signed ProjectModel ScheduleModel ScheduleSpec ScheduleProofs TimelineSpec
  SimulationSpec JsonSpec JsonProps StunModel StunProofs StunProps OptimizerModel OptimizerProps PredictModel PredictProps BindingProofs
  CliModel CliProps ResultProps YamlModel DocumentSpec LoadSpec LoadModel LoadFacts LoadProps LoadTotalProps PlanSpec PlanProofs.
From Verif Require Import JsonModel.
Import ListNotations.
Local Open Scope nat_scope.

(** ** C90 *)

(** C90, full statement: a task that depends on another one, or follows it
    on the same agent, starts in the file when the other one is over.
    False, see [json_no_overlap_refuted]; proved for tasks that start
    within the first [2 ^ 24] seconds, and later tasks start at least not
    before the others start. *)
Theorem json_no_overlap_partial : forall pr p s ms j,
  to_schedule_params pr = Ok p -> problem p -> positive_bounds pr -> moderate_performance pr ->
  valid_schedule p s -> schedule_json pr s ms = Ok j ->
  forall k n x y i o, k < n ->
  nth_error s k = Some y -> nth_error s n = Some x -> nth_error (jr_tasks j) k = Some o -> nth_error (jr_tasks j) n = Some i ->
  depends p (it_task x) (it_task y) \/ it_agent y = it_agent x ->
  (ji_start o <= ji_start i)%Z /\ (ji_start i < 2 ^ 24 -> ji_start o + ji_duration o <= ji_start i)%Z.
Proof. intros pr p s ms j HE HP PB MP V E k n x y i o. exact (json_over pr p s ms j HE HP PB MP V E k n x y i o). Qed.
Print Assumptions json_no_overlap_partial.

(** ** Success of the worker *)

Lemma map_outcome_in : forall A B (f : A -> outcome B) l r, map_outcome f l = Ok r -> forall a, In a l -> exists b, f a = Ok b.
Proof.
  intros A B f. induction l as [|x l IH]; intros r H a I; [destruct I|]. cbn [map_outcome] in H.
  apply bind_ok in H. destruct H as (b & Hb & H). apply bind_ok in H. destruct H as (bs & Hbs & _).
  destruct I as [<-|I]; [eauto|]. exact (IH _ Hbs a I).
Qed.

(** The parameters are computed only for positive bounds. *)
Lemma params_positive : forall pr p, to_schedule_params pr = Ok p ->
  (forall t, In t (pr_tasks pr) -> (tk_max t <= 2 ^ 63)%Z) -> positive_bounds pr.
Proof.
  intros pr p H MX. destruct (params_Ok pr p H) as (_ & _ & TD & AP & _). split.
  - unfold agent_performance in AP. destruct (expects _) as [[]| |]; cbn [bind] in AP; try discriminate AP.
    apply Forall_forall. intros a I. destruct (map_outcome_in _ _ _ _ _ AP a I) as (q & Q). unfold perf_average in Q.
    destruct (f_lt f_zero (perf_min (ag_perf a))); [|discriminate Q]. destruct (f_le _ _); [auto|discriminate Q].
  - unfold task_duration in TD. destruct (expects _) as [[]| |]; cbn [bind] in TD; try discriminate TD.
    destruct (expects _) as [[]| |]; cbn [bind] in TD; try discriminate TD. apply bind_ok in TD. destruct TD as (avgs & AV & _).
    intros t I. destruct (map_outcome_in _ _ _ _ _ AV t I) as (q & Q). unfold duration_average in Q.
    destruct (Z.ltb_spec 0 (tk_min t)); [|discriminate Q]. destruct (Z.leb_spec (tk_min t) (tk_max t)); [|discriminate Q].
    specialize (MX t I). lia.
Qed.

Section Documents.
  Context (as_float : string -> option f32) (d : yaml) (p : project) (ags : list (yaml * yaml)) (es : list (yaml * list nat)).
  Context (NUM : forall s x, as_float s = Some x -> is_finite x = true /\ (B2R x < bpow radix2 127)%R).
  Context (H : load as_float d = Loads p) (A : document_agents d ags) (T : document_tasks d es).
  Context (MX : forall t, In t (pr_tasks p) -> (tk_max t <= 2 ^ 63)%Z).

  Lemma loaded_moderate : moderate_performance p.
  Proof.
    facts H ags' es' F. apply Forall_forall. intros a I. apply In_nth_error in I. destruct I as (k & N).
    destruct (agent_entry _ _ _ _ _ F k a N) as (e & _ & M).
    destruct (am_perf _ _ _ _ _ M) as [(s & x & _ & X & _ & ->)|[(r & lo & hi & x & z & _ & _ & _ & _ & Z & _ & ->)|(_ & _ & ->)]].
    - exact (NUM _ _ X).
    - exact (NUM _ _ Z).
    - assert (B1 : B2R f_one = bpow radix2 0) by (unfold f_one; rewrite (proj2 (of_Z_exact 1 ltac:(lia))); reflexivity).
      split; [reflexivity|]. rewrite B1. apply bpow_lt. lia.
  Qed.

  (** If an optimization succeeds, the parameters are a problem. *)
  Lemma loaded_problem : forall ps, to_schedule_params p = Ok ps -> (forall i, i < task_count ps -> exists a, allowed ps i a) ->
    problem ps.
  Proof.
    intros ps HE AB. pose proof (params_positive p ps HE MX) as (_ & SD).
    destruct (loaded_predictable_partial as_float d p) as (_ & _ & _ & _ & ps' & HE' & _ & _ & PB).
    - intros s x X. destruct (NUM s x X) as [F _]. destruct x; try discriminate F; reflexivity.
    - exact H.
    - intros t I. specialize (SD t I). lia.
    - rewrite HE in HE'. injection HE' as <-. apply PB. intros t I. apply In_nth_error in I. destruct I as (i & N).
      destruct (proj2 (available_exact p ps HE) i t N) as (r & R & _ & C).
      assert (L : i < task_count ps).
      { destruct (params_Ok p ps HE) as (_ & _ & TD & _). unfold task_duration in TD.
        destruct (expects _) as [[]| |]; cbn [bind] in TD; try discriminate TD.
        destruct (expects _) as [[]| |]; cbn [bind] in TD; try discriminate TD. apply bind_ok in TD. destruct TD as (avgs & AV & TD).
        injection TD as TD _. unfold task_count. rewrite <- TD, !map_length.
        assert (LA : length avgs = length (pr_tasks p)).
        { clear - AV. revert avgs AV. induction (pr_tasks p) as [|x l IH]; intros avgs AV; cbn [map_outcome] in AV.
          - injection AV as <-. reflexivity.
          - apply bind_ok in AV. destruct AV as (b & _ & AV). apply bind_ok in AV. destruct AV as (bs & B & AV).
            injection AV as <-. cbn. rewrite (IH _ B). reflexivity. }
        rewrite LA. apply nth_error_Some. congruence. }
      destruct (AB i L) as (a & r' & R' & I). rewrite R in R'. injection R' as <-. apply C in I.
      destruct I as (ag & NA & CW). exists ag. split; [exact (nth_error_In _ _ NA)|exact CW].
  Qed.

  Lemma small : (Z.of_nat (length (pr_tasks p)) <= 2 ^ 20)%Z /\ (Z.of_nat (length (pr_agents p)) <= 2 ^ 31)%Z.
  Proof. destruct (loaded_sizes _ _ _ H) as (? & ? & _). lia. Qed.

  Lemma plan_of_result : forall ps s ms j, to_schedule_params p = Ok ps -> problem ps -> valid_schedule ps s ->
    schedule_json p s ms = Ok j -> exists at_, plan as_float ags es (jr_tasks j) at_.
  Proof.
    intros ps s ms j HE HP V E. pose proof H as H0. facts H0 ags' es' F.
    pose proof (document_agents_fun _ _ _ (fa_shape _ _ _ _ _ F) A (fa_ags _ _ _ _ _ F)) as <-.
    pose proof (document_tasks_fun _ _ _ (fa_shape _ _ _ _ _ F) T (fa_es _ _ _ _ _ F)) as <-.
    exact (loaded_plan _ _ _ _ _ F H ps s ms j HE HP (params_positive p ps HE MX) loaded_moderate V E).
  Qed.

  Lemma optimized_first : forall A (w : work A) B (f : A -> work B) b, snd (andthen w f) = Ok b ->
    exists a, snd w = Ok a /\ snd (f a) = Ok b.
  Proof.
    intros X w B f b E. unfold andthen in E. destruct (snd w) as [a| |]; try discriminate E. exists a. split; [reflexivity|].
    destruct (f a). exact E.
  Qed.

  Lemma schedule_plan : forall fuel o op threads ks r t, snd (schedule fuel o p op threads ks) = Ok r ->
    schedule_json p (os_schedule r) (os_makespan r) = Ok t -> exists at_, plan as_float ags es (jr_tasks t) at_.
  Proof.
    intros fuel o op threads ks r t R J. pose proof R as R0. unfold schedule in R0.
    apply optimized_first in R0. destruct R0 as ([] & _ & R0). apply optimized_first in R0. destruct R0 as (ps & HE & R0).
    cbn [quietly snd] in HE. apply optimized_first in R0. destruct R0 as (q & Q & _).
    pose proof (loaded_problem ps HE (optimize_served ps _ _ _ _ _ _ Q)) as HP. destruct small as [S1 S2].
    destruct (schedule_makespan fuel o p op threads ks ps HE HP (params_positive p ps HE MX) loaded_moderate S1 S2) as (_ & V).
    exact (plan_of_result ps _ _ _ HE HP (proj1 (V r R)) J).
  Qed.

  Lemma predict_plan : forall fuel o ac bs op threads ks draws r t, snd (predict fuel o ac p bs op threads ks draws) = Ok r ->
    schedule_json p (pd_schedule r) (pd_makespan r) = Ok t -> exists at_, plan as_float ags es (jr_tasks t) at_.
  Proof.
    intros fuel o ac bs op threads ks draws r t R J. pose proof R as R0. unfold predict in R0.
    apply optimized_first in R0. destruct R0 as ([] & _ & R0). apply optimized_first in R0. destruct R0 as (ps & HE & R0).
    cbn [quietly snd] in HE. apply optimized_first in R0. destruct R0 as (q & Q & _).
    pose proof (loaded_problem ps HE (optimize_served ps _ _ _ _ _ _ Q)) as HP. destruct small as [S1 S2].
    destruct (predicted_makespan fuel o ac p bs op threads ks draws ps HE HP (params_positive p ps HE MX) loaded_moderate S1 S2) as (_ & V).
    exact (plan_of_result ps _ _ _ HE HP (proj1 (V r R)) J).
  Qed.
End Documents.

(** ** C91 *)

(** The schedule in a written tree. *)
Definition written_tasks (j : json) : list json_item :=
  match j with ScheduleJson r => jr_tasks r | PredictionJson r _ _ => jr_tasks r end.

(** C91: from the document to the file.  Whenever the program writes a
    file, for a document whose numbers are finite and below [2 ^ 127] and
    whose durations fit 64 bits, the file holds a plan for the tasks of the
    document, whatever the options, the random numbers, the number of
    threads and the functions of the mathematical library. *)
Theorem file_is_plan : forall as_float d ags es p w o is_schedule f fuel orac ac threads ks draws,
  document_agents d ags -> document_tasks d es ->
  (forall s x, as_float s = Some x -> is_finite x = true /\ (B2R x < bpow radix2 127)%R) ->
  load as_float d = Loads p -> (forall t, In t (pr_tasks p) -> (tk_max t <= 2 ^ 63)%Z) ->
  wd_arguments w = Run o is_schedule ->
  (forall l, wd_load w (co_filename o) = Loaded l -> cf_project l = p) ->
  (forall c, wd_schedule w c = schedule fuel orac (cf_project c) (cf_opt c) threads ks) ->
  (forall c, wd_predict w c = predict fuel orac ac (cf_project c) (cf_bin_size c) (cf_opt c) threads ks draws) ->
  In f (files (fst (main w))) ->
  exists j at_, f = (co_output o, wd_dump w j) /\ plan as_float ags es (written_tasks j) at_.
Proof.
  intros as_float d ags es p w o s f fuel orac ac threads ks draws A T NUM H MX WA WL WS WP I.
  destruct (file_holds_result w o s f WA I) as (l & c & j & FS & L & G & R).
  rewrite FS in I. destruct I as [<-|[]]. destruct G as (GP & _). rewrite (WL l L) in GP, R. exists j. destruct s.
  - destruct R as (r & R & t & J & ->). rewrite WS, GP in R.
    destruct (schedule_plan as_float d p ags es NUM H A T MX _ _ _ _ _ _ _ R J) as (at_ & P). exists at_. split; [reflexivity|exact P].
  - destruct R as (r & R & t & h & J & _ & ->). rewrite WP, GP in R.
    destruct (predict_plan as_float d p ags es NUM H A T MX _ _ _ _ _ _ _ _ _ _ R J) as (at_ & P). exists at_. split; [reflexivity|exact P].
Qed.
Print Assumptions file_is_plan.

(** For instance a document with two agents and two tasks, the second one
    for a group and depending on the first one. *)
Definition plan_doc : yaml :=
  Map [(Scalar "agents", Map [(Scalar "Bob", Map [(Scalar "groups", Seq [Scalar "A"])]); (Scalar "Jack", Null)]);
       (Scalar "tasks", Seq [Map [(Scalar "name", Scalar "x"); (Scalar "duration", Scalar "1h"); (Scalar "id", Scalar "x")];
         Map [(Scalar "name", Scalar "y"); (Scalar "duration", Scalar "2h"); (Scalar "depends_on", Scalar "x");
              (Scalar "group", Scalar "A")]])]%string.

Definition plan_project : project := loaded (load (fun _ => None) plan_doc).

Definition plan_world : world :=
  {| wd_arguments := Run (ex_cli true) true;
     wd_load := fun _ => Loaded {| cf_project := plan_project; cf_bin_size := None; cf_opt := ex_options |};
     wd_predict := fun c => predict 20 step_exp ex_accumulators (cf_project c) (cf_bin_size c) (cf_opt c) 2 (fun _ _ _ => ex_stuck) [];
     wd_schedule := fun c => schedule 20 step_exp (cf_project c) (cf_opt c) 2 (fun _ _ _ => ex_stuck);
     wd_display := {| ds_start := []; ds_update := fun _ => []; ds_stop := []; ds_number := fun _ => ""%string |};
     wd_log_ok := true;
     wd_dump := fun j => String.concat ";" (map (fun x => (ji_task x ++ " by " ++ ji_agent x ++ " at " ++ text_of (ji_start x) ++
       " for " ++ text_of (ji_duration x))%string) (written_tasks j));
     wd_disk := fun _ => DiskOk;
     wd_terminate := "terminate called"%string |}.

Example ex_plan :
  files (fst (main plan_world)) = [("out.json", "x by Jack at 0 for 3600;y by Bob at 3600 for 7200")]%string /\
  exists ags es j at_, document_agents plan_doc ags /\ document_tasks plan_doc es /\
    length es = 2 /\ document_depends es 1 0 /\ plan (fun _ => None) ags es (written_tasks j) at_.
Proof.
  assert (FS : files (fst (main plan_world)) = [("out.json", "x by Jack at 0 for 3600;y by Bob at 3600 for 7200")]%string)
    by (vm_compute; reflexivity).
  split; [exact FS|].
  assert (L : load (fun _ => None) plan_doc = Loads plan_project) by (apply loads_loaded; vm_compute; reflexivity).
  pose (tx := Map [(Scalar "name", Scalar "x"); (Scalar "duration", Scalar "1h"); (Scalar "id", Scalar "x")]%string).
  pose (ty := Map [(Scalar "name", Scalar "y"); (Scalar "duration", Scalar "2h"); (Scalar "depends_on", Scalar "x");
              (Scalar "group", Scalar "A")]%string).
  assert (A : document_agents plan_doc [(Scalar "Bob", Map [(Scalar "groups", Seq [Scalar "A"])]); (Scalar "Jack", Null)]%string).
  { eexists. split; [reflexivity|]. left. reflexivity. }
  assert (NS : forall t, t = tx \/ t = ty -> absent t "subtasks").
  { intros t [->| ->] v (l & E & I); injection E as <-; cbn in I; repeat destruct I as [I|I]; try discriminate I; exact I. }
  assert (T : document_tasks plan_doc [(tx, []); (ty, [])]).
  { exists [tx; ty], [0; 1]. split; [eexists; split; [reflexivity|right; left; reflexivity]|].
    apply (lays_cons 0 tx [ty] [(tx, [])] [1] [(ty, [])]); [apply lay_leaf, NS; auto|].
    apply (lays_cons 1 ty [] [(ty, [])] [] []); [apply lay_leaf, NS; auto|constructor]. }
  destruct (file_is_plan (fun _ => None) plan_doc _ _ plan_project plan_world (ex_cli true) true
    ("out.json", "x by Jack at 0 for 3600;y by Bob at 3600 for 7200")%string 20 step_exp ex_accumulators 2 (fun _ _ _ => ex_stuck) [] A T)
    as (j & at_ & _ & P).
  - intros s x X. discriminate X.
  - exact L.
  - assert (X : forallb (fun t => (tk_max t <=? 2 ^ 63)%Z) (pr_tasks plan_project) = true) by (vm_compute; reflexivity).
    intros t I. rewrite forallb_forall in X. apply Z.leb_le. exact (X t I).
  - reflexivity.
  - intros l E. injection E as <-. reflexivity.
  - reflexivity.
  - reflexivity.
  - rewrite FS. left. reflexivity.
  - exists [(Scalar "Bob", Map [(Scalar "groups", Seq [Scalar "A"])]); (Scalar "Jack", Null)]%string, [(tx, []); (ty, [])], j, at_.
    split; [exact A|]. split; [exact T|]. split; [reflexivity|]. split; [|exact P].
    exists ty, []. split; [reflexivity|]. right. exists ["x"%string], "x"%string, tx, [].
    split; [left; exists "x"%string; split; [eexists; split; [reflexivity|cbn; auto]|reflexivity]|].
    split; [left; reflexivity|]. split; [discriminate|]. split; [reflexivity|]. eexists. split; [reflexivity|cbn; auto].
Qed.

(** For instance the schedule of this document: the second task starts
    after 3600 seconds, when the first one is over. *)
Definition plan_params : params :=
  result_or {| sp_agents := []; sp_deps := []; sp_dur := []; sp_perf := []; sp_mult := f_zero |} (to_schedule_params plan_project).

Example ex_no_overlap : exists p j i o,
  to_schedule_params plan_project = Ok p /\ problem p /\ positive_bounds plan_project /\ moderate_performance plan_project /\
  valid_schedule p [Item 0 1; Item 1 0] /\ schedule_json plan_project [Item 0 1; Item 1 0] 10800 = Ok j /\
  nth_error (jr_tasks j) 0 = Some o /\ nth_error (jr_tasks j) 1 = Some i /\ depends p 1 0 /\
  (ji_start o, ji_duration o, ji_start i) = (0, 3600, 3600)%Z.
Proof.
  assert (L : load (fun _ => None) plan_doc = Loads plan_project) by (apply loads_loaded; vm_compute; reflexivity).
  assert (E : to_schedule_params plan_project = Ok plan_params) by (apply result_or_ok; vm_compute; reflexivity).
  assert (NUM : forall s x, (fun _ : string => @None f32) s = Some x -> is_finite x = true /\ (B2R x < bpow radix2 127)%R)
    by (intros s x X; discriminate X).
  assert (MX : forall t, In t (pr_tasks plan_project) -> (tk_max t <= 2 ^ 63)%Z).
  { assert (X : forallb (fun t => (tk_max t <=? 2 ^ 63)%Z) (pr_tasks plan_project) = true) by (vm_compute; reflexivity).
    intros t I. rewrite forallb_forall in X. apply Z.leb_le. exact (X t I). }
  assert (Ea : sp_agents plan_params = [[1]; [0; 1]]) by (vm_compute; reflexivity).
  assert (Ed : sp_deps plan_params = [[]; [0]]) by (vm_compute; reflexivity).
  assert (Et : task_count plan_params = 2) by (vm_compute; reflexivity).
  exists plan_params.
  exists (result_or {| jr_makespan := 0; jr_tasks := [] |} (schedule_json plan_project [Item 0 1; Item 1 0] 10800)).
  eexists _, _. split; [exact E|]. split.
  { apply (loaded_problem _ _ _ NUM L MX _ E). intros i B. rewrite Et in B. exists 1. unfold allowed. rewrite Ea.
    destruct i as [|[|i]]; [eexists; split; [reflexivity|cbn; auto]..|lia]. }
  split; [exact (params_positive _ _ E MX)|]. split; [exact (loaded_moderate _ _ _ NUM L)|]. split.
  { constructor.
    - rewrite Et. apply Permutation_refl.
    - intros pre x post Q k (r & R & I). rewrite Ed in R.
      destruct pre as [|a [|b pre]]; cbn in Q.
      + injection Q as <- <-. injection R as <-. destruct I.
      + injection Q as <- <- <-. injection R as <-. destruct I as [<-|[]]. left. reflexivity.
      + injection Q as _ _ Q. destruct pre; discriminate Q.
    - intros x I. unfold allowed. rewrite Ea. cbn in I. destruct I as [<-|[<-|[]]].
      + exists [1]. split; [reflexivity|left; reflexivity].
      + exists [0; 1]. split; [reflexivity|left; reflexivity]. }
  split; [apply result_or_ok; vm_compute; reflexivity|]. split; [vm_compute; reflexivity|]. split; [vm_compute; reflexivity|].
  split; [|vm_compute; reflexivity]. unfold depends, depends_in. rewrite Ed. exists [0]. split; [reflexivity|left; reflexivity].
Qed.

(** ** C90, refuted *)

(** Three tasks in a row, the first one takes [2 ^ 24] seconds (194 days). *)
Definition long_doc : yaml :=
  Map [(Scalar "agents", Map [(Scalar "Bob", Null)]);
       (Scalar "tasks", Seq [
         Map [(Scalar "name", Scalar "x"); (Scalar "duration", Scalar "16777216s"); (Scalar "id", Scalar "x")];
         Map [(Scalar "name", Scalar "y"); (Scalar "duration", Scalar "1s"); (Scalar "id", Scalar "y"); (Scalar "depends_on", Scalar "x")];
         Map [(Scalar "name", Scalar "z"); (Scalar "duration", Scalar "1s"); (Scalar "depends_on", Scalar "y")]])]%string.

Definition long_project : project := loaded (load (fun _ => None) long_doc).
Definition long_params : params := result_or {| sp_agents := []; sp_deps := []; sp_dur := []; sp_perf := []; sp_mult := f_zero |} (to_schedule_params long_project).

(** The makespan does not change the tasks. *)
Lemma json_makespan : forall pr s m ms j, (0 < ms)%Z -> schedule_json pr s m = Ok j ->
  schedule_json pr s ms = Ok {| jr_makespan := ms; jr_tasks := jr_tasks j |}.
Proof.
  intros pr s m ms j P E. unfold schedule_json in *. destruct (json_start pr) as [st| |]; try discriminate E. cbn [bind] in *.
  destruct (json_loop pr st s) as [l| |]; try discriminate E. cbn [bind] in *.
  destruct (expects (negb (length l =? 0))) as [[]| |]; try discriminate E. cbn [bind] in *.
  destruct (expects (0 <? m)%Z) as [[]| |]; try discriminate E. cbn [bind] in *. injection E as <-.
  replace (0 <? ms)%Z with true by (symmetry; apply Z.ltb_lt; exact P). reflexivity.
Qed.

(** C90, refuted: the only valid schedule of this document does the three
    tasks in order; in the file the second task starts after 16777216
    seconds and takes one second, and the third task, which depends on it
    and is done by the same agent, starts after 16777216 seconds too. *)
Theorem json_no_overlap_refuted : exists as_float d pr p s,
  load as_float d = Loads pr /\ to_schedule_params pr = Ok p /\ problem p /\ positive_bounds pr /\ moderate_performance pr /\
  valid_schedule p s /\ (forall s', valid_schedule p s' -> s' = s) /\
  forall ms, (0 < ms)%Z -> exists j i o, schedule_json pr s ms = Ok j /\
    nth_error (jr_tasks j) 1 = Some o /\ nth_error (jr_tasks j) 2 = Some i /\
    depends p (it_task (nth 2 s (Item 0 0))) (it_task (nth 1 s (Item 0 0))) /\ ji_agent o = ji_agent i /\
    (ji_start i < ji_start o + ji_duration o)%Z.
Proof.
  exists (fun _ => None), long_doc, long_project, long_params, [Item 0 0; Item 1 0; Item 2 0].
  assert (L : load (fun _ => None) long_doc = Loads long_project) by (apply loads_loaded; vm_compute; reflexivity).
  assert (E : to_schedule_params long_project = Ok long_params) by (apply result_or_ok; vm_compute; reflexivity).
  assert (NUM : forall s x, (fun _ : string => @None f32) s = Some x -> is_finite x = true /\ (B2R x < bpow radix2 127)%R)
    by (intros s x X; discriminate X).
  assert (MX : forall t, In t (pr_tasks long_project) -> (tk_max t <= 2 ^ 63)%Z).
  { assert (X : forallb (fun t => (tk_max t <=? 2 ^ 63)%Z) (pr_tasks long_project) = true) by (vm_compute; reflexivity).
    intros t I. rewrite forallb_forall in X. apply Z.leb_le. exact (X t I). }
  assert (Ea : sp_agents long_params = [[0]; [0]; [0]]) by (vm_compute; reflexivity).
  assert (Ed : sp_deps long_params = [[]; [0]; [1]]) by (vm_compute; reflexivity).
  assert (Et : task_count long_params = 3) by (vm_compute; reflexivity).
  assert (AL : forall t a, allowed long_params t a <-> t < 3 /\ a = 0).
  { intros t a. unfold allowed. rewrite Ea. split.
    - intros (r & R & I). destruct t as [|[|[|t]]]; cbn in R; [injection R as <-; destruct I as [<-|[]]; lia..|].
      destruct t; discriminate R.
    - intros [B ->]. exists [0]. split; [|left; reflexivity]. destruct t as [|[|[|t]]]; [reflexivity..|lia]. }
  assert (DP : forall t k, depends long_params t k <-> (t = 1 /\ k = 0) \/ (t = 2 /\ k = 1)).
  { intros t k. unfold depends, depends_in. rewrite Ed. split.
    - intros (r & R & I). destruct t as [|[|[|t]]]; cbn in R; [injection R as <-..|destruct t; discriminate R].
      + destruct I.
      + destruct I as [<-|[]]. auto.
      + destruct I as [<-|[]]. auto.
    - intros [[-> ->]|[-> ->]]; eexists; (split; [reflexivity|left; reflexivity]). }
  assert (HP : problem long_params).
  { apply (loaded_problem _ _ _ NUM L MX _ E). intros i B. exists 0. apply AL. rewrite Et in B. auto. }
  assert (V : valid_schedule long_params [Item 0 0; Item 1 0; Item 2 0]).
  { constructor.
    - rewrite Et. apply Permutation_refl.
    - intros pre x post Q k D. apply DP in D.
      destruct pre as [|a [|b [|c pre]]]; cbn in Q.
      + injection Q as <- <-. cbn in D. lia.
      + injection Q as <- <- <-. cbn in D |- *. lia.
      + injection Q as <- <- <- <-. cbn in D |- *. lia.
      + injection Q as _ _ _ Q. destruct pre; discriminate Q.
    - intros x I. apply AL. cbn in I. destruct I as [<-|[<-|[<-|[]]]]; cbn; lia. }
  split; [exact L|]. split; [exact E|]. split; [exact HP|]. split; [exact (params_positive _ _ E MX)|].
  split; [exact (loaded_moderate _ _ _ NUM L)|]. split; [exact V|]. split.
  - intros s' V'. pose proof (vs_complete _ _ V') as PM. rewrite Et in PM. pose proof (Permutation_length PM) as LN.
    rewrite map_length, seq_length in LN. destruct s' as [|[t0 a0] [|[t1 a1] [|[t2 a2] [|]]]]; try discriminate LN.
    assert (B : forall x, In x [Item t0 a0; Item t1 a1; Item t2 a2] -> it_task x < 3 /\ it_agent x = 0)
      by (intros x I; apply AL; exact (vs_agents _ _ V' x I)).
    destruct (B (Item t0 a0)) as [B0 Z0]; [cbn; auto|]. destruct (B (Item t1 a1)) as [B1 Z1]; [cbn; auto|].
    destruct (B (Item t2 a2)) as [B2 Z2]; [cbn; auto|]. cbn in B0, Z0, B1, Z1, B2, Z2. subst a0 a1 a2.
    pose proof (vs_order _ _ V' [] _ _ eq_refl) as O0. pose proof (vs_order _ _ V' [Item t0 0] _ _ eq_refl) as O1. cbn in O0, O1.
    assert (ND : NoDup [t0; t1; t2]) by (apply (Permutation_NoDup (Permutation_sym PM)), seq_NoDup).
    assert (t0 = 0).
    { destruct t0 as [|[|t0]]; [reflexivity|destruct (O0 0); apply DP; auto|]. assert (t0 = 0) by lia. subst t0.
      destruct (O0 1). apply DP. auto. }
    subst t0. inversion ND as [|? ? N0 ND1]. inversion ND1 as [|? ? N1 _]. cbn in N0, N1. subst.
    assert (t1 = 1).
    { assert (T1 : t1 = 1 \/ t1 = 2) by lia. destruct T1 as [->| ->]; [reflexivity|].
      destruct (O1 1) as [X|[]]; [apply DP; auto|discriminate X]. }
    subst t1. assert (t2 = 2) by lia. subst t2. reflexivity.
  - intros ms P.
    assert (J : schedule_json long_project [Item 0 0; Item 1 0; Item 2 0] ms = Ok {| jr_makespan := ms;
      jr_tasks := jr_tasks (result_or {| jr_makespan := 0; jr_tasks := [] |} (schedule_json long_project [Item 0 0; Item 1 0; Item 2 0] 1)) |}).
    { apply (json_makespan _ _ 1 ms _ P). apply result_or_ok. vm_compute. reflexivity. }
    eexists _, _, _. split; [exact J|]. cbn [jr_tasks].
    split; [vm_compute; reflexivity|]. split; [vm_compute; reflexivity|]. split; [apply DP; cbn; auto|].
    split; [vm_compute; reflexivity|vm_compute; reflexivity].
Qed.

Print Assumptions json_no_overlap_refuted.
