(** * Property theorems C54, C55, C67: the worker and its events *)

From Coq Require Import String List ZArith Bool Arith Sorted Relations Lia Reals Lra.
From Flocq Require Import Core BinarySingleNaN.
From Verif Require Import Base F32 F32Facts F32Signed NormaliseProofs ProjectModel ScheduleModel
  ScheduleSpec ScheduleProofs ScheduleProps MakespanModel TimelineSpec MakespanProofs TemperatureModel
  StunModel SearchSpec OptimizerModel OptimizerSpec StunProofs StunProps OptimizerProofs OptimizerProps
  HistogramModel SimulationModel SimulationSpec SimulationProofs SimulationProps JsonSpec JsonProps
  PredictModel PredictSpec.
Import ListNotations.

(** ** What the worker does *)

Lemma andthen_ok : forall A B (w : work A) (f : A -> work B) b,
  snd (andthen w f) = Ok b ->
  exists a, snd w = Ok a /\ snd (f a) = Ok b /\ fst (andthen w f) = fst w ++ fst (f a).
Proof.
  intros A B w f b H. unfold andthen in *. destruct (snd w) as [a| |]; try discriminate. exists a.
  destruct (f a). auto.
Qed.

Lemma andthen_quietly : forall A B (x : outcome A) (f : A -> work B),
  andthen (quietly x) f = match x with Ok a => f a | Broken => ([], Broken) | NoFuel => ([], NoFuel) end.
Proof. intros A B [a| |] f; cbn; try reflexivity. destruct (f a); reflexivity. Qed.

Lemma andthen_enqueue : forall B e (f : unit -> work B),
  andthen (enqueue e) f = (e :: fst (f tt), snd (f tt)).
Proof. intros B e f. unfold andthen. cbn. destruct (f tt). reflexivity. Qed.

Lemma andthen_pair : forall A B evs (res : outcome A) (f : A -> work B),
  andthen (evs, res) f = match res with
    | Ok a => (evs ++ fst (f a), snd (f a)) | Broken => (evs, Broken) | NoFuel => (evs, NoFuel) end.
Proof. intros A B evs [a| |] f; try reflexivity. unfold andthen. cbn. destruct (f a). reflexivity. Qed.

Section Loop.
  Variables (o : oracles) (p : params) (op : options) (threads : nat) (ks : nat -> nat -> nat -> luck).

  Lemma loop_events : forall fuel n z, Forall optimization (fst (optimize_loop fuel o p ks n z)).
  Proof.
    induction fuel as [|fuel IH]; intros n z; cbn [optimize_loop].
    - destruct (has_converged z); constructor.
    - destruct (has_converged z); [constructor|]. rewrite andthen_quietly.
      destruct (optimizer_update o z (ks n)) as [z'| |]; try constructor.
      rewrite andthen_quietly. destruct (makespan_seconds z' p) as [s| |]; try constructor.
      rewrite andthen_enqueue. constructor; [|apply IH]. eexists _, _, _. reflexivity.
  Qed.

  Lemma optimize_events : forall fuel, Forall optimization (fst (optimize fuel o p op threads ks)).
  Proof.
    intro fuel. unfold optimize. rewrite andthen_quietly. destruct (expects _); try constructor.
    rewrite andthen_quietly. destruct (expects _); try constructor.
    rewrite andthen_quietly. destruct (expects _); try constructor.
    rewrite andthen_quietly. destruct (expects _); try constructor.
    rewrite andthen_quietly. destruct (optimizer_new o p op threads) as [z| |]; try constructor.
    pose proof (loop_events fuel 0 z) as L. destruct (optimize_loop fuel o p ks 0 z) as [evs res].
    rewrite andthen_pair. destruct res as [z'| |]; cbn [fst] in *; try exact L.
    apply Forall_app. split; [exact L|]. rewrite andthen_quietly.
    destruct (optimizer_schedule z'); try constructor. rewrite andthen_quietly.
    destruct (makespan_seconds z' p); constructor.
  Qed.
End Loop.

Lemma optimization_not_finished : forall l, Forall optimization l -> ~ In Finished l.
Proof.
  intros l H I. rewrite Forall_forall in H. destruct (H _ I) as (q & m & k & E). discriminate E.
Qed.

(** What the workers enqueue. *)
Lemma schedule_events : forall fuel o pr op threads ks,
  let w := schedule fuel o pr op threads ks in
  (forall r, snd w = Ok r -> in_order [] (fst w) (os_makespan r)) /\
  ((forall r, snd w <> Ok r) -> ~ In Finished (fst w)).
Proof.
  intros fuel o pr op threads ks. cbv zeta. unfold schedule. rewrite andthen_enqueue. cbn [fst snd].
  rewrite andthen_quietly. destruct (to_schedule_params pr) as [p| |];
    try (split; [discriminate|]; intros _ [E|E]; [discriminate E|exact E]).
  pose proof (optimize_events o p op threads ks fuel) as L. 
  destruct (optimize fuel o p op threads ks) as [evs res]. rewrite andthen_pair. cbn [fst] in L.
  destruct res as [r| |]; cbn [fst snd].
  - rewrite andthen_enqueue. cbn [fst snd]. split.
    + intros r' E. cbn in E. injection E as <-.
      exists evs. split; [exact L|]. reflexivity.
    + intro H. exfalso. apply (H r). reflexivity.
  - split; [discriminate|]. intros _ [E|E]; [discriminate E|]. exact (optimization_not_finished _ L E).
  - split; [discriminate|]. intros _ [E|E]; [discriminate E|]. exact (optimization_not_finished _ L E).
Qed.

Lemma predict_events : forall fuel o ac pr bin_size op threads ks draws,
  let w := predict fuel o ac pr bin_size op threads ks draws in
  (forall r, snd w = Ok r -> in_order [SimulationStart] (fst w) (pd_makespan r)) /\
  ((forall r, snd w <> Ok r) -> ~ In Finished (fst w)).
Proof.
  intros fuel o ac pr bin_size op threads ks draws. cbv zeta. unfold predict. rewrite andthen_enqueue. cbn [fst snd].
  rewrite andthen_quietly. destruct (to_schedule_params pr) as [p| |];
    try (split; [discriminate|]; intros _ [E|E]; [discriminate E|exact E]).
  pose proof (optimize_events o p op threads ks fuel) as L. 
  destruct (optimize fuel o p op threads ks) as [evs res]. rewrite andthen_pair. cbn [fst] in L.
  destruct res as [r| |]; cbn [fst snd];
    [|split; [discriminate|]; intros _ [E|E]; [discriminate E|]; exact (optimization_not_finished _ L E)..].
  rewrite !andthen_enqueue, andthen_quietly. cbn [fst snd].
  assert (F : forall l, ~ In Finished evs -> ~ In Finished l ->
    ~ In Finished (ScheduleOptimizationStart :: evs ++
        ScheduleOptimizationComplete (os_makespan r) :: SimulationStart :: l)).
  { intros l A B [E|E]; [discriminate E|]. apply in_app_iff in E. destruct E as [E|[E|[E|E]]]; auto; discriminate E. }
  apply optimization_not_finished in L as L'.
  destruct (make_histogram _ _ _ _ _ _ _) as [h| |]; cbn [fst snd];
    [|split; [discriminate|]; intros _; apply F; [exact L'|intros []]..].
  rewrite andthen_quietly. destruct (stats h) as [st| |]; cbn [fst snd];
    [|split; [discriminate|]; intros _; apply F; [exact L'|intros []]..].
  rewrite andthen_enqueue. cbn [fst snd quietly]. split.
  - intros r' E. injection E as <-. exists evs. split; [exact L|]. reflexivity.
  - intro H. exfalso. eapply H. reflexivity.
Qed.

(** ** The two threads *)

Section Threads.
  Variables (events : list event) (sched : nat -> turn).
  Let at_ n := after sched (system_start events) n.

  Lemma nothing_lost : forall n, sy_handled (at_ n) ++ sy_queue (at_ n) ++ sy_todo (at_ n) = events.
  Proof.
    intro n. unfold at_. induction n as [|n IH]; cbn [after]; [reflexivity|].
    destruct (sched n); cbn [take_turn].
    - destruct (sy_todo _) eqn:E; [rewrite E; exact IH|]. cbn [sy_handled sy_queue sy_todo].
      rewrite <- app_assoc. exact IH.
    - destruct (is_final_event _); [exact IH|]. destruct (sy_queue _) eqn:E; [rewrite E; exact IH|].
      cbn [sy_handled sy_queue sy_todo]. rewrite <- app_assoc. exact IH.
  Qed.

  Lemma stopped_last : forall n,
    (stopped (at_ n) = true <-> In Finished (sy_handled (at_ n))) /\
    (stopped (at_ n) = true -> exists l, sy_handled (at_ n) = l ++ [Finished] /\ ~ In Finished l).
  Proof.
    intro n. unfold at_, stopped. induction n as [|n IH]; cbn [after].
    - cbn. split; [split; [discriminate|tauto]|discriminate].
    - destruct (sched n); cbn [take_turn].
      + destruct (sy_todo _); [exact IH|]. exact IH.
      + destruct (is_final_event (sy_last _)) eqn:F; [rewrite F; exact IH|].
        destruct (sy_queue _) as [|e q] eqn:E; [rewrite F; exact IH|]. cbn [sy_last sy_handled].
        assert (N : ~ In Finished (sy_handled (after sched (system_start events) n))).
        { intro I. apply IH in I. discriminate I. }
        split.
        * rewrite in_app_iff. cbn [In]. destruct e; cbn; split; intro H; try discriminate; auto;
            destruct H as [H|[H|[]]]; try tauto; discriminate H.
        * intro H. destruct e; try discriminate H. eauto.
  Qed.

  (** A handled final event ends the loop, so later events stay unhandled. *)
  Lemma stopped_is_prefix : forall n, stopped (at_ n) = true ->
    exists l rest, sy_handled (at_ n) = l ++ [Finished] /\ events = l ++ Finished :: rest /\ ~ In Finished l.
  Proof.
    intros n H. destruct (proj2 (stopped_last n) H) as (l & E & N). exists l.
    exists (sy_queue (at_ n) ++ sy_todo (at_ n)). split; [exact E|]. split; [|exact N].
    rewrite <- (nothing_lost n), E, <- app_assoc. reflexivity.
  Qed.

  Lemma stays : forall n k, stopped (at_ n) = true ->
    stopped (at_ (n + k)) = true /\ sy_handled (at_ (n + k)) = sy_handled (at_ n).
  Proof.
    intros n k H. unfold at_ in *. induction k as [|k [A B]].
    - rewrite Nat.add_0_r. auto.
    - rewrite Nat.add_succ_r. cbn [after]. unfold stopped in *. destruct (sched (n + k)); cbn [take_turn].
      + destruct (sy_todo _); auto.
      + rewrite A. auto.
  Qed.

  Hypothesis FAIR : fair sched.

  (** A measure of what is left to do. *)
  Let left s := 2 * length (sy_todo s) + length (sy_queue s).

  Lemma not_more : forall n k, left (at_ (n + k)) <= left (at_ n) /\
    (left (at_ (n + k)) = left (at_ n) -> sy_todo (at_ (n + k)) = sy_todo (at_ n) /\
       sy_queue (at_ (n + k)) = sy_queue (at_ n) /\ sy_last (at_ (n + k)) = sy_last (at_ n)).
  Proof.
    intros n k. unfold at_, left. induction k as [|k IH]; [rewrite Nat.add_0_r; auto|].
    rewrite Nat.add_succ_r. cbn [after]. set (s := after _ _ (n + k)) in *. clearbody s.
    set (s0 := after _ _ n) in *. clearbody s0. destruct IH as [L IH].
    destruct (sched (n + k)); cbn [take_turn].
    - destruct (sy_todo s) as [|e t] eqn:E; [rewrite E; auto|]. cbn [sy_todo sy_queue sy_last] in *.
      rewrite app_length. cbn [length] in *. split; [lia|]. intro H. exfalso. lia.
    - destruct (is_final_event (sy_last s)); [auto|]. destruct (sy_queue s) as [|e q] eqn:E; [rewrite E; auto|].
      cbn [sy_todo sy_queue sy_last length] in *. split; [lia|]. intro H. exfalso. lia.
  Qed.

  Lemma makes_progress : forall n, stopped (at_ n) = false -> 0 < left (at_ n) ->
    exists k, left (at_ (n + k)) < left (at_ n).
  Proof.
    intros n ST POS.
    assert (G : forall m, n <= m -> sched m = (if length (sy_todo (at_ n)) =? 0 then Consumer else Worker) ->
      left (at_ (S m)) < left (at_ n)).
    { intros m L E. destruct (not_more n (m - n)) as [A B]. replace (n + (m - n)) with m in * by lia.
      assert (X : left (at_ m) < left (at_ n) \/ left (at_ m) = left (at_ n)) by lia.
      destruct X as [X|X].
      - destruct (not_more m 1) as [Y _]. rewrite Nat.add_1_r in Y. lia.
      - destruct (B X) as (T & Q & LA). unfold left, at_ in *. cbn [after]. rewrite E. unfold stopped in ST.
        destruct (Nat.eqb_spec (length (sy_todo (after sched (system_start events) n))) 0) as [Z|Z]; cbn [take_turn].
        + rewrite LA, ST, Q. destruct (sy_queue (after sched (system_start events) n)) eqn:EQ;
            cbn [length] in *; [lia|]. cbn [sy_todo sy_queue length]. rewrite T, Z. cbn. lia.
        + rewrite T, Q. destruct (sy_todo (after sched (system_start events) n)) eqn:ET; cbn [length] in *; [lia|].
          cbn [sy_todo sy_queue]. rewrite app_length. cbn [length]. lia. }
    destruct FAIR as [FW FC].
    destruct (length (sy_todo (at_ n)) =? 0).
    - destruct (FC n) as (m & L & E). exists (S m - n). replace (n + (S m - n)) with (S m) by lia. apply G; auto.
    - destruct (FW n) as (m & L & E). exists (S m - n). replace (n + (S m - n)) with (S m) by lia. apply G; auto.
  Qed.

  Lemma everything_happens : exists n, stopped (at_ n) = true \/ left (at_ n) = 0.
  Proof.
    assert (G : forall c n, left (at_ n) <= c -> exists n, stopped (at_ n) = true \/ left (at_ n) = 0).
    { induction c as [|c IH]; intros n L.
      - exists n. right. lia.
      - destruct (stopped (at_ n)) eqn:ST; [eauto|].
        destruct (Nat.eq_dec (left (at_ n)) 0) as [E|E]; [eauto|].
        destruct (makes_progress n ST) as (k & K); [lia|]. apply (IH (n + k)). lia. }
    apply (G (left (at_ 0)) 0). lia.
  Qed.

  Lemma stops : In Finished events -> exists n, stopped (at_ n) = true.
  Proof.
    intro I. destruct everything_happens as (n & [S|E]); [eauto|]. exists n.
    pose proof (nothing_lost n) as N. unfold left in E.
    destruct (sy_todo (at_ n)); cbn [length] in E; [|lia]. destruct (sy_queue (at_ n)); cbn [length] in E; [|lia].
    rewrite !app_nil_r in N. apply (proj1 (stopped_last n)). rewrite N. exact I.
  Qed.
End Threads.

(** The consumer stops exactly when the final event is among those the
    worker enqueues. *)
Theorem stops_iff_finished : forall events sched, fair sched ->
  ((exists n, stopped (after sched (system_start events) n) = true) <-> In Finished events).
Proof.
  intros events sched F. split.
  - intros (n & S). destruct (stopped_is_prefix events sched n S) as (l & rest & _ & E & _). rewrite E.
    apply in_app_iff. right. left. reflexivity.
  - apply stops, F.
Qed.
Print Assumptions stops_iff_finished.

Definition alternating (n : nat) : turn := if Nat.even n then Worker else Consumer.

Example ex_alternating : fair alternating.
Proof.
  unfold alternating. split; intro n.
  - exists (2 * n). split; [lia|]. rewrite Nat.even_mul. reflexivity.
  - exists (S (2 * n)). split; [lia|]. rewrite Nat.even_succ, Nat.odd_mul. reflexivity.
Qed.

Example ex_stops :
  map (fun n => stopped (after alternating (system_start [ScheduleOptimizationStart; Finished]) n)) [2; 3; 4; 5]
  = [false; false; true; true].
Proof. reflexivity. Qed.

(** ** C54 *)

Lemma in_order_finished : forall final l m, in_order final l m -> ~ In Finished final ->
  forall a rest, l = a ++ Finished :: rest -> rest = [].
Proof.
  intros final l m (opts & O & ->) NF a rest E.
  assert (N : ~ In Finished (ScheduleOptimizationStart :: opts ++ ScheduleOptimizationComplete m :: final)).
  { intros [H|H]; [discriminate H|]. apply in_app_iff in H. destruct H as [H|[H|H]]; [|discriminate H|auto].
    exact (optimization_not_finished _ O H). }
  replace (ScheduleOptimizationStart :: opts ++ ScheduleOptimizationComplete m :: final ++ [Finished])
    with ((ScheduleOptimizationStart :: opts ++ ScheduleOptimizationComplete m :: final) ++ [Finished]) in E.
  2:{ cbn [app]. rewrite <- app_assoc. reflexivity. }
  destruct rest as [|e rest]; [reflexivity|]. exfalso.
  destruct (exists_last (l := e :: rest)) as (r' & x & Ex); [discriminate|]. rewrite Ex in E.
  change (a ++ Finished :: r' ++ [x]) with (a ++ (Finished :: r') ++ [x]) in E.
  rewrite app_assoc in E. apply app_inj_tail in E. destruct E as [E _]. apply N. rewrite E.
  apply in_app_iff. right. left. reflexivity.
Qed.

(** What is seen of a worker whose events are in order. *)
Definition seen_in_order (final events : list event) (m : Z) (sched : nat -> turn) : Prop :=
  let at_ := after sched (system_start events) in
  in_order final events m /\
  (forall n, prefix (sy_handled (at_ n)) events) /\
  (forall n, stopped (at_ n) = true <-> sy_handled (at_ n) = events) /\
  (forall n k, stopped (at_ n) = true -> sy_handled (at_ (n + k)) = events) /\
  (fair sched -> exists n, stopped (at_ n) = true).

Lemma seen : forall final events m sched, in_order final events m -> ~ In Finished final ->
  seen_in_order final events m sched.
Proof.
  intros final events m sched O NF.
  assert (FE : In Finished events).
  { destruct O as (opts & _ & ->). right. apply in_app_iff. right. right. apply in_app_iff. right. left. reflexivity. }
  assert (ALL : forall n, stopped (after sched (system_start events) n) = true ->
    sy_handled (after sched (system_start events) n) = events).
  { intros n S. destruct (stopped_is_prefix events sched n S) as (l & rest & E & E' & _).
    rewrite (in_order_finished final events m O NF l rest E') in E'. congruence. }
  split; [exact O|]. split; [|split; [|split]].
  - intro n. eexists. symmetry. apply nothing_lost.
  - intro n. split; [apply ALL|]. intro E. apply (proj1 (stopped_last events sched n)). rewrite E. exact FE.
  - intros n k S. destruct (stays events sched n k S) as [_ E]. rewrite E. apply ALL, S.
  - intro F. apply stops; assumption.
Qed.

(** C54 for the prediction.  For every interleaving of the two threads: the
    events come in the stated order, what is handled is always a prefix of
    what the worker enqueues, the loop is left exactly when all events,
    the last of which is [Finished], are handled, nothing is handled
    afterwards, and with a fair scheduler the loop is left. *)
Theorem prediction_events_in_order : forall fuel o ac pr bin_size op threads ks draws r sched,
  let w := predict fuel o ac pr bin_size op threads ks draws in
  snd w = Ok r -> seen_in_order [SimulationStart] (fst w) (pd_makespan r) sched.
Proof.
  intros. apply seen.
  - apply (predict_events fuel o ac pr bin_size op threads ks draws), H.
  - intros [E|[]]. discriminate E.
Qed.
Print Assumptions prediction_events_in_order.

(** C54 for the schedule subcommand. *)
Theorem schedule_events_in_order : forall fuel o pr op threads ks r sched,
  let w := schedule fuel o pr op threads ks in
  snd w = Ok r -> seen_in_order [] (fst w) (os_makespan r) sched.
Proof.
  intros. apply seen.
  - apply (schedule_events fuel o pr op threads ks), H.
  - intros [].
Qed.
Print Assumptions schedule_events_in_order.

(** A short search on two equal tasks: batches of 3 steps, 10 idle steps
    allowed. *)
Definition ex_short : project := {|
  pr_groups := [];
  pr_agents :=
    [{| ag_id := 0; ag_name := "Bob"; ag_groups := []; ag_perf := ex_perf |};
     {| ag_id := 1; ag_name := "Jack"; ag_groups := []; ag_perf := ex_perf |}];
  pr_tasks :=
    [{| tk_name := "x"; tk_id := ""; tk_groups := []; tk_agent := None;
        tk_deps := []; tk_min := 3600; tk_max := 3600 |};
     {| tk_name := "y"; tk_id := ""; tk_groups := []; tk_agent := None;
        tk_deps := []; tk_min := 3600; tk_max := 3600 |}] |}.

Definition ex_worker : work optimized := schedule 20 step_exp ex_short ex_options 2
  (fun n => if n =? 1 then ex_ks else fun _ _ => ex_stuck).

Definition kind (e : event) : nat :=
  match e with
  | ScheduleOptimizationStart => 0 | ScheduleOptimization _ _ _ => 1
  | ScheduleOptimizationComplete _ => 2 | SimulationStart => 3 | Finished => 4
  end.

Example ex_schedule_events : is_ok (snd ex_worker) = true /\
  map kind (fst ex_worker) = [0; 1; 1; 1; 1; 1; 1; 2; 4] /\
  map kind (sy_handled (after alternating (system_start (fst ex_worker)) 7)) = [0; 1; 1].
Proof. vm_compute. auto. Qed.

(** ** C55 *)

(** Whatever goes wrong in the worker, the consumer never stops. *)
Theorem failed_worker_never_stops : forall fuel o ac pr bin_size op threads ks draws sched n,
  let w := predict fuel o ac pr bin_size op threads ks draws in
  (forall r, snd w <> Ok r) ->
  stopped (after sched (system_start (fst w)) n) = false.
Proof.
  intros fuel o ac pr bin_size op threads ks draws sched n w H.
  destruct (stopped _) eqn:S; [|reflexivity]. exfalso.
  destruct (stopped_is_prefix _ _ _ S) as (l & rest & _ & E & _).
  apply (proj2 (predict_events fuel o ac pr bin_size op threads ks draws) H). fold w. rewrite E.
  apply in_app_iff. right. left. reflexivity.
Qed.
Print Assumptions failed_worker_never_stops.

(** Fails: a project that the loader accepts (an agent with performance
    1e-20 and a task of one hour) for which the worker throws; the
    command never ends, under every scheduler. *)
Definition ex_slow : project := {|
  pr_groups := [];
  pr_agents := [{| ag_id := 0; ag_name := "Bob"; ag_groups := [];
                   ag_perf := {| perf_min := f_div f_one (f_of_Z (10 ^ 20)); perf_max := f_div f_one (f_of_Z (10 ^ 20)) |} |}];
  pr_tasks := [{| tk_name := "x"; tk_id := ""; tk_groups := []; tk_agent := None;
                  tk_deps := []; tk_min := 3600; tk_max := 3600 |}] |}.

Definition ex_accumulators : accumulators :=
  {| ac_quantiles := fun _ => []; ac_rolling_mean := fun _ => f_zero |}.

Theorem worker_failure_refuted : exists o ac pr op threads ks draws,
  positive_bounds pr /\ moderate_performance pr /\ sane_options op /\
  (exists p, to_schedule_params pr = Ok p) /\
  snd (predict 20 o ac pr None op threads ks draws) = Broken /\
  forall sched n,
    stopped (after sched (system_start (fst (predict 20 o ac pr None op threads ks draws))) n) = false.
Proof.
  exists step_exp, ex_accumulators, ex_slow, ex_options, 2, (fun _ => ex_ks), [].
  assert (B : snd (predict 20 step_exp ex_accumulators ex_slow None ex_options 2 (fun _ => ex_ks) []) = Broken)
    by (vm_compute; reflexivity).
  split; [|split; [|split; [|split; [|split]]]].
  - split.
    + constructor; [|constructor]. cbn [ag_perf perf_min perf_max]. split; vm_compute; reflexivity.
    + intros t [<-|[]]. cbn [tk_min tk_max]. lia.
  - constructor; [|constructor]. cbn [ag_perf perf_max]. split; [vm_compute; reflexivity|].
    apply Rlt_trans with (B2R f_one); [|rewrite (proj2 one_fin); change 1%R with (bpow radix2 0); apply bpow_lt; lia].
    apply fin_lt; vm_compute; reflexivity.
  - exact ex_options_sane.
  - exists (result_or ex_params (to_schedule_params ex_slow)). apply result_or_ok. vm_compute. reflexivity.
  - exact B.
  - intros sched n. apply failed_worker_never_stops. intro r. rewrite B. discriminate.
Qed.
Print Assumptions worker_failure_refuted.

(** ** C67 *)

Lemma mul_value : forall x y : f32, nn x -> is_finite y = true -> (0 < B2R y)%R ->
  is_finite (f_mul x y) = true -> is_finite x = true /\ B2R (f_mul x y) = rnd (B2R x * B2R y).
Proof.
  intros x y Nx Fy Py F. destruct (num_cases x Nx) as [Fx|E].
  - split; [exact Fx|]. pose proof (Bmult_correct 24 128 _ _ mode_NE x y) as C.
    destruct (Rlt_bool (Rabs (rnd (B2R x * B2R y))) (bpow radix2 128)).
    + apply C.
    + exfalso. unfold f_mul in F. destruct (Bmult mode_NE x y); try discriminate F; discriminate C.
  - exfalso. subst x. destruct y; try discriminate Fy; discriminate F.
Qed.

Lemma mul_mono : forall x x' y z z' : f32, nn x -> nn x' -> f_le x' x = true ->
  is_finite y = true -> (0 < B2R y)%R -> z = f_mul x y -> z' = f_mul x' y ->
  is_finite z = true -> is_finite z' = true -> f_le z' z = true.
Proof.
  intros x x' y z z' N N' L Fy Py -> -> F F'.
  destruct (mul_value x y N Fy Py F) as [Fx V]. destruct (mul_value x' y N' Fy Py F') as [Fx' V'].
  apply fin_le; [exact F'|exact F|]. rewrite V, V'. apply rnd_le. apply fin_le in L; [|exact Fx'|exact Fx].
  apply Rmult_le_compat_r; lra.
Qed.

Section Makespan.
  Variables (o : oracles) (p : params) (op : options) (threads : nat) (ks : nat -> nat -> nat -> luck).
  Hypothesis HP : problem p.
  Hypothesis HN : sane_numbers p.
  Hypothesis MF : is_finite (sp_mult p) = true.
  Hypothesis MP : (0 < B2R (sp_mult p))%R.

  (** The makespan of a schedule in whole seconds. *)
  Definition seconds_of (s : list item) (z : Z) : Prop :=
    exists m, makespan p s = Ok m /\ project_length p s m /\ whole_seconds (f_mul m (sp_mult p)) z.

  Lemma best_nn : forall z m, optimizer_reached o p op threads z -> optimizer_best z = Ok m -> nn m.
  Proof.
    intros z m R B. destruct (optimizer_makespan_belongs o p op threads z HP HN R) as (s & m' & S & B' & _ & M).
    destruct (optimizer_schedule_valid o p op threads z HP R) as (s' & S' & V).
    assert (s' = s) by congruence. subst s'. assert (m' = m) by congruence. subst m'.
    destruct (makespan_ok p HP HN s V) as (m2 & tl & E2 & _ & N2 & _). assert (m2 = m) by congruence. subst m2. exact N2.
  Qed.

  Lemma reported : forall z t, optimizer_reached o p op threads z -> makespan_seconds z p = Ok t ->
    exists s, optimizer_schedule z = Ok s /\ valid_schedule p s /\ seconds_of s t /\ (0 <= t)%Z.
  Proof.
    intros z t R E. unfold makespan_seconds in E. apply bind_ok in E. destruct E as (m & B & E).
    pose proof (best_nn z m R B) as N.
    destruct (optimizer_makespan_belongs o p op threads z HP HN R) as (s & m' & S & B' & L & M).
    assert (m' = m) by congruence. subst m'.
    destruct (optimizer_schedule_valid o p op threads z HP R) as (s' & Es & V).
    assert (s' = s) by congruence. subst s'.
    destruct (to_rep_whole _ _ (mul_nn _ _ N MF MP) E) as [W T].
    exists s. split; [exact S|]. split; [exact V|]. split; [|lia]. exists m. auto.
  Qed.

  Lemma reported_mono : forall z z' m m' t t',
    optimizer_reached o p op threads z -> optimizer_reached o p op threads z' ->
    optimizer_best z = Ok m -> optimizer_best z' = Ok m' -> f_le m' m = true ->
    makespan_seconds z p = Ok t -> makespan_seconds z' p = Ok t' -> (t' <= t)%Z.
  Proof.
    intros z z' m m' t t' R R' B B' L E E'. pose proof (best_nn z m R B) as N. pose proof (best_nn z' m' R' B') as N'.
    unfold makespan_seconds in E, E'. rewrite B in E. rewrite B' in E'. cbn [bind] in E, E'.
    destruct (to_rep_whole _ _ (mul_nn _ _ N MF MP) E) as [W _].
    destruct (to_rep_whole _ _ (mul_nn _ _ N' MF MP) E') as [W' _].
    eapply whole_mono; [exact W'|exact W|].
    eapply mul_mono; [exact N|exact N'|exact L|exact MF|exact MP|reflexivity|reflexivity|apply W|apply W'].
  Qed.

  Lemma best_defined : forall z, optimizer_reached o p op threads z -> exists m, optimizer_best z = Ok m.
  Proof.
    intros z R. destruct (optimizer_makespan_belongs o p op threads z HP HN R) as (s & m & _ & B & _). eauto.
  Qed.

  Lemma fle_trans : forall a b c : f32, f_le a b = true -> f_le b c = true -> f_le a c = true.
  Proof.
    intros a b c A B. destruct (le_num _ _ A) as [Na Nb]. destruct (le_num _ _ B) as [_ Nc].
    rewrite le_key in * by assumption. apply Z.leb_le in A. apply Z.leb_le in B. apply Z.leb_le. lia.
  Qed.

  (** All makespans reported from [z] on are at most that of [z], do not
      increase, and the last one is that of the final state. *)
  Lemma loop_reports : forall fuel n z, optimizer_reached o p op threads z ->
    let w := optimize_loop fuel o p ks n z in
    Sorted Z.ge (reported_makespans (fst w)) /\
    (forall t, In t (reported_makespans (fst w)) -> exists z' m m', optimizer_reached o p op threads z' /\
       makespan_seconds z' p = Ok t /\ optimizer_best z = Ok m /\ optimizer_best z' = Ok m' /\ f_le m' m = true) /\
    (forall z', snd w = Ok z' -> optimizer_reached o p op threads z' /\ has_converged z' = true /\
       (has_converged z = false -> exists l t, reported_makespans (fst w) = l ++ [t] /\ makespan_seconds z' p = Ok t)).
  Proof.
    induction fuel as [|fuel IH]; intros n z R; cbv zeta; cbn [optimize_loop].
    - destruct (has_converged z) eqn:C; cbn [quietly fst snd reported_makespans]; (split; [constructor|]);
        (split; [intros t []|]); intros z' E; [|discriminate E].
      injection E as <-. split; [exact R|]. split; [exact C|]. discriminate.
    - destruct (has_converged z) eqn:C.
      + cbn [quietly fst snd reported_makespans]. split; [constructor|]. split; [intros t []|]. intros z' E.
        injection E as <-. split; [exact R|]. split; [exact C|]. discriminate.
      + rewrite andthen_quietly. destruct (optimizer_update o z (ks n)) as [z1| |] eqn:U;
          [|cbn [fst snd reported_makespans]; split; [constructor|]; split; [intros t []|discriminate]..].
        rewrite andthen_quietly. destruct (makespan_seconds z1 p) as [t1| |] eqn:M1;
          [|cbn [fst snd reported_makespans]; split; [constructor|]; split; [intros t []|discriminate]..].
        rewrite andthen_enqueue. cbn [fst snd reported_makespans].
        pose proof (or_update o p op threads z (ks n) z1 R U) as R1.
        destruct (update_reports_minimum o p op threads z (ks n) z1 HP R U)
          as (_ & m1 & m & _ & _ & B1 & B & _ & _ & _ & L1).
        destruct (IH (S n) z1 R1) as (S1 & A1 & F1). split; [|split].
        * constructor; [exact S1|]. destruct (reported_makespans _) as [|t2 r] eqn:E2; constructor.
          destruct (A1 t2 (or_introl eq_refl)) as (z2 & m1' & m2 & R2 & T2 & B1' & B2 & L2).
          assert (m1' = m1) by congruence. subst m1'.
          pose proof (reported_mono z1 z2 m1 m2 t1 t2 R1 R2 B1 B2 L2 M1 T2). lia.
        * intros t [<-|I].
          -- exists z1, m, m1. auto 6.
          -- destruct (A1 t I) as (z2 & m1' & m2 & R2 & T2 & B1' & B2 & L2).
             assert (m1' = m1) by congruence. subst m1'. exists z2, m, m2.
             split; [exact R2|]. split; [exact T2|]. split; [exact B|]. split; [exact B2|].
             apply (fle_trans _ _ _ L2 L1).
        * intros z' E. destruct (F1 z' E) as (R' & C' & L'). split; [exact R'|]. split; [exact C'|]. intros _.
          destruct (has_converged z1) eqn:C1.
          -- destruct fuel; cbn [optimize_loop] in E |- *; rewrite C1 in E |- *; cbn [quietly fst snd reported_makespans] in *;
               injection E as <-; exists [], t1; auto.
          -- destruct (L' eq_refl) as (l & t & E' & M'). exists (t1 :: l), t. rewrite E'. auto.
  Qed.

  Lemma optimize_reports : forall fuel,
    let w := optimize fuel o p op threads ks in
    Sorted Z.ge (reported_makespans (fst w)) /\
    forall r, snd w = Ok r ->
      valid_schedule p (os_schedule r) /\ seconds_of (os_schedule r) (os_makespan r) /\
      exists l, reported_makespans (fst w) = l ++ [os_makespan r].
  Proof.
    intro fuel. cbv zeta. unfold optimize. rewrite andthen_quietly.
    destruct (expects _); [|cbn [fst snd reported_makespans]; split; [constructor|discriminate]..].
    rewrite andthen_quietly.
    destruct (expects _); [|cbn [fst snd reported_makespans]; split; [constructor|discriminate]..].
    rewrite andthen_quietly.
    destruct (expects _); [|cbn [fst snd reported_makespans]; split; [constructor|discriminate]..].
    rewrite andthen_quietly.
    destruct (expects _); [|cbn [fst snd reported_makespans]; split; [constructor|discriminate]..].
    rewrite andthen_quietly.
    destruct (optimizer_new o p op threads) as [z| |] eqn:EN;
      [|cbn [fst snd reported_makespans]; split; [constructor|discriminate]..].
    pose proof (or_new o p op threads z EN) as R.
    assert (C : has_converged z = false).
    { unfold optimizer_new in EN. ok_step EN.
      destruct (Z.ltb_spec 0 (op_max_idle op)); [|discriminate EN]. cbn [expects bind] in EN.
      apply bind_ok in EN. destruct EN as (jobs & _ & EN). ok_step EN. injection EN as <-.
      unfold has_converged. cbn [oz_max_idle oz_idle]. apply Z.leb_gt. lia. }
    destruct (loop_reports fuel 0 z R) as (S & _ & F). 
    destruct (optimize_loop fuel o p ks 0 z) as [evs res]. rewrite andthen_pair. cbn [fst snd] in S, F.
    destruct res as [z'| |]; cbn [fst snd];
      [|split; [exact S|discriminate]..].
    destruct (F z' eq_refl) as (R' & C' & L'). destruct (L' C) as (l & t & E & M).
    destruct (reported z' t R' M) as (s & Es & V & W & _). rewrite andthen_quietly, Es, andthen_quietly, M.
    cbn [quietly fst snd]. rewrite app_nil_r. split; [exact S|]. intros r Er. injection Er as <-.
    cbn [os_schedule os_makespan]. split; [exact V|]. split; [exact W|]. exists l. exact E.
  Qed.
End Makespan.

Lemma reports_app : forall a b, reported_makespans (a ++ b) = reported_makespans a ++ reported_makespans b.
Proof.
  induction a as [|e a IH]; intro b; cbn [app reported_makespans]; [reflexivity|].
  destruct e; cbn [app]; rewrite IH; reflexivity.
Qed.

(** Projects for which the parameters are usable numbers. *)
Lemma usable : forall pr p, to_schedule_params pr = Ok p -> problem p -> positive_bounds pr ->
  moderate_performance pr -> (Z.of_nat (length (pr_tasks pr)) <= 2 ^ 20)%Z ->
  (Z.of_nat (length (pr_agents pr)) <= 2 ^ 31)%Z ->
  sane_numbers p /\ is_finite (sp_mult p) = true /\ (0 < B2R (sp_mult p))%R.
Proof.
  intros pr p HE HP PB MP LT LA.
  destruct (params_Ok pr p HE) as (NA & NT & D & _).
  destruct (normalise_ok (pr_tasks pr) (length (pr_agents pr))) as (norm & mult & E & Pm & Fm & Pn & _); auto.
  - destruct (pr_agents pr); [congruence|cbn; lia].
  - apply PB.
  - assert (Q : norm = sp_dur p /\ mult = sp_mult p) by (split; congruence). destruct Q as [-> ->].
    split; [|split; [exact Fm|]].
    + split; [|apply (averages_pos pr p HE PB MP)]. eapply Forall_impl; [|exact Pn]. cbn. intros d [P F].
      split; [exact F|]. apply nn_iff, pos_nn, P.
    + rewrite <- val_finite by exact Fm. apply pos_val, Pm.
Qed.

Lemma completed : forall final l m x, in_order final l m ->
  (forall y, ~ In (ScheduleOptimizationComplete y) final) ->
  (In (ScheduleOptimizationComplete x) l <-> x = m).
Proof.
  intros final l m x (opts & F & ->) N. split.
  - intros [E|I]; [discriminate E|]. apply in_app_iff in I. destruct I as [I|[E|I]].
    + rewrite Forall_forall in F. destruct (F _ I) as (q & y & k & E). discriminate E.
    + injection E as ->. reflexivity.
    + apply in_app_iff in I. destruct I as [I|[E|[]]]; [destruct (N _ I)|discriminate E].
  - intros ->. right. apply in_app_iff. right. left. reflexivity.
Qed.

(** C67 for the schedule subcommand (successive events of failed workers do
    not increase either). *)
Theorem schedule_makespan : forall fuel o pr op threads ks p,
  to_schedule_params pr = Ok p -> problem p -> positive_bounds pr -> moderate_performance pr ->
  (Z.of_nat (length (pr_tasks pr)) <= 2 ^ 20)%Z -> (Z.of_nat (length (pr_agents pr)) <= 2 ^ 31)%Z ->
  let w := schedule fuel o pr op threads ks in
  Sorted Z.ge (reported_makespans (fst w)) /\
  forall r, snd w = Ok r ->
    valid_schedule p (os_schedule r) /\ seconds_of p (os_schedule r) (os_makespan r) /\
    (exists l, reported_makespans (fst w) = l ++ [os_makespan r]) /\
    forall m, In (ScheduleOptimizationComplete m) (fst w) <-> m = os_makespan r.
Proof.
  intros fuel o pr op threads ks p HE HP PB MP LT LA. cbv zeta.
  pose proof (proj1 (schedule_events fuel o pr op threads ks)) as EV.
  enough (Sorted Z.ge (reported_makespans (fst (schedule fuel o pr op threads ks))) /\
    forall r, snd (schedule fuel o pr op threads ks) = Ok r ->
      valid_schedule p (os_schedule r) /\ seconds_of p (os_schedule r) (os_makespan r) /\
      exists l, reported_makespans (fst (schedule fuel o pr op threads ks)) = l ++ [os_makespan r]) as (S & F).
  { split; [exact S|]. intros r E. destruct (F r E) as (V & W & L).
    split; [exact V|]. split; [exact W|]. split; [exact L|]. intro m. apply (completed _ _ _ m (EV r E)).
    intros x []. }
  destruct (usable pr p HE HP PB MP LT LA) as (HN & MF & M0).
  destruct (optimize_reports o p op threads ks HP HN MF M0 fuel) as [S F].
  unfold schedule. rewrite andthen_enqueue, andthen_quietly, HE. cbn [fst snd reported_makespans].
  destruct (optimize fuel o p op threads ks) as [evs res]. rewrite andthen_pair. cbn [fst snd] in S, F.
  destruct res as [r| |]; cbn [fst snd];
    [|split; [exact S|discriminate]..].
  rewrite !andthen_enqueue. cbn [fst snd quietly]. rewrite reports_app. cbn [reported_makespans]. rewrite app_nil_r.
  split; [exact S|]. intros r' E. injection E as <-. apply F. reflexivity.
Qed.
Print Assumptions schedule_makespan.

(** C67 for the prediction. *)
Theorem predicted_makespan : forall fuel o ac pr bin_size op threads ks draws p,
  to_schedule_params pr = Ok p -> problem p -> positive_bounds pr -> moderate_performance pr ->
  (Z.of_nat (length (pr_tasks pr)) <= 2 ^ 20)%Z -> (Z.of_nat (length (pr_agents pr)) <= 2 ^ 31)%Z ->
  let w := predict fuel o ac pr bin_size op threads ks draws in
  Sorted Z.ge (reported_makespans (fst w)) /\
  forall r, snd w = Ok r ->
    valid_schedule p (pd_schedule r) /\ seconds_of p (pd_schedule r) (pd_makespan r) /\
    (exists l, reported_makespans (fst w) = l ++ [pd_makespan r]) /\
    forall m, In (ScheduleOptimizationComplete m) (fst w) <-> m = pd_makespan r.
Proof.
  intros fuel o ac pr bin_size op threads ks draws p HE HP PB MP LT LA. cbv zeta.
  pose proof (proj1 (predict_events fuel o ac pr bin_size op threads ks draws)) as EV.
  enough (Sorted Z.ge (reported_makespans (fst (predict fuel o ac pr bin_size op threads ks draws))) /\
    forall r, snd (predict fuel o ac pr bin_size op threads ks draws) = Ok r ->
      valid_schedule p (pd_schedule r) /\ seconds_of p (pd_schedule r) (pd_makespan r) /\
      exists l, reported_makespans (fst (predict fuel o ac pr bin_size op threads ks draws)) = l ++ [pd_makespan r])
    as (S & F).
  { split; [exact S|]. intros r E. destruct (F r E) as (V & W & L).
    split; [exact V|]. split; [exact W|]. split; [exact L|]. intro m. apply (completed _ _ _ m (EV r E)).
    intros x [H|[]]. discriminate H. }
  destruct (usable pr p HE HP PB MP LT LA) as (HN & MF & M0).
  destruct (optimize_reports o p op threads ks HP HN MF M0 fuel) as [S F].
  unfold predict. rewrite andthen_enqueue, andthen_quietly, HE. cbn [fst snd reported_makespans].
  destruct (optimize fuel o p op threads ks) as [evs res]. rewrite andthen_pair. cbn [fst snd] in S, F.
  destruct res as [r| |]; cbn [fst snd];
    [|split; [exact S|discriminate]..].
  specialize (F r eq_refl).
  rewrite !andthen_enqueue, andthen_quietly. cbn [fst snd]. rewrite reports_app. cbn [reported_makespans].
  destruct (make_histogram _ _ _ _ _ _ _) as [h| |]; cbn [fst snd reported_makespans];
    [|rewrite app_nil_r; split; [exact S|discriminate]..].
  rewrite andthen_quietly. destruct (stats h) as [st| |]; cbn [fst snd reported_makespans];
    [|rewrite app_nil_r; split; [exact S|discriminate]..].
  rewrite andthen_enqueue. cbn [fst snd quietly reported_makespans]. rewrite app_nil_r.
  split; [exact S|]. intros r' E. injection E as <-. exact F.
Qed.
Print Assumptions predicted_makespan.

Definition ex_short_p : params := result_or ex_params (to_schedule_params ex_short).

Lemma ex_short_ok : to_schedule_params ex_short = Ok ex_short_p.
Proof. apply result_or_ok. vm_compute. reflexivity. Qed.

Lemma ex_short_problem : problem ex_short_p.
Proof.
  assert (Ea : sp_agents ex_short_p = [[0; 1]; [0; 1]]) by (vm_compute; reflexivity).
  assert (Ed : sp_deps ex_short_p = [[]; []]) by (vm_compute; reflexivity).
  assert (Et : task_count ex_short_p = 2) by (vm_compute; reflexivity).
  assert (Ep : List.length (sp_perf ex_short_p) = 2) by (vm_compute; reflexivity).
  assert (ND : forall t d, ~ depends ex_short_p t d).
  { intros t d (r & E & I). rewrite Ed in E. destruct t as [|[|[|t]]]; cbn in E; try discriminate;
      injection E as <-; exact I. }
  constructor.
  - rewrite Et. lia.
  - rewrite Et, Ea. reflexivity.
  - rewrite Et, Ed. reflexivity.
  - intros t d H. destruct (ND t d H).
  - rewrite Ed. repeat constructor.
  - rewrite Et. intros t H. exists 0. unfold allowed. rewrite Ea.
    destruct t as [|[|t]]; [| |lia]; exists [0; 1]; cbn; auto.
  - rewrite Ep. intros t a (r & E & I). rewrite Ea in E.
    destruct t as [|[|[|t]]]; cbn in E; try discriminate; injection E as <-; cbn in I; lia.
  - intros t H. apply clos_trans_t1n in H. destruct H as [d H|d e H _]; exact (ND _ _ H).
Qed.

(** A run of the whole worker: the second update finds a better
    schedule. *)
Example ex_schedule_makespan :
  problem ex_short_p /\ positive_bounds ex_short /\ moderate_performance ex_short /\
  reported_makespans (fst ex_worker) = [4800; 2400; 2400; 2400; 2400; 2400]%Z /\
  nth_error (fst ex_worker) 7 = Some (ScheduleOptimizationComplete 2400) /\
  match snd ex_worker with Ok r => os_makespan r = 2400%Z /\ os_schedule r = [Item 0 1; Item 1 0] | _ => False end.
Proof.
  split; [exact ex_short_problem|]. split; [|split].
  - split.
    + repeat constructor.
    + intros t [<-|[<-|[]]]; cbn [tk_min tk_max]; lia.
  - assert (B : is_finite (perf_max ex_perf) = true /\ (B2R (perf_max ex_perf) < bpow radix2 127)%R).
    { destruct two_pos as (_ & F & V). cbn [perf_max ex_perf]. split; [exact F|].
      rewrite <- val_finite by exact F. rewrite V. change 2%R with (bpow radix2 1). apply bpow_lt. lia. }
    constructor; [exact B|]. constructor; [exact B|constructor].
  - vm_compute. auto.
Qed.
