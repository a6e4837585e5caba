(** * Property theorems C75: the optimization log *)

From Coq Require Import String List ZArith Bool Arith Lia.
From Verif Require Import Base F32 ProjectModel ScheduleModel StunModel HistogramModel JsonModel
  FormatModel PredictModel PredictSpec StunProps OptimizerProps PredictProps CliModel CliProps
  OptionsProps ResultProps LogSpec.
Import ListNotations.
Local Open Scope nat_scope.

(** Neither a log line nor anything else of the kind. *)
Definition not_logged (e : effect) : Prop := forall f x, e <> Logged f x.

Lemma logged_app : forall f a b, logged f (a ++ b) = (logged f a ++ logged f b)%string.
Proof.
  induction a as [|e a IH]; intro b; cbn [app logged]; [reflexivity|].
  destruct e as [c t|g t|g t]; try apply IH. destruct (String.eqb g f); [|apply IH].
  rewrite IH. clear. induction t as [|x t IH]; cbn; congruence.
Qed.

Lemma nothing_logged : forall f l, Forall not_logged l -> logged f l = ""%string.
Proof.
  intros f. induction 1 as [|e l N _ IH]; [reflexivity|]. destruct e as [c t|g t|g t]; cbn [logged]; try exact IH.
  destruct (N g t eq_refl).
Qed.

Lemma show_not_logged : forall l, Forall not_logged (show l).
Proof. intro l. apply Forall_map. rewrite Forall_forall. intros x _ f y. discriminate. Qed.

Lemma print_not_logged : forall o t, Forall not_logged (fst (print o t)).
Proof. intros o t. unfold print. destruct (co_quiet o); repeat constructor; intros f x; discriminate. Qed.

Lemma print_error_not_logged : forall o c t, Forall not_logged (fst (print_error o c t)).
Proof. intros o c t. repeat constructor. intros f x. discriminate. Qed.

Lemma die_not_logged : forall o t, Forall not_logged (fst (die o t)).
Proof.
  intros o t. unfold die. apply seq_effects; [destruct (co_quiet o); [constructor|apply print_error_not_logged]|].
  intros _ _. apply print_error_not_logged.
Qed.

Lemma attempt_not_logged : forall A (x : outcome A), Forall not_logged (fst (attempt x)).
Proof. intros A x. rewrite attempt_effects. constructor. Qed.

Lemma parse_not_logged : forall o load, Forall not_logged (fst (parse_config o load)).
Proof.
  intros o load. unfold parse_config. apply seq_effects; [apply print_not_logged|]. intros _ _.
  destruct (load (co_filename o)) as [c| |line column msg|what|what].
  - apply seq_effects; [apply print_not_logged|]. intros _ _. constructor.
  - apply seq_effects; [apply die_not_logged|]. intros _ _. constructor.
  - apply seq_effects; [apply die_not_logged|]. intros _ _.
    apply seq_effects; [apply print_error_not_logged|]. intros _ _. constructor.
  - apply seq_effects; [apply die_not_logged|]. intros _ _. constructor.
  - apply seq_effects; [apply die_not_logged|]. intros _ _. constructor.
Qed.

Lemma save_not_logged : forall w o s j, Forall not_logged (fst (save w o s j)).
Proof.
  intros w o s j.
  assert (G : forall a b c, Forall not_logged (fst (save_json a b c o (wd_dump w) (wd_disk w) j))).
  { intros a b c. unfold save_json. apply seq_effects; [apply attempt_not_logged|]. intros _ _.
    apply seq_effects; [|intros _ _; apply print_not_logged].
    destruct (wd_disk w (co_output o)) as [|what|].
    - repeat constructor. intros f x. discriminate.
    - apply seq_effects; [apply print_error_not_logged|]. intros _ _. constructor.
    - constructor. }
  unfold save. destruct s; apply G.
Qed.

(** ** What the handler logs *)

Lemma handle_logs : forall o d ok e u f, co_log o = true -> snd (handle o d ok e) = Value u ->
  logged f (fst (handle o d ok e)) =
  match e with
  | ScheduleOptimizationStart =>
      if String.eqb log_file f then ("progress,makespan,current_epoch" ++ eol)%string else ""%string
  | ScheduleOptimization q m k => if String.eqb log_file f then row (ds_number d) q m k else ""%string
  | _ => ""%string
  end.
Proof.
  intros o d ok e u f L V. destruct e as [|q m k|m| |]; try reflexivity.
  - unfold handle in *. rewrite L in *. apply seq_value in V. destruct V as (a & _ & V & ->).
    destruct ok; [|discriminate V]. rewrite logged_app.
    rewrite nothing_logged; [|constructor; [intros g x; discriminate|apply show_not_logged]].
    unfold does. cbn [fst logged append]. destruct (String.eqb log_file f); reflexivity.
  - unfold handle in *. rewrite L in *. apply seq_value in V. destruct V as (a & _ & V & ->).
    rewrite attempt_effects. cbn [app]. apply seq_value in V. destruct V as (b & _ & _ & ->). rewrite logged_app.
    rewrite nothing_logged by apply show_not_logged.
    assert (N : forall t : string, (t ++ "" = t)%string) by (induction t; cbn; congruence).
    unfold does, row. cbn [fst logged append]. destruct (String.eqb log_file f); [|reflexivity]. apply N.
  - apply nothing_logged. unfold handle. apply seq_effects; [apply show_not_logged|]. intros _ _.
    apply seq_effects; [repeat constructor; intros g x; discriminate|]. intros _ _.
    repeat constructor. intros g x. discriminate.
Qed.

Lemma consume_logs : forall o d ok l rest u, co_log o = true -> ~ In Finished l -> ~ In ScheduleOptimizationStart l ->
  snd (consume_events o d ok (l ++ Finished :: rest)) = Value u ->
  logged log_file (fst (consume_events o d ok (l ++ Finished :: rest))) = rows (ds_number d) (updates l).
Proof.
  intros o d ok l rest u L. induction l as [|e l IH]; intros N1 N2 V; cbn [app consume_events] in *.
  - reflexivity.
  - apply seq_value in V. destruct V as (a & V1 & V2 & ->). rewrite logged_app.
    rewrite (handle_logs o d ok e a log_file L V1). destruct (is_final_event e) eqn:F.
    { destruct e; try discriminate F. destruct N1. left. reflexivity. }
    rewrite IH; [|intro I; apply N1; right; exact I|intro I; apply N2; right; exact I|exact V2].
    destruct e as [|q m k|m| |]; cbn [updates]; try reflexivity. destruct N2. left. reflexivity.
Qed.

Lemma updates_app : forall a b, updates (a ++ b) = updates a ++ updates b.
Proof. induction a as [|e a IH]; intro b; cbn; [reflexivity|]. destruct e; cbn; rewrite IH; reflexivity. Qed.

Lemma in_order_logs : forall o d ok l m final u, co_log o = true ->
  ~ In Finished final -> ~ In ScheduleOptimizationStart final -> in_order final l m ->
  snd (consume_events o d ok l) = Value u ->
  logged log_file (fst (consume_events o d ok l)) = whole_log (ds_number d) l.
Proof.
  intros o d ok l m final u L N1 N2 (opts & F & ->) V.
  assert (S : forall e, In e (opts ++ ScheduleOptimizationComplete m :: final) ->
            e <> Finished /\ e <> ScheduleOptimizationStart).
  { intros e I. apply in_app_iff in I. destruct I as [I|[<-|I]].
    - rewrite Forall_forall in F. destruct (F e I) as (q & m' & k & ->). split; discriminate.
    - split; discriminate.
    - split; intros ->; auto. }
  unfold whole_log. cbn [updates].
  replace (opts ++ ScheduleOptimizationComplete m :: final ++ [Finished])
    with ((opts ++ ScheduleOptimizationComplete m :: final) ++ [Finished]) in *
    by (rewrite <- app_assoc; reflexivity).
  rewrite updates_app. change (updates [Finished]) with (@nil (f32 * Z * Z)). rewrite app_nil_r.
  set (body := opts ++ ScheduleOptimizationComplete m :: final) in *.
  cbn [consume_events] in V |- *. apply seq_value in V. destruct V as (a & V1 & V2 & ->).
  rewrite logged_app, (handle_logs _ _ _ _ a log_file L V1), String.eqb_refl. cbn [is_final_event] in V2 |- *.
  rewrite (consume_logs o d ok body [] u L); [reflexivity|..|exact V2].
  - intro I. destruct (S _ I) as [X _]. apply X. reflexivity.
  - intro I. destruct (S _ I) as [_ X]. apply X. reflexivity.
Qed.

Lemma json_schedule_logs : forall c o d ok k j f, snd (json_schedule c o d ok k) = Value j ->
  co_quiet o = false ->
  (exists u, snd (consume_events o d ok (fst (k c))) = Value u) /\ (exists r, snd (k c) = Ok r) /\
  logged f (fst (json_schedule c o d ok k)) = logged f (fst (consume_events o d ok (fst (k c)))).
Proof.
  intros c o d ok k j f H Q. unfold json_schedule in *.
  apply seq_value in H. destruct H as (u1 & _ & H & ->). rewrite attempt_effects. cbn [app].
  apply seq_value in H. destruct H as (u2 & _ & H & ->). rewrite attempt_effects. cbn [app].
  apply seq_value in H. destruct H as (r & R & H & ->). rewrite logged_app.
  rewrite (nothing_logged f (fst (seq _ _)));
    [|apply seq_effects; [apply attempt_not_logged|intros; constructor]].
  pose proof (await_value _ _ _ _ _ _ R) as OK.
  unfold await in *. rewrite Q in *. apply seq_value in R. destruct R as (u & U & _ & ->). split; [eauto|]. split; [eauto|].
  rewrite attempt_effects, app_nil_r. 
  assert (N : forall t : string, (t ++ "" = t)%string) by (induction t; cbn; congruence). apply N.
Qed.

Lemma run_prediction_logs : forall c o d ok k j f, snd (run_prediction c o d ok k) = Value j ->
  co_quiet o = false ->
  (exists u, snd (consume_events o d ok (fst (k c))) = Value u) /\ (exists r, snd (k c) = Ok r) /\
  logged f (fst (run_prediction c o d ok k)) = logged f (fst (consume_events o d ok (fst (k c)))).
Proof.
  intros c o d ok k j f H Q. unfold run_prediction in *.
  apply seq_value in H. destruct H as (u1 & _ & H & ->). rewrite attempt_effects. cbn [app].
  apply seq_value in H. destruct H as (u2 & _ & H & ->). rewrite attempt_effects. cbn [app].
  apply seq_value in H. destruct H as (r & R & H & ->). rewrite logged_app.
  rewrite (nothing_logged f (fst (seq (print_histogram_stats o (pd_stats r)) _))).
  2:{ apply seq_effects; [apply print_not_logged|]. intros _ _.
      apply seq_effects; [apply attempt_not_logged|]. intros t _.
      apply seq_effects; [apply attempt_not_logged|]. intros h _. constructor. }
  pose proof (await_value _ _ _ _ _ _ R) as OK.
  unfold await in *. rewrite Q in *. apply seq_value in R. destruct R as (u & U & _ & ->). split; [eauto|]. split; [eauto|].
  rewrite attempt_effects, app_nil_r. 
  assert (N : forall t : string, (t ++ "" = t)%string) by (induction t; cbn; congruence). apply N.
Qed.

Lemma main_logs : forall w o s f, wd_arguments w = Run o s -> co_quiet o = false -> snd (main w) = Exited 0 ->
  exists l c, wd_load w (co_filename o) = Loaded l /\ assigned o l c /\
    let evs := if s then fst (wd_schedule w c) else fst (wd_predict w c) in
    (if s then exists r, snd (wd_schedule w c) = Ok r else exists r, snd (wd_predict w c) = Ok r) /\
    (exists u, snd (consume_events o (wd_display w) (wd_log_ok w) evs) = Value u) /\
    logged f (fst (main w)) = logged f (fst (consume_events o (wd_display w) (wd_log_ok w) evs)).
Proof.
  intros w o s f A Q E. unfold main in E |- *. rewrite A in *. rewrite command_split in *.
  destruct (seq (compute w o s) (save w o s)) as [es e] eqn:S.
  destruct e as [u|[|]|]; try discriminate E. cbn [fst].
  assert (V : snd (seq (compute w o s) (save w o s)) = Value u) by (rewrite S; reflexivity).
  apply seq_value in V. destruct V as (j & V & _ & F). rewrite S in F. cbn [fst] in F. subst es.
  rewrite logged_app, (nothing_logged f (fst (save w o s j))) by apply save_not_logged.
  assert (N : forall t : string, (t ++ "" = t)%string) by (induction t; cbn; congruence). rewrite N.
  unfold compute in V |- *. apply seq_value in V. destruct V as (c & V & H & ->).
  destruct (assigned_ok _ _ _ V) as (l & L & G). cbv zeta in H |- *.
  rewrite logged_app, nothing_logged by apply parse_not_logged. cbn [append].
  set (c' := {| cf_project := cf_project c; cf_bin_size := cf_bin_size c;
                cf_opt := parse_opt_params (co_opt o) (cf_opt c) |}) in *.
  exists l, c'. split; [exact L|]. split; [exact G|]. destruct s.
  - destruct (json_schedule_logs _ _ _ _ _ _ f H Q) as (U & R & X). auto.
  - destruct (run_prediction_logs _ _ _ _ _ _ f H Q) as (U & R & X). auto.
Qed.

(** ** C75 *)

(** C75, without --quiet, and with the name that the program really uses:
    after a successful run with --log-optimization-progress the log
    consists of the header and one row for each update that the worker
    reported for the loaded project and the options of the command line, in
    order, with the progress, the makespan in seconds and the epoch. *)
Theorem log_is_complete_partial : forall w o s fuel e ac threads ks draws,
  wd_arguments w = Run o s -> co_quiet o = false -> co_log o = true -> snd (main w) = Exited 0 ->
  (forall c, wd_schedule w c = schedule fuel e (cf_project c) (cf_opt c) threads ks) ->
  (forall c, wd_predict w c = predict fuel e ac (cf_project c) (cf_bin_size c) (cf_opt c) threads ks draws) ->
  exists l c, wd_load w (co_filename o) = Loaded l /\ assigned o l c /\
    logged "optimization_log.csv" (fst (main w)) =
    whole_log (ds_number (wd_display w)) (if s then fst (wd_schedule w c) else fst (wd_predict w c)).
Proof.
  intros w o s fuel e ac threads ks draws A Q LG E WS WP.
  destruct (main_logs w o s log_file A Q E) as (l & c & L & G & R & (u & U) & X). exists l, c.
  split; [exact L|]. split; [exact G|]. change "optimization_log.csv"%string with log_file. rewrite X. destruct s.
  - destruct R as (r & R). rewrite WS in R, U |- *.
    apply (in_order_logs _ _ _ _ (os_makespan r) [] u LG); [intros []|intros []| |exact U].
    apply (schedule_events fuel e (cf_project c) (cf_opt c) threads ks), R.
  - destruct R as (r & R). rewrite WP in R, U |- *.
    apply (in_order_logs _ _ _ _ (pd_makespan r) [SimulationStart] u LG); [intros [Y|[]]; discriminate Y..| |exact U].
    apply (predict_events fuel e ac (cf_project c) (cf_bin_size c) (cf_opt c) threads ks draws), R.
Qed.
Print Assumptions log_is_complete_partial.

(** No other log is written, and none without the option. *)
Lemma handle_other : forall o d ok e f, f <> log_file \/ co_log o = false ->
  logged f (fst (handle o d ok e)) = ""%string.
Proof.
  intros o d ok e f C.
  assert (X : forall t, co_log o = true -> logged f [Logged log_file t] = ""%string).
  { intros t LG. destruct C as [C|C]; [|congruence]. cbn [logged].
    destruct (String.eqb_spec log_file f); [congruence|reflexivity]. }
  destruct e as [|q m k|m| |]; try reflexivity.
  - unfold handle. unfold seq, does. cbn [fst snd].
    destruct (co_log o); [destruct ok|]; cbn [fst snd done throw]; rewrite logged_app;
      rewrite ?X by reflexivity; (rewrite nothing_logged; [reflexivity|]);
      (constructor; [intros g x; discriminate|apply show_not_logged]).
  - unfold handle. destruct (expects _) as [u| |]; try reflexivity. cbn [attempt].
    unfold seq, does, done. cbn [fst snd app]. destruct (co_log o); cbn [fst snd]; rewrite logged_app;
      rewrite ?X by reflexivity; (rewrite nothing_logged; [reflexivity|]); apply show_not_logged.
  - apply nothing_logged. unfold handle. apply seq_effects; [apply show_not_logged|]. intros _ _.
    apply seq_effects; [repeat constructor; intros g x; discriminate|]. intros _ _.
    repeat constructor. intros g x. discriminate.
Qed.

Lemma consume_other : forall o d ok l f, f <> log_file \/ co_log o = false ->
  logged f (fst (consume_events o d ok l)) = ""%string.
Proof.
  intros o d ok l f C. induction l as [|e l IH]; cbn [consume_events]; [reflexivity|].
  unfold seq. pose proof (handle_other o d ok e f C) as H. destruct (snd (handle o d ok e)); cbn [fst]; try exact H.
  destruct (is_final_event e); cbn [done]; [rewrite app_nil_r; exact H|].
  destruct (consume_events o d ok l) as [es x]. cbn [fst] in *. rewrite logged_app, H, IH. reflexivity.
Qed.

Lemma await_other : forall R o d ok (k : work R) f, f <> log_file \/ co_log o = false \/ co_quiet o = true ->
  logged f (fst (await o d ok k)) = ""%string.
Proof.
  intros R o d ok k f C. unfold await, seq.
  assert (H : logged f (fst (if co_quiet o then done tt else consume_events o d ok (fst k))) = ""%string).
  { destruct (co_quiet o); [reflexivity|]. apply consume_other. destruct C as [C|[C|C]]; auto. discriminate C. }
  destruct (snd _); cbn [fst]; try exact H. pose proof (attempt_effects _ (snd k)) as N.
  destruct (attempt (snd k)) as [es x]. cbn [fst] in *. subst es. rewrite app_nil_r. exact H.
Qed.

Lemma seq_logged : forall A B f (x : act A) (g : A -> act B), logged f (fst x) = ""%string ->
  (forall a, snd x = Value a -> logged f (fst (g a)) = ""%string) -> logged f (fst (seq x g)) = ""%string.
Proof.
  intros A B f x g H G. unfold seq. destruct (snd x) as [a|t|]; cbn [fst]; try exact H.
  specialize (G a eq_refl). destruct (g a). cbn [fst] in *. rewrite logged_app, H, G. reflexivity.
Qed.

Lemma compute_other : forall w o s f, f <> log_file \/ co_log o = false \/ co_quiet o = true ->
  logged f (fst (compute w o s)) = ""%string.
Proof.
  intros w o s f C. unfold compute. apply seq_logged; [apply nothing_logged, parse_not_logged|]. intros c _. cbv zeta.
  destruct s.
  - unfold json_schedule. apply seq_logged; [rewrite attempt_effects; reflexivity|]. intros _ _.
    apply seq_logged; [rewrite attempt_effects; reflexivity|]. intros _ _.
    apply seq_logged; [apply await_other, C|]. intros r _.
    apply seq_logged; [rewrite attempt_effects; reflexivity|]. intros t _. reflexivity.
  - unfold run_prediction. apply seq_logged; [rewrite attempt_effects; reflexivity|]. intros _ _.
    apply seq_logged; [rewrite attempt_effects; reflexivity|]. intros _ _.
    apply seq_logged; [apply await_other, C|]. intros r _.
    apply seq_logged; [apply nothing_logged, print_not_logged|]. intros _ _.
    apply seq_logged; [rewrite attempt_effects; reflexivity|]. intros t _.
    apply seq_logged; [rewrite attempt_effects; reflexivity|]. intros h _. reflexivity.
Qed.

(** C75: no other file is used as a log, and nothing is logged without the
    option or with --quiet. *)
Theorem log_only_on_demand : forall w o s f, wd_arguments w = Run o s ->
  f <> "optimization_log.csv"%string \/ co_log o = false \/ co_quiet o = true ->
  logged f (fst (main w)) = ""%string.
Proof.
  intros w o s f A C. change "optimization_log.csv"%string with log_file in C.
  assert (R : logged f (fst (run_command w o s)) = ""%string).
  { rewrite command_split. apply seq_logged; [apply compute_other, C|]. intros j _.
    apply nothing_logged, save_not_logged. }
  unfold main. rewrite A. destruct (run_command w o s) as [es [u|[|]|]]; try exact R.
  cbn [fst] in *. rewrite logged_app, R. reflexivity.
Qed.
Print Assumptions log_only_on_demand.

(** ** A concrete log *)

Definition log_cli (quiet : bool) : cli_options :=
  {| co_filename := "tasks.yml"; co_verbose := false; co_color := false; co_quiet := quiet;
     co_output := "out.json"; co_opt := ex_options; co_log := true; co_bin_size := None |}.

Definition log_world (quiet : bool) : world :=
  {| wd_arguments := Run (log_cli quiet) true;
     wd_load := fun _ => Loaded ex_config;
     wd_predict := fun c => predict 20 step_exp ex_accumulators (cf_project c) (cf_bin_size c) (cf_opt c) 2
       (fun n => if n =? 1 then ex_ks else fun _ _ => ex_stuck) [];
     wd_schedule := fun c => schedule 20 step_exp (cf_project c) (cf_opt c) 2
       (fun n => if n =? 1 then ex_ks else fun _ _ => ex_stuck);
     wd_display := {| ds_start := []; ds_update := fun _ => []; ds_stop := [];
       ds_number := fun q => if f_le f_one q then "1"%string else "0.5"%string |};
     wd_log_ok := true;
     wd_dump := fun _ => "{}"%string;
     wd_disk := fun _ => DiskOk;
     wd_terminate := "terminate called"%string |}.

Example ex_log : wd_arguments (log_world false) = Run (log_cli false) true /\
  snd (main (log_world false)) = Exited 0 /\
  (forall c, wd_schedule (log_world false) c = schedule 20 step_exp (cf_project c) (cf_opt c) 2
     (fun n => if n =? 1 then ex_ks else fun _ _ => ex_stuck)) /\
  logged "optimization_log.csv" (fst (main (log_world false))) =
    ("progress,makespan,current_epoch" ++ eol ++ "0.5,4800,1" ++ eol ++ "0.5,2400,2" ++ eol ++
     "0.5,2400,2" ++ eol ++ "0.5,2400,2" ++ eol ++ "0.5,2400,2" ++ eol ++ "1,2400,2" ++ eol)%string.
Proof. split; [reflexivity|]. split; [vm_compute; reflexivity|]. split; [reflexivity|vm_compute; reflexivity]. Qed.

(** C75 fails: the help text promises optimization.csv, which is never
    written; and with --quiet nothing is logged at all, although the
    command was asked to and succeeds. *)
Theorem log_refuted :
  (forall w o s, wd_arguments w = Run o s -> logged promised_file (fst (main w)) = ""%string) /\
  (exists w o, wd_arguments w = Run o true /\ co_log o = true /\ wd_log_ok w = true /\
     snd (main w) = Exited 0 /\ forall f, logged f (fst (main w)) = ""%string).
Proof.
  split.
  - intros w o s A. apply (log_only_on_demand w o s _ A). left. discriminate.
  - exists (log_world true), (log_cli true). split; [reflexivity|]. split; [reflexivity|]. split; [reflexivity|].
    split; [vm_compute; reflexivity|]. intro f. apply (log_only_on_demand (log_world true) (log_cli true) true); [reflexivity|].
    right. right. reflexivity.
Qed.
Print Assumptions log_refuted.
