(** * Property theorems C71: what the command writes is what the worker
      found *)

From Coq Require Import String List ZArith Bool Arith Lia.
From Verif Require Import Base F32 ProjectModel ScheduleModel StunModel HistogramModel JsonModel
  FormatModel PredictModel PredictSpec StunProps OptimizerProps PredictProps CliModel CliProps
  OptionsProps.
Import ListNotations.
Local Open Scope nat_scope.

(** What the worker is given: the project of the file, the bin size of the
    command line if there is one, the parameters of the command line. *)
Definition assigned (o : cli_options) (l c : config) : Prop :=
  cf_project c = cf_project l /\ cf_opt c = co_opt o /\
  cf_bin_size c = match co_bin_size o with Some z => Some z | None => cf_bin_size l end.

(** The files of a list of effects, with their contents. *)
Fixpoint files (l : list effect) : list (string * string) :=
  match l with
  | [] => []
  | Saved f x :: l' => (f, x) :: files l'
  | _ :: l' => files l'
  end.

(** The texts on standard output. *)
Fixpoint output (l : list effect) : list string :=
  match l with
  | [] => []
  | Printed Stdout x :: l' => x :: output l'
  | _ :: l' => output l'
  end.

Lemma files_app : forall a b, files (a ++ b) = files a ++ files b.
Proof.
  induction a as [|e a IH]; intro b; cbn [app files]; [reflexivity|].
  destruct e; cbn [app]; rewrite IH; reflexivity.
Qed.

Lemma output_in : forall l x, In x (output l) <-> In (Printed Stdout x) l.
Proof.
  induction l as [|e l IH]; intro x; cbn [output]; [split; intros []|].
  destruct e as [[|] t|f t|t]; cbn [In]; rewrite IH; intuition congruence.
Qed.

Lemma not_saved_files : forall l, Forall not_saved l -> files l = [].
Proof.
  induction 1 as [|e l N _ IH]; [reflexivity|]. destruct e; cbn [files]; try exact IH.
  destruct (N file content eq_refl).
Qed.

Lemma assigned_ok : forall o load c, snd (parse_config o load) = Value c ->
  exists l, load (co_filename o) = Loaded l /\
    assigned o l {| cf_project := cf_project c; cf_bin_size := cf_bin_size c;
                    cf_opt := parse_opt_params (co_opt o) (cf_opt c) |}.
Proof.
  intros o load c H. destruct (parsed_config o load c H) as (l & L & P & B1 & B2).
  exists l. split; [exact L|]. split; [exact P|]. split; [cbn; destruct (co_opt o); reflexivity|].
  cbn [cf_bin_size]. destruct (co_bin_size o) as [z|]; [apply B1|apply B2]; reflexivity.
Qed.

Lemma await_value : forall R o d ok (k : work R) r, snd (await o d ok k) = Value r -> snd k = Ok r.
Proof.
  intros R o d ok k r H. unfold await in H. apply seq_value in H. destruct H as (u & _ & H & _).
  destruct (snd k) as [a| |]; cbn in H; try discriminate H. injection H as ->. reflexivity.
Qed.

Lemma attempt_value : forall A (x : outcome A) a, snd (attempt x) = Value a -> x = Ok a.
Proof. intros A [b| |] a H; cbn in H; try discriminate H. injection H as ->. reflexivity. Qed.

(** The JSON tree of a result. *)
Definition shown_schedule (pr : project) (r : optimized) (j : json) : Prop :=
  exists t, schedule_json pr (os_schedule r) (os_makespan r) = Ok t /\ j = ScheduleJson t.
Definition shown_prediction (pr : project) (r : prediction) (j : json) : Prop :=
  exists t h, schedule_json pr (pd_schedule r) (pd_makespan r) = Ok t /\
    histogram_json (pd_histogram r) = Ok h /\
    j = PredictionJson t {| jt_p25 := p25 (pd_stats r); jt_p50 := p50 (pd_stats r);
                            jt_p75 := p75 (pd_stats r); jt_p95 := p95 (pd_stats r);
                            jt_p99 := p99 (pd_stats r) |} h.

(** The five lines of the estimate. *)
Definition estimate_text (s : hist_stats) (text : string) : Prop :=
  let line (n : string) (z : Z) :=
    ("  " ++ n ++ "% chance to complete the project in under " ++
     string_of_list_ascii (verbose z) ++ "." ++ eol)%string in
  text = ("Estimation:" ++ eol ++ line "25" (p25 s) ++ line "50" (p50 s) ++
          line "75" (p75 s) ++ line "95" (p95 s) ++ line "99" (p99 s))%string.

Lemma computed : forall w o s j, snd (compute w o s) = Value j ->
  exists l c, wd_load w (co_filename o) = Loaded l /\ assigned o l c /\
    if s then exists r, snd (wd_schedule w c) = Ok r /\ shown_schedule (cf_project c) r j
    else exists r, snd (wd_predict w c) = Ok r /\ shown_prediction (cf_project c) r j /\
      (co_quiet o = false -> exists text, In (Printed Stdout text) (fst (compute w o s)) /\
         estimate_text (pd_stats r) text).
Proof.
  intros w o s j H. unfold compute in H |- *. apply seq_value in H. destruct H as (c & V & H & E).
  destruct (assigned_ok _ _ _ V) as (l & L & A). cbv zeta in H, E |- *.
  set (c' := {| cf_project := cf_project c; cf_bin_size := cf_bin_size c;
                cf_opt := parse_opt_params (co_opt o) (cf_opt c) |}) in *.
  exists l, c'. split; [exact L|]. split; [exact A|]. rewrite E. clear E. destruct s.
  - unfold json_schedule in H. apply seq_value in H. destruct H as (u1 & _ & H & _).
    apply seq_value in H. destruct H as (u2 & _ & H & _).
    apply seq_value in H. destruct H as (r & R & H & _).
    apply seq_value in H. destruct H as (t & T & H & _). cbn in H. injection H as <-.
    exists r. split; [apply (await_value _ _ _ _ _ _ R)|]. exists t. split; [apply attempt_value, T|reflexivity].
  - unfold run_prediction in H |- *. apply seq_value in H. destruct H as (u1 & _ & H & ->).
    apply seq_value in H. destruct H as (u2 & _ & H & ->).
    apply seq_value in H. destruct H as (r & R & H & ->).
    apply seq_value in H. destruct H as (u3 & _ & H & ->).
    apply seq_value in H. destruct H as (t & T & H & ->).
    apply seq_value in H. destruct H as (h & HH & H & ->). cbn in H. injection H as <-.
    exists r. split; [apply (await_value _ _ _ _ _ _ R)|]. split.
    + exists t, h. split; [apply attempt_value, T|]. split; [apply attempt_value, HH|reflexivity].
    + intro Q. unfold print_histogram_stats, print. rewrite Q. eexists. split; [|reflexivity].
      apply in_app_iff. right. apply in_app_iff. right. apply in_app_iff. right. apply in_app_iff. right.
      apply in_app_iff. left. left. reflexivity.
Qed.

Lemma save_files : forall w o s j,
  files (fst (save w o s j)) = [] \/ files (fst (save w o s j)) = [(co_output o, wd_dump w j)].
Proof.
  intros w o s j.
  assert (P : forall text, files (fst (print o text)) = []).
  { intro text. apply not_saved_files. unfold print. destruct (co_quiet o); repeat constructor; intros f x; discriminate. }
  assert (G : forall a b c, let x := save_json a b c o (wd_dump w) (wd_disk w) j in
    files (fst x) = [] \/ files (fst x) = [(co_output o, wd_dump w j)]).
  { intros a b c. cbv zeta. unfold save_json. destruct (negb _); [|left; reflexivity].
    cbn [expects attempt]. destruct (wd_disk w (co_output o)) as [|what|].
    - right. unfold done, does, seq. cbn [fst snd app].
      specialize (P (b ++ quote ++ co_output o ++ quote ++ c ++ eol)%string).
      destruct (print o _) as [es e]. cbn [fst] in *. cbn [app files]. rewrite P. reflexivity.
    - left. cbn. reflexivity.
    - left. unfold done, seq. cbn [fst snd app].
      specialize (P (b ++ quote ++ co_output o ++ quote ++ c ++ eol)%string).
      destruct (print o _) as [es e]. exact P. }
  unfold save. destruct s; apply G.
Qed.

Lemma main_files : forall w o s, wd_arguments w = Run o s ->
  files (fst (main w)) = files (fst (run_command w o s)).
Proof.
  intros w o s A. unfold main. rewrite A. destruct (run_command w o s) as [es [u|[|]|]]; try reflexivity.
  cbn [fst]. rewrite files_app. cbn [files]. apply app_nil_r.
Qed.

(** C71: at most one file is written, the one named on the command line.
    Its content is the JSON text of what the worker returned for the loaded
    project and the options of the command line: schedule and makespan for
    the subcommand, and for the prediction also the five percentiles under
    their names and the histogram. *)
Theorem file_holds_result : forall w o s f,
  wd_arguments w = Run o s -> In f (files (fst (main w))) ->
  exists l c j, files (fst (main w)) = [(co_output o, wd_dump w j)] /\
    wd_load w (co_filename o) = Loaded l /\ assigned o l c /\
    if s then exists r, snd (wd_schedule w c) = Ok r /\ shown_schedule (cf_project l) r j
    else exists r, snd (wd_predict w c) = Ok r /\ shown_prediction (cf_project l) r j.
Proof.
  intros w o s f A I. rewrite (main_files w o s A) in *. rewrite command_split in *.
  pose proof (not_saved_files _ (compute_not_saved w o s)) as N.
  destruct (snd (compute w o s)) as [j|t|] eqn:V.
  - destruct (seq_step _ _ _ (save w o s) j V) as [_ E]. rewrite E, files_app, N in *. cbn [app] in *.
    destruct (save_files w o s j) as [F|F]; [rewrite F in I; destruct I|].
    destruct (computed w o s j V) as (l & c & L & G & R). exists l, c, j.
    split; [exact F|]. split; [exact L|]. split; [exact G|]. destruct G as (P & _). rewrite P in R.
    destruct s; [exact R|]. destruct R as (r & R1 & R2 & _). eauto.
  - unfold seq in I. rewrite V in I. cbn [fst] in I. rewrite N in I. destruct I.
  - unfold seq in I. rewrite V in I. cbn [fst] in I. rewrite N in I. destruct I.
Qed.
Print Assumptions file_holds_result.

(** C71: without --quiet a successful prediction prints the same
    percentiles. *)
Theorem estimates_shown : forall w o, wd_arguments w = Run o false -> co_quiet o = false ->
  snd (main w) = Exited 0 ->
  exists l c r text, wd_load w (co_filename o) = Loaded l /\ assigned o l c /\
    snd (wd_predict w c) = Ok r /\ In text (output (fst (main w))) /\ estimate_text (pd_stats r) text.
Proof.
  intros w o A Q E. unfold main in E |- *. rewrite A in *. rewrite command_split in *.
  destruct (seq (compute w o false) (save w o false)) as [es e] eqn:S.
  destruct e as [u|[|]|]; try discriminate E. cbn [fst].
  assert (V : snd (seq (compute w o false) (save w o false)) = Value u) by (rewrite S; reflexivity).
  apply seq_value in V. destruct V as (j & V & _ & F). rewrite S in F. cbn [fst] in F.
  destruct (computed w o false j V) as (l & c & L & G & r & R & _ & T).
  destruct (T Q) as (text & I & X). exists l, c, r, text.
  split; [exact L|]. split; [exact G|]. split; [exact R|]. split; [|exact X].
  apply output_in. rewrite F. apply in_app_iff. auto.
Qed.
Print Assumptions estimates_shown.

(** The subcommand on the project of PredictProps.v writes its file. *)
Example ex_file :
  let w := ex_world true (Loaded ex_config) DiskOk in
  wd_arguments w = Run (ex_cli true) true /\ In ("out.json", "{}")%string (files (fst (main w))).
Proof.
  split; [reflexivity|].
  assert (E : files (fst (main (ex_world true (Loaded ex_config) DiskOk))) = [("out.json", "{}")%string])
    by (vm_compute; reflexivity).
  cbv zeta. rewrite E. left. reflexivity.
Qed.

(** A prediction: a worker with a result for the plan of JsonProps.v. *)
Definition ex_result : prediction :=
  {| pd_histogram := {| h_bin_size := 60; h_bins := [(1, 1); (2, 3)]%Z |};
     pd_stats := {| p25 := 90; p50 := 150; p75 := 150; p95 := 150; p99 := 150 |};
     pd_schedule := [Item 0 1; Item 1 0]; pd_makespan := 2400 |}.

Definition ex_predict_world : world :=
  {| wd_arguments := Run (ex_cli false) false;
     wd_load := fun _ => Loaded ex_config;
     wd_predict := fun _ => ([Finished], Ok ex_result);
     wd_schedule := fun _ => ([], Broken);
     wd_display := {| ds_start := []; ds_update := fun _ => []; ds_stop := []; ds_number := fun _ => ""%string |};
     wd_log_ok := true;
     wd_dump := fun j => match j with
       | PredictionJson _ st _ => text_of (jt_p25 st) ++ " " ++ text_of (jt_p99 st)
       | ScheduleJson _ => "" end%string;
     wd_disk := fun _ => DiskOk;
     wd_terminate := "terminate called"%string |}.

Example ex_estimates : wd_arguments ex_predict_world = Run (ex_cli false) false /\
  snd (main ex_predict_world) = Exited 0 /\
  files (fst (main ex_predict_world)) = [("out.json", "90 150")%string] /\
  existsb (String.prefix "Estimation:") (output (fst (main ex_predict_world))) = true.
Proof. split; [reflexivity|]. split; [|split]; vm_compute; reflexivity. Qed.
