(** * Property theorems C62, C63 and the command's side of C55 *)

From Coq Require Import String List ZArith Bool Arith Lia.
From Verif Require Import Base F32 ProjectModel ScheduleModel StunModel HistogramModel JsonModel
  FormatModel PredictModel PredictSpec StunProps OptimizerProps PredictProps CliModel.
Import ListNotations.
Local Open Scope nat_scope.

Lemma seq_effects : forall A B (P : effect -> Prop) (x : act A) (f : A -> act B),
  Forall P (fst x) -> (forall a, snd x = Value a -> Forall P (fst (f a))) -> Forall P (fst (seq x f)).
Proof.
  intros A B P x f H G. unfold seq. destruct (snd x) as [a|t|]; cbn [fst]; try exact H.
  specialize (G a eq_refl). destruct (f a). cbn [fst] in *. apply Forall_app. auto.
Qed.

Lemma seq_value : forall A B (x : act A) (f : A -> act B) b, snd (seq x f) = Value b ->
  exists a, snd x = Value a /\ snd (f a) = Value b /\ fst (seq x f) = fst x ++ fst (f a).
Proof.
  intros A B x f b H. unfold seq in *. destruct (snd x) as [a|t|]; try discriminate.
  exists a. destruct (f a). cbn [fst snd] in *. auto.
Qed.

Lemma seq_throws : forall A B (x : act A) (f : A -> act B) t, snd (seq x f) = Throws t ->
  (snd x = Throws t /\ fst (seq x f) = fst x) \/
  exists a, snd x = Value a /\ snd (f a) = Throws t /\ fst (seq x f) = fst x ++ fst (f a).
Proof.
  intros A B x f t H. unfold seq in *. destruct (snd x) as [a|t'|]; try discriminate.
  - right. exists a. destruct (f a). cbn [fst snd] in *. auto.
  - left. injection H as ->. auto.
Qed.

Lemma seq_step : forall A B (x : act A) (f : A -> act B) a, snd x = Value a ->
  snd (seq x f) = snd (f a) /\ fst (seq x f) = fst x ++ fst (f a).
Proof. intros A B x f a H. unfold seq. rewrite H. destruct (f a). auto. Qed.

Lemma attempt_effects : forall A (x : outcome A), fst (attempt x) = [].
Proof. intros A [a| |]; reflexivity. Qed.

Lemma attempt_user : forall A (x : outcome A), snd (attempt x) <> Throws UserError.
Proof. intros A [a| |]; discriminate. Qed.

(** ** C62 *)

(** Not a text on standard output. *)
Definition not_stdout (e : effect) : Prop := forall text, e <> Printed Stdout text.

Section Quiet.
  Variables (w : world) (o : cli_options).
  Hypothesis Q : co_quiet o = true.

  Lemma print_quiet : forall text, print o text = done tt.
  Proof. intro text. unfold print. rewrite Q. reflexivity. Qed.

  Lemma die_quiet : forall text, fst (die o text) = [Printed Stderr (if co_color o then red text else text)].
  Proof. intro text. unfold die. rewrite Q. reflexivity. Qed.

  Lemma stderr_ok : forall text, not_stdout (Printed Stderr text).
  Proof. intros text t. discriminate. Qed.

  Lemma parse_config_quiet : Forall not_stdout (fst (parse_config o (wd_load w))).
  Proof.
    unfold parse_config. apply seq_effects; [rewrite print_quiet; constructor|]. intros [] _.
    destruct (wd_load w (co_filename o)).
    - apply seq_effects; [rewrite print_quiet; constructor|]. intros; constructor.
    - apply seq_effects; [rewrite die_quiet; repeat constructor; apply stderr_ok|]. intros; constructor.
    - apply seq_effects; [rewrite die_quiet; repeat constructor; apply stderr_ok|]. intros _ _.
      apply seq_effects; [constructor; [apply stderr_ok|constructor]|]. intros; constructor.
    - apply seq_effects; [rewrite die_quiet; repeat constructor; apply stderr_ok|]. intros; constructor.
    - apply seq_effects; [rewrite die_quiet; repeat constructor; apply stderr_ok|]. intros; constructor.
  Qed.

  Lemma await_quiet : forall R (k : work R), fst (await o (wd_display w) (wd_log_ok w) k) = [].
  Proof.
    intros R k. unfold await. rewrite Q. unfold seq, done. cbn [snd fst].
    destruct (snd k); reflexivity.
  Qed.

  Lemma attempt_quiet : forall A (x : outcome A), Forall not_stdout (fst (attempt x)).
  Proof. intros A x. rewrite attempt_effects. constructor. Qed.

  Lemma save_quiet : forall a b c j, Forall not_stdout (fst (save_json a b c o (wd_dump w) (wd_disk w) j)).
  Proof.
    intros a b c j. unfold save_json. apply seq_effects; [apply attempt_quiet|]. intros _ _.
    apply seq_effects; [|intros _ _; rewrite print_quiet; constructor].
    destruct (wd_disk w (co_output o)).
    - constructor; [intro; discriminate|constructor].
    - apply seq_effects; [constructor; [apply stderr_ok|constructor]|]. intros; constructor.
    - constructor.
  Qed.

  Lemma command_quiet : forall is_schedule, Forall not_stdout (fst (run_command w o is_schedule)).
  Proof.
    intro is_schedule. unfold run_command. apply seq_effects; [apply parse_config_quiet|]. intros c _.
    cbv zeta. destruct is_schedule; (apply seq_effects; [|intros; apply save_quiet]).
    - unfold json_schedule. apply seq_effects; [apply attempt_quiet|]. intros _ _.
      apply seq_effects; [apply attempt_quiet|]. intros _ _.
      apply seq_effects; [rewrite await_quiet; constructor|]. intros r _.
      apply seq_effects; [apply attempt_quiet|]. intros; constructor.
    - unfold run_prediction. apply seq_effects; [apply attempt_quiet|]. intros _ _.
      apply seq_effects; [apply attempt_quiet|]. intros _ _.
      apply seq_effects; [rewrite await_quiet; constructor|]. intros r _.
      apply seq_effects; [unfold print_histogram_stats; rewrite print_quiet; constructor|]. intros _ _.
      apply seq_effects; [apply attempt_quiet|]. intros j _.
      apply seq_effects; [apply attempt_quiet|]. intros; constructor.
  Qed.
End Quiet.

(** C62, first part: whatever the project, the worker, the file system and
    the other options are and however the command ends, with --quiet it
    prints nothing on standard output. *)
Theorem quiet_silent : forall w o is_schedule text,
  wd_arguments w = Run o is_schedule -> co_quiet o = true ->
  ~ In (Printed Stdout text) (fst (main w)).
Proof.
  intros w o is_schedule text A Q I. unfold main in I. rewrite A in I.
  pose proof (command_quiet w o Q is_schedule) as F.
  destruct (run_command w o is_schedule) as [effects e]. cbn [fst] in F. rewrite Forall_forall in F.
  assert (G : In (Printed Stdout text) effects).
  { destruct e as [a|[|]|]; cbn [fst] in I; auto.
    apply in_app_iff in I. destruct I as [I|[I|[]]]; [exact I|discriminate I]. }
  exact (F _ G text eq_refl).
Qed.
Print Assumptions quiet_silent.

Definition tells_stderr (l : list effect) : Prop := exists text, In (Printed Stderr text) l.

Lemma tells_l : forall a b, tells_stderr a -> tells_stderr (a ++ b).
Proof. intros a b (t & H). exists t. apply in_app_iff. auto. Qed.
Lemma tells_r : forall a b, tells_stderr b -> tells_stderr (a ++ b).
Proof. intros a b (t & H). exists t. apply in_app_iff. auto. Qed.

Lemma die_tells : forall o text, snd (die o text) = Value tt /\ tells_stderr (fst (die o text)).
Proof.
  intros o text. unfold die. destruct (co_quiet o); (split; [reflexivity|]);
    exists (if co_color o then red text else text); cbn; auto.
Qed.

(** Where a user error comes from. *)
Lemma parse_config_user : forall o load, snd (parse_config o load) = Throws UserError ->
  tells_stderr (fst (parse_config o load)) /\
  (load (co_filename o) = BadFile \/ (exists l c m, load (co_filename o) = ParserException l c m) \/
   exists t, load (co_filename o) = ValidationError t).
Proof.
  intros o load H. unfold parse_config in *.
  assert (P : forall t, snd (print o t) = Value tt) by (intro; unfold print; destruct (co_quiet o); reflexivity).
  apply seq_throws in H. destruct H as [[H _]|(u & _ & H & ->)]; [rewrite P in H; discriminate H|]. cbv zeta in H.
  destruct (load (co_filename o)) as [c| |l c m|t|t].
  - apply seq_throws in H. destruct H as [[H _]|(u' & _ & H & _)]; [rewrite P in H|]; discriminate H.
  - split; [|left; reflexivity]. apply tells_r. apply seq_throws in H.
    destruct H as [[H _]|(u' & _ & H & ->)]; [rewrite (proj1 (die_tells _ _)) in H; discriminate H|].
    apply tells_l, die_tells.
  - split; [|right; left; eauto]. apply tells_r. apply seq_throws in H.
    destruct H as [[H _]|(u' & _ & H & ->)]; [rewrite (proj1 (die_tells _ _)) in H; discriminate H|].
    apply tells_l, die_tells.
  - split; [|right; right; eauto]. apply tells_r. apply seq_throws in H.
    destruct H as [[H _]|(u' & _ & H & ->)]; [rewrite (proj1 (die_tells _ _)) in H; discriminate H|].
    apply tells_l, die_tells.
  - exfalso. apply seq_throws in H.
    destruct H as [[H _]|(u' & _ & H & _)]; [rewrite (proj1 (die_tells _ _)) in H|]; discriminate H.
Qed.

Lemma handle_user : forall o d ok e, snd (handle o d ok e) <> Throws UserError.
Proof.
  intros o d ok e. destruct e; cbn; try discriminate.
  - destruct (co_log o); [destruct ok|]; discriminate.
  - destruct (_ && _); [|discriminate]. destruct (co_log o); discriminate.
Qed.

Lemma consume_user : forall o d ok l, snd (consume_events o d ok l) <> Throws UserError.
Proof.
  intros o d ok. induction l as [|e l IH]; cbn [consume_events]; [discriminate|]. intro H.
  apply seq_throws in H. destruct H as [[H _]|(a & _ & H & _)]; [exact (handle_user _ _ _ _ H)|].
  destruct (is_final_event e); [discriminate H|auto].
Qed.

Lemma await_user : forall R o d ok (k : work R), snd (await o d ok k) <> Throws UserError.
Proof.
  intros R o d ok k H. unfold await in H. apply seq_throws in H.
  destruct H as [[H _]|(a & _ & H & _)]; [|exact (attempt_user _ _ H)].
  destruct (co_quiet o); [discriminate H|exact (consume_user _ _ _ _ H)].
Qed.

Lemma print_ok : forall o t, snd (print o t) = Value tt.
Proof. intros o t. unfold print. destruct (co_quiet o); reflexivity. Qed.

Lemma json_schedule_user : forall c o d ok k, snd (json_schedule c o d ok k) <> Throws UserError.
Proof.
  intros c o d ok k H. unfold json_schedule in H.
  apply seq_throws in H. destruct H as [[H _]|(a & _ & H & _)]; [exact (attempt_user _ _ H)|].
  apply seq_throws in H. destruct H as [[H _]|(a1 & _ & H & _)]; [exact (attempt_user _ _ H)|].
  apply seq_throws in H. destruct H as [[H _]|(r & _ & H & _)]; [exact (await_user _ _ _ _ _ H)|].
  apply seq_throws in H. destruct H as [[H _]|(j & _ & H & _)]; [exact (attempt_user _ _ H)|discriminate H].
Qed.

Lemma run_prediction_user : forall c o d ok k, snd (run_prediction c o d ok k) <> Throws UserError.
Proof.
  intros c o d ok k H. unfold run_prediction in H.
  apply seq_throws in H. destruct H as [[H _]|(a & _ & H & _)]; [exact (attempt_user _ _ H)|].
  apply seq_throws in H. destruct H as [[H _]|(a1 & _ & H & _)]; [exact (attempt_user _ _ H)|].
  apply seq_throws in H. destruct H as [[H _]|(r & _ & H & _)]; [exact (await_user _ _ _ _ _ H)|].
  apply seq_throws in H. destruct H as [[H _]|(a2 & _ & H & _)].
  { unfold print_histogram_stats in H. rewrite print_ok in H. discriminate H. }
  apply seq_throws in H. destruct H as [[H _]|(j & _ & H & _)]; [exact (attempt_user _ _ H)|].
  apply seq_throws in H. destruct H as [[H _]|(h & _ & H & _)]; [exact (attempt_user _ _ H)|discriminate H].
Qed.

Lemma save_user : forall a b c o dump fs j, snd (save_json a b c o dump fs j) = Throws UserError ->
  tells_stderr (fst (save_json a b c o dump fs j)) /\ exists what, fs (co_output o) = CannotOpen what.
Proof.
  intros a b c o dump fs j H. unfold save_json in *.
  apply seq_throws in H. destruct H as [[H _]|(u & _ & H & ->)]; [destruct (attempt_user _ _ H)|].
  apply seq_throws in H. destruct H as [[H ->]|(u' & _ & H & _)].
  - destruct (fs (co_output o)) as [|what|]; try discriminate H. split; [|eauto]. apply tells_r.
    exists (if co_color o then red (a ++ eol ++ what)%string else (a ++ eol ++ what)%string). left. reflexivity.
  - rewrite print_ok in H. discriminate H.
Qed.

(** What the result is before it is saved, and how it is saved. *)
Definition compute (w : world) (o : cli_options) (is_schedule : bool) : act json :=
  seq (parse_config o (wd_load w)) (fun c =>
  let c' := {| cf_project := cf_project c; cf_bin_size := cf_bin_size c;
               cf_opt := parse_opt_params (co_opt o) (cf_opt c) |} in
  if is_schedule then json_schedule c' o (wd_display w) (wd_log_ok w) (wd_schedule w)
  else run_prediction c' o (wd_display w) (wd_log_ok w) (wd_predict w)).
Definition save (w : world) (o : cli_options) (is_schedule : bool) (j : json) : act unit :=
  if is_schedule then save_schedule_json o (wd_dump w) (wd_disk w) j
  else save_prediction_json o (wd_dump w) (wd_disk w) j.

Lemma seq_assoc : forall A B C (x : act A) (f : A -> act B) (g : B -> act C),
  seq x (fun a => seq (f a) g) = seq (seq x f) g.
Proof.
  intros A B C [l [a|t|]] f g; cbn; try reflexivity.
  destruct (f a) as [l1 [b|t|]]; cbn; try reflexivity.
  destruct (g b). cbn. rewrite app_assoc. reflexivity.
Qed.

Lemma command_split : forall w o s, run_command w o s = seq (compute w o s) (save w o s).
Proof.
  intros w o s. unfold compute. rewrite <- seq_assoc. unfold run_command, save. destruct s; reflexivity.
Qed.

(** The user errors. *)
Definition bad_input (l : loaded) : Prop :=
  l = BadFile \/ (exists line column msg, l = ParserException line column msg) \/
  exists what, l = ValidationError what.

Lemma compute_user : forall w o s, snd (compute w o s) = Throws UserError ->
  tells_stderr (fst (compute w o s)) /\ bad_input (wd_load w (co_filename o)).
Proof.
  intros w o s H. unfold compute in *. apply seq_throws in H. destruct H as [[H ->]|(c & _ & H & _)].
  - apply parse_config_user, H.
  - cbv zeta in H. destruct s; [destruct (json_schedule_user _ _ _ _ _ H)|destruct (run_prediction_user _ _ _ _ _ H)].
Qed.

(** C62, second part: an unsuccessful command tells standard error. *)
Theorem errors_reported : forall w, snd (main w) = Aborted \/ (exists n, n <> 0%Z /\ snd (main w) = Exited n) ->
  tells_stderr (fst (main w)).
Proof.
  intros w H. unfold main in *. destruct (wd_arguments w) as [t|t|t code|o s].
  - destruct H as [H|(n & N & H)]; [discriminate H|]. injection H as <-. congruence.
  - destruct H as [H|(n & N & H)]; [discriminate H|]. injection H as <-. congruence.
  - exists t. left. reflexivity.
  - destruct (run_command w o s) as [effects e] eqn:E. destruct e as [a|[|]|]; cbn [fst snd] in *.
    + destruct H as [H|(n & N & H)]; [discriminate H|]. injection H as <-. congruence.
    + rewrite command_split in E. pose proof (f_equal snd E) as E'. cbn [snd] in E'. apply seq_throws in E'.
      pose proof (f_equal fst E) as F. cbn [fst] in F. subst effects.
      destruct E' as [[T ->]|(j & _ & T & ->)]; [apply compute_user, T|].
      apply tells_r. unfold save in *. destruct s; apply (save_user _ _ _ _ _ _ _ T).
    + exists (wd_terminate w). apply in_app_iff. right. left. reflexivity.
    + destruct H as [H|(n & N & H)]; discriminate H.
Qed.
Print Assumptions errors_reported.

(** ** C63 *)

Definition not_saved (e : effect) : Prop := forall file content, e <> Saved file content.

Lemma show_not_saved : forall l, Forall not_saved (show l).
Proof. induction l; constructor; [intros f c; discriminate|assumption]. Qed.

Lemma print_not_saved : forall o t, Forall not_saved (fst (print o t)).
Proof. intros o t. unfold print. destruct (co_quiet o); repeat constructor; intros f c; discriminate. Qed.

Lemma print_error_not_saved : forall o c t, Forall not_saved (fst (print_error o c t)).
Proof. intros o c t. repeat constructor; intros f x; discriminate. Qed.

Lemma die_not_saved : forall o t, Forall not_saved (fst (die o t)).
Proof.
  intros o t. unfold die. apply seq_effects; [|intros; apply print_error_not_saved].
  destruct (co_quiet o); [constructor|apply print_error_not_saved].
Qed.

Lemma attempt_not_saved : forall A (x : outcome A), Forall not_saved (fst (attempt x)).
Proof. intros A x. rewrite attempt_effects. constructor. Qed.

Lemma does_not_saved : forall l, Forall not_saved l -> Forall not_saved (fst (does l)).
Proof. intros l H. exact H. Qed.

Lemma handle_not_saved : forall o d ok e, Forall not_saved (fst (handle o d ok e)).
Proof.
  intros o d ok e. destruct e; cbn [handle].
  - apply seq_effects.
    + constructor; [intros f x; discriminate|apply show_not_saved].
    + intros _ _. destruct (co_log o); [destruct ok|]; repeat constructor; intros f x; discriminate.
  - apply seq_effects; [apply attempt_not_saved|]. intros _ _. apply seq_effects; [apply show_not_saved|]. intros _ _.
    destruct (co_log o); repeat constructor; intros f x; discriminate.
  - apply seq_effects; [apply show_not_saved|]. intros _ _.
    apply seq_effects; [|intros _ _]; (constructor; [intros f x; discriminate|constructor]).
  - constructor.
  - constructor.
Qed.

Lemma consume_not_saved : forall o d ok l, Forall not_saved (fst (consume_events o d ok l)).
Proof.
  intros o d ok. induction l as [|e l IH]; cbn [consume_events]; [constructor|].
  apply seq_effects; [apply handle_not_saved|]. intros _ _. destruct (is_final_event e); [constructor|exact IH].
Qed.

Lemma await_not_saved : forall R o d ok (k : work R), Forall not_saved (fst (await o d ok k)).
Proof.
  intros R o d ok k. unfold await. apply seq_effects; [|intros; apply attempt_not_saved].
  destruct (co_quiet o); [constructor|apply consume_not_saved].
Qed.

Lemma compute_not_saved : forall w o s, Forall not_saved (fst (compute w o s)).
Proof.
  intros w o s. unfold compute. apply seq_effects.
  - unfold parse_config. apply seq_effects; [apply print_not_saved|]. intros _ _.
    destruct (wd_load w (co_filename o)).
    + apply seq_effects; [apply print_not_saved|]. intros; constructor.
    + apply seq_effects; [apply die_not_saved|]. intros; constructor.
    + apply seq_effects; [apply die_not_saved|]. intros _ _.
      apply seq_effects; [apply print_error_not_saved|]. intros; constructor.
    + apply seq_effects; [apply die_not_saved|]. intros; constructor.
    + apply seq_effects; [apply die_not_saved|]. intros; constructor.
  - intros c _. cbv zeta. destruct s.
    + unfold json_schedule. apply seq_effects; [apply attempt_not_saved|]. intros _ _.
      apply seq_effects; [apply attempt_not_saved|]. intros _ _.
      apply seq_effects; [apply await_not_saved|]. intros r _.
      apply seq_effects; [apply attempt_not_saved|]. intros; constructor.
    + unfold run_prediction. apply seq_effects; [apply attempt_not_saved|]. intros _ _.
      apply seq_effects; [apply attempt_not_saved|]. intros _ _.
      apply seq_effects; [apply await_not_saved|]. intros r _.
      apply seq_effects; [apply print_not_saved|]. intros _ _.
      apply seq_effects; [apply attempt_not_saved|]. intros j _.
      apply seq_effects; [apply attempt_not_saved|]. intros; constructor.
Qed.

(** How saving ends. *)
Lemma save_json_cases : forall a b c o dump fs j,
  let x := save_json a b c o dump fs j in
  match co_output o with
  | EmptyString => snd x = Throws OtherError /\ fst x = []
  | String _ _ =>
      match fs (co_output o) with
      | DiskOk => snd x = Value tt /\ In (Saved (co_output o) (dump j)) (fst x)
      | CannotOpen _ => snd x = Throws UserError /\ Forall not_saved (fst x)
      | WriteFails => snd x = Value tt /\ Forall not_saved (fst x)
      end
  end.
Proof.
  intros a b c o dump fs j. cbv zeta. unfold save_json. destruct (co_output o) as [|ch s] eqn:E.
  - split; reflexivity.
  - cbn [list_ascii_of_string length Nat.eqb negb expects attempt].
    destruct (fs (String ch s)) as [|what|].
    + unfold print. destruct (co_quiet o); cbn; auto.
    + split; [reflexivity|]. cbn. constructor; [intros f x; discriminate|constructor].
    + unfold print. destruct (co_quiet o); cbn; (split; [reflexivity|]); repeat constructor; intros f x; discriminate.
Qed.

Lemma save_cases : forall w o s j,
  let x := save w o s j in
  match co_output o with
  | EmptyString => snd x = Throws OtherError /\ fst x = []
  | String _ _ =>
      match wd_disk w (co_output o) with
      | DiskOk => snd x = Value tt /\ In (Saved (co_output o) (wd_dump w j)) (fst x)
      | CannotOpen _ => snd x = Throws UserError /\ Forall not_saved (fst x)
      | WriteFails => snd x = Value tt /\ Forall not_saved (fst x)
      end
  end.
Proof. intros w o s j. unfold save. destruct s; apply save_json_cases. Qed.

Lemma not_saved_in : forall l file content, Forall not_saved l -> ~ In (Saved file content) l.
Proof. intros l file content F I. rewrite Forall_forall in F. exact (F _ I file content eq_refl). Qed.

Lemma exit_zero_run : forall w o is_schedule,
  wd_arguments w = Run o is_schedule -> (forall file, wd_disk w file <> WriteFails) ->
  (snd (main w) = Exited 0 <-> exists content, In (Saved (co_output o) content) (fst (main w))).
Proof.
  intros w o s A D. unfold main. rewrite A, command_split.
  pose proof (compute_not_saved w o s) as N. unfold seq at 1 2.
  destruct (compute w o s) as [effects e]. cbn [fst snd] in *.
  destruct e as [j|t|].
  - pose proof (save_cases w o s j) as S. cbv zeta in S. destruct (save w o s j) as [es e2]. cbn [fst snd] in S.
    destruct (co_output o) as [|ch rest] eqn:EO.
    + destruct S as [-> ->]. cbn [fst snd]. split; [discriminate|]. intros (c & I).
      rewrite app_nil_r in I. apply in_app_iff in I. destruct I as [I|[I|[]]]; [|discriminate I].
      destruct (not_saved_in _ _ _ N I).
    + destruct (wd_disk w (String ch rest)) as [|what|] eqn:ED.
      * destruct S as [-> S]. cbn [fst snd]. split; [|reflexivity]. intros _. exists (wd_dump w j).
        apply in_app_iff. auto.
      * destruct S as [-> S]. cbn [fst snd]. split; [discriminate|]. intros (c & I).
        apply in_app_iff in I. destruct I as [I|I]; [destruct (not_saved_in _ _ _ N I)|destruct (not_saved_in _ _ _ S I)].
      * destruct (D _ ED).
  - destruct t; cbn [fst snd]; (split; [discriminate|]); intros (c & I); [|apply in_app_iff in I; destruct I as [I|[I|[]]]];
      try discriminate I; destruct (not_saved_in _ _ _ N I).
  - cbn [fst snd]. split; [discriminate|]. intros (c & I). destruct (not_saved_in _ _ _ N I).
Qed.

(** C63: if the file system loses no data silently, status 0 means exactly
    that the output file was written (or that only the help or the version
    was asked for).  What is missing: see [exit_status_refuted]. *)
Theorem exit_zero_partial : forall w,
  (forall text code, wd_arguments w = Rejected text code -> code <> 0%Z) ->
  (forall file, wd_disk w file <> WriteFails) ->
  (snd (main w) = Exited 0 <->
   (exists text, wd_arguments w = Help text \/ wd_arguments w = Version text) \/
   exists o is_schedule content, wd_arguments w = Run o is_schedule /\
     In (Saved (co_output o) content) (fst (main w))).
Proof.
  intros w R D. destruct (wd_arguments w) as [t|t|t c|o s] eqn:A.
  - split; [|unfold main; rewrite A; reflexivity]. intros _. left. eauto.
  - split; [|unfold main; rewrite A; reflexivity]. intros _. left. eauto.
  - split.
    + unfold main. rewrite A. cbn [snd]. intro E. injection E as E. destruct (R _ _ eq_refl E).
    + intros [(t' & [E|E])|(o & s & x & E & _)]; discriminate E.
  - rewrite (exit_zero_run w o s A D). split.
    + intros (x & I). right. exists o, s, x. auto.
    + intros [(t & [E|E])|(o' & s' & x & E & I)]; try discriminate E. injection E as <- <-. eauto.
Qed.
Print Assumptions exit_zero_partial.

(** C63: wrong arguments are reported with the status of CLI11. *)
Theorem rejected_arguments : forall w text code, wd_arguments w = Rejected text code ->
  main w = ([Printed Stderr text], Exited code).
Proof. intros w text code A. unfold main. rewrite A. reflexivity. Qed.
Print Assumptions rejected_arguments.

(** The same world with a file system that takes everything. *)
Definition with_good_disk (w : world) : world :=
  {| wd_arguments := wd_arguments w; wd_load := wd_load w; wd_predict := wd_predict w;
     wd_schedule := wd_schedule w; wd_display := wd_display w; wd_log_ok := wd_log_ok w;
     wd_dump := wd_dump w; wd_disk := fun _ => DiskOk; wd_terminate := wd_terminate w |}.

Lemma bad_input_throws : forall o load, bad_input (load (co_filename o)) ->
  snd (parse_config o load) = Throws UserError.
Proof.
  intros o load H. unfold parse_config, print, die, seq.
  destruct H as [->|[(l & c & m & ->)|(t & ->)]]; destruct (co_quiet o); reflexivity.
Qed.

Lemma not_started : forall w o s, bad_input (wd_load w (co_filename o)) ->
  snd (run_command w o s) = Throws UserError.
Proof.
  intros w o s B. unfold run_command. pose proof (bad_input_throws o (wd_load w) B) as P.
  unfold seq at 1. rewrite P. reflexivity.
Qed.

(** C63: the status is [EXIT_FAILURE] exactly if the input is unreadable,
    unparsable or invalid, or if the output file cannot be opened although
    everything else goes well. *)
Theorem exit_failure_iff : forall w o is_schedule,
  wd_arguments w = Run o is_schedule ->
  (snd (main w) = Exited exit_failure <->
   bad_input (wd_load w (co_filename o)) \/
   ((exists what, wd_disk w (co_output o) = CannotOpen what) /\ snd (main (with_good_disk w)) = Exited 0)).
Proof.
  intros w o s A.
  assert (C : compute (with_good_disk w) o s = compute w o s) by reflexivity.
  assert (M : forall v, wd_arguments v = Run o s -> snd (main v) =
    match snd (run_command v o s) with
    | Value _ => Exited 0 | Throws UserError => Exited exit_failure | Throws OtherError => Aborted | Never => Running
    end).
  { intros v Av. unfold main. rewrite Av. destruct (run_command v o s) as [l [a|[|]|]]; reflexivity. }
  rewrite (M w A), (M (with_good_disk w) A). split.
  - intro H. destruct (snd (run_command w o s)) as [a|[|]|] eqn:E; try discriminate H.
    rewrite command_split in E. apply seq_throws in E. destruct E as [[T _]|(j & V & T & _)].
    + left. exact (proj2 (compute_user w o s T)).
    + right. pose proof (save_cases w o s j) as S. cbv zeta in S.
      rewrite command_split, C. rewrite (proj1 (seq_step _ _ _ (save (with_good_disk w) o s) j V)).
      pose proof (save_cases (with_good_disk w) o s j) as S'. cbv zeta in S'.
      destruct (co_output o) as [|ch rest] eqn:EO; [destruct S as [S _]; congruence|].
      cbn [wd_disk with_good_disk] in S'. destruct S' as [-> _].
      destruct (wd_disk w (String ch rest)) as [|what|]; [destruct S; congruence| |destruct S; congruence].
      split; [eauto|reflexivity].
  - intros [B|[(what & D) G]].
    + rewrite (not_started w o s B). reflexivity.
    + destruct (snd (run_command (with_good_disk w) o s)) as [a|[|]|] eqn:E; try discriminate G.
      rewrite command_split, C in E. apply seq_value in E. destruct E as (j & V & T & _).
      rewrite command_split. rewrite (proj1 (seq_step _ _ _ (save w o s) j V)).
      pose proof (save_cases w o s j) as S. pose proof (save_cases (with_good_disk w) o s j) as S'. cbv zeta in S, S'.
      destruct (co_output o) as [|ch rest]; [destruct S'; congruence|]. rewrite D in S.
      destruct S as [-> _]. reflexivity.
Qed.
Print Assumptions exit_failure_iff.

(** ** C55 at the level of the command *)

(** The progress that an event reports is in [0, 1]; others report none. *)
Definition progress_in_range (e : event) : Prop :=
  match e with
  | ScheduleOptimization q _ _ => f_le f_zero q = true /\ f_le q f_one = true
  | _ => True
  end.

Lemma consume_without_finished : forall o d l, Forall progress_in_range l -> ~ In Finished l ->
  snd (consume_events o d true l) = Never.
Proof.
  intros o d. induction l as [|e l IH]; intros P N; cbn [consume_events]; [reflexivity|]. inversion P as [|e' l' P1 P2]; subst.
  assert (V : snd (handle o d true e) = Value tt).
  { destruct e as [|q m k| | |]; cbn; try reflexivity; try (destruct (co_log o); reflexivity).
    cbn in P1. destruct P1 as [-> ->]. cbn. destruct (co_log o); reflexivity. }
  rewrite (proj1 (seq_step _ _ _ (fun _ => if is_final_event e then done tt else consume_events o d true l) tt V)).
  destruct (is_final_event e) eqn:F.
  - destruct e; try discriminate F. exfalso. apply N. left. reflexivity.
  - apply IH; [exact P2|]. intro I. apply N. right. exact I.
Qed.

Lemma loaded_config : forall w o c, wd_load w (co_filename o) = Loaded c ->
  exists c', snd (parse_config o (wd_load w)) = Value c' /\ cf_project c' = cf_project c /\ cf_opt c' = cf_opt c.
Proof.
  intros w o c L. unfold parse_config. rewrite L. unfold print, seq.
  exists (match co_bin_size o with
          | Some z => {| cf_project := cf_project c; cf_bin_size := Some z; cf_opt := cf_opt c |}
          | None => c end).
  destruct (co_quiet o); destruct (co_bin_size o); auto.
Qed.

(** C55 with --quiet: a failing worker ends the command, which tells
    standard error.  What is missing: without --quiet the command does not
    end, see [shown_worker_failure_refuted]. *)
Theorem quiet_worker_failure_partial : forall w o c,
  wd_arguments w = Run o false -> co_quiet o = true ->
  wd_load w (co_filename o) = Loaded c ->
  (forall c', cf_project c' = cf_project c -> snd (wd_predict w c') = Broken) ->
  snd (main w) = Aborted /\ tells_stderr (fst (main w)).
Proof.
  intros w o c A Q L B.
  assert (E : snd (main w) = Aborted); [|split; [exact E|apply errors_reported; auto]].
  unfold main. rewrite A. assert (T : snd (run_command w o false) = Throws OtherError).
  { destruct (loaded_config w o c L) as (c' & V & P & _). unfold run_command.
    rewrite (proj1 (seq_step _ _ _ _ c' V)). cbv zeta.
    set (c2 := {| cf_project := cf_project c'; cf_bin_size := _; cf_opt := _ |}).
    assert (R : snd (run_prediction c2 o (wd_display w) (wd_log_ok w) (wd_predict w)) = Throws OtherError).
    { unfold run_prediction. destruct (negb (length (pr_tasks (cf_project c2)) =? 0)); [|reflexivity].
      destruct (negb (length (pr_agents (cf_project c2)) =? 0)); [|reflexivity].
      unfold await. rewrite Q, (B c2 P). reflexivity. }
    unfold seq. rewrite R. reflexivity. }
  destruct (run_command w o false) as [l e]. cbn [snd] in T. subst e. reflexivity.
Qed.
Print Assumptions quiet_worker_failure_partial.

(** C55 fails without --quiet: a worker that throws has not enqueued
    [Finished] (see [predict_events]), and the command runs for ever, unless
    the progress display ends it (see [bad_progress_aborts]). *)
Theorem shown_worker_failure_refuted : forall w o c,
  wd_arguments w = Run o false -> co_quiet o = false -> wd_log_ok w = true ->
  wd_load w (co_filename o) = Loaded c ->
  pr_tasks (cf_project c) <> [] -> pr_agents (cf_project c) <> [] ->
  (forall c', cf_project c' = cf_project c ->
     ~ In Finished (fst (wd_predict w c')) /\ Forall progress_in_range (fst (wd_predict w c'))) ->
  snd (main w) = Running.
Proof.
  intros w o c A Q LG L NT NA B. unfold main. rewrite A.
  assert (T : snd (run_command w o false) = Never).
  { destruct (loaded_config w o c L) as (c' & V & P & _). unfold run_command.
    rewrite (proj1 (seq_step _ _ _ _ c' V)). cbv zeta.
    set (c2 := {| cf_project := cf_project c'; cf_bin_size := _; cf_opt := _ |}).
    assert (R : snd (run_prediction c2 o (wd_display w) (wd_log_ok w) (wd_predict w)) = Never).
    { unfold run_prediction. rewrite <- P in NT, NA. cbn [c2 cf_project].
      destruct (pr_tasks (cf_project c')); [congruence|]. destruct (pr_agents (cf_project c')); [congruence|].
      cbn [length Nat.eqb negb expects attempt done].
      rewrite !(proj1 (seq_step _ _ ([], Value tt) _ tt eq_refl)).
      unfold await. rewrite Q, LG. unfold seq at 1 2.
      rewrite (consume_without_finished o (wd_display w) _ (proj2 (B c2 P)) (proj1 (B c2 P))). reflexivity. }
    unfold seq. rewrite R. reflexivity. }
  destruct (run_command w o false) as [l e]. cbn [snd] in T. subst e. reflexivity.
Qed.
Print Assumptions shown_worker_failure_refuted.

Lemma consume_bad_progress : forall o d l q m k l', Forall progress_in_range l -> ~ In Finished l ->
  ~ progress_in_range (ScheduleOptimization q m k) ->
  snd (consume_events o d true (l ++ ScheduleOptimization q m k :: l')) = Throws OtherError.
Proof.
  intros o d. induction l as [|e l IH]; intros q m k l' P N B; cbn [app consume_events].
  - cbn [progress_in_range] in B. unfold handle. destruct (f_le f_zero q && f_le q f_one) eqn:X; [|reflexivity].
    apply andb_true_iff in X. destruct B. exact X.
  - inversion P as [|e' l0 P1 P2]; subst.
    assert (V : snd (handle o d true e) = Value tt).
    { destruct e as [|q' m' k'| | |]; cbn; try reflexivity; try (destruct (co_log o); reflexivity).
      cbn in P1. destruct P1 as [-> ->]. cbn. destruct (co_log o); reflexivity. }
    rewrite (proj1 (seq_step _ _ _ (fun _ => if is_final_event e then done tt else consume_events o d true _) tt V)).
    destruct (is_final_event e) eqn:F.
    + destruct e; try discriminate F. exfalso. apply N. left. reflexivity.
    + apply IH; auto. intro I. apply N. right. exact I.
Qed.

(** C37 and the command: a reported progress that is not in [0, 1], such as
    the NaN of [progress_refuted], ends the command if progress is shown. *)
Theorem bad_progress_aborts : forall w o c l q m k l',
  wd_arguments w = Run o false -> co_quiet o = false -> wd_log_ok w = true ->
  wd_load w (co_filename o) = Loaded c ->
  pr_tasks (cf_project c) <> [] -> pr_agents (cf_project c) <> [] ->
  (forall c', cf_project c' = cf_project c -> fst (wd_predict w c') = (l ++ ScheduleOptimization q m k :: l')%list) ->
  Forall progress_in_range l -> ~ In Finished l -> ~ progress_in_range (ScheduleOptimization q m k) ->
  snd (main w) = Aborted.
Proof.
  intros w o c l q m k l' A Q LG L NT NA B P N X. unfold main. rewrite A.
  assert (T : snd (run_command w o false) = Throws OtherError).
  { destruct (loaded_config w o c L) as (c' & V & E & _). unfold run_command.
    rewrite (proj1 (seq_step _ _ _ _ c' V)). cbv zeta.
    set (c2 := {| cf_project := cf_project c'; cf_bin_size := _; cf_opt := _ |}).
    assert (R : snd (run_prediction c2 o (wd_display w) (wd_log_ok w) (wd_predict w)) = Throws OtherError).
    { unfold run_prediction. rewrite <- E in NT, NA. cbn [c2 cf_project].
      destruct (pr_tasks (cf_project c')); [congruence|]. destruct (pr_agents (cf_project c')); [congruence|].
      cbn [length Nat.eqb negb expects attempt done].
      rewrite !(proj1 (seq_step _ _ ([], Value tt) _ tt eq_refl)).
      unfold await. rewrite Q, LG, (B c2 E). unfold seq at 1 2.
      rewrite (consume_bad_progress o (wd_display w) l q m k l' P N X). reflexivity. }
    unfold seq. rewrite R. reflexivity. }
  destruct (run_command w o false) as [es e]. cbn [snd] in T. subst e. reflexivity.
Qed.
Print Assumptions bad_progress_aborts.

(** ** Concrete worlds *)

Definition ex_cli (quiet : bool) : cli_options :=
  {| co_filename := "tasks.yml"; co_verbose := false; co_color := false; co_quiet := quiet;
     co_output := "out.json"; co_opt := ex_options; co_log := false; co_bin_size := None |}.

(** The schedule subcommand on the project of PredictProps.v. *)
Definition ex_world (quiet : bool) (l : loaded) (d : disk) : world :=
  {| wd_arguments := Run (ex_cli quiet) true;
     wd_load := fun _ => l;
     wd_predict := fun _ => ([], Broken);
     wd_schedule := fun c => schedule 20 step_exp (cf_project c) (cf_opt c) 2
       (fun n => if n =? 1 then ex_ks else fun _ _ => ex_stuck);
     wd_display := {| ds_start := []; ds_update := fun _ => ["progress"%string]; ds_stop := []; ds_number := fun _ => ""%string |};
     wd_log_ok := true;
     wd_dump := fun _ => "{}"%string;
     wd_disk := fun _ => d;
     wd_terminate := "terminate called"%string |}.

Definition ex_config : config := {| cf_project := ex_short; cf_bin_size := None; cf_opt := ex_options |}.

Definition channels (l : list effect) : list nat :=
  map (fun e => match e with Printed Stdout _ => 1 | Printed Stderr _ => 2 | Saved _ _ => 3 | Logged _ _ => 4 end) l.

Example ex_quiet :
  (channels (fst (main (ex_world true (Loaded ex_config) DiskOk))) = [3] /\
   snd (main (ex_world true (Loaded ex_config) DiskOk)) = Exited 0) /\
  (channels (fst (main (ex_world true (ValidationError "bad") DiskOk))) = [2] /\
   snd (main (ex_world true (ValidationError "bad") DiskOk)) = Exited 1) /\
  (channels (fst (main (ex_world true (Loaded ex_config) (CannotOpen "no")))) = [2] /\
   snd (main (ex_world true (Loaded ex_config) (CannotOpen "no"))) = Exited 1) /\
  (channels (fst (main (ex_world true (UnexpectedException "bad") DiskOk))) = [2; 2] /\
   snd (main (ex_world true (UnexpectedException "bad") DiskOk)) = Aborted).
Proof. vm_compute. repeat split. Qed.

Example ex_shown :
  channels (fst (main (ex_world false (Loaded ex_config) DiskOk))) = [1; 1; 1; 1; 1; 1; 1; 1; 1; 1; 1; 3; 1] /\
  channels (fst (main (ex_world false (ValidationError "bad") DiskOk))) = [1; 1; 2].
Proof. vm_compute. repeat split. Qed.

(** C63 fails: when writing to the opened file fails (a full disk), the
    status is 0 and the message says that the result was saved. *)
Theorem exit_status_refuted : exists w o,
  wd_arguments w = Run o true /\ snd (main w) = Exited 0 /\
  forall file content, ~ In (Saved file content) (fst (main w)).
Proof.
  exists (ex_world true (Loaded ex_config) WriteFails), (ex_cli true).
  split; [reflexivity|]. split; [vm_compute; reflexivity|].
  assert (E : channels (fst (main (ex_world true (Loaded ex_config) WriteFails))) = []) by (vm_compute; reflexivity).
  intros file content I. destruct (fst (main (ex_world true (Loaded ex_config) WriteFails))); [exact I|discriminate E].
Qed.
Print Assumptions exit_status_refuted.

(** The two theorems about failing workers, on the project whose worker
    throws. *)
Definition ex_fail_world (quiet : bool) : world :=
  {| wd_arguments := Run (ex_cli quiet) false;
     wd_load := fun _ => Loaded {| cf_project := ex_slow; cf_bin_size := None; cf_opt := ex_options |};
     wd_predict := fun c => predict 20 step_exp ex_accumulators (cf_project c) (cf_bin_size c) ex_options 2
       (fun _ => ex_ks) [];
     wd_schedule := fun _ => ([], Broken);
     wd_display := {| ds_start := []; ds_update := fun _ => []; ds_stop := []; ds_number := fun _ => ""%string |};
     wd_log_ok := true; wd_dump := fun _ => "{}"%string; wd_disk := fun _ => DiskOk;
     wd_terminate := "terminate called"%string |}.

Example ex_worker_failure :
  snd (main (ex_fail_world true)) = Aborted /\ snd (main (ex_fail_world false)) = Running /\
  channels (fst (main (ex_fail_world true))) = [2].
Proof. vm_compute. auto. Qed.

(** A worker that reports a NaN after a good report. *)
Definition ex_nan_world : world :=
  {| wd_arguments := Run (ex_cli false) false;
     wd_load := fun _ => Loaded ex_config;
     wd_predict := fun _ => ([ScheduleOptimizationStart; ScheduleOptimization f_one 2 1;
                              ScheduleOptimization BinarySingleNaN.B754_nan 1 2], NoFuel);
     wd_schedule := fun _ => ([], Broken);
     wd_display := {| ds_start := []; ds_update := fun _ => []; ds_stop := []; ds_number := fun _ => ""%string |};
     wd_log_ok := true; wd_dump := fun _ => "{}"%string; wd_disk := fun _ => DiskOk;
     wd_terminate := "terminate called"%string |}.

Example ex_bad_progress :
  Forall progress_in_range [ScheduleOptimizationStart; ScheduleOptimization f_one 2 1] /\
  ~ progress_in_range (ScheduleOptimization BinarySingleNaN.B754_nan 1 2) /\ snd (main ex_nan_world) = Aborted.
Proof.
  split; [|split].
  - constructor; [exact I|]. constructor; [|constructor]. split; vm_compute; reflexivity.
  - intros [H _]. vm_compute in H. discriminate H.
  - vm_compute. reflexivity.
Qed.
