(** * Property theorem C93: the program works with its default options *)

From Coq Require Import String Ascii List ZArith Bool Arith Lia Reals Lra.
From Flocq Require Import Core BinarySingleNaN.
From Verif Require Import Base F32 F32Facts F32Signed ProjectModel ScheduleModel ScheduleSpec TimelineSpec TemperatureModel TemperatureSpec
  StunModel SearchSpec StunProofs StunProps OptimizerModel OptimizerSpec CurveSpec OptimizerProps RollingSpec RollingProps
  PredictModel PredictProps CliModel CliProps ResultProps YamlModel DocumentSpec LoadSpec LoadModel LoadFacts LoadProps PlanSpec PlanProps
  OrdinarySpec CompletionProps
  OptionsModel OptionsProps OptionValuesModel OptionValuesSpec OptionValuesProofs OptionValuesProps DefaultsModel.
Import ListNotations.
Local Open Scope nat_scope.

(** ** C93 *)

(** The default options are usable, for every running mean whose error is
    at most 1/4. *)
Theorem default_options_usable : sane_options default_options /\ iteration_range default_options /\
  forall orac, mean_within quarter orac -> mean_sane orac default_options.
Proof.
  split; [|split].
  - constructor; cbn [default_options op_batch op_max_idle op_scale op_window op_gamma op_period]; try lia; try (vm_compute; reflexivity).
    + split; vm_compute; reflexivity.
    + exists 8. split; [reflexivity|lia].
  - constructor; cbn [default_options op_batch op_max_idle]; lia.
  - intros orac W. exists quarter. split; [exact quarter_ok|]. split; [exact W|]. vm_compute. reflexivity.
Qed.
Print Assumptions default_options_usable.

(** The texts of the numbers. *)
Lemma digits_last : forall l z d, digits l z -> (0 <= d < 10)%Z ->
  forall l' z', l' = l ++ [ascii_of_nat (Z.to_nat (48 + d))] -> z' = (10 * z + d)%Z -> digits l' z'.
Proof. intros l z d H D l' z' -> ->. apply dg_more; assumption. Qed.

Lemma digits_first : forall d, (0 <= d < 10)%Z -> forall l', l' = [ascii_of_nat (Z.to_nat (48 + d))] -> digits l' d.
Proof. intros d D l' ->. apply dg_one, D. Qed.

Lemma texts_of_defaults :
  digits (list_ascii_of_string "10000") 10000 /\ digits (list_ascii_of_string "100000") 100000 /\
  digits (list_ascii_of_string "100") 100 /\ digits (list_ascii_of_string "2") 2 /\ digits (list_ascii_of_string "256") 256.
Proof.
  assert (H1 : digits (list_ascii_of_string "1") 1) by (apply digits_first; [lia|reflexivity]).
  assert (H2 : digits (list_ascii_of_string "10") 10) by (apply (digits_last _ _ 0 H1); [lia|reflexivity|reflexivity]).
  assert (H3 : digits (list_ascii_of_string "100") 100) by (apply (digits_last _ _ 0 H2); [lia|reflexivity|reflexivity]).
  assert (H4 : digits (list_ascii_of_string "1000") 1000) by (apply (digits_last _ _ 0 H3); [lia|reflexivity|reflexivity]).
  assert (H5 : digits (list_ascii_of_string "10000") 10000) by (apply (digits_last _ _ 0 H4); [lia|reflexivity|reflexivity]).
  assert (H6 : digits (list_ascii_of_string "100000") 100000) by (apply (digits_last _ _ 0 H5); [lia|reflexivity|reflexivity]).
  assert (G1 : digits (list_ascii_of_string "2") 2) by (apply digits_first; [lia|reflexivity]).
  assert (G2 : digits (list_ascii_of_string "25") 25) by (apply (digits_last _ _ 5 G1); [lia|reflexivity|reflexivity]).
  assert (G3 : digits (list_ascii_of_string "256") 256) by (apply (digits_last _ _ 6 G2); [lia|reflexivity|reflexivity]).
  repeat split; assumption.
Qed.

(** C93: the default options, written as in the help, are accepted as
    arguments, and give the same options: for every [strtold] that reads
    integers, and 0.001 as the number nearest to 1/1000. *)
Theorem default_texts_accepted : forall strtold, reads_integers strtold ->
  strtold (list_ascii_of_string "0.001") = Some ex_thousandth ->
  int_option strtold (list_ascii_of_string "10000") = Some (op_batch default_options) /\
  int_option strtold (list_ascii_of_string "100000") = Some (op_max_idle default_options) /\
  int_option strtold (list_ascii_of_string "100") = Some (op_window default_options) /\
  restart_period (positive_number strtold) (list_ascii_of_string "256") = Some (op_period default_options) /\
  (exists v, float_option strtold (list_ascii_of_string "2") = Some v /\ f_eq v (op_gamma default_options) = true) /\
  (exists v, float_option strtold (list_ascii_of_string "0.001") = Some v /\ f_eq v (op_scale default_options) = true).
Proof.
  intros strtold RI T. destruct texts_of_defaults as (D1 & D2 & D3 & D4 & D5).
  cbn [default_options op_batch op_max_idle op_scale op_window op_gamma op_period].
  split; [|split; [|split; [|split; [|split]]]].
  - apply int_option_accepts; [exact RI|apply decimal_digits, D1|discriminate|lia].
  - apply int_option_accepts; [exact RI|apply decimal_digits, D2|discriminate|lia].
  - apply int_option_accepts; [exact RI|apply decimal_digits, D3|discriminate|lia].
  - apply (restart_period_accepts _ _ 8); [apply positive_number_checks_sign, RI|lia|exact D5|].
    intros ([|c a] & b & E & F); [discriminate E|]. injection E as <- _. inversion F as [|? ? X _]; subst.
    destruct X as [X|[X|X]]; discriminate X.
  - destruct RI as (RD & _ & _).
    destruct (RD _ _ (wr_plain 10 [] [] _ 2%Z (Forall_nil _) (decimal_digits _ _ D4))) as (x & E & X & _).
    destruct X as [F V]; [reflexivity|].
    destruct (float_option_partial strtold (list_ascii_of_string "2") x E F) as (v & A & _ & VF & VV).
    { rewrite V. change 2%R with (bpow radix2 1). split; apply bpow_le; lia. }
    exists v. split; [exact A|]. destruct (of_Z_exact 2 ltac:(lia)) as [F2 V2].
    unfold f_eq. rewrite Beqb_correct by assumption. apply Req_bool_true. rewrite VV, V, V2.
    rewrite <- V2. apply round_generic; [apply valid_rnd_N|apply generic_format_B2R].
  - exists (to_float ex_thousandth). unfold float_option, positive_number. rewrite T.
    split; [|vm_compute; reflexivity].
    replace (negb _) with true by (vm_compute; reflexivity). reflexivity.
Qed.
Print Assumptions default_texts_accepted.

(** Such a function exists. *)
Example ex_default_texts : exists strtold, reads_integers strtold /\
  strtold (list_ascii_of_string "0.001") = Some ex_thousandth.
Proof.
  set (t := list_ascii_of_string "0.001").
  exists (fun l => if list_eq_dec ascii_dec l t then Some ex_thousandth else ex_strtold l).
  split; [|destruct (list_eq_dec ascii_dec t t); [reflexivity|contradiction]].
  assert (N : forall l z, written 10 [] l z \/ hexadecimal l z -> l <> t).
  { intros l z W ->.
    destruct W as [W|W].
    - assert (R : strtoll 10 t = Some (z, [])).
      { unfold strtoll. change (10 =? 0)%Z with false. cbv iota. apply (written_read 10 [] t z (read_number 10)); [lia| | |exact W].
        - intros r v D. apply in_number; [exact D|lia].
        - intros r v D. destruct (in_head _ _ _ D) as (c & d & r' & DG & ->). exists c, r'. split; [reflexivity|].
          pose proof (digit_char_in _ _ _ DG ltac:(lia)). tauto. }
      vm_compute in R. discriminate R.
    - assert (X : exists c, (c = "x" \/ c = "X")%char /\ written 16 ["0"%char; c] t z) by (destruct W; eauto).
      destruct X as (c & X & W').
      assert (R : strtoll 0 t = Some (z, [])).
      { unfold strtoll. cbn [Z.eqb]. apply (written_read 16 ["0"%char; c] t z); [lia| | |exact W'].
        - intros r v D. cbn [app read_prefixed].
          replace (Ascii.eqb c "x" || Ascii.eqb c "X")%bool with true by (destruct X as [->| ->]; reflexivity).
          rewrite (in_number 16 r v D) by lia. reflexivity.
        - intros r v D. exists "0"%char, (c :: r). repeat split; discriminate. }
      vm_compute in R. discriminate R. }
  destruct ex_strtold_reads as (RD & RH & RT). split; [|split].
  - intros l z W. destruct (list_eq_dec ascii_dec l t) as [E|E]; [destruct (N l z (or_introl W) E)|apply RD, W].
  - intros l z W. destruct (list_eq_dec ascii_dec l t) as [E|E]; [destruct (N l z (or_intror W) E)|apply RH, W].
  - destruct (list_eq_dec ascii_dec _ t) as [E|E]; [discriminate E|exact RT].
Qed.

(** C93: the subcommand schedule with [--quiet] and without other options
    about the optimization. *)
Theorem defaults_schedule_completes : forall as_float d ags es p ps o l orac threads ks,
  document_agents d ags -> document_tasks d es ->
  (forall s x, as_float s = Some x -> is_finite x = true /\ (B2R x < bpow radix2 127)%R) ->
  load as_float d = Loads p -> (forall t, In t (pr_tasks p) -> (tk_max t <= 2 ^ 63)%Z) ->
  to_schedule_params p = Ok ps -> (forall i, i < task_count ps -> exists a, allowed ps i a) ->
  ordinary_times p ps ->
  exp_sane orac -> mean_within quarter orac -> exp_nonneg orac -> log_sane orac ->
  0 < threads -> cf_project l = p -> co_opt o = default_options -> co_quiet o = true -> co_output o <> ""%string ->
  exists n, forall fuel w, n <= fuel ->
    wd_arguments w = Run o true -> wd_load w (co_filename o) = Loaded l -> wd_disk w (co_output o) = DiskOk ->
    (forall c, wd_schedule w c = schedule fuel orac (cf_project c) (cf_opt c) threads ks) ->
    snd (main w) = Exited 0 /\
    exists j at_, files (fst (main w)) = [(co_output o, wd_dump w j)] /\ plan as_float ags es (written_tasks j) at_.
Proof.
  intros as_float d ags es p ps o l orac threads ks A T NUM H MX HE AB ORD HX HM HP0 HL TH CP DO Q NO.
  destruct default_options_usable as (HO & HI & M).
  apply (ordinary_schedule_completes as_float d ags es p ps o l default_options orac threads ks); auto.
  rewrite DO. reflexivity.
Qed.
Print Assumptions defaults_schedule_completes.

(** For instance the document of PlanProps.v. *)
Definition default_cli : cli_options :=
  {| co_filename := "tasks.yml"; co_verbose := false; co_color := false; co_quiet := true;
     co_output := "out.json"; co_opt := default_options; co_log := false; co_bin_size := None |}.

Lemma zero_mean : mean_within quarter step_exp.
Proof.
  intros w l _ _ _. cbn [step_exp or_mean]. split; [reflexivity|]. rewrite (proj2 quarter_value). change (B2R f_zero) with 0%R. lra.
Qed.

Example ex_defaults : exists n, forall fuel w, n <= fuel ->
  wd_arguments w = Run default_cli true ->
  wd_load w "tasks.yml"%string = Loaded {| cf_project := plan_project; cf_bin_size := None; cf_opt := ex_options |} ->
  wd_disk w "out.json"%string = DiskOk ->
  (forall c, wd_schedule w c = schedule fuel step_exp (cf_project c) (cf_opt c) 2 (fun _ _ _ => ex_stuck)) ->
  snd (main w) = Exited 0 /\ exists j, files (fst (main w)) = [("out.json"%string, wd_dump w j)].
Proof.
  pose proof plan_loads as L. facts L ags es F.
  destruct (defaults_schedule_completes (fun _ => None) plan_doc ags es plan_project plan_params default_cli
    {| cf_project := plan_project; cf_bin_size := None; cf_opt := ex_options |} step_exp 2 (fun _ _ _ => ex_stuck)
    (fa_ags _ _ _ _ _ F) (fa_es _ _ _ _ _ F)
    no_numbers plan_loads plan_max plan_params_ok plan_allowed plan_ordinary step_exp_sane zero_mean
    step_exp_nonneg step_log_sane ltac:(lia) eq_refl eq_refl eq_refl ltac:(discriminate)) as (n & N).
  exists n. intros fuel w Hf WA WL WD WS. destruct (N fuel w Hf WA WL WD WS) as (X & j & _ & Y & _). eauto.
Qed.
