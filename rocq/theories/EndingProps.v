(** * Property theorems C87: the simulation of a project without
      uncertainty ends *)

From Coq Require Import String List ZArith Bool Arith Reals Lia Lra.
From Flocq Require Import Core BinarySingleNaN.
From Verif Require Import Base F32 F32Facts F32Signed ProjectModel YamlModel LoadModel LoadProps ScheduleModel ScheduleSpec MakespanModel
  ScheduleProps HistogramModel HistogramSpec
  HistogramProps SimulationModel SimulationSpec SimulationProofs SimulationProps RollingModel PSquareModel PSquareSpec PSquareFloats
  PSquareProofs PSquareProps EndingProofs.
Import ListNotations.

(** ** Batches of equal runs *)

(** The relative change from 1 to [z] in all five estimates. *)
Definition first_error (z : Z) : f32 :=
  f_div (error_sum f_zero (combine (repeat f_one 5) (repeat (f_of_Z z) 5))) (f_of_Z 5).

Lemma no_change : forall z, (1 <= z < 2 ^ 63)%Z -> pct_error (f_of_Z z) (f_of_Z z) = f_zero.
Proof.
  intros z Z. destruct (seconds_good z) as [[F B] E]; [lia|].
  assert (P : (0 < B2R (f_of_Z z))%R).
  { apply Rlt_le_trans with (B2R f_one); [rewrite (proj2 one_fin); lra|]. apply (of_Z_le 1); lia. }
  unfold pct_error.
  destruct (sub_fin (f_of_Z z) (f_of_Z z) F F) as [FS ES].
  { rewrite Rminus_eq_0, Rabs_R0. apply bpow_ge_0. }
  rewrite Rminus_eq_0, rnd_0 in ES.
  destruct (div_fin (f_sub (f_of_Z z) (f_of_Z z)) (f_of_Z z) FS) as [FQ EQ].
  { lra. }
  { rewrite ES. unfold Rdiv. rewrite Rmult_0_l, Rabs_R0. apply bpow_ge_0. }
  rewrite ES in EQ. unfold Rdiv in EQ. rewrite Rmult_0_l, rnd_0 in EQ.
  destruct (f_div (f_sub (f_of_Z z) (f_of_Z z)) (f_of_Z z)) as [s|s| |s m e H]; try discriminate FQ; [reflexivity|].
  exfalso. cbn [B2R] in EQ. apply eq_0_F2R in EQ. destruct s; discriminate EQ.
Qed.

Lemma first_error_is : forall z, (1 <= z < 2 ^ 63)%Z -> nn (error_sum f_zero (combine (repeat f_one 5) (repeat (f_of_Z z) 5))) ->
  mean_absolute_pct_error (repeat (f_of_Z z) 5) (repeat f_one 5) = Ok (first_error z, repeat (f_of_Z z) 5).
Proof.
  intros z Z N. unfold mean_absolute_pct_error. rewrite !repeat_length. cbn [Nat.eqb Nat.leb negb expects bind].
  apply nn_iff in N. rewrite N. reflexivity.
Qed.

Lemma first_error_nn : forall z, (1 <= z < 2 ^ 63)%Z ->
  nn (error_sum f_zero (combine (repeat f_one 5) (repeat (f_of_Z z) 5))).
Proof.
  intros z Z. destruct (seconds_good z) as [[F B] _]; [lia|]. destruct one_fin as [F1 E1].
  apply error_sum_nn; [exact nn_zero|]. apply Forall_forall. intros [a b] H.
  pose proof (in_combine_l _ _ _ _ H) as A. pose proof (in_combine_r _ _ _ _ H) as C.
  apply repeat_spec in A, C. subst a b. cbn [fst snd]. apply pct_error_nn; try assumption.
  - rewrite E1, Rabs_R1. change 1%R with (bpow radix2 0). apply bpow_le. lia.
  - apply Rle_trans with (1 := B). apply bpow_le. lia.
  - rewrite E1. lra.
Qed.

Lemma later_error_is : forall z, (1 <= z < 2 ^ 63)%Z ->
  mean_absolute_pct_error (repeat (f_of_Z z) 5) (repeat (f_of_Z z) 5) = Ok (f_zero, repeat (f_of_Z z) 5).
Proof.
  intros z Z. unfold mean_absolute_pct_error. rewrite !repeat_length. cbn [Nat.eqb Nat.leb negb expects bind].
  cbn [repeat combine error_sum fst snd]. rewrite (no_change z Z).
  replace (f_add f_zero f_zero) with f_zero by reflexivity. cbn [expects bind].
  replace (f_add f_zero f_zero) with f_zero by reflexivity.
  replace (f_le f_zero f_zero) with true by reflexivity. cbn [expects bind].
  replace (f_div f_zero (f_of_Z 5)) with f_zero by (apply B2SF_inj; vm_compute; reflexivity). reflexivity.
Qed.

(** The state after [k] batches, [k >= 1], of runs of [z] seconds. *)
Definition after (p : project) (l : list item) (d : list f32) (h0 : histogram) (z : Z) (k : nat) (st : hist_state) : Prop :=
  sim_reached p (hs_sim st) /\ hs_draws st = d /\ (1 <= h_bin_size (hs_hist st))%Z /\
  Forall (fun x => x = z) (hs_samples st) /\ 13 <= length (hs_samples st) /\
  hs_quantiles st = repeat (f_of_Z z) 5 /\ hs_errors st = first_error z :: repeat f_zero (k - 1) /\
  collected p l d h0 st.

Lemma constant_list : forall (z : Z) l, Forall (fun x => x = z) l -> l = repeat z (length l).
Proof. intros z l H. induction H as [|x l E _ IH]; [reflexivity|]. cbn [length repeat]. rewrite <- IH, E. reflexivity. Qed.

Section Equal_runs.
Context (p : project) (l : list item) (d : list f32) (h0 : histogram) (z : Z).
Context (HZ : (1 <= z < 2 ^ 63)%Z) (NL : l <> []).
Context (HR : forall s, sim_reached p s -> exists r, sim_run s l d = Ok r /\ sr_makespan r = z /\ sr_draws r = d).

(** A batch of equal runs. *)
Lemma equal_batch : forall st q e, sim_reached p (hs_sim st) -> hs_draws st = d -> (1 <= h_bin_size (hs_hist st))%Z ->
  Forall (fun x => x = z) (hs_samples st) -> collected p l d h0 st -> hs_quantiles st = q ->
  mean_absolute_pct_error (repeat (f_of_Z z) 5) q = Ok (e, repeat (f_of_Z z) 5) ->
  exists st', one_batch boost_accumulators l st = Ok st' /\
    sim_reached p (hs_sim st') /\ hs_draws st' = d /\ (1 <= h_bin_size (hs_hist st'))%Z /\
    Forall (fun x => x = z) (hs_samples st') /\ 13 <= length (hs_samples st') /\
    hs_quantiles st' = repeat (f_of_Z z) 5 /\ hs_errors st' = hs_errors st ++ [e] /\ collected p l d h0 st'.
Proof.
  intros st q e R D B S C Q M.
  assert (X : exists st', one_batch boost_accumulators l st = Ok st' /\
    sim_reached p (hs_sim st') /\ hs_draws st' = d /\ (1 <= h_bin_size (hs_hist st'))%Z /\
    Forall (fun x => x = z) (hs_samples st') /\ 13 <= length (hs_samples st') /\
    hs_quantiles st' = repeat (f_of_Z z) 5 /\ hs_errors st' = hs_errors st ++ [e]).
  { unfold one_batch. destruct (Nat.eqb_spec (length l) 0) as [X|_]; [destruct l; [congruence|discriminate X]|].
    cbn [negb expects bind].
    assert (BP : 13 <= sim_batch_size) by (unfold sim_batch_size; lia).
    revert BP. generalize sim_batch_size. intros n BP.
    destruct (constant_batch p l z (fun _ => d) ltac:(lia) (fun _ s H => HR s H) n 0 st R D B S)
      as (st1 & E & A1 & A2 & A3 & A4 & A5 & A6 & A7).
    rewrite E. cbn [bind]. unfold log_error. cbn [boost_accumulators ac_quantiles].
    rewrite (constant_list z (rev (hs_samples st1)) (Forall_rev A4)), rev_length, same_estimates by lia.
    rewrite A7, Q, M. cbn [bind fst snd]. eexists. split; [reflexivity|].
    cbn [hs_sim hs_draws hs_hist hs_samples hs_errors hs_quantiles].
    split; [exact A1|]. split; [exact A2|]. split; [exact A3|]. split; [exact A4|]. split; [lia|].
    split; [reflexivity|]. rewrite A6. reflexivity. }
  destruct X as (st' & E & X). exists st'. split; [exact E|].
  destruct (one_collected boost_accumulators _ _ _ _ _ _ C E) as [C' _]. tauto.
Qed.

Lemma after_next : forall k st, 1 <= k -> after p l d h0 z k st ->
  exists st', one_batch boost_accumulators l st = Ok st' /\ after p l d h0 z (S k) st'.
Proof.
  intros k st K (R & D & B & S & L & Q & E & C).
  destruct (equal_batch st (repeat (f_of_Z z) 5) f_zero R D B S C Q (later_error_is z HZ))
    as (st' & O & R' & D' & B' & S' & L' & Q' & E' & C').
  exists st'. split; [exact O|]. unfold after. repeat (split; [assumption|]). split; [|exact C'].
  rewrite E', E. cbn [app]. f_equal. replace (Datatypes.S k - 1) with ((k - 1) + 1) by lia.
  rewrite repeat_app. reflexivity.
Qed.

Lemma after_mean : forall k st, 1 <= k -> after p l d h0 z k st ->
  ac_rolling_mean boost_accumulators (hs_errors st) = mean_after (first_error z) (k - 1).
Proof.
  intros k st K (_ & _ & _ & _ & _ & _ & E & _). cbn [boost_accumulators ac_rolling_mean]. rewrite E.
  unfold mean_after. cbn [rev]. f_equal. f_equal.
  generalize (k - 1). intro n. induction n as [|n IH]; [reflexivity|]. cbn [repeat rev]. rewrite IH.
  change [f_zero] with (repeat f_zero 1). rewrite <- repeat_app, Nat.add_1_r. reflexivity.
Qed.

(** If the mean of the errors never falls to the threshold, the loop does
    not end. *)
Lemma never_ends : (forall n, f_lt error_threshold (mean_after (first_error z) n) = true) ->
  forall fuel k st, 1 <= k -> after p l d h0 z k st -> batches fuel boost_accumulators l st = NoFuel.
Proof.
  intros T. induction fuel as [|fuel IH]; intros k st K A; cbn [batches]; rewrite (after_mean k st K A), T; [reflexivity|].
  destruct (after_next k st K A) as (st' & -> & A'). cbn [bind]. apply (IH (S k)); [lia|exact A'].
Qed.

(** If it does, the loop ends. *)
Lemma ends : forall n k st, 1 <= k -> after p l d h0 z k st ->
  f_lt error_threshold (mean_after (first_error z) (k - 1 + n)) = false ->
  exists st' k', batches n boost_accumulators l st = Ok st' /\ 1 <= k' /\ after p l d h0 z k' st'.
Proof.
  induction n as [|n IH]; intros k st K A T; cbn [batches]; rewrite (after_mean k st K A).
  - rewrite Nat.add_0_r in T. rewrite T. exists st, k. auto.
  - destruct (f_lt error_threshold (mean_after (first_error z) (k - 1))); [|exists st, k; auto].
    destruct (after_next k st K A) as (st' & -> & A'). cbn [bind]. apply (IH (S k) st'); [lia|exact A'|].
    replace (S k - 1 + n) with (k - 1 + S n) by lia. exact T.
Qed.

End Equal_runs.

(** ** The histogram *)

(** The state before the first batch. *)
Definition blank (d : list f32) (s : simulation) (h : histogram) : hist_state :=
  {| hs_draws := d; hs_sim := s; hs_hist := h; hs_samples := []; hs_errors := []; hs_quantiles := repeat f_one 5 |}.

Lemma first_batch : forall p l d w z s, (1 <= z < 2 ^ 63)%Z -> l <> [] -> (1 <= w)%Z -> sim_new p = Ok s ->
  (forall s, sim_reached p s -> exists r, sim_run s l d = Ok r /\ sr_makespan r = z /\ sr_draws r = d) ->
  let h0 := {| h_bin_size := w; h_bins := [] |} in
  exists st, one_batch boost_accumulators l (blank d s h0) = Ok st /\ after p l d h0 z 1 st.
Proof.
  intros p l d w z s HZ NL W N HR h0.
  destruct (equal_batch p l d h0 z HZ NL HR (blank d s h0) (repeat f_one 5) (first_error z))
    as (st & O & A1 & A2 & A3 & A4 & A5 & A6 & A7 & A8).
  - apply sr_new, N.
  - reflexivity.
  - exact W.
  - constructor.
  - split; [apply sr_new, N|]. split; [constructor|reflexivity].
  - reflexivity.
  - apply first_error_is; [exact HZ|apply first_error_nn, HZ].
  - exists st. split; [exact O|]. unfold after. tauto.
Qed.

Lemma certain_equal : forall p l d s r z, certain p -> positive_bounds p -> sim_new p = Ok s -> sim_run s l [] = Ok r ->
  sr_makespan r = z -> forall s', sim_reached p s' -> exists r', sim_run s' l d = Ok r' /\ sr_makespan r' = z /\ sr_draws r' = d.
Proof.
  intros p l d s r z C B N R Z s' R'. rewrite (certain_run p s' s l d C B R' N), R. cbn [bind].
  eexists. split; [reflexivity|]. split; [exact Z|reflexivity].
Qed.

(** The first error is exact for makespans of up to [2 ^ 17] seconds. *)
Lemma first_error_whole : forall z, (1 <= z <= 2 ^ 17)%Z -> whole (z - 1) (first_error z).
Proof.
  intros z Z. unfold first_error. cbn [repeat combine error_sum fst snd].
  assert (P : whole (z - 1) (pct_error f_one (f_of_Z z))).
  { unfold pct_error.
    assert (W : whole (1 - z) (f_sub f_one (f_of_Z z))) by (apply whole_sub; [exact whole_one|apply whole_of_Z; lia|lia|lia]).
    destruct one_fin as [F1 E1]. destruct W as [FW EW].
    destruct (div_fin (f_sub f_one (f_of_Z z)) f_one FW) as [FQ EQ].
    { rewrite E1. lra. }
    { rewrite EW, E1. replace (IZR (1 - z) / 1)%R with (IZR (1 - z)) by field. rewrite <- abs_IZR.
      apply Rle_trans with (IZR (2 ^ 24)); [apply IZR_le; lia|]. change (IZR (2 ^ 24)) with (bpow radix2 24). apply bpow_le. lia. }
    rewrite EW, E1 in EQ. replace (IZR (1 - z) / 1)%R with (IZR (1 - z)) in EQ by field. rewrite TemperatureProofs.rnd_int in EQ by lia.
    split; [rewrite is_finite_Babs; exact FQ|]. rewrite B2R_Babs, EQ, <- abs_IZR. f_equal. lia. }
  assert (W0 : whole 0 f_zero) by (split; reflexivity).
  pose proof (whole_add _ _ _ _ W0 P ltac:(lia)) as W1. pose proof (whole_add _ _ _ _ W1 P ltac:(lia)) as W2.
  pose proof (whole_add _ _ _ _ W2 P ltac:(lia)) as W3. pose proof (whole_add _ _ _ _ W3 P ltac:(lia)) as W4.
  pose proof (whole_add _ _ _ _ W4 P ltac:(lia)) as W5.
  lazymatch type of W5 with whole _ ?x => set (e := x) in * end.
  destruct (of_Z_exact 5) as [F5 E5]; [lia|]. destruct W5 as [FE EE].
  replace (0 + (z - 1) + (z - 1) + (z - 1) + (z - 1) + (z - 1))%Z with ((z - 1) * 5)%Z in EE by ring.
  rewrite mult_IZR in EE.
  destruct (div_fin e (f_of_Z 5) FE) as [FQ EQ].
  { rewrite E5. lra. }
  { rewrite EE, E5. replace (IZR (z - 1) * 5 / 5)%R with (IZR (z - 1)) by field. rewrite <- abs_IZR.
    apply Rle_trans with (IZR (2 ^ 24)); [apply IZR_le; lia|]. change (IZR (2 ^ 24)) with (bpow radix2 24). apply bpow_le. lia. }
  split; [exact FQ|]. rewrite EQ, EE, E5. replace (IZR (z - 1) * 5 / 5)%R with (IZR (z - 1)) by field.
  apply TemperatureProofs.rnd_int. lia.
Qed.

(** C87, full statement: without uncertainty the simulation ends, if a run
    takes at least a second.  False, see [simulation_ends_refuted]; proved
    for runs of up to [2 ^ 17] seconds (36 hours). *)
Theorem simulation_ends_partial : forall p l bin_size mk d s r,
  certain p -> positive_bounds p -> l <> [] ->
  sim_new p = Ok s -> sim_run s l [] = Ok r -> (1 <= sr_makespan r <= 2 ^ 17)%Z ->
  (1 <= mk)%Z -> (forall b, bin_size = Some b -> (1 <= b)%Z) ->
  exists fuel h, make_histogram fuel boost_accumulators p bin_size mk l d = Ok h.
Proof.
  intros p l bs mk d s r C B NL N R Z MK BS.
  remember (sr_makespan r) as z eqn:EZ. symmetry in EZ.
  destruct (reached_shaped p s (sr_new p s N)) as [_ NA NT _ _ _ _].
  assert (G : exists w, parse_granularity bs mk = Ok w /\ (1 <= w)%Z).
  { unfold parse_granularity. destruct (Z.leb_spec 1 mk); [|lia]. cbn [expects bind]. destruct bs as [b|].
    - exists b. split; [reflexivity|apply BS; reflexivity].
    - unfold granularity. destruct (Z.leb_spec 1 mk); [|lia]. cbn [expects bind]. destruct (mk <? 5 * 3600)%Z; [eexists; split; [reflexivity|lia]|].
      destruct (mk <? 13 * 86400)%Z; (eexists; split; [reflexivity|lia]). }
  destruct G as (w & GW & W).
  set (h0 := {| h_bin_size := w; h_bins := [] |}).
  assert (HZ : (1 <= z < 2 ^ 63)%Z) by lia.
  pose proof (certain_equal p l d s r z C B N R EZ) as HR.
  destruct (first_batch p l d w z s HZ NL W N HR) as (st & O & A). fold h0 in O, A.
  destruct (ends p l d h0 z HZ NL HR 15 1 st (le_n 1) A) as (st' & k' & E & K & A').
  { change (1 - 1 + 15) with 15. apply (mean_after_small (z - 1)); [apply first_error_whole; lia|lia]. }
  exists 15, (hs_hist st').
  assert (HS : 0 < hist_size (hs_hist st')).
  { destruct A' as (_ & _ & _ & _ & L & _ & _ & (_ & _ & HC)).
    assert (U : used w (map Add (rev (hs_samples st'))) (hs_hist st')).
    { exists h0. split; [|exact HC]. unfold hist_new. destruct (Z.leb_spec 1 w); [reflexivity|lia]. }
    destruct (hs_hist st') as [w' bins] eqn:HH. destruct bins as [|b bins]; [|cbn; lia].
    exfalso. apply (used_nonempty _ _ _ U); [|reflexivity]. rewrite values_of_adds.
    intro NE. apply (f_equal (fun x => length x)) in NE. rewrite rev_length in NE. cbn [length] in NE. lia. }
  unfold make_histogram.
  destruct (Nat.eqb_spec (length (pr_tasks p)) 0) as [X|_]; [lia|].
  destruct (Nat.eqb_spec (length (pr_agents p)) 0) as [X|_]; [lia|].
  destruct (Nat.eqb_spec (length l) 0) as [X|_]; [destruct l; [congruence|discriminate X]|].
  cbn [negb expects bind]. rewrite N, GW. cbn [bind]. unfold hist_new. destruct (Z.leb_spec 1 w); [|lia]. cbn [expects bind].
  fold h0. fold (blank d s h0). rewrite O. cbn [bind]. rewrite E. cbn [bind].
  destruct (Nat.ltb_spec 0 (hist_size (hs_hist st'))); [|lia]. reflexivity.
Qed.
Print Assumptions simulation_ends_partial.

(** For instance the project whose only task takes 45 s. *)
Example ex_ends : exists fuel h, make_histogram fuel boost_accumulators ex_certain None 45 [Item 0 0] [] = Ok h.
Proof.
  destruct ex_certain_run as (r & E & V).
  apply (simulation_ends_partial ex_certain [Item 0 0] None 45 [] ex_csim r);
    [apply ex_certain_ok|apply ex_certain_ok|discriminate|exact ex_csim_ok|exact E|rewrite V; lia|lia|discriminate].
Qed.

(** ** A project that is simulated for ever *)

(** The document: one task of 30 days, one agent with performance 1. *)
Definition month_doc : yaml :=
  Map [(Scalar "agents", Map [(Scalar "Bob", Map [(Scalar "performance", Scalar "1")])]);
       (Scalar "tasks", Seq [Map [(Scalar "name", Scalar "x"); (Scalar "duration", Scalar "30 days")]])]%string.

Definition month_float (s : string) : option f32 := if String.eqb s "1" then Some f_one else None.

Definition month_project : project := loaded (load month_float month_doc).

Lemma month_loads : load month_float month_doc = Loads month_project.
Proof. apply loads_loaded. vm_compute. reflexivity. Qed.

Lemma month_ok : certain month_project /\ positive_bounds month_project.
Proof.
  assert (A : forallb (fun a => f_eq (perf_min (ag_perf a)) (perf_max (ag_perf a)) && f_lt f_zero (perf_min (ag_perf a)) &&
                        f_le (perf_min (ag_perf a)) (perf_max (ag_perf a))) (pr_agents month_project) = true) by (vm_compute; reflexivity).
  assert (T : map (fun t => (tk_min t, tk_max t)) (pr_tasks month_project) = [(2592000, 2592000)%Z]) by (vm_compute; reflexivity).
  rewrite forallb_forall in A.
  assert (T' : forall t, In t (pr_tasks month_project) -> tk_min t = 2592000%Z /\ tk_max t = 2592000%Z).
  { intros t I. apply (in_map (fun t => (tk_min t, tk_max t))) in I. rewrite T in I. destruct I as [E|[]].
    injection E as <- <-. auto. }
  split; split.
  - apply Forall_forall. intros a I. specialize (A a I). rewrite !andb_true_iff in A. apply A.
  - apply Forall_forall. intros t I. destruct (T' t I). congruence.
  - apply Forall_forall. intros a I. specialize (A a I). rewrite !andb_true_iff in A. tauto.
  - intros t I. destruct (T' t I) as [-> ->]. lia.
Qed.

Definition month_sim : simulation := result_or ex_sim_default (sim_new month_project).

Lemma month_sim_ok : sim_new month_project = Ok month_sim.
Proof. apply result_or_ok. vm_compute. reflexivity. Qed.

Lemma month_run : exists r, sim_run month_sim [Item 0 0] [] = Ok r /\ sr_makespan r = 2592000%Z.
Proof.
  exists (result_or ex_run (sim_run month_sim [Item 0 0] [])).
  split; [apply result_or_ok; vm_compute; reflexivity|vm_compute; reflexivity].
Qed.

(** The rounding errors of the rolling mean leave more than one percent. *)
Lemma month_mean : forall n, f_lt error_threshold (mean_after (first_error 2592000) n) = true.
Proof.
  assert (T : forallb (fun n => f_lt error_threshold (mean_after (first_error 2592000) n)) (seq 0 16) = true)
    by (vm_compute; reflexivity).
  rewrite forallb_forall in T. intro n. destruct (Nat.lt_ge_cases n 16) as [L|L].
  - apply T, in_seq. lia.
  - replace n with (15 + (n - 15)) by lia. rewrite mean_after_constant. apply T, in_seq. lia.
Qed.

(** C87, refuted: a task of exactly 30 days.  The project loads, its
    predicted makespan is 30 days and so is every run.  Whatever the number
    of batches, the loop wants another one. *)
Theorem simulation_ends_refuted : exists as_float doc p l s r,
  load as_float doc = Loads p /\ certain p /\ positive_bounds p /\
  (exists p0, to_schedule_params p = Ok p0 /\
    (m <- makespan p0 l ;; to_rep (f_mul m (sp_mult p0))) = Ok (30 * 86400)%Z) /\
  sim_new p = Ok s /\ sim_run s l [] = Ok r /\ sr_makespan r = (30 * 86400)%Z /\
  forall fuel d, make_histogram fuel boost_accumulators p None (30 * 86400) l d = NoFuel.
Proof.
  destruct month_run as (r & R & V). destruct month_ok as [C B].
  exists month_float, month_doc, month_project, [Item 0 0], month_sim, r.
  split; [exact month_loads|]. split; [exact C|]. split; [exact B|].
  split. { exists (result_or ex_params (to_schedule_params month_project)).
           split; [apply result_or_ok; vm_compute; reflexivity|vm_compute; reflexivity]. }
  split; [exact month_sim_ok|]. split; [exact R|]. split; [exact V|].
  intros fuel d. pose proof (certain_equal month_project [Item 0 0] d month_sim r 2592000 C B month_sim_ok R V) as HR.
  destruct (first_batch month_project [Item 0 0] d 86400 2592000 month_sim ltac:(lia) ltac:(discriminate) ltac:(lia) month_sim_ok HR)
    as (st & O & A).
  pose proof (never_ends month_project [Item 0 0] d _ 2592000 ltac:(lia) ltac:(discriminate) HR month_mean fuel 1 st (le_n 1) A) as E.
  unfold make_histogram.
  assert (LT : length (pr_tasks month_project) = 1) by (vm_compute; reflexivity).
  assert (LA : length (pr_agents month_project) = 1) by (vm_compute; reflexivity).
  rewrite LT, LA. cbn [length Nat.eqb negb expects bind].
  rewrite month_sim_ok. cbn [bind]. replace (parse_granularity None (30 * 86400)) with (Ok 86400%Z) by reflexivity. cbn [bind].
  replace (hist_new 86400) with (Ok {| h_bin_size := 86400; h_bins := [] |}) by reflexivity. cbn [bind].
  unfold blank in O. rewrite O. cbn [bind]. rewrite E. reflexivity.
Qed.
Print Assumptions simulation_ends_refuted.
