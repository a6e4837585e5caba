(** * C73: the simulation stops with the first batch that changes little *)

From Coq Require Import List ZArith Bool Arith Lia.
From Flocq Require Import BinarySingleNaN.
From Verif Require Import Base F32 ProjectModel ScheduleModel HistogramModel HistogramSpec HistogramProps SimulationModel SimulationSpec
  SimulationProps StoppingSpec.
Import ListNotations.

Lemma threshold_value : error_threshold = one_percent.
Proof. apply B2SF_inj. vm_compute. reflexivity. Qed.

Lemma batch_is : sim_batch_size = Z.to_nat 10000.
Proof. reflexivity. Qed.

Lemma error_sum_fold : forall l e,
  error_sum e l = fold_left (fun e ab => f_add e (Babs (f_div (f_sub (fst ab) (snd ab)) (fst ab)))) l e.
Proof. induction l as [|[a b] l IH]; intro e; cbn [error_sum fold_left]; [reflexivity|]. rewrite IH. reflexivity. Qed.

Lemma estimates_app : forall est a b i, runs_of i <= length a -> estimates est (a ++ b) i = estimates est a i.
Proof.
  intros est a b [|i] H; cbn [estimates]; [reflexivity|]. rewrite firstn_app.
  replace (runs_of (S i) - length a) with 0 by lia. cbn [firstn]. rewrite app_nil_r. reflexivity.
Qed.

Lemma changes_app : forall est a b n, runs_of n <= length a -> changes est (a ++ b) n = changes est a n.
Proof.
  intros est a b n H. unfold changes. apply map_ext_in. intros i I. apply in_seq in I.
  assert (runs_of (S i) <= runs_of n) by (unfold runs_of; apply Nat.mul_le_mono_r; lia).
  assert (runs_of i <= runs_of n) by (unfold runs_of; apply Nat.mul_le_mono_r; lia).
  rewrite !estimates_app by lia. reflexivity.
Qed.

Lemma changes_snoc : forall est zs n,
  changes est zs (S n) = changes est zs n ++ [mean_change (estimates est zs n) (estimates est zs (S n))].
Proof. intros est zs n. unfold changes. rewrite seq_S, map_app. reflexivity. Qed.

(** The state of the loop after [n] batches. *)
Definition measured (ac : accumulators) (n : nat) (st : hist_state) : Prop :=
  let zs := rev (hs_samples st) in
  length zs = runs_of n /\
  hs_errors st = changes (ac_quantiles ac) zs n /\
  hs_quantiles st = estimates (ac_quantiles ac) zs n.

Lemma batch_adds : forall n l st st', run_batch n l st = Ok st' ->
  exists new, rev (hs_samples st') = rev (hs_samples st) ++ new /\ length new = n /\
    hs_errors st' = hs_errors st /\ hs_quantiles st' = hs_quantiles st.
Proof.
  induction n as [|n IH]; intros l st st' E; cbn [run_batch] in E.
  - injection E as <-. exists []. rewrite app_nil_r. auto.
  - destruct (sim_run _ _ _) as [r| |]; try discriminate. cbn [bind] in E.
    destruct (hist_add _ _) as [h| |]; try discriminate. cbn [bind] in E.
    apply IH in E. destruct E as (new & E1 & E2 & E3 & E4). cbn [hs_samples hs_errors hs_quantiles rev] in *.
    exists (sr_makespan r :: new). rewrite E1, <- app_assoc. cbn. auto.
Qed.

Lemma one_measured : forall ac n l st st', (forall zs, length (ac_quantiles ac zs) = 5) ->
  measured ac n st -> one_batch ac l st = Ok st' ->
  measured ac (S n) st' /\ exists new, rev (hs_samples st') = rev (hs_samples st) ++ new.
Proof.
  intros ac n l st st' Q5 (L & ER & QU) E. unfold one_batch in E.
  destruct (negb (length l =? 0)); [|discriminate]. cbn [expects bind] in E.
  destruct (run_batch sim_batch_size l st) as [st1| |] eqn:B; try discriminate. cbn [bind] in E.
  apply batch_adds in B. destruct B as (new & E1 & E2 & E3 & E4). unfold log_error in E.
  destruct (mean_absolute_pct_error _ _) as [e| |] eqn:M; try discriminate. cbn [bind] in E. injection E as <-.
  unfold measured. cbn [hs_samples hs_errors hs_quantiles].
  assert (LN : length (rev (hs_samples st1)) = runs_of (S n)).
  { rewrite E1, app_length, L, E2, batch_is. unfold runs_of. cbn [Nat.mul]. apply Nat.add_comm. }
  assert (ES : estimates (ac_quantiles ac) (rev (hs_samples st1)) (S n) = ac_quantiles ac (rev (hs_samples st1))).
  { cbn [estimates]. rewrite <- LN, firstn_all. reflexivity. }
  assert (EN : estimates (ac_quantiles ac) (rev (hs_samples st1)) n = hs_quantiles st).
  { rewrite E1, estimates_app, QU by (rewrite L; apply le_n). reflexivity. }
  assert (L5 : length (hs_quantiles st1) = 5).
  { rewrite E4, QU. destruct n; [reflexivity|]. cbn [estimates]. apply Q5. }
  split.
  - split; [exact LN|]. unfold mean_absolute_pct_error in M.
    destruct (negb _); [|discriminate]. cbn [expects bind] in M.
    destruct (_ <=? _); [|discriminate]. cbn [expects bind] in M.
    destruct (f_le _ _); [|discriminate]. cbn [expects bind] in M.
    rewrite L5 in M. change (Z.of_nat 5) with 5%Z in M.
    assert (M1 : fst e = mean_change (hs_quantiles st1) (ac_quantiles ac (rev (hs_samples st1)))).
    { unfold mean_change. rewrite <- error_sum_fold. injection M as M. rewrite <- M. reflexivity. }
    assert (M2 : snd e = ac_quantiles ac (rev (hs_samples st1))) by (injection M as M; rewrite <- M; reflexivity).
    rewrite changes_snoc, EN, ES. split; [|exact M2].
    rewrite M1, E3, E4, ER. f_equal. rewrite E1, changes_app by (rewrite L; apply le_n). reflexivity.
  - exists new. exact E1.
Qed.

Lemma batches_measured : forall ac l fuel n st st', (forall zs, length (ac_quantiles ac zs) = 5) ->
  measured ac n st -> batches fuel ac l st = Ok st' ->
  exists k new, measured ac (n + k) st' /\ rev (hs_samples st') = rev (hs_samples st) ++ new /\
    (forall i, i < k -> f_lt one_percent (ac_rolling_mean ac
       (changes (ac_quantiles ac) (rev (hs_samples st')) (n + i))) = true) /\
    f_lt one_percent (ac_rolling_mean ac (changes (ac_quantiles ac) (rev (hs_samples st')) (n + k))) = false.
Proof.
  intros ac l. induction fuel as [|fuel IH]; intros n st st' Q5 M E; cbn [batches] in E; rewrite threshold_value in E;
    destruct (f_lt one_percent (ac_rolling_mean ac (hs_errors st))) eqn:F; try discriminate.
  - injection E as <-. exists 0, []. rewrite Nat.add_0_r, app_nil_r. destruct M as (M1 & M2 & M3). rewrite <- M2.
    split; [split; [exact M1|split; [exact M2|exact M3]]|]. split; [reflexivity|]. split; [lia|exact F].
  - destruct (one_batch ac l st) as [st1| |] eqn:B; try discriminate. cbn [bind] in E.
    destruct (one_measured ac n l st st1 Q5 M B) as (M1 & new & N).
    destruct (IH (S n) st1 st' Q5 M1 E) as (k & new' & Mk & Nk & Lk & Fk).
    exists (S k), (new ++ new'). rewrite Nat.add_succ_r. split; [exact Mk|].
    split; [rewrite Nk, N, app_assoc; reflexivity|]. split; [|exact Fk].
    intros [|i] I.
    + rewrite Nat.add_0_r, Nk, N, <- app_assoc, changes_app by (destruct M as (-> & _); apply le_n).
      destruct M as (_ & <- & _). exact F.
    + rewrite Nat.add_succ_r. apply Lk. lia.
  - injection E as <-. exists 0, []. rewrite Nat.add_0_r, app_nil_r. destruct M as (M1 & M2 & M3). rewrite <- M2.
    split; [split; [exact M1|split; [exact M2|exact M3]]|]. split; [reflexivity|]. split; [lia|exact F].
Qed.

(** The histogram holds the results of successive runs [zs] in whole
    batches of ten thousand.  After every batch but the last the rolling
    mean of the changes of the estimated percentiles exceeds one percent;
    after the last one it does not.  Quantile estimator and rolling mean
    are arbitrary functions of the values they have been given. *)
Theorem stops_at_threshold : forall fuel ac p bs mk l draws h,
  (forall zs, length (ac_quantiles ac zs) = 5) ->
  make_histogram fuel ac p bs mk l draws = Ok h ->
  exists w zs rest n, used w (map Add zs) h /\ successive_runs p l draws zs rest /\
    1 <= n /\ length zs = runs_of n /\
    (forall i, 1 <= i < n -> f_lt one_percent (ac_rolling_mean ac (changes (ac_quantiles ac) zs i)) = true) /\
    f_lt one_percent (ac_rolling_mean ac (changes (ac_quantiles ac) zs n)) = false.
Proof.
  intros fuel ac p bs mk l draws h Q5 E. unfold make_histogram in E.
  destruct (negb (length (pr_tasks p) =? 0)); [|discriminate]. cbn [expects bind] in E.
  destruct (negb (length (pr_agents p) =? 0)); [|discriminate]. cbn [expects bind] in E.
  destruct (negb (length l =? 0)); [|discriminate]. cbn [expects bind] in E.
  destruct (sim_new p) as [s| |] eqn:SN; try discriminate. cbn [bind] in E.
  destruct (parse_granularity bs mk) as [w| |] eqn:G; try discriminate. cbn [bind] in E.
  destruct (hist_new w) as [h0| |] eqn:HN; try discriminate. cbn [bind] in E.
  destruct (one_batch ac l _) as [st1| |] eqn:B1; try discriminate. cbn [bind] in E.
  destruct (batches fuel ac l st1) as [st2| |] eqn:B2; try discriminate. cbn [bind] in E.
  destruct (0 <? hist_size (hs_hist st2)); [|discriminate]. cbn [expects bind] in E. injection E as <-.
  pose proof B1 as B1'. eapply (one_collected ac p l draws h0) in B1'.
  2:{ split; [apply sr_new, SN|]. split; [constructor|reflexivity]. }
  destruct B1' as [C1 _]. destruct (batches_collected ac p l draws h0 _ _ _ C1 B2) as ((_ & R & H) & _).
  apply (one_measured ac 0) in B1; [|exact Q5|repeat split]. destruct B1 as (M1 & _).
  destruct (batches_measured ac l fuel 1 st1 st2 Q5 M1 B2) as (k & new & (L & _) & _ & F1 & F2).
  exists w, (rev (hs_samples st2)), (hs_draws st2), (1 + k). split; [exists h0; split; assumption|].
  split; [exact R|]. split; [lia|]. split; [exact L|]. split; [|exact F2].
  intros i I. replace i with (1 + (i - 1)) by lia. apply F1. lia.
Qed.
Print Assumptions stops_at_threshold.

(** A case with two batches: every run takes 45 s, the first batch moves the
    estimates from 1 to 45, the second leaves them. *)
Definition ex_last : accumulators :=
  {| ac_quantiles := fun zs => repeat (f_of_Z (hd 0%Z zs)) 5; ac_rolling_mean := fun es => last es f_zero |}.

Lemma certain_45 : forall s, sim_reached ex_certain s -> exists r,
  sim_run s [Item 0 0] [] = Ok r /\ sr_makespan r = 45%Z /\ sr_draws r = [].
Proof.
  intros s R. rewrite (certain_run ex_certain s ex_csim [Item 0 0] [] (proj1 ex_certain_ok) (proj2 ex_certain_ok) R ex_csim_ok).
  destruct ex_certain_run as (r & E & V). rewrite E. cbn [bind].
  eexists. split; [reflexivity|]. split; [exact V|reflexivity].
Qed.

Lemma pct_ok : forall a b, is_ok (mean_absolute_pct_error a b) = true ->
  exists e, mean_absolute_pct_error a b = Ok e /\ snd e = a /\
    fst e = fst (result_or (f_zero, []) (mean_absolute_pct_error a b)).
Proof.
  intros a b O. destruct (mean_absolute_pct_error a b) as [e| |] eqn:M; try discriminate.
  exists e. split; [reflexivity|]. split; [exact (error_keeps _ _ _ M)|reflexivity].
Qed.

Example ex_stops : exists h, make_histogram 5 ex_last ex_certain None 45 [Item 0 0] [] = Ok h /\
  (forall zs, length (ac_quantiles ex_last zs) = 5) /\
  exists zs, used 60 (map Add zs) h /\ length zs = runs_of 2.
Proof.
  assert (X : exists h, make_histogram 5 ex_last ex_certain None 45 [Item 0 0] [] = Ok h /\
    exists zs, used 60 (map Add zs) h /\ length zs = runs_of 2).
  2:{ destruct X as (h & E & X). exists h. split; [exact E|]. split; [reflexivity|exact X]. }
  unfold make_histogram. cbn [ex_certain pr_tasks pr_agents length Nat.eqb negb expects bind].
  fold ex_certain. rewrite ex_csim_ok. cbn [bind].
  change (parse_granularity None 45) with (Ok 60%Z). cbn [bind].
  set (h0 := {| h_bin_size := 60; h_bins := [] |}). change (hist_new 60) with (Ok h0). cbn [bind].
  match goal with |- context [one_batch ex_last _ ?x] => set (st0 := x) end.
  assert (C0 : collected ex_certain [Item 0 0] [] h0 st0).
  { split; [apply sr_new, ex_csim_ok|]. split; [constructor|reflexivity]. }
  pose proof (constant_one ex_last ex_certain [Item 0 0] 45 (fun _ => []) ltac:(lia) ltac:(discriminate)
    (fun _ s R => certain_45 s R)) as CO.
  destruct (CO 0 st0) as (st & E & R & D & B & S & H & EE & Q);
    [apply sr_new, ex_csim_ok|reflexivity|cbn; lia|constructor|].
  change (hs_errors st0) with (@nil f32) in EE. change (hs_quantiles st0) with (repeat f_one 5) in Q.
  destruct (pct_ok (repeat (f_of_Z 45) 5) (repeat f_one 5)) as (e & M & SE & FE); [vm_compute; reflexivity|].
  set (st1 := {| hs_draws := hs_draws st; hs_sim := hs_sim st; hs_hist := hs_hist st; hs_samples := hs_samples st;
                 hs_errors := hs_errors st ++ [fst e]; hs_quantiles := snd e |}).
  assert (E1 : one_batch ex_last [Item 0 0] st0 = Ok st1).
  { rewrite E. unfold log_error. rewrite Q. cbn [ex_last ac_quantiles]. rewrite H, M. reflexivity. }
  destruct (CO 0 st1) as (st' & E' & R' & D' & B' & S' & H' & EE' & Q'); [exact R|exact D|exact B|exact S|].
  change (hs_errors st1) with (hs_errors st ++ [fst e]) in EE'. change (hs_quantiles st1) with (snd e) in Q'.
  destruct (pct_ok (repeat (f_of_Z 45) 5) (repeat (f_of_Z 45) 5)) as (e2 & M2 & SE2 & FE2); [vm_compute; reflexivity|].
  set (st2 := {| hs_draws := hs_draws st'; hs_sim := hs_sim st'; hs_hist := hs_hist st'; hs_samples := hs_samples st';
                 hs_errors := hs_errors st' ++ [fst e2]; hs_quantiles := snd e2 |}).
  assert (E2 : one_batch ex_last [Item 0 0] st1 = Ok st2).
  { rewrite E'. unfold log_error. rewrite Q', SE. cbn [ex_last ac_quantiles]. rewrite H', M2. reflexivity. }
  assert (T1 : f_lt error_threshold (ac_rolling_mean ex_last (hs_errors st1)) = true).
  { cbn [ex_last ac_rolling_mean st1 hs_errors]. rewrite EE, FE. vm_compute. reflexivity. }
  assert (T2 : f_lt error_threshold (ac_rolling_mean ex_last (hs_errors st2)) = false).
  { cbn [ex_last ac_rolling_mean st2 hs_errors]. rewrite last_last, FE2. vm_compute. reflexivity. }
  destruct (one_collected ex_last _ _ _ _ _ _ C0 E1) as (C1 & L1).
  destruct (one_collected ex_last _ _ _ _ _ _ C1 E2) as ((_ & _ & HC) & L2).
  rewrite E1. cbn [bind batches]. rewrite T1, E2. cbn [bind]. rewrite T2. cbn [bind].
  assert (U : used 60 (map Add (rev (hs_samples st2))) (hs_hist st2)) by (exists h0; split; [reflexivity|exact HC]).
  assert (LL : length (rev (hs_samples st2)) = runs_of 2).
  { rewrite rev_length, L2, L1. change (length (hs_samples st0)) with 0. rewrite batch_is. unfold runs_of.
    cbn [Nat.mul]. rewrite Nat.add_0_r. reflexivity. }
  clearbody st2. clear - U LL.
  assert (HS : 0 < hist_size (hs_hist st2)).
  { destruct (hs_hist st2) as [w bins] eqn:HH. destruct bins as [|b bins]; [|cbn; lia].
    exfalso. apply (used_nonempty _ _ _ U); [|reflexivity]. rewrite values_of_adds.
    intro NE. rewrite NE in LL. unfold runs_of in LL. cbn [length] in LL. lia. }
  destruct (Nat.ltb_spec 0 (hist_size (hs_hist st2))); [|lia]. cbn [expects bind].
  exists (hs_hist st2). split; [reflexivity|]. exists (rev (hs_samples st2)). split; assumption.
Qed.
