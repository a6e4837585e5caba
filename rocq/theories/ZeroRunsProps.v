(** * Property theorem C69, refuted for the accumulators of the program *)

From Coq Require Import String List ZArith Bool Arith Reals Lia Lra.
From Flocq Require Import Core BinarySingleNaN.
From Verif Require Import Base F32 F32Facts F32Signed ProjectModel ScheduleModel ScheduleSpec MakespanModel TimelineSpec ScheduleProps MakespanProps HistogramModel HistogramSpec
  HistogramProps SimulationModel SimulationSpec SimulationProofs SimulationProps RollingModel PSquareModel PSquareSpec PSquareFloats
  PSquareProofs PSquareProps EndingProofs EndingProps.
Import ListNotations.

(** Runs of zero seconds give estimates of zero, of either sign. *)
Lemma zero_estimates : forall n, 13 <= n ->
  length (p_square (repeat 0%Z n)) = 5 /\ Forall (fun x : f32 => exists s, x = B754_zero s) (p_square (repeat 0%Z n)).
Proof.
  intros n N.
  assert (I : In 0%Z (repeat 0%Z n)) by (destruct n; [lia|left; reflexivity]).
  assert (EQ : forall y, In y (repeat 0%Z n) -> y = 0%Z) by (intros y Hy; apply repeat_spec in Hy; exact Hy).
  destruct (estimates_in_order (repeat 0%Z n) 0 0) as [L A].
  - rewrite repeat_length. exact N.
  - apply Forall_forall. intros y Hy. rewrite (EQ y Hy). lia.
  - split; [exact I|]. apply Forall_forall. intros y Hy. rewrite (EQ y Hy). lia.
  - split; [exact I|]. apply Forall_forall. intros y Hy. rewrite (EQ y Hy). lia.
  - split; [exact L|]. apply Forall_forall. intros x Hx. apply In_nth_error in Hx. destruct Hx as [i Hi].
    destruct (of_Z_exact 0) as [F E]; [lia|].
    assert (NL : nth_error (f_of_Z 0 :: p_square (repeat 0%Z n) ++ [f_of_Z 0]) (S i) = Some x).
    { cbn [nth_error]. rewrite nth_error_app1; [exact Hi|]. apply nth_error_Some. rewrite Hi. discriminate. }
    pose proof (A 0 (S i) _ _ ltac:(lia) eq_refl NL) as A1.
    assert (NR : nth_error (f_of_Z 0 :: p_square (repeat 0%Z n) ++ [f_of_Z 0]) 6 = Some (f_of_Z 0)).
    { change (nth_error (p_square (repeat 0%Z n) ++ [f_of_Z 0]) 5 = Some (f_of_Z 0)).
      rewrite nth_error_app2 by lia. rewrite L. reflexivity. }
    assert (LI : i < 5) by (rewrite <- L; apply nth_error_Some; rewrite Hi; discriminate).
    pose proof (A (S i) 6 _ _ ltac:(lia) NL NR) as A2.
    destruct (between_fin _ _ x F F A1 A2) as [Fx Ex]. rewrite E in Ex.
    destruct x as [s|s| |s m e H]; try discriminate Fx; [exists s; reflexivity|].
    exfalso. assert (Z0 : B2R (B754_finite s m e H : f32) = 0%R) by lra. cbn [B2R] in Z0.
    apply eq_0_F2R in Z0. destruct s; discriminate Z0.
Qed.

(** Five zeros: the change from 1 is 1, the change from zero is 0/0. *)
Lemma zero_errors : forall q, length q = 5 -> Forall (fun x : f32 => exists s, x = B754_zero s) q ->
  mean_absolute_pct_error q (repeat f_one 5) = Ok (f_one, q) /\ 
  forall q', length q' = 5 -> Forall (fun x : f32 => exists s, x = B754_zero s) q' -> mean_absolute_pct_error q' q = Broken.
Proof.
  assert (P1 : forall s, pct_error f_one (B754_zero s) = f_one)
    by (intros []; apply B2SF_inj; vm_compute; reflexivity).
  assert (P0 : forall s t, pct_error (B754_zero s) (B754_zero t) = B754_nan)
    by (intros [] []; apply B2SF_inj; vm_compute; reflexivity).
  assert (S5 : f_div (f_add (f_add (f_add (f_add (f_add f_zero f_one) f_one) f_one) f_one) f_one) (f_of_Z 5) = f_one)
    by (apply B2SF_inj; vm_compute; reflexivity).
  assert (L5 : f_le f_zero (f_add (f_add (f_add (f_add (f_add f_zero f_one) f_one) f_one) f_one) f_one) = true)
    by (vm_compute; reflexivity).
  assert (NN : forall x, f_add x B754_nan = B754_nan) by (intros []; reflexivity).
  assert (FIVE : forall q : list f32, length q = 5 -> Forall (fun x : f32 => exists s, x = B754_zero s) q ->
    exists a b c d e, q = [B754_zero a; B754_zero b; B754_zero c; B754_zero d; B754_zero e]).
  { intros q L H. destruct q as [|a [|b [|c [|d [|e [|f q]]]]]]; try discriminate L.
    repeat match goal with X : Forall _ (_ :: _) |- _ => inversion X as [|? ? [? ->] ?]; clear X; subst end. do 5 eexists. reflexivity. }
  intros q L H. destruct (FIVE q L H) as (a & b & c & d & e & ->). split.
  - unfold mean_absolute_pct_error. rewrite repeat_length. cbn [length Nat.eqb Nat.leb negb expects bind repeat combine error_sum fst snd].
    rewrite !P1, L5. cbn [expects bind]. change (Z.of_nat 5) with 5%Z. rewrite S5. reflexivity.
  - intros q' L' H'. destruct (FIVE q' L' H') as (a' & b' & c' & d' & e' & ->).
    unfold mean_absolute_pct_error. cbn [length Nat.eqb Nat.leb negb expects bind repeat combine error_sum fst snd].
    rewrite !P0, !NN. reflexivity.
Qed.

(** C69, refuted for Boost's estimator: one task of 2 s, one agent with
    performance 1 to 3; the predicted makespan is 1 s.  If the random
    performances of the first two batches are all 3 then every run takes 0
    whole seconds, and the second batch violates [Ensures(error >= 0)]. *)
Theorem error_estimate_of_runs_refuted : exists p l draws, positive_bounds p /\ finite_draws draws /\
  Forall (fun x => f_lt f_zero x = true) draws /\
  (exists p0, to_schedule_params p = Ok p0 /\
    (m <- makespan p0 l ;; to_rep (f_mul m (sp_mult p0))) = Ok 1%Z) /\
  forall fuel, 1 <= fuel -> make_histogram fuel boost_accumulators p None 1 l draws = Broken.
Proof.
  exists ex_short, [Item 0 0], (repeat (f_of_Z 3) (sim_batch_size + sim_batch_size)).
  split. { split; [repeat constructor|]. intros t [<-|[]]; cbn; lia. }
  split. { apply Forall_forall. intros x Hx. apply repeat_spec in Hx. subst x. reflexivity. }
  split. { apply Forall_forall. intros x Hx. apply repeat_spec in Hx. subst x. reflexivity. }
  split.
  - exists (result_or ex_params (to_schedule_params ex_short)).
    split; [apply result_or_ok; vm_compute; reflexivity|vm_compute; reflexivity].
  - intros [|fuel] FU; [lia|]. clear FU.
    unfold make_histogram. cbn [ex_short pr_tasks pr_agents length Nat.eqb negb expects bind].
    fold ex_short. rewrite ex_ssim_ok. cbn [bind].
    replace (parse_granularity None 1) with (Ok 60%Z) by reflexivity. cbn [bind].
    replace (hist_new 60) with (Ok {| h_bin_size := 60; h_bins := [] |}) by reflexivity. cbn [bind].
    set (draws := fun n => repeat (f_of_Z 3) n).
    replace (repeat (f_of_Z 3) (sim_batch_size + sim_batch_size)) with (draws (sim_batch_size + sim_batch_size)) by reflexivity.
    assert (HR : forall n s, sim_reached ex_short s -> exists r,
      sim_run s [Item 0 0] (draws (S n)) = Ok r /\ sr_makespan r = 0%Z /\ sr_draws r = draws n).
    { intros n s R. apply ex_short_run, R. }
    clearbody draws.
    assert (BP : 13 <= sim_batch_size) by (unfold sim_batch_size; lia).
    assert (OB : forall st, one_batch boost_accumulators [Item 0 0] st =
      bind (run_batch sim_batch_size [Item 0 0] st) (log_error boost_accumulators)).
    { intro st. unfold one_batch. cbn [length Nat.eqb negb expects bind]. reflexivity. }
    rewrite OB.
    assert (CB : forall n st, sim_reached ex_short (hs_sim st) -> hs_draws st = draws (sim_batch_size + n) ->
      (1 <= h_bin_size (hs_hist st))%Z -> Forall (fun x => x = 0%Z) (hs_samples st) ->
      exists st', run_batch sim_batch_size [Item 0 0] st = Ok st' /\ sim_reached ex_short (hs_sim st') /\
        hs_draws st' = draws n /\ (1 <= h_bin_size (hs_hist st'))%Z /\ Forall (fun x => x = 0%Z) (hs_samples st') /\
        length (hs_samples st') = sim_batch_size + length (hs_samples st) /\ hs_errors st' = hs_errors st /\
        hs_quantiles st' = hs_quantiles st).
    { intros n st. apply (constant_batch ex_short [Item 0 0] 0 draws (Z.le_refl 0) HR). }
    clear HR. generalize dependent sim_batch_size. intros n BP OB CB.
    match goal with |- context [run_batch n _ ?x] =>
      destruct (CB n x) as (st & E & R & D & B & S & LS & EE & Q) end.
    { apply sr_new, ex_ssim_ok. } { reflexivity. } { cbn. lia. } { constructor. }
    rewrite E. cbn [bind hs_errors hs_quantiles] in *. unfold log_error at 1. cbn [boost_accumulators ac_quantiles].
    rewrite Q, (constant_list 0 (rev (hs_samples st)) (Forall_rev S)), rev_length.
    destruct (zero_estimates (length (hs_samples st))) as [L1 Z1]; [lia|].
    destruct (zero_errors _ L1 Z1) as [Z2 Z3]. rewrite Z2. cbn [bind fst snd batches hs_errors]. rewrite EE. cbn [app].
    assert (RM : f_lt error_threshold (ac_rolling_mean boost_accumulators [f_one]) = true) by (vm_compute; reflexivity).
    rewrite RM, OB.
    match goal with |- context [run_batch ?k _ ?x] =>
      destruct (CB 0 x) as (st2 & E' & R2 & D2 & B2 & S2 & LS2 & EE2 & Q2) end.
    { exact R. } { cbn [hs_draws]. rewrite Nat.add_0_r. exact D. } { exact B. } { exact S. }
    cbn [hs_quantiles] in Q2. rewrite E'. cbn [bind]. unfold log_error. cbn [boost_accumulators ac_quantiles].
    rewrite Q2, (constant_list 0 (rev (hs_samples st2)) (Forall_rev S2)), rev_length.
    cbn [hs_samples] in LS2. destruct (zero_estimates (length (hs_samples st2))) as [L4 Z4]; [lia|].
    rewrite (Z3 _ L4 Z4). reflexivity.
Qed.
Print Assumptions error_estimate_of_runs_refuted.
