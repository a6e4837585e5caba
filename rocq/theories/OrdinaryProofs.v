(** * Proofs about projects with ordinary times *)

From Coq Require Import List ZArith Bool Arith Lia Reals Lra Psatz.
From Flocq Require Import Core BinarySingleNaN.
From Verif Require Import Base F32 F32Facts F32Signed ProjectModel ScheduleModel ScheduleSpec ScheduleProofs MakespanModel
  TimelineSpec MakespanProofs NormaliseProofs MutatorModel MutatorProofs SimulationModel SimulationSpec SimulationProofs JsonSpec JsonProps SearchSpec StunProofs
  PredictModel PredictProps SimulationProps OrdinarySpec.
Import ListNotations.

Local Open Scope R_scope.

(** Sums of small numbers. *)
Lemma total_bound : forall P e l k (t : f32), (-149 <= e <= 100)%Z ->
  (forall x, In x l -> nn (work_time P (it_task x) (it_agent x)) /\ val (work_time P (it_task x) (it_agent x)) <= bpow radix2 e) ->
  (Z.of_nat (k + length l) <= 2 ^ 24)%Z -> nn t -> val t <= INR k * bpow radix2 e ->
  let r := fold_left (fun t x => f_add t (work_time P (it_task x) (it_agent x))) l t in
  nn r /\ val r <= INR (k + length l) * bpow radix2 e.
Proof.
  intros P e l. induction l as [|x l IH]; intros k t He W K N B; cbn [fold_left length] in *; cbv zeta.
  - rewrite Nat.add_0_r. auto.
  - destruct (W x (or_introl eq_refl)) as [Nw Bw]. destruct (add_nn t _ N Nw) as [Na Va].
    replace (k + S (length l))%nat with (S k + length l)%nat in * by lia.
    apply IH; [exact He|intros y I; apply W; right; exact I|exact K|exact Na|]. rewrite Va. apply Rle_trans with (rnd (val t + val (work_time P (it_task x) (it_agent x)))); [apply Rmin_l|].
    assert (RB : rnd (INR (S k) * bpow radix2 e) = INR (S k) * bpow radix2 e)
      by (rewrite INR_IZR_INZ; apply rnd_dyadic; lia).
    rewrite <- RB. apply rnd_le. rewrite S_INR. lra.
Qed.

Lemma total_small : forall P e s, (-149 <= e <= 100)%Z ->
  (forall x, In x s -> nn (work_time P (it_task x) (it_agent x)) /\ val (work_time P (it_task x) (it_agent x)) <= bpow radix2 e) ->
  (Z.of_nat (length s) <= 2 ^ 24)%Z ->
  nn (total_time P s) /\ val (total_time P s) <= INR (length s) * bpow radix2 e.
Proof.
  intros P e s He W L. apply (total_bound P e s 0 f_zero He W L).
  - apply nn_iff. reflexivity.
  - rewrite val_finite by reflexivity. cbn. lra.
Qed.

Lemma power_above : forall w, 0 < w -> exists e, w < bpow radix2 e /\ bpow radix2 e <= 2 * w.
Proof.
  intros w H. exists (mag radix2 w). split.
  - pose proof (bpow_mag_gt radix2 w) as G. rewrite Rabs_pos_eq in G by lra. exact G.
  - pose proof (bpow_mag_le radix2 w ltac:(lra)) as G. rewrite Rabs_pos_eq in G by lra.
    replace (bpow radix2 (mag radix2 w)) with (2 * bpow radix2 (mag radix2 w - 1)); [lra|].
    change 2 with (bpow radix2 1). rewrite <- bpow_plus. f_equal. lia.
Qed.

Section Ordinary.
  Context (pr : project) (p : params) (HE : to_schedule_params pr = Ok p) (HP : problem p).
  Context (PB : positive_bounds pr) (MP : moderate_performance pr).
  Context (LT : (Z.of_nat (length (pr_tasks pr)) <= 2 ^ 20)%Z) (LA : (Z.of_nat (length (pr_agents pr)) <= 2 ^ 31)%Z).
  Context (ORD : ordinary_times pr p).

  Lemma fold_means : forall mult norm l, 0 <= mult -> sane_durations l -> (forall d, In d norm -> 0 <= val d) ->
    Forall2 (fun d t => near 2 (val d * mult) (IZR (mean t))) norm l ->
    INR (length l) * / 2 <= rsum (map val norm) * mult <= INR (length l) * bpow radix2 65.
  Proof.
    intros mult norm l M S Pd F. induction F as [|d t norm l [F1 F2] F IH]; cbn [map rsum length].
    - cbn. lra.
    - destruct IH as [IH1 IH2]; [intros x I; apply S; right; exact I|intros x I; apply Pd; right; exact I|].
      pose proof (mean_range t (S t (or_introl eq_refl))) as R. assert (U : / 2 <= uq ^ 2) by (apply uqk_half; lia).
      assert (R1 : 1 <= IZR (mean t)) by (apply IZR_le; lia).
      assert (R2 : IZR (mean t) <= bpow radix2 64) by (change (bpow radix2 64) with (IZR (2 ^ 64)); apply IZR_le; lia).
      pose proof (Pd d (or_introl eq_refl)) as D0. assert (D1 : 0 <= val d * mult) by nra.
      assert (B65 : bpow radix2 65 = 2 * bpow radix2 64) by (change 65%Z with (1 + 64)%Z; rewrite bpow_plus; reflexivity).
      rewrite S_INR. rewrite Rmult_plus_distr_r.
      assert (X1 : / 2 <= val d * mult) by nra. assert (X2 : val d * mult <= bpow radix2 65) by nra. lra.
  Qed.

  Lemma mult_range : bpow radix2 (-36) <= val (sp_mult p) <= bpow radix2 87.
  Proof.
    destruct (params_Ok pr p HE) as (NA & NT & D & _).
    destruct (normalise_ok (pr_tasks pr) (length (pr_agents pr))) as (norm & mult & E & Pm & Fm & Pn & F & S); auto.
    - destruct (pr_agents pr); [congruence|cbn; lia].
    - apply PB.
    - assert (Q : norm = sp_dur p /\ mult = sp_mult p) by (split; congruence). destruct Q as [-> ->].
      pose proof (pos_val _ Pm) as M0.
      assert (Pd : forall d, In d (sp_dur p) -> 0 <= val d).
      { intros d I. rewrite Forall_forall in Pn. apply nn_val, pos_nn, (Pn d I). }
      destruct (fold_means _ _ _ (Rlt_le _ _ M0) (proj2 PB) Pd F) as [B1 B2].
      destruct S as [S1 S2]. assert (U : / 2 <= uq ^ (length (pr_tasks pr) + 3)) by (apply uqk_half; lia).
      set (u := uq ^ (length (pr_tasks pr) + 3)) in *. set (R := rsum (map val (sp_dur p))) in *.
      assert (A1 : 1 <= IZR (Z.of_nat (length (pr_agents pr)))) by (apply IZR_le; destruct (pr_agents pr); [congruence|cbn [length]; lia]).
      assert (A2 : IZR (Z.of_nat (length (pr_agents pr))) <= bpow radix2 31) by (change (bpow radix2 31) with (IZR (2 ^ 31)); apply IZR_le; lia).
      assert (T1 : 1 <= INR (length (pr_tasks pr))) by (rewrite INR_IZR_INZ; apply IZR_le; destruct (pr_tasks pr); [congruence|cbn [length]; lia]).
      assert (T2 : INR (length (pr_tasks pr)) <= bpow radix2 20) by (rewrite INR_IZR_INZ; change (bpow radix2 20) with (IZR (2 ^ 20)); apply IZR_le; lia).
      assert (R1 : / 2 <= R) by nra. assert (R2 : R <= 2 * bpow radix2 31) by nra.
      split.
      + assert (X : / 2 <= 2 * bpow radix2 31 * val (sp_mult p)) by nra.
        assert (Y : bpow radix2 31 * bpow radix2 (-36) <= / 4).
        { rewrite <- bpow_plus. replace (/ 4) with (bpow radix2 (-2)) by (cbn; lra). apply bpow_le. lia. }
        pose proof (bpow_gt_0 radix2 31). nra.
      + assert (X : val (sp_mult p) <= 2 * (bpow radix2 20 * bpow radix2 65)).
        { pose proof (bpow_gt_0 radix2 65). nra. }
        rewrite <- bpow_plus in X. assert (Y : bpow radix2 87 = 2 * bpow radix2 86) by (change 87%Z with (1 + 86)%Z; rewrite bpow_plus; reflexivity).
        assert (Z : bpow radix2 (20 + 65) <= bpow radix2 86) by (apply bpow_le; lia). lra.
  Qed.

  (** What is known about an item of a schedule. *)
  Lemma item_facts : exists w, INR (length (pr_tasks pr)) * w <= bpow radix2 28 /\
    forall i j, (i < task_count p)%nat -> allowed p i j -> exists t q,
      nth_error (pr_tasks pr) i = Some t /\ q = nth j (sp_perf p) f_zero /\ pos q /\ is_finite q = true /\
      2 * val q <= IZR (mean t) <= w * val q.
  Proof.
    destruct ORD as (w & W & O). exists w. split; [exact W|]. intros i j Hi AL.
    destruct (params_shape pr p HE HP) as (_ & LA' & LT' & _).
    assert (Hj : (j < length (sp_perf p))%nat) by (apply (pb_agents_range p HP i), AL).
    pose proof (averages pr p HE PB MP) as AV.
    destruct (nth_error (pr_tasks pr) i) as [t|] eqn:Et; [|apply nth_error_None in Et; unfold task_count in Hi; lia].
    destruct (nth_error (pr_agents pr) j) as [a|] eqn:Ea; [|apply nth_error_None in Ea; lia].
    exists t, (nth j (sp_perf p) f_zero). split; [reflexivity|]. split; [reflexivity|].
    assert (Q : perf_average (ag_perf a) = Ok (nth j (sp_perf p) f_zero) /\ f_lt f_zero (nth j (sp_perf p) f_zero) = true /\
      is_finite (nth j (sp_perf p) f_zero) = true).
    { clear - AV Ea. revert j Ea. induction AV as [|x q l l' H AV IH]; intros j Ea; [destruct j; discriminate Ea|].
      destruct j as [|j]; cbn in Ea |- *; [injection Ea as ->; exact H|exact (IH j Ea)]. }
    destruct Q as (Q1 & Q2 & Q3). split; [apply pos_iff, Q2|]. split; [exact Q3|].
    pose proof (nth_error_In _ _ Ea) as Ia. destruct PB as [PA _]. rewrite Forall_forall in PA. destruct (PA a Ia) as [P1 P2].
    unfold moderate_performance in MP. rewrite Forall_forall in MP. destruct (MP a Ia) as [M1 M2].
    destruct (perf_average_spec (ag_perf a) P1 P2 M2 M1) as (b & E & F & B1 & B2).
    assert (b = nth j (sp_perf p) f_zero) by congruence. subst b. rewrite val_finite by exact Q3.
    destruct (O i j t a Et Ea AL) as [O1 O2]. split; [lra|].
    assert (F1 : is_finite (perf_min (ag_perf a)) = true).
    { destruct (num_cases (perf_min (ag_perf a))) as [G|G]; [apply pos_nn, pos_iff, P1|exact G|].
      exfalso. rewrite G in P2. destruct (perf_max (ag_perf a)) as [s|s| |s m e B]; try discriminate;
        destruct s; discriminate. }
    assert (P0 : 0 < B2R (perf_min (ag_perf a))).
    { apply fin_lt in P1; [|reflexivity|exact F1]. exact P1. }
    assert (W0 : 0 <= w).
    { assert (X : 0 < w * B2R (perf_min (ag_perf a))) by lra. nra. }
    apply Rle_trans with (1 := O2). apply Rmult_le_compat_l; lra.
  Qed.

  Lemma n_pos : 1 <= INR (length (pr_tasks pr)).
  Proof.
    destruct (params_Ok pr p HE) as (_ & NT & _). rewrite INR_IZR_INZ. apply IZR_le. destruct (pr_tasks pr); [congruence|cbn [length]; lia].
  Qed.

  (** A quotient of a duration close to [m] and a performance. *)
  Lemma quotient : forall (d q : f32) m mult w k, nn d -> is_finite d = true -> pos q -> is_finite q = true ->
    bpow radix2 (-36) <= mult <= bpow radix2 87 -> (k <= 2)%nat -> near k (val d * mult) m ->
    2 * val q <= m <= w * val q -> w <= bpow radix2 28 ->
    nn (f_div d q) /\ is_finite (f_div d q) = true /\ 1 <= val (f_div d q) * mult <= 2 * w.
  Proof.
    intros d q m mult w k Nd Fd Pq Fq [M1 M2] K [N1 N2] [H1 H2] W.
    pose proof (pos_val q Pq) as Q0. pose proof (nn_val d Nd) as D0.
    pose proof (bpow_gt_0 radix2 (-36)) as B36. assert (M0 : 0 < mult) by lra.
    destruct (div_finite d q Nd Fd Pq Fq) as [Nv Vv].
    set (x := val d / val q) in *. assert (Ex : val d = x * val q) by (unfold x; field; lra).
    pose proof uq_bounds as U0. assert (U3 : / 2 <= uq ^ 3) by (apply uqk_half; lia).
    assert (Uk : uq ^ 3 <= uq ^ (S k) /\ uq ^ (S k) = uq * uq ^ k /\ / 2 <= uq ^ k /\ uq ^ k <= 1 /\ / 2 <= uq ^ (S k)).
    { assert (G : uq ^ 3 <= uq ^ (S k)).
      { destruct k as [|[|[|k]]]; [| | |lia]; cbn [pow]; nra. }
      assert (H3 : / 2 <= uq ^ k) by (apply uqk_half; lia). pose proof (uqk_le1 k).
      split; [exact G|]. split; [reflexivity|]. split; [exact H3|]. split; [assumption|]. lra. }
    destruct Uk as (G1 & G2 & G3 & G4 & G5). set (u := uq ^ k) in *.
    assert (X1 : 2 * u <= x * mult) by (rewrite Ex in N1; nra).
    assert (X2 : x * mult * u <= w) by (rewrite Ex in N2; nra).
    assert (X0 : bpow radix2 (-126) <= x).
    { assert (Y : 1 <= x * bpow radix2 87).
      { assert (0 < x) by nra. assert (1 <= x * mult) by lra. nra. }
      assert (Z : bpow radix2 (-126) * bpow radix2 87 <= 1).
      { rewrite <- bpow_plus. change 1 with (bpow radix2 0). apply bpow_le. lia. }
      pose proof (bpow_gt_0 radix2 87). nra. }
    assert (X3 : x <= bpow radix2 100).
    { pose proof (bpow_gt_0 radix2 (-126)) as B126. assert (Xp : 0 < x) by lra.
      assert (Y0 : 0 <= x * mult) by (apply Rmult_le_pos; lra).
      assert (Y1 : x * mult * / 2 <= w) by (apply Rle_trans with (2 := X2); apply Rmult_le_compat_l; lra).
      assert (Y2 : x * bpow radix2 (-36) <= x * mult) by (apply Rmult_le_compat_l; lra).
      assert (Y : x * bpow radix2 (-36) <= 2 * bpow radix2 28) by lra.
      assert (Z : 2 * bpow radix2 28 <= bpow radix2 100 * bpow radix2 (-36)).
      { change 2 with (bpow radix2 1). rewrite <- !bpow_plus. apply bpow_le. lia. }
      nra. }
    rewrite (clamp_off _ (bpow radix2 100)) in Vv; [|exact X3|apply rnd_bpow; lia|apply bpow_lt; lia].
    destruct (rnd_near x X0) as [R1 R2]. rewrite pow_1 in R1, R2. rewrite <- Vv in R1, R2.
    split; [exact Nv|]. split.
    - apply num_finite_of_val; [exact Nv|]. rewrite Vv. apply Rle_lt_trans with (bpow radix2 100); [|apply bpow_lt; lia].
      rewrite <- (rnd_bpow 100) by lia. apply rnd_le, X3.
    - set (v := val (f_div d q)) in *. pose proof (nn_val _ Nv) as V0. fold v in V0. split.
      + assert (Y : x * mult * uq <= v * mult) by nra. assert (2 * u * uq <= x * mult * uq) by nra. nra.
      + assert (Y : v * mult * uq <= x * mult) by nra. assert (v * mult * uq * u <= w) by nra.
        assert (0 <= v * mult) by nra. nra.
  Qed.

  Lemma w_range : forall w, INR (length (pr_tasks pr)) * w <= bpow radix2 28 ->
    (forall i j, (i < task_count p)%nat -> allowed p i j -> exists t q,
      nth_error (pr_tasks pr) i = Some t /\ q = nth j (sp_perf p) f_zero /\ pos q /\ is_finite q = true /\
      2 * val q <= IZR (mean t) <= w * val q) -> 2 <= w <= bpow radix2 28.
  Proof.
    intros w W F. pose proof n_pos as N. pose proof (pb_tasks p HP) as P0. destruct (pb_agents_some p HP 0 P0) as (a & AL).
    destruct (F 0%nat a P0 AL) as (t & q & _ & _ & Q & _ & H). pose proof (pos_val q Q) as Q0.
    assert (W2 : 2 <= w) by nra. split; [exact W2|]. nra.
  Qed.

  Lemma durations_near : forall i t, nth_error (pr_tasks pr) i = Some t ->
    let d := nth i (sp_dur p) f_zero in
    pos d /\ is_finite d = true /\ near 2 (val d * val (sp_mult p)) (IZR (mean t)).
  Proof.
    intros i t H. cbv zeta. destruct (params_Ok pr p HE) as (NA & NT & D & _).
    destruct (normalise_ok (pr_tasks pr) (length (pr_agents pr))) as (norm & mult & E & Pm & Fm & Pn & F & _); auto.
    - destruct (pr_agents pr); [congruence|cbn; lia].
    - apply PB.
    - assert (Q : norm = sp_dur p /\ mult = sp_mult p) by (split; congruence). destruct Q as [-> ->].
      clear - Pn F H. revert i H. induction F as [|d x ds l N F IH]; intros i H; [destruct i; discriminate H|].
      inversion Pn as [|? ? [A B] Pn']; subst. destruct i as [|i]; cbn in H |- *; [injection H as ->; auto|].
      exact (IH Pn' i H).
  Qed.

  (** The work of a schedule in normalised time. *)
  Lemma normal_work : forall s, valid_schedule p s ->
    (forall x, In x s -> nn (work_time p (it_task x) (it_agent x)) /\ 1 <= val (work_time p (it_task x) (it_agent x)) * val (sp_mult p)) /\
    nn (total_time p s) /\ val (total_time p s) * val (sp_mult p) <= bpow radix2 30 /\ is_finite (total_time p s) = true.
  Proof.
    intros s V. destruct item_facts as (w & W & F). destruct (w_range w W F) as [W1 W2]. pose proof mult_range as MR.
    set (mult := val (sp_mult p)) in *. pose proof (bpow_gt_0 radix2 (-36)) as B36. assert (M0 : 0 < mult) by lra.
    assert (I : forall x, In x s -> nn (work_time p (it_task x) (it_agent x)) /\
      1 <= val (work_time p (it_task x) (it_agent x)) * mult <= 2 * w).
    { intros x Hx. destruct (F _ _ (valid_range p s x V Hx) (vs_agents p s V x Hx)) as (t & q & T & -> & Q1 & Q2 & H).
      destruct (durations_near _ t T) as (D1 & D2 & D3).
      destruct (quotient _ _ _ _ _ 2 (pos_nn _ D1) D2 Q1 Q2 MR ltac:(lia) D3 H W2) as (A & _ & B). split; [exact A|exact B]. }
    split; [intros x Hx; destruct (I x Hx) as (A & B & _); auto|].
    destruct (power_above (2 * w / mult)) as (e & E1 & E2).
    { apply Rdiv_lt_0_compat; lra. }
    assert (EM : 2 * w / mult * mult = 2 * w) by (field; lra).
    assert (L : length s = length (pr_tasks pr)).
    { rewrite (valid_length p s V). destruct (params_shape pr p HE HP) as (_ & _ & LT' & _). exact LT'. }
    destruct (total_small p e s) as [A B].
    - assert (Lo : bpow radix2 (-100) < bpow radix2 e).
      { apply Rle_lt_trans with (2 := E1). apply Rmult_le_reg_r with mult; [exact M0|]. rewrite EM.
        apply Rle_trans with (bpow radix2 (-100) * bpow radix2 87); [apply Rmult_le_compat_l; [apply bpow_ge_0|lra]|].
        rewrite <- bpow_plus. apply Rle_trans with (bpow radix2 0); [apply bpow_le; lia|cbn; lra]. }
      assert (Hi : bpow radix2 e <= bpow radix2 100).
      { apply Rle_trans with (1 := E2). apply Rmult_le_reg_r with mult; [exact M0|].
        replace (2 * (2 * w / mult) * mult) with (2 * (2 * w / mult * mult)) by ring. rewrite EM.
        apply Rle_trans with (bpow radix2 100 * bpow radix2 (-36)); [|apply Rmult_le_compat_l; [apply bpow_ge_0|lra]].
        rewrite <- bpow_plus. apply Rle_trans with (4 * bpow radix2 28); [lra|].
        replace 4 with (bpow radix2 2) by (cbn; lra). rewrite <- bpow_plus. apply bpow_le. lia. }
      apply lt_bpow in Lo. apply le_bpow in Hi. lia.
    - intros x Hx. destruct (I x Hx) as (A & _ & B). split; [exact A|]. apply Rlt_le, Rle_lt_trans with (2 := E1).
      apply Rmult_le_reg_r with mult; [exact M0|]. rewrite EM. exact B.
    - lia.
    - rewrite L in B. set (n := INR (length (pr_tasks pr))) in *. pose proof n_pos as N1. fold n in N1.
      assert (X : n * bpow radix2 e * mult <= bpow radix2 30).
      { apply Rle_trans with (n * (2 * (2 * w / mult)) * mult).
        - apply Rmult_le_compat_r; [lra|]. apply Rmult_le_compat_l; lra.
        - replace (n * (2 * (2 * w / mult)) * mult) with (2 * n * (2 * w / mult * mult)) by ring. rewrite EM.
          change 30%Z with (2 + 28)%Z. rewrite bpow_plus. replace (bpow radix2 2) with 4 by (cbn; lra). lra. }
      assert (Y : val (total_time p s) * mult <= bpow radix2 30).
      { apply Rle_trans with (2 := X). apply Rmult_le_compat_r; lra. }
      split; [exact A|]. split; [exact Y|]. apply num_finite_of_val; [exact A|].
      apply Rle_lt_trans with (bpow radix2 66); [|apply bpow_lt; lia].
      apply Rmult_le_reg_r with mult; [exact M0|]. apply Rle_trans with (1 := Y).
      apply Rle_trans with (bpow radix2 66 * bpow radix2 (-36)); [rewrite <- bpow_plus; apply bpow_le; lia|].
      apply Rmult_le_compat_l; [apply bpow_ge_0|lra].
  Qed.

  Lemma ordinary_finite : finite_work p.
  Proof. intros s V. apply (normal_work s V). Qed.

  Lemma ordinary_seconds : forall s, valid_schedule p s -> exists z, seconds_of p s z /\ (0 < z < 2 ^ 63)%Z.
  Proof.
    intros s V. destruct (usable pr p HE HP PB MP LT LA) as (HN & MF & M0). pose proof mult_range as MR.
    destruct (makespan_ok p HP HN s V) as (m & tl & E & G & N & L).
    destruct (makespan_bounds p HP HN s m V E) as (_ & B1 & _ & _ & B2).
    destruct (normal_work s V) as (I & Nt & Bt & Ft).
    assert (X : exists x, In x s).
    { destruct s as [|x s]; [|exists x; left; reflexivity]. apply (valid_length p [] ) in V. pose proof (pb_tasks p HP). cbn in V. lia. }
    destruct X as (x & Hx). destruct (I x Hx) as [Nw Bw]. specialize (B1 x Hx).
    apply le_nn in B1; [|exact Nw|exact N]. apply val_le_key in B1.
    apply le_nn in B2; [|exact N|exact Nt]. apply val_le_key in B2.
    assert (F : is_finite m = true).
    { apply num_finite_of_val; [exact N|]. apply Rle_lt_trans with (1 := B2). rewrite val_finite by exact Ft.
      pose proof (abs_B2R_lt_emax _ _ (total_time p s)) as A. apply Rle_lt_trans with (2 := A). apply Rle_abs. }
    assert (V1 : 1 <= val m * val (sp_mult p) <= bpow radix2 30).
    { rewrite <- val_finite in M0 by exact MF. split; nra. }
    rewrite (val_finite m F), (val_finite _ MF) in V1.
    assert (R : 1 <= rnd (B2R m * B2R (sp_mult p)) <= bpow radix2 30).
    { apply rnd_between; [change 1 with (bpow radix2 0); apply rnd_bpow; lia|apply rnd_bpow; lia|exact V1]. }
    assert (FM : is_finite (f_mul m (sp_mult p)) = true /\ B2R (f_mul m (sp_mult p)) = rnd (B2R m * B2R (sp_mult p))).
    { pose proof (Bmult_correct 24 128 _ _ mode_NE m (sp_mult p)) as C.
      rewrite Rlt_bool_true in C.
      - destruct C as (C1 & C2 & _). rewrite F, MF in C2. split; [exact C2|exact C1].
      - change (round radix2 _ _ _) with (rnd (B2R m * B2R (sp_mult p))). rewrite Rabs_pos_eq by lra.
        apply Rle_lt_trans with (1 := proj2 R). apply bpow_lt. lia. }
    destruct FM as [FM VM]. exists (Zfloor (B2R (f_mul m (sp_mult p)))). split.
    - exists m. split; [exact E|]. split; [exists tl; auto|]. split; [exact FM|]. rewrite plus_IZR.
      split; [apply Zfloor_lb|apply Zfloor_ub].
    - rewrite VM. split.
      + apply Z.lt_le_trans with 1%Z; [lia|]. apply Zfloor_lub. apply R.
      + apply lt_IZR. apply Rle_lt_trans with (1 := Zfloor_lb _). apply Rle_lt_trans with (1 := proj2 R).
        change (IZR (2 ^ 63)) with (bpow radix2 63). apply bpow_lt. lia.
  Qed.

  Lemma ordinary_timeline : forall s, valid_schedule p s ->
    forall tl, greedy_timeline (in_seconds pr p) s tl -> forall x, In x s ->
    f_lt (tl_finish tl (it_task x)) (f_of_Z (2 ^ 31)) = true.
  Proof.
    intros s V tl G x Hx. destruct (in_seconds_ok pr p HE HP PB MP) as (HP' & HN' & HV'). pose proof (HV' s V) as V'.
    set (P := in_seconds pr p) in *.
    destruct (makespan_ok P HP' HN' s V') as (m & tl' & E & G' & N & L).
    destruct (makespan_bounds P HP' HN' s m V' E) as (_ & _ & _ & _ & B2).
    destruct (last_finish_all P HP' HN' s tl' tl m V' G' G N L) as [B1 _]. specialize (B1 x Hx).
    destruct item_facts as (w & W & F). destruct (w_range w W F) as [W1 W2].
    assert (I : forall x, In x s -> nn (work_time P (it_task x) (it_agent x)) /\ val (work_time P (it_task x) (it_agent x)) <= 2 * w).
    { intros y Hy. destruct (F _ _ (valid_range p s y V Hy) (vs_agents p s V y Hy)) as (t & q & T & -> & Q1 & Q2 & H).
      assert (D : nth (it_task y) (sp_dur P) f_zero = f_of_Z (mean t)).
      { unfold P, in_seconds. cbn [under sp_dur]. apply nth_error_nth. rewrite nth_error_map, T. reflexivity. }
      destruct (of_Z_near (mean t) (mean_range t (proj2 PB t (nth_error_In _ _ T)))) as (D1 & D2 & D3 & _).
      destruct (quotient (f_of_Z (mean t)) (nth (it_agent y) (sp_perf p) f_zero) (IZR (mean t)) 1 w 1 (pos_nn _ D1) D2 Q1 Q2)
        as (A & _ & _ & B); [|lia|rewrite Rmult_1_r; exact D3|exact H|exact W2|].
      - split; [change 1 with (bpow radix2 0); apply bpow_le; lia|change 1 with (bpow radix2 0); apply bpow_le; lia].
      - unfold work_time. rewrite D. rewrite Rmult_1_r in B. split; [exact A|exact B]. }
    destruct (power_above (2 * w)) as (e & E1 & E2); [lra|].
    assert (L' : length s = length (pr_tasks pr)).
    { rewrite (valid_length p s V). destruct (params_shape pr p HE HP) as (_ & _ & LT' & _). exact LT'. }
    destruct (total_small P e s) as [A B].
    - assert (Lo : bpow radix2 (-100) < bpow radix2 e).
      { apply Rle_lt_trans with (2 := E1). apply Rle_trans with (bpow radix2 0); [apply bpow_le; lia|cbn; lra]. }
      assert (Hi : bpow radix2 e <= bpow radix2 100).
      { apply Rle_trans with (1 := E2). apply Rle_trans with (4 * bpow radix2 28); [lra|].
        replace 4 with (bpow radix2 2) by (cbn; lra). rewrite <- bpow_plus. apply bpow_le. lia. }
      apply lt_bpow in Lo. apply le_bpow in Hi. lia.
    - intros y Hy. destruct (I y Hy) as [A B]. split; [exact A|lra].
    - lia.
    - rewrite L' in B. set (n := INR (length (pr_tasks pr))) in *. pose proof n_pos as N1. fold n in N1.
      assert (X : val (total_time P s) <= bpow radix2 30).
      { apply Rle_trans with (1 := B). apply Rle_trans with (n * (2 * (2 * w))); [apply Rmult_le_compat_l; lra|].
        change 30%Z with (2 + 28)%Z. rewrite bpow_plus. replace (bpow radix2 2) with 4 by (cbn; lra). lra. }
      apply le_nn in B2; [|exact N|exact A]. apply val_le_key in B2.
      destruct (times_nn pr p HE HP PB MP s tl x V' G Hx) as (Ns & Nd & Fx).
      assert (Nf : nn (tl_finish tl (it_task x))) by (rewrite Fx; apply add_nn; assumption).
      apply le_nn in B1; [|exact Nf|exact N]. apply val_le_key in B1.
      assert (Z : val (f_of_Z (2 ^ 31)) = bpow radix2 31).
      { destruct (of_Z_spec (2 ^ 31)) as [_ ->]; [lia|]. change (IZR (2 ^ 31)) with (bpow radix2 31). rewrite rnd_bpow by lia.
        apply Rmin_left. apply bpow_le. lia. }
      rewrite lt_key; [|apply Nf|reflexivity]. apply Z.ltb_lt. apply Z.nle_gt. intro K. apply val_le_key in K. rewrite Z in K.
      assert (bpow radix2 30 < bpow radix2 31) by (apply bpow_lt; lia). lra.
  Qed.
End Ordinary.
