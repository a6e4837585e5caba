(** * Property theorems C85 and C86: the quantile estimator of the simulation *)

From Coq Require Import List ZArith Bool Arith Reals Lia Lra.
From Flocq Require Import Core BinarySingleNaN.
From Verif Require Import Base F32 F32Facts F32Signed PSquareModel PSquareSpec PSquareFloats PSquareProofs
  ProjectModel ScheduleModel HistogramModel SimulationModel SimulationSpec SimulationProps StoppingSpec.
Import ListNotations.

Lemma seconds_good : forall z, (- 2 ^ 63 <= z < 2 ^ 63)%Z -> good (f_of_Z z) /\ B2R (f_of_Z z) = rnd (IZR z).
Proof.
  intros z Hz. destruct (of_Z_fin z) as [F E]; [lia|]. split; [|exact E]. split; [exact F|]. rewrite E.
  assert (P : rnd (bpow radix2 64) = bpow radix2 64).
  { replace (bpow radix2 64) with (IZR 1 * bpow radix2 64)%R by ring. apply rnd_dyadic; lia. }
  assert (B : (- bpow radix2 64 <= IZR z <= bpow radix2 64)%R).
  { change (bpow radix2 64) with (IZR (2 ^ 64)). rewrite <- opp_IZR. split; apply IZR_le; lia. }
  assert (R : (- bpow radix2 64 <= rnd (IZR z) <= bpow radix2 64)%R).
  { apply rnd_between; [rewrite rnd_opp, P; reflexivity|exact P|exact B]. }
  apply Rle_trans with (bpow radix2 64); [apply Rabs_le; lra|apply bpow_le; lia].
Qed.

Lemma all_good : forall zs, seconds_fit zs -> Forall good (map f_of_Z zs).
Proof.
  intros zs H. apply Forall_forall. intros x Hx. apply in_map_iff in Hx. destruct Hx as (z & <- & Hz).
  unfold seconds_fit in H. rewrite Forall_forall in H. apply (seconds_good z (H z Hz)).
Qed.

Lemma of_Z_le : forall a b, (- 2 ^ 63 <= a < 2 ^ 63)%Z -> (- 2 ^ 63 <= b < 2 ^ 63)%Z -> (a <= b)%Z ->
  (B2R (f_of_Z a) <= B2R (f_of_Z b))%R.
Proof.
  intros a b A B L. rewrite (proj2 (seconds_good a A)), (proj2 (seconds_good b B)). apply rnd_le, IZR_le, L.
Qed.

(** C85: after at least thirteen runs the five estimates are numbers in
    ascending order between the shortest and the longest run (as floats).
    In particular the estimator never searches an unsorted array and never
    casts NaN to an integer. *)
Theorem estimates_in_order : forall zs lo hi,
  13 <= length zs -> seconds_fit zs -> smallest zs lo -> largest zs hi ->
  length (p_square zs) = 5 /\ ascending (f_of_Z lo :: p_square zs ++ [f_of_Z hi]).
Proof.
  intros zs lo hi L S [Il Ml] [Ih Mh]. pose proof S as S'. unfold seconds_fit in S'. rewrite Forall_forall in S', Ml, Mh.
  destruct (estimator_tracks (map f_of_Z zs)) as (st & E & T); [rewrite map_length; exact L|apply all_good, S|].
  unfold p_square. rewrite E. destruct (tracked_estimates _ _ T) as [LQ A]. split; [exact LQ|].
  apply A.
  - apply in_map, Il.
  - apply in_map, Ih.
  - intros y Hy. apply in_map_iff in Hy. destruct Hy as (z & <- & Hz). apply of_Z_le; auto.
  - intros y Hy. apply in_map_iff in Hy. destruct Hy as (z & <- & Hz). apply of_Z_le; auto.
  - apply (seconds_good lo (S' lo Il)).
  - apply (seconds_good hi (S' hi Ih)).
Qed.
Print Assumptions estimates_in_order.

Definition ex_runs : list Z := [50; 20; 70; 10; 90; 40; 30; 60; 80; 15; 55; 65; 35; 45; 5; 95; 25; 75]%Z.

(** For instance eighteen runs of 5 to 95 s, with the whole parts of the
    estimates. *)
Example ex_estimates : length (p_square ex_runs) = 5 /\
  ascending (f_of_Z 5 :: p_square ex_runs ++ [f_of_Z 95]) /\
  map (fun x => Btrunc x) (p_square ex_runs) = [25; 40; 50; 60; 77]%Z.
Proof.
  destruct (estimates_in_order ex_runs 5 95) as [A B].
  - cbn. lia.
  - unfold seconds_fit, ex_runs. repeat constructor; lia.
  - split; [cbn; tauto|]. unfold ex_runs. repeat constructor; lia.
  - split; [cbn; tauto|]. unfold ex_runs. repeat constructor; lia.
  - split; [exact A|]. split; [exact B|]. vm_compute. reflexivity.
Qed.

(** Runs that all take the same time are estimated exactly. *)
Lemma same_estimates : forall z n, 13 <= n -> (1 <= z < 2 ^ 63)%Z -> p_square (repeat z n) = repeat (f_of_Z z) 5.
Proof.
  intros z n N Z.
  assert (I : In z (repeat z n)) by (destruct n; [lia|left; reflexivity]).
  assert (EQ : forall y, In y (repeat z n) -> y = z) by (intros y Hy; apply repeat_spec in Hy; exact Hy).
  destruct (estimates_in_order (repeat z n) z z) as [L A].
  - rewrite repeat_length. exact N.
  - apply Forall_forall. intros y Hy. rewrite (EQ y Hy). lia.
  - split; [exact I|]. apply Forall_forall. intros y Hy. rewrite (EQ y Hy). lia.
  - split; [exact I|]. apply Forall_forall. intros y Hy. rewrite (EQ y Hy). lia.
  - assert (X : forall x, In x (p_square (repeat z n)) -> x = f_of_Z z).
    { intros x Hx. apply In_nth_error in Hx. destruct Hx as [i Hi].
      destruct (seconds_good z) as [[F B] E]; [lia|].
      assert (NL : nth_error (f_of_Z z :: p_square (repeat z n) ++ [f_of_Z z]) (S i) = Some x).
      { cbn [nth_error]. rewrite nth_error_app1; [exact Hi|]. apply nth_error_Some. congruence. }
      pose proof (A 0 (S i) _ _ ltac:(lia) eq_refl NL) as A1.
      assert (NR : nth_error (f_of_Z z :: p_square (repeat z n) ++ [f_of_Z z]) 6 = Some (f_of_Z z)).
      { change (nth_error (p_square (repeat z n) ++ [f_of_Z z]) 5 = Some (f_of_Z z)).
        rewrite nth_error_app2 by lia. rewrite L. reflexivity. }
      assert (LI : i < 5) by (rewrite <- L; apply nth_error_Some; congruence).
      pose proof (A (S i) 6 _ _ ltac:(lia) NL NR) as A2.
      destruct (between_fin _ _ x F F A1 A2) as [Fx Ex].
      assert (P : (0 < B2R (f_of_Z z))%R).
      { apply Rlt_le_trans with (B2R f_one); [rewrite (proj2 one_fin); lra|]. apply (of_Z_le 1); lia. }
      assert (ST : forall y : f32, is_finite y = true -> (0 < B2R y)%R -> is_finite_strict y = true).
      { intros y Fy Py. destruct y; try discriminate Fy; [cbn in Py; lra|reflexivity]. }
      apply B2R_inj; [apply ST; [exact Fx|lra]|apply ST; [exact F|exact P]|lra]. }
    destruct (p_square (repeat z n)) as [|a [|b [|c [|d [|e [|f l]]]]]]; try discriminate L.
    cbn [In] in X. rewrite (X a), (X b), (X c), (X d), (X e) by tauto. reflexivity.
Qed.

(** ** The accuracy estimate of real runs *)

Lemma estimate_bounds : forall zs x, 13 <= length zs -> Forall (fun z => (1 <= z < 2 ^ 63)%Z) zs ->
  In x (p_square zs) -> (is_finite x = true /\ Rabs (B2R x) <= bpow radix2 100 /\ 1 <= B2R x)%R.
Proof.
  intros zs x L F Hx.
  assert (S : seconds_fit zs) by (eapply Forall_impl; [|exact F]; cbn; intros; lia).
  destruct (estimator_tracks (map f_of_Z zs)) as (st & E & T); [rewrite map_length; exact L|apply all_good, S|].
  unfold p_square in Hx. rewrite E in Hx.
  destruct T as ((L1 & L2 & L3 & G & A & P & D) & C & N & (I0 & M0) & (I12 & M12) & R).
  assert (SL : Sorting.Sorted.StronglySorted le_r (es_heights st)) by (apply adjacent_sorted; intros i Hi; apply A; lia).
  unfold quantile_estimates in Hx. apply in_map_iff in Hx. destruct Hx as (i & <- & Hi). apply in_seq in Hi.
  change (length probs) with 5 in Hi. fold (height st (2 * i)).
  destruct (G (2 * i)) as [GF GB]; [lia|]. split; [exact GF|]. split; [exact GB|].
  apply Rle_trans with (B2R (height st 0)); [|apply (sorted_nth _ SL); lia].
  apply in_map_iff in I0. destruct I0 as (z & <- & Hz). rewrite Forall_forall in F. specialize (F z Hz). cbn in F.
  apply Rle_trans with (B2R f_one); [rewrite (proj2 one_fin); lra|]. apply (of_Z_le 1); lia.
Qed.

(** C69, for the estimator the program uses: if every run takes at least
    one second then every batch yields an accuracy estimate. *)
Theorem error_estimate_of_runs : forall l st st' n,
  l <> [] -> length (hs_samples st) = runs_of n ->
  hs_quantiles st = estimates p_square (rev (hs_samples st)) n ->
  run_batch sim_batch_size l st = Ok st' -> Forall (fun z => (1 <= z < 2 ^ 63)%Z) (hs_samples st') ->
  exists st'', one_batch boost_accumulators l st = Ok st'' /\
    hs_samples st'' = hs_samples st' /\ hs_quantiles st'' = estimates p_square (rev (hs_samples st'')) (S n) /\
    length (hs_samples st'') = runs_of (S n).
Proof.
  intros l st st' n NL LS HQ RB F.
  assert (BS : sim_batch_size = Z.to_nat 10000) by reflexivity.
  unfold one_batch. destruct (Nat.eqb_spec (length l) 0) as [X|_]; [destruct l; [congruence|discriminate X]|].
  cbn [negb expects bind]. rewrite RB. cbn [bind]. unfold log_error. cbn [boost_accumulators ac_quantiles].
  assert (K : hs_quantiles st' = hs_quantiles st /\ length (hs_samples st') = sim_batch_size + length (hs_samples st) /\
              exists k, hs_samples st' = k ++ hs_samples st).
  { clear - RB. revert st RB. generalize sim_batch_size. intro n. induction n as [|n IH]; intros st RB; cbn [run_batch] in RB.
    - injection RB as <-. split; [reflexivity|]. split; [reflexivity|]. exists []. reflexivity.
    - destruct (sim_run _ _ _) as [r| |]; try discriminate. cbn [bind] in RB.
      destruct (hist_add _ _) as [h| |]; try discriminate. cbn [bind] in RB.
      destruct (IH _ RB) as (A & B & k & C). cbn [hs_quantiles hs_samples length] in *. split; [exact A|]. split; [lia|].
      exists (k ++ [sr_makespan r]). rewrite C, <- app_assoc. reflexivity. }
  destruct K as (KQ & KL & k & KS).
  assert (LR : length (rev (hs_samples st')) = runs_of (S n)).
  { rewrite rev_length, KL, LS, BS. unfold runs_of. cbn [Nat.mul]. reflexivity. }
  assert (BIG : 13 <= length (rev (hs_samples st'))) by (rewrite LR; unfold runs_of; cbn [Nat.mul]; lia).
  assert (FR : Forall (fun z => (1 <= z < 2 ^ 63)%Z) (rev (hs_samples st'))) by (apply Forall_rev, F).
  assert (MOD : forall zs, 13 <= length zs -> Forall (fun z => (1 <= z < 2 ^ 63)%Z) zs ->
     Forall (fun x => moderate x /\ (B2R x <> 0)%R) (p_square zs)).
  { intros zs HL HF. apply Forall_forall. intros x Hx. destruct (estimate_bounds zs x HL HF Hx) as (A & B & C).
    split; [|lra]. split; [exact A|]. apply Rle_trans with (1 := B). apply bpow_le. lia. }
  assert (LEN : forall zs, 13 <= length zs -> Forall (fun z => (1 <= z < 2 ^ 63)%Z) zs -> length (p_square zs) = 5).
  { intros zs HL HF.
    destruct (estimator_tracks (map f_of_Z zs)) as (e & E & T); [rewrite map_length; exact HL| |].
    - apply all_good. eapply Forall_impl; [|exact HF]. cbn. intros. lia.
    - unfold p_square. rewrite E. reflexivity. }
  destruct (error_estimate_partial (p_square (rev (hs_samples st'))) (hs_quantiles st')) as (e & E).
  - rewrite KQ, HQ. destruct n as [|n]; [discriminate|]. cbn [estimates]. intro X. apply (f_equal (@length f32)) in X.
    rewrite LEN in X; [discriminate X| |].
    + rewrite firstn_length, rev_length, LS. unfold runs_of. cbn [Nat.mul]. lia.
    + rewrite KS in F. apply Forall_app in F. destruct F as [_ F]. apply Forall_rev in F. rewrite <- (firstn_skipn (runs_of (S n)) (rev (hs_samples st))) in F.
      apply Forall_app in F. apply F.
  - rewrite KQ, HQ, (LEN _ BIG FR). destruct n as [|n]; [cbn; lia|]. cbn [estimates]. rewrite LEN; [lia| |].
    + rewrite firstn_length, rev_length, LS. unfold runs_of. cbn [Nat.mul]. lia.
    + rewrite KS in F. apply Forall_app in F. destruct F as [_ F]. apply Forall_rev in F. rewrite <- (firstn_skipn (runs_of (S n)) (rev (hs_samples st))) in F.
      apply Forall_app in F. apply F.
  - eapply Forall_impl; [|exact (MOD _ BIG FR)]. cbn. intros a [A _]. exact A.
  - rewrite KQ, HQ. destruct n as [|n].
    + cbn [estimates]. apply Forall_forall. intros x Hx. apply repeat_spec in Hx. subst x.
      destruct one_fin as [F1 E1]. split; [|rewrite E1; lra]. split; [exact F1|]. rewrite E1, Rabs_R1.
      change 1%R with (bpow radix2 0). apply bpow_le. lia.
    + cbn [estimates]. apply MOD.
      * rewrite firstn_length, rev_length, LS. unfold runs_of. cbn [Nat.mul]. lia.
      * rewrite KS in F. apply Forall_app in F. destruct F as [_ F]. apply Forall_rev in F. rewrite <- (firstn_skipn (runs_of (S n)) (rev (hs_samples st))) in F.
        apply Forall_app in F. apply F.
  - rewrite E. cbn [bind]. eexists. split; [reflexivity|]. cbn [hs_samples hs_quantiles fst snd]. split; [reflexivity|].
    split; [|rewrite <- LR, rev_length; reflexivity]. cbn [estimates]. rewrite <- LR, firstn_all. reflexivity.
Qed.
Print Assumptions error_estimate_of_runs.

(** For instance the first batch of the project without uncertainty, whose
    runs take 45 s. *)
Example ex_error_of_runs : exists st st', hs_samples st = [] /\
  run_batch sim_batch_size [Item 0 0] st = Ok st' /\ Forall (fun z => (1 <= z < 2 ^ 63)%Z) (hs_samples st') /\
  exists st'', one_batch boost_accumulators [Item 0 0] st = Ok st'' /\ length (hs_samples st'') = runs_of 1.
Proof.
  set (st := {| hs_draws := []; hs_sim := ex_csim; hs_hist := {| h_bin_size := 60; h_bins := [] |};
                hs_samples := []; hs_errors := []; hs_quantiles := repeat f_one 5 |}).
  destruct (constant_batch ex_certain [Item 0 0] 45 (fun _ => []) ltac:(lia)) with (k := sim_batch_size) (n := 0) (st := st)
    as (st' & E & _ & _ & _ & F & _).
  - intros m s R. rewrite (certain_run ex_certain s ex_csim [Item 0 0] [] (proj1 ex_certain_ok) (proj2 ex_certain_ok) R ex_csim_ok).
    destruct ex_certain_run as (r & Er & V). rewrite Er. cbn [bind].
    eexists. split; [reflexivity|]. split; [exact V|reflexivity].
  - apply sr_new, ex_csim_ok.
  - reflexivity.
  - cbn. lia.
  - constructor.
  - assert (F' : Forall (fun z => (1 <= z < 2 ^ 63)%Z) (hs_samples st')) by (eapply Forall_impl; [|exact F]; cbn; intros; lia).
    exists st, st'. split; [reflexivity|]. split; [exact E|]. split; [exact F'|].
    destruct (error_estimate_of_runs [Item 0 0] st st' 0) as (st'' & O & _ & _ & L);
      [discriminate|reflexivity|reflexivity|exact E|exact F'|].
    exists st''. split; [exact O|exact L].
Qed.

(** ** The ranks of the markers *)

(** C86, full statement: the positions of the markers are different whole
    numbers from 1 to the number of runs.  False beyond [2 ^ 24] runs, see
    [marker_ranks_refuted]; proved up to there. *)
Theorem marker_ranks_partial : forall zs, 13 <= length zs -> (Z.of_nat (length zs) <= 2 ^ 24)%Z -> seconds_fit zs ->
  exists st ranks, add_samples new_estimator (map f_of_Z zs) = Ok st /\
    es_actual st = map f_of_Z ranks /\ length ranks = 13 /\
    nth 0 ranks 0%Z = 1%Z /\ nth 12 ranks 0%Z = Z.of_nat (length zs) /\
    forall i, i < 12 -> (nth i ranks 0 < nth (S i) ranks 0)%Z.
Proof.
  intros zs L B S.
  destruct (estimator_tracks (map f_of_Z zs)) as (st & E & T); [rewrite map_length; exact L|apply all_good, S|].
  destruct T as ((L1 & L2 & L3 & G & A & P & D) & C & N & _ & _ & R). rewrite map_length in R.
  destruct (R B) as (W0 & W12 & DS).
  assert (EX : forall k l, length l = k -> (forall i, i < k -> exists z, (1 <= z <= 2 ^ 24)%Z /\ whole z (nth i l f_zero)) ->
    exists ranks, l = map f_of_Z ranks /\ length ranks = k /\ forall i, i < k -> (1 <= nth i ranks 0 <= 2 ^ 24)%Z).
  { induction k as [|k IH]; intros l LL HW.
    - destruct l; [|discriminate LL]. exists []. repeat split; [lia|lia].
    - destruct l as [|x l]; [discriminate LL|]. destruct (IH l) as (ranks & ER & LR & BR).
      + cbn in LL. lia.
      + intros i Hi. apply (HW (Datatypes.S i)). lia.
      + destruct (HW 0) as (z & Hz & Fz & Ez); [lia|]. cbn [nth] in Fz, Ez. exists (z :: ranks). cbn [map length].
        destruct (of_Z_exact z) as [Fo Eo]; [lia|].
        assert (ST : forall y : f32, is_finite y = true -> B2R y = IZR z -> is_finite_strict y = true).
        { intros y Fy Ey. destruct y; try discriminate Fy; [|reflexivity]. cbn in Ey. apply (eq_IZR 0) in Ey. lia. }
        split; [|split; [lia|]].
        * f_equal; [|exact ER]. apply B2R_inj; [apply ST; assumption|apply ST; assumption|congruence].
        * intros [|i] Hi; cbn [nth]; [exact Hz|apply BR; lia]. }
  destruct (EX 13 (es_actual st) L2 P) as (ranks & ER & LR & BR).
  assert (V : forall i, i < 13 -> B2R (actual st i) = IZR (nth i ranks 0%Z)).
  { intros i Hi. unfold actual. rewrite ER. rewrite (nth_indep _ _ (f_of_Z 0)) by (rewrite map_length; lia).
    rewrite map_nth. apply of_Z_exact. specialize (BR i Hi). lia. }
  exists st, ranks. split; [exact E|]. split; [exact ER|]. split; [exact LR|].
  split; [apply eq_IZR; rewrite <- V by lia; apply W0|]. split; [apply eq_IZR; rewrite <- V by lia; apply W12|].
  intros i Hi. apply lt_IZR. rewrite <- !V by lia. apply DS, Hi.
Qed.
Print Assumptions marker_ranks_partial.

Example ex_ranks : exists st ranks, add_samples new_estimator (map f_of_Z ex_runs) = Ok st /\
  es_actual st = map f_of_Z ranks /\ nth 12 ranks 0%Z = 18%Z.
Proof.
  destruct (marker_ranks_partial ex_runs) as (st & ranks & E & A & _ & _ & N & _).
  - cbn. lia.
  - cbn. lia.
  - unfold seconds_fit, ex_runs. repeat constructor; lia.
  - exists st, ranks. split; [exact E|]. split; [exact A|exact N].
Qed.

(** C86, refuted: the positions are floats and stop growing at [2 ^ 24]. *)
Theorem marker_ranks_refuted : exists zs st, 13 <= length zs /\ seconds_fit zs /\
  add_samples new_estimator (map f_of_Z zs) = Ok st /\
  (B2R (nth 12 (es_actual st) f_zero) < IZR (Z.of_nat (length zs)))%R.
Proof.
  assert (X : forall n, (2 ^ 24 < Z.of_nat n)%Z -> exists zs st, 13 <= length zs /\ seconds_fit zs /\
    add_samples new_estimator (map f_of_Z zs) = Ok st /\
    (B2R (nth 12 (es_actual st) f_zero) < IZR (Z.of_nat (length zs)))%R).
  { intros n Hn.
    assert (S : seconds_fit (repeat 1%Z n)) by (apply Forall_forall; intros y Hy; apply repeat_spec in Hy; lia).
    destruct (estimator_tracks (map f_of_Z (repeat 1%Z n))) as (st & E & T).
    - rewrite map_length, repeat_length. lia.
    - apply all_good, S.
    - exists (repeat 1%Z n), st. rewrite repeat_length. split; [lia|]. split; [exact S|]. split; [exact E|].
      destruct T as ((_ & _ & _ & _ & _ & P & _) & _). destruct (P 12) as (z & Hz & W); [lia|].
      unfold actual in W. rewrite (proj2 W). apply IZR_lt. lia. }
  apply (X (Z.to_nat (2 ^ 24 + 1))). rewrite Z2Nat.id by lia. lia.
Qed.
Print Assumptions marker_ranks_refuted.
