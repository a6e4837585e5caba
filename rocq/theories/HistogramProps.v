(** * Property theorems C45-C50: histogram and percentiles *)

From Coq Require Import List ZArith Bool Arith Lia Sorted Permutation.
From Verif Require Import Base F32 HistogramModel HistogramSpec HistogramProofs StatsProofs.
Import ListNotations.
Local Open Scope Z_scope.

(** A histogram that has been used: created, then values added and
    cleared in any order. *)
Definition used (bs : Z) (ops : list hist_op) (h : histogram) : Prop :=
  exists h0, hist_new bs = Ok h0 /\ hist_run h0 ops = Ok h.

Lemma run_natural : forall ops h0 h, hist_run h0 ops = Ok h -> natural_values ops.
Proof.
  induction ops as [|x ops IH]; intros h0 h E; [constructor|].
  cbn [hist_run] in E. destruct x as [v|]; cbn [hist_step] in E.
  - unfold hist_add in E. destruct (1 <=? h_bin_size h0); [|discriminate].
    destruct (Z.leb_spec 0 v) as [V|]; [|discriminate]. cbn [expects bind] in E.
    constructor; [exact V|]. eapply IH, E.
  - cbn [bind] in E. constructor; [exact I|]. eapply IH, E.
Qed.

Lemma used_holds : forall bs ops h, used bs ops h ->
  1 <= bs /\ h_bin_size h = bs /\ holds bs (values_of ops) (h_bins h) /\ readable h.
Proof.
  intros bs ops h (h0 & N & R).
  destruct (new_run_holds bs h0 ops h N (run_natural _ _ _ R) R) as (A & B & C).
  exact (conj A (conj B (conj C (holds_readable bs (values_of ops) h A B C)))).
Qed.

(** Using a histogram with a positive bin size and values that are not
    negative never fails. *)
Theorem histogram_total : forall bs ops, 1 <= bs -> natural_values ops ->
  exists h, used bs ops h.
Proof.
  intros bs ops B N. destruct (new_run_total bs ops B N) as (h0 & h & A & C). exists h, h0. auto.
Qed.
Print Assumptions histogram_total.

(** The bins are the bins of the values. *)
Lemma bin_in : forall bs ops h b, used bs ops h ->
  In b (map (make_bin bs) (h_bins h)) -> exists k n, In (k, n) (h_bins h) /\ b = make_bin bs (k, n).
Proof.
  intros bs ops h b U H. apply in_map_iff in H. destruct H as ([k n] & <- & H). eauto.
Qed.

Lemma count_in : forall bs vs k, 1 <= bs -> Forall (fun v => 0 <= v) vs ->
  how_many (fun x => Z.quot x bs =? k) vs =
  how_many (fun v => (k * bs <=? v) && (v <? k * bs + bs)) vs.
Proof.
  intros bs vs k B F. apply how_many_ext. intros x Hx. rewrite Forall_forall in F.
  apply eq_true_iff_eq. rewrite Z.eqb_eq, andb_true_iff, Z.leb_le, Z.ltb_lt.
  apply quot_in_bin; [exact B|apply F, Hx].
Qed.

Lemma holds_nonneg : forall bs vs l, holds bs vs l -> Forall (fun v => 0 <= v) vs.
Proof. intros bs vs l H. eapply Forall_impl; [|exact (ho_keys _ _ _ H)]. cbn. tauto. Qed.

(** C45: after any use, the count of a bin is the number of values added
    since the last clear that are at least its lower bound and less than
    the lower bound plus the bin size; every such value lies in exactly
    one bin; the counts sum to the number of values.  Lower bounds are
    multiples of the bin size. *)
Theorem histogram_counts : forall bs ops h, used bs ops h ->
  exists bins, hist_iterate h = Ok bins /\
    (forall b, In b bins ->
       b_count b = how_many (fun v => (b_low b <=? v) && (v <? b_low b + bs)) (values_of ops) /\
       exists k, 0 <= k /\ b_low b = k * bs) /\
    (forall v, In v (values_of ops) -> exists! b, In b bins /\ lies_in v b) /\
    fold_right Z.add 0 (map b_count bins) = Z.of_nat (length (values_of ops)).
Proof.
  intros bs ops h U. destruct (used_holds bs ops h U) as (B & E & H & R).
  exists (map (make_bin bs) (h_bins h)). rewrite iterate_map by exact R. rewrite E.
  split; [reflexivity|]. pose proof (holds_nonneg _ _ _ H) as NN.
  destruct H as [S C K T]. rewrite Forall_forall in C, K. split; [|split].
  - intros b Hb. destruct (bin_in _ _ _ _ U Hb) as (k & n & I & ->).
    destruct (C _ I) as (C1 & _ & C3). cbn [make_bin b_count b_low fst snd] in *. split.
    + rewrite C3. apply count_in; assumption.
    + exists k. auto.
  - intros v Hv. destruct (K v Hv) as [V0 V1]. apply in_map_iff in V1.
    destruct V1 as ([k n] & V1 & V2). cbn [fst] in V1.
    exists (make_bin bs (k, n)). split.
    + split; [apply in_map, V2|]. unfold lies_in. cbn [make_bin b_low b_high fst].
      apply quot_in_bin; auto.
    + intros b [Hb Lb]. destruct (bin_in _ _ _ _ U Hb) as (k' & n' & I & ->).
      unfold lies_in in Lb. cbn [make_bin b_low b_high fst] in Lb.
      apply quot_in_bin in Lb; [|exact B|exact V0].
      assert (k' = k) by congruence. subst k'.
      destruct (C _ V2) as (_ & _ & X). destruct (C _ I) as (_ & _ & Y). cbn [fst snd] in X, Y.
      rewrite X, Y, H. reflexivity.
  - rewrite map_map. cbn [make_bin b_count]. exact T.
Qed.
Print Assumptions histogram_counts.

(** The values of the unit test, a clear before them and one more value. *)
Definition ex_ops : list hist_op :=
  [Add 7; Clear; Add 1; Add 43; Add 44; Add 45; Add 45; Add 80; Add 80; Add 200].

Definition ex_hist : histogram := {| h_bin_size := 40; h_bins := [(0, 1); (1, 4); (2, 2); (5, 1)] |}.

Example ex_used : used 40 ex_ops ex_hist.
Proof. eexists. split; reflexivity. Qed.

Example ex_counts : hist_iterate ex_hist = Ok
  [{| b_count := 1; b_low := 0; b_middle := 20; b_high := 40 |};
   {| b_count := 4; b_low := 40; b_middle := 60; b_high := 80 |};
   {| b_count := 2; b_low := 80; b_middle := 100; b_high := 120 |};
   {| b_count := 1; b_low := 200; b_middle := 220; b_high := 240 |}].
Proof. reflexivity. Qed.

(** C46: histories that leave the same values in any order give the same
    histogram. *)
Theorem histogram_order_irrelevant : forall bs a b ha hb,
  used bs a ha -> used bs b hb -> Permutation (values_of a) (values_of b) -> ha = hb.
Proof.
  intros bs a b ha hb Ua Ub P.
  destruct (used_holds _ _ _ Ua) as (_ & Ea & Ha & _). destruct (used_holds _ _ _ Ub) as (_ & Eb & Hb & _).
  pose proof (holds_unique _ _ _ _ _ Ha Hb P) as Q.
  destruct ha as [sa ba], hb as [sb bb]. cbn in Ea, Eb, Q. congruence.
Qed.
Print Assumptions histogram_order_irrelevant.

Example ex_order : exists h, used 40 [Add 200; Add 80; Add 45; Add 1; Add 80; Add 43; Add 45; Add 44] h /\
  h = ex_hist.
Proof. eexists. split; [eexists; split; reflexivity|reflexivity]. Qed.

(** C47: iteration goes through the bins in strictly increasing order,
    each with at least one value and with consistent bounds; the size is
    the number of different bins of the values; indexing agrees with
    iteration and fails exactly outside it. *)
Theorem histogram_iteration : forall bs ops h, used bs ops h ->
  exists bins, hist_iterate h = Ok bins /\
    StronglySorted (fun a b => b_low a < b_low b) bins /\
    Forall (fun b => 0 < b_count b /\ b_high b = b_low b + bs /\
                     b_low b <= b_middle b < b_high b) bins /\
    hist_size h = length bins /\
    hist_size h = length (nodup Z.eq_dec (map (fun v => v / bs) (values_of ops))) /\
    hist_empty h = (length (values_of ops) =? 0)%nat /\
    (forall i b, hist_at h i = Ok b <-> nth_error bins i = Some b).
Proof.
  intros bs ops h U. destruct (used_holds bs ops h U) as (B & E & H & R).
  exists (map (make_bin bs) (h_bins h)). rewrite iterate_map by exact R. rewrite E.
  split; [reflexivity|]. destruct H as [S C K T].
  split; [|split; [|split; [|split; [|split]]]].
  - clear - S B. induction (h_bins h) as [|v l IH]; cbn [map] in *; [constructor|].
    inversion S as [|? ? S1 S2]; subst. constructor; [apply IH, S1|].
    rewrite Forall_map in *. eapply Forall_impl; [|exact S2]. cbn. intros w Hw. nia.
  - rewrite Forall_map. eapply Forall_impl; [|exact C]. cbn. intros w (W1 & W2 & _).
    assert (0 <= Z.quot bs 2 < bs).
    { rewrite Z.quot_div_nonneg by lia. pose proof (Z.div_mod bs 2 ltac:(lia)).
      pose proof (Z.mod_pos_bound bs 2 ltac:(lia)). lia. }
    lia.
  - unfold hist_size. rewrite map_length. reflexivity.
  - unfold hist_size. rewrite <- (map_length fst (h_bins h)).
    rewrite Forall_forall in C, K. apply Nat.le_antisymm; apply NoDup_incl_length.
    + clear - S. induction S as [|x l S IH F]; constructor; [|exact IH].
      rewrite Forall_forall in F. intro Q. specialize (F _ Q). lia.
    + intros k Hk. apply in_map_iff in Hk. destruct Hk as (w & <- & Hw).
      destruct (C _ Hw) as (_ & C2 & C3). rewrite C3 in C2.
      destruct (how_many_witness _ _ C2) as (x & Hx & Q). apply Z.eqb_eq in Q.
      apply nodup_In, in_map_iff. exists x. split; [|exact Hx]. rewrite <- Q.
      rewrite Z.quot_div_nonneg; [reflexivity|apply K, Hx|lia].
    + apply NoDup_nodup.
    + intros k Hk. apply nodup_In, in_map_iff in Hk. destruct Hk as (x & <- & Hx).
      destruct (K x Hx) as [X0 X1]. rewrite Z.quot_div_nonneg in X1 by lia. exact X1.
  - unfold hist_empty. destruct (h_bins h) as [|v l] eqn:Q.
    + symmetry. apply Nat.eqb_eq. cbn in T. lia.
    + symmetry. apply Nat.eqb_neq. intro Z. rewrite Z in T.
      rewrite Forall_forall in C. cbn [map fold_right] in T.
      assert (P : 0 <= fold_right Z.add 0 (map snd l)).
      { assert (F : forall w, In w l -> 0 < snd w) by (intros w Hw; apply (C w (or_intror Hw))).
        clear - F. induction l as [|w l IH]; cbn; [lia|].
        pose proof (F w (or_introl eq_refl)). assert (0 <= fold_right Z.add 0 (map snd l))
          by (apply IH; intros; apply F; right; assumption). lia. }
      destruct (C v (or_introl eq_refl)) as (_ & V & _). cbn in T. lia.
  - intros i b. destruct (h_bins h) as [|v l] eqn:Q.
    + unfold hist_at, hist_empty. rewrite Q. cbn [negb expects bind map].
      split; [discriminate|]. destruct i; discriminate.
    + rewrite hist_at_map; [|exact R|congruence]. rewrite E, Q. unfold at_index.
      destruct (nth_error (map (make_bin bs) (v :: l)) i); split; congruence.
Qed.
Print Assumptions histogram_iteration.

Example ex_iteration : hist_size ex_hist = 4%nat /\ hist_at ex_hist 3 =
  Ok {| b_count := 1; b_low := 200; b_middle := 220; b_high := 240 |} /\ hist_at ex_hist 4 = Broken.
Proof. repeat split. Qed.

(** ** Percentiles *)

(** Cumulative counts in terms of the values. *)
Lemma cumulative_values : forall bs ops h i b, used bs ops h ->
  nth_error (map (make_bin bs) (h_bins h)) i = Some b ->
  cumulative (map (make_bin bs) (h_bins h)) (S i) =
  how_many (fun v => v <? b_high b) (values_of ops).
Proof.
  intros bs ops h i b U E. destruct (used_holds bs ops h U) as (B & _ & H & _).
  pose proof (holds_nonneg _ _ _ H) as NN. destruct H as [S C K T].
  set (vs := values_of ops) in *. clearbody vs. clear U ops T.
  rewrite nth_error_map in E. destruct (nth_error (h_bins h) i) as [[k n]|] eqn:Q; [|discriminate].
  injection E as <-. cbn [make_bin b_high fst].
  set (l := h_bins h) in *. clearbody l. clear h.
  unfold cumulative. rewrite firstn_map, map_map. cbn [make_bin b_count].
  assert (G : forall m, Forall (fun v : Z * Z => snd v = how_many (fun x => Z.quot x bs =? fst v) vs) m ->
    StronglySorted Z.lt (map fst m) ->
    fold_right Z.add 0 (map snd m) = how_many (fun x => existsb (Z.eqb (Z.quot x bs)) (map fst m)) vs).
  { induction m as [|w m IH]; intros F SS; cbn [map fold_right existsb].
    - symmetry. apply how_many_none. reflexivity.
    - inversion F as [|? ? F1 F2]; subst. cbn [map] in SS. inversion SS as [|? ? S1 S2]; subst.
      rewrite (IH F2 S1), F1. unfold how_many. rewrite <- Nat2Z.inj_add. f_equal.
      clear - S2. induction vs as [|x vs IHv]; [reflexivity|]. cbn [filter].
      destruct (Z.eqb_spec (Z.quot x bs) (fst w)) as [X|X]; cbn [orb].
      + assert (D : existsb (Z.eqb (Z.quot x bs)) (map fst m) = false).
        { apply not_true_is_false. intro Y. apply existsb_exists in Y. destruct Y as (y & Y1 & Y2).
          apply Z.eqb_eq in Y2. rewrite Forall_forall in S2. specialize (S2 _ Y1). lia. }
        rewrite D. cbn [length]. lia.
      + destruct (existsb (Z.eqb (Z.quot x bs)) (map fst m)); cbn [length]; lia. }
  assert (SP : exists l2, l = firstn (Datatypes.S i) l ++ l2 /\ nth_error (firstn (Datatypes.S i) l) i = Some (k, n) /\
    length (firstn (Datatypes.S i) l) = Datatypes.S i).
  { exists (skipn (Datatypes.S i) l). split; [symmetry; apply firstn_skipn|].
    assert (I : (i < length l)%nat) by (apply nth_error_Some; congruence).
    split; [|apply firstn_length_le; lia].
    rewrite <- Q. rewrite <- (firstn_skipn (Datatypes.S i) l) at 2.
    rewrite nth_error_app1; [reflexivity|]. rewrite firstn_length_le; lia. }
  destruct SP as (l2 & EL & N1 & LL). set (l1 := firstn (Datatypes.S i) l) in *. clearbody l1. subst l.
  rewrite map_app in S.
  assert (S1 : StronglySorted Z.lt (map fst l1)).
  { clear - S. induction (map fst l1) as [|x m IH]; [constructor|]. cbn in S. inversion S as [|? ? A F]; subst.
    constructor; [apply IH, A|]. apply Forall_app in F. apply F. }
  rewrite G; [|apply Forall_app in C; eapply Forall_impl; [|exact (proj1 C)]; cbn; tauto|exact S1].
  apply how_many_ext. intros x Hx. rewrite Forall_forall in K, NN. pose proof (NN x Hx) as X0.
  destruct (K x Hx) as [_ KX]. apply eq_true_iff_eq. rewrite existsb_exists, Z.ltb_lt.
  assert (LE : x < k * bs + bs <-> Z.quot x bs <= k).
  { rewrite Z.quot_div_nonneg by lia. pose proof (Z.div_mod x bs ltac:(lia)).
    pose proof (Z.mod_pos_bound x bs ltac:(lia)). split; intro; nia. }
  rewrite LE. clear LE.
  (* k is the last key of l1 *)
  assert (LK : exists m, map fst l1 = m ++ [k]).
  { clear - N1 LL. exists (map fst (firstn i l1)).
    rewrite <- (firstn_skipn i l1) at 1. rewrite map_app. f_equal.
    rewrite (skipn_nth _ l1 i _ N1). rewrite skipn_all2 by lia. reflexivity. }
  destruct LK as [m LK]. rewrite map_app in KX. rewrite LK in *. clear LK.
  split.
  - intros (y & Y1 & Y2). apply Z.eqb_eq in Y2. rewrite Y2. apply in_app_or in Y1.
    destruct Y1 as [Y1|[<-|[]]]; [|lia].
    clear - S1 Y1. induction m as [|z m IH]; [destruct Y1|]. cbn in S1.
    inversion S1 as [|? ? A F]; subst. destruct Y1 as [<-|Y1]; [|apply IH; assumption].
    apply Forall_app in F. destruct F as [_ F]. inversion F; subst. lia.
  - intro Y. exists (Z.quot x bs). split; [|apply Z.eqb_refl].
    apply in_app_or in KX. destruct KX as [KX|KX]; [exact KX|]. exfalso.
    clear - S KX Y. rewrite <- app_assoc in S. induction m as [|z m IH]; cbn in S.
    + inversion S as [|? ? A F]; subst. rewrite Forall_forall in F. specialize (F _ KX). lia.
    + inversion S; subst. apply IH. assumption.
Qed.

Lemma used_nonempty : forall bs ops h, used bs ops h -> values_of ops <> [] -> h_bins h <> [].
Proof.
  intros bs ops h U NE Q. destruct (used_holds bs ops h U) as (_ & _ & H & _).
  pose proof (ho_sum _ _ _ H) as T. rewrite Q in T. cbn in T. destruct (values_of ops); [congruence|].
  cbn in T. lia.
Qed.

Lemma used_samples : forall bs ops h, used bs ops h ->
  samples (map (make_bin bs) (h_bins h)) = Z.of_nat (length (values_of ops)).
Proof.
  intros bs ops h U. destruct (used_holds bs ops h U) as (_ & _ & H & _).
  unfold samples, cumulative. rewrite firstn_all, map_map. cbn [make_bin b_count].
  exact (ho_sum _ _ _ H).
Qed.

(** [stats] never fails for up to 2^24 samples. *)
Theorem stats_total : forall bs ops h, used bs ops h -> values_of ops <> [] ->
  Z.of_nat (length (values_of ops)) <= 2 ^ 24 -> exists s, stats h = Ok s.
Proof.
  intros bs ops h U NE HN. destruct (used_holds bs ops h U) as (B & E & H & R).
  pose proof (used_samples _ _ _ U) as S. rewrite <- E in S.
  destruct (stats_picks h R (used_nonempty _ _ _ U NE)) as (s & _ & _ & _ & _ & _ & Q & _); [lia|].
  exists s. exact Q.
Qed.
Print Assumptions stats_total.

(** C48, first part, for every histogram: the percentiles are ordered and
    each is the middle of a bin. *)
Theorem percentiles_ordered : forall bs ops h s bins, used bs ops h -> values_of ops <> [] ->
  stats h = Ok s -> hist_iterate h = Ok bins ->
  p25 s <= p50 s <= p75 s /\ p75 s <= p95 s <= p99 s /\
  forall p x, In (p, x) (reported s) -> exists b, In b bins /\ b_middle b = x.
Proof.
  intros bs ops h s bins U NE Q I. destruct (used_holds bs ops h U) as (B & E & H & R).
  rewrite iterate_map in I by exact R. injection I as <-.
  destruct (stats_forward h R (used_nonempty _ _ _ U NE) s Q)
    as (i1 & i2 & i3 & i4 & i5 & O1 & O2 & N1 & N2 & N3 & N4 & N5).
  destruct (histogram_iteration bs ops h U) as (bins & I & SS & _).
  rewrite iterate_map in I by exact R. injection I as <-.
  set (L := map (make_bin (h_bin_size h)) (h_bins h)) in *.
  assert (MO : forall i j x y, (i <= j)%nat -> nth_error (map b_middle L) i = Some x ->
    nth_error (map b_middle L) j = Some y -> x <= y).
  { assert (ML : forall b, In b L -> b_middle b = b_low b + Z.quot (h_bin_size h) 2).
    { intros b Hb. unfold L in Hb. apply in_map_iff in Hb. destruct Hb as (v & <- & _). reflexivity. }
    clear - SS ML. induction L as [|b L IH]; intros [|i] [|j] x y Hij X Y; cbn in X, Y; try discriminate; try lia.
    - injection X as <-. injection Y as <-. lia.
    - injection X as <-. rewrite nth_error_map in Y. destruct (nth_error L j) as [b'|] eqn:J; [|discriminate].
      injection Y as <-. inversion SS as [|? ? _ F]; subst. rewrite Forall_forall in F.
      specialize (F _ (nth_error_In _ _ J)).
      rewrite (ML b (or_introl eq_refl)), (ML b' (or_intror (nth_error_In _ _ J))). lia.
    - inversion SS; subst. apply (IH ltac:(assumption) (fun b' Hb' => ML b' (or_intror Hb')) i j x y); auto. lia. }
  split; [split; [apply (MO i1 i2)|apply (MO i2 i3)]; auto; lia|].
  split; [split; [apply (MO i3 i4)|apply (MO i4 i5)]; auto; lia|].
  assert (IN : forall i x, nth_error (map b_middle L) i = Some x -> exists b, In b L /\ b_middle b = x).
  { intros i x X. apply nth_error_In, in_map_iff in X. destruct X as (b & X & Hb). eauto. }
  intros p x [X|[X|[X|[X|[X|[]]]]]]; injection X as <- <-; eauto.
Qed.
Print Assumptions percentiles_ordered.

(** What is proved of the second part of C48: the bin of each percentile
    and the bins before it hold at least the stated fraction of the values
    for up to 2^18 values, and less than one value short of it for up to
    2^24 values (single precision arithmetic).  Missing: larger numbers;
    see [percentiles_cover_refuted]. *)
Theorem percentiles_cover_partial : forall bs ops h s bins, used bs ops h -> values_of ops <> [] ->
  stats h = Ok s -> hist_iterate h = Ok bins ->
  Z.of_nat (length (values_of ops)) <= 2 ^ 24 ->
  forall p x, In (p, x) (reported s) -> exists b, In b bins /\ b_middle b = x /\
    let below := how_many (fun v => v <? b_high b) (values_of ops) in
    let total := Z.of_nat (length (values_of ops)) in
    p * total - 100 < 100 * below /\
    (total <= 2 ^ 18 -> p * total <= 100 * below).
Proof.
  intros bs ops h s bins U NE Q I HN. destruct (used_holds bs ops h U) as (B & E & H & R).
  rewrite iterate_map in I by exact R. injection I as <-.
  pose proof (used_nonempty _ _ _ U NE) as HE. pose proof (used_samples _ _ _ U) as S.
  rewrite E. rewrite <- S in HN |- *.
  assert (HN' : samples (map (make_bin (h_bin_size h)) (h_bins h)) <= 2 ^ 24) by (rewrite E; exact HN).
  destruct (stats_picks h R HE HN') as (s' & i1 & i2 & i3 & i4 & i5 & Q' & P1 & P2 & P3 & P4 & P5 & N1 & N2 & N3 & N4 & N5).
  rewrite Q in Q'. injection Q' as <-.
  pose proof (samples_pos h R HE) as SP. rewrite E in *.
  set (L := map (make_bin bs) (h_bins h)) in *.
  assert (G : forall q a d p i j x, fraction q a d -> 100 * a = p * d -> picks h q i j ->
    nth_error (map b_middle L) j = Some x ->
    exists b, In b L /\ b_middle b = x /\
      p * samples L - 100 < 100 * how_many (fun v => v <? b_high b) (values_of ops) /\
      (samples L <= 2 ^ 18 -> p * samples L <= 100 * how_many (fun v => v <? b_high b) (values_of ops))).
  { intros q a d p i j x FR PA P N. rewrite nth_error_map in N.
    destruct (nth_error L j) as [b|] eqn:J; [|discriminate]. injection N as <-.
    exists b. split; [eapply nth_error_In, J|]. split; [reflexivity|].
    rewrite <- (cumulative_values bs ops h j b U J). fold L.
    pose proof (picks_reach h R HE ltac:(rewrite E; exact HN) q a d i j FR P) as RE.
    pose proof (cum_range h R (Datatypes.S j)) as CR. rewrite E in CR. fold L in CR.
    unfold reaches in RE. rewrite E in RE. fold L in RE.
    pose proof (fr_a _ _ _ FR) as AD. split.
    - pose proof (reach_within_one q a d FR (samples L) ltac:(lia) (f_of_Z (samples L))
        (exact_of_Z (samples L) ltac:(lia)) (cumulative L (Datatypes.S j)) ltac:(lia) RE). nia.
    - intro H18.
      pose proof (proj1 (reach_exact q a d FR (samples L) ltac:(lia) (f_of_Z (samples L))
        (exact_of_Z (samples L) ltac:(lia)) (cumulative L (Datatypes.S j)) H18 ltac:(lia)) RE). nia. }
  intros p x [X|[X|[X|[X|[X|[]]]]]]; injection X as <- <-; cbn zeta.
  - apply (G _ _ _ 25 _ _ _ pct_25 eq_refl P1 N1).
  - apply (G _ _ _ 50 _ _ _ pct_50 eq_refl P2 N2).
  - apply (G _ _ _ 75 _ _ _ pct_75 eq_refl P3 N3).
  - apply (G _ _ _ 95 _ _ _ pct_95 eq_refl P4 N4).
  - apply (G _ _ _ 99 _ _ _ pct_99 eq_refl P5 N5).
Qed.
Print Assumptions percentiles_cover_partial.

Example ex_stats : stats ex_hist = Ok {| p25 := 60; p50 := 100; p75 := 220; p95 := 220; p99 := 220 |} /\
  length (values_of ex_ops) = 8%nat.
Proof. split; [vm_compute; reflexivity|reflexivity]. Qed.

(** C48 as stated is false for large numbers of values: with 300099 values
    the 99th percentile is read from a bin such that only 297098 values,
    less than 99 percent, lie in it or below. *)
Lemma values_of_adds : forall l, values_of (map Add l) = l.
Proof.
  intro l. unfold values_of.
  assert (G : forall l acc, fold_left (fun vs x => match x with Add v => vs ++ [v] | Clear => [] end)
    (map Add l) acc = acc ++ l).
  { clear l. induction l as [|x l IH]; intro acc; cbn [map fold_left]; [rewrite app_nil_r; reflexivity|].
    rewrite IH, <- app_assoc. reflexivity. }
  apply (G l []).
Qed.

Definition ex_many_values : list Z :=
  (repeat 0 (Z.to_nat 100000) ++ repeat 1 (Z.to_nat 100000) ++ repeat 2 (Z.to_nat 60000) ++
           repeat 3 (Z.to_nat 30000) ++ repeat 4 (Z.to_nat 7098) ++ repeat 5 (Z.to_nat 3001)).

Definition ex_many : list hist_op := map Add ex_many_values.

Definition ex_many_hist : histogram :=
  {| h_bin_size := 1;
     h_bins := [(0, 100000); (1, 100000); (2, 60000); (3, 30000); (4, 7098); (5, 3001)] |}.

Theorem percentiles_cover_refuted : exists ops h s bins,
  used 1 ops h /\ values_of ops <> [] /\ stats h = Ok s /\ hist_iterate h = Ok bins /\
  exists b, In b bins /\ b_middle b = p99 s /\
    (forall b', In b' bins -> b_middle b' = p99 s -> b' = b) /\
    100 * how_many (fun v => v <? b_high b) (values_of ops)
      < 99 * Z.of_nat (length (values_of ops)).
Proof.
  exists ex_many, ex_many_hist, {| p25 := 0; p50 := 1; p75 := 2; p95 := 3; p99 := 4 |}.
  assert (V : values_of ex_many = ex_many_values) by exact (values_of_adds ex_many_values).
  eexists. split; [eexists; split; [reflexivity|vm_compute; reflexivity]|].
  split.
  { rewrite V. intro Q. apply (f_equal (fun l => match l with [] => true | _ => false end)) in Q.
    vm_compute in Q. discriminate. }
  split; [vm_compute; reflexivity|]. split; [vm_compute; reflexivity|].
  exists {| b_count := 7098; b_low := 4; b_middle := 4; b_high := 5 |}.
  split; [cbn; tauto|]. split; [reflexivity|]. split.
  - clear V. intros b' [<-|[<-|[<-|[<-|[<-|[<-|[]]]]]]]; cbn; intro Q; try discriminate Q. reflexivity.
  - rewrite V. unfold how_many. apply Z.ltb_lt. vm_compute. reflexivity.
Qed.
Print Assumptions percentiles_cover_refuted.

(** What is proved of C49, for up to 2^18 values: quantile bins exist and
    are unique; the first percentile is the middle of its quantile bin;
    each other percentile is the middle of its quantile bin or, if that
    bin is not after the one used for the percentile before, of the next
    bin (the last bin if there is none).  Missing: in that case the
    reported bin is not the quantile; see [percentiles_refuted]. *)
Theorem percentiles_partial : forall bs ops h s bins, used bs ops h -> values_of ops <> [] ->
  stats h = Ok s -> hist_iterate h = Ok bins ->
  Z.of_nat (length (values_of ops)) <= 2 ^ 18 ->
  (forall p, 0 < p <= 100 -> exists! q, quantile_index bins p q) /\
  forall q25 q50 q75 q95 q99,
    quantile_index bins 25 q25 -> quantile_index bins 50 q50 -> quantile_index bins 75 q75 ->
    quantile_index bins 95 q95 -> quantile_index bins 99 q99 ->
    let n := length bins in
    let i50 := next_pick n q25 q50 in
    let i75 := next_pick n i50 q75 in
    let i95 := next_pick n i75 q95 in
    let i99 := next_pick n i95 q99 in
    nth_error (map b_middle bins) q25 = Some (p25 s) /\
    nth_error (map b_middle bins) i50 = Some (p50 s) /\
    nth_error (map b_middle bins) i75 = Some (p75 s) /\
    nth_error (map b_middle bins) i95 = Some (p95 s) /\
    nth_error (map b_middle bins) i99 = Some (p99 s).
Proof.
  intros bs ops h s bins U NE Q I H18. destruct (used_holds bs ops h U) as (B & E & H & R).
  rewrite iterate_map in I by exact R. injection I as <-.
  pose proof (used_nonempty _ _ _ U NE) as HE. pose proof (used_samples _ _ _ U) as S.
  rewrite <- E in S. rewrite <- S in H18.
  assert (HN' : samples (map (make_bin (h_bin_size h)) (h_bins h)) <= 2 ^ 24) by lia.
  split.
  - intros p Hp. destruct (quantile_exists h R HE p Hp) as [k K]. exists k. split; [exact K|].
    intros k' K'. apply (quantile_unique h R p k k' K K').
  - intros q25 q50 q75 q95 q99 K1 K2 K3 K4 K5.
    destruct (stats_picks h R HE HN')
      as (s' & i1 & i2 & i3 & i4 & i5 & Q' & P1 & P2 & P3 & P4 & P5 & N1 & N2 & N3 & N4 & N5).
    rewrite Q in Q'. injection Q' as <-.
    set (L := map (make_bin (h_bin_size h)) (h_bins h)) in *. cbv zeta.
    assert (LT : forall i x, nth_error (map b_middle L) i = Some x -> (Datatypes.S i <= length L)%nat).
    { intros i x X. rewrite <- (map_length b_middle L). apply nth_error_Some. congruence. }
    pose proof (LT _ _ N1) as L1. pose proof (LT _ _ N2) as L2. pose proof (LT _ _ N3) as L3.
    pose proof (LT _ _ N4) as L4.
    pose proof (picks_quantile h R HE HN' _ _ _ 25 _ _ _ pct_25 eq_refl H18 K1 (Nat.le_0_l _) P1) as E1.
    pose proof (picks_quantile h R HE HN' _ _ _ 50 _ _ _ pct_50 eq_refl H18 K2 L1 P2) as E2.
    pose proof (picks_quantile h R HE HN' _ _ _ 75 _ _ _ pct_75 eq_refl H18 K3 L2 P3) as E3.
    pose proof (picks_quantile h R HE HN' _ _ _ 95 _ _ _ pct_95 eq_refl H18 K4 L3 P4) as E4.
    pose proof (picks_quantile h R HE HN' _ _ _ 99 _ _ _ pct_99 eq_refl H18 K5 L4 P5) as E5.
    fold L in E1, E2, E3, E4, E5. unfold next_pick.
    assert (E1' : i1 = q25) by (destruct K1 as [K1 _]; lia). clear E1. subst q25.
    rewrite <- E2, <- E3, <- E4, <- E5. repeat split; assumption.
Qed.
Print Assumptions percentiles_partial.

(** Consequence: when the five quantile bins are different, every
    percentile is its quantile. *)
Theorem percentiles_when_distinct_partial : forall bs ops h s bins, used bs ops h -> values_of ops <> [] ->
  stats h = Ok s -> hist_iterate h = Ok bins ->
  Z.of_nat (length (values_of ops)) <= 2 ^ 18 ->
  forall q25 q50 q75 q95 q99,
    quantile_index bins 25 q25 -> quantile_index bins 50 q50 -> quantile_index bins 75 q75 ->
    quantile_index bins 95 q95 -> quantile_index bins 99 q99 ->
    (q25 < q50 < q75)%nat -> (q75 < q95 < q99)%nat ->
    map (nth_error (map b_middle bins)) [q25; q50; q75; q95; q99] = map (fun r => Some (snd r)) (reported s).
Proof.
  intros bs ops h s bins U NE Q I H18 q1 q2 q3 q4 q5 K1 K2 K3 K4 K5 O1 O2.
  destruct (percentiles_partial bs ops h s bins U NE Q I H18) as [_ G].
  specialize (G q1 q2 q3 q4 q5 K1 K2 K3 K4 K5). cbv zeta in G. unfold next_pick in G.
  destruct K2 as [B2 _], K3 as [B3 _], K4 as [B4 _], K5 as [B5 _].
  assert (E2 : Nat.min (length bins - 1) (Nat.max q2 (S q1)) = q2) by lia. rewrite E2 in G.
  assert (E3 : Nat.min (length bins - 1) (Nat.max q3 (S q2)) = q3) by lia. rewrite E3 in G.
  assert (E4 : Nat.min (length bins - 1) (Nat.max q4 (S q3)) = q4) by lia. rewrite E4 in G.
  assert (E5 : Nat.min (length bins - 1) (Nat.max q5 (S q4)) = q5) by lia. rewrite E5 in G.
  destruct G as (G1 & G2 & G3 & G4 & G5). cbn [map reported snd]. rewrite G1, G2, G3, G4, G5. reflexivity.
Qed.
Print Assumptions percentiles_when_distinct_partial.

Definition ex_spread : list hist_op := map (fun i => Add (Z.of_nat i)) (seq 0 100).

Example ex_distinct : exists h s bins, used 1 ex_spread h /\ values_of ex_spread <> [] /\
  stats h = Ok s /\ hist_iterate h = Ok bins /\
  quantile_index bins 25 24 /\ quantile_index bins 50 49 /\ quantile_index bins 75 74 /\
  quantile_index bins 95 94 /\ quantile_index bins 99 98.
Proof.
  do 3 eexists. split; [eexists; split; [reflexivity|vm_compute; reflexivity]|].
  split; [vm_compute; discriminate|]. split; [vm_compute; reflexivity|].
  split; [vm_compute; reflexivity|].
  unfold quantile_index. repeat split; vm_compute; try reflexivity; try discriminate; lia.
Qed.

(** C49 as stated is false: with 8 values of which 5 are in the first two
    bins, the median is reported as the middle of the third bin. *)
Theorem percentiles_refuted : exists ops h s bins,
  used 40 ops h /\ stats h = Ok s /\ hist_iterate h = Ok bins /\
  quantile_index bins 50 1 /\ nth_error (map b_middle bins) 1 = Some 60 /\ p50 s = 100.
Proof.
  exists ex_ops, ex_hist. do 2 eexists. split; [exact ex_used|].
  split; [exact (proj1 ex_stats)|]. split; [exact ex_counts|].
  split; [unfold quantile_index; repeat split; vm_compute; try reflexivity; try discriminate; lia|].
  split; reflexivity.
Qed.
Print Assumptions percentiles_refuted.

(** ** Bin width *)

(** C50: 60 s below 5 hours, 3600 s below 13 days, 86400 s otherwise,
    unless a bin size is given. *)
Theorem bin_width : forall makespan, 1 <= makespan ->
  (forall b, parse_granularity (Some b) makespan = Ok b) /\
  exists w, parse_granularity None makespan = Ok w /\
    (w = 60 <-> makespan < 5 * 60 * 60) /\
    (w = 3600 <-> 5 * 60 * 60 <= makespan < 13 * 24 * 60 * 60) /\
    (w = 86400 <-> 13 * 24 * 60 * 60 <= makespan).
Proof.
  intros m H. unfold parse_granularity, granularity.
  destruct (Z.leb_spec 1 m); [|lia]. cbn [expects bind]. split; [reflexivity|].
  destruct (Z.ltb_spec m (5 * 3600)); [exists 60; split; [reflexivity|lia]|].
  destruct (Z.ltb_spec m (13 * 86400)); [exists 3600; split; [reflexivity|lia]|].
  exists 86400. split; [reflexivity|lia].
Qed.
Print Assumptions bin_width.

(** C50: the width never decreases as the makespan grows. *)
Theorem bin_width_monotone : forall m m' w w', m <= m' ->
  parse_granularity None m = Ok w -> parse_granularity None m' = Ok w' -> w <= w'.
Proof.
  intros m m' w w' L. unfold parse_granularity, granularity.
  destruct (Z.leb_spec 1 m); [|discriminate]. destruct (Z.leb_spec 1 m'); [|lia]. cbn [expects bind].
  destruct (Z.ltb_spec m (5 * 3600)), (Z.ltb_spec m' (5 * 3600)); intros A C;
  destruct (Z.ltb_spec m (13 * 86400)), (Z.ltb_spec m' (13 * 86400));
  try (injection A as <-); try (injection C as <-); lia.
Qed.
Print Assumptions bin_width_monotone.

Example ex_width : parse_granularity None 17999 = Ok 60 /\ parse_granularity None 18000 = Ok 3600 /\
  parse_granularity None 1123199 = Ok 3600 /\ parse_granularity None 1123200 = Ok 86400 /\
  parse_granularity (Some 17) 1123200 = Ok 17.
Proof. repeat split. Qed.
