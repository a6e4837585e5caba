(** * Proofs about the percentiles *)

From Coq Require Import List ZArith Bool Arith Lia Reals Lra Psatz.
From Flocq Require Import Core BinarySingleNaN.
From Verif Require Import Base F32 F32Facts F32Signed HistogramModel HistogramSpec
  HistogramProofs.
Import ListNotations.
Local Open Scope R_scope.

(** ** Integers in single precision *)

Definition exact (x : f32) (z : Z) : Prop := is_finite x = true /\ B2R x = IZR z.

Lemma exact_of_Z : forall z, (0 <= z <= 2 ^ 24)%Z -> exact (f_of_Z z) z.
Proof. intros z H. apply of_Z_exact. lia. Qed.

Lemma rnd_int : forall z, (0 <= z <= 2 ^ 24)%Z -> rnd (IZR z) = IZR z.
Proof.
  intros z H. replace (IZR z) with (IZR z * bpow radix2 0) by (cbn; ring).
  apply rnd_dyadic; lia.
Qed.

Lemma exact_add : forall x y a b, exact x a -> exact y b -> (0 <= a + b <= 2 ^ 24)%Z ->
  exact (f_add x y) (a + b).
Proof.
  intros x y a b [Fx Ex] [Fy Ey] H.
  destruct (add_fin x y Fx Fy) as [F E].
  - rewrite Ex, Ey, <- plus_IZR, <- abs_IZR.
    apply Rle_trans with (IZR (2 ^ 24)); [apply IZR_le; lia|].
    change (IZR (2 ^ 24)) with (bpow radix2 24). apply bpow_le. lia.
  - split; [exact F|]. rewrite E, Ex, Ey, <- plus_IZR. apply rnd_int, H.
Qed.

Lemma narrow_ok : forall z, (0 <= z <= 2 ^ 24)%Z -> narrow_float z = Ok (f_of_Z z).
Proof.
  intros z H. destruct (exact_of_Z z H) as [F E]. unfold narrow_float, f_trunc. rewrite F.
  assert (Q : Btrunc (f_of_Z z) = z).
  { apply eq_IZR. rewrite Btrunc_correct; [|exact f32_prec_lt_emax].
    rewrite round_FIX_IZR, E, Ztrunc_IZR. reflexivity. }
  rewrite Q, Z.eqb_refl. reflexivity.
Qed.

Lemma exact_le : forall t x y z, is_finite t = true -> exact x z -> exact y z ->
  f_le t x = f_le t y.
Proof.
  intros t x y z Ft [Fx Ex] [Fy Ey]. apply eq_true_iff_eq.
  rewrite !fin_le by assumption. rewrite Ex, Ey. tauto.
Qed.

(** ** The percentages *)


Lemma b24 : bpow radix2 (-24) = / 16777216.
Proof. cbn. reflexivity. Qed.

Lemma sf_value : forall (x : f32) m e, B2SF x = SpecFloat.S754_finite false m e ->
  is_finite x = true /\ B2R x = IZR (Zpos m) * bpow radix2 e.
Proof.
  intros x m e E. split.
  - rewrite <- is_finite_SF_B2SF, E. reflexivity.
  - rewrite <- SF2R_B2SF, E. reflexivity.
Qed.

(** A fraction [a / d] and a float [q] close enough to it for the
    comparisons below. *)
Record fraction (q : f32) (a d : Z) : Prop := {
  fr_fin : is_finite q = true;
  fr_a : (0 < a < d)%Z;
  fr_d : (d <= 100)%Z;
  fr_pos : 0 < B2R q < 1;
  fr_up : B2R q <= IZR a / IZR d * (1 + / 67108864);
  fr_low : IZR a / IZR d - B2R q <= / 67108864;
  fr_tight : 262144 * (IZR a / IZR d - B2R q) + / 128 < / IZR d
}.

Ltac fraction_tac m e :=
  match goal with |- fraction ?q _ _ =>
    destruct (sf_value q m e) as [F V]; [vm_compute; reflexivity|];
    assert (V' : B2R q = IZR (Zpos m) * bpow radix2 e) by exact V; clear V;
    split; [exact F|lia|lia| | | |]; rewrite V';
    rewrite ?b24; change (bpow radix2 (-25)) with (/ 33554432); lra
  end.

Lemma pct_25 : fraction (pct 25) 1 4.
Proof. fraction_tac 8388608%positive (-25)%Z. Qed.
Lemma pct_50 : fraction (pct 50) 1 2.
Proof. fraction_tac 8388608%positive (-24)%Z. Qed.
Lemma pct_75 : fraction (pct 75) 3 4.
Proof. fraction_tac 12582912%positive (-24)%Z. Qed.
Lemma pct_95 : fraction (pct 95) 19 20.
Proof. fraction_tac 15938355%positive (-24)%Z. Qed.
Lemma pct_99 : fraction (pct 99) 99 100.
Proof. fraction_tac 16609444%positive (-24)%Z. Qed.

(** ** Comparing a count with a fraction of the total *)

Lemma ulp_small : forall x e, 0 < x < bpow radix2 e -> (-125 <= e)%Z ->
  ulp radix2 fexp32 x <= bpow radix2 (e - 24).
Proof.
  intros x e [P L] He. rewrite ulp_neq_0 by lra. apply bpow_le. unfold cexp.
  assert (M : (mag radix2 x <= e)%Z) by (apply mag_le_bpow; [lra|rewrite Rabs_pos_eq by lra; exact L]).
  unfold SpecFloat.fexp, SpecFloat.emin. lia.
Qed.

Lemma rnd_err : forall x e, 0 < x < bpow radix2 e -> (-125 <= e)%Z ->
  x - bpow radix2 (e - 25) <= rnd x <= x + bpow radix2 (e - 25).
Proof.
  intros x e H He. pose proof (ulp_small x e H He) as U.
  pose proof (error_le_half_ulp radix2 fexp32 (fun t => negb (Z.even t)) x) as E.
  change (round radix2 fexp32 (Znearest (fun t => negb (Z.even t))) x) with (rnd x) in E.
  replace (e - 24)%Z with (1 + (e - 25))%Z in U by lia. rewrite bpow_plus in U.
  change (bpow radix2 1) with 2 in U. apply Rabs_le_inv in E. lra.
Qed.

Section Reach.
Context (q : f32) (a d : Z) (FR : fraction q a d) (N : Z) (HN : (1 <= N <= 2 ^ 24)%Z)
  (T : f32) (HT : exact T N).

Let t := f_mul T q.

Lemma total_range : 1 <= IZR N <= 16777216.
Proof. split; apply IZR_le; lia. Qed.

Lemma threshold_fin : is_finite t = true /\ B2R t = rnd (IZR N * B2R q).
Proof.
  destruct HT as [F E]. pose proof (fr_pos _ _ _ FR) as P. pose proof total_range as R.
  destruct (mul_fin T q F (fr_fin _ _ _ FR)) as [A B].
  - rewrite E, Rabs_pos_eq by nra. apply Rle_trans with (bpow radix2 24); [|apply bpow_le; lia].
    change (bpow radix2 24) with 16777216. nra.
  - split; [exact A|]. unfold t. rewrite B, E. reflexivity.
Qed.

Lemma threshold_nn : f_le f_zero t = true.
Proof.
  destruct threshold_fin as [F E]. apply fin_le; [reflexivity|exact F|].
  rewrite E. change (B2R f_zero) with 0. rewrite <- rnd_0. apply rnd_le.
  pose proof (fr_pos _ _ _ FR). pose proof total_range. nra.
Qed.

(** The total itself reaches the threshold. *)
Lemma total_reaches : f_le t (f_of_Z N) = true.
Proof.
  destruct threshold_fin as [F E]. destruct (exact_of_Z N) as [F' E']; [lia|].
  apply fin_le; [exact F|exact F'|]. rewrite E, E'.
  apply Rle_trans with (rnd (IZR N)); [|rewrite rnd_int by lia; lra].
  apply rnd_le. pose proof (fr_pos _ _ _ FR). pose proof total_range. nra.
Qed.

Lemma reach_mono : forall c c', (0 <= c <= c')%Z -> (c' <= 2 ^ 24)%Z ->
  f_le t (f_of_Z c) = true -> f_le t (f_of_Z c') = true.
Proof.
  intros c c' H1 H2 H. destruct threshold_fin as [F E].
  destruct (exact_of_Z c) as [Fc Ec]; [lia|]. destruct (exact_of_Z c') as [Fc' Ec']; [lia|].
  apply fin_le; [exact F|exact Fc'|]. apply fin_le in H; [|exact F|exact Fc].
  rewrite Ec in H. rewrite Ec'. apply Rle_trans with (1 := H). apply IZR_le. lia.
Qed.

(** A count that reaches the threshold is less than one sample short of
    the fraction. *)
Lemma reach_within_one : forall c, (0 <= c <= 2 ^ 24)%Z ->
  f_le t (f_of_Z c) = true -> (a * N - d < d * c)%Z.
Proof.
  intros c Hc H. destruct threshold_fin as [F E]. destruct (exact_of_Z c) as [Fc Ec]; [lia|].
  apply fin_le in H; [|exact F|exact Fc]. rewrite E, Ec in H.
  pose proof (fr_pos _ _ _ FR) as P. pose proof total_range as R.
  pose proof (fr_low _ _ _ FR) as L. pose proof (fr_a _ _ _ FR) as A.
  assert (B : 0 < IZR N * B2R q < bpow radix2 24).
  { change (bpow radix2 24) with 16777216. nra. }
  destruct (rnd_err _ _ B) as [U _]; [lia|]. change (bpow radix2 (24 - 25)) with (/ 2) in U.
  apply lt_IZR. rewrite minus_IZR, !mult_IZR.
  assert (D : 0 < IZR d) by (apply IZR_lt; lia).
  assert (Q : IZR N * (IZR a / IZR d) - 3 / 4 <= IZR c).
  { assert (IZR N * (IZR a / IZR d - B2R q) <= / 4).
    { destruct (Rle_lt_dec (IZR a / IZR d - B2R q) 0); [nra|].
      apply Rle_trans with (16777216 * / 67108864); [|lra].
      apply Rmult_le_compat; lra. }
    lra. }
  apply Rmult_le_compat_l with (r := IZR d) in Q; [|lra].
  replace (IZR d * (IZR N * (IZR a / IZR d) - 3 / 4)) with (IZR a * IZR N - 3 / 4 * IZR d) in Q
    by (field; lra).
  lra.
Qed.

(** Up to 2^18 samples the comparison is exact. *)
Lemma reach_exact : forall c, (N <= 2 ^ 18)%Z -> (0 <= c <= 2 ^ 24)%Z ->
  (f_le t (f_of_Z c) = true <-> (a * N <= d * c)%Z).
Proof.
  intros c HN' Hc. destruct threshold_fin as [F E]. destruct (exact_of_Z c) as [Fc Ec]; [lia|].
  rewrite fin_le by assumption. rewrite E, Ec.
  pose proof (fr_pos _ _ _ FR) as P. pose proof total_range as R. pose proof (fr_a _ _ _ FR) as A.
  assert (D : 0 < IZR d) by (apply IZR_lt; lia).
  assert (A0 : 0 < IZR a) by (apply IZR_lt; lia).
  split; intro H.
  - assert (N18 : IZR N <= 262144) by (apply IZR_le; lia).
    assert (B : 0 < IZR N * B2R q < bpow radix2 18).
    { change (bpow radix2 18) with 262144. nra. }
    destruct (rnd_err _ _ B) as [U _]; [lia|]. change (bpow radix2 (18 - 25)) with (/ 128) in U.
    pose proof (fr_tight _ _ _ FR) as L.
    assert (Q : IZR N * (IZR a / IZR d) - / IZR d < IZR c).
    { destruct (Rle_lt_dec (IZR a / IZR d - B2R q) 0) as [Z|Z].
      - assert (/ 128 < / IZR d) by (apply Rinv_lt_contravar; [nra|];
          apply (IZR_lt d 128); pose proof (fr_d _ _ _ FR); lia). nra.
      - assert (IZR N * (IZR a / IZR d - B2R q) <= 262144 * (IZR a / IZR d - B2R q))
          by (apply Rmult_le_compat_r; lra). lra. }
    apply Rmult_lt_compat_l with (r := IZR d) in Q; [|lra].
    replace (IZR d * (IZR N * (IZR a / IZR d) - / IZR d)) with (IZR a * IZR N - 1) in Q
      by (field; lra).
    rewrite <- !mult_IZR in Q. rewrite <- minus_IZR in Q. apply lt_IZR in Q. lia.
  - assert (C1 : (1 <= c)%Z) by nia.
    assert (C1' : 1 <= IZR c) by (apply IZR_le; exact C1).
    pose proof (fr_up _ _ _ FR) as L.
    apply IZR_le in H. rewrite !mult_IZR in H.
    assert (G : generic_format radix2 fexp32 (IZR c)).
    { rewrite <- rnd_int by lia. apply generic_format_round; [apply fexp32_valid|apply valid_rnd_N]. }
    apply (round_N_le_midp radix2 fexp32 _ _ _ G).
    rewrite succ_eq_pos by lra.
    pose proof (ulp_FLT_gt radix2 (-149) 24 (IZR c)) as U.
    change (FLT_exp (-149) 24) with fexp32 in U. rewrite Rabs_pos_eq in U by lra.
    change (bpow radix2 (- (24))) with (/ 16777216) in U.
    assert (Q : IZR N * (IZR a / IZR d) <= IZR c).
    { apply Rmult_le_reg_l with (IZR d); [exact D|].
      replace (IZR d * (IZR N * (IZR a / IZR d))) with (IZR a * IZR N) by (field; lra). lra. }
    assert (Q' : IZR N * B2R q <= IZR c * (1 + / 67108864)).
    { apply Rle_trans with (IZR N * (IZR a / IZR d * (1 + / 67108864))).
      - apply Rmult_le_compat_l; lra.
      - rewrite <- Rmult_assoc. apply Rmult_le_compat_r; lra. }
    lra.
Qed.
End Reach.

(** ** The cursor *)

Lemma cum_S : forall l i b, nth_error l i = Some b ->
  (cumulative l (S i) = cumulative l i + b_count b)%Z.
Proof.
  unfold cumulative. induction l as [|x l IH]; intros [|i] b E; cbn in E; try discriminate.
  - injection E as ->. cbn. lia.
  - rewrite !firstn_cons. cbn [map fold_right]. rewrite (IH i b E). lia.
Qed.

Lemma cum_mono : forall l, Forall (fun b => (0 < b_count b)%Z) l ->
  forall i j, (i <= j)%nat -> (cumulative l i <= cumulative l j)%Z.
Proof.
  intros l F i j Hij. induction Hij as [|j Hij IH]; [lia|].
  destruct (nth_error l j) as [b|] eqn:E.
  - rewrite (cum_S l j b E). rewrite Forall_forall in F. specialize (F b (nth_error_In _ _ E)). lia.
  - apply nth_error_None in E. unfold cumulative in *. rewrite (firstn_all2 (n := S j)) by lia.
    rewrite (firstn_all2 (n := j)) in IH by lia. exact IH.
Qed.

Lemma cum_0 : forall l, cumulative l 0 = 0%Z.
Proof. reflexivity. Qed.

Section Cursor.
Context (h : histogram) (HR : readable h) (HE : h_bins h <> []).
Let L := map (make_bin (h_bin_size h)) (h_bins h).
Let n := length L.

Lemma bins_size : hist_size h = n.
Proof. unfold n, L. rewrite map_length. reflexivity. Qed.

Lemma bins_pos : (0 < n)%nat.
Proof. unfold n, L. rewrite map_length. destruct (h_bins h); [congruence|cbn; lia]. Qed.

Lemma not_empty : hist_empty h = false.
Proof. unfold hist_empty. destruct (h_bins h); [congruence|reflexivity]. Qed.

Lemma bin_counts : Forall (fun b => (0 < b_count b)%Z) L.
Proof.
  destruct HR as [_ F]. unfold L. apply Forall_map. eapply Forall_impl; [|exact F]. cbn. lia.
Qed.

Lemma cum_range : forall i, (0 <= cumulative L i <= samples L)%Z.
Proof.
  intro i. split.
  - rewrite <- (cum_0 L). apply cum_mono; [exact bin_counts|lia].
  - unfold samples. destruct (Nat.le_gt_cases i (length L)) as [H|H].
    + apply cum_mono; [exact bin_counts|exact H].
    + unfold cumulative. rewrite !firstn_all2 by lia. lia.
Qed.

Lemma samples_pos : (1 <= samples L)%Z.
Proof.
  pose proof bins_pos as P. pose proof bin_counts as F. unfold samples.
  destruct (nth_error L 0) as [b|] eqn:E; [|apply nth_error_None in E; unfold n in P; lia].
  rewrite Forall_forall in F. pose proof (F b (nth_error_In _ _ E)) as B.
  pose proof (cum_S L 0 b E) as C. rewrite cum_0 in C.
  pose proof (cum_mono L bin_counts 1 (length L)). unfold n in P. lia.
Qed.

Context (HN : (samples L <= 2 ^ 24)%Z).

(** The sum of all counts. *)
Lemma sum_total : exists T, sum_bins f_zero L = Ok T /\ exact T (samples L).
Proof.
  assert (G : forall l z acc, Forall (fun b => (0 < b_count b)%Z) l -> exact acc z -> (0 <= z)%Z ->
    (z + fold_right Z.add 0 (map b_count l) <= 2 ^ 24)%Z ->
    exists T, sum_bins acc l = Ok T /\ exact T (z + fold_right Z.add 0 (map b_count l))%Z).
  { induction l as [|b l IH]; intros z acc F X Z0 B; cbn [sum_bins map fold_right] in *.
    - exists acc. rewrite Z.add_0_r. auto.
    - inversion F as [|? ? F1 F2]; subst.
      assert (P : (0 <= fold_right Z.add 0 (map b_count l))%Z).
      { clear - F2. induction F2; cbn; lia. }
      rewrite narrow_ok by lia. cbn [bind].
      destruct (IH (b_count b + z)%Z (f_add (f_of_Z (b_count b)) acc) F2) as (T & E & XT); [|lia|lia|].
      + apply exact_add; [apply exact_of_Z; lia|exact X|lia].
      + exists T. split; [exact E|].
        replace (z + (b_count b + fold_right Z.add 0 (map b_count l)))%Z
          with (b_count b + z + fold_right Z.add 0 (map b_count l))%Z by lia. exact XT. }
  unfold samples, cumulative in HN |- *. rewrite firstn_all in HN |- *.
  apply (G L 0%Z f_zero); [exact bin_counts|split; reflexivity|lia|exact HN].
Qed.

(** The position and the count of a cursor belong together. *)
Definition cursor_at (c : cursor) (i : nat) : Prop :=
  cu_index c = i /\ exact (cu_count c) (cumulative L i).

Section Threshold.
Context (t : f32) (Ft : is_finite t = true) (Pt : f_le f_zero t = true).
Let R (z : Z) : bool := f_le t (f_of_Z z).
Context (Rtotal : R (samples L) = true).

Lemma loop_spec : forall k i c, (i + k = n)%nat -> cursor_at c i ->
  (exists j b c', (i <= j < n)%nat /\ nth_error L j = Some b /\
     until_loop h t c k = Ok (Some (b_middle b), c') /\ cursor_at c' (S j) /\
     R (cumulative L (S j)) = true /\
     (forall m, (i <= m < j)%nat -> R (cumulative L (S m)) = false)) \/
  (i = n /\ until_loop h t c k = Ok (None, c)).
Proof.
  induction k as [|k IH]; intros i c E C; cbn [until_loop].
  - right. split; [lia|reflexivity].
  - left. destruct C as [Ci Cx]. rewrite hist_at_map by assumption. fold L. rewrite Ci.
    unfold at_index. destruct (nth_error L i) as [b|] eqn:Q;
      [|apply nth_error_None in Q; unfold n in E; lia].
    cbn [bind].
    pose proof bin_counts as F. rewrite Forall_forall in F. pose proof (F b (nth_error_In _ _ Q)) as B.
    pose proof (cum_S L i b Q) as S1. pose proof (cum_range i) as R1. pose proof (cum_range (S i)) as R2.
    rewrite narrow_ok by lia. cbn [bind cu_count].
    set (c' := {| cu_count := f_add (cu_count c) (f_of_Z (b_count b)); cu_index := S i |}).
    assert (C' : cursor_at c' (S i)).
    { split; [reflexivity|]. cbn [c' cu_count]. rewrite S1. apply exact_add; [exact Cx|apply exact_of_Z; lia|lia]. }
    assert (RE : f_le t (f_add (cu_count c) (f_of_Z (b_count b))) = R (cumulative L (S i))).
    { apply (exact_le t _ _ (cumulative L (S i))); [exact Ft|exact (proj2 C')|apply exact_of_Z; lia]. }
    rewrite RE. destruct (R (cumulative L (S i))) eqn:RR.
    + exists i, b, c'. split; [lia|]. split; [exact Q|]. split; [|split; [exact C'|split; [exact RR|lia]]].
      unfold to_seconds. assert (M : (0 <= b_middle b)%Z).
      { unfold L in Q. rewrite nth_error_map in Q. destruct (nth_error (h_bins h) i) as [v|] eqn:V; [|discriminate].
        injection Q as <-. cbn [make_bin b_middle]. destruct HR as [H1 H2]. rewrite Forall_forall in H2.
        destruct (H2 v (nth_error_In _ _ V)). pose proof (Z.quot_pos (h_bin_size h) 2). nia. }
      destruct (Z.leb_spec 0 (b_middle b)); [reflexivity|lia].
    + clearbody c'. destruct (IH (S i) c' ltac:(lia) C') as [(j & b' & c2 & H1 & H2 & H3 & H4 & H5 & H6)|[H1 H2]].
      * exists j, b', c2. split; [lia|]. repeat split; try assumption; try apply H4.
        intros m Hm. destruct (Nat.eq_dec m i) as [->|Hne]; [exact RR|]. apply H6. lia.
      * exfalso. unfold samples in Rtotal. replace (length L) with (S i) in Rtotal by (unfold n in H1; lia).
        congruence.
Qed.

(** [pick i j]: from position [i] the percentile is read from bin [j]. *)
Definition pick (i j : nat) : Prop :=
  ((i <= j < n)%nat /\ R (cumulative L (S j)) = true /\
   (forall m, (i <= m < j)%nat -> R (cumulative L (S m)) = false)) \/
  (i = n /\ j = n - 1)%nat.

Lemma until_spec : forall i c, (i <= n)%nat -> cursor_at c i ->
  exists j b c', pick i j /\ nth_error L j = Some b /\
    accumulate_until h t c = Ok (b_middle b, c') /\ cursor_at c' (S j).
Proof.
  intros i c Hi C. unfold accumulate_until. rewrite Pt. cbn [expects bind].
  rewrite bins_size, (proj1 C).
  destruct (loop_spec (n - i) i c ltac:(lia) C) as [(j & b & c' & H1 & H2 & H3 & H4 & H5 & H6)|[H1 H2]].
  - rewrite H3. cbn [bind fst snd]. exists j, b, c'. split; [left; auto|]. auto.
  - rewrite H2. cbn [bind fst snd]. unfold hist_back. rewrite not_empty.
    pose proof bins_pos as P. cbn [negb expects bind].
    rewrite deref_at by exact HR. rewrite bins_size. fold L.
    unfold at_index. destruct (nth_error L (n - 1)) as [b|] eqn:Q;
      [|apply nth_error_None in Q; unfold n in Q, P; lia].
    cbn [bind]. unfold to_seconds.
    assert (M : (0 <= b_middle b)%Z).
    { unfold L in Q. rewrite nth_error_map in Q. destruct (nth_error (h_bins h) (n - 1)) as [v|] eqn:V; [|discriminate].
      injection Q as <-. cbn [make_bin b_middle]. destruct HR as [G1 G2]. rewrite Forall_forall in G2.
      destruct (G2 v (nth_error_In _ _ V)). pose proof (Z.quot_pos (h_bin_size h) 2). nia. }
    destruct (Z.leb_spec 0 (b_middle b)); [|lia]. cbn [expects bind].
    exists (n - 1)%nat, b, c. split; [right; auto|]. split; [exact Q|]. split; [reflexivity|].
    replace (S (n - 1)) with n by lia. rewrite <- H1. exact C.
Qed.
End Threshold.
End Cursor.

(** ** All five percentiles *)

Section Stats.
Context (h : histogram) (HR : readable h) (HE : h_bins h <> []).
Let L := map (make_bin (h_bin_size h)) (h_bins h).
Let n := length L.

(** Whatever the counts are, the cursor moves forward and ends behind the
    bin that was read. *)
Lemma loop_forward : forall t k c r c', until_loop h t c k = Ok (r, c') -> (cu_index c + k = n)%nat ->
  match r with
  | Some m => exists j b, (cu_index c <= j)%nat /\ nth_error L j = Some b /\ m = b_middle b /\
      cu_index c' = S j
  | None => cu_index c' = n
  end.
Proof.
  intros t k. induction k as [|k IH]; intros c r c' E H; cbn [until_loop] in E.
  - injection E as <- <-. lia.
  - rewrite hist_at_map in E by assumption. fold L in E. unfold at_index in E.
    destruct (nth_error L (cu_index c)) as [b|] eqn:Q; [|discriminate]. cbn [bind] in E.
    destruct (narrow_float (b_count b)) as [x| |]; try discriminate. cbn [bind cu_count] in E.
    destruct (f_le t (f_add (cu_count c) x)).
    + unfold to_seconds in E. destruct (0 <=? b_middle b)%Z; [|discriminate].
      cbn [expects bind] in E. injection E as <- <-. exists (cu_index c), b. auto.
    + apply IH in E; [|cbn [cu_index]; lia]. cbn [cu_index] in E.
      destruct r as [m|]; [|exact E]. destruct E as (j & b' & A & B & C & D).
      exists j, b'. repeat split; auto. lia.
Qed.

Lemma until_forward : forall t c m c', accumulate_until h t c = Ok (m, c') -> (cu_index c <= n)%nat ->
  exists j b, (cu_index c <= S j)%nat /\ nth_error L j = Some b /\ m = b_middle b /\ cu_index c' = S j.
Proof.
  intros t c m c' E H. unfold accumulate_until in E.
  destruct (f_le f_zero t); [|discriminate]. cbn [expects bind] in E.
  rewrite (bins_size h) in E. fold L n in E.
  destruct (until_loop h t c (n - cu_index c)) as [[r c1]| |] eqn:Q; try discriminate.
  cbn [bind fst snd] in E. apply loop_forward in Q; [|lia]. destruct r as [m'|].
  - injection E as E1 E2. subst m' c1. destruct Q as (j & b & A & B & C & D). exists j, b.
    split; [lia|]. auto.
  - unfold hist_back in E. rewrite (not_empty h HE) in E. cbn [negb expects bind] in E.
    rewrite deref_at in E by exact HR. fold L in E. rewrite (bins_size h) in E. fold L n in E.
    unfold at_index in E. destruct (nth_error L (n - 1)) as [b|] eqn:V; [|discriminate].
    cbn [bind] in E. unfold to_seconds in E. destruct (0 <=? b_middle b)%Z; [|discriminate].
    cbn [expects bind] in E. injection E as <- <-. exists (n - 1)%nat, b.
    pose proof (bins_pos h HE) as P. fold L n in P. split; [lia|]. split; [exact V|]. split; [reflexivity|]. idtac. lia.
Qed.

Lemma stats_forward : forall s, stats h = Ok s ->
  exists i25 i50 i75 i95 i99, (i25 <= i50 <= i75)%nat /\ (i75 <= i95 <= i99)%nat /\
  nth_error (map b_middle L) i25 = Some (p25 s) /\ nth_error (map b_middle L) i50 = Some (p50 s) /\
  nth_error (map b_middle L) i75 = Some (p75 s) /\ nth_error (map b_middle L) i95 = Some (p95 s) /\
  nth_error (map b_middle L) i99 = Some (p99 s).
Proof.
  intros s E. unfold stats in E. destruct (0 <? hist_size h)%nat; [|discriminate].
  cbn [expects bind] in E. destruct (hist_iterate h) as [l| |]; try discriminate.
  cbn [bind] in E. destruct (sum_bins f_zero l) as [T| |]; try discriminate. cbn [bind] in E.
  set (c0 := {| cu_count := f_zero; cu_index := 0 |}) in E.
  assert (H0 : (cu_index c0 <= n)%nat) by (cbn; lia). clearbody c0.
  destruct (accumulate_until h (f_mul T (pct 25)) c0) as [[m1 c1]| |] eqn:E1; try discriminate.
  cbn [bind fst snd] in E. destruct (until_forward _ _ _ _ E1 H0) as (j1 & b1 & A1 & B1 & D1 & F1).
  assert (N1 : (j1 < n)%nat) by (apply nth_error_Some; congruence).
  destruct (accumulate_until h (f_mul T (pct 50)) c1) as [[m2 c2]| |] eqn:E2; try discriminate.
  cbn [bind fst snd] in E. destruct (until_forward _ _ _ _ E2 ltac:(lia)) as (j2 & b2 & A2 & B2 & D2 & F2).
  assert (N2 : (j2 < n)%nat) by (apply nth_error_Some; congruence).
  destruct (accumulate_until h (f_mul T (pct 75)) c2) as [[m3 c3]| |] eqn:E3; try discriminate.
  cbn [bind fst snd] in E. destruct (until_forward _ _ _ _ E3 ltac:(lia)) as (j3 & b3 & A3 & B3 & D3 & F3).
  assert (N3 : (j3 < n)%nat) by (apply nth_error_Some; congruence).
  destruct (accumulate_until h (f_mul T (pct 95)) c3) as [[m4 c4]| |] eqn:E4; try discriminate.
  cbn [bind fst snd] in E. destruct (until_forward _ _ _ _ E4 ltac:(lia)) as (j4 & b4 & A4 & B4 & D4 & F4).
  assert (N4 : (j4 < n)%nat) by (apply nth_error_Some; congruence).
  destruct (accumulate_until h (f_mul T (pct 99)) c4) as [[m5 c5]| |] eqn:E5; try discriminate.
  cbn [bind fst snd] in E. destruct (until_forward _ _ _ _ E5 ltac:(lia)) as (j5 & b5 & A5 & B5 & D5 & F5).
  injection E as <-. cbn [p25 p50 p75 p95 p99].
  exists j1, j2, j3, j4, j5. split; [lia|]. split; [lia|].
  rewrite !nth_error_map, B1, B2, B3, B4, B5. cbn [option_map]. rewrite D1, D2, D3, D4, D5. auto.
Qed.

Context (HN : (samples L <= 2 ^ 24)%Z).

(** The comparison made for a fraction of the total. *)
Definition reaches (q : f32) (z : Z) : bool := f_le (f_mul (f_of_Z (samples L)) q) (f_of_Z z).

Lemma threshold_same : forall q T x, is_finite q = true -> Rabs (B2R q) <= 1 -> exact T (samples L) ->
  is_finite x = true -> f_le (f_mul T q) x = f_le (f_mul (f_of_Z (samples L)) q) x.
Proof.
  intros q T x Fq Bq [FT ET] Fx.
  pose proof (samples_pos h HR HE) as SP. fold L in SP.
  destruct (exact_of_Z (samples L)) as [FN EN]; [lia|].
  assert (O : Rabs (IZR (samples L) * B2R q) <= bpow radix2 127).
  { rewrite Rabs_mult. apply Rle_trans with (bpow radix2 24 * 1); [|rewrite Rmult_1_r; apply bpow_le; lia].
    apply Rmult_le_compat; try apply Rabs_pos; [|exact Bq]. rewrite <- abs_IZR.
    change (bpow radix2 24) with (IZR (2 ^ 24)). apply IZR_le. lia. }
  destruct (mul_fin T q FT Fq) as [F1 E1]; [rewrite ET; exact O|].
  destruct (mul_fin (f_of_Z (samples L)) q FN Fq) as [F2 E2]; [rewrite EN; exact O|].
  apply eq_true_iff_eq. rewrite !fin_le by assumption. rewrite E1, E2, ET, EN. tauto.
Qed.

Definition picks (q : f32) (i j : nat) : Prop :=
  ((i <= j < n)%nat /\ reaches q (cumulative L (S j)) = true /\
   (forall m, (i <= m < j)%nat -> reaches q (cumulative L (S m)) = false)) \/
  (i = n /\ j = n - 1)%nat.

Lemma until_picks : forall q a d T i c, fraction q a d -> exact T (samples L) ->
  (i <= n)%nat -> cursor_at h c i ->
  exists j b c', picks q i j /\ nth_error L j = Some b /\
    accumulate_until h (f_mul T q) c = Ok (b_middle b, c') /\ cursor_at h c' (S j).
Proof.
  intros q a d T i c FR XT Hi C.
  pose proof (samples_pos h HR HE) as SP. fold L in SP.
  assert (SN : (1 <= samples L <= 2 ^ 24)%Z) by lia.
  destruct (threshold_fin q a d FR (samples L) SN T XT) as [Ft _].
  pose proof (threshold_nn q a d FR (samples L) SN T XT) as Pt.
  pose proof (total_reaches q a d FR (samples L) SN T XT) as Rt.
  destruct (until_spec h HR HE HN (f_mul T q) Ft Pt Rt i c Hi C) as (j & b & c' & P & B & E & C').
  exists j, b, c'. split; [|auto].
  assert (S1 : forall m, f_le (f_mul T q) (f_of_Z (cumulative L (S m))) = reaches q (cumulative L (S m))).
  { intro m. apply threshold_same; [exact (fr_fin _ _ _ FR)| |exact XT|].
    - pose proof (fr_pos _ _ _ FR). rewrite Rabs_pos_eq; lra.
    - apply exact_of_Z. pose proof (cum_range h HR (S m)) as CR. fold L in CR. lia. }
  destruct P as [(P1 & P2 & P3)|P]; [left|right; exact P].
  fold L in P1, P2, P3. split; [exact P1|]. split; [rewrite <- S1; exact P2|].
  intros m Hm. rewrite <- S1. apply P3, Hm.
Qed.

Lemma stats_picks : exists s i25 i50 i75 i95 i99, stats h = Ok s /\
  picks (pct 25) 0 i25 /\ picks (pct 50) (S i25) i50 /\ picks (pct 75) (S i50) i75 /\
  picks (pct 95) (S i75) i95 /\ picks (pct 99) (S i95) i99 /\
  nth_error (map b_middle L) i25 = Some (p25 s) /\ nth_error (map b_middle L) i50 = Some (p50 s) /\
  nth_error (map b_middle L) i75 = Some (p75 s) /\ nth_error (map b_middle L) i95 = Some (p95 s) /\
  nth_error (map b_middle L) i99 = Some (p99 s).
Proof.
  unfold stats. pose proof (bins_pos h HE) as BP. fold L n in BP.
  assert (S0 : hist_size h = n) by exact (bins_size h). rewrite S0.
  destruct (Nat.ltb_spec 0 n); [|lia]. cbn [expects bind].
  rewrite iterate_map by exact HR. fold L. cbn [bind].
  destruct (sum_total h HR HN) as (T & ET & XT). fold L in ET, XT. rewrite ET. cbn [bind].
  set (c0 := {| cu_count := f_zero; cu_index := 0 |}).
  assert (C0 : cursor_at h c0 0) by (split; [reflexivity|split; reflexivity]). clearbody c0.
  assert (LT : forall j b, nth_error L j = Some b -> (S j <= n)%nat).
  { intros j b E. assert (j < n)%nat by (apply nth_error_Some; congruence). lia. }
  destruct (until_picks _ _ _ T 0 c0 pct_25 XT ltac:(lia) C0) as (j1 & b1 & c1 & P1 & B1 & E1 & C1).
  rewrite E1. cbn [bind fst snd].
  destruct (until_picks _ _ _ T (S j1) c1 pct_50 XT (LT _ _ B1) C1) as (j2 & b2 & c2 & P2 & B2 & E2 & C2).
  rewrite E2. cbn [bind fst snd].
  destruct (until_picks _ _ _ T (S j2) c2 pct_75 XT (LT _ _ B2) C2) as (j3 & b3 & c3 & P3 & B3 & E3 & C3).
  rewrite E3. cbn [bind fst snd].
  destruct (until_picks _ _ _ T (S j3) c3 pct_95 XT (LT _ _ B3) C3) as (j4 & b4 & c4 & P4 & B4 & E4 & C4).
  rewrite E4. cbn [bind fst snd].
  destruct (until_picks _ _ _ T (S j4) c4 pct_99 XT (LT _ _ B4) C4) as (j5 & b5 & c5 & P5 & B5 & E5 & C5).
  rewrite E5. cbn [bind fst snd].
  eexists. exists j1, j2, j3, j4, j5. split; [reflexivity|]. cbn [p25 p50 p75 p95 p99].
  rewrite !nth_error_map, B1, B2, B3, B4, B5. cbn [option_map]. repeat split; assumption.
Qed.

(** The bin that is read reaches the threshold. *)
Lemma picks_reach : forall q a d i j, fraction q a d -> picks q i j ->
  reaches q (cumulative L (S j)) = true.
Proof.
  intros q a d i j FR [(A & B & _)|(A & B)]; [exact B|].
  pose proof (bins_pos h HE) as BP. fold L n in BP.
  pose proof (samples_pos h HR HE) as SP. fold L in SP.
  replace (S j) with n by lia.
  apply (total_reaches q a d FR (samples L) ltac:(lia) (f_of_Z (samples L))).
  apply exact_of_Z. lia.
Qed.

(** With exact comparisons a pick is determined by the quantile. *)
Lemma picks_quantile : forall q a d p i j k, fraction q a d -> (100 * a = p * d)%Z ->
  (samples L <= 2 ^ 18)%Z -> quantile_index L p k -> (i <= n)%nat -> picks q i j ->
  j = Nat.min (n - 1) (Nat.max k i).
Proof.
  intros q a d p i j k FR PA H18 (K1 & K2 & K3) Hi P. fold n in K1.
  pose proof (samples_pos h HR HE) as SP. fold L in SP.
  pose proof (fr_a _ _ _ FR) as AD.
  assert (RX : forall m, reaches q (cumulative L m) = true <-> (p * samples L <= 100 * cumulative L m)%Z).
  { intro m. pose proof (cum_range h HR m) as CR. fold L in CR.
    unfold reaches. rewrite (reach_exact q a d FR (samples L) ltac:(lia)); [|apply exact_of_Z; lia|exact H18|lia].
    nia. }
  assert (MO : forall x y, (x <= y)%nat -> (cumulative L x <= cumulative L y)%Z).
  { intros x y. apply cum_mono. exact (bin_counts h HR). }
  destruct P as [(A & B & C)|(A & B)].
  - apply RX in B.
    assert (KJ : (k <= j)%nat).
    { destruct (Nat.le_gt_cases k j); [assumption|]. pose proof (MO (S j) k ltac:(lia)). lia. }
    assert (J : j = Nat.max k i).
    { destruct (Nat.eq_dec j i); [lia|]. destruct (Nat.eq_dec j k); [lia|]. exfalso.
      assert (H : reaches q (cumulative L (S (Nat.pred j))) = false) by (apply C; lia).
      assert (reaches q (cumulative L (S (Nat.pred j))) = true).
      { apply RX. pose proof (MO (S k) (S (Nat.pred j)) ltac:(lia)). lia. }
      congruence. }
    lia.
  - lia.
Qed.

Lemma quantile_exists : forall p, (0 < p <= 100)%Z -> exists k, quantile_index L p k.
Proof.
  intros p Hp. pose proof (samples_pos h HR HE) as SP. fold L in SP.
  assert (G : forall m, (p * samples L <= 100 * cumulative L m)%Z -> (m <= n)%nat ->
    exists k, quantile_index L p k).
  { induction m as [|m IH]; intros H Hm.
    - rewrite cum_0 in H. nia.
    - destruct (Z.le_gt_cases (p * samples L) (100 * cumulative L m)) as [Q|Q].
      + apply IH; [exact Q|lia].
      + exists m. split; [fold n; lia|]. split; [lia|exact H]. }
  apply (G n); [|lia]. change (cumulative L n) with (samples L). nia.
Qed.

Lemma quantile_unique : forall p i k, quantile_index L p i -> quantile_index L p k -> i = k.
Proof.
  intros p i k (A1 & A2 & A3) (B1 & B2 & B3).
  assert (MO : forall x y, (x <= y)%nat -> (cumulative L x <= cumulative L y)%Z).
  { intros x y. apply cum_mono. exact (bin_counts h HR). }
  destruct (Nat.lt_trichotomy i k) as [H|[H|H]]; [|exact H|].
  - pose proof (MO (S i) k ltac:(lia)). lia.
  - pose proof (MO (S k) i ltac:(lia)). lia.
Qed.
End Stats.
