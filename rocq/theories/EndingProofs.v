(** * The rolling mean of one error followed by zeros *)

From Coq Require Import List ZArith Bool Arith Reals Lia Lra.
From Flocq Require Import Core BinarySingleNaN Relative.
From Verif Require Import Base F32 F32Facts F32Signed TemperatureProofs RollingModel SimulationModel PSquareModel PSquareFloats.
Import ListNotations.

Local Open Scope R_scope.

(** The rolling mean of the error [e] and [n] zeros after it. *)
Definition mean_after (e : f32) (n : nat) : f32 := rolling_mean 15 (repeat f_zero n ++ [e]).

Lemma mean_after_filling : forall e n, (n < 14)%nat ->
  mean_after e (S n) = move_mean (mean_after e n) (mean_after e n) f_zero (Z.of_nat (n + 2)).
Proof.
  intros e n H. unfold mean_after. cbn [repeat app rolling_mean]. unfold rolling_step.
  change (Z.to_nat 15 - 1)%nat with 14%nat.
  assert (L : length (repeat f_zero n ++ [e]) = (n + 1)%nat) by (rewrite app_length, repeat_length; reflexivity).
  assert (N : nth_error (repeat f_zero n ++ [e]) 14 = None) by (apply nth_error_None; lia).
  rewrite N, L. do 2 f_equal. lia.
Qed.

Lemma full_window : forall e l, nth_error l 14 = Some e ->
  rolling_mean 15 (f_zero :: l) = move_mean (rolling_mean 15 l) e f_zero 15.
Proof.
  intros e l N. cbn [rolling_mean]. unfold rolling_step.
  replace (Z.to_nat 15 - 1)%nat with 14%nat by reflexivity. rewrite N. reflexivity.
Qed.

Lemma mean_after_full : forall e, mean_after e 15 = move_mean (mean_after e 14) e f_zero 15.
Proof. intro e. unfold mean_after. apply (full_window e (repeat f_zero 14 ++ [e])). reflexivity. Qed.

Lemma mean_after_constant : forall e n, mean_after e (15 + n) = mean_after e 15.
Proof.
  intros e n. induction n as [|n IH]; [rewrite Nat.add_0_r; reflexivity|].
  rewrite Nat.add_succ_r, <- IH. unfold mean_after.
  assert (N : nth_error (repeat f_zero (15 + n) ++ [e]) 14 = Some f_zero) by reflexivity.
  cbn [repeat app]. cbn [repeat app] in N. revert N.
  match goal with |- nth_error ?x 14 = _ -> _ => generalize x end. intros l N.
  rewrite (full_window f_zero l N). unfold move_mean.
  replace (f_lt f_zero f_zero) with false by reflexivity. reflexivity.
Qed.

(** ** How far rounding takes it from zero *)

Lemma rnd_relative : forall r, 0 <= r -> Rabs (rnd r - r) <= r * / 16777216 + bpow radix2 (-150).
Proof.
  intros r P. destruct (error_N_FLT radix2 (-149) 24 eq_refl (fun z => negb (Z.even z)) r) as (eps & eta & A & B & _ & E).
  change (round radix2 (FLT_exp (-149) 24) (Znearest (fun z => negb (Z.even z))) r) with (rnd r) in E.
  rewrite E. replace (r * (1 + eps) + eta - r) with (r * eps + eta) by ring.
  apply Rle_trans with (1 := Rabs_triang _ _). rewrite Rabs_mult, (Rabs_pos_eq r) by exact P.
  apply Rplus_le_compat.
  - apply Rmult_le_compat_l; [exact P|]. apply Rle_trans with (1 := A). replace (- (24) + 1)%Z with (-23)%Z by reflexivity.
    change (bpow radix2 (-23)) with (/ 8388608). lra.
  - apply Rle_trans with (1 := B). change (/ 2) with (bpow radix2 (-1)). rewrite <- bpow_plus. apply Rle_refl.
Qed.

Lemma tiny : bpow radix2 (-150) <= / 1000000000.
Proof.
  apply Rle_trans with (bpow radix2 (-30)); [apply bpow_le; lia|]. change (bpow radix2 (-30)) with (/ 1073741824). lra.
Qed.

Lemma below_127 : forall r, Rabs r <= 131073 -> Rabs r <= bpow radix2 127.
Proof.
  intros r H. apply Rle_trans with (1 := H). apply Rle_trans with (IZR (2 ^ 18)); [apply IZR_le; lia|].
  change (IZR (2 ^ 18)) with (bpow radix2 18). apply bpow_le. lia.
Qed.

Lemma sub_zero : forall x : f32, is_finite x = true -> Rabs (B2R x) <= 131073 ->
  is_finite (f_sub x f_zero) = true /\ B2R (f_sub x f_zero) = B2R x.
Proof.
  intros x F B. destruct (sub_fin x f_zero F eq_refl) as [FS ES].
  - change (B2R f_zero) with 0. rewrite Rminus_0_r. apply below_127, B.
  - split; [exact FS|]. rewrite ES. change (B2R f_zero) with 0. rewrite Rminus_0_r. apply rnd_B2R.
Qed.

(** Averaging in a zero as the [k]-th value. *)
Lemma zero_in : forall (m : f32) k, is_finite m = true -> 0 <= B2R m <= 131072 -> (2 <= k <= 15)%Z ->
  let m' := move_mean m m f_zero k in
  is_finite m' = true /\ 0 <= B2R m' /\
  Rabs (B2R m' - (B2R m - B2R m / IZR k)) <= B2R m * / 16777216 + / 10000000.
Proof.
  intros m k F M K. cbv zeta. unfold move_mean. pose proof tiny as T. pose proof (bpow_gt_0 radix2 (-150)) as TP.
  assert (K2 : 2 <= IZR k) by (apply IZR_le; lia).
  assert (I0 : 0 < / IZR k) by (apply Rinv_0_lt_compat; lra).
  assert (I1 : / IZR k <= / 2) by (apply Rinv_le; lra).
  destruct (f_lt f_zero m) eqn:E.
  - destruct (sub_zero m F) as [FS ES]; [rewrite Rabs_pos_eq; lra|].
    destruct (of_Z_exact k) as [Fk Ek]; [lia|].
    assert (Q0 : 0 <= B2R m / IZR k) by (apply Rmult_le_pos; lra).
    assert (Q1 : B2R m / IZR k <= B2R m * / 2) by (apply Rmult_le_compat_l; lra).
    destruct (div_fin (f_sub m f_zero) (f_of_Z k) FS) as [FQ EQ].
    { rewrite Ek. lra. }
    { rewrite ES, Ek. apply below_127. rewrite Rabs_pos_eq; lra. }
    rewrite ES, Ek in EQ. set (q := f_div (f_sub m f_zero) (f_of_Z k)) in *.
    pose proof (rnd_relative _ Q0) as R1. rewrite <- EQ in R1. apply Rabs_le_inv in R1.
    assert (QN : 0 <= B2R q) by (rewrite EQ, <- rnd_0; apply rnd_le; exact Q0).
    assert (QM : B2R q <= B2R m).
    { apply Rle_trans with (rnd (B2R m)); [rewrite EQ; apply rnd_le; lra|rewrite rnd_B2R; lra]. }
    destruct (sub_fin m q F FQ) as [FM EM]; [apply below_127; rewrite Rabs_pos_eq; lra|].
    pose proof (rnd_relative (B2R m - B2R q) ltac:(lra)) as R2. rewrite <- EM in R2. apply Rabs_le_inv in R2.
    split; [exact FM|]. split; [rewrite EM, <- rnd_0; apply rnd_le; lra|].
    apply Rabs_le. lra.
  - assert (Z : B2R m = 0).
    { destruct (Rle_or_lt (B2R m) 0) as [X|X]; [lra|]. apply (fin_lt f_zero m eq_refl F) in X. congruence. }
    assert (N : f_lt m f_zero = false).
    { destruct (f_lt m f_zero) eqn:X; [|reflexivity]. apply (fin_lt m f_zero F eq_refl) in X. change (B2R f_zero) with 0 in X. lra. }
    rewrite N. split; [exact F|]. split; [lra|]. rewrite Z. unfold Rdiv. rewrite Rmult_0_l, Rminus_0_r, Rminus_0_r, Rabs_R0. lra.
Qed.

Ltac num := rewrite INR_IZR_INZ; cbn [Nat.add Z.of_nat Pos.of_succ_nat Pos.succ]; lra.

(** After a first error of at most [2 ^ 17 - 1] the mean of a window of
    zeros is below one percent. *)
Lemma mean_after_small : forall z e, whole z e -> (0 <= z < 2 ^ 17)%Z ->
  f_lt error_threshold (mean_after e 15) = false.
Proof.
  intros z e [F E] Z. pose proof tiny as T. pose proof (bpow_gt_0 radix2 (-150)) as TP.
  assert (Z0 : 0 <= IZR z) by (apply IZR_le; lia).
  assert (Z1 : IZR z <= 131071) by (apply IZR_le; lia).
  assert (S0 : is_finite (mean_after e 0) = true /\ B2R (mean_after e 0) = IZR z).
  { unfold mean_after. cbn [repeat app rolling_mean]. unfold rolling_step. cbn [nth_error length].
    change (Z.to_nat 15 - 1)%nat with 14%nat. cbn [nth_error]. change (Z.of_nat 1) with 1%Z. unfold move_mean.
    destruct (f_lt e f_zero) eqn:X; [apply (fin_lt e f_zero F eq_refl) in X; change (B2R f_zero) with 0 in X; lra|].
    destruct (f_lt f_zero e) eqn:Y.
    - destruct (sub_zero e F) as [FS ES]; [rewrite E, Rabs_pos_eq; lra|]. rewrite E in ES.
      destruct (of_Z_exact 1) as [F1 E1]; [lia|].
      destruct (div_fin (f_sub e f_zero) (f_of_Z 1) FS) as [FQ EQ].
      { rewrite E1. lra. }
      { rewrite ES, E1. apply below_127. unfold Rdiv. rewrite Rinv_1, Rmult_1_r, Rabs_pos_eq; lra. }
      rewrite ES, E1 in EQ. replace (IZR z / 1) with (IZR z) in EQ by field. rewrite rnd_int in EQ by lia.
      destruct (add_fin f_zero (f_div (f_sub e f_zero) (f_of_Z 1)) eq_refl FQ) as [FA EA].
      { rewrite EQ. change (B2R f_zero) with 0. rewrite Rplus_0_l. apply below_127. rewrite Rabs_pos_eq; lra. }
      split; [exact FA|]. rewrite EA, EQ. change (B2R f_zero) with 0. rewrite Rplus_0_l. apply rnd_int. lia.
    - split; [reflexivity|]. change (B2R f_zero) with 0. destruct (Rle_or_lt (IZR z) 0) as [W|W]; [lra|].
      rewrite <- E in W. apply (fin_lt f_zero e eq_refl F) in W. congruence. }
  (** [D n]: the distance of [n + 1] times the mean from the error. *)
  assert (STEP : forall n c, (n < 14)%nat -> 0 <= c <= / 2 ->
    is_finite (mean_after e n) = true /\ 0 <= B2R (mean_after e n) /\ Rabs (INR (n + 1) * B2R (mean_after e n) - IZR z) <= c ->
    is_finite (mean_after e (S n)) = true /\ 0 <= B2R (mean_after e (S n)) /\
    Rabs (INR (S n + 1) * B2R (mean_after e (S n)) - IZR z) <= c + (1 + / INR (n + 1)) * / 128 + / 100000).
  { intros n c Hn C (Fm & Pm & Dm). apply Rabs_le_inv in Dm.
    assert (N1 : 1 <= INR (n + 1)) by (rewrite plus_INR; cbn; pose proof (pos_INR n); lra).
    assert (N15 : INR (n + 1) <= 14) by (replace 14 with (INR 14) by (cbn; ring); apply le_INR; lia).
    assert (MB : B2R (mean_after e n) <= INR (n + 1) * B2R (mean_after e n)) by (rewrite <- (Rmult_1_l (B2R (mean_after e n))) at 1; apply Rmult_le_compat_r; lra).
    rewrite mean_after_filling by exact Hn.
    destruct (zero_in (mean_after e n) (Z.of_nat (n + 2)) Fm ltac:(lra) ltac:(lia)) as (F' & P' & D').
    split; [exact F'|]. split; [exact P'|]. set (m := B2R (mean_after e n)) in *.
    set (m' := B2R (move_mean (mean_after e n) (mean_after e n) f_zero (Z.of_nat (n + 2)))) in *.
    rewrite <- INR_IZR_INZ in D'. replace (n + 2)%nat with (S (n + 1)) in D' by lia.
    replace (S n + 1)%nat with (S (n + 1)) by lia. rewrite S_INR in *. set (k := INR (n + 1)) in *.
    assert (X : (k + 1) * m' - IZR z = (k + 1) * (m' - (m - m / (k + 1))) + (k * m - IZR z)) by (field; lra).
    rewrite X. apply Rle_trans with (1 := Rabs_triang _ _). rewrite Rabs_mult, (Rabs_pos_eq (k + 1)) by lra.
    assert (Y : (k + 1) * Rabs (m' - (m - m / (k + 1))) <= (k + 1) * (m * / 16777216 + / 10000000))
      by (apply Rmult_le_compat_l; lra).
    assert (W : (k + 1) * m = (k * m) * (1 + / k)) by (field; lra).
    assert (IK : 0 < / k) by (apply Rinv_0_lt_compat; lra).
    assert (V : (k * m) * (1 + / k) <= 131072 * (1 + / k)) by (apply Rmult_le_compat_r; lra).
    assert (U : (k + 1) * (m * / 16777216 + / 10000000) <= (1 + / k) * / 128 + / 500000).
    { replace ((k + 1) * (m * / 16777216 + / 10000000)) with ((k + 1) * m * / 16777216 + (k + 1) * / 10000000) by ring.
      rewrite W. lra. }
    assert (Q : Rabs (k * m - IZR z) <= c) by (apply Rabs_le; lra). lra. }
  (** Fourteen steps. *)
  assert (C : is_finite (mean_after e 14) = true /\ 0 <= B2R (mean_after e 14) /\
              Rabs (INR (14 + 1) * B2R (mean_after e 14) - IZR z) <= 135 / 1000).
  { assert (B0 : is_finite (mean_after e 0) = true /\ 0 <= B2R (mean_after e 0) /\
                 Rabs (INR (0 + 1) * B2R (mean_after e 0) - IZR z) <= 0).
    { destruct S0 as [A1 A2]. split; [exact A1|]. rewrite A2. split; [exact Z0|].
      replace (INR (0 + 1) * IZR z - IZR z) with 0 by (cbn; ring). rewrite Rabs_R0. lra. }
    assert (WEAK : forall n c c', c <= c' -> is_finite (mean_after e n) = true /\ 0 <= B2R (mean_after e n) /\
       Rabs (INR (n + 1) * B2R (mean_after e n) - IZR z) <= c ->
       is_finite (mean_after e n) = true /\ 0 <= B2R (mean_after e n) /\
       Rabs (INR (n + 1) * B2R (mean_after e n) - IZR z) <= c').
    { intros n c c' L (A1 & A2 & A3). split; [exact A1|]. split; [exact A2|]. lra. }
    pose proof (STEP 0%nat 0 ltac:(lia) ltac:(lra) B0) as B1. apply (WEAK 1%nat _ (15635 / 1000000)) in B1; [|num].
    pose proof (STEP 1%nat (15635 / 1000000) ltac:(lia) ltac:(lra) B1) as B2. apply (WEAK 2%nat _ (27364 / 1000000)) in B2; [|num].
    pose proof (STEP 2%nat (27364 / 1000000) ltac:(lia) ltac:(lra) B2) as B3. apply (WEAK 3%nat _ (37791 / 1000000)) in B3; [|num].
    pose proof (STEP 3%nat (37791 / 1000000) ltac:(lia) ltac:(lra) B3) as B4. apply (WEAK 4%nat _ (47567 / 1000000)) in B4; [|num].
    pose proof (STEP 4%nat (47567 / 1000000) ltac:(lia) ltac:(lra) B4) as B5. apply (WEAK 5%nat _ (56952 / 1000000)) in B5; [|num].
    pose proof (STEP 5%nat (56952 / 1000000) ltac:(lia) ltac:(lra) B5) as B6. apply (WEAK 6%nat _ (66077 / 1000000)) in B6; [|num].
    pose proof (STEP 6%nat (66077 / 1000000) ltac:(lia) ltac:(lra) B6) as B7. apply (WEAK 7%nat _ (75016 / 1000000)) in B7; [|num].
    pose proof (STEP 7%nat (75016 / 1000000) ltac:(lia) ltac:(lra) B7) as B8. apply (WEAK 8%nat _ (83816 / 1000000)) in B8; [|num].
    pose proof (STEP 8%nat (83816 / 1000000) ltac:(lia) ltac:(lra) B8) as B9. apply (WEAK 9%nat _ (92508 / 1000000)) in B9; [|num].
    pose proof (STEP 9%nat (92508 / 1000000) ltac:(lia) ltac:(lra) B9) as B10. apply (WEAK 10%nat _ (101113 / 1000000)) in B10; [|num].
    pose proof (STEP 10%nat (101113 / 1000000) ltac:(lia) ltac:(lra) B10) as B11. apply (WEAK 11%nat _ (109647 / 1000000)) in B11; [|num].
    pose proof (STEP 11%nat (109647 / 1000000) ltac:(lia) ltac:(lra) B11) as B12. apply (WEAK 12%nat _ (118122 / 1000000)) in B12; [|num].
    pose proof (STEP 12%nat (118122 / 1000000) ltac:(lia) ltac:(lra) B12) as B13. apply (WEAK 13%nat _ (126546 / 1000000)) in B13; [|num].
    pose proof (STEP 13%nat (126546 / 1000000) ltac:(lia) ltac:(lra) B13) as B14. apply (WEAK 14%nat _ (135 / 1000)) in B14; [exact B14|num]. }
  destruct C as (F14 & P14 & D14). change (14 + 1)%nat with 15%nat in D14. replace (INR 15) with 15 in D14 by (cbn; ring).
  apply Rabs_le_inv in D14. rewrite mean_after_full. set (m := mean_after e 14) in *.
  assert (T1 : is_finite error_threshold = true) by reflexivity.
  assert (T2 : 99 / 10000 <= B2R error_threshold).
  { assert (X : f_le (f_div (f_of_Z 99) (f_of_Z 10000)) error_threshold = true) by (vm_compute; reflexivity).
    unfold error_threshold. rewrite <- (B2SF_inj 24 128 (@B754_finite 24 128 false 10737418 (-30) eq_refl) (f_div (f_of_Z 1) (f_of_Z 100)))
      by (vm_compute; reflexivity).
    unfold B2R, F2R. cbn [Fnum Fexp cond_Zopp]. change (bpow radix2 (-30)) with (/ 1073741824). lra. }
  assert (G : is_finite (move_mean m e f_zero 15) = true /\ B2R (move_mean m e f_zero 15) <= 98 / 10000).
  { unfold move_mean. destruct (f_lt f_zero e) eqn:Y.
    - destruct (sub_zero e F) as [FS ES]; [rewrite E, Rabs_pos_eq; lra|]. rewrite E in ES.
      destruct (of_Z_exact 15) as [F1 E1]; [lia|].
      assert (Q0 : 0 <= IZR z / 15) by (apply Rmult_le_pos; lra).
      destruct (div_fin (f_sub e f_zero) (f_of_Z 15) FS) as [FQ EQ].
      { rewrite E1. lra. }
      { rewrite ES, E1. apply below_127. rewrite Rabs_pos_eq; lra. }
      rewrite ES, E1 in EQ. set (q := f_div (f_sub e f_zero) (f_of_Z 15)) in *.
      pose proof (rnd_relative _ Q0) as R1. rewrite <- EQ in R1. apply Rabs_le_inv in R1.
      assert (DQ : B2R m - B2R q <= 96 / 10000) by lra.
      assert (DL : -1 <= B2R m - B2R q) by lra.
      destruct (sub_fin m q F14 FQ) as [FM EM]; [apply below_127; apply Rabs_le; lra|].
      split; [exact FM|]. rewrite EM.
      destruct (Rle_or_lt 0 (B2R m - B2R q)) as [W|W].
      + pose proof (rnd_relative _ W) as R2. apply Rabs_le_inv in R2. lra.
      + apply Rle_trans with 0; [|lra]. rewrite <- rnd_0. apply rnd_le. lra.
    - assert (W : IZR z = 0).
      { destruct (Rle_or_lt (IZR z) 0) as [W|W]; [lra|]. rewrite <- E in W. apply (fin_lt f_zero e eq_refl F) in W. congruence. }
      destruct (f_lt e f_zero) eqn:X; [apply (fin_lt e f_zero F eq_refl) in X; change (B2R f_zero) with 0 in X; lra|].
      split; [exact F14|]. lra. }
  destruct G as [G1 G2]. destruct (f_lt error_threshold (move_mean m e f_zero 15)) eqn:X; [|reflexivity].
  apply (fin_lt _ _ T1 G1) in X. lra.
Qed.
