(** * Rounding facts for the quantile estimator *)

From Coq Require Import List ZArith Bool Reals Lia Lra.
From Flocq Require Import Core BinarySingleNaN Plus_error.
From Verif Require Import Base F32 F32Facts F32Signed TemperatureProofs PSquareModel.
Import ListNotations.

Local Open Scope R_scope.

Lemma format_B2R : forall x : f32, generic_format radix2 fexp32 (B2R x).
Proof. intro x. apply (generic_format_B2R 24 128 x). Qed.

Lemma rnd_opp : forall r, rnd (- r) = - rnd r.
Proof. intro r. apply round_NE_opp. Qed.

Lemma big_fits : forall r, Rabs r <= bpow radix2 102 -> Rabs r <= bpow radix2 127.
Proof. intros r H. apply Rle_trans with (1 := H). apply bpow_le. lia. Qed.

(** A small difference of two floats is exact. *)
Lemma rnd_small_diff : forall x y : f32, Rabs (B2R x - B2R y) <= bpow radix2 (-125) ->
  rnd (B2R x - B2R y) = B2R x - B2R y.
Proof.
  intros x y H. apply round_generic; [apply valid_rnd_N|].
  apply (FLT_format_plus_small radix2 (-149) 24); [apply format_B2R| |exact H].
  apply generic_format_opp. apply format_B2R.
Qed.

(** Half of a rounded gap, or less, does not reach over the gap. *)
Lemma rnd_part : forall (x y : f32) k, 0 <= B2R y - B2R x <= bpow radix2 102 -> 2 <= k ->
  0 <= rnd (rnd (B2R y - B2R x) / k) <= B2R y - B2R x.
Proof.
  intros x y k [G0 G1] K. set (g := B2R y - B2R x) in *.
  assert (I0 : 0 < / k) by (apply Rinv_0_lt_compat; lra).
  assert (I1 : / k <= / 2) by (apply Rinv_le; lra).
  assert (R0 : 0 <= rnd g) by (rewrite <- rnd_0; apply rnd_le, G0).
  assert (Q0 : 0 <= rnd g / k) by (apply Rmult_le_pos; lra).
  assert (Q1 : rnd g / k <= rnd g * / 2) by (apply Rmult_le_compat_l; lra).
  split; [rewrite <- rnd_0; apply rnd_le, Q0|].
  destruct (Rle_or_lt g (bpow radix2 (-125))) as [S|S].
  - assert (E : rnd g = g) by (unfold g; apply rnd_small_diff; rewrite Rabs_pos_eq; assumption).
    rewrite E in *. rewrite <- E at 2. apply rnd_le. lra.
  - assert (NZ : g <> 0) by (pose proof (bpow_gt_0 radix2 (-125)); lra).
    destruct (mag radix2 g) as [e He]. cbn in He. specialize (He NZ).
    rewrite Rabs_pos_eq in He by exact G0. destruct He as [He1 He2].
    assert (E1 : (-125 < e)%Z) by (apply (lt_bpow radix2); lra).
    assert (E2 : (e - 1 <= 102)%Z) by (apply (le_bpow radix2); lra).
    assert (P : forall n, (-149 <= n <= 103)%Z -> rnd (bpow radix2 n) = bpow radix2 n).
    { intros n Hn. replace (bpow radix2 n) with (IZR 1 * bpow radix2 n) by ring. apply rnd_dyadic; [lia|exact Hn]. }
    assert (R1 : rnd g <= bpow radix2 e) by (rewrite <- P by lia; apply rnd_le; lra).
    apply Rle_trans with (2 := He1). rewrite <- P by lia. apply rnd_le.
    replace (bpow radix2 (e - 1)) with (bpow radix2 e * / 2); [lra|].
    change (/ 2) with (bpow radix2 (-1)). rewrite <- bpow_plus. f_equal. 
Qed.

(** Whole numbers that fit in the mantissa. *)
Definition whole (z : Z) (x : f32) : Prop := is_finite x = true /\ B2R x = IZR z.

Lemma whole_sub : forall a b x y, whole a x -> whole b y -> (1 <= a <= 2 ^ 24)%Z -> (1 <= b <= 2 ^ 24)%Z ->
  whole (a - b) (f_sub x y).
Proof.
  intros a b x y [Fx Ex] [Fy Ey] A B.
  assert (D : B2R x - B2R y = IZR (a - b)) by (rewrite Ex, Ey, minus_IZR; reflexivity).
  destruct (sub_fin x y Fx Fy) as [F E].
  { rewrite D, <- abs_IZR. apply Rle_trans with (IZR (2 ^ 24)); [apply IZR_le; lia|].
    change (IZR (2 ^ 24)) with (bpow radix2 24). apply bpow_le. lia. }
  split; [exact F|]. rewrite E, D. apply rnd_int. lia.
Qed.

Lemma whole_add : forall a b x y, whole a x -> whole b y -> (Z.abs (a + b) <= 2 ^ 24)%Z ->
  whole (a + b) (f_add x y).
Proof.
  intros a b x y [Fx Ex] [Fy Ey] A.
  assert (D : B2R x + B2R y = IZR (a + b)) by (rewrite Ex, Ey, plus_IZR; reflexivity).
  destruct (add_fin x y Fx Fy) as [F E].
  { rewrite D, <- abs_IZR. apply Rle_trans with (IZR (2 ^ 24)); [apply IZR_le; lia|].
    change (IZR (2 ^ 24)) with (bpow radix2 24). apply bpow_le. lia. }
  split; [exact F|]. rewrite E, D. apply rnd_int. lia.
Qed.

Lemma whole_one : whole 1 f_one.
Proof. exact one_fin. Qed.

Lemma whole_of_Z : forall z, (Z.abs z <= 2 ^ 24)%Z -> whole z (f_of_Z z).
Proof. intros z H. exact (of_Z_exact z H). Qed.

(** [2 ^ 24 + 1] is rounded to [2 ^ 24]. *)
Lemma rnd_full : rnd (IZR (2 ^ 24 + 1)) = IZR (2 ^ 24).
Proof.
  destruct (of_Z_fin (2 ^ 24 + 1)) as [_ E]; [lia|]. rewrite <- E.
  assert (X : f_of_Z (2 ^ 24 + 1) = f_of_Z (2 ^ 24)) by (apply B2SF_inj; vm_compute; reflexivity).
  rewrite X. apply (of_Z_exact (2 ^ 24)). lia.
Qed.

(** Counting up never leaves the whole numbers up to [2 ^ 24]. *)
Lemma whole_count : forall a x, whole a x -> (1 <= a <= 2 ^ 24)%Z ->
  whole (Z.min (a + 1) (2 ^ 24)) (f_add x f_one).
Proof.
  intros a x W A. destruct (Z.eq_dec a (2 ^ 24)) as [->|N].
  - destruct W as [Fx Ex]. destruct one_fin as [F1 E1].
    assert (D : B2R x + B2R f_one = IZR (2 ^ 24 + 1)) by (rewrite Ex, E1, plus_IZR; reflexivity).
    destruct (add_fin x f_one Fx F1) as [F E].
    { rewrite D, <- abs_IZR. apply Rle_trans with (IZR (2 ^ 25)); [apply IZR_le; lia|].
      change (IZR (2 ^ 25)) with (bpow radix2 25). apply bpow_le. lia. }
    split; [exact F|]. rewrite E, D, rnd_full. reflexivity.
  - rewrite Z.min_l by lia. apply whole_add; [exact W|exact whole_one|lia].
Qed.

(** Desired positions stay in range, too. *)
Definition in_range (x : f32) : Prop := is_finite x = true /\ 0 <= B2R x <= IZR (2 ^ 24).

Lemma range_add : forall x y, in_range x -> is_finite y = true -> 0 <= B2R y <= 1 -> in_range (f_add x y).
Proof.
  intros x y [Fx Rx] Fy Ry.
  assert (C : 0 <= B2R x + B2R y <= IZR (2 ^ 24 + 1)) by (rewrite plus_IZR; lra).
  destruct (add_fin x y Fx Fy) as [F E].
  { rewrite Rabs_pos_eq by apply C. apply Rle_trans with (IZR (2 ^ 25)).
    - apply Rle_trans with (1 := proj2 C). apply IZR_le. lia.
    - change (IZR (2 ^ 25)) with (bpow radix2 25). apply bpow_le. lia. }
  split; [exact F|]. rewrite E. split.
  - rewrite <- rnd_0. apply rnd_le, C.
  - rewrite <- rnd_full. apply rnd_le, C.
Qed.

(** The sign of a difference that is at least 1. *)
Lemma sign_plus : forall d : f32, is_finite d = true -> 1 <= B2R d -> exists s, sign_of d = Ok s /\ whole 1 s.
Proof.
  intros d F L. exists (f_of_Z 1). split; [|apply whole_of_Z; lia].
  unfold sign_of, f_trunc.
  assert (A : B2R (Babs d) = B2R d) by (rewrite B2R_Babs; apply Rabs_pos_eq; lra).
  assert (Q : B2R d / B2R (Babs d) = 1) by (rewrite A; field; lra).
  destruct (div_fin d (Babs d) F) as [FQ EQ].
  { rewrite A. lra. }
  { rewrite Q, Rabs_R1. change 1 with (bpow radix2 0). apply bpow_le. lia. }
  rewrite FQ. do 2 f_equal. apply eq_IZR. rewrite Btrunc_correct by reflexivity.
  rewrite EQ, Q. assert (rnd 1 = 1) as -> by (apply (rnd_int 1); lia).
  apply round_generic; [apply valid_rnd_ZR|]. apply generic_format_FIX. exists (Float radix2 1 0); [unfold F2R; cbn; ring|reflexivity].
Qed.

Lemma sign_minus : forall d : f32, is_finite d = true -> B2R d <= -1 -> exists s, sign_of d = Ok s /\ whole (-1) s.
Proof.
  intros d F L. exists (f_of_Z (-1)). split; [|apply whole_of_Z; lia].
  unfold sign_of, f_trunc.
  assert (A : B2R (Babs d) = - B2R d) by (rewrite B2R_Babs; apply Rabs_left; lra).
  assert (Q : B2R d / B2R (Babs d) = -1) by (rewrite A; field; lra).
  destruct (div_fin d (Babs d) F) as [FQ EQ].
  { rewrite A. lra. }
  { rewrite Q, Rabs_left by lra. replace (- -1) with (bpow radix2 0) by (cbn; ring). apply bpow_le. lia. }
  rewrite FQ. do 2 f_equal. apply eq_IZR. rewrite Btrunc_correct by reflexivity.
  rewrite EQ, Q. assert (rnd (-1) = -1) as -> by (apply (rnd_int (-1)); lia).
  apply round_generic; [apply valid_rnd_ZR|]. apply generic_format_FIX. exists (Float radix2 (-1) 0); [unfold F2R; cbn; ring|reflexivity].
Qed.

(** A step along the line to a neighbour does not pass it. *)
Lemma line_up : forall (h1 h2 dp : f32) k, is_finite h1 = true -> is_finite h2 = true -> whole k dp -> (2 <= k <= 2 ^ 24)%Z ->
  B2R h1 <= B2R h2 -> Rabs (B2R h1) <= bpow radix2 100 -> Rabs (B2R h2) <= bpow radix2 100 ->
  let h := f_add h1 (f_div (f_sub h2 h1) dp) in is_finite h = true /\ B2R h1 <= B2R h <= B2R h2.
Proof.
  intros h1 h2 dp k F1 F2 [Fd Ed] K L A1 A2. cbv zeta.
  assert (T : bpow radix2 102 = 4 * bpow radix2 100) by (change 102%Z with (2 + 100)%Z; rewrite bpow_plus; reflexivity).
  pose proof (bpow_gt_0 radix2 100) as P.
  apply Rabs_le_inv in A1, A2.
  assert (G : 0 <= B2R h2 - B2R h1 <= bpow radix2 102) by lra.
  destruct (sub_fin h2 h1 F2 F1) as [FS ES]; [apply big_fits; rewrite Rabs_pos_eq; lra|].
  assert (K2 : 2 <= IZR k) by (apply IZR_le; lia).
  pose proof (rnd_part h1 h2 (IZR k) G K2) as [Q0 Q1].
  assert (R0 : 0 <= rnd (B2R h2 - B2R h1)) by (rewrite <- rnd_0; apply rnd_le, G).
  assert (R1 : rnd (B2R h2 - B2R h1) <= bpow radix2 102).
  { replace (bpow radix2 102) with (rnd (bpow radix2 102)); [apply rnd_le, G|].
    replace (bpow radix2 102) with (IZR 1 * bpow radix2 102) by ring. apply rnd_dyadic; lia. }
  destruct (div_fin (f_sub h2 h1) dp FS) as [FQ EQ].
  { rewrite Ed. lra. }
  { rewrite ES, Ed. apply big_fits. assert (I0 : 0 < / IZR k) by (apply Rinv_0_lt_compat; lra).
    assert (I1 : / IZR k <= / 2) by (apply Rinv_le; lra).
    rewrite Rabs_pos_eq by (apply Rmult_le_pos; lra).
    apply Rle_trans with (rnd (B2R h2 - B2R h1) * / 2); [apply Rmult_le_compat_l; lra|lra]. }
  rewrite ES, Ed in EQ. rewrite <- EQ in Q0, Q1. set (q := f_div (f_sub h2 h1) dp) in *.
  destruct (add_fin h1 q F1 FQ) as [F E]; [apply big_fits; apply Rabs_le; lra|].
  split; [exact F|]. rewrite E. apply rnd_between; [apply rnd_B2R|apply rnd_B2R|lra].
Qed.

Lemma line_down : forall (h0 h1 dm : f32) k, is_finite h0 = true -> is_finite h1 = true -> whole (- k) dm -> (2 <= k <= 2 ^ 24)%Z ->
  B2R h0 <= B2R h1 -> Rabs (B2R h0) <= bpow radix2 100 -> Rabs (B2R h1) <= bpow radix2 100 ->
  let h := f_sub h1 (f_div (f_sub h0 h1) dm) in is_finite h = true /\ B2R h0 <= B2R h <= B2R h1.
Proof.
  intros h0 h1 dm k F0 F1 [Fd Ed] K L A0 A1. cbv zeta. rewrite opp_IZR in Ed.
  assert (T : bpow radix2 102 = 4 * bpow radix2 100) by (change 102%Z with (2 + 100)%Z; rewrite bpow_plus; reflexivity).
  pose proof (bpow_gt_0 radix2 100) as P.
  apply Rabs_le_inv in A0, A1.
  assert (G : 0 <= B2R h1 - B2R h0 <= bpow radix2 102) by lra.
  destruct (sub_fin h0 h1 F0 F1) as [FS ES]; [apply big_fits; apply Rabs_le; lra|].
  replace (B2R h0 - B2R h1) with (- (B2R h1 - B2R h0)) in ES by ring. rewrite rnd_opp in ES.
  assert (K2 : 2 <= IZR k) by (apply IZR_le; lia).
  pose proof (rnd_part h0 h1 (IZR k) G K2) as [Q0 Q1].
  assert (R0 : 0 <= rnd (B2R h1 - B2R h0)) by (rewrite <- rnd_0; apply rnd_le, G).
  assert (R1 : rnd (B2R h1 - B2R h0) <= bpow radix2 102).
  { replace (bpow radix2 102) with (rnd (bpow radix2 102)); [apply rnd_le, G|].
    replace (bpow radix2 102) with (IZR 1 * bpow radix2 102) by ring. apply rnd_dyadic; lia. }
  assert (QE : B2R (f_sub h0 h1) / B2R dm = rnd (B2R h1 - B2R h0) / IZR k) by (rewrite ES, Ed; field; lra).
  destruct (div_fin (f_sub h0 h1) dm FS) as [FQ EQ].
  { rewrite Ed. lra. }
  { rewrite QE. apply big_fits. assert (I0 : 0 < / IZR k) by (apply Rinv_0_lt_compat; lra).
    assert (I1 : / IZR k <= / 2) by (apply Rinv_le; lra).
    rewrite Rabs_pos_eq by (apply Rmult_le_pos; lra).
    apply Rle_trans with (rnd (B2R h1 - B2R h0) * / 2); [apply Rmult_le_compat_l; lra|lra]. }
  rewrite QE in EQ. rewrite <- EQ in Q0, Q1. set (q := f_div (f_sub h0 h1) dm) in *.
  destruct (sub_fin h1 q F1 FQ) as [F E]; [apply big_fits; apply Rabs_le; lra|].
  split; [exact F|]. rewrite E. apply rnd_between; [apply rnd_B2R|apply rnd_B2R|lra].
Qed.
