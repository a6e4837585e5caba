(** * The single precision curve fitter stays finite *)

From Coq Require Import ZArith Bool List Reals Lia Lra Psatz.
From Flocq Require Import Core BinarySingleNaN.
From Verif Require Import Base F32 F32Facts NormaliseProofs F32Signed StunModel
  TemperatureModel SearchSpec OptimizerSpec OptimizerModel CurveSpec.
Import ListNotations.

Local Open Scope R_scope.

Notation pow2 := (bpow radix2).

(** ** Rounding *)

Lemma rnd_pow2 : forall e, (-149 <= e)%Z -> rnd (pow2 e) = pow2 e.
Proof.
  intros e H. apply round_generic; [apply valid_rnd_N|]. apply generic_format_bpow.
  unfold SpecFloat.fexp, SpecFloat.emin. lia.
Qed.

Lemma rnd_float : forall x : f32, rnd (B2R x) = B2R x.
Proof. intro x. apply round_generic; [apply valid_rnd_N|]. apply generic_format_B2R. Qed.

Lemma rnd_opp : forall r, rnd (- r) = - rnd r.
Proof. intro r. apply round_NE_opp. Qed.

Lemma rnd_abs_le : forall r b, rnd b = b -> Rabs r <= b -> Rabs (rnd r) <= b.
Proof.
  intros r b B H. apply Rabs_le. apply Rabs_le_inv in H. apply rnd_between; [rewrite rnd_opp, B; reflexivity|exact B|].
  exact H.
Qed.

(** Scaling by a power of two commutes with rounding away from the
    subnormal numbers. *)
Lemma rnd_scale : forall r e, pow2 (-126) <= Rabs r -> (0 <= e)%Z -> rnd (r * pow2 e) = rnd r * pow2 e.
Proof.
  intros r e H He.
  assert (FL : forall x, pow2 (-126) <= Rabs x ->
    rnd x = round radix2 (FLX_exp 24) (round_mode mode_NE) x).
  { intros x Hx. apply (round_FLT_FLX radix2 (-149) 24). exact Hx. }
  assert (P : 0 < pow2 e) by apply bpow_gt_0.
  assert (H2 : pow2 (-126) <= Rabs (r * pow2 e)).
  { rewrite Rabs_mult, (Rabs_pos_eq (pow2 e)) by lra.
    apply Rle_trans with (Rabs r * 1); [lra|]. apply Rmult_le_compat_l; [apply Rabs_pos|].
    change 1 with (pow2 0). apply bpow_le. exact He. }
  rewrite (FL r H), (FL _ H2).
  assert (NZ : r <> 0). { intro E. rewrite E, Rabs_R0 in H. pose proof (bpow_gt_0 radix2 (-126)). lra. }
  unfold round, F2R, scaled_mantissa, cexp. cbn [Fnum Fexp]. rewrite mag_mult_bpow by exact NZ.
  unfold FLX_exp. replace (- (mag radix2 r + e - 24))%Z with (- (mag radix2 r - 24) + - e)%Z by lia.
  rewrite bpow_plus.
  replace (r * pow2 e * (pow2 (- (mag radix2 r - 24)) * pow2 (- e)))
    with (r * pow2 (- (mag radix2 r - 24)) * (pow2 e * pow2 (- e))) by ring.
  rewrite <- (bpow_plus radix2 e). replace (e + - e)%Z with 0%Z by lia. change (pow2 0) with 1. rewrite Rmult_1_r.
  replace (mag radix2 r + e - 24)%Z with (mag radix2 r - 24 + e)%Z by lia. rewrite bpow_plus. ring.
Qed.

(** Rounding loses less than a factor of two. *)
Lemma rnd_half : forall r, pow2 (-126) <= Rabs r -> Rabs r / 2 <= Rabs (rnd r) <= 2 * Rabs r.
Proof.
  intros r H.
  assert (G : forall x, pow2 (-126) <= x -> x / 2 <= rnd x <= 2 * x).
  { intros x Hx. assert (X0 : 0 < x) by (pose proof (bpow_gt_0 radix2 (-126)); lra).
    destruct (mag radix2 x) as [e He]. specialize (He ltac:(lra)). rewrite Rabs_pos_eq in He by lra.
    assert (E1 : (-125 <= e)%Z).
    { apply Z.le_trans with (-126 + 1)%Z; [lia|]. apply (Zlt_le_succ (-126)). apply (lt_bpow radix2).
      apply Rle_lt_trans with x; [exact Hx|apply He]. }
    assert (D : pow2 e = 2 * pow2 (e - 1)).
    { replace e with (1 + (e - 1))%Z at 1 by lia. rewrite bpow_plus. reflexivity. }
    destruct (rnd_between (pow2 (e - 1)) (pow2 e) x) as [A B]; [apply rnd_pow2; lia|apply rnd_pow2; lia|lra|].
    lra. }
  destruct (Rle_or_lt 0 r) as [P|N].
  - rewrite (Rabs_pos_eq r) in * by exact P. destruct (G r H) as [A B].
    pose proof (bpow_gt_0 radix2 (-126)). rewrite Rabs_pos_eq by lra. lra.
  - rewrite (Rabs_left r) in * by exact N. destruct (G (- r) H) as [A B]. rewrite rnd_opp in A, B.
    pose proof (bpow_gt_0 radix2 (-126)). rewrite <- Rabs_Ropp, Rabs_pos_eq by lra. lra.
Qed.

(** A float as an integer times its last place. *)
Lemma last_place : forall x : f32, pow2 (-126) <= B2R x ->
  exists m c, B2R x = IZR m * pow2 c /\ pow2 (c + 23) <= B2R x < pow2 (c + 24).
Proof.
  intros x H. assert (X0 : 0 < B2R x) by (pose proof (bpow_gt_0 radix2 (-126)); lra).
  pose proof (generic_format_B2R 24 128 x) as G. unfold generic_format, F2R in G. cbn [Fnum Fexp] in G.
  exists (Ztrunc (scaled_mantissa radix2 fexp32 (B2R x))), (cexp radix2 fexp32 (B2R x)).
  split; [exact G|]. unfold cexp. destruct (mag radix2 (B2R x)) as [e He]. cbn [mag_val].
  specialize (He ltac:(lra)). rewrite Rabs_pos_eq in He by lra.
  assert (E1 : (-125 <= e)%Z).
  { apply Z.le_trans with (-126 + 1)%Z; [lia|]. apply (Zlt_le_succ (-126)). apply (lt_bpow radix2).
    apply Rle_lt_trans with (B2R x); [exact H|apply He]. }
  replace (fexp32 e) with (e - 24)%Z by (unfold SpecFloat.fexp, SpecFloat.emin; lia).
  replace (e - 24 + 23)%Z with (e - 1)%Z by lia. replace (e - 24 + 24)%Z with e by lia. exact He.
Qed.

(** The difference of a product and a number is zero or not much smaller
    than either. *)
Lemma cancellation : forall x y z : f32, pow2 (-60) <= B2R x -> pow2 (-60) <= B2R y -> pow2 (-124) <= B2R z ->
  B2R x * B2R y - B2R z <> 0 ->
  Rmax (B2R x * B2R y) (B2R z) * pow2 (-49) <= Rabs (B2R x * B2R y - B2R z).
Proof.
  intros x y z Hx Hy Hz NZ. set (s := B2R x * B2R y) in *. set (q := B2R z) in *.
  assert (P60 : pow2 (-126) <= pow2 (-60)) by (apply bpow_le; lia).
  assert (P124 : pow2 (-126) <= pow2 (-124)) by (apply bpow_le; lia).
  pose proof (bpow_gt_0 radix2 (-60)). pose proof (bpow_gt_0 radix2 (-124)).
  assert (S0 : 0 < s) by (apply Rmult_lt_0_compat; lra).
  assert (H49 : pow2 (-49) <= / 4). { change (/ 4) with (pow2 (-2)). apply bpow_le. lia. }
  pose proof (bpow_gt_0 radix2 (-49)) as P49.
  destruct (Rle_or_lt q (s / 2)) as [L|L].
  - rewrite Rmax_left by lra. rewrite Rabs_pos_eq by lra. nra.
  - destruct (Rle_or_lt (2 * s) q) as [L2|L2].
    + rewrite Rmax_right by lra. rewrite Rabs_left1 by lra. nra.
    + destruct (last_place x) as (mx & cx & Ex & Bx); [lra|].
      destruct (last_place y) as (my & cy & Ey & By); [lra|].
      destruct (last_place z) as (mz & cz & Ez & Bz); [fold q; lra|]. fold q in Ez, Bz.
      assert (ES : s = IZR (mx * my) * pow2 (cx + cy)).
      { unfold s. rewrite Ex, Ey, mult_IZR, bpow_plus. ring. }
      assert (LS : pow2 (cx + cy + 46) <= s).
      { replace (cx + cy + 46)%Z with (cx + 23 + (cy + 23))%Z by lia. rewrite bpow_plus. unfold s.
        apply Rmult_le_compat; try apply bpow_ge_0; lra. }
      assert (US : s < pow2 (cx + cy + 48)).
      { replace (cx + cy + 48)%Z with (cx + 24 + (cy + 24))%Z by lia. rewrite bpow_plus. unfold s.
        apply Rmult_le_0_lt_compat; lra. }
      assert (C : (cx + cy <= cz)%Z).
      { assert (pow2 (cx + cy + 45) < pow2 (cz + 24)).
        { apply Rle_lt_trans with (s / 2); [|lra].
          replace (cx + cy + 46)%Z with (1 + (cx + cy + 45))%Z in LS by lia. rewrite bpow_plus in LS.
          change (pow2 1) with 2 in LS. lra. }
        apply lt_bpow in H1. lia. }
      assert (EQ : q = IZR (mz * 2 ^ (cz - (cx + cy))) * pow2 (cx + cy)).
      { rewrite Ez, mult_IZR. change 2%Z with (radix_val radix2). rewrite IZR_Zpower by lia.
        rewrite Rmult_assoc, <- bpow_plus. f_equal. f_equal. lia. }
      assert (D : s - q = IZR (mx * my - mz * 2 ^ (cz - (cx + cy))) * pow2 (cx + cy)).
      { rewrite minus_IZR, Rmult_minus_distr_r, <- ES, <- EQ. reflexivity. }
      rewrite D in NZ |- *. pose proof (bpow_gt_0 radix2 (cx + cy)) as PC.
      rewrite Rabs_mult, (Rabs_pos_eq (pow2 (cx + cy))) by lra.
      assert (N1 : 1 <= Rabs (IZR (mx * my - mz * 2 ^ (cz - (cx + cy))))).
      { rewrite <- abs_IZR. apply IZR_le. destruct (Z.eq_dec (mx * my - mz * 2 ^ (cz - (cx + cy))) 0) as [Z0|Z0]; [|lia].
        rewrite Z0, Rmult_0_l in NZ. congruence. }
      apply Rle_trans with (pow2 (cx + cy)); [|nra].
      apply Rle_trans with (pow2 (cx + cy + 49) * pow2 (-49)).
      * apply Rmult_le_compat_r; [lra|]. replace (cx + cy + 49)%Z with (1 + (cx + cy + 48))%Z by lia.
        rewrite bpow_plus. change (pow2 1) with 2. apply Rmax_lub; lra.
      * rewrite <- bpow_plus. replace (cx + cy + 49 + -49)%Z with (cx + cy)%Z by lia. lra.
Qed.

Lemma fma_fin : forall x y z : f32, is_finite x = true -> is_finite y = true -> is_finite z = true ->
  Rabs (B2R x * B2R y + B2R z) <= pow2 127 ->
  is_finite (f_fma x y z) = true /\ B2R (f_fma x y z) = rnd (B2R x * B2R y + B2R z).
Proof.
  intros x y z Fx Fy Fz H. pose proof (Bfma_correct 24 128 _ _ mode_NE x y z Fx Fy Fz) as C. cbv zeta in C.
  rewrite no_overflow in C by exact H. destruct C as (A & B & _). auto.
Qed.

Lemma fma_num : forall x y z : f32, is_finite x = true -> is_finite y = true -> is_finite z = true ->
  num (f_fma x y z).
Proof.
  intros x y z Fx Fy Fz. pose proof (Bfma_correct 24 128 _ _ mode_NE x y z Fx Fy Fz) as C. cbv zeta in C.
  destruct (Rlt_bool _ _).
  - apply finite_num. apply C.
  - unfold f_fma, num. destruct (Bfma mode_NE x y z); try reflexivity. cbn in C.
    destruct (Rlt_bool _ _); discriminate C.
Qed.

(** ** One point after the other *)

Lemma opp_fin : forall x : f32, is_finite (f_opp x) = is_finite x /\ B2R (f_opp x) = - B2R x.
Proof. intro x. unfold f_opp. split; [apply is_finite_Bopp|apply B2R_Bopp]. Qed.

Lemma f_eq_zero : forall d : f32, is_finite d = true -> (f_eq d f_zero = true <-> B2R d = 0).
Proof.
  intros d F. unfold f_eq. rewrite Beqb_correct by (auto; reflexivity). change (B2R f_zero) with 0.
  split; intro H.
  - destruct (Req_bool_spec (B2R d) 0); [assumption|discriminate].
  - apply Req_bool_true. exact H.
Qed.

(** Adding small numbers stops having an effect. *)
Lemma sum_saturates : forall e s t, (-148 <= e <= 100)%Z -> 0 <= s <= pow2 (25 + e) -> 0 <= t <= pow2 e ->
  0 <= s + t <= pow2 (26 + e) /\ 0 <= rnd (s + t) <= pow2 (25 + e).
Proof.
  intros e s t He Hs Ht.
  assert (E26 : pow2 (26 + e) = 2 * pow2 (25 + e)).
  { change 2 with (pow2 1). rewrite <- bpow_plus. f_equal. lia. }
  assert (LE : pow2 e <= pow2 (25 + e)) by (apply bpow_le; lia).
  split; [lra|]. split; [rewrite <- rnd_0; apply rnd_le; lra|].
  unfold rnd. apply round_N_le_midp; [apply FLT_exp_valid; reflexivity| |].
  - apply generic_format_bpow. unfold SpecFloat.fexp, SpecFloat.emin. lia.
  - rewrite succ_eq_pos by apply bpow_ge_0. rewrite ulp_bpow.
    assert (FE : SpecFloat.fexp 24 128 (25 + e + 1) = (e + 2)%Z) by (unfold SpecFloat.fexp, SpecFloat.emin; lia).
    rewrite FE. assert (E2 : pow2 (e + 2) = 4 * pow2 e) by (rewrite bpow_plus; change (pow2 2) with 4; ring).
    rewrite E2. pose proof (bpow_gt_0 radix2 e). lra.
Qed.

Section Curve.
  Context (o : oracles) (HE : exp_nonneg o) (HL : log_sane o).
  Context (k q : Z) (Hk : (0 <= k)%Z) (Hq : (1 <= q)%Z) (Hkq : (k + q <= 34)%Z).

  Record CI (c : curve) : Prop := {
    ci_fin : is_finite (cv_xxy c) = true /\ is_finite (cv_ylogy c) = true /\ is_finite (cv_xy c) = true /\
             is_finite (cv_xylogy c) = true /\ is_finite (cv_sumy c) = true;
    ci_ab : is_finite (cv_a c) = true /\ is_finite (cv_b c) = true /\ is_finite (cv_divisor c) = true;
    ci_order : 0 <= B2R (cv_sumy c) <= B2R (cv_xy c) /\ B2R (cv_xy c) <= B2R (cv_xxy c);
    ci_sumy : B2R (cv_sumy c) <= pow2 (25 + q);
    ci_xy : B2R (cv_xy c) <= pow2 (25 + (k + q));
    ci_xxy : B2R (cv_xxy c) <= pow2 (25 + (2 * k + q));
    ci_ylogy : Rabs (B2R (cv_ylogy c)) <= B2R (cv_sumy c) * pow2 7;
    ci_xylogy : Rabs (B2R (cv_xylogy c)) <= B2R (cv_xy c) * pow2 7
  }.

  Lemma ci_new : CI curve_new.
  Proof.
    assert (Z0 : B2R f_zero = 0) by reflexivity.
    constructor; cbn [cv_xxy cv_ylogy cv_xy cv_xylogy cv_sumy cv_a cv_b cv_divisor curve_new]; rewrite ?Z0;
      rewrite ?Rabs_R0; try apply bpow_ge_0; try lra.
    - repeat split.
    - repeat split.
  Qed.

  (** A number within [2^7] times another stays so under rounding. *)
  Lemma rnd_ratio : forall u v, pow2 (-126) <= v -> Rabs u <= v * pow2 7 -> Rabs (rnd u) <= rnd v * pow2 7.
  Proof.
    intros u v V U. assert (P : 0 < v) by (pose proof (bpow_gt_0 radix2 (-126)); lra).
    assert (E : rnd (v * pow2 7) = rnd v * pow2 7) by (apply rnd_scale; [rewrite Rabs_pos_eq; lra|lia]).
    rewrite <- E. apply Rabs_le. apply Rabs_le_inv in U. destruct U as [U1 U2].
    split; [|apply rnd_le, U2]. rewrite <- rnd_opp. apply rnd_le, U1.
  Qed.

  Lemma add_point : forall c x y, CI c ->
    is_finite x = true -> 1 <= B2R x <= pow2 k -> is_finite y = true -> pow2 (-31) <= B2R y <= pow2 q ->
    exists r c', curve_add o c x y = Ok (r, c') /\ CI c' /\ f_le f_zero r = true.
  Proof.
    intros c x y I Fx [X1 X2] Fy Hy.
    destruct I as [(F1 & F2 & F3 & F4 & F5) (Fa & Fb & Fd) [O1 O2] B1 B2 B3 L1 L2].
    pose proof (bpow_gt_0 radix2 (-31)) as P31.
    assert (SM : pow2 (-126) <= pow2 (-31)) by (apply bpow_le; lia).
    assert (BIG : forall e, (e <= 127)%Z -> forall r, Rabs r <= pow2 e -> Rabs r <= pow2 127).
    { intros e He r Hr. apply Rle_trans with (pow2 e); [exact Hr|apply bpow_le, He]. }
    assert (Y0 : 0 < B2R y) by lra.
    (* the terms *)
    assert (M1 : B2R y <= B2R x * B2R y <= pow2 (k + q)).
    { rewrite bpow_plus. split; [nra|]. apply Rmult_le_compat; lra. }
    destruct (mul_fin x y Fx Fy) as [Fxy1 Exy1].
    { apply (BIG (k + q)%Z); [lia|]. rewrite Rabs_pos_eq; lra. }
    set (xy1 := f_mul x y) in *.
    assert (T1 : B2R y <= B2R xy1 <= pow2 (k + q)).
    { rewrite Exy1. apply rnd_between; [apply rnd_float|apply rnd_pow2; lia|exact M1]. }
    assert (M2 : B2R xy1 <= B2R x * B2R xy1 <= pow2 (2 * k + q)).
    { replace (2 * k + q)%Z with (k + (k + q))%Z by lia. rewrite (bpow_plus radix2 k).
      split; [nra|]. apply Rmult_le_compat; lra. }
    destruct (mul_fin x xy1 Fx Fxy1) as [Fxxy1 Exxy1].
    { apply (BIG (2 * k + q)%Z); [lia|]. rewrite Rabs_pos_eq; lra. }
    set (xxy1 := f_mul x xy1) in *.
    assert (T2 : B2R xy1 <= B2R xxy1 <= pow2 (2 * k + q)).
    { rewrite Exxy1. apply rnd_between; [apply rnd_float|apply rnd_pow2; lia|exact M2]. }
    (* the logarithm *)
    assert (LG : is_finite (or_log o y) = true /\ Rabs (B2R (or_log o y)) <= pow2 7).
    { destruct (HL y) as [A B]; [apply fin_lt; [reflexivity|exact Fy|exact Y0]|exact Fy|].
      destruct (of_Z_exact (-128)) as [FA EA]; [lia|]. destruct (of_Z_exact 128) as [FB EB]; [lia|].
      destruct (between_fin _ _ (or_log o y) FA FB A B) as [F [C D]]. split; [exact F|].
      rewrite EA in C. rewrite EB in D. change (pow2 7) with 128. apply Rabs_le. lra. }
    destruct LG as [Flg Blg].
    assert (M3 : Rabs (B2R y * B2R (or_log o y)) <= B2R y * pow2 7).
    { rewrite Rabs_mult, (Rabs_pos_eq (B2R y)) by lra. apply Rmult_le_compat_l; lra. }
    assert (UY : B2R y * pow2 7 <= pow2 (q + 7)).
    { rewrite bpow_plus. apply Rmult_le_compat_r; [apply bpow_ge_0|lra]. }
    destruct (mul_fin y (or_log o y) Fy Flg) as [Fyl1 Eyl1].
    { apply (BIG (q + 7)%Z); [lia|]. lra. }
    set (ylogy1 := f_mul y (or_log o y)) in *.
    assert (T3 : Rabs (B2R ylogy1) <= B2R y * pow2 7).
    { rewrite Eyl1. rewrite <- (rnd_float y) at 2. apply rnd_ratio; [lra|exact M3]. }
    assert (M4 : Rabs (B2R x * B2R ylogy1) <= B2R x * B2R y * pow2 7).
    { rewrite Rabs_mult, (Rabs_pos_eq (B2R x)) by lra. rewrite Rmult_assoc. apply Rmult_le_compat_l; lra. }
    assert (UXY : B2R x * B2R y * pow2 7 <= pow2 (k + q + 7)).
    { rewrite (bpow_plus radix2 (k + q)). apply Rmult_le_compat_r; [apply bpow_ge_0|lra]. }
    destruct (mul_fin x ylogy1 Fx Fyl1) as [Fxyl1 Exyl1].
    { apply (BIG (k + q + 7)%Z); [lia|]. lra. }
    set (xylogy1 := f_mul x ylogy1) in *.
    assert (T4 : Rabs (B2R xylogy1) <= B2R xy1 * pow2 7).
    { rewrite Exyl1, Exy1. apply rnd_ratio; [lra|exact M4]. }
    (* the sums *)
    destruct (sum_saturates q (B2R (cv_sumy c)) (B2R y)) as [S1 S1']; [lia|lra|lra|].
    destruct (sum_saturates (k + q) (B2R (cv_xy c)) (B2R xy1)) as [S2 S2']; [lia|lra|lra|].
    destruct (sum_saturates (2 * k + q) (B2R (cv_xxy c)) (B2R xxy1)) as [S3 S3']; [lia|lra|lra|].
    destruct (add_fin (cv_sumy c) y F5 Fy) as [Fs Es].
    { apply (BIG (26 + q)%Z); [lia|]. rewrite Rabs_pos_eq; lra. }
    destruct (add_fin (cv_xy c) xy1 F3 Fxy1) as [Fxy Exy].
    { apply (BIG (26 + (k + q))%Z); [lia|]. rewrite Rabs_pos_eq; lra. }
    destruct (add_fin (cv_xxy c) xxy1 F1 Fxxy1) as [Fxxy Exxy].
    { apply (BIG (26 + (2 * k + q))%Z); [lia|]. rewrite Rabs_pos_eq; lra. }
    assert (A1 : Rabs (B2R (cv_ylogy c) + B2R ylogy1) <= (B2R (cv_sumy c) + B2R y) * pow2 7).
    { apply Rle_trans with (1 := Rabs_triang _ _). lra. }
    assert (A2 : Rabs (B2R (cv_xylogy c) + B2R xylogy1) <= (B2R (cv_xy c) + B2R xy1) * pow2 7).
    { apply Rle_trans with (1 := Rabs_triang _ _). lra. }
    destruct (add_fin (cv_ylogy c) ylogy1 F2 Fyl1) as [Fyl Eyl].
    { apply (BIG (26 + q + 7)%Z); [lia|]. rewrite (bpow_plus radix2 (26 + q)).
      apply Rle_trans with (1 := A1). apply Rmult_le_compat_r; [apply bpow_ge_0|lra]. }
    destruct (add_fin (cv_xylogy c) xylogy1 F4 Fxyl1) as [Fxyl Exyl].
    { apply (BIG (26 + (k + q) + 7)%Z); [lia|]. rewrite (bpow_plus radix2 (26 + (k + q))).
      apply Rle_trans with (1 := A2). apply Rmult_le_compat_r; [apply bpow_ge_0|lra]. }
    set (sumy := f_add (cv_sumy c) y) in *. set (xy := f_add (cv_xy c) xy1) in *.
    set (xxy := f_add (cv_xxy c) xxy1) in *. set (ylogy := f_add (cv_ylogy c) ylogy1) in *.
    set (xylogy := f_add (cv_xylogy c) xylogy1) in *.
    assert (P1 : pow2 (-31) <= B2R sumy).
    { rewrite Es, <- (rnd_pow2 (-31)) by lia. apply rnd_le. lra. }
    assert (Q1 : B2R sumy <= B2R xy) by (rewrite Es, Exy; apply rnd_le; lra).
    assert (Q2 : B2R xy <= B2R xxy) by (rewrite Exy, Exxy; apply rnd_le; lra).
    assert (L1' : Rabs (B2R ylogy) <= B2R sumy * pow2 7) by (rewrite Eyl, Es; apply rnd_ratio; [lra|exact A1]).
    assert (L2' : Rabs (B2R xylogy) <= B2R xy * pow2 7) by (rewrite Exyl, Exy; apply rnd_ratio; [lra|exact A2]).
    rewrite <- Es in S1'. rewrite <- Exy in S2'. rewrite <- Exxy in S3'.
    (* the divisor *)
    set (s := B2R sumy * B2R xxy).
    assert (P62 : pow2 (-62) = pow2 (-31) * pow2 (-31)) by (rewrite <- bpow_plus; reflexivity).
    assert (Hs : pow2 (-62) <= s <= pow2 118).
    { unfold s. split; [rewrite P62; apply Rmult_le_compat; lra|].
      apply Rle_trans with (pow2 (25 + q) * pow2 (25 + (2 * k + q))); [apply Rmult_le_compat; lra|].
      rewrite <- bpow_plus. apply bpow_le. lia. }
    assert (Hxy2 : pow2 (-62) <= B2R xy * B2R xy <= pow2 118).
    { split; [rewrite P62; apply Rmult_le_compat; lra|].
      apply Rle_trans with (pow2 (25 + (k + q)) * pow2 (25 + (k + q))); [apply Rmult_le_compat; lra|].
      rewrite <- bpow_plus. apply bpow_le. lia. }
    destruct (mul_fin xy xy Fxy Fxy) as [Fz Ez].
    { apply (BIG 118%Z); [lia|]. rewrite Rabs_pos_eq; [lra|]. pose proof (bpow_gt_0 radix2 (-62)). lra. }
    destruct (opp_fin xy) as [Fo Eo]. rewrite Fxy in Fo.
    destruct (mul_fin (f_opp xy) xy Fo Fxy) as [Fm Em].
    { apply (BIG 118%Z); [lia|]. rewrite Eo. rewrite <- Ropp_mult_distr_l, Rabs_Ropp.
      rewrite Rabs_pos_eq; [lra|]. pose proof (bpow_gt_0 radix2 (-62)). lra. }
    rewrite Eo, <- Ropp_mult_distr_l, rnd_opp, <- Ez in Em.
    set (z := f_mul xy xy) in *. set (t := Rmax s (B2R z)).
    assert (Hz : pow2 (-62) <= B2R z <= pow2 118).
    { rewrite Ez. apply rnd_between; [apply rnd_pow2; lia|apply rnd_pow2; lia|exact Hxy2]. }
    pose proof (bpow_gt_0 radix2 (-62)) as PP62.
    assert (Ht : pow2 (-62) <= t <= pow2 118).
    { unfold t. split; [apply Rle_trans with s; [lra|apply Rmax_l]|apply Rmax_lub; lra]. }
    assert (st : s <= t) by apply Rmax_l. assert (zt : B2R z <= t) by apply Rmax_r.
    destruct (fma_fin sumy xxy (f_mul (f_opp xy) xy) Fs Fxxy Fm) as [FD ED].
    { fold s. rewrite Em. apply (BIG 118%Z); [lia|]. apply Rabs_le. lra. }
    fold s in ED. rewrite Em in ED.
    set (d := f_fma sumy xxy (f_mul (f_opp xy) xy)) in *.
    (* the result *)
    assert (NEW : forall a b, is_finite a = true -> is_finite b = true ->
      CI {| cv_xxy := xxy; cv_ylogy := ylogy; cv_xy := xy; cv_xylogy := xylogy; cv_sumy := sumy;
                    cv_a := a; cv_b := b; cv_divisor := d |}).
    { intros a b FA FB. constructor; cbn [cv_xxy cv_ylogy cv_xy cv_xylogy cv_sumy cv_a cv_b cv_divisor]; auto.
      - split; lra.
      - lra.
      - lra.
      - lra. }
    unfold curve_add.
    assert (X0 : f_le f_zero x = true) by (apply fin_le; [reflexivity|exact Fx|change (B2R f_zero) with 0; lra]).
    assert (Yn : f_le f_zero y = true) by (apply fin_le; [reflexivity|exact Fy|change (B2R f_zero) with 0; lra]).
    rewrite X0, Yn. cbn [expects bind]. cbv zeta. fold xy1. fold xxy1. fold ylogy1. fold xylogy1.
    fold sumy. fold xy. fold xxy. fold ylogy. fold xylogy. fold d.
    destruct (f_eq d f_zero) eqn:DZ.
    - eexists _, _. split; [reflexivity|]. split; [apply NEW; assumption|reflexivity].
    - assert (DN : B2R d <> 0). { intro E. apply f_eq_zero in E; [|exact FD]. congruence. }
      assert (SQ : s - B2R z <> 0).
      { intro E. apply DN. rewrite ED. replace (s + - B2R z) with (s - B2R z) by ring. rewrite E. apply rnd_0. }
      assert (C : t * pow2 (-49) <= Rabs (s - B2R z)).
      { unfold t, s. apply cancellation; [| | |exact SQ].
        - apply Rle_trans with (pow2 (-31)); [apply bpow_le; lia|exact P1].
        - apply Rle_trans with (pow2 (-31)); [apply bpow_le; lia|lra].
        - apply Rle_trans with (pow2 (-62)); [apply bpow_le; lia|lra]. }
      assert (C2 : t * pow2 (-50) <= Rabs (B2R d)).
      { rewrite ED. replace (s + - B2R z) with (s - B2R z) by ring.
        assert (D2 : pow2 (-49) = 2 * pow2 (-50)) by (change 2 with (pow2 1); rewrite <- bpow_plus; reflexivity).
        assert (D3 : pow2 (-126) <= t * pow2 (-49)).
        { apply Rle_trans with (pow2 (-62) * pow2 (-49)).
          - rewrite <- bpow_plus. apply bpow_le. lia.
          - apply Rmult_le_compat_r; [apply bpow_ge_0|lra]. }
        destruct (rnd_half (s - B2R z)) as [A _]; [lra|]. rewrite D2 in C. lra. }
      assert (P50 : 0 < t * pow2 (-50)) by (apply Rmult_lt_0_compat; [lra|apply bpow_gt_0]).
      (* a quotient *)
      assert (QUO : forall u v : f32, is_finite u = true -> is_finite v = true ->
        Rabs (B2R u) <= t * pow2 8 -> Rabs (B2R v) <= t * pow2 8 ->
        is_finite (f_div (f_sub u v) d) = true).
      { intros u v Fu Fv Bu Bv.
        assert (B : Rabs (B2R u - B2R v) <= t * pow2 9).
        { unfold Rminus. apply Rle_trans with (1 := Rabs_triang _ _). rewrite Rabs_Ropp.
          assert (D9 : pow2 9 = 2 * pow2 8) by (change 2 with (pow2 1); rewrite <- bpow_plus; reflexivity).
          rewrite D9. lra. }
        assert (T127 : t * pow2 9 <= pow2 127).
        { change 127%Z with (118 + 9)%Z. rewrite bpow_plus. apply Rmult_le_compat_r; [apply bpow_ge_0|lra]. }
        destruct (sub_fin u v Fu Fv) as [Fw Ew]; [lra|].
        assert (Bw : Rabs (B2R (f_sub u v)) <= t * pow2 10).
        { rewrite Ew. apply Rle_trans with (rnd (t * pow2 9)).
          - apply Rabs_le. apply Rabs_le_inv in B. split; [rewrite <- rnd_opp|]; apply rnd_le; lra.
          - assert (G : pow2 (-126) <= Rabs (t * pow2 9)).
            { rewrite Rabs_pos_eq by (apply Rmult_le_pos; [lra|apply bpow_ge_0]).
              apply Rle_trans with (pow2 (-62) * 1); [rewrite Rmult_1_r; apply bpow_le; lia|].
              apply Rmult_le_compat; try lra. change 1 with (pow2 0). apply bpow_le. lia. }
            destruct (rnd_half _ G) as [_ U]. rewrite (Rabs_pos_eq (t * pow2 9)) in U
              by (apply Rmult_le_pos; [lra|apply bpow_ge_0]).
            apply Rle_trans with (1 := Rle_abs _). apply Rle_trans with (1 := U).
            change 10%Z with (1 + 9)%Z. rewrite (bpow_plus radix2 1 9). change (pow2 1) with 2. lra. }
        apply div_fin; [exact Fw|exact DN|]. unfold Rdiv. rewrite Rabs_mult, Rabs_inv.
        apply Rle_trans with (t * pow2 10 * / (t * pow2 (-50))).
        - apply Rmult_le_compat; [apply Rabs_pos|left; apply Rinv_0_lt_compat; lra|exact Bw|].
          apply Rinv_le; assumption.
        - replace (t * pow2 10 * / (t * pow2 (-50))) with (pow2 10 * / pow2 (-50)).
          + rewrite <- bpow_opp, <- bpow_plus. apply bpow_le. lia.
          + field. split; [apply Rgt_not_eq, bpow_gt_0|lra]. }
      (* the products *)
      assert (PRO : forall (w : R) (u v : f32), is_finite u = true -> is_finite v = true ->
        pow2 (-62) <= w <= pow2 118 -> rnd w <= 2 * t -> Rabs (B2R u * B2R v) <= w * pow2 7 ->
        is_finite (f_mul u v) = true /\ Rabs (B2R (f_mul u v)) <= t * pow2 8).
      { intros w u v Fu Fv W WT B.
        assert (T125 : w * pow2 7 <= pow2 125).
        { change 125%Z with (118 + 7)%Z. rewrite bpow_plus. apply Rmult_le_compat_r; [apply bpow_ge_0|lra]. }
        destruct (mul_fin u v Fu Fv) as [Fw Ew]; [apply (BIG 125%Z); [lia|lra]|]. split; [exact Fw|].
        rewrite Ew. apply Rle_trans with (rnd w * pow2 7); [apply rnd_ratio; [|exact B]|].
        - apply Rle_trans with (pow2 (-62)); [apply bpow_le; lia|lra].
        - change 8%Z with (1 + 7)%Z. rewrite (bpow_plus radix2 1 7). change (pow2 1) with 2.
          rewrite <- Rmult_assoc. apply Rmult_le_compat_r; [apply bpow_ge_0|lra]. }
      assert (RS : rnd s <= 2 * t).
      { destruct (rnd_half s) as [_ U].
        - rewrite Rabs_pos_eq by lra. apply Rle_trans with (pow2 (-62)); [apply bpow_le; lia|lra].
        - rewrite (Rabs_pos_eq s) in U by lra. apply Rle_trans with (1 := Rle_abs _). lra. }
      assert (RZ : rnd (B2R xy * B2R xy) <= 2 * t) by (rewrite <- Ez; lra).
      assert (LE2 : forall u v w l, 0 <= u -> 0 <= w -> Rabs l <= v * pow2 7 -> u * v <= w ->
                Rabs (u * l) <= w * pow2 7).
      { intros u v w l U W L UV. rewrite Rabs_mult, (Rabs_pos_eq u) by exact U.
        apply Rle_trans with (u * (v * pow2 7)); [apply Rmult_le_compat_l; assumption|].
        rewrite <- Rmult_assoc. apply Rmult_le_compat_r; [apply bpow_ge_0|exact UV]. }
      destruct (PRO s xxy ylogy Fxxy Fyl Hs RS) as [G1 G1'].
      { apply (LE2 _ (B2R sumy)); [lra|lra|exact L1'|unfold s; lra]. }
      destruct (PRO (B2R xy * B2R xy) xy xylogy Fxy Fxyl Hxy2 RZ) as [G2 G2'].
      { apply (LE2 _ (B2R xy)); [lra|lra|exact L2'|lra]. }
      destruct (PRO s sumy xylogy Fs Fxyl Hs RS) as [G3 G3'].
      { apply (LE2 _ (B2R xy)); [lra|lra|exact L2'|]. unfold s. apply Rmult_le_compat_l; lra. }
      destruct (PRO s xy ylogy Fxy Fyl Hs RS) as [G4 G4'].
      { apply (LE2 _ (B2R sumy)); [lra|lra|exact L1'|]. unfold s. rewrite Rmult_comm.
        apply Rmult_le_compat_l; lra. }
      pose proof (QUO _ _ G1 G2 G1' G2') as FA. pose proof (QUO _ _ G3 G4 G3' G4') as FB.
      eexists _, _. split; [reflexivity|]. split; [apply NEW; assumption|].
      apply HE. apply fma_num; assumption.
  Qed.
End Curve.
