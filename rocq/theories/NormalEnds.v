(** * Normally distributed numbers are drawn in finite time *)

From Coq Require Import List ZArith Bool Arith Lia Reals Lra.
From Flocq Require Import Core BinarySingleNaN.
From Verif Require Import Base F32 F32Facts F32Signed NormaliseProofs SimulationModel RandomModel RandomSpec RandomProofs NormalModel
  NormalCount NormalFloats.
Import ListNotations.
Local Open Scope Z_scope.

(** ** Intervals of good numbers *)

Definition nx (i : Z) : Z := entry_at normal_x i.
Definition ex (i : Z) : Z := entry_at exponential_x i.

(** Accepted at once in the first round of both ziggurats. *)
Definition hi_any (i : Z) : Z :=
  Z.max 0 (Z.min (2 ^ 24 * nx (i / 2 + 1) / nx (i / 2) - 2) (2 ^ 24 * ex (i + 1) / ex i - 2)).
(** An exponentially distributed number less than 2. *)
Definition hi_x (i : Z) : Z := Z.max 0 (Z.min (hi_any i) (2 ^ 24 * 2 ^ 65 / ex i - 2)).
(** One greater than 11/64. *)
Definition lo_y (hi : Z -> Z) (i : Z) : Z := Z.max 0 (Z.min (hi i) (2 ^ 24 * (11 * 2 ^ 58) / ex i + 2)).
(** A normally distributed number greater than -1. *)
Definition hi_n (i : Z) : Z :=
  if i mod 2 =? 1 then hi_any i else Z.max 0 (Z.min (hi_any i) (2 ^ 24 * 2 ^ 64 / nx (i / 2) - 2)).
Definition lo_0 (i : Z) : Z := 0.

Definition window : list (Z -> bool) :=
  [outside lo_0 hi_any; outside lo_0 hi_any; outside lo_0 hi_x; outside (lo_y hi_x) hi_x;
   outside (lo_y hi_any) hi_any; outside lo_0 hi_n].

Lemma window_total : bad_total window < 2 ^ 32.
Proof.
  unfold window. cbn [bad_total].
  pose proof (outside_count lo_0 hi_any ltac:(vm_compute; reflexivity)) as A.
  pose proof (outside_count lo_0 hi_x ltac:(vm_compute; reflexivity)) as B.
  pose proof (outside_count (lo_y hi_x) hi_x ltac:(vm_compute; reflexivity)) as C.
  pose proof (outside_count (lo_y hi_any) hi_any ltac:(vm_compute; reflexivity)) as D.
  pose proof (outside_count lo_0 hi_n ltac:(vm_compute; reflexivity)) as E.
  assert (S : 2 * sum_over (misses lo_0 hi_any) (below (2 ^ 8)) + sum_over (misses lo_0 hi_x) (below (2 ^ 8)) +
              sum_over (misses (lo_y hi_x) hi_x) (below (2 ^ 8)) + sum_over (misses (lo_y hi_any) hi_any) (below (2 ^ 8)) +
              sum_over (misses lo_0 hi_n) (below (2 ^ 8)) < 2 ^ 32) by (vm_compute; reflexivity).
  lia.
Qed.

Definition b_y : f32 := f_div (f_of_Z 11) (f_of_Z 64).

(** What the largest (or least) fraction of each interval satisfies. *)
Definition check_any (i : Z) : bool :=
  (hi_any i <? 2 ^ 24) &&
  ((hi_any i =? 0) ||
   (f_lt (f_mul (frac (hi_any i - 1)) (float_at normal_x (i / 2))) (float_at normal_x (i / 2 + 1)) &&
    f_lt (f_mul (frac (hi_any i - 1)) (float_at exponential_x i)) (float_at exponential_x (i + 1)))).
Definition check_x (i : Z) : bool :=
  (hi_x i <=? hi_any i) &&
  ((hi_x i =? 0) || f_lt (f_mul (frac (hi_x i - 1)) (float_at exponential_x i)) (f_of_Z 2)).
Definition check_y (hi : Z -> Z) (i : Z) : bool :=
  (lo_y hi i =? hi i) || f_lt b_y (f_mul (frac (lo_y hi i)) (float_at exponential_x i)).
Definition check_n (i : Z) : bool :=
  (hi_n i <=? hi_any i) &&
  ((i mod 2 =? 1) || (hi_n i =? 0) || f_lt (f_mul (frac (hi_n i - 1)) (float_at normal_x (i / 2))) f_one).

Lemma checked : forallb (fun i => check_any i && check_x i && check_y hi_x i && check_y hi_any i && check_n i) (below (2 ^ 8)) = true.
Proof. vm_compute. reflexivity. Qed.

Lemma checked_at : forall u, check_any (u mod 2 ^ 8) = true /\ check_x (u mod 2 ^ 8) = true /\
  check_y hi_x (u mod 2 ^ 8) = true /\ check_y hi_any (u mod 2 ^ 8) = true /\ check_n (u mod 2 ^ 8) = true.
Proof.
  intro u. pose proof checked as H. rewrite forallb_forall in H.
  specialize (H (u mod 2 ^ 8) (below_in _ _ (Z.mod_pos_bound u (2 ^ 8) ltac:(lia)))).
  rewrite !andb_true_iff in H. tauto.
Qed.

Lemma inside : forall lo hi u, outside lo hi u = false -> lo (u mod 2 ^ 8) <= u / 2 ^ 8 < hi (u mod 2 ^ 8).
Proof.
  intros lo hi u H. unfold outside in H. apply negb_false_iff, andb_true_iff in H. destruct H as [A B].
  apply Z.leb_le in A. apply Z.ltb_lt in B. auto.
Qed.

Definition e_of (u : Z) : f32 := f_mul (fraction_of u) (float_at exponential_x (layer_of u)).
Definition n_of (u : Z) : f32 := f_mul (fraction_of u) (float_at normal_x (layer_of u / 2)).

Lemma any_good : forall u, 0 <= u < 2 ^ 32 -> u / 2 ^ 8 < hi_any (u mod 2 ^ 8) ->
  f_lt (e_of u) (float_at exponential_x (layer_of u + 1)) = true /\
  f_lt (n_of u) (float_at normal_x (layer_of u / 2 + 1)) = true /\
  f_lt (f_mul (f_of_Z u) unit_factor) f_one = true.
Proof.
  intros u U V. destruct (checked_at u) as (C & _). unfold check_any in C. apply andb_true_iff in C. destruct C as [C1 C2].
  apply Z.ltb_lt in C1. pose proof (upper_range u U) as R.
  destruct (Z.eqb_spec (hi_any (u mod 2 ^ 8)) 0) as [E|E]; [lia|]. rewrite orb_false_l in C2.
  apply andb_true_iff in C2. destruct C2 as [C2 C3].
  unfold e_of, n_of. rewrite fraction_frac. fold (layer_of u) in *.
  split; [|split].
  - apply scaled_lt with (w := hi_any (layer_of u) - 1); [lia|lia|apply exponential_x_small|apply exponential_x_small|exact C3].
  - apply scaled_lt with (w := hi_any (layer_of u) - 1); [lia|lia|apply normal_x_small|apply normal_x_small|exact C2].
  - clear C2 C3. destruct (unit_draw u U) as [F _]. destruct one_fin as [F1 E1]. apply fin_lt; [exact F|exact F1|].
    rewrite E1. destruct (of_Z_fin u) as [FU EU]; [lia|]. destruct unit_value as [G H].
    assert (UB : u <= 2 ^ 32 - 2 ^ 8).
    { pose proof (Z.div_mod u (2 ^ 8)). pose proof (Z.mod_pos_bound u (2 ^ 8)). lia. }
    assert (B : (0 <= B2R (f_of_Z u) <= IZR (2 ^ 32 - 2 ^ 8))%R).
    { rewrite EU. apply rnd_between; [apply rnd_0| |split; apply IZR_le; lia].
      replace (IZR (2 ^ 32 - 2 ^ 8)) with (IZR (2 ^ 24 - 1) * bpow radix2 8)%R; [apply rnd_dyadic; lia|].
      change (bpow radix2 8) with (IZR (2 ^ 8)). rewrite <- mult_IZR. reflexivity. }
    assert (P : (0 < / IZR (2 ^ 32))%R) by (apply Rinv_0_lt_compat, IZR_lt; lia).
    assert (M : (0 <= B2R (f_of_Z u) * B2R unit_factor <= IZR (2 ^ 24 - 1) * bpow radix2 (-24))%R).
    { rewrite H. split; [apply Rmult_le_pos; lra|].
      apply Rle_trans with (IZR (2 ^ 32 - 2 ^ 8) * / IZR (2 ^ 32))%R; [apply Rmult_le_compat_r; lra|].
      right. replace (2 ^ 32 - 2 ^ 8) with ((2 ^ 24 - 1) * 2 ^ 8) by reflexivity. rewrite mult_IZR, Rmult_assoc. f_equal.
      change (/ IZR (2 ^ 32))%R with (bpow radix2 (-32)). change (IZR (2 ^ 8)) with (bpow radix2 8).
      rewrite <- bpow_plus. reflexivity. }
    assert (L1 : (IZR (2 ^ 24 - 1) * bpow radix2 (-24) < 1)%R).
    { apply Rlt_le_trans with (IZR (2 ^ 24) * bpow radix2 (-24))%R.
      - apply Rmult_lt_compat_r; [apply bpow_gt_0|apply IZR_lt; lia].
      - right. change (IZR (2 ^ 24)) with (bpow radix2 24). rewrite <- bpow_plus. reflexivity. }
    destruct (mul_fin (f_of_Z u) unit_factor FU G) as [_ A2].
    + rewrite Rabs_pos_eq by apply M. apply Rle_trans with 1%R; [lra|]. change 1%R with (bpow radix2 0). apply bpow_le. lia.
    + rewrite A2. apply Rle_lt_trans with (2 := L1). rewrite <- (rnd_dyadic (2 ^ 24 - 1) (-24)) by lia. apply rnd_le, M.
Qed.

Lemma x_good : forall u, 0 <= u < 2 ^ 32 -> u / 2 ^ 8 < hi_x (u mod 2 ^ 8) ->
  u / 2 ^ 8 < hi_any (u mod 2 ^ 8) /\ f_lt (e_of u) (f_of_Z 2) = true.
Proof.
  intros u U V. destruct (checked_at u) as (C0 & C & _). unfold check_x in C. apply andb_true_iff in C. destruct C as [C1 C2].
  unfold check_any in C0. apply andb_true_iff in C0. destruct C0 as [C0 _]. apply Z.ltb_lt in C0.
  apply Z.leb_le in C1. pose proof (upper_range u U) as R. split; [lia|].
  destruct (Z.eqb_spec (hi_x (u mod 2 ^ 8)) 0) as [E|E]; [lia|]. rewrite orb_false_l in C2.
  unfold e_of. rewrite fraction_frac. fold (layer_of u) in *.
  apply scaled_lt with (w := hi_x (layer_of u) - 1); [lia|lia|apply exponential_x_small|reflexivity|exact C2].
Qed.

Lemma y_good : forall hi u, hi = hi_x \/ hi = hi_any -> 0 <= u < 2 ^ 32 -> lo_y hi (u mod 2 ^ 8) <= u / 2 ^ 8 < hi (u mod 2 ^ 8) ->
  f_lt b_y (e_of u) = true.
Proof.
  intros hi u HI U V. destruct (checked_at u) as (_ & _ & C1 & C2 & _).
  assert (C : check_y hi (u mod 2 ^ 8) = true) by (destruct HI as [-> | ->]; assumption).
  unfold check_y in C. pose proof (upper_range u U) as R.
  destruct (Z.eqb_spec (lo_y hi (u mod 2 ^ 8)) (hi (u mod 2 ^ 8))) as [E|E]; [lia|]. rewrite orb_false_l in C.
  unfold e_of. rewrite fraction_frac. fold (layer_of u) in *.
  apply scaled_gt with (w := lo_y hi (layer_of u)); [|lia|apply exponential_x_small|reflexivity|exact C].
  split; [unfold lo_y; lia|lia].
Qed.

Lemma n_good : forall u, 0 <= u < 2 ^ 32 -> u / 2 ^ 8 < hi_n (u mod 2 ^ 8) ->
  u / 2 ^ 8 < hi_any (u mod 2 ^ 8) /\
  (layer_of u mod 2 = 1 \/ f_lt (n_of u) f_one = true).
Proof.
  intros u U V. destruct (checked_at u) as (C0 & _ & _ & _ & C). unfold check_n in C. apply andb_true_iff in C. destruct C as [C1 C2].
  unfold check_any in C0. apply andb_true_iff in C0. destruct C0 as [C0 _]. apply Z.ltb_lt in C0.
  apply Z.leb_le in C1. pose proof (upper_range u U) as R. split; [lia|].
  unfold n_of. rewrite fraction_frac. fold (layer_of u) in *.
  destruct (Z.eqb_spec (layer_of u mod 2) 1) as [E|E]; [left; exact E|right]. rewrite orb_false_l in C2.
  destruct (Z.eqb_spec (hi_n (layer_of u)) 0) as [E0|E0]; [lia|]. rewrite orb_false_l in C2.
  apply scaled_lt with (w := hi_n (layer_of u) - 1); [lia|lia|apply normal_x_small|reflexivity|exact C2].
Qed.

(** The pair of the tail is accepted if the first number is less than 2 and
    the second greater than 11/64. *)
Lemma pair_good : forall e1 e2, fin_in 0 9 e1 -> fin_in 0 9 e2 -> f_lt e1 (f_of_Z 2) = true -> f_lt b_y e2 = true ->
  let x := f_div e1 (float_at normal_x 1) in
  let y := f_div e2 f_one in
  f_lt (f_mul x x) (f_mul (f_of_Z 2) y) = true.
Proof.
  intros e1 e2 B1 B2 L1 L2 x y.
  assert (BB1 : fin_in 0 (IZR (2 ^ 28)) e1) by (apply fin_weaken with (3 := B1); [lra|apply big_9]).
  destruct (start_div e1 BB1) as [[FX BX] EX]. fold x in FX, BX, EX.
  destruct (of_Z_exact 2) as [F2 E2]; [lia|]. destruct (of_Z_exact 11) as [F11 E11]; [lia|]. destruct (of_Z_exact 64) as [F64 E64]; [lia|].
  apply fin_lt in L1; [|apply B1|exact F2]. rewrite E2 in L1.
  assert (FB : is_finite b_y = true) by (vm_compute; reflexivity).
  assert (EB : B2R b_y = (IZR 11 * bpow radix2 (-6))%R).
  { assert (D : (B2R (f_of_Z 11) / B2R (f_of_Z 64) = IZR 11 * bpow radix2 (-6))%R).
    { rewrite E11, E64. change 64%R with (bpow radix2 6). unfold Rdiv. rewrite <- bpow_opp. reflexivity. }
    destruct (div_fin (f_of_Z 11) (f_of_Z 64) F11) as [_ A].
    - rewrite E64. lra.
    - rewrite D, Rabs_pos_eq by (apply Rmult_le_pos; [lra|apply bpow_ge_0]).
      change (IZR 11) with 11%R. apply Rle_trans with (bpow radix2 4 * bpow radix2 (-6))%R.
      + apply Rmult_le_compat_r; [apply bpow_ge_0|cbn; lra].
      + rewrite <- bpow_plus. apply bpow_le. lia.
    - unfold b_y. rewrite A, D. apply rnd_dyadic; lia. }
  apply fin_lt in L2; [|exact FB|apply B2]. rewrite EB in L2.
  assert (ST : (IZR 55 * bpow radix2 (-4) <= B2R (float_at normal_x 1))%R).
  { assert (F55 : fin_in 0 9 (table_float (55 * 2 ^ 60))) by (apply small_float_in; vm_compute; reflexivity).
    assert (V : B2R (table_float (55 * 2 ^ 60)) = (IZR 55 * bpow radix2 (-4))%R).
    { pose proof (binary_normalize_correct 24 128 eq_refl eq_refl mode_NE (55 * 2 ^ 60) (-64) false) as C. cbv zeta in C.
      assert (Q : F2R (Float radix2 (55 * 2 ^ 60) (-64)) = (IZR 55 * bpow radix2 (-4))%R).
      { unfold F2R. cbn [Fnum Fexp]. rewrite mult_IZR, Rmult_assoc. f_equal.
        change (IZR (2 ^ 60)) with (bpow radix2 60). rewrite <- bpow_plus. reflexivity. }
      rewrite Q in C. rewrite no_overflow in C.
      - destruct C as (C & _). unfold table_float. rewrite C. apply rnd_dyadic; lia.
      - rewrite Rabs_pos_eq by (apply Rmult_le_pos; [lra|apply bpow_ge_0]).
        apply Rle_trans with (bpow radix2 6 * bpow radix2 (-4))%R; [apply Rmult_le_compat_r; [apply bpow_ge_0|cbn; lra]|].
        rewrite <- bpow_plus. apply bpow_le. lia. }
    rewrite <- V. apply fin_le; [apply F55|apply normal_x_small|]. vm_compute. reflexivity. }
  change (bpow radix2 (-4)) with (/ 16)%R in ST. change (bpow radix2 (-6)) with (/ 64)%R in *.
  destruct B1 as [FE1 B1], B2 as [FE2 B2].
  (* x is at most 37/64: 2 / 3.4375 = 0.58181 > 37/64 = 0.578; use 75/128 = 0.5859 *)
  assert (XB : (0 <= B2R x <= IZR 75 * bpow radix2 (-7))%R).
  { rewrite EX. apply rnd_between; [apply rnd_0|apply rnd_dyadic; lia|].
    assert (P : (0 < B2R (float_at normal_x 1))%R) by lra.
    split; [apply Rmult_le_pos; [lra|left; apply Rinv_0_lt_compat, P]|].
    change (bpow radix2 (-7)) with (/ 128)%R.
    apply Rmult_le_reg_r with (1 := P). unfold Rdiv. rewrite Rmult_assoc, Rinv_l by lra. nra. }
  change (bpow radix2 (-7)) with (/ 128)%R in XB.
  destruct one_fin as [F1 E1].
  assert (YV : is_finite y = true /\ B2R y = B2R e2).
  { destruct (div_fin e2 f_one FE2) as [A C].
    - rewrite E1. lra.
    - rewrite E1. replace (B2R e2 / 1)%R with (B2R e2) by field. rewrite Rabs_pos_eq by lra. apply Rle_trans with 16%R; [lra|]. change 16%R with (bpow radix2 4). apply bpow_le. lia.
    - split; [exact A|]. unfold y. rewrite C, E1. replace (B2R e2 / 1)%R with (B2R e2) by field. apply round_generic; [apply valid_rnd_N|apply generic_format_B2R]. }
  destruct YV as [FY EY].
  destruct (mul_fin x x FX FX) as [FXX EXX].
  { rewrite Rabs_pos_eq by nra. apply Rle_trans with 1%R; [nra|]. change 1%R with (bpow radix2 0). apply bpow_le. lia. }
  destruct (mul_fin (f_of_Z 2) y F2 FY) as [F2Y E2Y].
  { rewrite E2, EY, Rabs_pos_eq by lra. apply Rle_trans with 32%R; [lra|]. change 32%R with (bpow radix2 5). apply bpow_le. lia. }
  apply fin_lt; [exact FXX|exact F2Y|]. rewrite EXX, E2Y, E2, EY.
  (* x^2 <= (75/128)^2 < 0.34333 < 11/32 = 0.34375 *)
  apply Rle_lt_trans with (IZR (75 * 75) * bpow radix2 (-14))%R.
  - rewrite <- (rnd_dyadic (75 * 75) (-14)) by lia. apply rnd_le.
    change (bpow radix2 (-14)) with (/ 16384)%R. rewrite mult_IZR. nra.
  - apply Rlt_le_trans with (IZR 11 * bpow radix2 (-5))%R.
    + change (bpow radix2 (-14)) with (/ 16384)%R. change (bpow radix2 (-5)) with (/ 32)%R. rewrite mult_IZR. lra.
    + rewrite <- (rnd_dyadic 11 (-5)) by lia. apply rnd_le. change (bpow radix2 (-5)) with (/ 32)%R. lra.
Qed.
