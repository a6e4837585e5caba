(** * Proofs about the rolling mean *)

From Coq Require Import List ZArith Bool Reals Lia Lra.
From Flocq Require Import Core BinarySingleNaN.
From Verif Require Import Base F32 F32Facts F32Signed TemperatureModel TemperatureSpec TemperatureProofs
  RollingModel RollingSpec.
Import ListNotations.

Local Open Scope R_scope.

(** Rounding moves a number below [2 ^ x] by at most [2 ^ (x - 25)]. *)
Lemma rnd_error : forall x r, (-120 <= x)%Z -> Rabs r < bpow radix2 x -> Rabs (rnd r - r) <= bpow radix2 (x - 25).
Proof.
  intros x r Hx L. destruct (Req_dec r 0) as [->|N].
  { rewrite rnd_0, Rminus_0_r, Rabs_R0. apply bpow_ge_0. }
  pose proof (error_le_half_ulp radix2 fexp32 (fun z => negb (Z.even z)) r) as E.
  apply Rle_trans with (1 := E).
  rewrite ulp_neq_0 by exact N. unfold cexp.
  assert (M : (mag radix2 r <= x)%Z) by (apply mag_le_bpow; assumption).
  replace (bpow radix2 (x - 25)) with (/ 2 * bpow radix2 (x - 24)).
  - apply Rmult_le_compat_l; [lra|]. apply bpow_le. unfold SpecFloat.fexp, SpecFloat.emin. lia.
  - change (/ 2) with (bpow radix2 (-1)). rewrite <- bpow_plus. f_equal. lia.
Qed.

Lemma rnd_error_le : forall r, Rabs r <= 1 -> Rabs (rnd r - r) <= / 33554432.
Proof.
  intros r [L|E].
  - change (/ 33554432) with (bpow radix2 (0 - 25)). apply rnd_error; [lia|]. exact L.
  - assert (rnd r = r) as ->.
    { assert (C : r = IZR 1 \/ r = IZR (-1)) by (unfold Rabs in E; destruct (Rcase_abs r); lra).
      destruct C as [->| ->]; apply rnd_int; lia. }
    rewrite Rminus_eq_0, Rabs_R0. lra.
Qed.

Lemma rnd_error_2 : forall r, Rabs r < 2 -> Rabs (rnd r - r) <= / 16777216.
Proof. intros r L. change (/ 16777216) with (bpow radix2 (1 - 25)). apply rnd_error; [lia|]. exact L. Qed.

Lemma small_fits : forall r, Rabs r <= 2 -> Rabs r <= bpow radix2 127.
Proof.
  intros r H. apply Rle_trans with (1 := H). change 2 with (bpow radix2 1). apply bpow_le. lia.
Qed.

(** The rounded change of the mean, for a count the format holds exactly. *)
Lemma change_error : forall (a b : f32) c,
  is_finite a = true -> is_finite b = true -> (1 <= c <= 2 ^ 21)%Z -> Rabs (B2R a - B2R b) <= 3 / 2 ->
  is_finite (f_div (f_sub a b) (f_of_Z c)) = true /\
  Rabs (B2R (f_div (f_sub a b) (f_of_Z c)) - (B2R a - B2R b) / IZR c) <= / 16777216.
Proof.
  intros a b c Fa Fb C L.
  destruct (of_Z_exact c) as [Fc Ec]; [lia|].
  destruct (sub_fin a b Fa Fb) as [Fd Ed]; [apply small_fits; lra|].
  set (d := B2R (f_sub a b)) in *. set (x := B2R a - B2R b) in *.
  pose proof (rnd_error_2 x ltac:(lra)) as D. rewrite <- Ed in D.
  assert (C1 : 1 <= IZR c) by (apply IZR_le; lia).
  assert (Ld : Rabs d < 7 / 4).
  { replace d with (x + (d - x)) by ring. apply Rle_lt_trans with (1 := Rabs_triang _ _). lra. }
  assert (I0 : 0 < / IZR c) by (apply Rinv_0_lt_compat; lra).
  assert (I1 : / IZR c <= 1) by (rewrite <- Rinv_1; apply Rinv_le; lra).
  assert (Q : Rabs (d / IZR c) = Rabs d * / IZR c).
  { unfold Rdiv. rewrite Rabs_mult. rewrite (Rabs_pos_eq (/ IZR c)) by lra. reflexivity. }
  assert (Q2 : Rabs (d / IZR c) <= 2).
  { rewrite Q. pose proof (Rabs_pos d).
    apply Rle_trans with (Rabs d * 1); [apply Rmult_le_compat_l; lra|lra]. }
  destruct (div_fin (f_sub a b) (f_of_Z c) Fd) as [Fq Eq]; [rewrite Ec; lra|rewrite Ec; apply small_fits; exact Q2|].
  split; [exact Fq|]. rewrite Eq, Ec. fold d.
  replace (rnd (d / IZR c) - x / IZR c) with ((rnd (d / IZR c) - d / IZR c) + (d - x) * / IZR c) by (unfold Rdiv; ring).
  apply Rle_trans with (1 := Rabs_triang _ _).
  rewrite Rabs_mult, (Rabs_pos_eq (/ IZR c)) by lra.
  destruct (Z.eq_dec c 1) as [->|NC].
  - replace (d / 1) with d by field. assert (rnd d = d) as -> by (unfold d; apply rnd_B2R).
    rewrite Rminus_eq_0, Rabs_R0, Rinv_1. lra.
  - assert (I2 : / IZR c <= / 2) by (apply Rinv_le; [lra|apply IZR_le; lia]).
    assert (Q1 : Rabs (d / IZR c) <= 1).
    { rewrite Q. pose proof (Rabs_pos d). apply Rle_trans with (Rabs d * / 2); [apply Rmult_le_compat_l; lra|lra]. }
    pose proof (rnd_error_le _ Q1) as E1.
    assert (E2 : Rabs (d - x) * / IZR c <= / 16777216 * / 2).
    { apply Rmult_le_compat; [apply Rabs_pos|lra|exact D|exact I2]. }
    lra.
Qed.

Lemma move_error : forall (m a b : f32) c,
  is_finite m = true -> is_finite a = true -> is_finite b = true -> (1 <= c <= 2 ^ 21)%Z ->
  Rabs (B2R a - B2R b) <= 3 / 2 -> Rabs (B2R m + (B2R b - B2R a) / IZR c) <= 3 / 2 ->
  is_finite (move_mean m a b c) = true /\
  Rabs (B2R (move_mean m a b c) - (B2R m + (B2R b - B2R a) / IZR c)) <= / 8388608.
Proof.
  intros m a b c Fm Fa Fb C L T. unfold move_mean.
  destruct (f_lt b a) eqn:E1.
  - destruct (change_error a b c Fa Fb C L) as [Fq Eq]. set (q := f_div (f_sub a b) (f_of_Z c)) in *.
    assert (Y : Rabs (B2R m - B2R q - (B2R m + (B2R b - B2R a) / IZR c)) <= / 16777216).
    { rewrite <- Rabs_Ropp. apply Rle_trans with (2 := Eq). right. f_equal. unfold Rdiv. ring. }
    assert (Lt : Rabs (B2R m - B2R q) < 2).
    { replace (B2R m - B2R q) with ((B2R m + (B2R b - B2R a) / IZR c)
        + (B2R m - B2R q - (B2R m + (B2R b - B2R a) / IZR c))) by ring.
      apply Rle_lt_trans with (1 := Rabs_triang _ _). lra. }
    destruct (sub_fin m q Fm Fq) as [F E]; [apply small_fits; lra|]. split; [exact F|]. rewrite E.
    pose proof (rnd_error_2 _ Lt) as Z1.
    replace (rnd (B2R m - B2R q) - (B2R m + (B2R b - B2R a) / IZR c))
      with ((rnd (B2R m - B2R q) - (B2R m - B2R q)) + (B2R m - B2R q - (B2R m + (B2R b - B2R a) / IZR c))) by ring.
    apply Rle_trans with (1 := Rabs_triang _ _). lra.
  - destruct (f_lt a b) eqn:E2.
    + rewrite Rabs_minus_sym in L. destruct (change_error b a c Fb Fa C L) as [Fq Eq].
      set (q := f_div (f_sub b a) (f_of_Z c)) in *.
      assert (Y : Rabs (B2R m + B2R q - (B2R m + (B2R b - B2R a) / IZR c)) <= / 16777216).
      { apply Rle_trans with (2 := Eq). right. f_equal. ring. }
      assert (Lt : Rabs (B2R m + B2R q) < 2).
      { replace (B2R m + B2R q) with ((B2R m + (B2R b - B2R a) / IZR c)
          + (B2R m + B2R q - (B2R m + (B2R b - B2R a) / IZR c))) by ring.
        apply Rle_lt_trans with (1 := Rabs_triang _ _). lra. }
      destruct (add_fin m q Fm Fq) as [F E]; [apply small_fits; lra|]. split; [exact F|]. rewrite E.
      pose proof (rnd_error_2 _ Lt) as Z1.
      replace (rnd (B2R m + B2R q) - (B2R m + (B2R b - B2R a) / IZR c))
        with ((rnd (B2R m + B2R q) - (B2R m + B2R q)) + (B2R m + B2R q - (B2R m + (B2R b - B2R a) / IZR c))) by ring.
      apply Rle_trans with (1 := Rabs_triang _ _). lra.
    + assert (E : B2R a = B2R b).
      { destruct (Rtotal_order (B2R a) (B2R b)) as [H|[H|H]]; [|exact H|].
        - apply fin_lt in H; congruence.
        - apply Rgt_lt in H. apply fin_lt in H; congruence. }
      split; [exact Fm|]. rewrite E, Rminus_eq_0. unfold Rdiv. rewrite Rmult_0_l, Rplus_0_r, Rminus_eq_0, Rabs_R0. lra.
Qed.

Lemma exact_sum_app : forall l1 l2, exact_sum (l1 ++ l2) = exact_sum l1 + exact_sum l2.
Proof. unfold exact_sum. induction l1 as [|x l1 IH]; intro l2; cbn [app fold_right]; [lra|]. rewrite IH. lra. Qed.

Lemma exact_sum_range : forall l, Forall in_unit l -> 0 <= exact_sum l <= INR (length l).
Proof.
  induction l as [|x l IH]; intro F; [cbn; lra|]. inversion F as [|? ? [U1 U2] F']; subst.
  destruct (unit_fin x U1 U2) as [_ B]. specialize (IH F'). cbn [exact_sum fold_right length]. rewrite S_INR.
  fold (exact_sum l). lra.
Qed.

Lemma nth_error_firstn_S : forall A n (l : list A) x, nth_error l n = Some x -> firstn (S n) l = firstn n l ++ [x].
Proof.
  induction n as [|n IH]; intros [|y l] x H; try discriminate; cbn in *.
  - congruence.
  - f_equal. apply IH, H.
Qed.

Lemma window_mean_range : forall w l, Forall in_unit l -> 0 <= window_mean w l <= 1.
Proof.
  intros w l F. unfold window_mean. set (win := firstn (Z.to_nat w) l).
  assert (Fw : Forall in_unit win) by
    (rewrite <- (firstn_skipn (Z.to_nat w) l) in F; apply Forall_app in F; apply F).
  pose proof (exact_sum_range win Fw) as B.
  destruct win as [|x win]; [cbn; unfold Rdiv; rewrite Rmult_0_l; lra|].
  assert (P : 0 < INR (length (x :: win))) by (apply lt_0_INR; cbn; lia).
  split.
  - apply Rmult_le_pos; [lra|]. left. apply Rinv_0_lt_compat, P.
  - apply Rmult_le_reg_r with (1 := P). unfold Rdiv. rewrite Rmult_assoc, Rinv_l by lra. lra.
Qed.

(** The error grows by at most [2 ^ -23] per sample. *)
Lemma rolling_error : forall w l, (0 < w)%Z -> Forall in_unit l -> (Z.of_nat (length l) <= 2 ^ 21)%Z ->
  is_finite (rolling_mean w l) = true /\
  Rabs (B2R (rolling_mean w l) - window_mean w l) <= INR (length l) * / 8388608.
Proof.
  intros w l W. induction l as [|s l IH]; intros F N.
  { split; [reflexivity|]. unfold window_mean. rewrite firstn_nil. cbn. unfold Rdiv.
    rewrite Rmult_0_l, Rminus_0_r, Rabs_R0. lra. }
  inversion F as [|? ? [U1 U2] F']; subst. destruct (unit_fin s U1 U2) as [Fs Bs].
  cbn [length] in N. destruct (IH F') as [Fm E]; [lia|].
  cbn [rolling_mean]. set (m := rolling_mean w l) in *.
  pose proof (window_mean_range w l F') as RA. pose proof (window_mean_range w (s :: l) F) as RA'.
  set (A := window_mean w l) in *. set (A' := window_mean w (s :: l)) in *.
  assert (NB : INR (length l) * / 8388608 <= / 4).
  { rewrite INR_IZR_INZ. apply Rle_trans with (IZR (2 ^ 21) * / 8388608); [|change (IZR (2 ^ 21)) with 2097152; lra].
    apply Rmult_le_compat_r; [lra|]. apply IZR_le. lia. }
  cbn [length]. rewrite S_INR.
  assert (Bm : - / 4 <= B2R m <= 5 / 4).
  { apply Rabs_le_inv in E. lra. }
  unfold rolling_step. destruct (nth_error l (Z.to_nat w - 1)) as [f|] eqn:H.
  - assert (Lw : (Z.to_nat w - 1 < length l)%nat) by (apply nth_error_Some; congruence).
    assert (Uf : in_unit f) by (rewrite Forall_forall in F'; apply F', nth_error_In with (1 := H)).
    destruct Uf as [V1 V2]. destruct (unit_fin f V1 V2) as [Ff Bf].
    pose proof (nth_error_firstn_S _ _ _ _ H) as FS.
    assert (EA : B2R m + (B2R s - B2R f) / IZR w - A' = B2R m - A).
    { unfold A, A', window_mean.
      replace (Z.to_nat w) with (S (Z.to_nat w - 1)) by lia.
      rewrite FS. cbn [firstn]. cbn [length exact_sum fold_right]. fold (exact_sum (firstn (Z.to_nat w - 1) l)).
      rewrite exact_sum_app, app_length. cbn [length exact_sum fold_right].
      rewrite firstn_length_le by lia.
      replace (Z.to_nat w - 1 + 1)%nat with (Z.to_nat w) by lia.
      replace (S (Z.to_nat w - 1)) with (Z.to_nat w) by lia.
      rewrite INR_IZR_INZ, Z2Nat.id by lia.
      assert (IZR w <> 0) by (apply not_0_IZR; lia). field. assumption. }
    destruct (move_error m f s w Fm Ff Fs) as [G1 G2]; [lia|apply Rabs_le; lra| |].
    { apply Rabs_le_inv in E. apply Rabs_le. lra. }
    split; [exact G1|].
    replace (B2R (move_mean m f s w) - A') with
      ((B2R (move_mean m f s w) - (B2R m + (B2R s - B2R f) / IZR w)) + (B2R m + (B2R s - B2R f) / IZR w - A')) by ring.
    apply Rle_trans with (1 := Rabs_triang _ _). rewrite EA. lra.
  - apply nth_error_None in H.
    set (c := Z.of_nat (S (length l))).
    assert (Ic : IZR c = INR (length l) + 1) by (unfold c; rewrite <- INR_IZR_INZ, S_INR; reflexivity).
    pose proof (pos_INR (length l)) as P0.
    assert (EA : B2R m + (B2R s - B2R m) / IZR c - A' = (B2R m - A) * (INR (length l) / IZR c)).
    { unfold A, A', window_mean. rewrite (firstn_all2 (n := Z.to_nat w) (s :: l)) by (cbn [length]; lia).
      rewrite (firstn_all2 (n := Z.to_nat w) l) by lia. cbn [length exact_sum fold_right]. fold (exact_sum l).
      rewrite S_INR, Ic. destruct l as [|x l].
      - cbn. unfold Rdiv. rewrite !Rmult_0_l, !Rplus_0_l, Rinv_1. ring.
      - assert (0 < INR (length (x :: l))) by (apply lt_0_INR; cbn; lia). field. lra. }
    assert (K : 0 <= INR (length l) / IZR c <= 1).
    { rewrite Ic. split; [apply Rmult_le_pos; [lra|left; apply Rinv_0_lt_compat; lra]|].
      apply Rmult_le_reg_r with (INR (length l) + 1); [lra|]. unfold Rdiv. rewrite Rmult_assoc, Rinv_l by lra. lra. }
    assert (EB : Rabs ((B2R m - A) * (INR (length l) / IZR c)) <= INR (length l) * / 8388608).
    { rewrite Rabs_mult, (Rabs_pos_eq (INR (length l) / IZR c)) by lra.
      apply Rle_trans with (Rabs (B2R m - A) * 1); [apply Rmult_le_compat_l; [apply Rabs_pos|lra]|lra]. }
    destruct (move_error m m s c Fm Fm Fs) as [G1 G2]; [unfold c; lia|apply Rabs_le; lra| |].
    { rewrite <- EA in EB. apply Rabs_le_inv in EB. apply Rabs_le. lra. }
    split; [exact G1|].
    replace (B2R (move_mean m m s c) - A') with
      ((B2R (move_mean m m s c) - (B2R m + (B2R s - B2R m) / IZR c)) + (B2R m + (B2R s - B2R m) / IZR c - A')) by ring.
    apply Rle_trans with (1 := Rabs_triang _ _). rewrite EA. lra.
Qed.
