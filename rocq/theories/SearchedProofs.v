(** * Searches: counters, curve and progress *)

From Coq Require Import List ZArith Bool Arith Lia Reals Lra.
From Flocq Require Import Core BinarySingleNaN.
From Verif Require Import Base F32 F32Facts NormaliseProofs F32Signed ProjectModel ScheduleModel ScheduleSpec ScheduleProofs
  MutatorModel MutatorProofs MakespanModel TimelineSpec MakespanProofs TemperatureModel TemperatureSpec
  TemperatureProofs StunModel SearchSpec StunProofs SameProofs StunProps OptimizerModel OptimizerSpec
  OptimizerProofs OptimizerSame CurveSpec CurveProofs.
Import ListNotations.

(** ** The number of floats below a float *)

Definition top_rank : Z := 255 * 2 ^ 23.

Definition rank (x : f32) : Z :=
  match x with
  | B754_finite _ m e _ => (e + 149) * 2 ^ 23 + Zpos m
  | B754_infinity _ => top_rank
  | _ => 0
  end.

Lemma bounded_cases : forall m e, SpecFloat.bounded 24 128 m e = true ->
  (-149 <= e <= 104)%Z /\ (Zpos m < 2 ^ 24)%Z /\ (e = (-149)%Z \/ (2 ^ 23 <= Zpos m)%Z).
Proof.
  intros m e H. pose proof (bounded_emin m e H) as HE. unfold SpecFloat.bounded in H. apply andb_true_iff in H.
  destruct H as [C B]. apply Z.leb_le in B. unfold SpecFloat.canonical_mantissa in C. apply Zeq_bool_eq in C.
  unfold SpecFloat.fexp, SpecFloat.emin in C. rewrite Digits.Zpos_digits2_pos in C.
  assert (P : Digits.Zdigits radix2 (Zpos m) = (Z.min 24 (Digits.Zdigits radix2 (Zpos m)))%Z) by lia.
  split; [lia|]. split.
  - apply Z.lt_le_trans with (2 ^ (Digits.Zdigits radix2 (Zpos m)))%Z.
    + pose proof (Digits.Zdigits_correct radix2 (Zpos m)) as D. cbn [Z.abs] in D. apply D.
    + apply Z.pow_le_mono_r; lia.
  - destruct (Z.eq_dec e (-149)); [left; assumption|right].
    pose proof (Digits.Zdigits_correct radix2 (Zpos m)) as D. cbn [Z.abs] in D.
    assert (E : Digits.Zdigits radix2 (Zpos m) = 24%Z) by lia. rewrite E in D. apply D.
Qed.

Lemma rank_range : forall x, (0 <= rank x <= top_rank)%Z.
Proof.
  intros [s|s| |s m e B]; cbn [rank]; unfold top_rank; try lia. destruct (bounded_cases m e B) as (H1 & H2 & _).
  lia.
Qed.

Lemma finite_key_lt : forall m1 e1 m2 e2, SpecFloat.bounded 24 128 m1 e1 = true ->
  SpecFloat.bounded 24 128 m2 e2 = true -> (e1 < e2)%Z ->
  (Zpos m1 * 2 ^ (e1 + 149) < Zpos m2 * 2 ^ (e2 + 149))%Z /\
  ((e1 + 149) * 2 ^ 23 + Zpos m1 < (e2 + 149) * 2 ^ 23 + Zpos m2)%Z.
Proof.
  intros m1 e1 m2 e2 B1 B2 H. destruct (bounded_cases m1 e1 B1) as (R1 & M1 & _).
  destruct (bounded_cases m2 e2 B2) as (R2 & M2 & [N|N]); [lia|]. split; [|lia].
  replace (e2 + 149)%Z with ((e1 + 149) + (1 + (e2 - e1 - 1)))%Z by lia.
  rewrite (Z.pow_add_r 2 (e1 + 149)), (Z.pow_add_r 2 1) by lia.
  assert (P1 : (0 < 2 ^ (e1 + 149))%Z) by (apply Z.pow_pos_nonneg; lia).
  assert (P2 : (1 <= 2 ^ (e2 - e1 - 1))%Z) by (apply (Z.pow_le_mono_r 2 0); lia).
  change (2 ^ 1)%Z with 2%Z. set (a := (2 ^ (e1 + 149))%Z) in *. set (b := (2 ^ (e2 - e1 - 1))%Z) in *.
  apply Z.lt_le_trans with (2 ^ 24 * a)%Z; [apply Z.mul_lt_mono_pos_r; lia|].
  apply Z.le_trans with (2 ^ 23 * (a * (2 * 1)))%Z; [lia|].
  apply Z.mul_le_mono_nonneg; [lia|exact N|lia|]. apply Z.mul_le_mono_nonneg_l; lia.
Qed.

Lemma rank_lt : forall x y, num x -> num y -> (0 <= key x)%Z -> (key x < key y)%Z -> (rank x < rank y)%Z.
Proof.
  intros x y Nx Ny P L. destruct x as [s|s| |s m e B]; try discriminate; cbn [key] in P, L.
  - destruct y as [t|t| |t n f C]; cbn [key rank] in *; try lia.
    + destruct t; unfold top_rank; [unfold inf_key in L; lia|lia].
    + destruct (bounded_cases n f C) as (R & _). lia.
  - destruct s; [unfold inf_key in P; lia|]. pose proof (key_abs_le y). lia.
  - assert (S0 : s = false).
    { destruct s; [|reflexivity]. cbn [cond_Zopp] in P. assert (0 < 2 ^ (e + 149))%Z.
      { apply Z.pow_pos_nonneg; [lia|]. pose proof (bounded_emin m e B). lia. } lia. }
    subst s. cbn [cond_Zopp] in *. pose proof (bounded_cases m e B) as (R & M & _).
    assert (PE : (0 < 2 ^ (e + 149))%Z) by (apply Z.pow_pos_nonneg; lia).
    destruct y as [t|t| |t n f C]; cbn [key rank] in *; try lia; try discriminate.
    + destruct t; unfold top_rank; [unfold inf_key in L; lia|lia].
    + pose proof (bounded_cases n f C) as (R' & M' & _).
      assert (PF : (0 < 2 ^ (f + 149))%Z) by (apply Z.pow_pos_nonneg; lia).
      destruct t; cbn [cond_Zopp] in L; [lia|].
      destruct (Z.lt_trichotomy e f) as [LT|[->|GT]].
      * apply (finite_key_lt m e n f B C LT).
      * assert (Zpos m < Zpos n)%Z by nia. lia.
      * destruct (finite_key_lt n f m e C B GT). lia.
Qed.

Lemma rank_eq : forall x y, num x -> num y -> (0 <= key x)%Z -> key x = key y -> rank x = rank y.
Proof.
  intros x y Nx Ny P L.
  destruct x as [s|s| |s m e B]; destruct y as [t|t| |t n f C]; try discriminate; cbn [rank]; try reflexivity.
  - cbn [key] in L. destruct t; unfold inf_key in L; lia.
  - pose proof (key_finite_lt (B754_finite t n f C) eq_refl) as K. cbn [key] in *.
    assert (0 < 2 ^ (f + 149))%Z by (apply Z.pow_pos_nonneg; [lia|]; pose proof (bounded_emin n f C); lia).
    destruct t; cbn [cond_Zopp] in L; lia.
  - cbn [key] in L. destruct s; unfold inf_key in L; lia.
  - pose proof (key_finite_lt (B754_finite t n f C) eq_refl) as K. cbn [key] in *. destruct s; lia.
  - cbn [key] in L. assert (0 < 2 ^ (e + 149))%Z by (apply Z.pow_pos_nonneg; [lia|]; pose proof (bounded_emin m e B); lia).
    destruct s; cbn [cond_Zopp] in L; lia.
  - pose proof (key_finite_lt (B754_finite s m e B) eq_refl) as K. cbn [key] in *. destruct t; lia.
  - pose proof (bounded_cases m e B) as (R & M & _). pose proof (bounded_cases n f C) as (R' & M' & _).
    cbn [key] in *.
    assert (PE : (0 < 2 ^ (e + 149))%Z) by (apply Z.pow_pos_nonneg; lia).
    assert (PF : (0 < 2 ^ (f + 149))%Z) by (apply Z.pow_pos_nonneg; lia).
    destruct s; cbn [cond_Zopp] in *; [lia|]. destruct t; cbn [cond_Zopp] in L; [lia|].
    destruct (Z.lt_trichotomy e f) as [LT|[->|GT]].
    + destruct (finite_key_lt m e n f B C LT). lia.
    + assert (Zpos m = Zpos n)%Z by nia. lia.
    + destruct (finite_key_lt n f m e C B GT). lia.
Qed.

(** ** The two ways to estimate the progress *)

Local Open Scope R_scope.

Lemma idle_ratio : forall i m, (0 < i <= 8 * m)%Z -> (m <= 2 ^ 31)%Z ->
  is_finite (f_div (f_of_Z i) (f_of_Z m)) = true /\ pow2 (-31) <= B2R (f_div (f_of_Z i) (f_of_Z m)) <= pow2 3.
Proof.
  intros i m Hi Hm. destruct (of_Z_fin i) as [Fi Ei]; [lia|]. destruct (of_Z_fin m) as [Fm Em]; [lia|].
  assert (R1 : rnd 1 = 1) by (change 1 with (pow2 0); apply rnd_pow2; lia).
  assert (R31 : rnd (pow2 31) = pow2 31) by (apply rnd_pow2; lia).
  assert (I31 : IZR (2 ^ 31) = pow2 31) by reflexivity.
  assert (M1 : 1 <= rnd (IZR m) <= pow2 31).
  { rewrite <- R1 at 1. rewrite <- R31. split; apply rnd_le; [apply IZR_le; lia|].
    rewrite <- I31. apply IZR_le. lia. }
  assert (I1 : 1 <= rnd (IZR i)) by (rewrite <- R1 at 1; apply rnd_le, IZR_le; lia).
  assert (I8 : rnd (IZR i) <= rnd (IZR m) * pow2 3).
  { rewrite <- rnd_scale; [|rewrite Rabs_pos_eq|lia].
    - apply rnd_le. change (pow2 3) with 8. rewrite <- mult_IZR. apply IZR_le. lia.
    - apply Rle_trans with (pow2 0); [apply bpow_le; lia|]. change (pow2 0) with 1. apply IZR_le. lia.
    - apply IZR_le. lia. }
  assert (Q : pow2 (-31) <= rnd (IZR i) / rnd (IZR m) <= pow2 3).
  { split.
    - apply Rmult_le_reg_r with (rnd (IZR m)); [lra|]. unfold Rdiv. rewrite Rmult_assoc, Rinv_l by lra.
      apply Rle_trans with (pow2 (-31) * pow2 31); [apply Rmult_le_compat_l; [apply bpow_ge_0|lra]|].
      rewrite <- bpow_plus. change (pow2 (-31 + 31)) with 1. lra.
    - apply Rmult_le_reg_r with (rnd (IZR m)); [lra|]. unfold Rdiv. rewrite Rmult_assoc, Rinv_l by lra. lra. }
  pose proof (bpow_gt_0 radix2 (-31)) as P.
  destruct (div_fin (f_of_Z i) (f_of_Z m) Fi) as [F E].
  - rewrite Em. lra.
  - rewrite Ei, Em, Rabs_pos_eq by lra. apply Rle_trans with (pow2 3); [lra|apply bpow_le; lia].
  - split; [exact F|]. rewrite E, Ei, Em. apply rnd_between; [apply rnd_pow2; lia|apply rnd_pow2; lia|exact Q].
Qed.

Lemma epoch_number : forall n, (1 <= n <= 2 ^ 31)%Z ->
  is_finite (f_of_Z n) = true /\ 1 <= B2R (f_of_Z n) <= pow2 31.
Proof.
  intros n H. destruct (of_Z_fin n) as [F E]; [lia|]. split; [exact F|]. rewrite E.
  apply rnd_between; [change 1 with (pow2 0); apply rnd_pow2; lia|apply rnd_pow2; lia|].
  change (pow2 31) with (IZR (2 ^ 31)). split; apply IZR_le; lia.
Qed.

Lemma fma_infinite : forall (b x a : f32), is_finite b = true -> is_finite a = true -> num x ->
  is_finite x = true \/ f_eq b f_zero = false -> num (f_fma b x a).
Proof.
  intros b x a Fb Fa N H. destruct (is_finite x) eqn:Fx; [apply fma_num; assumption|].
  destruct H as [H|H]; [discriminate|].
  destruct x as [s|s| |s m e B]; try discriminate. destruct b as [t|t| |t m e B]; try discriminate.
  destruct a as [u|u| |u n f C]; try discriminate; reflexivity.
Qed.

Lemma interpolated : forall o c n p, exp_nonneg o -> CI 31 3 c -> (0 <= n < 2 ^ 31)%Z ->
  is_finite p = true -> pow2 (-31) <= B2R p <= pow2 3 ->
  let next_expected := curve_at o c (f_of_Z (n + 1)) in
  let next_epoch := f_add (f_of_Z n) (f_div p next_expected) in
  f_le f_zero (curve_at o c next_epoch) = true \/
  (f_eq (cv_b c) f_zero = true /\ f_lt next_expected tiny = true /\
   curve_at o c next_epoch = or_exp o B754_nan).
Proof.
  intros o c n p HE I Hn Fp Hp ne ep.
  destruct (ci_ab _ _ c I) as (Fa & Fb & _).
  pose proof (bpow_gt_0 radix2 (-31)) as P31.
  assert (NE : f_le f_zero ne = true).
  { unfold ne, curve_at. destruct (f_eq (cv_divisor c) f_zero); [reflexivity|]. apply HE.
    apply fma_num; auto. apply epoch_number. lia. }
  destruct (of_Z_fin n) as [Fn En]; [lia|].
  assert (Rn : 0 <= B2R (f_of_Z n) <= pow2 31).
  { rewrite En. apply rnd_between; [apply rnd_0|apply rnd_pow2; lia|]. change (pow2 31) with (IZR (2 ^ 31)).
    split; apply IZR_le; lia. }
  assert (EP : num ep /\ (is_finite ep = true \/ f_lt ne tiny = true)).
  { unfold ep. destruct (is_finite ne) eqn:FN.
    - assert (NN : nn ne) by (apply nn_iff, NE).
      assert (GE : 0 <= B2R ne) by (apply (fin_le f_zero ne); [reflexivity|exact FN|exact NE]).
      destruct (Req_dec (B2R ne) 0) as [Z0|NZ].
      + destruct ne as [s|s| |s m e B]; try discriminate.
        * split; [|right; reflexivity]. destruct p as [t|t| |t m e B]; try discriminate.
          -- change (B2R (B754_zero t)) with 0 in Hp. lra.
          -- destruct (f_of_Z n) as [u|u| |u m' e' B']; try discriminate; reflexivity.
        * exfalso. cbn [B2R] in Z0. apply eq_0_F2R in Z0. destruct s; discriminate.
      + destruct (f_lt ne tiny) eqn:T.
        * split; [|right; reflexivity]. apply add_nn; [apply nn_fin; [exact Fn|lra]|].
          apply div_nn; [apply nn_fin; [exact Fp|lra]|exact Fp|].
          apply pos_iff, fin_lt; [reflexivity|exact FN|]. change (B2R f_zero) with 0. lra.
        * assert (TV : B2R tiny = pow2 (-96)).
          { unfold tiny, B2R, F2R. cbn [Defs.Fnum Defs.Fexp cond_Zopp].
            change (IZR 8388608) with (pow2 23). rewrite <- bpow_plus. reflexivity. }
          assert (TL : pow2 (-96) <= B2R ne).
          { rewrite <- TV. apply Rnot_lt_le. intro L. apply fin_lt in L; [congruence|exact FN|reflexivity]. }
          pose proof (bpow_gt_0 radix2 (-96)) as P96.
          assert (Q : 0 <= B2R p / B2R ne <= pow2 99).
          { split; [apply Rmult_le_pos; [lra|left; apply Rinv_0_lt_compat; lra]|]. apply Rmult_le_reg_r with (B2R ne); [lra|].
            unfold Rdiv. rewrite Rmult_assoc, Rinv_l by lra.
            apply Rle_trans with (pow2 99 * pow2 (-96)); [rewrite <- bpow_plus; change (99 + -96)%Z with 3%Z; lra|].
            apply Rmult_le_compat_l; [apply bpow_ge_0|lra]. }
          destruct (div_fin p ne Fp NZ) as [FD ED].
          { rewrite Rabs_pos_eq by lra. apply Rle_trans with (pow2 99); [lra|apply bpow_le; lia]. }
          assert (Q' : 0 <= B2R (f_div p ne) <= pow2 99).
          { rewrite ED. apply rnd_between; [apply rnd_0|apply rnd_pow2; lia|exact Q]. }
          destruct (add_fin (f_of_Z n) (f_div p ne) Fn FD) as [F _].
          { rewrite Rabs_pos_eq by lra. assert (L : pow2 31 <= pow2 99) by (apply bpow_le; lia).
            apply Rle_trans with (2 * pow2 99); [lra|]. change 2 with (pow2 1). rewrite <- bpow_plus.
            apply bpow_le. lia. }
          split; [apply finite_num, F|left; exact F].
    - destruct ne as [s|s| |s m e B]; try discriminate.
      assert (FD : is_finite (f_div p (B754_infinity s)) = true /\ B2R (f_div p (B754_infinity s)) = 0).
      { destruct p as [t|t| |t m e B]; try discriminate; split; reflexivity. }
      destruct FD as [FD ED]. destruct (add_fin (f_of_Z n) (f_div p (B754_infinity s)) Fn FD) as [F _].
      { rewrite ED, Rplus_0_r, Rabs_pos_eq by lra. apply Rle_trans with (pow2 31); [lra|apply bpow_le; lia]. }
      split; [apply finite_num, F|left; exact F]. }
  destruct EP as [Nep CA]. unfold curve_at. destruct (f_eq (cv_divisor c) f_zero); [left; reflexivity|].
  destruct (is_finite ep) eqn:Fep; [left; apply HE, fma_infinite; auto|].
  destruct (f_eq (cv_b c) f_zero) eqn:EB; [right|left; apply HE, fma_infinite; auto].
  destruct CA as [CA|CA]; [discriminate|]. split; [reflexivity|]. split; [exact CA|]. f_equal.
  destruct ep as [s|s| |s m e B]; try discriminate. destruct (cv_b c) as [t|t| |t m e B]; try discriminate.
  - reflexivity.
  - destruct t; discriminate.
Qed.

(** ** The counters of a search, for all options *)

Section Counted.
Context (o : oracles) (p : params) (op : options) (threads : nat) (HP : problem p).

Record KI (z : optimizer) : Prop := {
  ki_oi : OI o p op threads z;
  ki_idle : (oz_idle z < op_max_idle op + op_batch op)%Z;
  ki_last : (oz_epochs z = 0%Z /\ oz_last z = f_zero) \/
            (exists m, optimizer_best z = Ok m /\ f_eq m (oz_last z) = true /\
             (oz_epochs z <= 1 + (top_rank - rank m))%Z)
}.

Lemma ki_epochs : forall z, KI z -> (0 <= oz_epochs z <= 1 + top_rank)%Z.
Proof.
  intros z S. split; [apply S|]. destruct (ki_last z S) as [[-> _]|(m & _ & _ & L)]; [unfold top_rank; lia|].
  pose proof (rank_range m). lia.
Qed.

Lemma ki_update : forall z ks z1, KI z -> has_converged z = false -> optimizer_update o z ks = Ok z1 -> KI z1.
Proof.
  intros z ks z1 S NC U. pose proof (ki_oi z S) as I.
  pose proof (oi_batch _ _ _ _ z I) as BE. pose proof (oi_batch_pos _ _ _ _ z I) as BP.
  pose proof (oi_max _ _ _ _ z I) as ME. pose proof (oi_max_pos _ _ _ _ z I) as MP.
  unfold has_converged in NC. apply Z.leb_gt in NC.
  pose proof (oi_update o p op HP threads z ks z1 I U) as I1.
  destruct (update_split o p op threads z ks z1 I U) as (_ & m & _ & _ & Bm & _ & _ & C).
  destruct (update_best o p op HP threads z ks z1 I U) as (_ & m2 & m0 & _ & Bm2 & Bm0 & _ & _ & _ & LE).
  rewrite Bm in Bm2. injection Bm2 as <-.
  destruct (oi_front o p op threads z1 I1) as (j & _ & _ & Rj & Bj & _). rewrite Bm in Bj. injection Bj as ->.
  destruct (reached_nn o p op HP j Rj) as [Nj Pj]. destruct (le_num _ _ LE) as [_ N0].
  constructor; auto.
  - destruct (f_eq (job_best j) (oz_last z)); destruct C as (-> & _); lia.
  - destruct (f_eq (job_best j) (oz_last z)) eqn:EQ; destruct C as (_ & CE & CL); rewrite CE, CL.
    + destruct (ki_last z S) as [L|(m' & B' & Q' & L)]; [left; exact L|right].
      rewrite Bm0 in B'. injection B' as <-. exists (job_best j). split; [exact Bm|]. split; [exact EQ|].
      assert (NL : num (oz_last z)).
      { destruct (oz_last z) as [s|s| |s mm e B] eqn:X; try reflexivity. destruct m0; discriminate. }
      rewrite eq_key in EQ, Q' by assumption. apply Z.eqb_eq in EQ, Q'.
      rewrite <- (rank_eq (job_best j) m0) in L; [exact L|exact Nj|exact N0|exact Pj|congruence].
    + right. exists (job_best j). split; [exact Bm|]. split; [rewrite eq_key by assumption; apply Z.eqb_refl|].
      pose proof (rank_range (job_best j)) as RR.
      destruct (ki_last z S) as [[L _]|(m' & B' & Q' & L)]; [lia|].
      rewrite Bm0 in B'. injection B' as <-.
      assert (NL : num (oz_last z)).
      { destruct (oz_last z) as [s|s| |s mm e B] eqn:X; try reflexivity. destruct m0; discriminate. }
      rewrite eq_key in EQ, Q' by assumption. apply Z.eqb_neq in EQ. apply Z.eqb_eq in Q'.
      rewrite le_key in LE by assumption. apply Z.leb_le in LE.
      pose proof (rank_lt (job_best j) m0 Nj N0 Pj ltac:(lia)). lia.
Qed.

Lemma ki_new : forall z, optimizer_new o p op threads = Ok z -> KI z.
Proof.
  intros z H. pose proof (oi_new o p op threads z H) as I. pose proof (oi_batch_pos _ _ _ _ z I) as BP.
  pose proof (oi_max_pos _ _ _ _ z I) as MP. unfold optimizer_new in H. ok_step H. ok_step H.
  apply bind_ok in H. destruct H as (jobs & _ & H). ok_step H. injection H as <-.
  constructor; cbn [oz_idle oz_epochs oz_last]; auto. lia.
Qed.

Lemma ki_reset : forall z z', KI z -> optimizer_reset o z = Ok z' -> KI z'.
Proof.
  intros z z' S H. pose proof (oi_reset o p op threads z z' (ki_oi z S) H) as I.
  pose proof (oi_batch_pos _ _ _ _ z' I) as BP. pose proof (oi_max_pos _ _ _ _ z' I) as MP.
  unfold optimizer_reset in H. ok_step H. ok_step H. ok_step H. apply bind_ok in H.
  destruct H as (jobs & _ & H). injection H as <-.
  constructor; cbn [oz_idle oz_epochs oz_last]; auto. lia.
Qed.

Lemma ki_copy : forall z z', KI z -> optimizer_copy z = Ok z' -> KI z'.
Proof.
  intros z z' S H. pose proof (oi_copy o p op threads z z' (ki_oi z S) H) as I.
  assert (B : optimizer_best z' = optimizer_best z).
  { unfold optimizer_copy in H. apply bind_ok in H. destruct H as (jobs & E & H). injection H as <-.
    apply map_outcome_forall2 in E. pose proof (oi_jobs _ _ _ _ z (ki_oi z S)) as J.
    unfold optimizer_best, best_job, at_index. cbn [oz_jobs].
    destruct E as [|a b l l' Hab E]; [reflexivity|]. cbn. inversion J; subst.
    destruct (copy_reports_the_same o p op a b HP ltac:(assumption) Hab) as (_ & B' & _). rewrite B'. reflexivity. }
  unfold optimizer_copy in H. apply bind_ok in H. destruct H as (jobs & _ & H). injection H as <-.
  destruct S as [_ S1 S3].
  constructor; cbn [oz_idle oz_epochs oz_last]; auto.
  destruct S3 as [L|(m & Bm & Q & L)]; [left; exact L|right]. exists m. rewrite B. auto.
Qed.

Lemma counted_inv : forall z, optimizer_searched o p op threads z -> KI z.
Proof.
  intros z R. induction R as [z H|z ks z' R IH NC H|z z' R IH H|z z' R IH H].
  - apply ki_new, H.
  - apply (ki_update z ks z' IH NC H).
  - apply (ki_reset z z' IH H).
  - apply (ki_copy z z' IH H).
Qed.
End Counted.

(** ** The invariant of a search *)

Section Searched.
Context (o : oracles) (p : params) (op : options) (threads : nat).
Context (HP : problem p) (HN : sane_numbers p) (HF : finite_work p) (HE : exp_sane o) (HM : mean_sane o op)
  (HO : sane_options op) (HX : exp_nonneg o) (HL : log_sane o) (HI : iteration_range op).

Record SI (z : optimizer) : Prop := {
  si_ki : KI o p op threads z;
  si_curve : CI 31 3 (oz_curve z);
  si_progress : in_unit (oz_progress z) \/
                (flat_at_zero o z /\ oz_progress z = f_min (or_exp o B754_nan) f_one)
}.

(** An update of an optimizer that has not converged succeeds. *)
Lemma si_update : forall z ks, SI z -> has_converged z = false ->
  (exists z', optimizer_update o z ks = Ok z') /\ forall z', optimizer_update o z ks = Ok z' -> SI z'.
Proof.
  intros z ks S NC. pose proof (ki_oi _ _ _ _ z (si_ki z S)) as I. pose proof (ki_epochs _ _ _ _ z (si_ki z S)) as EP.
  assert (TR : (1 + top_rank < 2 ^ 31)%Z) by (unfold top_rank; lia).
  pose proof (oi_batch _ _ _ _ z I) as BE. pose proof (oi_batch_pos _ _ _ _ z I) as BP.
  pose proof (oi_max _ _ _ _ z I) as ME. pose proof (oi_max_pos _ _ _ _ z I) as MP.
  pose proof (oi_idle _ _ _ _ z I) as ID.
  pose proof (oi_count _ _ _ _ z I) as CN. pose proof (oi_some _ _ _ _ z I) as SM.
  pose proof (ir_batch op HI) as IR1. pose proof (ir_sum op HI) as IR2.
  unfold has_converged in NC. apply Z.leb_gt in NC.
  assert (G : exists z', optimizer_update o z ks = Ok z' /\ CI 31 3 (oz_curve z') /\
            (in_unit (oz_progress z') \/
             (flat_at_zero o z' /\ oz_progress z' = f_min (or_exp o B754_nan) f_one))).
  { unfold optimizer_update. rewrite expects_Ok by (apply Z.ltb_lt; lia).
    rewrite expects_Ok by (apply nonempty_neg; lia).
    destruct (update_jobs_total o p op HP HN HF HE HM HO ks (oz_jobs z) 0 (oi_jobs _ _ _ _ z I)) as (jobs1 & E1).
    rewrite E1. cbn [bind].
    destruct (update_jobs_reached o p op HP ks _ 0 jobs1 (oi_jobs _ _ _ _ z I) E1) as [F1 L1].
    pose proof (Forall2_length L1) as LL.
    destruct (replicate_total o p op HP HN HF HE HM HO jobs1) as (jobs2 & E2);
      [intro X; subst jobs1; cbn in LL; lia|exact F1|].
    rewrite E2. cbn [bind].
    destruct (replicate_spec o p op HP jobs1 jobs2 F1 E2) as (t & _ & _ & R). pose proof (Forall2_length R) as LR.
    set (z1 := Build_optimizer _ _ _ _ _ _ _ jobs2).
    assert (EM : exists m, optimizer_best z1 = Ok m).
    { unfold optimizer_best, best_job, at_index, z1. cbn [oz_jobs].
      destruct jobs2 as [|j l]; [cbn in LR; lia|]. cbn. eauto. }
    destruct EM as (m & EM). rewrite EM. cbn [bind].
    set (q := f_div (f_of_Z (oz_idle z + oz_batch z)) (f_of_Z (oz_max_idle z))).
    assert (EQ : idle_progress z1 = Ok q).
    { unfold idle_progress, z1. cbn [oz_max_idle oz_idle].
      rewrite expects_Ok by (apply Z.ltb_lt; lia). rewrite expects_Ok by (apply Z.leb_le; lia). reflexivity. }
    destruct (idle_ratio (oz_idle z + oz_batch z) (oz_max_idle z)) as [Fq Bq]; [lia|lia|]. fold q in Fq, Bq.
    destruct (f_eq m (oz_last z1)).
    - unfold interpolate_progress. rewrite expects_Ok by (apply Z.leb_le; cbn; lia). rewrite EQ. cbn [bind].
      eexists. split; [reflexivity|]. cbn [oz_curve oz_progress]. split; [apply S|].
      destruct (interpolated o (oz_curve z) (oz_epochs z) q HX (si_curve z S)) as [G|(G1 & G2 & G3)]; auto; [lia| |].
      + left. split; apply min_one_nn; exact G.
      + right. split; [split; assumption|]. f_equal. exact G3.
    - unfold estimate_progress. rewrite expects_Ok by (apply Z.leb_le; cbn; lia). rewrite EQ, EM. cbn [bind].
      destruct (epoch_number (oz_epochs z + 1)) as [Fx Bx]; [lia|].
      destruct (add_point o HX HL 31 3 ltac:(lia) ltac:(lia) ltac:(lia) (oz_curve z) (f_of_Z (oz_epochs z + 1)) q
                  (si_curve z S) Fx Bx Fq Bq) as (r & c' & ER & CI' & NR).
      change (oz_curve z1) with (oz_curve z). change (oz_epochs z1) with (oz_epochs z).
      rewrite ER. cbn [bind fst snd]. rewrite expects_Ok by (apply Z.ltb_lt; lia).
      rewrite expects_Ok by (apply min_one_nn, NR). eexists. split; [reflexivity|]. cbn [oz_curve oz_progress].
      split; [exact CI'|]. left. split; apply min_one_nn; exact NR. }
  destruct G as (z1 & U & CC & PR). split; [eauto|]. intros z' U'. rewrite U in U'. injection U' as <-.
  constructor; [|exact CC|exact PR]. apply (ki_update o p op threads HP z ks z1 (si_ki z S)); [|exact U].
  unfold has_converged. apply Z.leb_gt, NC.
Qed.

Lemma unit_zero : in_unit f_zero.
Proof. split; vm_compute; reflexivity. Qed.

Lemma si_new : forall z, optimizer_new o p op threads = Ok z -> SI z.
Proof.
  intros z H. pose proof (ki_new o p op threads z H) as K.
  unfold optimizer_new in H. ok_step H. ok_step H.
  apply bind_ok in H. destruct H as (jobs & _ & H). ok_step H. injection H as <-.
  constructor; cbn [oz_curve oz_progress]; auto.
  - apply ci_new; lia.
  - left. apply unit_zero.
Qed.

Lemma si_reset : forall z z', SI z -> optimizer_reset o z = Ok z' -> SI z'.
Proof.
  intros z z' S H. pose proof (ki_reset o p op threads z z' (si_ki z S) H) as K.
  unfold optimizer_reset in H. ok_step H. ok_step H. ok_step H. apply bind_ok in H.
  destruct H as (jobs & _ & H). injection H as <-.
  constructor; cbn [oz_curve oz_progress]; auto.
  - apply ci_new; lia.
  - left. apply unit_zero.
Qed.

Lemma si_copy : forall z z', SI z -> optimizer_copy z = Ok z' -> SI z'.
Proof.
  intros z z' S H. pose proof (ki_copy o p op threads HP z z' (si_ki z S) H) as K.
  unfold optimizer_copy in H. apply bind_ok in H. destruct H as (jobs & _ & H). injection H as <-.
  destruct S as [_ S2 S4]. constructor; cbn [oz_curve oz_progress]; auto.
Qed.

Lemma searched_inv : forall z, optimizer_searched o p op threads z -> SI z.
Proof.
  intros z R. induction R as [z H|z ks z' R IH NC H|z z' R IH H|z z' R IH H].
  - apply si_new, H.
  - apply (proj2 (si_update z ks IH NC) z' H).
  - apply (si_reset z z' IH H).
  - apply (si_copy z z' IH H).
Qed.

Lemma searched_run : forall z ks n z', optimizer_searched o p op threads z ->
  optimizer_run o z ks n = Ok z' ->
  (forall i y, (i < n)%nat -> optimizer_run o z ks i = Ok y -> has_converged y = false) ->
  optimizer_searched o p op threads z'.
Proof.
  intros z ks n. induction n as [|n IH]; intros z' R H NC; cbn [optimizer_run] in H; [injection H as <-; exact R|].
  apply bind_ok in H. destruct H as (z1 & H1 & H). apply os_update with z1 (ks n).
  - apply (IH z1 R H1). intros i y Hi. apply NC. lia.
  - apply (NC n z1); [lia|exact H1].
  - exact H.
Qed.
End Searched.

Lemma searched_reached : forall o p op threads z, optimizer_searched o p op threads z ->
  optimizer_reached o p op threads z.
Proof.
  intros o p op threads z R. induction R as [z H|z ks z' R IH NC H|z z' R IH H|z z' R IH H].
  - apply or_new, H.
  - apply or_update with z ks; assumption.
  - apply or_reset with z; assumption.
  - apply or_copy with z; assumption.
Qed.
