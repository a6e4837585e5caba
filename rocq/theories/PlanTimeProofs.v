(** * Proofs about the durations in the file *)

From Coq Require Import ZArith Bool List Reals Lia Lra Psatz.
From Flocq Require Import Core BinarySingleNaN Relative Mult_error.
From Verif Require Import Base F32 F32Facts ProjectModel ScheduleModel ScheduleSpec F32Signed StunProofs NormaliseProofs SimulationSpec JsonProps.
From Verif Require Import JsonModel.
Import ListNotations.

Local Open Scope R_scope.

Lemma average_near : forall q a,
  f_lt f_zero (perf_min q) = true -> f_le (perf_min q) (perf_max q) = true ->
  B2R (perf_max q) < bpow radix2 127 -> is_finite (perf_max q) = true ->
  perf_average q = Ok a -> bpow radix2 (-31) <= val a ->
  near 2 (val a) ((B2R (perf_min q) + B2R (perf_max q)) / 2) /\ 0 < B2R (perf_min q).
Proof.
  intros q a H1 H2 H3 H4 E B. unfold perf_average in E. rewrite H1, H2 in E. cbn [expects bind] in E.
  assert (EA : a = f_div (f_add (perf_min q) (perf_max q)) (f_of_Z 2)) by congruence. clear E. subst a.
  assert (P1 : pos (perf_min q)) by (apply pos_iff, H1).
  destruct (le_num _ _ H2) as [_ N2].
  rewrite le_key in H2 by (assumption || apply P1). apply Z.leb_le, val_le_key in H2.
  pose proof (pos_val _ P1) as PV.
  assert (P2 : nn (perf_max q)) by (apply val_nn; [exact N2|]; lra).
  rewrite <- val_finite in H3 by exact H4.
  assert (F1 : is_finite (perf_min q) = true) by (apply finite_lt; [apply pos_nn, P1|]; lra).
  rewrite <- (val_finite (perf_min q)), <- (val_finite (perf_max q)) by assumption.
  set (lo := perf_min q) in *. set (hi := perf_max q) in *. split; [|exact PV].
  destruct (add_nn lo hi (pos_nn _ P1) P2) as [Na Va].
  assert (Dbl : rnd (2 * val hi) = 2 * val hi).
  { rewrite val_finite by exact H4. rewrite Rmult_comm. apply round_generic; [apply valid_rnd_N|].
    change 2 with (bpow radix2 1). apply (mult_bpow_pos_exact_FLT radix2 (-149) 24); [|lia]. apply generic_format_B2R. }
  assert (D128 : 2 * val hi < bpow radix2 128).
  { change (bpow radix2 128) with (bpow radix2 (1 + 127)). rewrite bpow_plus. change (bpow radix2 1) with 2. lra. }
  rewrite (clamp_off _ (2 * val hi)) in Va; [|lra|exact Dbl|exact D128].
  assert (LE : val (f_add lo hi) <= 2 * val hi) by (rewrite Va, <- Dbl; apply rnd_le; lra).
  assert (Fa : is_finite (f_add lo hi) = true) by (apply num_finite_of_val; [exact Na|]; lra).
  destruct two_pos as (P & F & V).
  destruct (div_finite _ _ Na Fa P F) as [Nd Vd]. rewrite V in Vd.
  set (s := val (f_add lo hi)) in *.
  assert (B126 : bpow radix2 (-126) < bpow radix2 (-31)) by (apply bpow_lt; lia).
  pose proof (bpow_gt_0 radix2 (-126)) as P126.
  assert (C : clamp (rnd (s / 2)) <= rnd (s / 2)) by apply Rmin_l.
  assert (S2 : bpow radix2 (-126) <= s / 2).
  { destruct (Rle_lt_dec (bpow radix2 (-126)) (s / 2)) as [L|L]; [exact L|exfalso].
    apply Rlt_le, rnd_le in L. rewrite rnd_bpow in L by lia. lra. }
  assert (S1 : bpow radix2 (-126) <= val lo + val hi).
  { destruct (Rle_lt_dec (bpow radix2 (-126)) (val lo + val hi)) as [L|L]; [exact L|exfalso].
    apply Rlt_le, rnd_le in L. rewrite rnd_bpow in L by lia. lra. }
  rewrite Vd, (clamp_off _ (val hi)); [|lra|apply rnd_val|].
  2: { assert (bpow radix2 127 < bpow radix2 128) by (apply bpow_lt; lia). lra. }
  apply (near_trans 1 1 _ (s / 2)); [apply rnd_near; exact S2|].
  pose proof (rnd_near _ S1) as N1. rewrite <- Va in N1. destruct N1 as [X Y]. split; lra.
Qed.

Lemma duration_near : forall t a x z, (0 < tk_min t <= tk_max t /\ tk_max t <= 2 ^ 63)%Z ->
  f_lt f_zero (perf_min (ag_perf a)) = true -> f_le (perf_min (ag_perf a)) (perf_max (ag_perf a)) = true ->
  B2R (perf_max (ag_perf a)) < bpow radix2 127 -> is_finite (perf_max (ag_perf a)) = true ->
  json_task_duration t a = Ok x -> to_int x = Ok z ->
  let exact := IZR (mean t) / ((B2R (perf_min (ag_perf a)) + B2R (perf_max (ag_perf a))) / 2) in
  exact * (1 - bpow radix2 (-22)) < IZR z + 1 /\ IZR z * (1 - bpow radix2 (-22)) <= exact.
Proof.
  intros t a x z D H1 H2 H3 H4 E Z exact. unfold json_task_duration in E. pose proof (mean_range t D) as MR.
  rewrite duration_average_ok in E by lia. cbn [bind] in E.
  destruct (Z.ltb_spec 0 (mean t)); [|discriminate E]. cbn [expects bind] in E.
  apply bind_ok in E. destruct E as (q & Q & E). destruct (f_lt f_zero q) eqn:QP; [|discriminate E]. cbn [expects bind] in E.
  injection E as <-.
  destruct (perf_average_spec _ H1 H2 H3 H4) as (q' & Q' & Fq & _). rewrite Q in Q'. injection Q' as <-.
  destruct (of_Z_near (mean t) MR) as (A & B & NZ & V1 & V2).
  assert (PQ : pos q) by (apply pos_iff, QP). pose proof (pos_val q PQ) as VQ.
  destruct (div_finite (f_of_Z (mean t)) q (pos_nn _ A) B PQ Fq) as [N W].
  destruct (to_int_whole _ _ N Z) as ((Fx & X1 & X2) & Z1 & Z2). rewrite <- (val_finite _ Fx) in X1, X2.
  set (v := val (f_of_Z (mean t))) in *. set (y := val (f_div (f_of_Z (mean t)) q)) in *. rewrite plus_IZR in X2.
  assert (Y31 : y < bpow radix2 31).
  { apply Rlt_le_trans with (1 := X2). rewrite <- plus_IZR. change (bpow radix2 31) with (IZR (2 ^ 31)). apply IZR_le. lia. }
  assert (B128 : bpow radix2 31 < bpow radix2 128) by (apply bpow_lt; lia).
  assert (R31 : rnd (v / val q) < bpow radix2 31).
  { unfold clamp, Rmin in W. destruct (Rle_dec (rnd (v / val q)) (bpow radix2 128)); lra. }
  assert (YR : y = rnd (v / val q)) by (rewrite W; unfold clamp; apply Rmin_left; lra).
  assert (V31 : v / val q < bpow radix2 31).
  { destruct (Rlt_le_dec (v / val q) (bpow radix2 31)) as [L|L]; [exact L|exfalso].
    apply rnd_le in L. rewrite rnd_bpow in L by lia. lra. }
  assert (Q31 : bpow radix2 (-31) <= val q).
  { apply Rmult_lt_compat_r with (r := val q) in V31; [|exact VQ].
    replace (v / val q * val q) with v in V31 by (field; lra).
    change (bpow radix2 (-31)) with (/ IZR 2147483648). change (bpow radix2 31) with (IZR 2147483648) in V31. lra. }
  destruct (average_near _ _ H1 H2 H3 H4 Q Q31) as [NQ PM].
  assert (HP : 0 < (B2R (perf_min (ag_perf a)) + B2R (perf_max (ag_perf a))) / 2).
  { assert (F1 : is_finite (perf_min (ag_perf a)) = true).
    { destruct (perf_min (ag_perf a)); cbn in PM; try lra. reflexivity. }
    apply fin_le in H2; [|exact F1|exact H4]. lra. }
  assert (MP : 0 < IZR (mean t)) by (apply IZR_lt; lia).
  assert (NE : near 3 (v / val q) exact) by (apply (near_div 1 2); [lra|lra|exact VQ|exact HP|exact NZ|exact NQ]).
  assert (PE : 0 < exact) by (apply Rdiv_lt_0_compat; assumption).
  assert (PR : 0 < v / val q) by (apply Rdiv_lt_0_compat; lra).
  assert (U : 1 - bpow radix2 (-22) <= uq ^ 4).
  { pose proof (bernoulli 4) as BE. cbn [INR] in BE. change (bpow radix2 (-24)) with (/ IZR 16777216) in BE.
    change (bpow radix2 (-22)) with (/ IZR 4194304). lra. }
  assert (U0 : 0 < 1 - bpow radix2 (-22)) by (change (bpow radix2 (-22)) with (/ IZR 4194304); lra).
  assert (ZP : 0 <= IZR z) by (apply IZR_le; exact Z1).
  destruct (Rle_lt_dec (bpow radix2 (-126)) (v / val q)) as [L|L].
  - pose proof (near_trans 1 3 _ _ _ (rnd_near _ L) NE) as [G1 G2]. cbn [Nat.add] in G1, G2. rewrite <- YR in G1, G2. split.
    + apply Rle_lt_trans with (exact * uq ^ 4); [apply Rmult_le_compat_l; lra|lra].
    + apply Rle_trans with (IZR z * uq ^ 4); [apply Rmult_le_compat_l; lra|].
      apply Rle_trans with (y * uq ^ 4); [apply Rmult_le_compat_r; [left; apply uqk_pos|exact X1]|exact G2].
  - assert (SM : bpow radix2 (-126) < 1) by (change 1 with (bpow radix2 0); apply bpow_lt; lia).
    apply Rlt_le, rnd_le in L as L'. rewrite rnd_bpow in L' by lia.
    assert (Z0 : z = 0%Z). { assert (z < 1)%Z by (apply lt_IZR; lra). lia. }
    subst z. rewrite Rmult_0_l. split; [|lra]. destruct NE as [G1 _].
    pose proof (uqk_pos 3). pose proof (uqk_le1 3). assert (UU : uq ^ 4 <= uq ^ 3).
    { change (uq ^ 4) with (uq * uq ^ 3). pose proof uq_bounds. nra. }
    apply Rle_lt_trans with (exact * uq ^ 3); [apply Rmult_le_compat_l; lra|]. lra.
Qed.
