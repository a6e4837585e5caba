(** * Proofs about normalised task durations *)

From Coq Require Import ZArith Bool List Reals Lia Lra Psatz.
From Flocq Require Import Core BinarySingleNaN Relative Mult_error.
From Verif Require Import Base F32 F32Facts ProjectModel ScheduleModel ScheduleSpec.
Import ListNotations.

Local Open Scope R_scope.

Lemma uq_bounds : 0 < uq < 1.
Proof.
  unfold uq. change (bpow radix2 (-24)) with (/ IZR 16777216). split; lra.
Qed.

Lemma uqk_pos : forall k, 0 < uq ^ k.
Proof. intro k. apply pow_lt, uq_bounds. Qed.

Lemma uqk_le1 : forall k, uq ^ k <= 1.
Proof.
  induction k as [|k IH]; cbn [pow]; [lra|].
  pose proof uq_bounds. pose proof (uqk_pos k). nra.
Qed.

Lemma near_sym : forall k x y, near k x y -> near k y x.
Proof. intros k x y [A B]. split; assumption. Qed.

Lemma near_trans : forall k l x y z, near k x y -> near l y z -> near (k + l) x z.
Proof.
  intros k l x y z [A B] [C D]. unfold near. rewrite pow_add.
  pose proof (uqk_pos k). pose proof (uqk_pos l). split; nra.
Qed.

Lemma near_refl : forall x, near 0 x x.
Proof. intro x. unfold near. cbn [pow]. lra. Qed.

Lemma near_weaken : forall k l x y, 0 <= x -> 0 <= y -> (k <= l)%nat -> near k x y -> near l x y.
Proof.
  intros k l x y Hx Hy L [A B]. unfold near.
  replace l with (k + (l - k))%nat by lia. rewrite pow_add.
  pose proof (uqk_pos k). pose proof (uqk_pos (l - k)). pose proof (uqk_le1 (l - k)).
  split.
  - apply Rle_trans with (y * uq ^ k); [|exact A]. rewrite <- Rmult_assoc.
    rewrite <- (Rmult_1_r (y * uq ^ k)) at 2. apply Rmult_le_compat_l; [nra|assumption].
  - apply Rle_trans with (x * uq ^ k); [|exact B]. rewrite <- Rmult_assoc.
    rewrite <- (Rmult_1_r (x * uq ^ k)) at 2. apply Rmult_le_compat_l; [nra|assumption].
Qed.

Lemma near_add : forall k x y x' y', near k x x' -> near k y y' -> near k (x + y) (x' + y').
Proof. intros k x y x' y' [A B] [C D]. unfold near. split; lra. Qed.

Lemma near_div : forall k l x y x' y', 0 <= x -> 0 <= x' -> 0 < y -> 0 < y' ->
  near k x x' -> near l y y' -> near (k + l) (x / y) (x' / y').
Proof.
  assert (Half : forall k l x y x' y', 0 <= x -> 0 <= x' -> 0 < y -> 0 < y' ->
    x' * uq ^ k <= x -> y * uq ^ l <= y' -> x' / y' * uq ^ (k + l) <= x / y).
  { intros k l x y x' y' Hx Hx' Hy Hy' A B. rewrite pow_add.
    pose proof (uqk_pos k). pose proof (uqk_pos l).
    apply Rmult_le_reg_r with (y * y'); [nra|].
    replace (x' / y' * (uq ^ k * uq ^ l) * (y * y')) with ((x' * uq ^ k) * (y * uq ^ l)) by (field; lra).
    replace (x / y * (y * y')) with (x * y') by (field; lra).
    apply Rmult_le_compat; nra. }
  intros k l x y x' y' Hx Hx' Hy Hy' [A B] [C D]. split; apply Half; assumption.
Qed.

Lemma near_mult : forall k l x y x' y', 0 <= x -> 0 <= x' -> 0 <= y -> 0 <= y' ->
  near k x x' -> near l y y' -> near (k + l) (x * y) (x' * y').
Proof.
  intros k l x y x' y' Hx Hx' Hy Hy' [A B] [C D]. unfold near. rewrite pow_add.
  pose proof (uqk_pos k). pose proof (uqk_pos l). split.
  - replace (x' * y' * (uq ^ k * uq ^ l)) with ((x' * uq ^ k) * (y' * uq ^ l)) by ring.
    apply Rmult_le_compat; nra.
  - replace (x * y * (uq ^ k * uq ^ l)) with ((x * uq ^ k) * (y * uq ^ l)) by ring.
    apply Rmult_le_compat; nra.
Qed.

Lemma rnd_near : forall x, bpow radix2 (-126) <= x -> near 1 (rnd x) x.
Proof.
  intros x Hx. pose proof (bpow_gt_0 radix2 (-126)) as P.
  pose proof (relative_error_N_FLT radix2 (-149) 24 eq_refl (fun z => negb (Z.even z)) x) as H.
  rewrite Rabs_pos_eq in H by lra. specialize (H Hx).
  change (FLT_exp (-149) 24) with fexp32 in H.
  change (Znearest (fun z => negb (Z.even z))) with (round_mode mode_NE) in H.
  apply Rabs_le_inv in H. unfold near, uq. rewrite pow_1.
  assert (E : / 2 * bpow radix2 (Z.opp 24 + 1) = bpow radix2 (-24)).
  { change (bpow radix2 (Z.opp 24 + 1)) with (/ IZR 8388608).
    change (bpow radix2 (-24)) with (/ IZR 16777216). lra. }
  rewrite E in H. change (bpow radix2 (-24)) with (/ IZR 16777216) in *. split; lra.
Qed.

Lemma bernoulli : forall k, 1 - INR k * bpow radix2 (-24) <= uq ^ k.
Proof.
  induction k as [|k IH].
  - cbn. lra.
  - rewrite S_INR. cbn [pow]. pose proof uq_bounds. pose proof (uqk_pos k).
    pose proof (uqk_le1 k). unfold uq at 1.
    pose proof (bpow_gt_0 radix2 (-24)). nra.
Qed.

Lemma uqk_half : forall k, (Z.of_nat k <= 2 ^ 21)%Z -> / 2 <= uq ^ k.
Proof.
  intros k H. pose proof (bernoulli k) as B. rewrite INR_IZR_INZ in B.
  apply IZR_le in H. change (2 ^ 21)%Z with 2097152%Z in H.
  change (bpow radix2 (-24)) with (/ IZR 16777216) in B. lra.
Qed.

Lemma clamp_off : forall x y, x <= y -> rnd y = y -> y < bpow radix2 128 -> clamp (rnd x) = rnd x.
Proof.
  intros x y L E B. unfold clamp. apply Rmin_left. apply rnd_le in L. lra.
Qed.

Lemma rnd_bpow : forall e, (-149 <= e)%Z -> rnd (bpow radix2 e) = bpow radix2 e.
Proof.
  intros e H. apply round_generic; [apply valid_rnd_N|].
  apply generic_format_bpow. unfold SpecFloat.fexp, SpecFloat.emin. lia.
Qed.

Lemma finite_lt : forall x, nn x -> val x <= bpow radix2 127 -> is_finite x = true.
Proof.
  intros x Hx L. apply num_finite_of_val; [exact Hx|].
  eapply Rle_lt_trans; [exact L|]. apply bpow_lt. lia.
Qed.

Lemma val_pos_pos : forall x, nn x -> 0 < val x -> pos x.
Proof.
  intros x [N K] H. split; [exact N|].
  assert (E : val f_zero = 0) by (unfold val; cbn [key f_zero]; ring).
  rewrite <- E in H. apply val_lt_key in H. exact H.
Qed.

(** Conversion of a moderately large positive integer. *)
Lemma of_Z_near : forall z, (1 <= z <= 2 ^ 64)%Z ->
  pos (f_of_Z z) /\ is_finite (f_of_Z z) = true /\ near 1 (val (f_of_Z z)) (IZR z) /\
  1 <= val (f_of_Z z) <= bpow radix2 64.
Proof.
  intros z Hz. destruct (of_Z_spec z) as [N V]; [lia|].
  assert (L : IZR z <= bpow radix2 64).
  { change (bpow radix2 64) with (IZR (2 ^ 64)). apply IZR_le. lia. }
  assert (L1 : 1 <= IZR z) by (apply IZR_le; lia).
  rewrite (clamp_off _ (bpow radix2 64)) in V;
    [|exact L|apply rnd_bpow; lia|apply bpow_lt; lia].
  assert (B : 1 <= val (f_of_Z z) <= bpow radix2 64).
  { rewrite V. split.
    - replace 1 with (bpow radix2 0) by reflexivity. rewrite <- (rnd_bpow 0) by lia.
      apply rnd_le. exact L1.
    - rewrite <- (rnd_bpow 64) by lia. apply rnd_le. exact L. }
  split; [apply val_pos_pos; [exact N|lra]|]. split.
  - apply finite_lt; [exact N|]. eapply Rle_trans; [apply B|]. apply bpow_le. lia.
  - split; [|exact B]. rewrite V. apply rnd_near.
    apply Rle_trans with (bpow radix2 0); [apply bpow_le; lia|exact L1].
Qed.

(** Floating point summation. *)
Definition good (d : f32) : Prop :=
  nn d /\ is_finite d = true /\ 1 <= val d <= bpow radix2 64.

Lemma sum_near : forall l k t S, Forall good l -> nn t ->
  (Z.of_nat (k + length l) <= 2 ^ 20)%Z ->
  near k (val t) S -> 0 <= S <= INR k * bpow radix2 64 ->
  nn (fold_left f_add l t) /\
  near (k + length l) (val (fold_left f_add l t)) (S + rsum (map val l)) /\
  0 <= S + rsum (map val l) <= INR (k + length l) * bpow radix2 64.
Proof.
  induction l as [|d l IH]; intros k t Sm Hl Ht Hk Hn HS; cbn [fold_left length map rsum].
  - rewrite Nat.add_0_r, Rplus_0_r. auto.
  - inversion Hl as [|? ? Hd Hl']; subst. destruct Hd as (Nd & Fd & Vd).
    destruct (add_nn t d Ht Nd) as [Na Va].
    pose proof (nn_val t Ht) as Vt.
    assert (Bt : val t <= 2 * INR k * bpow radix2 64).
    { destruct Hn as [_ Hn].
      assert (/ 2 <= uq ^ k) by (apply uqk_half; lia).
      nra. }
    assert (Bk : INR k <= bpow radix2 20).
    { rewrite INR_IZR_INZ. change (bpow radix2 20) with (IZR (2 ^ 20)). apply IZR_le. lia. }
    assert (Bsum : val t + val d <= bpow radix2 100).
    { apply Rle_trans with (3 * (bpow radix2 20 * bpow radix2 64)).
      - assert (1 <= bpow radix2 20) by (change 1 with (bpow radix2 0); apply bpow_le; lia).
        pose proof (bpow_gt_0 radix2 64). pose proof (pos_INR k). nra.
      - rewrite <- bpow_plus. replace 100%Z with (2 + (14 + (20 + 64)))%Z by lia.
        rewrite (bpow_plus radix2 2). apply Rmult_le_compat;
          [lra|apply bpow_ge_0|change (bpow radix2 2) with 4; lra|apply bpow_le; lia]. }
    rewrite (clamp_off _ (bpow radix2 100)) in Va;
      [|exact Bsum|apply rnd_bpow; lia|apply bpow_lt; lia].
    assert (N1 : near 1 (val (f_add t d)) (val t + val d)).
    { rewrite Va. apply rnd_near. apply Rle_trans with (bpow radix2 0);
        [apply bpow_le; lia|]. change (bpow radix2 0) with 1. lra. }
    assert (N2 : near k (val t + val d) (Sm + val d)).
    { apply near_add; [exact Hn|]. apply near_weaken with 0%nat; [lra|lra|lia|apply near_refl]. }
    assert (N3 : near (S k) (val (f_add t d)) (Sm + val d)).
    { replace (S k) with (1 + k)%nat by lia. eapply near_trans; eassumption. }
    destruct (IH (S k) (f_add t d) (Sm + val d) Hl' Na) as (A & B & C).
    + cbn [length] in Hk. lia.
    + exact N3.
    + rewrite S_INR. nra.
    + replace (k + S (length l))%nat with (S k + length l)%nat by lia.
      replace (Sm + (val d + rsum (map val l))) with (Sm + val d + rsum (map val l)) by ring.
      auto.
Qed.

Lemma map_outcome_Ok : forall A B (f : A -> outcome B) (g : A -> B) l,
  (forall a, In a l -> f a = Ok (g a)) -> map_outcome f l = Ok (map g l).
Proof.
  intros A B f g l. induction l as [|a l IH]; intro H; cbn [map_outcome map]; [reflexivity|].
  rewrite H by (left; reflexivity). cbn [bind]. rewrite IH; [reflexivity|].
  intros x Hx. apply H. right. exact Hx.
Qed.

Lemma duration_average_ok : forall t, (0 < tk_min t <= tk_max t)%Z ->
  duration_average t = Ok (mean t).
Proof.
  intros t H. unfold duration_average, mean.
  rewrite (proj2 (Z.ltb_lt 0 (tk_min t))) by lia.
  rewrite (proj2 (Z.leb_le (tk_min t) (tk_max t))) by lia.
  cbn [expects bind]. rewrite Z.quot_div_nonneg by lia. reflexivity.
Qed.

Lemma mean_range : forall t, (0 < tk_min t <= tk_max t /\ tk_max t <= 2 ^ 63)%Z ->
  (1 <= mean t <= 2 ^ 64)%Z.
Proof.
  intros t H. unfold mean. split.
  - apply Z.div_le_lower_bound; lia.
  - apply Z.div_le_upper_bound; lia.
Qed.

Lemma rsum_near : forall k l l', Forall2 (near k) l l' -> near k (rsum l) (rsum l').
Proof.
  intros k l l' H. induction H; cbn [rsum].
  - unfold near. lra.
  - apply near_add; assumption.
Qed.

Lemma rsum_scale : forall c l, rsum (map (fun x => x / c) l) = rsum l / c.
Proof.
  intros c l. induction l as [|x l IH]; cbn [map rsum].
  - unfold Rdiv. ring.
  - rewrite IH. unfold Rdiv. ring.
Qed.

Lemma rsum_ge1 : forall l, l <> [] -> Forall (fun x => 1 <= x) l -> 1 <= rsum l.
Proof.
  assert (Z : forall l, Forall (fun x => 1 <= x) l -> 0 <= rsum l).
  { induction 1; cbn [rsum]; lra. }
  intros [|x l] Hne H; [congruence|]. inversion H; subst. cbn [rsum].
  specialize (Z l). specialize (Z ltac:(assumption)). lra.
Qed.

Lemma normalise_ok : forall l m,
  l <> [] -> (0 < m)%nat -> sane_durations l ->
  (Z.of_nat (length l) <= 2 ^ 20)%Z -> (Z.of_nat m <= 2 ^ 31)%Z ->
  exists norm mult,
    task_duration l m = Ok (norm, mult) /\
    pos mult /\ is_finite mult = true /\
    Forall (fun d => pos d /\ is_finite d = true) norm /\
    Forall2 (fun d t => near 2 (val d * val mult) (IZR (mean t))) norm l /\
    near (length l + 3) (rsum (map val norm)) (IZR (Z.of_nat m)).
Proof.
  intros l m Hne Hm Hl Hlen Hmb.
  unfold task_duration.
  assert (E0 : (match l with [] => true | _ => false end) = false) by (destruct l; congruence).
  rewrite E0. cbn [negb expects bind].
  rewrite (proj2 (Nat.ltb_lt 0 m) Hm). cbn [expects bind].
  rewrite (map_outcome_Ok _ _ _ mean) by (intros t Ht; apply duration_average_ok; apply Hl, Ht).
  cbn [bind]. cbv zeta. rewrite (map_map mean f_of_Z l).
  set (ds := map (fun t => f_of_Z (mean t)) l).
  assert (Gd : Forall good ds).
  { unfold ds. apply Forall_map, Forall_forall. intros t Ht.
    destruct (of_Z_near (mean t) (mean_range t (Hl t Ht))) as (A & B & C & D).
    split; [apply pos_nn, A|]. split; assumption. }
  assert (Lds : length ds = length l) by (unfold ds; apply map_length).
  destruct (sum_near ds 0 f_zero 0 Gd nn_zero) as (Nt & St & Bt).
  { rewrite Lds. exact Hlen. }
  { assert (E : val f_zero = 0) by (unfold val; cbn [key f_zero]; ring).
    rewrite E. apply near_refl. }
  { cbn [INR]. lra. }
  set (total := fold_left f_add ds f_zero) in *.
  rewrite Rplus_0_l in St, Bt. cbn [Nat.add] in St, Bt. rewrite Lds in St, Bt.
  set (n := length l) in *. set (D := rsum (map val ds)) in *.
  assert (D1 : 1 <= D).
  { unfold D. apply rsum_ge1.
    - unfold ds. destruct l; [congruence|discriminate].
    - apply Forall_map. eapply Forall_impl; [|exact Gd]. intros d (_ & _ & H). apply H. }
  assert (Hq : / 2 <= uq ^ n) by (apply uqk_half; lia).
  assert (Bn : INR n <= bpow radix2 20).
  { rewrite INR_IZR_INZ. change (bpow radix2 20) with (IZR (2 ^ 20)). apply IZR_le. lia. }
  pose proof (bpow_gt_0 radix2 64) as P64.
  assert (Bt2 : / 2 <= val total <= bpow radix2 85).
  { destruct St as [A B]. split; [nra|].
    apply Rle_trans with (2 * (bpow radix2 20 * bpow radix2 64)).
    - assert (D <= bpow radix2 20 * bpow radix2 64) by nra. nra.
    - right. rewrite <- bpow_plus. change 2 with (bpow radix2 1). rewrite <- bpow_plus. reflexivity. }
  assert (Ft : is_finite total = true).
  { apply finite_lt; [exact Nt|]. eapply Rle_trans; [apply Bt2|]. apply bpow_le. lia. }
  destruct (of_Z_near (Z.of_nat m)) as (Pm & Fm & Nm & Bm); [lia|].
  set (fm := f_of_Z (Z.of_nat m)) in *.
  assert (Bm2 : val fm <= bpow radix2 32).
  { destruct Nm as [_ B]. rewrite pow_1 in B. pose proof uq_bounds as U.
    assert (IZR (Z.of_nat m) <= bpow radix2 31)
      by (change (bpow radix2 31) with (IZR (2 ^ 31)); apply IZR_le; lia).
    assert (/ 2 <= uq) by (unfold uq; change (bpow radix2 (-24)) with (/ IZR 16777216); lra).
    change (bpow radix2 32) with (bpow radix2 (1 + 31)). rewrite bpow_plus.
    change (bpow radix2 1) with 2. nra. }
  destruct (div_finite total fm Nt Ft Pm Fm) as [Nu Vu].
  set (mult := f_div total fm) in *.
  assert (Q1 : bpow radix2 (-34) <= val total / val fm <= bpow radix2 85).
  { split.
    - apply Rmult_le_reg_r with (val fm); [lra|]. unfold Rdiv. rewrite Rmult_assoc, Rinv_l, Rmult_1_r by lra.
      apply Rle_trans with (bpow radix2 (-34) * bpow radix2 32).
      + apply Rmult_le_compat_l; [apply bpow_ge_0|apply Bm2].
      + rewrite <- bpow_plus. change (-34 + 32)%Z with (-2)%Z. change (bpow radix2 (-2)) with (/ 4). lra.
    - apply Rmult_le_reg_r with (val fm); [lra|]. unfold Rdiv. rewrite Rmult_assoc, Rinv_l, Rmult_1_r by lra.
      pose proof (bpow_gt_0 radix2 85). nra. }
  rewrite (clamp_off _ (bpow radix2 85)) in Vu;
    [|apply Q1|apply rnd_bpow; lia|apply bpow_lt; lia].
  assert (Bu : bpow radix2 (-34) <= val mult <= bpow radix2 85).
  { rewrite Vu. split.
    - rewrite <- (rnd_bpow (-34)) by lia. apply rnd_le, Q1.
    - rewrite <- (rnd_bpow 85) by lia. apply rnd_le, Q1. }
  pose proof (bpow_gt_0 radix2 (-34)) as P34.
  assert (Pu : pos mult) by (apply val_pos_pos; [exact Nu|lra]).
  assert (Fu : is_finite mult = true).
  { apply finite_lt; [exact Nu|]. eapply Rle_trans; [apply Bu|]. apply bpow_le. lia. }
  assert (Near_mult : near 1 (val mult) (val total / val fm)).
  { rewrite Vu. apply rnd_near. eapply Rle_trans; [|apply Q1]. apply bpow_le. lia. }
  assert (Each : forall d, good d -> pos (f_div d mult) /\ is_finite (f_div d mult) = true /\
            near 1 (val (f_div d mult)) (val d / val mult)).
  { intros d (Nd & Fd & Bd). destruct (div_finite d mult Nd Fd Pu Fu) as [Nq Vq].
    assert (Q2 : bpow radix2 (-85) <= val d / val mult <= bpow radix2 (64 + 34)).
    { split.
      - apply Rmult_le_reg_r with (val mult); [lra|]. unfold Rdiv. rewrite Rmult_assoc, Rinv_l, Rmult_1_r by lra.
        apply Rle_trans with (bpow radix2 (-85) * bpow radix2 85).
        + apply Rmult_le_compat_l; [apply bpow_ge_0|apply Bu].
        + rewrite <- bpow_plus. change (bpow radix2 (-85 + 85)) with 1. lra.
      - apply Rmult_le_reg_r with (val mult); [lra|]. unfold Rdiv. rewrite Rmult_assoc, Rinv_l, Rmult_1_r by lra.
        apply Rle_trans with (bpow radix2 64); [apply Bd|].
        rewrite bpow_plus, Rmult_assoc. rewrite <- (Rmult_1_r (bpow radix2 64)) at 1.
        apply Rmult_le_compat_l; [lra|]. change 1 with (bpow radix2 (34 + -34)).
        rewrite bpow_plus. apply Rmult_le_compat_l; [apply bpow_ge_0|apply Bu]. }
    rewrite (clamp_off _ (bpow radix2 (64 + 34))) in Vq;
      [|apply Q2|apply rnd_bpow; lia|apply bpow_lt; lia].
    assert (Bq : bpow radix2 (-85) <= val (f_div d mult) <= bpow radix2 (64 + 34)).
    { rewrite Vq. split.
      - rewrite <- (rnd_bpow (-85)) by lia. apply rnd_le, Q2.
      - rewrite <- (rnd_bpow (64 + 34)) by lia. apply rnd_le, Q2. }
    pose proof (bpow_gt_0 radix2 (-85)) as P85.
    split; [apply val_pos_pos; [exact Nq|lra]|]. split.
    - apply finite_lt; [exact Nq|]. eapply Rle_trans; [apply Bq|]. apply bpow_le. lia.
    - rewrite Vq. apply rnd_near. eapply Rle_trans; [|apply Q2]. apply bpow_le. lia. }
  exists (map (fun d => f_div d mult) ds), mult.
  split; [reflexivity|]. split; [exact Pu|]. split; [exact Fu|]. split; [|split].
  - apply Forall_map. eapply Forall_impl; [|exact Gd]. intros d Hd.
    destruct (Each d Hd) as (A & B & _). split; assumption.
  - unfold ds. rewrite map_map. clearbody mult. clear - Hl Each Pu Bu P34.
    induction l as [|t l IH]; cbn [map]; constructor.
    + destruct (of_Z_near (mean t) (mean_range t (Hl t (or_introl eq_refl)))) as (A & B & C & D).
      destruct (Each (f_of_Z (mean t))) as (A' & B' & C').
      { split; [apply pos_nn, A|]. split; assumption. }
      change 2%nat with (1 + 1)%nat. eapply near_trans; [|exact C].
      replace (val (f_of_Z (mean t))) with (val (f_of_Z (mean t)) / val mult * val mult)
        by (field; lra).
      replace 1%nat with (1 + 0)%nat by lia.
      apply near_mult; [apply nn_val, pos_nn, A'| |lra|lra|exact C'|apply near_refl].
      apply Rmult_le_pos; [lra|]. left. apply Rinv_0_lt_compat. lra.
    + apply IH. intros x Hx. apply Hl. right. exact Hx.
  - assert (Nsum : near 1 (rsum (map val (map (fun d => f_div d mult) ds))) (D / val mult)).
    { unfold D. rewrite <- rsum_scale, !map_map. apply rsum_near.
      clearbody mult. clear - Gd Each. induction Gd as [|d ds Hd Hds IH]; cbn [map]; constructor.
      - apply Each, Hd.
      - exact IH. }
    assert (PT : 0 < val total) by lra.
    assert (N2 : near (n + (1 + 1)) (D / val mult) (val total / (val total / IZR (Z.of_nat m)))).
    { assert (M1 : 1 <= IZR (Z.of_nat m)) by (apply IZR_le; lia).
      apply near_div; try lra.
      - apply Rmult_lt_0_compat; [exact PT|]. apply Rinv_0_lt_compat. lra.
      - apply near_sym, St.
      - eapply near_trans; [exact Near_mult|].
        replace 1%nat with (0 + 1)%nat by lia.
        apply near_div; try lra; [apply near_refl|exact Nm]. }
    replace (val total / (val total / IZR (Z.of_nat m))) with (IZR (Z.of_nat m)) in N2.
    2:{ assert (M1 : 1 <= IZR (Z.of_nat m)) by (apply IZR_le; lia). field. lra. }
    replace (n + 3)%nat with (1 + (n + (1 + 1)))%nat by lia.
    eapply near_trans; [exact Nsum|exact N2].
Qed.

Lemma rsum_B2R : forall l, Forall (fun d : f32 => pos d /\ is_finite d = true) l ->
  map val l = map B2R l.
Proof.
  intros l H. induction H as [|d l [_ F] Hl IH]; cbn [map]; [reflexivity|].
  rewrite IH, val_finite by exact F. reflexivity.
Qed.

Lemma normalise_spec : forall l m,
  l <> [] -> (0 < m)%nat -> sane_durations l ->
  (Z.of_nat (length l) <= 2 ^ 20)%Z -> (Z.of_nat m <= 2 ^ 31)%Z ->
  exists norm mult,
    task_duration l m = Ok (norm, mult) /\
    (is_finite mult = true /\ 0 < B2R mult) /\
    Forall (fun d : f32 => is_finite d = true /\ 0 < B2R d) norm /\
    Forall2 (fun (d : f32) t => near 2 (B2R d * B2R mult) (IZR (mean t))) norm l /\
    near (length l + 3) (rsum (map B2R norm)) (INR m).
Proof.
  intros l m A B C D E. destruct (normalise_ok l m A B C D E) as (norm & mult & F & G & H & I & J & K).
  exists norm, mult. split; [exact F|].
  rewrite <- val_finite by exact H. split; [split; [exact H|apply pos_val, G]|].
  split; [|split].
  - eapply Forall_impl; [|exact I]. intros d [P Q]. rewrite <- val_finite by exact Q.
    split; [exact Q|apply pos_val, P].
  - clear - I J. induction J as [|d t ds l Hd Hl IH]; [constructor|].
    inversion I as [|? ? [P Q] Hds]; subst. constructor; [|apply IH, Hds].
    rewrite <- (val_finite d) by exact Q. exact Hd.
  - rewrite <- (rsum_B2R norm I), INR_IZR_INZ. exact K.
Qed.

(** Average performance. *)
Lemma two_pos : pos (f_of_Z 2) /\ is_finite (f_of_Z 2) = true /\ val (f_of_Z 2) = 2.
Proof.
  split; [split; [reflexivity|vm_compute; reflexivity]|]. split; [reflexivity|].
  rewrite val_finite by reflexivity. unfold f_of_Z. vm_compute. lra.
Qed.

Lemma perf_average_spec : forall q,
  f_lt f_zero (perf_min q) = true -> f_le (perf_min q) (perf_max q) = true ->
  B2R (perf_max q) < bpow radix2 127 -> is_finite (perf_max q) = true ->
  exists a, perf_average q = Ok a /\ is_finite a = true /\
    B2R (perf_min q) <= B2R a <= B2R (perf_max q).
Proof.
  intros q H1 H2 H3 H4. unfold perf_average. rewrite H1, H2. cbn [expects bind].
  eexists. split; [reflexivity|].
  assert (P1 : pos (perf_min q)) by (apply pos_iff, H1).
  destruct (le_num _ _ H2) as [_ N2].
  rewrite le_key in H2 by (assumption || apply P1). apply Z.leb_le, val_le_key in H2.
  assert (P2 : nn (perf_max q)).
  { apply val_nn; [exact N2|]. pose proof (pos_val _ P1). lra. }
  rewrite <- val_finite in H3 by exact H4.
  assert (F1 : is_finite (perf_min q) = true).
  { apply finite_lt; [apply pos_nn, P1|]. lra. }
  rewrite <- (val_finite (perf_min q)), <- (val_finite (perf_max q)) by assumption.
  set (lo := perf_min q) in *. set (hi := perf_max q) in *.
  destruct (add_nn lo hi (pos_nn _ P1) P2) as [Na Va].
  assert (Dbl : forall x, nn x -> is_finite x = true -> rnd (2 * val x) = 2 * val x).
  { intros x Nx Fx. rewrite val_finite by exact Fx. rewrite Rmult_comm.
    apply round_generic; [apply valid_rnd_N|].
    change 2 with (bpow radix2 1).
    apply (mult_bpow_pos_exact_FLT radix2 (-149) 24); [|lia].
    apply generic_format_B2R. }
  assert (D128 : 2 * val hi < bpow radix2 128).
  { change (bpow radix2 128) with (bpow radix2 (1 + 127)). rewrite bpow_plus.
    change (bpow radix2 1) with 2. lra. }
  rewrite (clamp_off _ (2 * val hi)) in Va; [|lra|apply Dbl; assumption|exact D128].
  assert (Fa : is_finite (f_add lo hi) = true).
  { apply num_finite_of_val; [exact Na|]. rewrite Va.
    apply Rle_lt_trans with (2 * val hi); [|exact D128].
    rewrite <- Dbl by assumption. apply rnd_le. lra. }
  destruct two_pos as (P & F & V).
  destruct (div_finite _ _ Na Fa P F) as [Nd Vd]. rewrite V in Vd.
  assert (L : 2 * val lo <= val (f_add lo hi) <= 2 * val hi).
  { rewrite Va. split.
    - rewrite <- Dbl by (apply pos_nn, P1 || exact F1). apply rnd_le. lra.
    - rewrite <- Dbl by assumption. apply rnd_le. lra. }
  assert (L2 : val lo <= rnd (val (f_add lo hi) / 2) <= val hi).
  { split.
    - rewrite <- (rnd_val lo). apply rnd_le. lra.
    - rewrite <- (rnd_val hi). apply rnd_le. lra. }
  assert (E : clamp (rnd (val (f_add lo hi) / 2)) = rnd (val (f_add lo hi) / 2)).
  { unfold clamp. apply Rmin_left. apply Rle_trans with (val hi); [apply L2|].
    assert (bpow radix2 127 < bpow radix2 128) by (apply bpow_lt; lia). lra. }
  rewrite E in Vd.
  assert (Fd : is_finite (f_div (f_add lo hi) (f_of_Z 2)) = true).
  { apply finite_lt; [exact Nd|]. rewrite Vd. apply Rle_trans with (val hi); [apply L2|].
    lra. }
  split; [exact Fd|]. rewrite <- val_finite by exact Fd. rewrite Vd. exact L2.
Qed.
