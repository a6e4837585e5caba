(** * Simulations that draw from the generator: proofs *)

From Coq Require Import List ZArith Bool Arith Lia Reals Lra.
From Flocq Require Import Core BinarySingleNaN Mult_error.
From Verif Require Import Base F32 F32Facts F32Signed NormaliseProofs ProjectModel ScheduleSpec SimulationModel SimulationSpec SimulationProofs SimulationProps
  RandomModel RandomSpec RandomProofs NormalModel NormalCount NormalFloats NormalEnds NormalWindow NormalSpec.
Import ListNotations.
Local Open Scope Z_scope.

(** ** The number computed from a standard normal one *)

Lemma exact_part : forall hi k, (bpow radix2 (-96) <= hi <= bpow radix2 96)%R -> generic_format radix2 fexp32 hi -> -2 <= k <= 0 ->
  rnd (hi * bpow radix2 k)%R = (hi * bpow radix2 k)%R.
Proof.
  intros hi k B G K. apply round_generic; [apply valid_rnd_N|].
  change fexp32 with (FLT_exp (-149) 24). apply mult_bpow_exact_FLT; [exact G|].
  assert (M : (-96 < mag radix2 hi)).
  { assert (X := mag_gt_bpow radix2 hi (-96)). apply X. rewrite Rabs_pos_eq; [apply B|].
    apply Rle_trans with (2 := proj1 B). apply bpow_ge_0. }
  lia.
Qed.

Lemma four_value : is_finite (f_of_Z 4) = true /\ B2R (f_of_Z 4) = 4%R.
Proof. apply of_Z_exact. lia. Qed.
Lemma two_value : is_finite (f_of_Z 2) = true /\ B2R (f_of_Z 2) = 2%R.
Proof. apply of_Z_exact. lia. Qed.

Section Value.
  Context (lo hi : f32) (L1 : f_lt lo hi = true) (L2 : f_le f_zero lo = true) (M : moderate_bound hi).

  Lemma lo_finite : is_finite lo = true.
  Proof.
    unfold f_lt, f_le in L1, L2. destruct lo as [s|[|]| |s m e b]; try reflexivity; exfalso.
    - unfold f_zero in L2. discriminate L2.
    - destruct M as [F _]. destruct hi; try discriminate F; discriminate L1.
    - destruct hi; discriminate L1.
  Qed.

  Let l := B2R lo.
  Let h := B2R hi.

  Lemma lo_range : (0 <= l < h)%R.
  Proof.
    unfold l, h. destruct zero_fin as [FZ EZ]. destruct M as [FH _]. pose proof lo_finite as FL. split.
    - rewrite <- EZ. apply fin_le; assumption.
    - apply fin_lt; assumption.
  Qed.

  Lemma h_range : (0 < bpow radix2 (-96) <= h)%R /\ (h <= bpow radix2 96)%R.
  Proof. destruct M as [_ [A B]]. split; [split; [apply bpow_gt_0|exact A]|exact B]. Qed.

  Lemma h_part : forall k, -2 <= k <= 0 -> rnd (h * bpow radix2 k)%R = (h * bpow radix2 k)%R.
  Proof. intros k K. apply exact_part; [apply M|apply generic_format_B2R|exact K]. Qed.

  Lemma h_twice : rnd (h * 2)%R = (h * 2)%R.
  Proof.
    change 2%R with (bpow radix2 1). apply round_generic; [apply valid_rnd_N|].
    change fexp32 with (FLT_exp (-149) 24). apply mult_bpow_pos_exact_FLT; [apply generic_format_B2R|lia].
  Qed.

  Lemma pow_double : (4 * bpow radix2 96 <= bpow radix2 127)%R /\ (bpow radix2 28 * bpow radix2 96 + bpow radix2 96 <= bpow radix2 127)%R.
  Proof.
    split.
    - change 4%R with (bpow radix2 2). rewrite <- bpow_plus. apply bpow_le. lia.
    - rewrite <- bpow_plus. apply Rle_trans with (bpow radix2 125 + bpow radix2 125)%R.
      + apply Rplus_le_compat; apply bpow_le; lia.
      + replace (bpow radix2 125 + bpow radix2 125)%R with (bpow radix2 1 * bpow radix2 125)%R by (change (bpow radix2 1) with 2%R; lra).
        rewrite <- bpow_plus. apply bpow_le. lia.
  Qed.

  Lemma pow_124 : bpow radix2 (28 + 96) = (IZR (2 ^ 21) * bpow radix2 103)%R.
  Proof. change (IZR (2 ^ 21)) with (bpow radix2 21). rewrite <- bpow_plus. reflexivity. Qed.

  Let sigma := f_div (f_sub hi lo) (f_of_Z 4).

  Lemma sigma_value : is_finite sigma = true /\ (0 <= B2R sigma <= h / 4)%R.
  Proof.
    pose proof lo_range as LR. pose proof h_range as [HR1 HR2]. pose proof pow_double as [PD _]. pose proof lo_finite as FL. destruct M as [FH _].
    destruct four_value as [F4 E4].
    destruct (sub_fin hi lo FH FL) as [A1 A2].
    { fold h l. rewrite Rabs_pos_eq by lra. lra. }
    fold h l in A2.
    assert (B : (0 <= B2R (f_sub hi lo) <= h)%R).
    { rewrite A2. apply rnd_between; [apply rnd_0| |lra]. replace h with (h * bpow radix2 0)%R by (cbn; lra). apply h_part. lia. }
    destruct (div_fin (f_sub hi lo) (f_of_Z 4) A1) as [C1 C2].
    - rewrite E4. lra.
    - rewrite E4, Rabs_pos_eq by lra. lra.
    - split; [exact C1|]. unfold sigma. rewrite C2, E4. apply rnd_between; [apply rnd_0| |lra].
      replace (h / 4)%R with (h * bpow radix2 (-2))%R by (cbn; lra). apply h_part. lia.
  Qed.

  Lemma half_max_value : is_finite half_max = true /\ (bpow radix2 96 <= B2R half_max)%R.
  Proof.
    split; [vm_compute; reflexivity|].
    assert (F : is_finite (f_of_Z 1 : f32) = true) by (vm_compute; reflexivity).
    pose proof (binary_normalize_correct 24 128 eq_refl eq_refl mode_NE 1 96 false) as C. cbv zeta in C.
    assert (Q : F2R (Float radix2 1 96) = bpow radix2 96) by (unfold F2R; cbn [Fnum Fexp]; lra).
    rewrite Q in C. rewrite no_overflow in C.
    - destruct C as (C & D & _).
      assert (G : rnd (bpow radix2 96) = bpow radix2 96).
      { replace (bpow radix2 96) with (IZR 1 * bpow radix2 96)%R by lra. apply rnd_dyadic; lia. }
      rewrite G in C. rewrite <- C. apply fin_le; [exact D|vm_compute; reflexivity|]. vm_compute. reflexivity.
    - rewrite Rabs_pos_eq by apply bpow_ge_0. apply bpow_le. lia.
  Qed.

  Lemma mean_value : is_finite (midpoint lo hi) = true /\ (h / 2 <= B2R (midpoint lo hi) <= h)%R.
  Proof.
    pose proof lo_range as LR. pose proof h_range as [HR1 HR2]. pose proof pow_double as [PD _]. pose proof lo_finite as FL. destruct M as [FH _].
    destruct two_value as [F2 E2]. destruct half_max_value as [FM EM].
    unfold midpoint.
    assert (X1 : f_le lo half_max = true) by (apply fin_le; [exact FL|exact FM|]; fold l; lra).
    assert (X2 : f_le hi half_max = true) by (apply fin_le; [exact FH|exact FM|]; fold h; lra).
    rewrite X1, X2. cbn [andb].
    destruct (add_fin lo hi FL FH) as [A1 A2].
    { fold h l. rewrite Rabs_pos_eq by lra. lra. }
    fold h l in A2.
    assert (B : (h <= B2R (f_add lo hi) <= h * 2)%R).
    { rewrite A2. apply rnd_between; [|apply h_twice|lra]. replace h with (h * bpow radix2 0)%R by (cbn; lra). apply h_part. lia. }
    destruct (div_fin (f_add lo hi) (f_of_Z 2) A1) as [C1 C2].
    - rewrite E2. lra.
    - rewrite E2, Rabs_pos_eq by lra. lra.
    - split; [exact C1|]. rewrite C2, E2. apply rnd_between; [| |lra].
      + replace (h / 2)%R with (h * bpow radix2 (-1))%R by (cbn; lra). apply h_part. lia.
      + replace h with (h * bpow radix2 0)%R by (cbn; lra). apply h_part. lia.
  Qed.

  Lemma value_finite : forall n, fin_in (- IZR (2 ^ 28)) (IZR (2 ^ 28)) n ->
    is_finite (f_add (f_mul n sigma) (midpoint lo hi)) = true.
  Proof.
    intros n [FN BN]. change (IZR (2 ^ 28)) with (bpow radix2 28) in BN. destruct sigma_value as [FS BS]. destruct mean_value as [FM BM].
    pose proof h_range as [HR1 HR2]. pose proof pow_double as [_ PD].
    assert (SB : (0 <= B2R sigma <= bpow radix2 94)%R).
    { split; [apply BS|]. apply Rle_trans with (h / 4)%R; [apply BS|].
      replace (bpow radix2 94) with (bpow radix2 96 * bpow radix2 (-2))%R by (rewrite <- bpow_plus; reflexivity).
      change (bpow radix2 (-2)) with (/ 4)%R. lra. }
    assert (K : (- (bpow radix2 28 * bpow radix2 96) <= B2R n * B2R sigma <= bpow radix2 28 * bpow radix2 96)%R).
    { assert (bpow radix2 94 <= bpow radix2 96)%R by (apply bpow_le; lia).
      assert (0 < bpow radix2 28)%R by apply bpow_gt_0. assert (0 < bpow radix2 96)%R by apply bpow_gt_0.
      split; nra. }
    assert (P124 : rnd (bpow radix2 28 * bpow radix2 96) = (bpow radix2 28 * bpow radix2 96)%R).
    { rewrite <- bpow_plus. rewrite pow_124. apply rnd_dyadic; lia. }
    assert (N124 : rnd (- (bpow radix2 28 * bpow radix2 96)) = (- (bpow radix2 28 * bpow radix2 96))%R).
    { rewrite <- bpow_plus. replace (- bpow radix2 (28 + 96))%R with (IZR (- 2 ^ 21) * bpow radix2 103)%R; [apply rnd_dyadic; lia|].
      rewrite pow_124, opp_IZR. ring. }
    destruct (mul_fin n sigma FN FS) as [A1 A2].
    { apply Rle_trans with (2 := PD). apply Rle_trans with (bpow radix2 28 * bpow radix2 96)%R; [apply Rabs_le; exact K|].
      pose proof (bpow_ge_0 radix2 96). lra. }
    assert (B : (- (bpow radix2 28 * bpow radix2 96) <= B2R (f_mul n sigma) <= bpow radix2 28 * bpow radix2 96)%R).
    { rewrite A2. apply rnd_between; assumption. }
    apply (add_fin _ _ A1 FM). apply Rle_trans with (2 := PD). apply Rabs_le. lra.
  Qed.

  Lemma value_positive : forall n, fin_in (-1) (IZR (2 ^ 28)) n ->
    f_le (f_add (f_mul n sigma) (midpoint lo hi)) f_zero = false.
  Proof.
    intros n [FN BN]. change (IZR (2 ^ 28)) with (bpow radix2 28) in BN.
    assert (B28 : (1 <= bpow radix2 28)%R) by (change 1%R with (bpow radix2 0); apply bpow_le; lia).
    assert (FV : is_finite (f_add (f_mul n sigma) (midpoint lo hi)) = true).
    { apply value_finite. split; [exact FN|]. change (IZR (2 ^ 28)) with (bpow radix2 28). lra. }
    destruct sigma_value as [FS BS]. destruct mean_value as [FM BM]. pose proof h_range as [HR1 HR2]. pose proof pow_double as [_ PD].
    assert (B96 : (0 < bpow radix2 96)%R) by apply bpow_gt_0.
    assert (K : (- (h / 4) <= B2R n * B2R sigma <= bpow radix2 28 * bpow radix2 96)%R) by (split; nra).
    destruct (mul_fin n sigma FN FS) as [A1 A2].
    { apply Rle_trans with (2 := PD). apply Rabs_le. nra. }
    assert (B : (- (h / 4) <= B2R (f_mul n sigma))%R).
    { rewrite A2. replace (- (h / 4))%R with (rnd (- (h / 4))%R); [apply rnd_le, K|].
      apply round_generic; [apply valid_rnd_N|]. apply generic_format_opp.
      replace (h / 4)%R with (h * bpow radix2 (-2))%R by (cbn; lra).
      rewrite <- h_part by lia. apply generic_format_round; [apply fexp32_valid|apply valid_rnd_N]. }
    assert (BU : (B2R (f_mul n sigma) <= bpow radix2 28 * bpow radix2 96)%R).
    { rewrite A2. replace (bpow radix2 28 * bpow radix2 96)%R with (rnd (bpow radix2 28 * bpow radix2 96)); [apply rnd_le, K|].
      rewrite <- bpow_plus. rewrite pow_124. apply rnd_dyadic; lia. }
    destruct (add_fin (f_mul n sigma) (midpoint lo hi) A1 FM) as [_ C2].
    { apply Rle_trans with (2 := PD). apply Rabs_le. nra. }
    destruct (f_le _ f_zero) eqn:E; [exfalso|reflexivity].
    destruct zero_fin as [FZ EZ]. apply fin_le in E; [|exact FV|exact FZ]. rewrite EZ, C2 in E.
    assert (G : (h / 4 <= rnd (B2R (f_mul n sigma) + B2R (midpoint lo hi)))%R).
    { replace (h / 4)%R with (h * bpow radix2 (-2))%R by (cbn; lra). rewrite <- h_part by lia. apply rnd_le.
      change (bpow radix2 (-2)) with (/ 4)%R. lra. }
    lra.
  Qed.
End Value.

(** ** Positive numbers *)

Definition good_bound (b : f32 * f32) : Prop :=
  f_eq (fst b) (snd b) = true \/
  (f_lt (fst b) (snd b) = true /\ f_le f_zero (fst b) = true /\ moderate_bound (snd b)).

Lemma positive_total : forall exp lo hi g, proper g -> f_lt lo hi = true -> f_le f_zero lo = true -> moderate_bound hi ->
  exists x q, (0 < q)%nat /\ Z.of_nat q <= 2 ^ 64 + 5 /\
    forall fuel, 2 ^ 64 + 5 <= Z.of_nat fuel -> positive_random fuel exp lo hi g = Ok (x, steps q g).
Proof.
  intros exp lo hi g P L1 L2 M. destruct (window_found g P) as (N & HN & W0 & W1 & W2 & W3 & W4 & W5).
  destruct (positive_ends exp g P N W0 W1 W2 W3 W4 W5 lo hi L1 L2 (value_positive lo hi L1 L2 M) (N + 6) 0) as (x & q & E & Q); [lia|lia|].
  exists x, q. split; [lia|]. split; [lia|]. intros fuel F. cbn [steps] in E.
  replace fuel with ((N + 6) + (fuel - (N + 6)))%nat by lia. apply positive_more, E.
Qed.

Lemma normal_total : forall exp lo hi g, proper g -> f_lt lo hi = true -> f_le f_zero lo = true ->
  exists x q, (0 < q)%nat /\ Z.of_nat q <= 2 ^ 64 + 5 /\
    forall fuel, 2 ^ 64 + 5 <= Z.of_nat fuel -> draw_normal fuel exp lo hi g = Ok (x, steps q g).
Proof.
  intros exp lo hi g P L1 L2. destruct (window_found g P) as (N & HN & W0 & W1 & W2 & W3 & W4 & W5).
  destruct (unit_normal_ends exp g P N W0 W1 W2 W3 W4 W5 (N + 6) 0) as (n & q & E & Q1 & Q2 & _); [lia|lia|].
  cbn [steps] in E. specialize (Q2 ltac:(lia)).
  exists (f_add (f_mul n (f_div (f_sub hi lo) (f_of_Z 4))) (midpoint lo hi)), q.
  split; [exact Q1|]. split; [lia|]. intros fuel F.
  replace fuel with ((N + 6) + (fuel - (N + 6)))%nat by lia. apply normal_more.
  unfold draw_normal. rewrite L1, L2. cbn [expects bind]. cbv zeta. rewrite E. reflexivity.
Qed.

Lemma not_le_zero : forall x, is_finite x = true -> f_le x f_zero = false -> f_lt f_zero x = true.
Proof.
  intros x F H. destruct zero_fin as [FZ EZ]. apply fin_lt; [exact FZ|exact F|].
  destruct (Rlt_le_dec (B2R f_zero) (B2R x)) as [A|A]; [exact A|].
  apply fin_le in A; [congruence|exact F|exact FZ].
Qed.

Lemma normal_inv : forall fuel exp lo hi g x g', proper g -> moderate_bound hi -> draw_normal fuel exp lo hi g = Ok (x, g') ->
  is_finite x = true /\ proper g' /\ f_lt lo hi = true /\ f_le f_zero lo = true.
Proof.
  intros fuel exp lo hi g x g' P M H. unfold draw_normal in H.
  destruct (f_lt lo hi) eqn:L1; [|discriminate H]. destruct (f_le f_zero lo) eqn:L2; [|discriminate H].
  cbn [expects bind] in H. cbv zeta in H. destruct (draw_unit_normal fuel exp g) as [[n g1]| |] eqn:D; try discriminate H.
  cbn [bind fst snd] in H. destruct (ok_pair _ _ _ _ _ _ H) as [<- <-].
  destruct (unit_normal_finite _ _ _ _ _ P D) as [B P1].
  split; [apply value_finite; assumption|]. auto.
Qed.

Lemma called_app : forall exp g a g1 b g', called exp g a g1 -> called exp g1 b g' -> called exp g (a ++ b) g'.
Proof. induction 1; intro H'; cbn [app]; [exact H'|]. econstructor; eauto. Qed.

Lemma positive_logged : forall exp lo hi, moderate_bound hi -> forall fuel g x g', proper g ->
  positive_random fuel exp lo hi g = Ok (x, g') ->
  exists bad, called exp g (map (fun y => ((lo, hi), y)) bad ++ [((lo, hi), x)]) g' /\
    Forall (fun y => f_le y f_zero = true) bad /\ f_lt f_zero x = true /\ is_finite x = true /\ finite_draws bad /\ proper g' /\
    f_lt lo hi = true /\ f_le f_zero lo = true.
Proof.
  intros exp lo hi M. induction fuel as [|fuel IH]; intros g x g' P H; [discriminate H|].
  cbn [positive_random] in H. set (fuel1 := S fuel) in *.
  destruct (draw_normal fuel1 exp lo hi g) as [[y g1]| |] eqn:D; try discriminate H. cbn [bind fst snd] in H.
  destruct (normal_inv _ _ _ _ _ _ _ P M D) as (FY & P1 & L1 & L2).
  destruct (f_le y f_zero) eqn:K.
  - destruct (IH _ _ _ P1 H) as (bad & C & B & X & FX & FB & P' & _). exists (y :: bad). cbn [map app].
    split; [econstructor; [exists fuel1; exact D|exact C]|]. split; [constructor; assumption|]. split; [exact X|]. split; [exact FX|].
    split; [constructor; assumption|]. auto.
  - destruct (ok_pair _ _ _ _ _ _ H) as [<- <-]. exists []. cbn [map app].
    split; [econstructor; [exists fuel1; exact D|constructor]|].
    split; [constructor|]. split; [apply not_le_zero; assumption|]. split; [exact FY|]. split; [constructor|]. auto.
Qed.

Lemma positive_replay : forall lo hi bad x rest, f_lt lo hi = true -> f_le f_zero lo = true ->
  Forall (fun y => f_le y f_zero = true) bad -> f_le x f_zero = false ->
  draw_positive lo hi (bad ++ x :: rest) = Ok (x, rest).
Proof.
  intros lo hi bad x rest L1 L2 B X. induction B as [|y bad Y B IH]; cbn [app draw_positive]; unfold normal; rewrite L1, L2; cbn [expects bind fst].
  - rewrite X. reflexivity.
  - rewrite Y. exact IH.
Qed.

Lemma lt_not_le : forall x, f_lt f_zero x = true -> is_finite x = true -> f_le x f_zero = false.
Proof.
  intros x H F. destruct zero_fin as [FZ EZ]. apply fin_lt in H; [|exact FZ|exact F].
  destruct (f_le x f_zero) eqn:E; [|reflexivity]. apply fin_le in E; [|exact F|exact FZ]. exfalso. apply (Rlt_not_le _ _ H E).
Qed.

Lemma samples_more : forall exp n k bounds g r, samples_random n exp bounds g = Ok r -> samples_random (n + k) exp bounds g = Ok r.
Proof.
  intros exp n k. induction bounds as [|b bounds IH]; intros g r H; cbn [samples_random] in *; [exact H|].
  destruct (sample_random n exp (fst b) (snd b) g) as [r1| |] eqn:D; try discriminate H.
  assert (D' : sample_random (n + k) exp (fst b) (snd b) g = Ok r1).
  { unfold sample_random in *. destruct (f_eq _ _); [exact D|]. apply positive_more, D. }
  rewrite D'. cbn [bind] in *.
  destruct (samples_random n exp bounds (snd r1)) as [rs| |] eqn:D2; try discriminate H. rewrite (IH _ _ D2). exact H.
Qed.

Lemma samples_end : forall exp bounds g, proper g -> Forall good_bound bounds ->
  exists xs log g', (forall fuel, 2 ^ 64 + 5 <= Z.of_nat fuel -> samples_random fuel exp bounds g = Ok (xs, g')) /\
    called exp g log g' /\ logged bounds log xs /\ proper g' /\ finite_draws (map snd log) /\
    (forall rest, samples_for bounds (map snd log ++ rest) = Ok (xs, rest)).
Proof.
  intros exp. induction bounds as [|[lo hi] bounds IH]; intros g P B.
  - exists [], [], g. split; [reflexivity|]. split; [constructor|]. split; [constructor|]. split; [exact P|]. split; [constructor|]. reflexivity.
  - inversion B as [|? ? B1 B2]; subst. cbn [samples_random samples_for]. unfold sample_random, sample. cbn [fst snd].
    destruct (f_eq lo hi) eqn:EQ.
    + destruct (IH g P B2) as (xs & log & g' & S1 & S2 & S3 & S4 & S5 & S6).
      exists (lo :: xs), log, g'. split; [intros fuel F; cbn [bind snd fst]; rewrite (S1 fuel F); reflexivity|].
      split; [exact S2|]. split; [constructor; assumption|]. split; [exact S4|]. split; [exact S5|].
      intro rest. cbn [bind fst snd]. rewrite S6. reflexivity.
    + destruct B1 as [B1|(L1 & L2 & M)]; cbn [fst snd] in *; [congruence|].
      destruct (positive_total exp lo hi g P L1 L2 M) as (x & q & Q1 & _ & Q3).
      assert (BIG : 2 ^ 64 + 5 <= Z.of_nat (Z.to_nat (2 ^ 64 + 5))) by (rewrite Z2Nat.id; lia).
      destruct (positive_logged exp lo hi M _ _ _ _ P (Q3 _ BIG)) as (bad & C & NP & X & FX & FB & P1 & _).
      destruct (IH _ P1 B2) as (xs & log & g' & S1 & S2 & S3 & S4 & S5 & S6).
      exists (x :: xs), ((map (fun y => ((lo, hi), y)) bad ++ [((lo, hi), x)]) ++ log), g'.
      split; [intros fuel F; rewrite (Q3 fuel F); cbn [bind snd fst]; rewrite (S1 fuel F); reflexivity|].
      split; [eapply called_app; eassumption|].
      split; [rewrite <- app_assoc; cbn [app]; constructor; assumption|]. split; [exact S4|].
      assert (MS : map snd ((map (fun y => ((lo, hi), y)) bad ++ [((lo, hi), x)]) ++ log) = bad ++ x :: map snd log).
      { rewrite !map_app, map_map. cbn [map snd]. rewrite map_id, <- app_assoc. reflexivity. }
      rewrite MS. split; [apply Forall_app; split; [exact FB|constructor; assumption]|].
      intro rest. rewrite <- app_assoc. cbn [app]. rewrite (positive_replay lo hi bad x _ L1 L2 NP (lt_not_le x X FX)).
      cbn [bind fst snd]. rewrite S6. reflexivity.
Qed.

(** ** Bounds of a project *)

Lemma le_cases : forall a b : f32, f_le a b = true -> f_eq a b = true \/ f_lt a b = true.
Proof.
  intros a b H. unfold f_le, f_eq, f_lt, Bleb, Beqb, Bltb, SpecFloat.SFleb, SpecFloat.SFeqb, SpecFloat.SFltb in *.
  destruct (SpecFloat.SFcompare (B2SF a) (B2SF b)) as [[| |]|]; auto; discriminate H.
Qed.

Lemma lt_le : forall a b : f32, f_lt a b = true -> f_le a b = true.
Proof.
  intros a b H. unfold f_le, f_lt, Bleb, Bltb, SpecFloat.SFleb, SpecFloat.SFltb in *.
  destruct (SpecFloat.SFcompare (B2SF a) (B2SF b)) as [[| |]|]; auto.
Qed.

Lemma project_bounds_good : forall p, positive_bounds p -> moderate_performances p -> Forall good_bound (agent_bounds p ++ task_bounds p).
Proof.
  intros p B M. apply Forall_app. split.
  - unfold agent_bounds. apply Forall_map. destruct B as [B _]. unfold moderate_performances in M.
    rewrite Forall_forall in *. intros a Ha. destruct (B a Ha) as [B1 B2]. unfold good_bound. cbn [fst snd].
    destruct (le_cases _ _ B2) as [E|L]; [left; exact E|]. destruct (M a Ha) as [E|MB]; [left; exact E|].
    right. split; [exact L|]. split; [apply lt_le, B1|exact MB].
  - pose proof (task_bounds_pos p B) as T. destruct B as [_ B]. unfold task_bounds in *. rewrite Forall_map in *.
    rewrite Forall_forall in *. intros t Ht. destruct (T t Ht) as (T1 & T2 & _). cbn [fst snd] in *. destruct (B t Ht) as [B1 B2].
    unfold good_bound. cbn [fst snd]. destruct (le_cases _ _ T2) as [E|L]; [left; exact E|right].
    split; [exact L|]. split; [apply lt_le, T1|]. destruct (of_Z_fin (tk_max t)) as [F E]; [lia|].
    split; [exact F|]. rewrite E.
    assert (K : (1 <= rnd (IZR (tk_max t)) <= bpow radix2 63)%R).
    { apply rnd_between.
      - replace 1%R with (IZR 1 * bpow radix2 0)%R by (cbn; lra). apply rnd_dyadic; lia.
      - replace (bpow radix2 63) with (IZR 1 * bpow radix2 63)%R by lra. apply rnd_dyadic; lia.
      - split; [apply IZR_le; lia|]. change (bpow radix2 63) with (IZR (2 ^ 63)). apply IZR_le. lia. }
    assert (bpow radix2 (-96) <= 1)%R by (change 1%R with (bpow radix2 0); apply bpow_le; lia).
    assert (bpow radix2 63 <= bpow radix2 96)%R by (apply bpow_le; lia). lra.
Qed.

Lemma logged_app : forall b1 b2 log xs, logged (b1 ++ b2) log xs ->
  exists l1 l2 x1 x2, log = l1 ++ l2 /\ xs = x1 ++ x2 /\ logged b1 l1 x1 /\ logged b2 l2 x2.
Proof.
  induction b1 as [|[lo hi] b1 IH]; intros b2 log xs H; cbn [app] in H.
  - exists [], log, [], xs. repeat split; [constructor|exact H].
  - inversion H; subst.
    + destruct (IH _ _ _ H6) as (l1 & l2 & x1 & x2 & -> & -> & A & B). exists l1, l2, (lo :: x1), x2. repeat split; [constructor; assumption|exact B].
    + destruct (IH _ _ _ H8) as (l1 & l2 & x1 & x2 & -> & -> & A & B).
      exists (map (fun y => ((lo, hi), y)) bad ++ ((lo, hi), x) :: l1), l2, (x :: x1), x2.
      split; [rewrite <- app_assoc; reflexivity|]. repeat split; [constructor; assumption|exact B].
Qed.

Lemma samples_random_app : forall fuel exp b1 b2 g, samples_random fuel exp (b1 ++ b2) g =
  (r1 <- samples_random fuel exp b1 g ;; r2 <- samples_random fuel exp b2 (snd r1) ;; Ok (fst r1 ++ fst r2, snd r2)).
Proof.
  intros fuel exp. induction b1 as [|b b1 IH]; intros b2 g; cbn [app samples_random].
  - cbn [bind fst snd app]. destruct (samples_random fuel exp b2 g) as [[xs g']| |]; reflexivity.
  - destruct (sample_random fuel exp (fst b) (snd b) g) as [[x g1]| |]; cbn [bind fst snd]; [|reflexivity|reflexivity].
    rewrite IH. destruct (samples_random fuel exp b1 g1) as [[xs g2]| |]; cbn [bind fst snd]; [|reflexivity|reflexivity].
    destruct (samples_random fuel exp b2 g2) as [[ys g3]| |]; reflexivity.
Qed.

(** One run. *)
Lemma run_linked : forall exp p s l g, proper g -> positive_bounds p -> moderate_performances p -> sim_reached p s ->
  exists log perfs durs g',
    called exp g log g' /\ logged (agent_bounds p ++ task_bounds p) log (perfs ++ durs) /\
    length perfs = length (pr_agents p) /\ length durs = length (pr_tasks p) /\
    proper g' /\ finite_draws (map snd log) /\
    (forall rest, exists mid, samples_for (agent_bounds p) (map snd log ++ rest) = Ok (perfs, mid) /\
       samples_for (task_bounds p) mid = Ok (durs, rest)) /\
    (forall fuel rest, 2 ^ 64 + 5 <= Z.of_nat fuel ->
      sim_run_random fuel exp s l g =
        (r <- sim_run s l (map snd log ++ rest) ;; Ok ((sr_makespan r, sr_state r), g'))) /\
    (forall rest r, sim_run s l (map snd log ++ rest) = Ok r ->
      si_perf (sr_state r) = perfs /\ si_dur (sr_state r) = durs /\ sr_draws r = rest).
Proof.
  intros exp p s l g P B M H.
  pose proof (project_bounds_good p B M) as GB. apply Forall_app in GB. destruct GB as [GA GT].
  destruct (samples_end exp (agent_bounds p) g P GA) as (perfs & log1 & g1 & A1 & A2 & A3 & A4 & A5 & A6).
  destruct (samples_end exp (task_bounds p) g1 A4 GT) as (durs & log2 & g2 & T1 & T2 & T3 & T4 & T5 & T6).
  pose proof (samples_length _ _ _ (A6 [])) as LA. pose proof (samples_length _ _ _ (T6 [])) as LT. cbn [fst] in LA, LT.
  unfold agent_bounds in LA. unfold task_bounds in LT. rewrite map_length in LA, LT.
  pose proof (reached_shaped p s H) as SH.
  exists (log1 ++ log2), perfs, durs, g2. split; [eapply called_app; eassumption|]. split.
  { clear - A3 T3. induction A3; cbn [app]; [exact T3|constructor; assumption|].
    rewrite <- app_assoc. cbn [app]. constructor; assumption. }
  split; [exact LA|]. split; [exact LT|]. split; [exact T4|]. rewrite map_app. split; [apply Forall_app; split; assumption|].
  split.
  { intro rest. exists (map snd log2 ++ rest). rewrite <- app_assoc. split; [apply A6|apply T6]. }
  split.
  - intros fuel rest F. rewrite (run_fresh p s l _ SH). destruct SH as [C AA TT PP DD WW NN].
    unfold sim_run_random, fresh_run, si_buffer. rewrite !app_length. rewrite PP, DD, WW, NN.
    unfold performances_random, durations_random. cbn [si_config si_perf si_dur si_work si_done].
    rewrite !repeat_length, C, !Nat.eqb_refl.
    destruct (Nat.eqb_spec (length (pr_agents p)) 0); [lia|].
    destruct (Nat.eqb_spec (length (pr_tasks p)) 0); [lia|].
    destruct (Nat.eqb_spec (length (pr_agents p) + (length (pr_tasks p) + (length (pr_agents p) + length (pr_tasks p)))) 0); [lia|].
    cbn [negb expects bind].
    destruct (length l =? length (pr_tasks p))%nat; [|reflexivity]. cbn [expects bind].
    change (map perf_bounds (pr_agents p)) with (agent_bounds p). change (map duration_bounds (pr_tasks p)) with (task_bounds p).
    rewrite (A1 fuel F), <- app_assoc, A6. cbn [bind fst snd]. rewrite (T1 fuel F), T6. cbn [bind fst snd].
    destruct (sim_loop _ l) as [s2| |]; [|reflexivity|reflexivity]. cbn [bind].
    destruct (to_rep _); reflexivity.
  - intros rest r E. rewrite (run_fresh p s l _ SH) in E. unfold fresh_run in E.
    destruct (length l =? length (pr_tasks p))%nat; [|discriminate E]. cbn [expects bind] in E.
    change (map perf_bounds (pr_agents p)) with (agent_bounds p) in E. change (map duration_bounds (pr_tasks p)) with (task_bounds p) in E.
    rewrite <- app_assoc, A6 in E. cbn [bind fst snd] in E. rewrite T6 in E. cbn [bind fst snd] in E.
    destruct (sim_loop _ l) as [s2| |] eqn:Q; try discriminate E. cbn [bind] in E.
    destruct (to_rep _); try discriminate E. cbn [bind] in E. injection E as <-. cbn [sr_state sr_draws].
    apply loop_shaped with (p := p) in Q.
    + destruct Q as (_ & Q1 & Q2). cbn [si_perf si_dur] in Q1, Q2. auto.
    + destruct SH as [C AA TT PP DD WW NN]. constructor; cbn [si_config si_perf si_dur si_work si_done]; rewrite ?repeat_length; auto.
Qed.

(** More fuel does not change a run that ended. *)
Lemma run_random_more : forall exp n k s l g r, sim_run_random n exp s l g = Ok r -> sim_run_random (n + k) exp s l g = Ok r.
Proof.
  intros exp n k s l g r H. unfold sim_run_random in *.
  repeat match type of H with
  | (_ <- expects ?b ;; _) = _ => destruct b; [cbn [expects bind] in *|discriminate H]
  end.
  unfold performances_random, durations_random in *. cbn [si_config si_perf si_dur si_work si_done] in *.
  destruct (negb (length (pr_agents (si_config s)) =? 0)%nat); [|discriminate H]. cbn [expects bind] in *.
  destruct (length (pr_agents (si_config s)) =? length (repeat f_zero (length (si_perf s))))%nat; [|discriminate H]. cbn [expects bind] in *.
  destruct (samples_random n exp (map perf_bounds (pr_agents (si_config s))) g) as [r1| |] eqn:D1; try discriminate H.
  rewrite (samples_more _ _ k _ _ _ D1). cbn [bind] in *.
  destruct (negb (length (pr_tasks (si_config s)) =? 0)%nat); [|discriminate H]. cbn [expects bind] in *.
  destruct (length (pr_tasks (si_config s)) =? length (repeat f_zero (length (si_dur s))))%nat; [|discriminate H]. cbn [expects bind] in *.
  destruct (samples_random n exp (map duration_bounds (pr_tasks (si_config s))) (snd r1)) as [r2| |] eqn:D2; try discriminate H.
  rewrite (samples_more _ _ k _ _ _ D2). cbn [bind] in *. exact H.
Qed.

Lemma runs_random_more : forall exp m k l n s g r, sim_runs_random n m exp s l g = Ok r -> sim_runs_random n (m + k) exp s l g = Ok r.
Proof.
  intros exp m k l. induction n as [|n IH]; intros s g r H; cbn [sim_runs_random] in *; [exact H|].
  destruct (sim_run_random m exp s l g) as [r1| |] eqn:D1; try discriminate H. rewrite (run_random_more _ _ k _ _ _ _ D1). cbn [bind] in *.
  destruct (sim_runs_random n m exp (snd (fst r1)) l (snd r1)) as [r2| |] eqn:D2; try discriminate H. rewrite (IH _ _ _ D2). exact H.
Qed.
