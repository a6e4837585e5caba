(** * Proofs about the temperature *)

From Coq Require Import List ZArith Bool Reals Lia Lra.
From Flocq Require Import Core BinarySingleNaN Sterbenz.
From Verif Require Import Base F32 F32Facts NormaliseProofs F32Signed TemperatureModel
  TemperatureSpec ScheduleProofs.
Import ListNotations.

Local Open Scope R_scope.

Lemma f003 : is_finite f_003 = true /\ B2R f_003 = 16106127 * bpow radix2 (-29).
Proof.
  split; [vm_compute; reflexivity|].
  pose proof (binary_normalize_correct 24 128 _ _ mode_NE 16106127 (-29) false) as C.
  cbv zeta in C. fold f_003 in C.
  assert (E : F2R (Float radix2 16106127 (-29)) = 16106127 * bpow radix2 (-29)) by reflexivity.
  rewrite E in C. rewrite no_overflow in C.
  - destruct C as (A & _). rewrite A. apply (rnd_dyadic 16106127 (-29)); lia.
  - rewrite Rabs_pos_eq; [|apply Rmult_le_pos; [lra|apply bpow_ge_0]].
    apply Rle_trans with (bpow radix2 24 * bpow radix2 (-29)).
    + apply Rmult_le_compat_r; [apply bpow_ge_0|]. change (bpow radix2 24) with (IZR (2 ^ 24)).
      apply IZR_le. lia.
    + rewrite <- bpow_plus. apply bpow_le. lia.
Qed.

Lemma b29 : bpow radix2 (-29) = / 536870912.
Proof. cbn. reflexivity. Qed.

(** The damping factor is in the unit interval for every mask. *)
Lemma volatility_unit : forall n mask, (mask < 2 ^ 63)%N ->
  is_finite (volatility n mask) = true /\ 0 <= B2R (volatility n mask) <= 1.
Proof.
  intros n mask Hm. unfold volatility, dampening.
  set (a := Z.of_N (N.land n mask)). set (b := Z.of_N (mask + 1)).
  assert (Hb : (1 <= b <= 2 ^ 63)%Z) by lia.
  assert (Ha : (0 <= a <= b)%Z).
  { split; [lia|]. unfold a, b.
    assert (N.land n mask <= mask)%N; [|lia].
    destruct mask as [|q]; [rewrite N.land_0_r; lia|].
    apply N.ldiff_le. apply N.bits_inj. intro i. rewrite N.ldiff_spec, N.land_spec, N.bits_0.
    destruct (N.testbit n i), (N.testbit (N.pos q) i); reflexivity. }
  destruct (of_Z_fin a) as [Fa Ea]; [lia|]. destruct (of_Z_fin b) as [Fb Eb]; [lia|].
  assert (Pa : 0 <= B2R (f_of_Z a)).
  { rewrite Ea, <- rnd_0. apply rnd_le, IZR_le. lia. }
  assert (R1 : rnd 1 = 1) by (replace 1 with (1 * bpow radix2 0) by (cbn; ring); apply (rnd_dyadic 1 0); lia).
  assert (Pb : 1 <= B2R (f_of_Z b)).
  { rewrite Eb, <- R1. apply rnd_le, IZR_le. lia. }
  assert (Le : B2R (f_of_Z a) <= B2R (f_of_Z b)).
  { rewrite Ea, Eb. apply rnd_le, IZR_le. lia. }
  assert (Q : 0 <= B2R (f_of_Z a) / B2R (f_of_Z b) <= 1).
  { split; [apply Rmult_le_pos; [lra|left; apply Rinv_0_lt_compat; lra]|].
    apply Rmult_le_reg_r with (B2R (f_of_Z b)); [lra|]. unfold Rdiv.
    rewrite Rmult_assoc, Rinv_l by lra. lra. }
  assert (Big : 1 <= bpow radix2 127) by (change 1 with (bpow radix2 0); apply bpow_le; lia).
  destruct (div_fin (f_of_Z a) (f_of_Z b) Fa) as [Fd Ed]; [lra| |].
  { rewrite Rabs_pos_eq; lra. }
  assert (D : 0 <= B2R (f_div (f_of_Z a) (f_of_Z b)) <= 1).
  { rewrite Ed. apply rnd_between; [apply rnd_0|exact R1|exact Q]. }
  destruct one_fin as [F1 E1].
  destruct (sub_fin f_one (f_div (f_of_Z a) (f_of_Z b)) F1 Fd) as [Fs Es].
  { rewrite E1, Rabs_pos_eq; lra. }
  split; [exact Fs|]. rewrite Es. apply rnd_between; [apply rnd_0|exact R1|]. rewrite E1. lra.
Qed.

Lemma slack_value : is_finite slack = true /\ B2R slack = / 64.
Proof.
  split; [reflexivity|]. unfold slack, B2R, F2R. cbn [Defs.Fnum Defs.Fexp cond_Zopp].
  change (IZR 8388608) with (bpow radix2 23). rewrite <- bpow_plus. reflexivity.
Qed.

Lemma rnd_one : rnd 1 = 1.
Proof. replace 1 with (1 * bpow radix2 0) by (cbn; ring). apply (rnd_dyadic 1 0); lia. Qed.

Lemma rnd_int : forall m, (Z.abs m <= 2 ^ 24)%Z -> rnd (IZR m) = IZR m.
Proof.
  intros m H. replace (IZR m) with (IZR m * bpow radix2 0) by (change (bpow radix2 0) with 1; ring).
  apply rnd_dyadic; lia.
Qed.

Lemma rnd_bpow : forall x, (-149 <= x)%Z -> rnd (bpow radix2 x) = bpow radix2 x.
Proof.
  intros x H. apply round_generic; [apply valid_rnd_N|]. apply generic_format_bpow.
  unfold SpecFloat.fexp, SpecFloat.emin. lia.
Qed.

Lemma run_app : forall o l1 l2 t,
  temperature_run o t (l1 ++ l2) = (t' <- temperature_run o t l1 ;; temperature_run o t' l2).
Proof.
  intros o l1. induction l1 as [|x l1 IH]; intros l2 t; cbn [app temperature_run]; [reflexivity|].
  destruct (temperature_update o t x); cbn [bind]; [apply IH|reflexivity|reflexivity].
Qed.

Lemma rnd_neg : forall r, rnd (- r) = - rnd r.
Proof. intro r. apply round_NE_opp. Qed.

Lemma rnd_B2R : forall x : f32, rnd (B2R x) = B2R x.
Proof. intro x. apply round_generic; [apply valid_rnd_N|]. apply generic_format_B2R. Qed.

(** The difference of 1 and a float between 1/2 and 2 is exact. *)
Lemma rnd_complement : forall x : f32, / 2 <= B2R x <= 2 -> rnd (1 - B2R x) = 1 - B2R x.
Proof.
  intros x H. apply round_generic; [apply valid_rnd_N|].
  apply sterbenz; [apply FLT_exp_valid; reflexivity|apply FLT_exp_monotone| |apply generic_format_B2R|lra].
  change 1 with (bpow radix2 0). apply generic_format_bpow. unfold SpecFloat.fexp, SpecFloat.emin. lia.
Qed.

(** The distance of the mean from the target. *)
Section Scale.
Context (e : f32) (Fe : is_finite e = true) (Be : 0 <= B2R e <= / 4).
Let g : f32 := f_add e f_003.

Lemma gap_fin : is_finite g = true /\ B2R g = rnd (B2R e + B2R f_003) /\ / 34 <= B2R g <= 9 / 32.
Proof.
  destruct f003 as [F3 E3]. rewrite b29 in E3.
  destruct (add_fin e f_003 Fe F3) as [F E].
  { rewrite E3, Rabs_pos_eq by lra. apply Rle_trans with (bpow radix2 0); [|apply bpow_le; lia].
    change (bpow radix2 0) with 1. lra. }
  fold g in F, E. split; [exact F|]. split; [exact E|]. rewrite E.
  assert (A : B2R f_003 <= rnd (B2R e + B2R f_003) <= 9 * bpow radix2 (-5)).
  { apply rnd_between; [apply rnd_B2R|apply (rnd_dyadic 9 (-5)); lia|]. rewrite E3.
    change (bpow radix2 (-5)) with (/ 32). lra. }
  change (bpow radix2 (-5)) with (/ 32) in A. rewrite E3 in A at 1. lra.
Qed.

(** A positive scale that is not too large is finite. *)
Lemma scale_cases : forall s, f_lt f_zero s = true ->
  (s = B754_infinity false /\ scale_fits e s = false) \/
  (is_finite s = true /\ 0 < B2R s /\ is_finite (f_mul g s) = true /\ B2R (f_mul g s) = rnd (B2R g * B2R s) /\
   (scale_fits e s = true <-> B2R (f_mul g s) < 1)).
Proof.
  intros s P. destruct gap_fin as (Fg & _ & Bg). destruct (is_finite s) eqn:Fs.
  - right. split; [reflexivity|]. apply fin_lt in P; [|reflexivity|exact Fs]. change (B2R f_zero) with 0 in P.
    split; [exact P|].
    pose proof (abs_B2R_lt_emax 24 128 s) as B. rewrite Rabs_pos_eq in B by lra.
    destruct (mul_fin g s Fg Fs) as [F E].
    { rewrite Rabs_pos_eq by (apply Rmult_le_pos; lra).
      apply Rle_trans with (bpow radix2 (-1) * bpow radix2 128); [|rewrite <- bpow_plus; apply bpow_le; lia].
      apply Rmult_le_compat; try lra. change (bpow radix2 (-1)) with (/ 2). lra. }
    split; [exact F|]. split; [exact E|]. unfold scale_fits. fold g.
    destruct one_fin as [F1 E1]. rewrite fin_lt by assumption. rewrite E1. tauto.
  - left. destruct s as [t|t| |t m x B]; try discriminate. destruct t; [discriminate|]. split; [reflexivity|].
    unfold scale_fits. fold g. pose proof (sign_pos g Fg ltac:(lra)) as S.
    destruct g as [t|t| |t m x B]; try discriminate; cbn in S; subst t.
    + change (B2R (B754_zero false)) with 0 in Bg. lra.
    + reflexivity.
Qed.

(** The multiplier of the temperature stays positive. *)
Lemma factor_pos : forall (m s v : f32),
  is_finite m = true -> - B2R e <= B2R m <= 2 ->
  f_lt f_zero s = true -> scale_fits e s = true ->
  is_finite v = true -> 0 <= B2R v <= 1 ->
  let r := f_add f_one (f_mul (f_mul (f_mul (f_sub m f_003) s) v) v) in
  is_finite r = true /\ 0 < B2R r.
Proof.
  intros m s v Fm Bm Ps Hs Fv Bv r. destruct gap_fin as (Fg & Eg & Bg).
  destruct (scale_cases s Ps) as [[_ X]|(Fs & Ps' & FL & EL & X)]; [congruence|]. apply X in Hs. clear X Ps.
  set (L := f_mul g s) in *.
  assert (GS : B2R g * B2R s < 1).
  { apply Rnot_le_lt. intro A. apply rnd_le in A. rewrite rnd_one, <- EL in A. lra. }
  assert (S34 : B2R s < 34) by nra.
  assert (L0 : 0 <= B2R L). { rewrite EL, <- rnd_0. apply rnd_le, Rmult_le_pos; lra. }
  destruct f003 as [F3 E3]. rewrite b29 in E3.
  assert (Big : 128 <= bpow radix2 127).
  { change 128 with (bpow radix2 7). apply bpow_le. lia. }
  destruct (sub_fin m f_003 Fm F3) as [F0 E0].
  { rewrite E3. apply Rabs_le. lra. }
  assert (B0 : - B2R g <= B2R (f_sub m f_003) <= 2).
  { rewrite E0. split.
    - rewrite Eg, <- rnd_neg. apply rnd_le. lra.
    - rewrite <- (rnd_int 2) by lia. apply rnd_le. rewrite E3. lra. }
  set (d := f_sub m f_003) in *.
  assert (P1 : - (B2R g * B2R s) <= B2R d * B2R s <= 68) by nra.
  destruct (mul_fin d s F0 Fs) as [F1 E1]; [apply Rabs_le; lra|].
  assert (B1 : - B2R L <= B2R (f_mul d s) <= 68).
  { rewrite E1. split; [rewrite EL, <- rnd_neg; apply rnd_le; lra|].
    rewrite <- (rnd_int 68) by lia. apply rnd_le. lra. }
  set (d1 := f_mul d s) in *.
  assert (St : forall q, - B2R L <= q <= 68 -> - B2R L <= q * B2R v <= 68).
  { intros q Hq. split; nra. }
  assert (RL : rnd (- B2R L) = - B2R L) by (rewrite rnd_neg, rnd_B2R; reflexivity).
  assert (R68 : rnd 68 = 68) by (apply (rnd_int 68); lia).
  destruct (mul_fin d1 v F1 Fv) as [F2 E2']; [pose proof (St _ B1); apply Rabs_le; lra|].
  assert (B2 : - B2R L <= B2R (f_mul d1 v) <= 68) by (rewrite E2'; apply rnd_between; auto).
  set (d2 := f_mul d1 v) in *.
  destruct (mul_fin d2 v F2 Fv) as [F4 E4]; [pose proof (St _ B2); apply Rabs_le; lra|].
  assert (B4 : - B2R L <= B2R (f_mul d2 v) <= 68) by (rewrite E4; apply rnd_between; auto).
  set (d4 := f_mul d2 v) in *.
  destruct one_fin as [F1' E1'].
  destruct (add_fin f_one d4 F1' F4) as [F5 E5]; [rewrite E1'; apply Rabs_le; lra|].
  unfold r. split; [exact F5|]. rewrite E5, E1'.
  destruct (Rle_or_lt (/ 2) (B2R L)) as [C|C].
  - apply Rlt_le_trans with (1 - B2R L); [lra|]. rewrite <- (rnd_complement L) by lra. apply rnd_le. lra.
  - apply Rlt_le_trans with (1 * bpow radix2 (-1)); [change (bpow radix2 (-1)) with (/ 2); lra|].
    rewrite <- (rnd_dyadic 1 (-1)) by lia. apply rnd_le. change (bpow radix2 (-1)) with (/ 2). lra.
Qed.

(** What a usable temperature is. *)
Definition temp_fits (t : temperature) : Prop :=
  nn (tp_value t) /\ f_lt f_zero (tp_scale t) = true /\ scale_fits e (tp_scale t) = true /\
  (tp_mask t < 2 ^ 63)%N /\ Forall in_unit (tp_acc t) /\ (0 < tp_window t)%Z.

Lemma temp_update_fits : forall o t s, mean_within e o -> temp_fits t -> in_unit s ->
  exists t', temperature_update o t s = Ok t' /\ temp_fits t' /\
    tp_acc t' = s :: tp_acc t /\ tp_mask t' = tp_mask t /\ tp_scale t' = tp_scale t /\
    tp_window t' = tp_window t.
Proof.
  intros o t s HM (Hv & Ps & Hf & Hm & Ha & Hw) Hs.
  unfold temperature_update.
  rewrite expects_Ok by (apply Hs). cbv zeta.
  assert (Ha' : Forall in_unit (s :: tp_acc t)) by (constructor; assumption).
  destruct (HM (tp_window t) (s :: tp_acc t)) as [Fm Bm]; [exact Hw|discriminate|exact Ha'|].
  destruct (volatility_unit (N.of_nat (length (s :: tp_acc t))) (tp_mask t) Hm) as [Fv Bv].
  destruct (factor_pos _ _ _ Fm Bm Ps Hf Fv Bv) as [Fr Br].
  assert (V : nn (f_mul (tp_value t)
    (f_add f_one
       (f_mul
          (f_mul (f_mul (f_sub (or_mean o (tp_window t) (s :: tp_acc t)) f_003) (tp_scale t))
             (volatility (N.of_nat (length (s :: tp_acc t))) (tp_mask t)))
          (volatility (N.of_nat (length (s :: tp_acc t))) (tp_mask t)))))).
  { apply mul_nn; [exact Hv|exact Fr|lra]. }
  rewrite expects_Ok.
  - eexists. split; [reflexivity|]. unfold temp_fits. cbn [tp_value tp_scale tp_mask tp_acc tp_window]. auto 10.
  - apply nn_iff. exact V.
Qed.

Lemma temp_run_fits : forall o l t, mean_within e o -> temp_fits t -> Forall in_unit l ->
  exists t', temperature_run o t l = Ok t' /\ temp_fits t' /\
    tp_acc t' = rev l ++ tp_acc t /\ tp_mask t' = tp_mask t /\ tp_scale t' = tp_scale t.
Proof.
  intros o l. induction l as [|s l IH]; intros t HM HT HL; cbn [temperature_run].
  - exists t. auto.
  - inversion HL; subst.
    destruct (temp_update_fits o t s) as (t1 & E & T1 & A1 & M1 & S1 & _); auto.
    rewrite E. cbn [bind]. destruct (IH t1) as (t' & E' & T' & A' & M' & S'); auto.
    exists t'. rewrite E'. split; [reflexivity|]. split; [exact T'|].
    rewrite A', A1, M', M1, S', S1. cbn [rev]. rewrite <- app_assoc. auto.
Qed.

Lemma temp_new_fits : forall s w q t, temperature_new s w q = Ok t ->
  scale_fits e s = true -> (q <= 2 ^ 62)%Z ->
  temp_fits t /\ tp_acc t = [] /\ tp_value t = f_one /\ tp_scale t = s /\
  tp_mask t = Z.to_N (q - 1).
Proof.
  intros s w q t H L Q. unfold temperature_new in H.
  destruct (f_lt f_zero s) eqn:P; [|discriminate]. cbn [expects bind] in H.
  destruct (0 <? w)%Z eqn:W; [|discriminate]. cbn [expects bind] in H.
  destruct (0 <? q)%Z eqn:Q0; [|discriminate]. cbn [expects bind] in H.
  destruct (has_single_bit (Z.to_N q)); [|discriminate]. cbn [expects bind] in H.
  injection H as <-. cbn [tp_value tp_scale tp_mask tp_acc tp_window].
  apply Z.ltb_lt in W, Q0.
  split; [|auto]. unfold temp_fits. cbn [tp_value tp_scale tp_mask tp_acc tp_window].
  split; [apply nn_iff; vm_compute; reflexivity|].
  split; [exact P|]. split; [exact L|]. split; [lia|]. split; [constructor|exact W].
Qed.

(** ** Scales that are too large *)

Definition last_sample : oracles :=
  {| or_exp := fun _ => f_one; or_log := fun _ => f_zero;
     or_mean := fun _ l => match l with
                           | [] => f_zero
                           | x :: _ => if f_le x f_zero then f_opp e else f_one
                           end |}.

Lemma last_sample_within : mean_within e last_sample.
Proof.
  intros w [|x l] W N U; [congruence|]. cbn [last_sample or_mean]. destruct (f_le x f_zero).
  - unfold f_opp. rewrite is_finite_Bopp, B2R_Bopp. split; [exact Fe|lra].
  - destruct one_fin as [F E]. rewrite E. split; [exact F|lra].
Qed.

Lemma volatility_one : forall n, volatility n 0 = f_one.
Proof.
  intro n. unfold volatility, dampening. rewrite N.land_0_r. apply B2SF_inj. vm_compute. reflexivity.
Qed.

(** Multiplying by one twice. *)
Lemma mul_one : forall x : f32, is_finite x = true ->
  is_finite (f_mul (f_mul x f_one) f_one) = true /\ B2R (f_mul (f_mul x f_one) f_one) = B2R x.
Proof.
  assert (G : forall x : f32, is_finite x = true -> is_finite (f_mul x f_one) = true /\ B2R (f_mul x f_one) = B2R x).
  { intros x F. destruct one_fin as [F1 E1].
    pose proof (Bmult_correct 24 128 _ _ mode_NE x f_one) as C. rewrite E1, Rmult_1_r in C.
    change (round radix2 fexp32 (round_mode mode_NE) (B2R x)) with (rnd (B2R x)) in C. rewrite rnd_B2R in C.
    rewrite Rlt_bool_true in C by apply abs_B2R_lt_emax. destruct C as (A & B & _).
    unfold f_mul. rewrite A, B, F, F1. auto. }
  intros x F. destruct (G x F) as [A B]. destruct (G _ A) as [C D]. split; [exact C|congruence].
Qed.

(** The state of a temperature with restart period 1. *)
Definition plain_temp (v s : f32) (l : list f32) : temperature :=
  {| tp_value := v; tp_window := 1; tp_acc := l; tp_scale := s; tp_mask := 0 |}.

Definition factor_of (m s : f32) : f32 :=
  f_add f_one (f_mul (f_mul (f_mul (f_sub m f_003) s) f_one) f_one).

Lemma plain_update : forall v s l x, in_unit x ->
  temperature_update last_sample (plain_temp v s l) x =
  let v' := f_mul v (factor_of (if f_le x f_zero then f_opp e else f_one) s) in
  if f_le f_zero v' then Ok (plain_temp v' s (x :: l)) else Broken.
Proof.
  intros v s l x U. unfold temperature_update. rewrite expects_Ok by apply U.
  cbn [plain_temp tp_value tp_window tp_acc tp_scale tp_mask average_stun last_sample or_mean].
  rewrite volatility_one. fold (factor_of (if f_le x f_zero then f_opp e else f_one) s). cbv zeta.
  destruct (f_le f_zero (f_mul v _)); reflexivity.
Qed.

(** A sample of 0 with the largest error. *)
Lemma factor_low : forall s, f_lt f_zero s = true -> scale_fits e s = false ->
  factor_of (f_opp e) s = B754_infinity true \/
  (is_finite (factor_of (f_opp e) s) = true /\ B2R (factor_of (f_opp e) s) < 0) \/
  (is_finite s = true /\ rnd (B2R g * B2R s) = 1 /\ is_finite (factor_of (f_opp e) s) = true /\ B2R (factor_of (f_opp e) s) = 0).
Proof.
  intros s P NF. destruct gap_fin as (Fg & Eg & Bg). destruct f003 as [F3 E3]. pose proof E3 as E3'. rewrite b29 in E3'.
  assert (D : is_finite (f_sub (f_opp e) f_003) = true /\ B2R (f_sub (f_opp e) f_003) = - B2R g).
  { destruct (sub_fin (f_opp e) f_003) as [F E].
    - unfold f_opp. rewrite is_finite_Bopp. exact Fe.
    - exact F3.
    - unfold f_opp. rewrite B2R_Bopp, E3'. apply Rle_trans with (bpow radix2 0); [|apply bpow_le; lia].
      change (bpow radix2 0) with 1. apply Rabs_le. lra.
    - split; [exact F|]. rewrite E. unfold f_opp. rewrite B2R_Bopp, Eg, <- rnd_neg. f_equal. lra. }
  destruct D as [Fd Ed]. unfold factor_of.
  destruct (scale_cases s P) as [[-> _]|(Fs & Ps & FL & EL & X)].
  - left. destruct (f_sub (f_opp e) f_003) as [t|t| |t m x B]; try discriminate.
    + change (B2R (B754_zero t)) with 0 in Ed. lra.
    + destruct t; [reflexivity|]. exfalso.
      assert (0 < B2R (B754_finite false m x B)); [|lra].
      change (0 < F2R (Float radix2 (Z.pos m) x)). apply F2R_gt_0. reflexivity.
  - right. assert (L1 : 1 <= B2R (f_mul g s)).
    { apply Rnot_lt_le. intro A. apply X in A. congruence. }
    set (d := f_sub (f_opp e) f_003) in *.
    assert (M : is_finite (f_mul d s) = true /\ B2R (f_mul d s) = - B2R (f_mul g s)).
    { destruct (mul_fin d s Fd Fs) as [F E].
      - rewrite Ed. pose proof (abs_B2R_lt_emax 24 128 s) as B. rewrite (Rabs_pos_eq (B2R s)) in B by lra.
        replace (- B2R g * B2R s) with (- (B2R g * B2R s)) by ring. rewrite Rabs_Ropp.
        rewrite Rabs_pos_eq by (apply Rmult_le_pos; lra).
        apply Rle_trans with (bpow radix2 (-1) * bpow radix2 128); [|rewrite <- bpow_plus; apply bpow_le; lia].
        apply Rmult_le_compat; try lra. change (bpow radix2 (-1)) with (/ 2). lra.
      - split; [exact F|]. rewrite E, Ed, EL, <- rnd_neg. f_equal. ring. }
    destruct M as [Fm Em]. destruct (mul_one _ Fm) as [F1 E1]. rewrite Em in E1.
    set (d1 := f_mul (f_mul (f_mul d s) f_one) f_one) in *. set (L := f_mul g s) in *.
    assert (LB : B2R L <= bpow radix2 127).
    { rewrite EL, <- (rnd_bpow 127) by lia. apply rnd_le.
      pose proof (abs_B2R_lt_emax 24 128 s) as B. rewrite Rabs_pos_eq in B by lra.
      apply Rle_trans with (bpow radix2 (-1) * bpow radix2 128); [|rewrite <- bpow_plus; apply bpow_le; lia].
      apply Rmult_le_compat; try lra. change (bpow radix2 (-1)) with (/ 2). lra. }
    destruct one_fin as [Fo Eo]. destruct (add_fin f_one d1 Fo F1) as [Fr Er].
    { rewrite Eo, E1. apply Rabs_le. lra. }
    rewrite Eo, E1 in Er. replace (1 + - B2R L) with (1 - B2R L) in Er by ring.
    destruct (Rle_lt_or_eq_dec _ _ L1) as [G|G].
    + left. split; [exact Fr|]. rewrite Er. destruct (Rle_or_lt (B2R L) 2) as [C|C].
      * rewrite rnd_complement by lra. lra.
      * apply Rle_lt_trans with (-1); [|lra]. rewrite <- (rnd_int (-1)) by lia. apply rnd_le. lra.
    + right. split; [exact Fs|]. split; [lra|]. split; [exact Fr|]. rewrite Er, <- G.
      replace (1 - 1) with 0 by ring. apply rnd_0.
Qed.

(** A sample of 1, when the limit is hit exactly. *)
Lemma factor_high : forall s, is_finite s = true -> rnd (B2R g * B2R s) = 1 ->
  is_finite (factor_of f_one s) = true /\ 2 <= B2R (factor_of f_one s).
Proof.
  intros s Fs G. destruct gap_fin as (Fg & Eg & Bg). destruct f003 as [F3 E3]. rewrite b29 in E3.
  destruct one_fin as [F1 E1].
  assert (S : 3 / 2 <= B2R s <= 68).
  { assert (A : / 2 <= B2R g * B2R s <= 2).
    { split; apply Rnot_lt_le; intro A; apply Rlt_le, rnd_le in A; rewrite G in A.
      - replace (/ 2) with (1 * bpow radix2 (-1)) in A by (change (bpow radix2 (-1)) with (/ 2); ring).
        rewrite rnd_dyadic in A by lia. change (bpow radix2 (-1)) with (/ 2) in A. lra.
      - rewrite (rnd_int 2) in A by lia. lra. }
    split; nra. }
  assert (Big : 128 <= bpow radix2 127).
  { change 128 with (bpow radix2 7). apply bpow_le. lia. }
  destruct (sub_fin f_one f_003 F1 F3) as [Fd Ed]; [rewrite E1, E3; apply Rabs_le; lra|].
  assert (Bd : 7 / 8 <= B2R (f_sub f_one f_003) <= 1).
  { rewrite Ed, E1, E3. replace (7 / 8) with (7 * bpow radix2 (-3)) by (change (bpow radix2 (-3)) with (/ 8); lra).
    apply rnd_between; [apply (rnd_dyadic 7 (-3)); lia|apply rnd_one|]. change (bpow radix2 (-3)) with (/ 8). lra. }
  unfold factor_of. set (d := f_sub f_one f_003) in *.
  assert (P : 1 <= B2R d * B2R s <= 68) by nra.
  destruct (mul_fin d s Fd Fs) as [Fm Em]; [apply Rabs_le; lra|].
  assert (Bm : 1 <= B2R (f_mul d s) <= 68).
  { rewrite Em. apply rnd_between; [apply (rnd_int 1); lia|apply (rnd_int 68); lia|exact P]. }
  destruct (mul_one _ Fm) as [F2 E2].
  destruct (add_fin f_one _ F1 F2) as [Fr Er]; [rewrite E1, E2; apply Rabs_le; lra|].
  split; [exact Fr|]. rewrite Er, E1, E2. rewrite <- (rnd_int 2) by lia. apply rnd_le. lra.
Qed.

(** Samples of 1 make the temperature infinite. *)
Lemma heat_up : forall s n v l, 2 <= B2R (factor_of f_one s) -> is_finite (factor_of f_one s) = true ->
  nn v -> (v = B754_infinity false \/ 1 <= B2R v) ->
  exists v' l', temperature_run last_sample (plain_temp v s l) (repeat f_one n) = Ok (plain_temp v' s l') /\
    nn v' /\ (v' = B754_infinity false \/ bpow radix2 (Z.of_nat n) <= B2R v').
Proof.
  intros s n. induction n as [|n IH]; intros v l R F N V.
  - exists v, l. split; [reflexivity|]. split; [exact N|]. destruct V as [V|V]; [left; exact V|right].
    change (bpow radix2 (Z.of_nat 0)) with 1. exact V.
  - destruct (IH v l R F N V) as (v1 & l1 & E & N1 & V1).
    replace (repeat f_one (S n)) with (repeat f_one n ++ [f_one])
      by (replace (S n) with (n + 1)%nat by lia; rewrite repeat_app; reflexivity).
    rewrite run_app, E. cbn [bind temperature_run]. rewrite plain_update by (split; vm_compute; reflexivity).
    change (f_le f_one f_zero) with false. cbv iota zeta.
    set (r := factor_of f_one s) in *. pose proof (mul_nn v1 r N1 F ltac:(lra)) as N2.
    rewrite (proj1 (nn_iff _) N2) || rewrite (proj2 (nn_iff _) N2). cbn [bind].
    exists (f_mul v1 r), (f_one :: l1). split; [reflexivity|]. split; [exact N2|].
    destruct (num_cases _ N2) as [F2|E2]; [|left; exact E2].
    destruct V1 as [->|V1].
    + exfalso. destruct r as [t|t| |t m x B]; discriminate.
    + right. destruct (num_cases _ N1) as [F1| ->].
      * pose proof (Bmult_correct 24 128 _ _ mode_NE v1 r) as C.
        destruct (Rlt_bool _ _) eqn:O in C.
        -- destruct C as (C & _). unfold f_mul. rewrite C.
           change (bpow radix2 (Z.of_nat (S n)) <= rnd (B2R v1 * B2R r)).
           rewrite <- (rnd_bpow (Z.of_nat (S n))) by lia. apply rnd_le.
           replace (Z.of_nat (S n))%Z with (Z.of_nat n + 1)%Z by lia. rewrite bpow_plus.
           change (bpow radix2 1) with 2. apply Rmult_le_compat; try lra. apply bpow_ge_0.
        -- exfalso. unfold f_mul in F2. destruct (Bmult mode_NE v1 r) as [t|t| |t m x B]; try discriminate;
             cbn in C; destruct (xorb _ _); discriminate.
      * exfalso. destruct r as [t|t| |t m x B]; discriminate.
Qed.

Definition cold_after_heat : list f32 := repeat f_one 128 ++ [f_zero].

Lemma too_large_fails : forall s t, f_lt f_zero s = true -> scale_fits e s = false ->
  temperature_new s 1 1 = Ok t ->
  temperature_run last_sample t [f_zero] = Broken \/ temperature_run last_sample t cold_after_heat = Broken.
Proof.
  intros s t P NF H.
  assert (T : t = plain_temp f_one s []).
  { unfold temperature_new in H. rewrite P in H. cbn in H. injection H as <-. reflexivity. }
  subst t. clear H.
  assert (UZ : in_unit f_zero) by (split; vm_compute; reflexivity).
  assert (Z0 : f_le f_zero f_zero = true) by reflexivity.
  destruct (factor_low s P NF) as [I|[(F & N)|(Fs & G & F & N)]].
  - left. cbn [temperature_run]. rewrite plain_update by exact UZ. rewrite Z0. cbv iota zeta. rewrite I. reflexivity.
  - left. cbn [temperature_run]. rewrite plain_update by exact UZ. rewrite Z0. cbv iota zeta.
    set (r := factor_of (f_opp e) s) in *. destruct one_fin as [F1 E1].
    pose proof (Bmult_correct 24 128 _ _ mode_NE f_one r) as C. rewrite E1, Rmult_1_l in C.
    change (round radix2 fexp32 (round_mode mode_NE) (B2R r)) with (rnd (B2R r)) in C. rewrite rnd_B2R in C.
    rewrite Rlt_bool_true in C by apply abs_B2R_lt_emax. destruct C as (A & B & _). rewrite F, F1 in B.
    destruct (f_le f_zero (f_mul f_one r)) eqn:L; [|reflexivity]. exfalso.
    apply fin_le in L; [|reflexivity|exact B]. unfold f_mul in L. rewrite A in L. change (B2R f_zero) with 0 in L. lra.
  - right. destruct (factor_high s Fs G) as [FH RH]. unfold cold_after_heat. rewrite run_app.
    destruct (heat_up s 128 f_one [] RH FH) as (v & l & E & Nv & V).
    + apply nn_iff. vm_compute. reflexivity.
    + right. rewrite (proj2 one_fin). lra.
    + rewrite E. cbn [bind temperature_run]. rewrite plain_update by exact UZ. rewrite Z0. cbv iota zeta.
      assert (v = B754_infinity false) as ->.
      { destruct V as [V|V]; [exact V|]. exfalso. pose proof (abs_B2R_lt_emax 24 128 v) as B.
        pose proof (Rle_abs (B2R v)). assert (bpow radix2 128 <= bpow radix2 (Z.of_nat 128)) by (apply bpow_le; lia). lra. }
      destruct (factor_of (f_opp e) s) as [t|t| |t m x B]; try discriminate.
      * destruct t; reflexivity.
      * exfalso. cbn [B2R] in N. apply eq_0_F2R in N. destruct t; discriminate.
Qed.
End Scale.

Lemma slack_ok : error_ok slack.
Proof. split; [reflexivity|]. rewrite (proj2 slack_value). lra. Qed.

(** ** The restart period *)

Lemma land_mask : forall n k, N.land n (2 ^ k - 1) = (n mod 2 ^ k)%N.
Proof. intros n k. replace (2 ^ k - 1)%N with (N.ones k) by (rewrite N.ones_equiv; lia). apply N.land_ones. Qed.

Lemma volatility_exact : forall k n, (k <= 24)%nat ->
  let v := volatility (N.of_nat n) (Z.to_N (2 ^ Z.of_nat k - 1)) in
  is_finite v = true /\ B2R v = damping k n.
Proof.
  intros k n Hk v.
  set (a := Z.of_nat (n mod 2 ^ k)). set (b := (2 ^ Z.of_nat k)%Z).
  assert (P2 : (0 < 2 ^ k)%nat) by (apply Nat.neq_0_lt_0, Nat.pow_nonzero; lia).
  assert (Eb : b = Z.of_nat (2 ^ k)) by (unfold b; rewrite Nat2Z.inj_pow; reflexivity).
  assert (Hb : (1 <= b <= 2 ^ 24)%Z).
  { split; [lia|]. unfold b. apply Z.pow_le_mono_r; lia. }
  assert (Ha : (0 <= a < b)%Z).
  { unfold a. rewrite Eb. pose proof (Nat.mod_upper_bound n (2 ^ k)). lia. }
  assert (EA : Z.of_N (N.land (N.of_nat n) (Z.to_N (b - 1))) = a).
  { replace (Z.to_N (b - 1)) with (2 ^ N.of_nat k - 1)%N.
    - rewrite land_mask. unfold a. rewrite N2Z.inj_mod, N2Z.inj_pow, !nat_N_Z, Nat2Z.inj_mod, Nat2Z.inj_pow.
      reflexivity.
    - unfold b. replace (2 ^ Z.of_nat k)%Z with (Z.of_N (2 ^ N.of_nat k)) by (rewrite N2Z.inj_pow, nat_N_Z; reflexivity).
      lia. }
  assert (EB : Z.of_N (Z.to_N (b - 1) + 1) = b) by lia.
  unfold v, volatility, dampening. fold b. rewrite EA, EB.
  destruct (of_Z_exact a) as [Fa Va]; [lia|]. destruct (of_Z_exact b) as [Fb Vb]; [lia|].
  assert (Pb : 1 <= IZR b) by (apply IZR_le; lia).
  assert (Pa : 0 <= IZR a <= IZR b) by (split; apply IZR_le; lia).
  assert (Inv : / IZR b = bpow radix2 (- Z.of_nat k)).
  { rewrite bpow_opp. f_equal. unfold b. change 2%Z with (radix_val radix2).
    apply IZR_Zpower. lia. }
  assert (Q : 0 <= IZR a / IZR b <= 1).
  { split; [apply Rmult_le_pos; [lra|left; apply Rinv_0_lt_compat; lra]|].
    apply Rmult_le_reg_r with (IZR b); [lra|]. unfold Rdiv. rewrite Rmult_assoc, Rinv_l by lra. lra. }
  assert (Big : 1 <= bpow radix2 127) by (change 1 with (bpow radix2 0); apply bpow_le; lia).
  destruct (div_fin (f_of_Z a) (f_of_Z b) Fa) as [Fd Ed]; [rewrite Vb; lra| |].
  { rewrite Va, Vb, Rabs_pos_eq; lra. }
  rewrite Va, Vb in Ed.
  assert (Ed' : B2R (f_div (f_of_Z a) (f_of_Z b)) = IZR a / IZR b).
  { rewrite Ed. unfold Rdiv. rewrite Inv. apply rnd_dyadic; lia. }
  destruct one_fin as [F1 E1].
  destruct (sub_fin f_one (f_div (f_of_Z a) (f_of_Z b)) F1 Fd) as [Fs Es].
  { rewrite E1, Ed', Rabs_pos_eq; lra. }
  split; [exact Fs|]. rewrite Es, E1, Ed'.
  assert (X : 1 - IZR a / IZR b = IZR (b - a) * bpow radix2 (- Z.of_nat k)).
  { rewrite minus_IZR, <- Inv. field. lra. }
  rewrite X, rnd_dyadic by lia. rewrite <- X. unfold damping. rewrite !INR_IZR_INZ.
  fold a. rewrite <- Eb. reflexivity.
Qed.

Lemma damping_range : forall k n, 0 < damping k n <= 1.
Proof.
  intros k n. unfold damping.
  assert (P2 : (0 < 2 ^ k)%nat) by (apply Nat.neq_0_lt_0, Nat.pow_nonzero; lia).
  pose proof (Nat.mod_upper_bound n (2 ^ k) ltac:(lia)) as U.
  assert (A : 0 < INR (2 ^ k)) by (apply lt_0_INR; lia).
  assert (B : 0 <= INR (n mod 2 ^ k) < INR (2 ^ k)) by (split; [apply pos_INR|apply lt_INR, U]).
  assert (C : 0 <= INR (n mod 2 ^ k) / INR (2 ^ k) < 1).
  { split; [apply Rmult_le_pos; [lra|left; apply Rinv_0_lt_compat; lra]|].
    apply Rmult_lt_reg_r with (INR (2 ^ k)); [lra|]. unfold Rdiv. rewrite Rmult_assoc, Rinv_l by lra. lra. }
  lra.
Qed.

Lemma damping_one : forall k n, damping k n = 1 <-> (n mod 2 ^ k = 0)%nat.
Proof.
  intros k n. unfold damping.
  assert (P2 : (0 < 2 ^ k)%nat) by (apply Nat.neq_0_lt_0, Nat.pow_nonzero; lia).
  assert (A : 0 < INR (2 ^ k)) by (apply lt_0_INR; lia).
  split; intro H.
  - assert (INR (n mod 2 ^ k) / INR (2 ^ k) = 0) by lra.
    assert (INR (n mod 2 ^ k) = 0).
    { apply Rmult_eq_reg_r with (/ INR (2 ^ k)); [unfold Rdiv in *; lra|].
      apply Rgt_not_eq, Rinv_0_lt_compat, A. }
    apply INR_eq. exact H1.
  - rewrite H. cbn [INR]. unfold Rdiv. rewrite Rmult_0_l. ring.
Qed.

Lemma damping_step : forall k n, (S n mod 2 ^ k <> 0)%nat ->
  damping k (S n) = damping k n - / INR (2 ^ k).
Proof.
  intros k n H. unfold damping.
  assert (P2 : (0 < 2 ^ k)%nat) by (apply Nat.neq_0_lt_0, Nat.pow_nonzero; lia).
  assert (E : (S n mod 2 ^ k = S (n mod 2 ^ k))%nat).
  { pose proof (Nat.mod_upper_bound n (2 ^ k) ltac:(lia)) as U.
    rewrite (Nat.div_mod n (2 ^ k)) at 1 by lia.
    replace (S (2 ^ k * (n / 2 ^ k) + n mod 2 ^ k)) with (S (n mod 2 ^ k) + (n / 2 ^ k) * 2 ^ k)%nat by lia.
    rewrite Nat.mod_add by lia.
    destruct (Nat.eq_dec (S (n mod 2 ^ k)) (2 ^ k)) as [Q|Q]; [|apply Nat.mod_small; lia].
    exfalso. apply H. rewrite (Nat.div_mod n (2 ^ k)) by lia.
    replace (S (2 ^ k * (n / 2 ^ k) + n mod 2 ^ k)) with (S (n mod 2 ^ k) + (n / 2 ^ k) * 2 ^ k)%nat by lia.
    rewrite Nat.mod_add by lia. rewrite Q. apply Nat.mod_same. lia. }
  rewrite E, S_INR. field. apply Rgt_not_eq, lt_0_INR. lia.
Qed.
