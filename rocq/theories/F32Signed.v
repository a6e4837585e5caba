(** * Facts about signed binary32 arithmetic used by the proofs *)

From Coq Require Import ZArith Bool List Reals Lia Lra Psatz.
From Flocq Require Import Core BinarySingleNaN.
From Verif Require Import F32 F32Facts NormaliseProofs.
Import ListNotations.

Local Open Scope R_scope.

Lemma no_overflow : forall r, Rabs r <= bpow radix2 127 ->
  Rlt_bool (Rabs (rnd r)) (bpow radix2 128) = true.
Proof.
  intros r H. apply Rlt_bool_true.
  apply Rle_lt_trans with (bpow radix2 127); [|apply bpow_lt; lia].
  apply abs_round_le_generic; [apply fexp32_valid|apply valid_rnd_N| |exact H].
  apply generic_format_bpow. vm_compute. discriminate.
Qed.

Lemma add_fin : forall x y : f32, is_finite x = true -> is_finite y = true ->
  Rabs (B2R x + B2R y) <= bpow radix2 127 ->
  is_finite (f_add x y) = true /\ B2R (f_add x y) = rnd (B2R x + B2R y).
Proof.
  intros x y Fx Fy H.
  pose proof (Bplus_correct 24 128 _ _ mode_NE x y Fx Fy) as C.
  rewrite no_overflow in C by exact H. destruct C as (A & B & _). auto.
Qed.

Lemma sub_fin : forall x y : f32, is_finite x = true -> is_finite y = true ->
  Rabs (B2R x - B2R y) <= bpow radix2 127 ->
  is_finite (f_sub x y) = true /\ B2R (f_sub x y) = rnd (B2R x - B2R y).
Proof.
  intros x y Fx Fy H.
  pose proof (Bminus_correct 24 128 _ _ mode_NE x y Fx Fy) as C.
  rewrite no_overflow in C by exact H. destruct C as (A & B & _). auto.
Qed.

Lemma mul_fin : forall x y : f32, is_finite x = true -> is_finite y = true ->
  Rabs (B2R x * B2R y) <= bpow radix2 127 ->
  is_finite (f_mul x y) = true /\ B2R (f_mul x y) = rnd (B2R x * B2R y).
Proof.
  intros x y Fx Fy H.
  pose proof (Bmult_correct 24 128 _ _ mode_NE x y) as C.
  rewrite no_overflow in C by exact H. destruct C as (A & B & _).
  rewrite Fx, Fy in B. auto.
Qed.

Lemma div_fin : forall x y : f32, is_finite x = true -> B2R y <> 0 ->
  Rabs (B2R x / B2R y) <= bpow radix2 127 ->
  is_finite (f_div x y) = true /\ B2R (f_div x y) = rnd (B2R x / B2R y).
Proof.
  intros x y Fx Fy H.
  pose proof (Bdiv_correct 24 128 _ _ mode_NE x y Fy) as C.
  rewrite no_overflow in C by exact H. destruct C as (A & B & _).
  rewrite Fx in B. auto.
Qed.

(** A rounded value stays within bounds that are themselves single
    precision numbers. *)
Lemma rnd_between : forall lo hi r, rnd lo = lo -> rnd hi = hi ->
  lo <= r <= hi -> lo <= rnd r <= hi.
Proof.
  intros lo hi r L H [A B]. apply rnd_le in A, B. rewrite L in A. rewrite H in B.
  split; assumption.
Qed.

(** Small dyadic numbers are exact. *)
Lemma rnd_dyadic : forall m e, (Z.abs m <= 2 ^ 24)%Z -> (-149 <= e <= 103)%Z ->
  rnd (IZR m * bpow radix2 e) = IZR m * bpow radix2 e.
Proof.
  intros m e Hm He. apply round_generic; [apply valid_rnd_N|].
  destruct (Z.eq_dec (Z.abs m) (2 ^ 24)) as [E|E].
  - assert (G : generic_format radix2 fexp32 (bpow radix2 (24 + e))).
    { apply generic_format_bpow. unfold SpecFloat.fexp, SpecFloat.emin. lia. }
    rewrite bpow_plus in G. change (bpow radix2 24) with (IZR (2 ^ 24)) in G.
    destruct (Z.abs_eq_or_opp m) as [S|S]; rewrite S in E.
    + rewrite E. exact G.
    + replace m with (- (2 ^ 24))%Z by lia. rewrite opp_IZR, <- Ropp_mult_distr_l.
      apply generic_format_opp. exact G.
  - apply (generic_format_FLT radix2 (-149) 24).
    exists (Float radix2 m e); [reflexivity| |exact (proj1 He)].
    change (radix_val radix2 ^ 24)%Z with (2 ^ 24)%Z. cbn [Fnum]. lia.
Qed.

Lemma of_Z_fin : forall z, (Z.abs z <= 2 ^ 64)%Z ->
  is_finite (f_of_Z z) = true /\ B2R (f_of_Z z) = rnd (IZR z).
Proof.
  intros z Hz.
  pose proof (binary_normalize_correct 24 128 _ _ mode_NE z 0 false) as C.
  cbv zeta in C.
  assert (E : F2R (Float radix2 z 0) = IZR z) by (unfold F2R; cbn; ring).
  rewrite E in C. rewrite no_overflow in C.
  - destruct C as (A & B & _). auto.
  - rewrite <- abs_IZR. apply Rle_trans with (IZR (2 ^ 64)); [apply IZR_le, Hz|].
    change (IZR (2 ^ 64)) with (bpow radix2 64). apply bpow_le. lia.
Qed.

Lemma of_Z_exact : forall z, (Z.abs z <= 2 ^ 24)%Z -> is_finite (f_of_Z z) = true /\ B2R (f_of_Z z) = IZR z.
Proof.
  intros z Hz. destruct (of_Z_fin z) as [F E]; [lia|]. split; [exact F|]. rewrite E.
  replace (IZR z) with (IZR z * bpow radix2 0) by (cbn; ring). apply rnd_dyadic; lia.
Qed.

Lemma fin_le : forall x y : f32, is_finite x = true -> is_finite y = true ->
  (f_le x y = true <-> B2R x <= B2R y).
Proof.
  intros x y Fx Fy. unfold f_le. rewrite Bleb_correct by assumption. split; intro H.
  - destruct (Rle_bool_spec (B2R x) (B2R y)); [assumption|discriminate].
  - apply Rle_bool_true. exact H.
Qed.

Lemma fin_lt : forall x y : f32, is_finite x = true -> is_finite y = true ->
  (f_lt x y = true <-> B2R x < B2R y).
Proof.
  intros x y Fx Fy. unfold f_lt. rewrite Bltb_correct by assumption. split; intro H.
  - destruct (Rlt_bool_spec (B2R x) (B2R y)); [assumption|discriminate].
  - apply Rlt_bool_true. exact H.
Qed.

Lemma one_fin : is_finite f_one = true /\ B2R f_one = 1.
Proof. destruct (of_Z_exact 1) as [F E]; [lia|]. split; [exact F|]. exact E. Qed.

Lemma zero_fin : is_finite f_zero = true /\ B2R f_zero = 0.
Proof. split; reflexivity. Qed.

Lemma nn_fin : forall x : f32, is_finite x = true -> 0 <= B2R x -> nn x.
Proof.
  intros x F H. apply val_nn; [apply finite_num, F|]. rewrite val_finite by exact F. exact H.
Qed.

(** A value between two finite ones is finite. *)
Lemma between_fin : forall lo hi x : f32, is_finite lo = true -> is_finite hi = true ->
  f_le lo x = true -> f_le x hi = true ->
  is_finite x = true /\ B2R lo <= B2R x <= B2R hi.
Proof.
  intros lo hi x Fl Fh L H.
  assert (F : is_finite x = true).
  { destruct (le_num _ _ L) as [Nl Nx]. destruct (le_num _ _ H) as [_ Nh].
    rewrite le_key in L, H by assumption. apply Z.leb_le in L, H.
    pose proof (key_finite_lt lo Fl) as [A _]. pose proof (key_finite_lt hi Fh) as [_ B].
    destruct x as [s|s| |s m e Hb]; try reflexivity; [|discriminate].
    cbn [key] in L, H. destruct s; lia. }
  split; [exact F|]. split; apply fin_le; assumption.
Qed.

Lemma unit_fin : forall x : f32, f_le f_zero x = true -> f_le x f_one = true ->
  is_finite x = true /\ 0 <= B2R x <= 1.
Proof.
  intros x A B. destruct (between_fin f_zero f_one x) as [F H]; auto.
  rewrite (proj2 one_fin) in H. change (B2R f_zero) with 0 in H. auto.
Qed.

Lemma fin_unit : forall x : f32, is_finite x = true -> 0 <= B2R x <= 1 ->
  f_le f_zero x = true /\ f_le x f_one = true.
Proof.
  intros x F [A B]. destruct one_fin as [F1 E1].
  split; apply fin_le; auto. rewrite E1. exact B.
Qed.

Lemma sign_pos : forall y : f32, is_finite y = true -> 0 < B2R y -> Bsign y = false.
Proof.
  intros [s|s| |s m e Hb] F P; try discriminate.
  - change (0 < 0) in P. lra.
  - destruct s; [|reflexivity]. exfalso.
    assert (B2R (B754_finite true m e Hb) < 0).
    { change (F2R (Float radix2 (Z.neg m) e) < 0). apply F2R_lt_0. reflexivity. }
    lra.
Qed.

(** Multiplication by a positive finite number keeps the sign. *)
Lemma mul_nn : forall x y : f32, nn x -> is_finite y = true -> 0 < B2R y -> nn (f_mul x y).
Proof.
  intros x y Hx Fy Py. pose proof (sign_pos y Fy Py) as Sy.
  destruct (num_cases x Hx) as [Fx|E].
  - assert (H0 : 0 <= B2R x) by (rewrite <- val_finite by exact Fx; apply nn_val, Hx).
    destruct (Rle_lt_or_eq_dec _ _ H0) as [P|Z].
    + pose proof (sign_pos x Fx P) as Sx.
      pose proof (Bmult_correct 24 128 _ _ mode_NE x y) as C.
      assert (R0 : 0 <= rnd (B2R x * B2R y)).
      { rewrite <- rnd_0. apply rnd_le. apply Rmult_le_pos; lra. }
      destruct (Rlt_bool (Rabs (rnd (B2R x * B2R y))) (bpow radix2 128)).
      * destruct C as (A & B & _). rewrite Fx, Fy in B. apply nn_fin; [exact B|].
        unfold f_mul. rewrite A. exact R0.
      * rewrite Sx, Sy in C. cbn in C. apply inf_of_SF in C. unfold f_mul. rewrite C.
        split; [reflexivity|]. vm_compute. discriminate.
    + destruct (mul_fin x y Fx Fy) as [F V].
      * rewrite <- Z, Rmult_0_l, Rabs_R0. apply bpow_ge_0.
      * apply nn_fin; [exact F|]. rewrite V, <- Z, Rmult_0_l, rnd_0. lra.
  - subst x. destruct y as [s|s| |s m e Hb]; try discriminate.
    + change (0 < 0) in Py. lra.
    + cbn in Sy. subst s. split; [reflexivity|]. vm_compute. discriminate.
Qed.

(** Differences of ordered non-negative numbers. *)
Lemma sub_nn : forall x y : f32, is_finite x = true -> is_finite y = true ->
  0 <= B2R y <= B2R x ->
  is_finite (f_sub x y) = true /\ 0 <= B2R (f_sub x y) <= B2R x.
Proof.
  intros x y Fx Fy H.
  pose proof (Bminus_correct 24 128 _ _ mode_NE x y Fx Fy) as C.
  assert (RX : rnd (B2R x) = B2R x) by (rewrite <- val_finite by exact Fx; apply rnd_val).
  assert (B : 0 <= rnd (B2R x - B2R y) <= B2R x).
  { apply rnd_between; [apply rnd_0|exact RX|lra]. }
  rewrite Rlt_bool_true in C.
  - destruct C as (A & D & _). unfold f_sub. rewrite A. auto.
  - rewrite Rabs_pos_eq by lra. apply Rle_lt_trans with (1 := proj2 B).
    apply Rle_lt_trans with (1 := Rle_abs _). apply abs_B2R_lt_emax.
Qed.

(** Products of opposite signs are not positive. *)
Lemma mul_neg : forall g d : f32, is_finite g = true -> is_finite d = true ->
  0 <= B2R g -> 0 <= B2R d -> f_le (f_mul (Bopp g) d) f_zero = true.
Proof.
  intros g d Fg Fd Pg Pd.
  assert (Fo : is_finite (Bopp g) = true) by (rewrite is_finite_Bopp; exact Fg).
  pose proof (Bmult_correct 24 128 _ _ mode_NE (Bopp g) d) as C.
  rewrite B2R_Bopp in C.
  assert (R0 : rnd (- B2R g * B2R d) <= 0).
  { rewrite <- rnd_0. apply rnd_le. nra. }
  destruct (Rlt_bool (Rabs (rnd (- B2R g * B2R d))) (bpow radix2 128)) eqn:O.
  - destruct C as (A & B & _). rewrite Fo, Fd in B. apply fin_le; auto.
    unfold f_mul. rewrite A. exact R0.
  - destruct (Req_dec (B2R g * B2R d) 0) as [Z|Z].
    + exfalso. rewrite Ropp_mult_distr_l_reverse, Z, Ropp_0, rnd_0, Rabs_R0 in O.
      rewrite Rlt_bool_true in O by apply bpow_gt_0. discriminate.
    + assert (Sg : Bsign g = false) by (apply sign_pos; [exact Fg|nra]).
      assert (Sd : Bsign d = false) by (apply sign_pos; [exact Fd|nra]).
      assert (So : Bsign (Bopp g) = true).
      { destruct g as [s|s| |s m e Hb]; try discriminate; cbn in *; subst s; reflexivity. }
      rewrite So, Sd in C. cbn in C. unfold f_mul.
      destruct (Bmult mode_NE (Bopp g) d) as [s|s| |s m e Hb]; cbn in C; try discriminate.
      injection C as ->. reflexivity.
Qed.

(** One minus a number in the unit interval. *)
Lemma one_minus : forall x : f32, is_finite x = true -> 0 <= B2R x <= 1 ->
  is_finite (f_sub f_one x) = true /\ 0 <= B2R (f_sub f_one x) <= 1.
Proof.
  intros x F B. destruct one_fin as [F1 E1].
  destruct (sub_nn f_one x F1 F) as [A C]; rewrite E1 in *; auto.
Qed.
