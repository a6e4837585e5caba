(** * Facts about binary32 arithmetic used by the proofs *)

From Coq Require Import ZArith Bool List Reals Lia Lra Psatz.
From Flocq Require Import Core BinarySingleNaN.
From Verif Require Import F32.
Import ListNotations.

Local Open Scope Z_scope.

Notation fexp32 := (SpecFloat.fexp 24 128).
Notation rnd := (round radix2 fexp32 (round_mode mode_NE)).

Global Instance fexp32_valid : Valid_exp fexp32 := FLT_exp_valid (-149) 24.

(** ** Integer keys: every number that is not NaN is a multiple of 2^-149
    (infinities are given the key of 2^128) *)

Definition inf_key : Z := 2 ^ 277.

Definition key (x : f32) : Z :=
  match x with
  | B754_zero _ => 0
  | B754_infinity s => if s then - inf_key else inf_key
  | B754_nan => 0
  | B754_finite s m e _ => cond_Zopp s (Zpos m * 2 ^ (e + 149))
  end.

Definition num (x : f32) : Prop := is_nan x = false.

Definition val (x : f32) : R := (IZR (key x) * bpow radix2 (-149))%R.

Lemma bounded_emin : forall m e, SpecFloat.bounded 24 128 m e = true -> -149 <= e.
Proof.
  intros m e H. apply andb_true_iff in H. destruct H as [H _].
  unfold SpecFloat.canonical_mantissa in H. apply Zeq_bool_eq in H.
  unfold SpecFloat.fexp, SpecFloat.emin in H. lia.
Qed.

Lemma val_finite : forall x, is_finite x = true -> val x = B2R x.
Proof.
  intros [s|s| |s m e H] Hf; try discriminate; unfold val, key, B2R.
  - ring.
  - pose proof (bounded_emin _ _ H).
    unfold F2R. cbn [Fnum Fexp].
    replace (cond_Zopp s (Z.pos m * 2 ^ (e + 149)))
      with (cond_Zopp s (Z.pos m) * 2 ^ (e + 149))%Z by (destruct s; unfold cond_Zopp; ring).
    rewrite mult_IZR, Rmult_assoc. f_equal.
    change 2%Z with (radix_val radix2) at 1.
    rewrite IZR_Zpower by lia. rewrite <- bpow_plus. f_equal. lia.
Qed.

Lemma val_inf : forall s, val (B754_infinity s) = (if s then - bpow radix2 128 else bpow radix2 128)%R.
Proof.
  intro s. unfold val, key, inf_key.
  assert (E : (IZR (2 ^ 277) * bpow radix2 (-149) = bpow radix2 128)%R).
  { change 2%Z with (radix_val radix2) at 1. rewrite IZR_Zpower by lia.
    rewrite <- bpow_plus. reflexivity. }
  destruct s.
  - rewrite opp_IZR. rewrite <- Ropp_mult_distr_l, E. reflexivity.
  - exact E.
Qed.

Lemma val_abs_le : forall x, (Rabs (val x) <= bpow radix2 128)%R.
Proof.
  intros x. destruct (is_finite x) eqn:F.
  - rewrite val_finite by exact F. left. apply abs_B2R_lt_emax.
  - destruct x as [s|s| |s m e H]; try discriminate.
    + rewrite val_inf. destruct s; rewrite ?Rabs_Ropp; rewrite Rabs_pos_eq;
        try apply Rle_refl; apply bpow_ge_0.
    + unfold val, key. rewrite Rmult_0_l, Rabs_R0. apply bpow_ge_0.
Qed.

Lemma val_lt_key : forall x y, (val x < val y)%R <-> key x < key y.
Proof.
  intros x y. unfold val. split; intro H.
  - apply lt_IZR. apply Rmult_lt_reg_r with (2 := H). apply bpow_gt_0.
  - apply Rmult_lt_compat_r; [apply bpow_gt_0|]. apply IZR_lt, H.
Qed.

Lemma val_le_key : forall x y, (val x <= val y)%R <-> key x <= key y.
Proof.
  intros x y. unfold val. split; intro H.
  - apply le_IZR. apply Rmult_le_reg_r with (2 := H). apply bpow_gt_0.
  - apply Rmult_le_compat_r; [apply bpow_ge_0|]. apply IZR_le, H.
Qed.

Lemma key_abs_le : forall x, - inf_key <= key x <= inf_key.
Proof.
  intro x. pose proof (val_abs_le x) as H.
  pose proof (val_le_key x (B754_infinity false)) as A.
  pose proof (val_le_key (B754_infinity true) x) as B.
  rewrite val_inf in A, B. cbn [key] in A, B.
  apply Rabs_le_inv in H. split; [apply B|apply A]; lra.
Qed.

Lemma key_finite_lt : forall x, is_finite x = true -> - inf_key < key x < inf_key.
Proof.
  intros x F. pose proof (abs_B2R_lt_emax 24 128 x) as H.
  rewrite <- val_finite in H by exact F.
  pose proof (val_lt_key x (B754_infinity false)) as A.
  pose proof (val_lt_key (B754_infinity true) x) as B.
  rewrite val_inf in A, B. cbn [key] in A, B.
  apply Rabs_lt_inv in H. split; [apply B|apply A]; lra.
Qed.

(** ** Comparison *)

Lemma compare_key : forall x y, num x -> num y ->
  Bcompare x y = Some (Z.compare (key x) (key y)).
Proof.
  intros x y Nx Ny.
  destruct (is_finite x) eqn:Fx; destruct (is_finite y) eqn:Fy.
  - rewrite Bcompare_correct by assumption.
    rewrite <- !val_finite by assumption. f_equal.
    destruct (Z.compare_spec (key x) (key y)) as [E|E|E].
    + apply Rcompare_Eq. unfold val. rewrite E. reflexivity.
    + apply Rcompare_Lt, val_lt_key, E.
    + apply Rcompare_Gt, val_lt_key, E.
  - pose proof (key_finite_lt x Fx) as K.
    destruct y as [s|s| |s m e H]; try discriminate.
    assert (E : Bcompare x (B754_infinity s) = Some (if s then Gt else Lt)).
    { destruct x as [s'|s'| |s' m' e' H']; try discriminate; destruct s; try reflexivity;
        destruct s'; reflexivity. }
    rewrite E. cbn [key]. f_equal. symmetry.
    destruct s; [apply Z.compare_gt_iff|apply Z.compare_lt_iff]; lia.
  - pose proof (key_finite_lt y Fy) as K.
    destruct x as [s|s| |s m e H]; try discriminate.
    assert (E : Bcompare (B754_infinity s) y = Some (if s then Lt else Gt)).
    { destruct y as [s'|s'| |s' m' e' H']; try discriminate; destruct s; try reflexivity;
        destruct s'; reflexivity. }
    rewrite E. cbn [key]. f_equal. symmetry.
    destruct s; [apply Z.compare_lt_iff|apply Z.compare_gt_iff]; lia.
  - destruct x as [s|s| |s m e H]; try discriminate.
    destruct y as [s'|s'| |s' m' e' H']; try discriminate.
    destruct s, s'; vm_compute; reflexivity.
Qed.

Lemma lt_key : forall x y, num x -> num y -> f_lt x y = (key x <? key y).
Proof.
  intros x y Nx Ny. pose proof (compare_key x y Nx Ny) as H.
  unfold f_lt, Bltb, SpecFloat.SFltb. unfold Bcompare in H. rewrite H.
  unfold Z.ltb. destruct (key x ?= key y); reflexivity.
Qed.

Lemma le_key : forall x y, num x -> num y -> f_le x y = (key x <=? key y).
Proof.
  intros x y Nx Ny. pose proof (compare_key x y Nx Ny) as H.
  unfold f_le, Bleb, SpecFloat.SFleb. unfold Bcompare in H. rewrite H.
  unfold Z.leb. destruct (key x ?= key y); reflexivity.
Qed.

Lemma eq_key : forall x y, num x -> num y -> f_eq x y = (key x =? key y).
Proof.
  intros x y Nx Ny. pose proof (compare_key x y Nx Ny) as H.
  unfold f_eq, Beqb, SpecFloat.SFeqb. unfold Bcompare in H. rewrite H.
  rewrite Z.eqb_compare. destruct (key x ?= key y); reflexivity.
Qed.

Lemma lt_nan_l : forall y, f_lt B754_nan y = false.
Proof. intro y. reflexivity. Qed.

Lemma lt_nan_r : forall x, f_lt x B754_nan = false.
Proof. intros [s|s| |s m e H]; try reflexivity; destruct s; reflexivity. Qed.

Lemma lt_num : forall x y, f_lt x y = true -> num x /\ num y.
Proof.
  intros x y H. split.
  - destruct x; try reflexivity; discriminate.
  - destruct y; try reflexivity. rewrite lt_nan_r in H. discriminate.
Qed.

Lemma le_num : forall x y, f_le x y = true -> num x /\ num y.
Proof.
  intros x y H. split.
  - destruct x; try reflexivity; discriminate.
  - destruct y; try reflexivity. destruct x as [s|s| |s m e H']; try discriminate;
      destruct s; discriminate.
Qed.

Lemma eq_num : forall x y, f_eq x y = true -> num x /\ num y.
Proof.
  intros x y H. split.
  - destruct x; try reflexivity; discriminate.
  - destruct y; try reflexivity. destruct x as [s|s| |s m e H']; try discriminate;
      destruct s; discriminate.
Qed.

(** ** Non-negative numbers *)

Definition nn (x : f32) : Prop := num x /\ 0 <= key x.

Lemma nn_zero : nn f_zero.
Proof. split; [reflexivity|]. cbn. lia. Qed.

Lemma key_zero : key f_zero = 0.
Proof. reflexivity. Qed.

Lemma nn_iff : forall x, nn x <-> f_le f_zero x = true.
Proof.
  intro x. split.
  - intros [N K]. rewrite le_key; [|reflexivity|exact N]. apply Z.leb_le. exact K.
  - intro H. destruct (le_num _ _ H) as [_ N]. split; [exact N|].
    rewrite le_key in H; [|reflexivity|exact N]. apply Z.leb_le in H. exact H.
Qed.

Lemma rnd_le : forall a b, (a <= b)%R -> (rnd a <= rnd b)%R.
Proof. intros a b H. apply round_le; [apply fexp32_valid|apply valid_rnd_N|exact H]. Qed.

Lemma rnd_0 : rnd 0 = 0%R.
Proof. apply round_0. apply valid_rnd_N. Qed.

Lemma rnd_val : forall x, rnd (val x) = val x.
Proof.
  intro x. destruct (is_finite x) eqn:F.
  - rewrite val_finite by exact F. apply round_generic; [apply valid_rnd_N|].
    apply generic_format_B2R.
  - destruct x as [s|s| |s m e H]; try discriminate.
    + rewrite val_inf.
      assert (G : generic_format radix2 fexp32 (bpow radix2 128)).
      { apply generic_format_bpow. vm_compute. discriminate. }
      destruct s.
      * apply round_generic; [apply valid_rnd_N|]. apply generic_format_opp, G.
      * apply round_generic; [apply valid_rnd_N|]. exact G.
    + unfold val, key. rewrite Rmult_0_l. apply rnd_0.
Qed.

Definition clamp (r : R) : R := Rmin r (bpow radix2 128).

Lemma inf_of_SF : forall x : f32, B2SF x = SpecFloat.S754_infinity false ->
  x = B754_infinity false.
Proof. intros [s|s| |s m e H] E; cbn in E; congruence. Qed.

Lemma nn_val : forall x, nn x -> (0 <= val x)%R.
Proof.
  intros x [_ K]. unfold val. apply Rmult_le_pos; [apply IZR_le, K|apply bpow_ge_0].
Qed.

Lemma val_nn : forall x, num x -> (0 <= val x)%R -> nn x.
Proof.
  intros x N H. split; [exact N|].
  pose proof (val_le_key f_zero x) as A.
  assert (E : val f_zero = 0%R) by (unfold val; cbn [key f_zero]; ring).
  rewrite E in A. apply A, H.
Qed.

Lemma finite_num : forall x : f32, is_finite x = true -> num x.
Proof. intros [s|s| |s m e H] E; try discriminate; reflexivity. Qed.

Lemma num_cases : forall x, nn x -> is_finite x = true \/ x = B754_infinity false.
Proof.
  intros [s|s| |s m e H] [N K]; auto; try discriminate.
  destruct s; [|auto]. cbn [key] in K. unfold inf_key in K. lia.
Qed.

(** Bsign of non-negative finite sums may be a negative zero; only the
    value matters below. *)
Lemma add_nn : forall x y, nn x -> nn y ->
  nn (f_add x y) /\ val (f_add x y) = clamp (rnd (val x + val y)).
Proof.
  intros x y Hx Hy.
  pose proof (nn_val x Hx) as Vx. pose proof (nn_val y Hy) as Vy.
  assert (R0 : (0 <= rnd (val x + val y))%R).
  { rewrite <- rnd_0. apply rnd_le. lra. }
  assert (Inf : forall r, (bpow radix2 128 <= r)%R -> clamp (rnd r) = bpow radix2 128).
  { intros r Hr. unfold clamp. apply Rmin_right.
    rewrite <- (val_inf false) at 1. rewrite <- rnd_val. apply rnd_le.
    rewrite val_inf. exact Hr. }
  destruct (num_cases x Hx) as [Fx|Ex]; destruct (num_cases y Hy) as [Fy|Ey].
  - rewrite (val_finite x Fx), (val_finite y Fy) in *.
    pose proof (Bplus_correct 24 128 _ _ mode_NE x y Fx Fy) as H.
    fold (f_add x y) in H.
    destruct (Rlt_bool_spec (Rabs (rnd (B2R x + B2R y))) (bpow radix2 128)) as [L|L].
    + destruct H as (H1 & H2 & _).
      assert (E : val (f_add x y) = rnd (B2R x + B2R y)) by (rewrite val_finite; assumption).
      split.
      * apply val_nn; [apply finite_num, H2|]. rewrite E. exact R0.
      * rewrite E. unfold clamp. symmetry. apply Rmin_left.
        rewrite Rabs_pos_eq in L by exact R0. lra.
    + destruct H as [H Hs].
      rewrite Rabs_pos_eq in L by exact R0.
      assert (Sx : Bsign x = false).
      { destruct (Bsign x) eqn:Sx; [|reflexivity]. exfalso.
        (* both negative zeros: the sum would be 0 *)
        assert (Zx : B2R x = 0%R).
        { destruct x as [s|s| |s m e B]; try discriminate; [reflexivity|].
          cbn in Sx. subst s. exfalso. cbn in Vx.
          pose proof (F2R_lt_0 radix2 (Float radix2 (Zneg m) e) eq_refl). cbn in *. lra. }
        assert (Zy : B2R y = 0%R).
        { destruct y as [s|s| |s m e B]; try discriminate; [reflexivity|].
          cbn in Hs. subst s. exfalso. cbn in Vy.
          pose proof (F2R_lt_0 radix2 (Float radix2 (Zneg m) e) eq_refl). cbn in *. lra. }
        rewrite Zx, Zy, Rplus_0_r, rnd_0 in L.
        pose proof (bpow_gt_0 radix2 128). lra. }
      rewrite Sx in H. cbn in H. apply inf_of_SF in H.
      split.
      * rewrite H. split; [reflexivity|]. vm_compute. discriminate.
      * rewrite H, val_inf. unfold clamp. symmetry. apply Rmin_right, L.
  - subst y. rewrite val_inf in *.
    assert (E : f_add x (B754_infinity false) = B754_infinity false).
    { destruct x as [s|s| |s m e B]; try discriminate; reflexivity. }
    rewrite E. split; [split; [reflexivity|vm_compute; discriminate]|].
    rewrite val_inf. symmetry. apply Inf. lra.
  - subst x. rewrite val_inf in *.
    assert (E : f_add (B754_infinity false) y = B754_infinity false).
    { destruct y as [s|s| |s m e B]; try discriminate; reflexivity. }
    rewrite E. split; [split; [reflexivity|vm_compute; discriminate]|].
    rewrite val_inf. symmetry. apply Inf. lra.
  - subst x y. split; [split; [reflexivity|vm_compute; discriminate]|].
    change (f_add (B754_infinity false) (B754_infinity false)) with (@B754_infinity 24 128 false).
    rewrite !val_inf in *. symmetry. apply Inf. lra.
Qed.

Lemma clamp_le : forall a b, (a <= b)%R -> (clamp a <= clamp b)%R.
Proof. intros a b H. unfold clamp. apply Rle_min_compat_r. exact H. Qed.

Lemma clamp_val : forall x, clamp (val x) = val x.
Proof.
  intro x. unfold clamp. apply Rmin_left. pose proof (val_abs_le x) as H.
  apply Rabs_le_inv in H. lra.
Qed.

Lemma add_ge_l : forall x y, nn x -> nn y -> key x <= key (f_add x y).
Proof.
  intros x y Hx Hy. apply val_le_key.
  rewrite (proj2 (add_nn x y Hx Hy)). rewrite <- (clamp_val x) at 1.
  apply clamp_le. rewrite <- (rnd_val x) at 1. apply rnd_le.
  pose proof (nn_val y Hy). lra.
Qed.

Lemma add_ge_r : forall x y, nn x -> nn y -> key y <= key (f_add x y).
Proof.
  intros x y Hx Hy. apply val_le_key.
  rewrite (proj2 (add_nn x y Hx Hy)). rewrite <- (clamp_val y) at 1.
  apply clamp_le. rewrite <- (rnd_val y) at 1. apply rnd_le.
  pose proof (nn_val x Hx). lra.
Qed.

Lemma add_mono : forall x x' y y', nn x -> nn x' -> nn y -> nn y' ->
  key x <= key x' -> key y <= key y' -> key (f_add x y) <= key (f_add x' y').
Proof.
  intros x x' y y' Hx Hx' Hy Hy' L M. apply val_le_key.
  rewrite (proj2 (add_nn x y Hx Hy)), (proj2 (add_nn x' y' Hx' Hy')).
  apply clamp_le, rnd_le. apply val_le_key in L, M. lra.
Qed.

(** ** Maximum *)

Lemma max_nn : forall x y, nn x -> nn y ->
  nn (f_max x y) /\ key (f_max x y) = Z.max (key x) (key y) /\
  (f_max x y = x \/ f_max x y = y).
Proof.
  intros x y [Nx Kx] [Ny Ky]. unfold f_max. rewrite lt_key by assumption.
  destruct (Z.ltb_spec (key x) (key y)); (split; [split; assumption|]); split; auto; lia.
Qed.

Lemma fold_max_nn : forall l x, nn x -> Forall nn l ->
  nn (fold_left f_max l x) /\
  key x <= key (fold_left f_max l x) /\
  Forall (fun y => key y <= key (fold_left f_max l x)) l /\
  (fold_left f_max l x = x \/ In (fold_left f_max l x) l).
Proof.
  induction l as [|y l IH]; intros x Hx Hl; cbn [fold_left].
  - split; [exact Hx|]. split; [lia|]. split; [constructor|]. left. reflexivity.
  - inversion Hl as [|? ? Hy Hl']; subst.
    destruct (max_nn x y Hx Hy) as (N & K & C).
    destruct (IH (f_max x y) N Hl') as (A & B & D & E).
    split; [exact A|]. split; [lia|]. split.
    + constructor; [lia|exact D].
    + destruct E as [E|E]; [|right; right; exact E].
      rewrite E. destruct C as [C|C]; rewrite C; [left; reflexivity|right; left; reflexivity].
Qed.

Lemma max_list_nn : forall d l, l <> [] -> Forall nn l ->
  nn (f_max_list d l) /\ In (f_max_list d l) l /\
  Forall (fun y => key y <= key (f_max_list d l)) l.
Proof.
  intros d [|x l] Hne Hl; [congruence|]. inversion Hl; subst.
  cbn [f_max_list]. destruct (fold_max_nn l x) as (A & B & C & D); try assumption.
  split; [exact A|]. split.
  - destruct D as [D|D]; [left; symmetry; exact D|right; exact D].
  - constructor; assumption.
Qed.

(** ** Division of non-negative finite numbers by positive ones *)

Definition pos (x : f32) : Prop := num x /\ 0 < key x.

Lemma pos_nn : forall x, pos x -> nn x.
Proof. intros x [N K]. split; [exact N|lia]. Qed.

Lemma pos_iff : forall x, pos x <-> f_lt f_zero x = true.
Proof.
  intro x. split.
  - intros [N K]. rewrite lt_key; [|reflexivity|exact N]. apply Z.ltb_lt. exact K.
  - intro H. destruct (lt_num _ _ H) as [_ N]. split; [exact N|].
    rewrite lt_key in H; [|reflexivity|exact N]. apply Z.ltb_lt in H. exact H.
Qed.

Lemma pos_val : forall x, pos x -> (0 < val x)%R.
Proof.
  intros x [_ K]. unfold val. apply Rmult_lt_0_compat; [apply IZR_lt, K|apply bpow_gt_0].
Qed.

Lemma div_finite : forall x y, nn x -> is_finite x = true -> pos y -> is_finite y = true ->
  nn (f_div x y) /\ val (f_div x y) = clamp (rnd (val x / val y)).
Proof.
  intros x y Hx Fx Hy Fy.
  pose proof (nn_val x Hx) as Vx. pose proof (pos_val y Hy) as Vy.
  assert (Q : (0 <= val x / val y)%R).
  { apply Rmult_le_pos; [exact Vx|]. left. apply Rinv_0_lt_compat, Vy. }
  assert (R0 : (0 <= rnd (val x / val y))%R).
  { rewrite <- rnd_0. apply rnd_le. exact Q. }
  rewrite (val_finite x Fx), (val_finite y Fy) in *.
  assert (Ny : B2R y <> 0%R) by lra.
  pose proof (Bdiv_correct 24 128 _ _ mode_NE x y Ny) as H.
  fold (f_div x y) in H.
  destruct (Rlt_bool_spec (Rabs (rnd (B2R x / B2R y))) (bpow radix2 128)) as [L|L].
  - destruct H as (H1 & H2 & _). rewrite Fx in H2.
    assert (E : val (f_div x y) = rnd (B2R x / B2R y)) by (rewrite val_finite; assumption).
    split.
    + apply val_nn; [apply finite_num, H2|]. rewrite E. exact R0.
    + rewrite E. unfold clamp. symmetry. apply Rmin_left.
      rewrite Rabs_pos_eq in L by exact R0. lra.
  - rewrite Rabs_pos_eq in L by exact R0.
    assert (Sy : Bsign y = false).
    { destruct y as [s|s| |s m e B]; try discriminate.
      - cbn in Vy. lra.
      - destruct s; [|reflexivity]. exfalso. cbn in Vy.
        pose proof (F2R_lt_0 radix2 (Float radix2 (Zneg m) e) eq_refl). cbn in *. lra. }
    assert (Sx : Bsign x = false).
    { destruct x as [s|s| |s m e B]; try discriminate.
      - exfalso. cbn [B2R] in L. unfold Rdiv in L. rewrite Rmult_0_l, rnd_0 in L.
        pose proof (bpow_gt_0 radix2 128). lra.
      - destruct s; [|reflexivity]. exfalso. cbn in Vx.
        pose proof (F2R_lt_0 radix2 (Float radix2 (Zneg m) e) eq_refl). cbn in *. lra. }
    rewrite Sx, Sy in H. cbn in H. apply inf_of_SF in H.
    split.
    + rewrite H. split; [reflexivity|vm_compute; discriminate].
    + rewrite H, val_inf. unfold clamp. symmetry. apply Rmin_right, L.
Qed.

Lemma div_nn : forall x y, nn x -> is_finite x = true -> pos y -> nn (f_div x y).
Proof.
  intros x y Hx Fx Hy.
  destruct (num_cases y (pos_nn y Hy)) as [Fy|Ey].
  - apply div_finite; assumption.
  - subst y. destruct x as [s|s| |s m e B]; try discriminate; split; try reflexivity;
      cbn; lia.
Qed.

Lemma key_inj_pos : forall x y, is_finite x = true -> is_finite y = true ->
  0 < key x -> key x = key y -> x = y.
Proof.
  intros x y Fx Fy K E.
  apply B2R_inj.
  - destruct x as [s|s| |s m e B]; try discriminate; first [reflexivity | (cbn in K; lia)].
  - rewrite E in K. destruct y as [s|s| |s m e B]; try discriminate; first [reflexivity | (cbn in K; lia)].
  - rewrite <- !val_finite by assumption. unfold val. rewrite E. reflexivity.
Qed.

(** ** Well-foundedness: non-negative floats cannot decrease forever *)

Lemma nn_lt_wf : well_founded (fun x y => nn x /\ nn y /\ f_lt x y = true).
Proof.
  apply (well_founded_lt_compat _ (fun x => Z.to_nat (key x))).
  intros x y ([Nx Kx] & [Ny Ky] & H). rewrite lt_key in H by assumption.
  apply Z.ltb_lt in H. lia.
Qed.

(** ** Conversion from integers *)

Lemma of_Z_0 : f_of_Z 0 = f_zero.
Proof. reflexivity. Qed.

Lemma of_Z_spec : forall z, 0 <= z ->
  nn (f_of_Z z) /\ val (f_of_Z z) = clamp (rnd (IZR z)).
Proof.
  intros z Hz.
  pose proof (binary_normalize_correct 24 128 _ _ mode_NE z 0 false) as H.
  fold (f_of_Z z) in H. cbv zeta in H.
  assert (E : F2R (Float radix2 z 0) = IZR z).
  { unfold F2R. cbn. ring. }
  rewrite E in H.
  assert (R0 : (0 <= rnd (IZR z))%R).
  { rewrite <- rnd_0. apply rnd_le. apply IZR_le, Hz. }
  rewrite Rabs_pos_eq in H by exact R0.
  destruct (Rlt_bool_spec (rnd (IZR z)) (bpow radix2 128)) as [L|L].
  - destruct H as (H1 & H2 & _).
    assert (V : val (f_of_Z z) = rnd (IZR z)) by (rewrite val_finite; assumption).
    split.
    + apply val_nn; [apply finite_num, H2|]. rewrite V. exact R0.
    + rewrite V. unfold clamp. symmetry. apply Rmin_left. lra.
  - assert (S : Rlt_bool (IZR z) 0 = false) by (apply Rlt_bool_false, IZR_le, Hz).
    rewrite S in H. cbn in H. apply inf_of_SF in H. rewrite H.
    split; [split; [reflexivity|vm_compute; discriminate]|].
    rewrite val_inf. unfold clamp. symmetry. apply Rmin_right, L.
Qed.

Lemma num_finite_of_val : forall x, nn x -> (val x < bpow radix2 128)%R ->
  is_finite x = true.
Proof.
  intros x Hx L. destruct (num_cases x Hx) as [F|E]; [exact F|].
  subst x. rewrite val_inf in L. lra.
Qed.
