(** * Sizes of the numbers in the ziggurat method *)

From Coq Require Import List ZArith Bool Arith Lia Reals Lra.
From Flocq Require Import Core BinarySingleNaN.
From Verif Require Import Base F32 F32Facts F32Signed RandomModel RandomSpec RandomProofs NormalModel NormalCount.
Import ListNotations.
Local Open Scope Z_scope.

(** A number is finite and between two bounds. *)
Definition fin_in (lo hi : R) (x : f32) : Prop := is_finite x = true /\ (lo <= B2R x <= hi)%R.

Definition frac (v : Z) : f32 := f_mul (f_of_Z v) (f_div f_one (f_of_Z (2 ^ 24))).

Lemma fraction_frac : forall u, fraction_of u = frac (u / 2 ^ 8).
Proof. reflexivity. Qed.

Lemma unit24_value : is_finite (f_div f_one (f_of_Z (2 ^ 24))) = true /\
  B2R (f_div f_one (f_of_Z (2 ^ 24))) = bpow radix2 (-24).
Proof.
  split; [vm_compute; reflexivity|]. rewrite <- SF2R_B2SF.
  replace (B2SF (f_div f_one (f_of_Z (2 ^ 24)))) with (SpecFloat.S754_finite false 8388608 (-47)) by (symmetry; vm_compute; reflexivity).
  unfold SF2R, F2R. cbn [Fnum Fexp cond_Zopp]. change 8388608%R with (bpow radix2 23).
  rewrite <- bpow_plus. reflexivity.
Qed.

Lemma frac_value : forall v, 0 <= v < 2 ^ 24 ->
  is_finite (frac v) = true /\ B2R (frac v) = (IZR v * bpow radix2 (-24))%R.
Proof.
  intros v V. destruct (of_Z_exact v) as [F E]; [lia|]. destruct unit24_value as [G H].
  assert (B : (0 <= IZR v <= IZR (2 ^ 24))%R) by (split; apply IZR_le; lia).
  assert (C : (0 <= IZR v * bpow radix2 (-24) <= 1)%R).
  { split; [apply Rmult_le_pos; [apply B|apply bpow_ge_0]|].
    apply Rle_trans with (IZR (2 ^ 24) * bpow radix2 (-24))%R; [apply Rmult_le_compat_r; [apply bpow_ge_0|apply B]|].
    change (IZR (2 ^ 24)) with (bpow radix2 24). rewrite <- bpow_plus. cbn. lra. }
  destruct (mul_fin (f_of_Z v) (f_div f_one (f_of_Z (2 ^ 24))) F G) as [A1 A2].
  - rewrite E, H, Rabs_pos_eq by apply C. apply Rle_trans with 1%R; [apply C|].
    change 1%R with (bpow radix2 0). apply bpow_le. lia.
  - split; [exact A1|]. unfold frac. rewrite A2, E, H. apply rnd_dyadic; lia.
Qed.

Lemma rnd_small : forall z, Z.abs z <= 2 ^ 24 -> rnd (IZR z) = IZR z.
Proof. intros z H. replace (IZR z) with (IZR z * bpow radix2 0)%R by (cbn; ring). apply rnd_dyadic; lia. Qed.

(** ** Tables *)

Definition small_float (t : f32) : bool := is_finite t && f_le f_zero t && f_le t (f_of_Z 9).

Lemma small_float_in : forall t, small_float t = true -> fin_in 0 9 t.
Proof.
  intros t H. unfold small_float in H. apply andb_true_iff in H. destruct H as [H H3].
  apply andb_true_iff in H. destruct H as [H1 H2]. split; [exact H1|].
  destruct (of_Z_exact 9) as [F E]; [lia|].
  apply fin_le in H2; [|reflexivity|exact H1]. apply fin_le in H3; [|exact H1|exact F].
  rewrite E in H3. cbn [f_zero B2R] in H2. lra.
Qed.

Lemma nth_small : forall t, forallb (fun z => small_float (table_float z)) t = true -> forall i, fin_in 0 9 (float_at t i).
Proof.
  intros t H i. rewrite forallb_forall in H. unfold float_at, entry_at.
  destruct (nth_in_or_default (Z.to_nat i) t 0) as [I|E].
  - apply small_float_in, H, I.
  - rewrite E. split; [reflexivity|]. cbn. lra.
Qed.

Lemma normal_x_small : forall i, fin_in 0 9 (float_at normal_x i).
Proof. apply nth_small. vm_compute. reflexivity. Qed.

Lemma exponential_x_small : forall i, fin_in 0 9 (float_at exponential_x i).
Proof. apply nth_small. vm_compute. reflexivity. Qed.

Lemma scaled : forall v t, 0 <= v < 2 ^ 24 -> fin_in 0 9 t ->
  fin_in 0 9 (f_mul (frac v) t) /\ B2R (f_mul (frac v) t) = rnd (IZR v * bpow radix2 (-24) * B2R t).
Proof.
  intros v t V [F T]. destruct (frac_value v V) as [G E].
  assert (C : (0 <= B2R (frac v) <= 1)%R).
  { rewrite E. split; [apply Rmult_le_pos; [apply IZR_le; lia|apply bpow_ge_0]|].
    apply Rle_trans with (IZR (2 ^ 24) * bpow radix2 (-24))%R; [apply Rmult_le_compat_r; [apply bpow_ge_0|apply IZR_le; lia]|].
    change (IZR (2 ^ 24)) with (bpow radix2 24). rewrite <- bpow_plus. cbn. lra. }
  assert (D : (0 <= B2R (frac v) * B2R t <= 9)%R) by nra.
  destruct (mul_fin (frac v) t G F) as [A1 A2].
  - rewrite Rabs_pos_eq by apply D. apply Rle_trans with 16%R; [lra|]. change 16%R with (bpow radix2 4). apply bpow_le. lia.
  - split; [split; [exact A1|]|rewrite A2, E; reflexivity].
    rewrite A2. apply rnd_between; [apply (rnd_small 0); lia|apply (rnd_small 9); lia|exact D].
Qed.

Lemma scaled_mono : forall v w t, 0 <= v <= w -> w < 2 ^ 24 -> fin_in 0 9 t ->
  (B2R (f_mul (frac v) t) <= B2R (f_mul (frac w) t))%R.
Proof.
  intros v w t V W T. rewrite (proj2 (scaled v t ltac:(lia) T)), (proj2 (scaled w t ltac:(lia) T)).
  apply rnd_le. apply Rmult_le_compat_r; [apply T|]. apply Rmult_le_compat_r; [apply bpow_ge_0|apply IZR_le; lia].
Qed.

(** What holds of the largest fraction below a bound holds of all below
    it. *)
Lemma scaled_lt : forall v w t c, 0 <= v <= w -> w < 2 ^ 24 -> fin_in 0 9 t -> is_finite c = true ->
  f_lt (f_mul (frac w) t) c = true -> f_lt (f_mul (frac v) t) c = true.
Proof.
  intros v w t c V W T C H.
  apply fin_lt; [apply scaled; [lia|exact T]|exact C|].
  apply fin_lt in H; [|apply scaled; [lia|exact T]|exact C].
  apply Rle_lt_trans with (2 := H). apply scaled_mono; assumption.
Qed.

Lemma scaled_gt : forall v w t c, 0 <= w <= v -> v < 2 ^ 24 -> fin_in 0 9 t -> is_finite c = true ->
  f_lt c (f_mul (frac w) t) = true -> f_lt c (f_mul (frac v) t) = true.
Proof.
  intros v w t c V W T C H.
  apply fin_lt; [exact C|apply scaled; [lia|exact T]|].
  apply fin_lt in H; [|exact C|apply scaled; [lia|exact T]].
  apply Rlt_le_trans with (1 := H). apply scaled_mono; assumption.
Qed.

(** ** Results are finite *)

Lemma ok_pair : forall (A B : Type) (a c : A) (b d : B), Ok (a, b) = Ok (c, d) -> a = c /\ b = d.
Proof. intros A B a c b d H. injection H. auto. Qed.


Lemma upper_range : forall u, 0 <= u < 2 ^ 32 -> 0 <= u / 2 ^ 8 < 2 ^ 24.
Proof. intros u U. split; [apply Z.div_pos; lia|apply Z.div_lt_upper_bound; lia]. Qed.

Lemma draw_range : forall g, proper g -> 0 <= fst (draw g) < 2 ^ 32 /\ proper (snd (draw g)).
Proof. intros g P. split; [apply output_range, P|apply step_proper, P]. Qed.

Lemma draw_01_proper : forall fuel g u g', proper g -> draw_01 fuel g = Ok (u, g') -> proper g'.
Proof.
  induction fuel as [|fuel IH]; intros g u g' P H; [discriminate|]. cbn [draw_01 draw] in H. cbv zeta in H.
  destruct (f_lt _ _).
  - destruct (ok_pair _ _ _ _ _ _ H) as [_ <-]. apply step_proper, P.
  - exact (IH _ _ _ (step_proper _ P) H).
Qed.

Lemma rnd_big : rnd (IZR (2 ^ 28 + 9)) = IZR (2 ^ 28).
Proof.
  destruct (of_Z_fin (2 ^ 28 + 9)) as [_ E]; [lia|]. rewrite <- E.
  destruct (of_Z_fin (2 ^ 28)) as [_ E2]; [lia|].
  transitivity (B2R (f_of_Z (2 ^ 28))).
  - f_equal. apply B2SF_inj. vm_compute. reflexivity.
  - rewrite E2. replace (IZR (2 ^ 28)) with (IZR 1 * bpow radix2 28)%R by (cbn; lra). apply rnd_dyadic; lia.
Qed.

(** Sums with a small number stay below [2 ^ 28]: there the spacing is
    32. *)
Lemma add_big : forall x y, fin_in 0 (IZR (2 ^ 28)) x -> fin_in 0 9 y -> fin_in 0 (IZR (2 ^ 28)) (f_add x y).
Proof.
  intros x y [Fx X] [Fy Y].
  assert (C : (0 <= B2R x + B2R y <= IZR (2 ^ 28 + 9))%R) by (rewrite plus_IZR; lra).
  destruct (add_fin x y Fx Fy) as [A1 A2].
  - rewrite Rabs_pos_eq by apply C. apply Rle_trans with (IZR (2 ^ 29)); [apply Rle_trans with (1 := proj2 C); apply IZR_le; lia|].
    change (IZR (2 ^ 29)) with (bpow radix2 29). apply bpow_le. lia.
  - split; [exact A1|]. rewrite A2. split.
    + rewrite <- rnd_0. apply rnd_le, C.
    + rewrite <- rnd_big. apply rnd_le, C.
Qed.

Lemma fin_weaken : forall lo hi lo' hi' x, (lo' <= lo)%R -> (hi <= hi')%R -> fin_in lo hi x -> fin_in lo' hi' x.
Proof. intros lo hi lo' hi' x A B [F X]. split; [exact F|lra]. Qed.

Lemma big_9 : (9 <= IZR (2 ^ 28))%R.
Proof. apply IZR_le. lia. Qed.

Lemma exponential_finite : forall exp fuel shift g e g', proper g -> fin_in 0 (IZR (2 ^ 28)) shift ->
  draw_exponential fuel exp shift g = Ok (e, g') -> fin_in 0 (IZR (2 ^ 28)) e /\ proper g'.
Proof.
  intro exp. induction fuel as [|fuel IH]; intros shift g e g' P S H; [discriminate|].
  cbn [draw_exponential] in H. destruct (draw_range g P) as [U P1]. destruct (draw g) as [u g1]. cbn [fst snd] in U, P1.
  cbv zeta in H. rewrite fraction_frac in H.
  pose proof (proj1 (scaled (u / 2 ^ 8) (float_at exponential_x (layer_of u)) (upper_range u U) (exponential_x_small _))) as X.
  set (x := f_mul _ _) in *. clearbody x.
  destruct (f_lt x _).
  { destruct (ok_pair _ _ _ _ _ _ H) as [<- <-]. split; [apply add_big; assumption|exact P1]. }
  destruct (_ =? 0).
  { apply (IH _ _ _ _ P1 (add_big _ _ S (exponential_x_small 1)) H). }
  destruct (draw_01 fuel g1) as [[y01 g2]| |] eqn:D; try discriminate. cbn [bind fst snd] in H.
  pose proof (draw_01_proper _ _ _ _ P1 D) as P2.
  destruct (in_wedge _ _ _ _).
  - destruct (ok_pair _ _ _ _ _ _ H) as [<- <-]. split; [|exact P2].
    destruct S as [FS BS], X as [FX BX].
    assert (C : (0 <= B2R x + B2R shift <= IZR (2 ^ 28 + 9))%R) by (rewrite plus_IZR; lra).
    destruct (add_fin x shift FX FS) as [A1 A2].
    { rewrite Rabs_pos_eq by apply C. apply Rle_trans with (IZR (2 ^ 29)); [apply Rle_trans with (1 := proj2 C); apply IZR_le; lia|].
      change (IZR (2 ^ 29)) with (bpow radix2 29). apply bpow_le. lia. }
    split; [exact A1|]. rewrite A2. split; [rewrite <- rnd_0; apply rnd_le, C|rewrite <- rnd_big; apply rnd_le, C].
  - exact (IH _ _ _ _ P2 S H).
Qed.

Lemma tail_start_ok : is_finite (float_at normal_x 1) = true /\ (1 <= B2R (float_at normal_x 1))%R.
Proof.
  assert (F : is_finite (float_at normal_x 1) = true) by apply normal_x_small. split; [exact F|].
  destruct (of_Z_exact 1) as [F1 E1]; [lia|]. rewrite <- E1. apply fin_le; [exact F1|exact F|]. vm_compute. reflexivity.
Qed.

Lemma start_div : forall e, fin_in 0 (IZR (2 ^ 28)) e ->
  fin_in 0 (IZR (2 ^ 28)) (f_div e (float_at normal_x 1)) /\
  B2R (f_div e (float_at normal_x 1)) = rnd (B2R e / B2R (float_at normal_x 1)).
Proof.
  intros e [F E]. destruct tail_start_ok as [G T].
  assert (C : (0 <= B2R e / B2R (float_at normal_x 1) <= IZR (2 ^ 28))%R).
  { split; [apply Rmult_le_pos; [lra|left; apply Rinv_0_lt_compat; lra]|]. apply Rle_trans with (B2R e); [|lra].
    apply Rmult_le_reg_r with (B2R (float_at normal_x 1)); [lra|]. unfold Rdiv. rewrite Rmult_assoc, Rinv_l by lra. nra. }
  destruct (div_fin e (float_at normal_x 1) F) as [A1 A2]; [lra| |].
  - rewrite Rabs_pos_eq by apply C. apply Rle_trans with (1 := proj2 C). change (IZR (2 ^ 28)) with (bpow radix2 28). apply bpow_le. lia.
  - split; [|exact A2]. split; [exact A1|]. rewrite A2. apply rnd_between; [apply rnd_0| |exact C].
    replace (IZR (2 ^ 28)) with (IZR 1 * bpow radix2 28)%R by (cbn; lra). apply rnd_dyadic; lia.
Qed.

Lemma tail_finite : forall exp fuel g x g', proper g -> draw_tail fuel exp g = Ok (x, g') ->
  fin_in 0 (IZR (2 ^ 28)) x /\ proper g'.
Proof.
  intro exp. induction fuel as [|fuel IH]; intros g x g' P H; [discriminate|].
  assert (Z0 : fin_in 0 (IZR (2 ^ 28)) f_zero) by (split; [reflexivity|cbn; split; [lra|apply IZR_le; lia]]).
  cbn [draw_tail] in H. cbv zeta in H.
  destruct (draw_exponential (S fuel) exp f_zero g) as [[e1 g1]| |] eqn:D1; try discriminate. cbn [bind fst snd] in H.
  destruct (exponential_finite _ _ _ _ _ _ P Z0 D1) as [B1 P1].
  destruct (draw_exponential (S fuel) exp f_zero g1) as [[e2 g2]| |] eqn:D2; try discriminate. cbn [bind fst snd] in H.
  destruct (exponential_finite _ _ _ _ _ _ P1 Z0 D2) as [B2 P2].
  destruct (f_lt _ _); [|exact (IH _ _ _ P2 H)].
  destruct (ok_pair _ _ _ _ _ _ H) as [<- <-]. split; [|exact P2]. apply add_big; [apply start_div, B1|apply normal_x_small].
Qed.

Lemma signed : forall b x s, (0 <= b <= IZR (2 ^ 28))%R -> rnd b = b -> fin_in 0 b x -> s = -1 \/ s = 1 ->
  fin_in (- b) b (f_mul x (f_of_Z s)) /\ B2R (f_mul x (f_of_Z s)) = (B2R x * IZR s)%R.
Proof.
  intros b x s HB RB [F X] HS. destruct (of_Z_exact s) as [G E]; [lia|].
  assert (L : (Rabs (B2R x * IZR s) <= b)%R) by (destruct HS as [-> | ->]; rewrite Rabs_mult, (Rabs_pos_eq (B2R x)) by apply X;
    rewrite <- abs_IZR; cbn; lra).
  destruct (mul_fin x (f_of_Z s) F G) as [A1 A2].
  - rewrite E. apply Rle_trans with (1 := L). apply Rle_trans with (1 := proj2 HB).
    change (IZR (2 ^ 28)) with (bpow radix2 28). apply bpow_le. lia.
  - assert (EQ : B2R (f_mul x (f_of_Z s)) = (B2R x * IZR s)%R).
    { rewrite A2, E. destruct HS as [-> | ->].
      - replace (B2R x * IZR (-1))%R with (- B2R x)%R by lra.
        apply round_generic; [apply valid_rnd_N|]. apply generic_format_opp, generic_format_B2R.
      - rewrite Rmult_1_r. apply round_generic; [apply valid_rnd_N|apply generic_format_B2R]. }
    split; [|exact EQ]. split; [exact A1|]. rewrite EQ. apply Rabs_le_inv, L.
Qed.

Lemma sign_cases : forall i, i mod 2 * 2 - 1 = -1 \/ i mod 2 * 2 - 1 = 1.
Proof. intro i. pose proof (Z.mod_pos_bound i 2). lia. Qed.

Lemma big_28 : (0 <= IZR (2 ^ 28) <= IZR (2 ^ 28))%R /\ rnd (IZR (2 ^ 28)) = IZR (2 ^ 28).
Proof.
  split; [split; [apply IZR_le; lia|lra]|].
  replace (IZR (2 ^ 28)) with (IZR 1 * bpow radix2 28)%R by (cbn; lra). apply rnd_dyadic; lia.
Qed.

Lemma unit_normal_finite : forall exp fuel g x g', proper g -> draw_unit_normal fuel exp g = Ok (x, g') ->
  fin_in (- IZR (2 ^ 28)) (IZR (2 ^ 28)) x /\ proper g'.
Proof.
  intro exp. induction fuel as [|fuel IH]; intros g n g' P H; [discriminate|].
  cbn [draw_unit_normal] in H. destruct (draw_range g P) as [U P1]. destruct (draw g) as [u g1]. cbn [fst snd] in U, P1.
  cbv zeta in H. rewrite fraction_frac in H.
  pose proof (proj1 (scaled (u / 2 ^ 8) (float_at normal_x (layer_of u / 2)) (upper_range u U) (normal_x_small _))) as X.
  set (x := f_mul _ (float_at normal_x (layer_of u / 2))) in *. clearbody x.
  assert (X' : fin_in 0 (IZR (2 ^ 28)) x) by (apply fin_weaken with (3 := X); [lra|apply big_9]).
  assert (SG : forall y, fin_in 0 (IZR (2 ^ 28)) y -> fin_in (- IZR (2 ^ 28)) (IZR (2 ^ 28)) (f_mul y (f_of_Z (layer_of u mod 2 * 2 - 1)))).
  { intros y Y. apply signed; [apply big_28|apply big_28|exact Y|apply sign_cases]. }
  destruct (f_lt x _).
  { destruct (ok_pair _ _ _ _ _ _ H) as [<- <-]. split; [apply SG, X'|exact P1]. }
  destruct (_ =? 0).
  { destruct (draw_tail fuel exp g1) as [[t g2]| |] eqn:D; try discriminate. cbn [bind fst snd] in H.
    destruct (ok_pair _ _ _ _ _ _ H) as [<- <-]. destruct (tail_finite _ _ _ _ _ P1 D) as [T P2]. split; [apply SG, T|exact P2]. }
  destruct (draw_01 fuel g1) as [[y01 g2]| |] eqn:D; try discriminate. cbn [bind fst snd] in H.
  pose proof (draw_01_proper _ _ _ _ P1 D) as P2.
  match type of H with (if ?b then _ else _) = _ => destruct b end.
  - destruct (ok_pair _ _ _ _ _ _ H) as [<- <-]. split; [apply SG, X'|exact P2].
  - exact (IH _ _ _ P2 H).
Qed.
