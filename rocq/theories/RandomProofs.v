(** * Proofs about the random number generator *)

From Coq Require Import List ZArith Bool Arith Lia Znumtheory Reals Lra SpecFloat.
From Flocq Require Import Core BinarySingleNaN.
From Verif Require Import Base F32 F32Facts F32Signed ProjectModel ScheduleModel MutatorModel
  MakespanModel TemperatureModel StunModel RandomModel RandomSpec ScheduleSpec
  ScheduleProofs MutatorProofs StunProofs.
Import ListNotations.
Local Open Scope Z_scope.

(** ** The period *)

(** Divisibility by powers of two, read as congruence. *)
Definition cong (k : nat) (x y : Z) : Prop := (2 ^ Z.of_nat k | x - y).

Lemma pow2_S : forall k, 2 ^ Z.of_nat (S k) = 2 * 2 ^ Z.of_nat k.
Proof. intro k. rewrite Nat2Z.inj_succ, Z.pow_succ_r by lia. reflexivity. Qed.

Section Congruential.
Context (a c : Z) (HA : (4 | a - 1)) (HC : (2 | c - 1)).

Fixpoint geom (n : nat) : Z := match n with O => 0 | S n' => a * geom n' + 1 end.
Fixpoint iterate (n : nat) (x : Z) : Z := match n with O => x | S n' => a * iterate n' x + c end.

Lemma iterate_closed : forall n x, iterate n x = a ^ Z.of_nat n * x + c * geom n.
Proof.
  induction n as [|n IH]; intro x; cbn [iterate geom]; [change (Z.of_nat 0) with 0; rewrite Z.pow_0_r; ring|].
  rewrite IH, Nat2Z.inj_succ, Z.pow_succ_r by lia. ring.
Qed.

Lemma geom_add : forall m n, geom (m + n) = a ^ Z.of_nat m * geom n + geom m.
Proof.
  induction m as [|m IH]; intro n; cbn [Nat.add geom]; [change (Z.of_nat 0) with 0; rewrite Z.pow_0_r; ring|].
  rewrite IH, Nat2Z.inj_succ, Z.pow_succ_r by lia. ring.
Qed.

Lemma iterate_add : forall m n x, iterate (m + n) x = iterate m (iterate n x).
Proof. induction m as [|m IH]; intros n x; cbn [Nat.add iterate]; [reflexivity|]. rewrite IH. reflexivity. Qed.

Lemma doubling : forall k,
  (exists u, a ^ Z.of_nat (2 ^ k) = 1 + 4 * 2 ^ Z.of_nat k * u) /\
  (exists q, geom (2 ^ k) = 2 ^ Z.of_nat k * (2 * q + 1)).
Proof.
  induction k as [|k ((u & E) & (q & G))].
  - destruct HA as (u & E). cbn [Nat.pow]. split.
    + exists u. change (Z.of_nat 1) with 1. change (Z.of_nat 0) with 0. rewrite Z.pow_1_r, Z.pow_0_r. lia.
    + exists 0. cbn [geom]. change (Z.of_nat 0) with 0. rewrite Z.pow_0_r. lia.
  - replace (2 ^ S k)%nat with (2 ^ k + 2 ^ k)%nat by (cbn [Nat.pow]; lia). rewrite pow2_S. split.
    + rewrite Nat2Z.inj_add, Z.pow_add_r by lia. rewrite E.
      exists (u * (1 + 2 * 2 ^ Z.of_nat k * u)). ring.
    + rewrite geom_add, E, G. exists (q + 2 ^ Z.of_nat k * u + 2 * q * 2 ^ Z.of_nat k * u). ring.
Qed.

Lemma jump : forall k x, cong (S k) (iterate (2 ^ k) x) (x + 2 ^ Z.of_nat k).
Proof.
  intros k x. destruct (doubling k) as ((u & E) & (q & G)). destruct HC as (d & D).
  unfold cong. rewrite iterate_closed, E, G, pow2_S.
  exists (2 * u * x + q + d * (2 * q + 1)). replace c with (1 + d * 2) by lia. ring.
Qed.

(** Every number is reached, modulo every power of two. *)
Lemma reaches : forall k x y, exists n, Z.of_nat n < 2 ^ Z.of_nat k /\ cong k (iterate n x) y.
Proof.
  induction k as [|k IH]; intros x y.
  - exists O. split; [reflexivity|]. unfold cong. change (Z.of_nat 0) with 0. rewrite Z.pow_0_r. apply Z.divide_1_l.
  - destruct (IH x y) as (n & N & (d & D)).
    destruct (Z.Even_or_Odd d) as [(e & E)|(e & E)].
    + exists n. split; [rewrite pow2_S; lia|]. exists e. rewrite D, E, pow2_S. ring.
    + exists (2 ^ k + n)%nat. split.
      { rewrite Nat2Z.inj_add, Nat2Z.inj_pow, pow2_S. change (Z.of_nat 2) with 2. lia. }
      rewrite iterate_add. destruct (jump k (iterate n x)) as (f & F).
      exists (f + e + 1). rewrite pow2_S in *.
      replace (iterate (2 ^ k) (iterate n x) - y) with
        ((iterate (2 ^ k) (iterate n x) - (iterate n x + 2 ^ Z.of_nat k)) + (iterate n x - y) + 2 ^ Z.of_nat k) by ring.
      rewrite F, D, E. ring.
Qed.
End Congruential.

Lemma step_proper : forall g, proper g -> proper (pcg_step g).
Proof. intros g (H1 & H2 & H3). split; [cbn; apply Z.mod_pos_bound; lia|split; assumption]. Qed.

Lemma steps_S : forall n g, steps (S n) g = pcg_step (steps n g).
Proof. induction n as [|n IH]; intro g; [reflexivity|]. change (steps (S (S n)) g) with (steps (S n) (pcg_step g)). rewrite IH. reflexivity. Qed.

Lemma steps_proper : forall n g, proper g -> proper (steps n g).
Proof. induction n as [|n IH]; intros g H; cbn [steps]; [exact H|]. apply IH, step_proper, H. Qed.

Lemma steps_inc : forall n g, gn_inc (steps n g) = gn_inc g.
Proof. induction n as [|n IH]; intro g; cbn [steps]; [reflexivity|]. rewrite IH. reflexivity. Qed.

Lemma steps_iterate : forall n g, proper g ->
  cong 64 (gn_state (steps n g)) (iterate pcg_mult (gn_inc g) n (gn_state g)).
Proof.
  intros n g P. induction n as [|n (d & IH)].
  - exists 0. cbn. ring.
  - rewrite steps_S. cbn [iterate pcg_step gn_state]. rewrite steps_inc.
    set (s := gn_state (steps n g)) in *. set (x := iterate pcg_mult (gn_inc g) n (gn_state g)) in *.
    exists (pcg_mult * d - (s * pcg_mult + gn_inc g) / 2 ^ 64).
    change (Z.of_nat 64) with 64 in *. rewrite Z.mod_eq by lia.
    replace s with (x + d * 2 ^ 64) at 1 by lia. ring.
Qed.

Lemma cong_eq : forall x y, cong 64 x y -> 0 <= x < 2 ^ 64 -> 0 <= y < 2 ^ 64 -> x = y.
Proof.
  intros x y (d & D) X Y. change (Z.of_nat 64) with 64 in D.
  assert (d = 0) by nia. subst d. lia.
Qed.

(** The generator goes through all states. *)
Lemma full_period : forall g t, proper g -> 0 <= t < 2 ^ 64 ->
  exists n, Z.of_nat n < 2 ^ 64 /\ gn_state (steps n g) = t.
Proof.
  intros g t P T.
  assert (A4 : (4 | pcg_mult - 1)) by (exists 1591034055961698251; reflexivity).
  assert (C2 : (2 | gn_inc g - 1)).
  { destruct P as (_ & _ & O). apply Z.odd_spec in O. destruct O as (e & E). exists e. lia. }
  destruct (reaches pcg_mult (gn_inc g) A4 C2 64 (gn_state g) t) as (n & N & (d & D)).
  exists n. split; [exact N|]. destruct (steps_iterate n g P) as (e & E). apply cong_eq; [|apply steps_proper, P|exact T].
  exists (d + e). lia.
Qed.

(** ** The output function *)

Lemma lor_parts : forall h l k, 0 <= k -> 0 <= h < 2 ^ k -> 0 <= l -> Z.lor h (l * 2 ^ k) = h + l * 2 ^ k.
Proof.
  intros h l k K H L.
  assert (E : Z.land h (l * 2 ^ k) = 0).
  { apply Z.bits_inj'. intros n Hn. rewrite Z.land_spec, Z.bits_0.
    destruct (Z.lt_ge_cases n k) as [A|A].
    - rewrite Z.mul_pow2_bits_low by lia. apply andb_false_r.
    - replace h with (h mod 2 ^ k) by (apply Z.mod_small; lia). rewrite Z.mod_pow2_bits_high by lia. reflexivity. }
  rewrite <- Z.lxor_lor by exact E. symmetry. apply Z.add_nocarry_lxor, E.
Qed.

Lemma rotate_value : forall x r, 0 <= x < 2 ^ 32 -> 0 <= r < 32 ->
  rotate_right x r = x / 2 ^ r + (x mod 2 ^ r) * 2 ^ (32 - r).
Proof.
  intros x r X R. unfold rotate_right. rewrite Z.shiftr_div_pow2 by lia.
  destruct (Z.eq_dec r 0) as [->|N].
  - change ((- 0) mod 32) with 0. rewrite Z.shiftl_0_r, Z.pow_0_r, Z.div_1_r, Z.mod_1_r.
    rewrite Z.mod_small by lia. rewrite Z.lor_diag. lia.
  - replace ((- r) mod 32) with (32 - r) by (apply Z.mod_unique_pos with (-1); lia).
    rewrite Z.shiftl_mul_pow2 by lia.
    assert (P : 2 ^ 32 = 2 ^ r * 2 ^ (32 - r)) by (rewrite <- Z.pow_add_r by lia; f_equal; lia).
    assert (P1 : 0 < 2 ^ r) by (apply Z.pow_pos_nonneg; lia).
    assert (P2 : 0 < 2 ^ (32 - r)) by (apply Z.pow_pos_nonneg; lia).
    rewrite P. rewrite Z.mul_mod_distr_r by lia.
    apply lor_parts; [lia| |apply Z.mod_pos_bound, P1].
    split; [apply Z.div_pos; lia|]. apply Z.div_lt_upper_bound; [exact P1|]. rewrite <- P. lia.
Qed.

Lemma rotate_range : forall x r, 0 <= x < 2 ^ 32 -> 0 <= r < 32 -> 0 <= rotate_right x r < 2 ^ 32.
Proof.
  intros x r X R. rewrite rotate_value by assumption.
  assert (P : 2 ^ 32 = 2 ^ r * 2 ^ (32 - r)) by (rewrite <- Z.pow_add_r by lia; f_equal; lia).
  assert (P1 : 0 < 2 ^ r) by (apply Z.pow_pos_nonneg; lia).
  assert (P2 : 0 < 2 ^ (32 - r)) by (apply Z.pow_pos_nonneg; lia).
  pose proof (Z.mod_pos_bound x (2 ^ r) P1).
  assert (0 <= x / 2 ^ r < 2 ^ (32 - r)).
  { split; [apply Z.div_pos; lia|]. apply Z.div_lt_upper_bound; [exact P1|]. rewrite <- P. lia. }
  nia.
Qed.

(** A rotation can be undone. *)
Lemma rotate_unique : forall v r, 0 <= v < 2 ^ 32 -> 0 <= r < 32 ->
  exists x, 0 <= x < 2 ^ 32 /\ rotate_right x r = v /\
            forall x', 0 <= x' < 2 ^ 32 -> rotate_right x' r = v -> x' = x.
Proof.
  intros v r V R.
  assert (P : 2 ^ 32 = 2 ^ r * 2 ^ (32 - r)) by (rewrite <- Z.pow_add_r by lia; f_equal; lia).
  assert (P1 : 0 < 2 ^ r) by (apply Z.pow_pos_nonneg; lia).
  assert (P2 : 0 < 2 ^ (32 - r)) by (apply Z.pow_pos_nonneg; lia).
  set (l := v / 2 ^ (32 - r)). set (h := v mod 2 ^ (32 - r)).
  assert (EV : v = 2 ^ (32 - r) * l + h) by (apply Z.div_mod; lia).
  assert (H : 0 <= h < 2 ^ (32 - r)) by (apply Z.mod_pos_bound, P2).
  assert (L : 0 <= l < 2 ^ r).
  { split; [apply Z.div_pos; lia|]. apply Z.div_lt_upper_bound; [exact P2|]. rewrite Z.mul_comm, <- P. lia. }
  exists (h * 2 ^ r + l).
  assert (XB : 0 <= h * 2 ^ r + l < 2 ^ 32) by nia.
  split; [exact XB|]. split.
  - rewrite rotate_value by assumption.
    rewrite Z.add_comm. rewrite (Z.add_comm (h * 2 ^ r) l).
    rewrite Z.div_add, Z.mod_add by lia. rewrite (Z.div_small l), (Z.mod_small l) by lia. lia.
  - intros x' X' E. rewrite rotate_value in E by assumption.
    pose proof (Z.mod_pos_bound x' (2 ^ r) P1) as M.
    assert (D : 0 <= x' / 2 ^ r < 2 ^ (32 - r)).
    { split; [apply Z.div_pos; lia|]. apply Z.div_lt_upper_bound; [exact P1|]. rewrite <- P. lia. }
    assert (EL : x' mod 2 ^ r = l).
    { unfold l. apply Z.div_unique_pos with (x' / 2 ^ r); lia. }
    assert (EH : x' / 2 ^ r = h) by (rewrite EL in E; lia).
    rewrite (Z.div_mod x' (2 ^ r)) by lia. rewrite EL, EH. ring.
Qed.

Lemma lxor_range : forall a b k, 0 <= k -> 0 <= a < 2 ^ k -> 0 <= b < 2 ^ k -> 0 <= Z.lxor a b < 2 ^ k.
Proof.
  intros a b k K A B. assert (N : 0 <= Z.lxor a b) by (apply Z.lxor_nonneg; lia). split; [exact N|].
  replace (Z.lxor a b) with (Z.lxor a b mod 2 ^ k); [apply Z.mod_pos_bound; lia|].
  apply Z.bits_inj'. intros n Hn. destruct (Z.lt_ge_cases n k) as [L|L].
  - apply Z.mod_pow2_bits_low, L.
  - rewrite Z.mod_pow2_bits_high by lia. rewrite Z.lxor_spec.
    replace a with (a mod 2 ^ k) by (apply Z.mod_small; lia). replace b with (b mod 2 ^ k) by (apply Z.mod_small; lia).
    rewrite !Z.mod_pow2_bits_high by lia. reflexivity.
Qed.

Lemma compose_range : forall r m l, 0 <= r < 32 -> 0 <= m < 2 ^ 32 -> 0 <= l < 2 ^ 27 -> 0 <= compose r m l < 2 ^ 64.
Proof. intros r m l R M L. unfold compose. lia. Qed.

(** The xorshift in terms of these parts. *)
Lemma xorshift_parts : forall r m l, 0 <= r < 32 -> 0 <= m < 2 ^ 32 -> 0 <= l < 2 ^ 27 ->
  Z.shiftr (compose r m l) 59 = r /\
  Z.shiftr (Z.lxor (Z.shiftr (compose r m l) 18) (compose r m l)) 27 mod 2 ^ 32 =
  Z.lxor (r * 2 ^ 14 + Z.shiftr m 18) m.
Proof.
  intros r m l R M L.
  assert (S59 : Z.shiftr (compose r m l) 59 = r).
  { rewrite Z.shiftr_div_pow2 by lia. symmetry. apply Z.div_unique_pos with (m * 2 ^ 27 + l); unfold compose; lia. }
  assert (S27 : Z.shiftr (compose r m l) 27 = m + r * 2 ^ 32).
  { rewrite Z.shiftr_div_pow2 by lia. symmetry. apply Z.div_unique_pos with l; unfold compose; lia. }
  assert (M18 : 0 <= Z.shiftr m 18 < 2 ^ 14).
  { rewrite Z.shiftr_div_pow2 by lia. split; [apply Z.div_pos; lia|]. apply Z.div_lt_upper_bound; lia. }
  assert (S45 : Z.shiftr (compose r m l) 45 = r * 2 ^ 14 + Z.shiftr m 18).
  { replace 45 with (27 + 18) by reflexivity. rewrite <- Z.shiftr_shiftr by lia. rewrite S27.
    rewrite !Z.shiftr_div_pow2 in * by lia. replace (m + r * 2 ^ 32) with (m + (r * 2 ^ 14) * 2 ^ 18) by ring.
    rewrite Z.div_add by lia. ring. }
  split; [exact S59|].
  rewrite Z.shiftr_lxor, Z.shiftr_shiftr by lia. change (18 + 27) with 45. rewrite S45, S27.
  set (T := r * 2 ^ 14 + Z.shiftr m 18). assert (BT : 0 <= T < 2 ^ 32) by (unfold T; lia).
  apply Z.bits_inj'. intros n Hn. destruct (Z.lt_ge_cases n 32) as [A|A].
  - rewrite Z.mod_pow2_bits_low by lia. rewrite !Z.lxor_spec. f_equal.
    rewrite <- (Z.mod_pow2_bits_low (m + r * 2 ^ 32) 32) by lia.
    rewrite Z.mod_add by lia. rewrite Z.mod_pow2_bits_low by lia. reflexivity.
  - rewrite Z.mod_pow2_bits_high by lia. symmetry.
    rewrite <- (Z.mod_small (Z.lxor T m) (2 ^ 32)) by (apply lxor_range; lia).
    apply Z.mod_pow2_bits_high. lia.
Qed.

(** The middle bits for a given xorshift. *)
Lemma xorshift_unique : forall r y, 0 <= r < 32 -> 0 <= y < 2 ^ 32 ->
  exists m, 0 <= m < 2 ^ 32 /\ Z.lxor (r * 2 ^ 14 + Z.shiftr m 18) m = y /\
            forall m', 0 <= m' < 2 ^ 32 -> Z.lxor (r * 2 ^ 14 + Z.shiftr m' 18) m' = y -> m' = m.
Proof.
  intros r y R Y.
  assert (top : forall z, 0 <= z < 2 ^ 14 -> Z.shiftr (r * 2 ^ 14 + z) 18 = Z.shiftr r 4).
  { intros z B. rewrite !Z.shiftr_div_pow2 by lia. change (2 ^ 18) with (2 ^ 14 * 2 ^ 4).
    rewrite <- Z.div_div by lia. f_equal. symmetry. apply Z.div_unique_pos with z; lia. }
  assert (high : forall z, 0 <= z < 2 ^ 32 -> 0 <= Z.shiftr z 18 < 2 ^ 14).
  { intros z B. rewrite Z.shiftr_div_pow2 by lia. split; [apply Z.div_pos; lia|]. apply Z.div_lt_upper_bound; lia. }
  assert (R4 : 0 <= Z.shiftr r 4 < 2 ^ 14).
  { rewrite Z.shiftr_div_pow2 by lia. split; [apply Z.div_pos; lia|]. apply Z.div_lt_upper_bound; lia. }
  set (mh := Z.lxor (Z.shiftr y 18) (Z.shiftr r 4)).
  assert (BH : 0 <= mh < 2 ^ 14) by (apply lxor_range; [lia|apply high, Y|exact R4]).
  set (T := r * 2 ^ 14 + mh). assert (BT : 0 <= T < 2 ^ 32) by (unfold T; lia).
  exists (Z.lxor y T). split; [apply lxor_range; lia|]. split.
  - rewrite Z.shiftr_lxor. unfold T at 1 2. rewrite top by exact BH.
    fold mh. fold T. rewrite (Z.lxor_comm y T), <- Z.lxor_assoc, Z.lxor_nilpotent. apply Z.lxor_0_l.
  - intros m' M' E.
    assert (EH : Z.shiftr m' 18 = mh).
    { unfold mh. rewrite <- E. rewrite Z.shiftr_lxor, top by (apply high, M').
      rewrite (Z.lxor_comm (Z.shiftr r 4)), Z.lxor_assoc, Z.lxor_nilpotent, Z.lxor_0_r. reflexivity. }
    rewrite EH in E. fold T in E. rewrite <- E, (Z.lxor_comm T m'), Z.lxor_assoc, Z.lxor_nilpotent, Z.lxor_0_r.
    reflexivity.
Qed.

Lemma output_parts : forall r m l, 0 <= r < 32 -> 0 <= m < 2 ^ 32 -> 0 <= l < 2 ^ 27 ->
  pcg_output (compose r m l) = rotate_right (Z.lxor (r * 2 ^ 14 + Z.shiftr m 18) m) r.
Proof.
  intros r m l R M L. unfold pcg_output. destruct (xorshift_parts r m l R M L) as [-> ->]. reflexivity.
Qed.

Lemma parts_lxor_range : forall r m, 0 <= r < 32 -> 0 <= m < 2 ^ 32 ->
  0 <= Z.lxor (r * 2 ^ 14 + Z.shiftr m 18) m < 2 ^ 32.
Proof.
  intros r m R M. apply lxor_range; [lia| |exact M]. rewrite Z.shiftr_div_pow2 by lia.
  assert (0 <= m / 2 ^ 18 < 2 ^ 14) by (split; [apply Z.div_pos; lia|apply Z.div_lt_upper_bound; lia]). lia.
Qed.

Lemma decompose : forall s, 0 <= s < 2 ^ 64 ->
  exists r m l, 0 <= r < 32 /\ 0 <= m < 2 ^ 32 /\ 0 <= l < 2 ^ 27 /\ s = compose r m l.
Proof.
  intros s S. exists (s / 2 ^ 59), ((s / 2 ^ 27) mod 2 ^ 32), (s mod 2 ^ 27).
  split; [split; [apply Z.div_pos; lia|apply Z.div_lt_upper_bound; lia]|].
  split; [apply Z.mod_pos_bound; lia|]. split; [apply Z.mod_pos_bound; lia|].
  unfold compose. change (2 ^ 59) with (2 ^ 27 * 2 ^ 32). rewrite <- Z.div_div by lia.
  pose proof (Z.div_mod s (2 ^ 27)) as A. pose proof (Z.div_mod (s / 2 ^ 27) (2 ^ 32)) as B. lia.
Qed.

Lemma output_range : forall s, 0 <= s < 2 ^ 64 -> 0 <= pcg_output s < 2 ^ 32.
Proof.
  intros s S. destruct (decompose s S) as (r & m & l & R & M & L & ->). rewrite output_parts by assumption.
  apply rotate_range; [apply parts_lxor_range; assumption|exact R].
Qed.

Lemma output_unique : forall r l v, 0 <= r < 32 -> 0 <= l < 2 ^ 27 -> 0 <= v < 2 ^ 32 ->
  exists m, 0 <= m < 2 ^ 32 /\ pcg_output (compose r m l) = v /\
            forall m', 0 <= m' < 2 ^ 32 -> pcg_output (compose r m' l) = v -> m' = m.
Proof.
  intros r l v R L V. destruct (rotate_unique v r V R) as (y & Y & EY & UY).
  destruct (xorshift_unique r y R Y) as (m & M & EM & UM). exists m. split; [exact M|]. split.
  - rewrite output_parts by assumption. rewrite EM. exact EY.
  - intros m' M' E. rewrite output_parts in E by assumption. apply UM; [exact M'|].
    apply UY; [apply parts_lxor_range; assumption|exact E].
Qed.

(** ** The distributions *)

Lemma bucket_value : forall max, 0 <= max < 2 ^ 32 - 1 -> bucket_size max = 2 ^ 32 / (max + 1).
Proof.
  intros max M. unfold bucket_size. set (n := max + 1). change (2 ^ 32 - 1) with 4294967295. change (2 ^ 32) with 4294967296.
  pose proof (Z.div_mod 4294967295 n) as D. pose proof (Z.mod_pos_bound 4294967295 n) as B.
  destruct (Z.eqb_spec (4294967295 mod n) max) as [E|E].
  - apply Z.div_unique_pos with 0; nia.
  - apply Z.div_unique_pos with (4294967295 mod n + 1); nia.
Qed.

Lemma bucket_fits : forall max, 0 <= max < 2 ^ 32 - 1 -> 1 <= bucket_size max /\ (max + 1) * bucket_size max <= 2 ^ 32.
Proof.
  intros max M. rewrite bucket_value by exact M. split.
  - apply Z.div_le_lower_bound; lia.
  - apply Z.mul_div_le. lia.
Qed.

(** While the state is not 0 the search goes on at most until it is. *)
Lemma bucket_ends : forall n max b g, proper g -> 0 <= max -> 1 <= b -> gn_state (steps n g) = 0 ->
  exists v g', draw_bucket (S n) max b g = Ok (v, g') /\ 0 <= v <= max /\ proper g'.
Proof.
  induction n as [|n IH]; intros max b g P M B E; cbn [draw_bucket draw]; cbv zeta.
  - cbn [steps] in E. rewrite E. change (pcg_output 0) with 0. rewrite Z.div_0_l by lia.
    rewrite (proj2 (Z.leb_le 0 max)) by exact M. exists 0, (pcg_step g). split; [reflexivity|].
    split; [lia|apply step_proper, P].
  - destruct (Z.leb_spec (pcg_output (gn_state g) / b) max) as [L|L].
    + eexists. eexists. split; [reflexivity|]. split; [|apply step_proper, P]. split; [|exact L].
      apply Z.div_pos; [apply output_range, P|lia].
    + apply (IH max b (pcg_step g) (step_proper g P) M B E).
Qed.

Lemma bucket_more : forall n k max b g r, draw_bucket n max b g = Ok r -> draw_bucket (n + k) max b g = Ok r.
Proof.
  induction n as [|n IH]; intros k max b g r H; [discriminate|]. cbn [Nat.add draw_bucket draw] in *. cbv zeta in *.
  destruct (_ <=? _); [exact H|]. apply IH, H.
Qed.

Lemma int_more : forall n k max g r, draw_int n max g = Ok r -> draw_int (n + k) max g = Ok r.
Proof.
  intros n k max g r H. unfold draw_int in *. destruct (expects _); cbn [bind] in *; try discriminate.
  destruct (max =? 0); [exact H|]. destruct (expects _); cbn [bind] in *; try discriminate. apply bucket_more, H.
Qed.

Lemma int_ends : forall fuel max g, proper g -> 0 <= max < 2 ^ 32 - 1 -> 2 ^ 64 <= Z.of_nat fuel ->
  exists v g', draw_int fuel max g = Ok (v, g') /\ 0 <= v <= max /\ proper g'.
Proof.
  intros fuel max g P M L. unfold draw_int. rewrite (proj2 (Z.leb_le 0 max)) by lia. cbn [expects bind].
  destruct (Z.eqb_spec max 0) as [->|N].
  - exists 0, g. split; [reflexivity|]. split; [lia|exact P].
  - rewrite (proj2 (Z.ltb_lt max (2 ^ 32 - 1))) by lia. cbn [expects bind].
    destruct (full_period g 0 P) as (n & Hn & E); [lia|].
    destruct (bucket_ends n max (bucket_size max) g P) as (v & g' & A & B & C);
      [lia|apply bucket_fits, M|exact E|].
    exists v, g'. split; [|auto]. replace fuel with (S n + (fuel - S n))%nat by lia. apply bucket_more, A.
Qed.

(** The result does not depend on the fuel. *)
Lemma int_fuel : forall n m max g r r', draw_int n max g = Ok r -> draw_int m max g = Ok r' -> r = r'.
Proof.
  intros n m max g r r' A B. apply (int_more _ m) in A. apply (int_more _ n) in B.
  rewrite Nat.add_comm in B. congruence.
Qed.

(** *** [uniform_01] *)

Lemma unit_value : is_finite unit_factor = true /\ B2R unit_factor = (/ IZR (2 ^ 32))%R.
Proof.
  split; [vm_compute; reflexivity|]. rewrite <- SF2R_B2SF.
  replace (B2SF unit_factor) with (S754_finite false 8388608 (-55)) by (symmetry; vm_compute; reflexivity).
  unfold SF2R, F2R. cbn [Fnum Fexp cond_Zopp]. change (bpow radix2 (-55)) with (/ IZR (2 ^ 32 * 8388608))%R.
  rewrite mult_IZR. change (IZR (Z.pos 8388608)) with (IZR 8388608). field.
  apply IZR_neq; lia.
Qed.

Lemma unit_draw : forall x, 0 <= x < 2 ^ 32 ->
  is_finite (f_mul (f_of_Z x) unit_factor) = true /\ (0 <= B2R (f_mul (f_of_Z x) unit_factor))%R.
Proof.
  intros x X. destruct (of_Z_fin x) as [F E]; [lia|]. destruct unit_value as [G H].
  assert (B : (0 <= B2R (f_of_Z x) <= IZR (2 ^ 32))%R).
  { rewrite E. apply rnd_between.
    - apply round_0. apply valid_rnd_N.
    - replace (IZR (2 ^ 32)) with (IZR 1 * bpow radix2 32)%R by (cbn [bpow]; change (Z.pow_pos radix2 32) with (2 ^ 32); ring).
      apply rnd_dyadic; lia.
    - split; apply IZR_le; lia. }
  assert (P : (0 <= / IZR (2 ^ 32))%R) by (left; apply Rinv_0_lt_compat, IZR_lt; lia).
  assert (M : (0 <= B2R (f_of_Z x) * B2R unit_factor <= 1)%R).
  { rewrite H. split; [apply Rmult_le_pos; lra|].
    apply Rle_trans with (IZR (2 ^ 32) * / IZR (2 ^ 32))%R.
    - apply Rmult_le_compat_r; lra.
    - right. apply Rinv_r. apply IZR_neq. lia. }
  destruct (mul_fin (f_of_Z x) unit_factor F G) as [A C].
  { rewrite Rabs_pos_eq by lra. apply Rle_trans with 1%R; [lra|]. change 1%R with (bpow radix2 0). apply bpow_le. lia. }
  split; [exact A|]. rewrite C. apply round_ge_generic; [typeclasses eauto|apply valid_rnd_N|apply generic_format_0|lra].
Qed.

Lemma unit_range : forall x, 0 <= x < 2 ^ 32 -> f_lt (f_mul (f_of_Z x) unit_factor) f_one = true ->
  in_unit (f_mul (f_of_Z x) unit_factor).
Proof.
  intros x X L. destruct (unit_draw x X) as [F H]. split; [exact F|]. split; [exact H|].
  unfold f_lt in L. rewrite Bltb_correct in L by (exact F || reflexivity).
  rewrite (proj2 one_fin) in L. destruct (Rlt_bool_spec (B2R (f_mul (f_of_Z x) unit_factor)) 1) as [A|A];
    [exact A|discriminate].
Qed.

Lemma unit_ends : forall n g, proper g -> gn_state (steps n g) = 0 ->
  exists u g', draw_01 (S n) g = Ok (u, g') /\ in_unit u /\ proper g'.
Proof.
  induction n as [|n IH]; intros g P E; cbn [draw_01 draw]; cbv zeta.
  - cbn [steps] in E. rewrite E. change (pcg_output 0) with 0.
    assert (L : f_lt (f_mul (f_of_Z 0) unit_factor) f_one = true) by (vm_compute; reflexivity).
    rewrite L. eexists. eexists. split; [reflexivity|]. split; [apply unit_range; [lia|exact L]|apply step_proper, P].
  - destruct (f_lt (f_mul (f_of_Z (pcg_output (gn_state g))) unit_factor) f_one) eqn:L.
    + eexists. eexists. split; [reflexivity|].
      split; [apply unit_range; [apply output_range, P|exact L]|apply step_proper, P].
    + apply (IH (pcg_step g) (step_proper g P) E).
Qed.

Lemma unit_more : forall n k g r, draw_01 n g = Ok r -> draw_01 (n + k) g = Ok r.
Proof.
  induction n as [|n IH]; intros k g r H; [discriminate|]. cbn [Nat.add draw_01 draw] in *. cbv zeta in *.
  destruct (f_lt _ _); [exact H|]. apply IH, H.
Qed.

Lemma unit_fuel : forall n m g r r', draw_01 n g = Ok r -> draw_01 m g = Ok r' -> r = r'.
Proof.
  intros n m g r r' A B. apply (unit_more _ m) in A. apply (unit_more _ n) in B.
  rewrite Nat.add_comm in B. congruence.
Qed.

Lemma unit_total : forall fuel g, proper g -> 2 ^ 64 <= Z.of_nat fuel ->
  exists u g', draw_01 fuel g = Ok (u, g') /\ in_unit u /\ proper g'.
Proof.
  intros fuel g P L. destruct (full_period g 0 P) as (n & Hn & E); [lia|].
  destruct (unit_ends n g P E) as (u & g' & A & B & C). exists u, g'. split; [|auto].
  replace fuel with (S n + (fuel - S n))%nat by lia. apply unit_more, A.
Qed.

(** ** Mutations and iterations with the generator *)

Lemma agree_bind : forall A B (Q : A -> generator -> Prop) (R : B -> generator -> Prop)
  (x : outcome (A * generator)) (y : outcome A) (f : A * generator -> outcome (B * generator))
  (h : A -> outcome B), agrees Q x y ->
  (forall a g, x = Ok (a, g) -> y = Ok a -> Q a g -> agrees R (f (a, g)) (h a)) ->
  agrees R (bind x f) (bind y h).
Proof.
  intros A B Q R x y f h H F. destruct y as [a| |]; cbn in H.
  - destruct H as (g & -> & P). cbn [bind]. apply F; auto.
  - subst x. reflexivity.
  - subst x. reflexivity.
Qed.

Lemma agree_pure : forall A B R (x : outcome A) (f : A -> outcome (B * generator)) (h : A -> outcome B),
  (forall a, x = Ok a -> agrees R (f a) (h a)) -> agrees R (bind x f) (bind x h).
Proof. intros A B R x f h F. destruct x as [a| |]; cbn [bind]; [apply F; reflexivity|reflexivity|reflexivity]. Qed.

Section Agreement.
Context (fuel : nat) (HF : 2 ^ 64 <= Z.of_nat fuel).

Lemma int_agree : forall n k g, proper g -> 1 <= k -> Z.of_nat n < 2 ^ 32 ->
  size_minus n k < 0 \/
  exists i g', draw_int fuel (size_minus n k) g = Ok (Z.of_nat i, g') /\ proper g' /\
               uniform_int (size_minus n k) i = Ok i.
Proof.
  intros n k g P K N. destruct (Z.lt_ge_cases (size_minus n k) 0) as [L|L]; [left; exact L|right].
  destruct (int_ends fuel (size_minus n k) g P) as (v & g' & A & B & C); [unfold size_minus in *; lia|exact HF|].
  exists (Z.to_nat v), g'. rewrite Z2Nat.id by lia. split; [exact A|]. split; [exact C|].
  unfold uniform_int. rewrite (proj2 (Z.leb_le _ _)) by lia. cbn [expects bind].
  rewrite Nat.mod_small by lia. reflexivity.
Qed.

Lemma int_broken : forall max g raw, max < 0 -> draw_int fuel max g = Broken /\ uniform_int max raw = Broken.
Proof.
  intros max g raw L. unfold draw_int, uniform_int. rewrite (proj2 (Z.leb_gt 0 max)) by exact L. split; reflexivity.
Qed.

Definition swap_drawn (n : nat) (g : generator) (raw : nat) (g1 : generator) : Prop :=
  if (n =? 1)%nat then g1 = g else int_drawn (Z.of_nat n - 2) g raw g1.

Lemma try_swap_agree : forall p g s, proper g -> Z.of_nat (length s) < 2 ^ 32 ->
  exists raw, agrees (fun _ g1 => proper g1 /\ swap_drawn (length s) g raw g1)
                     (try_swap_random fuel p g s) (try_swap p raw s).
Proof.
  intros p g s P L. unfold swap_drawn.
  destruct (int_agree (length s) 2 g P ltac:(lia) L) as [N|(i & g' & A & B & C)].
  - exists O. unfold try_swap_random, try_swap. apply agree_pure. intros _ _.
    destruct (length s =? 1)%nat; [exists g; auto|].
    destruct (int_broken _ g O N) as [-> ->]. reflexivity.
  - exists i. unfold try_swap_random, try_swap. apply agree_pure. intros _ _.
    destruct (length s =? 1)%nat; [exists g; auto|]. rewrite A, C. cbn [bind fst snd]. rewrite Nat2Z.id. cbv zeta.
    apply agree_pure. intros a _. apply agree_pure. intros b _.
    assert (D : int_drawn (Z.of_nat (length s) - 2) g i g') by (exists fuel; exact A).
    apply agree_pure. intros ok _. destruct ok; exists g'; auto.
Qed.

Lemma update_agent_agree : forall p g s, proper g -> Z.of_nat (length s) < 2 ^ 32 -> small_rows p ->
  exists r1 r2, agrees (fun _ g' => proper g' /\ exists g1 av, int_drawn (Z.of_nat (length s) - 1) g r1 g1 /\
                          In av (sp_agents p) /\ int_drawn (Z.of_nat (length av) - 1) g1 r2 g')
                       (update_agent_random fuel p g s) (update_agent p r1 r2 s).
Proof.
  intros p g s P L R.
  destruct (int_agree (length s) 1 g P ltac:(lia) L) as [N|(i & g' & A & B & C)].
  - exists O, O. unfold update_agent_random, update_agent.
    do 2 (apply agree_pure; intros _ _).
    destruct (int_broken _ g O N) as [-> ->]. reflexivity.
  - destruct (at_index s i) as [x| |] eqn:EX.
    2,3: exists i, O; unfold update_agent_random, update_agent;
         do 2 (apply agree_pure; intros _ _); rewrite A, C; cbn [bind fst snd]; rewrite Nat2Z.id, EX; reflexivity.
    destruct (row (sp_agents p) (it_task x)) as [av| |] eqn:ER.
    2,3: exists i, O; unfold update_agent_random, update_agent;
         do 2 (apply agree_pure; intros _ _); rewrite A, C; cbn [bind fst snd]; rewrite Nat2Z.id, EX; cbn [bind]; rewrite ER; reflexivity.
    assert (IA : In av (sp_agents p)).
    { unfold row, at_index in ER. destruct (nth_error (sp_agents p) (it_task x)) eqn:En; [|discriminate].
      injection ER as ->. apply nth_error_In in En. exact En. }
    destruct (int_agree (length av) 1 g' B ltac:(lia) (R _ IA)) as [N|(i2 & g2 & A2 & B2 & C2)].
    + exists i, O. unfold update_agent_random, update_agent.
      do 2 (apply agree_pure; intros _ _). rewrite A, C. cbn [bind fst snd]. rewrite Nat2Z.id, EX.
      cbn [bind]. rewrite ER. cbn [bind]. destruct (int_broken _ g' O N) as [-> ->]. reflexivity.
    + exists i, i2. unfold update_agent_random, update_agent.
      do 2 (apply agree_pure; intros _ _). rewrite A, C. cbn [bind fst snd]. rewrite Nat2Z.id, EX.
      cbn [bind]. rewrite ER. cbn [bind]. rewrite A2, C2. cbn [bind fst snd]. rewrite Nat2Z.id.
      apply agree_pure. intros a _. exists g2. split; [reflexivity|]. split; [exact B2|].
      exists g', av. split; [exists fuel; exact A|]. split; [exact IA|]. exists fuel. exact A2.
Qed.

Lemma try_swap_length : forall p raw s s', try_swap p raw s = Ok s' -> length s' = length s.
Proof.
  intros p raw s s' H. unfold try_swap in H. destruct (expects _); cbn [bind] in H; try discriminate.
  destruct (length s =? 1)%nat; [congruence|]. destruct (uniform_int _ _); cbn [bind] in H; try discriminate.
  cbv zeta in H. destruct (at_index s (1 + _)); cbn [bind] in H; try discriminate.
  destruct (at_index s _); cbn [bind] in H; try discriminate.
  destruct (is_swappable _ _ _) as [[|]| |]; cbn [bind] in H; try discriminate;
    injection H as <-; rewrite ?set_nth_length; reflexivity.
Qed.

Lemma mutate_agree : forall p g s, proper g -> Z.of_nat (length s) < 2 ^ 32 -> small_rows p ->
  exists d, agrees (fun _ g' => proper g' /\ drawn_in_order p (length s) g d g')
                   (mutate_random fuel p g s) (mutate p d s).
Proof.
  intros p g s P L R. destruct (try_swap_agree p g s P L) as (raw & A).
  destruct (try_swap p raw s) as [s1| |] eqn:E1; cbn in A.
  - destruct A as (g1 & A & P1 & D1). pose proof (try_swap_length _ _ _ _ E1) as L1.
    destruct (update_agent_agree p g1 s1 P1) as (r1 & r2 & B); [rewrite L1; exact L|exact R|].
    exists (Draws raw r1 r2). unfold mutate_random, mutate. apply agree_pure. intros _ _.
    cbn [dr_swap dr_task dr_agent]. rewrite A, E1. cbn [bind fst snd].
    destruct (update_agent p r1 r2 s1) as [s2| |]; cbn in *; [|exact B|exact B].
    destruct B as (g' & B & P' & g2 & av & D2 & IA & D3). exists g'. split; [exact B|]. split; [exact P'|].
    rewrite L1 in D2. exists g1, g2, av. auto.
  - exists (Draws raw 0 0). unfold mutate_random, mutate. apply agree_pure. intros _ _.
    cbn [dr_swap]. rewrite A, E1. reflexivity.
  - exists (Draws raw 0 0). unfold mutate_random, mutate. apply agree_pure. intros _ _.
    cbn [dr_swap]. rewrite A, E1. reflexivity.
Qed.

Lemma neighbor_agree : forall j g, proper g -> Z.of_nat (length (st_current (jb_stun j))) < 2 ^ 32 ->
  small_rows (jb_mutator j) ->
  exists d, agrees (fun _ g' => proper g' /\ drawn_in_order (jb_mutator j) (length (st_current (jb_stun j))) g d g')
                   (get_new_neighbor_random fuel j g) (get_new_neighbor j d).
Proof.
  intros j g P L R. destruct (mutate_agree (jb_mutator j) g (st_current (jb_stun j)) P L R) as (d & A).
  exists d. unfold get_new_neighbor_random, get_new_neighbor. cbv zeta.
  do 3 (apply agree_pure; intros _ _). eapply agree_bind; [exact A|].
  intros t g' _ _ P'. cbn [fst snd]. apply agree_pure. intros r _.
  apply agree_pure. intros _ _. exists g'. auto.
Qed.

Lemma better_flag : forall o s r, neighbor_is_better o s = Ok r -> fst r = f_lt (st_target_e s) (st_current_e s).
Proof.
  intros o s r H. unfold neighbor_is_better in H.
  do 7 (match type of H with bind (expects ?b) _ = _ => destruct b; cbn [expects bind] in H; [|discriminate] end).
  destruct (f_lt (st_target_e s) (st_current_e s)); [|injection H as <-; reflexivity].
  destruct (f_lt (st_target_e s) (st_lowest_e s)); [|injection H as <-; reflexivity].
  destruct (stun_fn o _ _ _); cbn [bind] in H; try discriminate. injection H as <-. reflexivity.
Qed.

Lemma neighbor_current : forall j d c, get_new_neighbor j d = Ok c ->
  st_current_e (jb_stun c) = st_current_e (jb_stun j).
Proof.
  intros j d c H. unfold get_new_neighbor in H. cbv zeta in H.
  do 3 (match type of H with bind (expects ?b) _ = _ => destruct b; cbn [expects bind] in H; [|discriminate] end).
  destruct (mutate _ _ _); cbn [bind] in H; try discriminate.
  destruct (makespan_eval _ _ _); cbn [bind] in H; try discriminate.
  destruct (expects _); cbn [bind] in H; try discriminate. injection H as <-. reflexivity.
Qed.

Lemma update_agree : forall o j g, proper g -> Z.of_nat (length (st_current (jb_stun j))) < 2 ^ 32 ->
  small_rows (jb_mutator j) ->
  exists k, in_unit (lk_uniform k) /\
    agrees (fun _ g' => proper g' /\ exists g1 c,
              drawn_in_order (jb_mutator j) (length (st_current (jb_stun j))) g (lk_draws k) g1 /\
              get_new_neighbor j (lk_draws k) = Ok c /\
              if f_lt (st_target_e (jb_stun c)) (st_current_e (jb_stun j)) then g' = g1
              else unit_drawn g1 (lk_uniform k) g')
           (stun_update_random fuel o j g) (stun_update o j k).
Proof.
  intros o j g P L R. destruct (neighbor_agree j g P L R) as (d & A).
  assert (U0 : in_unit f_zero) by (split; [reflexivity|cbn; lra]).
  destruct (get_new_neighbor j d) as [j1| |] eqn:E1; cbn in A.
  2,3: exists (Luck d f_zero); split; [exact U0|]; unfold stun_update_random, stun_update;
       apply agree_pure; intros _ _; cbn [lk_draws]; rewrite A, E1; reflexivity.
  destruct A as (g1 & A & P1 & D). destruct (unit_total fuel g1 P1 HF) as (u & g2 & EU & HU & P2).
  exists (Luck d u). split; [exact HU|]. unfold stun_update_random, stun_update.
  apply agree_pure. intros _ _. cbn [lk_draws lk_uniform]. rewrite A, E1. cbn [bind fst snd].
  apply agree_pure. intros r Hr. cbv zeta. apply better_flag in Hr. rewrite (neighbor_current j d j1 E1) in Hr.
  destruct (fst r) eqn:EF.
  - exists g1. split; [reflexivity|]. split; [exact P1|]. exists g1, j1. split; [exact D|]. split; [reflexivity|].
    rewrite <- Hr. reflexivity.
  - rewrite EU. cbn [bind fst snd]. destruct (perform_stun o u (with_stun j1 (snd r))) as [j3| |]; cbn [bind];
    [|reflexivity|reflexivity].
    exists g2. split; [reflexivity|]. split; [exact P2|]. exists g1, j1. split; [exact D|]. split; [reflexivity|].
    rewrite <- Hr. exists fuel. exact EU.
Qed.
End Agreement.

Section Search.
Context (fuel : nat) (HF : 2 ^ 64 <= Z.of_nat fuel).
Context (p : params) (HP : problem p) (HT : Z.of_nat (task_count p) < 2 ^ 32) (HR : small_rows p).
Context (o : oracles).

Lemma search_agree : forall n j g, JI p p j -> proper g ->
  exists ks, length ks = n /\ Forall (fun k => in_unit (lk_uniform k)) ks /\
             agrees (fun j' g' => proper g' /\ plays o j g ks j' g') (search_random fuel o n j g) (stun_run o j ks).
Proof.
  induction n as [|n IH]; intros j g J P; cbn [search_random].
  - exists []. split; [reflexivity|]. split; [constructor|]. exists g. split; [reflexivity|]. split; [exact P|constructor].
  - destruct (update_agree fuel HF o j g P) as (k & U & A).
    { rewrite (valid_length p (st_current (jb_stun j)) (ji_current p p j J)). exact HT. }
    { rewrite (ji_mutator p p j J). exact HR. }
    destruct (stun_update o j k) as [j1| |] eqn:E; cbn in A.
    + destruct A as (g1 & A & P1 & g0 & c & D & EC & DU). destruct (update_cases p p HP o j k j1 J E) as (J1 & _).
      destruct (IH j1 g1 J1 P1) as (ks & L & F & B). exists (k :: ks).
      split; [cbn; lia|]. split; [constructor; assumption|]. rewrite A. cbn [bind fst snd stun_run]. rewrite E. cbn [bind].
      destruct (stun_run o j1 ks) as [j'| |]; cbn in *; [|exact B|exact B].
      destruct B as (g' & B & P' & PL). exists g'. split; [exact B|]. split; [exact P'|].
      exact (plays_more o j g k g0 c g1 j1 ks j' g' D EC DU E PL).
    + exists (k :: repeat k n). split; [cbn; rewrite repeat_length; reflexivity|]. split.
      { constructor; [exact U|]. apply Forall_forall. intros x Hx. apply repeat_spec in Hx. subst x. exact U. }
      rewrite A. cbn [stun_run]. rewrite E. reflexivity.
    + exists (k :: repeat k n). split; [cbn; rewrite repeat_length; reflexivity|]. split.
      { constructor; [exact U|]. apply Forall_forall. intros x Hx. apply repeat_spec in Hx. subst x. exact U. }
      rewrite A. cbn [stun_run]. rewrite E. reflexivity.
Qed.
End Search.

(** ** More fuel changes nothing *)

Section More.
Context (n k : nat).

Lemma swap_more : forall p g s r, try_swap_random n p g s = Ok r -> try_swap_random (n + k) p g s = Ok r.
Proof.
  intros p g s r H. unfold try_swap_random in *. destruct (expects _); cbn [bind] in *; try discriminate.
  destruct (length s =? 1)%nat; [exact H|].
  destruct (draw_int n (size_minus (length s) 2) g) as [x| |] eqn:E; cbn [bind] in H; try discriminate.
  rewrite (int_more _ k _ _ _ E). exact H.
Qed.

Lemma agent_more : forall p g s r, update_agent_random n p g s = Ok r -> update_agent_random (n + k) p g s = Ok r.
Proof.
  intros p g s r H. unfold update_agent_random in *.
  destruct (expects (negb _)); cbn [bind] in *; try discriminate. destruct (expects _); cbn [bind] in *; try discriminate.
  destruct (draw_int n (size_minus (length s) 1) g) as [x| |] eqn:E; cbn [bind] in H; try discriminate.
  rewrite (int_more _ k _ _ _ E). cbn [bind].
  destruct (at_index s (Z.to_nat (fst x))) as [y| |]; cbn [bind] in *; try discriminate.
  destruct (row (sp_agents p) (it_task y)) as [av| |]; cbn [bind] in *; try discriminate.
  destruct (draw_int n (size_minus (length av) 1) (snd x)) as [z| |] eqn:E2; cbn [bind] in H; try discriminate.
  rewrite (int_more _ k _ _ _ E2). exact H.
Qed.

Lemma mutate_more : forall p g s r, mutate_random n p g s = Ok r -> mutate_random (n + k) p g s = Ok r.
Proof.
  intros p g s r H. unfold mutate_random in *. destruct (expects _); cbn [bind] in *; try discriminate.
  destruct (try_swap_random n p g s) as [x| |] eqn:E; cbn [bind] in H; try discriminate.
  rewrite (swap_more _ _ _ _ E). cbn [bind]. apply agent_more, H.
Qed.

Lemma update_more : forall o j g r, stun_update_random n o j g = Ok r -> stun_update_random (n + k) o j g = Ok r.
Proof.
  intros o j g r H. unfold stun_update_random in *. destruct (expects _); cbn [bind] in *; try discriminate.
  destruct (get_new_neighbor_random n j g) as [x| |] eqn:E; cbn [bind] in H; try discriminate.
  assert (E' : get_new_neighbor_random (n + k) j g = Ok x).
  { revert E. unfold get_new_neighbor_random. cbv zeta. intro E.
    destruct (expects (negb (length (st_current _) =? 0)%nat)); cbn [bind] in *; try discriminate.
    destruct (expects (negb (length (st_target _) =? 0)%nat)); cbn [bind] in *; try discriminate.
    destruct (expects (length _ =? _)%nat); cbn [bind] in *; try discriminate.
    destruct (mutate_random n (jb_mutator j) g (st_current (jb_stun j))) as [y| |] eqn:E2; cbn [bind] in E; try discriminate.
    rewrite (mutate_more _ _ _ _ E2). exact E. }
  rewrite E'. cbn [bind]. destruct (neighbor_is_better o _) as [y| |]; cbn [bind] in *; try discriminate.
  cbv zeta in *. destruct (fst y); [exact H|].
  destruct (draw_01 n (snd x)) as [u| |] eqn:EU; cbn [bind] in H; try discriminate.
  rewrite (unit_more _ k _ _ EU). exact H.
Qed.

Lemma search_more : forall o m j g r, search_random n o m j g = Ok r -> search_random (n + k) o m j g = Ok r.
Proof.
  induction m as [|m IH]; intros j g r H; cbn [search_random] in *; [exact H|].
  destruct (stun_update_random n o j g) as [x| |] eqn:E; cbn [bind] in H; try discriminate.
  rewrite (update_more _ _ _ _ E). cbn [bind]. apply IH, H.
Qed.
End More.
