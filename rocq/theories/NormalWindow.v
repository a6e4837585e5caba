(** * Normally distributed numbers are drawn in finite time: the loops *)

From Coq Require Import List ZArith Bool Arith Lia Reals Lra.
From Flocq Require Import Core BinarySingleNaN.
From Verif Require Import Base F32 F32Facts F32Signed NormaliseProofs SimulationModel RandomModel RandomSpec RandomProofs NormalModel
  NormalCount NormalFloats NormalEnds.
Import ListNotations.
Local Open Scope Z_scope.

Lemma steps_add : forall a b g, steps (a + b) g = steps b (steps a g).
Proof. induction a as [|a IH]; intros b g; [reflexivity|]. cbn [Nat.add steps]. apply IH. Qed.

(** The number drawn at a position. *)
Definition out (g : generator) (p : nat) : Z := pcg_output (gn_state (steps p g)).

Lemma draw_at : forall g p, draw (steps p g) = (out g p, steps (S p) g).
Proof. intros g p. rewrite steps_S. reflexivity. Qed.

Lemma out_range : forall g p, proper g -> 0 <= out g p < 2 ^ 32.
Proof. intros g p P. apply output_range, steps_proper, P. Qed.

Lemma window_found : forall g, proper g -> exists N, Z.of_nat N < 2 ^ 64 /\
  outside lo_0 hi_any (out g N) = false /\ outside lo_0 hi_any (out g (N + 1)) = false /\
  outside lo_0 hi_x (out g (N + 2)) = false /\ outside (lo_y hi_x) hi_x (out g (N + 3)) = false /\
  outside (lo_y hi_any) hi_any (out g (N + 4)) = false /\ outside lo_0 hi_n (out g (N + 5)) = false.
Proof.
  intros g P. destruct P as (P1 & P2 & P3).
  destruct (good_state (gn_inc g) window P2 P3 window_total) as (s & HS & G).
  destruct (full_period g s (conj P1 (conj P2 P3)) HS) as (N & HN & E).
  assert (Q : steps N g = from (gn_inc g) s).
  { pose proof (steps_inc N g) as I. destruct (steps N g) as [a b]. cbn [gn_state gn_inc] in E, I. rewrite E, I. reflexivity. }
  exists N. split; [exact HN|]. unfold out.
  rewrite !steps_add, !Q. unfold window in G. cbn [all_good] in G.
  rewrite !andb_true_iff, !negb_true_iff in G. destruct G as (A & B & C & D & F & H & _).
  repeat split; assumption.
Qed.

Lemma e_small : forall u, 0 <= u < 2 ^ 32 -> fin_in 0 9 (e_of u).
Proof.
  intros u U. unfold e_of. rewrite fraction_frac. apply scaled; [apply upper_range, U|apply exponential_x_small].
Qed.

Lemma zero_add : forall e, fin_in 0 9 e -> fin_in 0 9 (f_add f_zero e) /\ B2R (f_add f_zero e) = B2R e.
Proof.
  intros e [F B]. destruct zero_fin as [FZ EZ].
  destruct (add_fin f_zero e FZ F) as [A1 A2].
  - rewrite EZ, Rplus_0_l, Rabs_pos_eq by lra. apply Rle_trans with 16%R; [lra|]. change 16%R with (bpow radix2 4). apply bpow_le. lia.
  - assert (E : B2R (f_add f_zero e) = B2R e).
    { rewrite A2, EZ, Rplus_0_l. apply round_generic; [apply valid_rnd_N|apply generic_format_B2R]. }
    split; [|exact E]. split; [exact A1|]. rewrite E. exact B.
Qed.

Section Window.
  Context (exp : f32 -> f32) (g : generator) (P : proper g) (N : nat).
  Context (W0 : outside lo_0 hi_any (out g N) = false) (W1 : outside lo_0 hi_any (out g (N + 1)) = false)
    (W2 : outside lo_0 hi_x (out g (N + 2)) = false) (W3 : outside (lo_y hi_x) hi_x (out g (N + 3)) = false)
    (W4 : outside (lo_y hi_any) hi_any (out g (N + 4)) = false) (W5 : outside lo_0 hi_n (out g (N + 5)) = false).

  Lemma at_once : forall p, (N <= p <= N + 5)%nat -> out g p / 2 ^ 8 < hi_any (out g p mod 2 ^ 8).
  Proof.
    intros p H.
    assert (C : p = N \/ p = (N + 1)%nat \/ p = (N + 2)%nat \/ p = (N + 3)%nat \/ p = (N + 4)%nat \/ p = (N + 5)%nat) by lia.
    destruct C as [-> | [-> | [-> | [-> | [-> | ->]]]]].
    - apply (inside _ _ _ W0).
    - apply (inside _ _ _ W1).
    - apply x_good; [apply out_range, P|]. apply (inside _ _ _ W2).
    - apply x_good; [apply out_range, P|]. apply (inside _ _ _ W3).
    - apply (inside _ _ _ W4).
    - apply n_good; [apply out_range, P|]. apply (inside _ _ _ W5).
  Qed.

  Lemma uniform_ends : forall fuel p, (p <= N)%nat -> (N - p < fuel)%nat ->
    exists u q, draw_01 fuel (steps p g) = Ok (u, steps q g) /\ (p < q <= N + 1)%nat.
  Proof.
    induction fuel as [|fuel IH]; intros p H F; [lia|].
    cbn [draw_01]. rewrite draw_at. cbv beta iota zeta.
    destruct (f_lt (f_mul (f_of_Z (out g p)) unit_factor) f_one) eqn:L.
    - exists (f_mul (f_of_Z (out g p)) unit_factor), (S p). split; [reflexivity|lia].
    - assert (p <> N).
      { intros ->. destruct (any_good (out g N) (out_range g N P) (at_once N ltac:(lia))) as (_ & _ & A). congruence. }
      destruct (IH (S p)) as (u & q & E & Q); [lia|lia|]. exists u, q. split; [exact E|lia].
  Qed.

  Lemma exponential_ends : forall fuel shift p, (p <= N + 4)%nat -> (N + 3 - p <= fuel)%nat -> (1 <= fuel)%nat ->
    exists e q, draw_exponential fuel exp shift (steps p g) = Ok (e, steps q g) /\ (p < q)%nat /\
      ((p < N)%nat -> (q <= N + 2)%nat) /\ ((N <= p)%nat -> q = S p /\ e = f_add shift (e_of (out g p))).
  Proof.
    induction fuel as [|fuel IH]; intros shift p H F F1; [lia|].
    cbn [draw_exponential]. rewrite draw_at. cbv beta iota zeta. fold (e_of (out g p)).
    destruct (f_lt (e_of (out g p)) (float_at exponential_x (layer_of (out g p) + 1))) eqn:L.
    { exists (f_add shift (e_of (out g p))), (S p). repeat split; lia. }
    assert (LT : (p < N)%nat).
    { destruct (le_lt_dec N p) as [G|G]; [|exact G]. exfalso.
      destruct (any_good (out g p) (out_range g p P) (at_once p ltac:(lia))) as (A & _). congruence. }
    destruct (_ =? 0).
    { destruct (IH (f_add shift (float_at exponential_x 1)) (S p)) as (e & q & E & Q1 & Q2 & Q3); [lia|lia|lia|].
      exists e, q. split; [exact E|]. split; [lia|]. split; [|lia]. intros _.
      destruct (le_lt_dec N (S p)) as [G|G]; [|exact (Q2 G)]. destruct (Q3 G). lia. }
    destruct (uniform_ends fuel (S p)) as (u & q & E & Q); [lia|lia|]. rewrite E. cbn [bind fst snd].
    match goal with |- exists _ _, (if ?b then _ else _) = _ /\ _ => destruct b end.
    - exists (f_add (e_of (out g p)) shift), q. repeat split; lia.
    - destruct (IH shift q) as (e & q' & E' & Q1 & Q2 & Q3); [lia|lia|lia|].
      exists e, q'. split; [exact E'|]. split; [lia|]. split; [|lia]. intros _.
      destruct (le_lt_dec N q) as [G|G]; [|exact (Q2 G)]. destruct (Q3 G). lia.
  Qed.

  Lemma pair_ends : forall p, (p = N + 2 \/ p = N + 3)%nat ->
    let x := f_div (f_add f_zero (e_of (out g p))) (float_at normal_x 1) in
    let y := f_div (f_add f_zero (e_of (out g (S p)))) f_one in
    f_lt (f_mul x x) (f_mul (f_of_Z 2) y) = true.
  Proof.
    intros p H.
    pose proof (e_small (out g p) (out_range g p P)) as B1. pose proof (e_small (out g (S p)) (out_range g (S p) P)) as B2.
    destruct (zero_add _ B1) as [C1 E1]. destruct (zero_add _ B2) as [C2 E2].
    destruct (of_Z_exact 2) as [F2 _]; [lia|].
    assert (FB : is_finite b_y = true) by (vm_compute; reflexivity).
    apply pair_good; [exact C1|exact C2| |].
    - apply fin_lt; [apply C1|exact F2|]. rewrite E1. apply fin_lt; [apply B1|exact F2|].
      apply x_good; [apply out_range, P|]. destruct H as [-> | ->]; [apply (inside _ _ _ W2)|apply (inside _ _ _ W3)].
    - apply fin_lt; [exact FB|apply C2|]. rewrite E2. apply fin_lt; [exact FB|apply B2|].
      destruct H as [-> | ->].
      + replace (S (N + 2)) with (N + 3)%nat by lia. apply y_good with (hi := hi_x); [left; reflexivity|apply out_range, P|apply (inside _ _ _ W3)].
      + replace (S (N + 3)) with (N + 4)%nat by lia. apply y_good with (hi := hi_any); [right; reflexivity|apply out_range, P|apply (inside _ _ _ W4)].
  Qed.

  Lemma tail_ends : forall fuel p, (p <= N + 3)%nat -> (N + 5 - p <= fuel)%nat ->
    exists x q, draw_tail fuel exp (steps p g) = Ok (x, steps q g) /\ (p < q <= N + 5)%nat.
  Proof.
    induction fuel as [|fuel IH]; intros p H F; [lia|].
    cbn [draw_tail]. set (fuel1 := S fuel) in *.
    destruct (exponential_ends fuel1 f_zero p) as (e1 & q1 & D1 & A1 & A2 & A3); [lia|lia|lia|].
    rewrite D1. cbn [bind fst snd].
    assert (A4 : (q1 <= N + 4)%nat).
    { destruct (le_lt_dec N p) as [G|G]; [destruct (A3 G); lia|specialize (A2 G); lia]. }
    destruct (exponential_ends fuel1 f_zero q1) as (e2 & q2 & D2 & B1 & B2 & B3); [lia|lia|lia|].
    rewrite D2. cbn [bind fst snd]. cbv zeta.
    assert (B4 : (q2 <= N + 5)%nat).
    { destruct (le_lt_dec N q1) as [G|G]; [destruct (B3 G); lia|specialize (B2 G); lia]. }
    match goal with |- exists _ _, (if ?b then _ else _) = _ /\ _ => destruct b eqn:L end.
    - exists (f_add (f_div e1 (float_at normal_x 1)) (float_at normal_x 1)), q2. split; [reflexivity|lia].
    - assert (C : (q2 <= N + 3)%nat).
      { destruct (le_lt_dec q2 (N + 3)) as [G|G]; [exact G|]. exfalso.
        assert (GP : (N <= p)%nat) by (destruct (le_lt_dec N p) as [G1|G1]; [exact G1|]; specialize (A2 G1);
          destruct (le_lt_dec N q1) as [G2|G2]; [destruct (B3 G2); lia|specialize (B2 G2); lia]).
        destruct (A3 GP) as [-> ->]. destruct (B3 ltac:(lia)) as [-> ->].
        pose proof (pair_ends p ltac:(lia)) as K. cbv zeta in K. congruence. }
      destruct (IH q2) as (x & q & E & Q); [exact C|lia|]. exists x, q. split; [exact E|lia].
  Qed.

  Lemma unit_normal_ends : forall fuel p, (p <= N + 5)%nat -> (N + 6 - p <= fuel)%nat ->
    exists n q, draw_unit_normal fuel exp (steps p g) = Ok (n, steps q g) /\ (p < q)%nat /\
      ((p < N + 5)%nat -> (q <= N + 5)%nat) /\ (p = (N + 5)%nat -> q = (N + 6)%nat /\ (-1 <= B2R n)%R).
  Proof.
    induction fuel as [|fuel IH]; intros p H F; [lia|].
    cbn [draw_unit_normal]. rewrite draw_at. cbv beta iota zeta. fold (n_of (out g p)).
    destruct (f_lt (n_of (out g p)) (float_at normal_x (layer_of (out g p) / 2 + 1))) eqn:L.
    { exists (f_mul (n_of (out g p)) (f_of_Z (layer_of (out g p) mod 2 * 2 - 1))), (S p).
      split; [reflexivity|]. split; [lia|]. split; [lia|]. intros ->. split; [lia|].
      pose proof (out_range g (N + 5) P) as U. set (u := out g (N + 5)) in *.
      destruct (n_good u U) as [_ C]; [apply (inside _ _ _ W5)|].
      assert (B : fin_in 0 9 (n_of u)).
      { unfold n_of. rewrite fraction_frac. apply scaled; [apply upper_range, U|apply normal_x_small]. }
      assert (B' : fin_in 0 (IZR (2 ^ 28)) (n_of u)) by (apply fin_weaken with (3 := B); [lra|apply big_9]).
      destruct (signed (IZR (2 ^ 28)) (n_of u) (layer_of u mod 2 * 2 - 1)) as [_ V]; [apply big_28|apply big_28|exact B'|apply sign_cases|].
      rewrite V. destruct B as [FB B].
      destruct C as [C|C].
      - rewrite C. change (1 * 2 - 1) with 1. lra.
      - destruct one_fin as [F1 E1]. apply fin_lt in C; [|exact FB|exact F1]. rewrite E1 in C.
        destruct (sign_cases (layer_of u)) as [-> | ->]; lra. }
    assert (LT : (p < N)%nat).
    { destruct (le_lt_dec N p) as [G|G]; [|exact G]. exfalso.
      destruct (any_good (out g p) (out_range g p P) (at_once p ltac:(lia))) as (_ & A & _). congruence. }
    destruct (_ =? 0).
    { destruct (tail_ends fuel (S p)) as (t & q & E & Q); [lia|lia|]. rewrite E. cbn [bind fst snd].
      eexists; eexists; split; [reflexivity|]. repeat split; lia. }
    destruct (uniform_ends fuel (S p)) as (u & q & E & Q); [lia|lia|]. rewrite E. cbn [bind fst snd].
    match goal with |- exists _ _, (if ?b then _ else _) = _ /\ _ => destruct b end.
    - eexists; eexists; split; [reflexivity|]. repeat split; lia.
    - destruct (IH q) as (n & q' & E' & Q1 & Q2 & Q3); [lia|lia|]. exists n, q'. split; [exact E'|].
      split; [lia|]. split; [|lia]. intros _. apply Q2. lia.
  Qed.

  Context (lo hi : f32) (L1 : f_lt lo hi = true) (L2 : f_le f_zero lo = true).
  Context (V : forall n, fin_in (-1) (IZR (2 ^ 28)) n ->
    f_le (f_add (f_mul n (f_div (f_sub hi lo) (f_of_Z 4))) (midpoint lo hi)) f_zero = false).

  Lemma positive_ends : forall fuel p, (p <= N + 5)%nat -> (N + 6 - p <= fuel)%nat ->
    exists x q, positive_random fuel exp lo hi (steps p g) = Ok (x, steps q g) /\ (p < q <= N + 6)%nat.
  Proof.
    induction fuel as [|fuel IH]; intros p H F; [lia|].
    cbn [positive_random]. unfold draw_normal. rewrite L1, L2. cbn [expects bind]. cbv zeta.
    set (fuel1 := S fuel) in *.
    destruct (unit_normal_ends fuel1 p) as (n & q & E & Q1 & Q2 & Q3); [lia|lia|].
    rewrite E. cbn [bind fst snd].
    destruct (f_le _ f_zero) eqn:K.
    - assert (p <> N + 5)%nat.
      { intro Z. destruct (Q3 Z) as [_ Q3']. destruct (unit_normal_finite _ _ _ _ _ (steps_proper p g P) E) as [[FN BN] _].
        rewrite V in K; [discriminate|]. split; [exact FN|lra]. }
      destruct (IH q) as (x & q' & E' & Q'); [lia|lia|]. exists x, q'. split; [exact E'|lia].
    - eexists; eexists; split; [reflexivity|].
      split; [lia|]. destruct (le_lt_dec (N + 5) p) as [G|G]; [destruct (Q3 ltac:(lia)); lia|specialize (Q2 G); lia].
  Qed.
End Window.

(** ** More fuel *)

Lemma exponential_more : forall exp n k shift g r, draw_exponential n exp shift g = Ok r -> draw_exponential (n + k) exp shift g = Ok r.
Proof.
  intro exp. induction n as [|n IH]; intros k shift g r H; [discriminate|]. cbn [Nat.add draw_exponential] in *.
  destruct (draw g) as [u g1]. cbv zeta in *.
  destruct (f_lt _ _); [exact H|]. destruct (_ =? 0); [exact (IH _ _ _ _ H)|].
  destruct (draw_01 n g1) as [r1| |] eqn:D; try discriminate. rewrite (unit_more _ k _ _ D). cbn [bind] in *.
  match type of H with (if ?b then _ else _) = _ => destruct b end; [exact H|exact (IH _ _ _ _ H)].
Qed.

Lemma tail_more : forall exp n k g r, draw_tail n exp g = Ok r -> draw_tail (n + k) exp g = Ok r.
Proof.
  intro exp. induction n as [|n IH]; intros k g r H; [discriminate|].
  change (S n + k)%nat with (S (n + k)). cbn [draw_tail] in *.
  destruct (draw_exponential (S n) exp f_zero g) as [r1| |] eqn:D1; try discriminate.
  pose proof (exponential_more _ _ k _ _ _ D1) as D1'. change (S n + k)%nat with (S (n + k)) in D1'. rewrite D1'. cbn [bind] in *.
  destruct (draw_exponential (S n) exp f_zero (snd r1)) as [r2| |] eqn:D2; try discriminate.
  pose proof (exponential_more _ _ k _ _ _ D2) as D2'. change (S n + k)%nat with (S (n + k)) in D2'. rewrite D2'. cbn [bind] in *.
  cbv zeta in *. destruct (f_lt _ _); [exact H|exact (IH _ _ _ H)].
Qed.

Lemma unit_normal_more : forall exp n k g r, draw_unit_normal n exp g = Ok r -> draw_unit_normal (n + k) exp g = Ok r.
Proof.
  intro exp. induction n as [|n IH]; intros k g r H; [discriminate|]. cbn [Nat.add draw_unit_normal] in *.
  destruct (draw g) as [u g1]. cbv zeta in *.
  destruct (f_lt _ _); [exact H|]. destruct (_ =? 0).
  { destruct (draw_tail n exp g1) as [r1| |] eqn:D; try discriminate. rewrite (tail_more _ _ k _ _ D). exact H. }
  destruct (draw_01 n g1) as [r1| |] eqn:D; try discriminate. rewrite (unit_more _ k _ _ D). cbn [bind] in *.
  match type of H with (if ?b then _ else _) = _ => destruct b end; [exact H|exact (IH _ _ _ H)].
Qed.

Lemma normal_more : forall exp n k lo hi g r, draw_normal n exp lo hi g = Ok r -> draw_normal (n + k) exp lo hi g = Ok r.
Proof.
  intros exp n k lo hi g r H. unfold draw_normal in *. destruct (f_lt lo hi); [|discriminate]. destruct (f_le f_zero lo); [|discriminate].
  cbn [expects bind] in *. cbv zeta in *. destruct (draw_unit_normal n exp g) as [r1| |] eqn:D; try discriminate.
  rewrite (unit_normal_more _ _ k _ _ D). exact H.
Qed.

Lemma positive_more : forall exp n k lo hi g r, positive_random n exp lo hi g = Ok r -> positive_random (n + k) exp lo hi g = Ok r.
Proof.
  intros exp n k lo hi. induction n as [|n IH]; intros g r H; [discriminate|].
  change (S n + k)%nat with (S (n + k)). cbn [positive_random] in *.
  destruct (draw_normal (S n) exp lo hi g) as [r1| |] eqn:D; try discriminate.
  pose proof (normal_more _ _ k _ _ _ _ D) as D'. change (S n + k)%nat with (S (n + k)) in D'. rewrite D'. cbn [bind] in *.
  destruct (f_le _ _); [exact (IH _ _ H)|exact H].
Qed.

(** ** No contract is broken *)

Lemma uniform_never_breaks : forall n g, draw_01 n g <> Broken.
Proof.
  induction n as [|n IH]; intros g H; [discriminate H|]. cbn [draw_01] in H. destruct (draw g) as [u g1]. cbv zeta in H.
  destruct (f_lt _ _); [discriminate H|exact (IH _ H)].
Qed.

Lemma exponential_never_breaks : forall exp n shift g, draw_exponential n exp shift g <> Broken.
Proof.
  intro exp. induction n as [|n IH]; intros shift g H; [discriminate H|]. cbn [draw_exponential] in H.
  destruct (draw g) as [u g1]. cbv zeta in H. destruct (f_lt _ _); [discriminate H|]. destruct (_ =? 0); [exact (IH _ _ H)|].
  destruct (draw_01 n g1) as [r| |] eqn:D; [|exact (uniform_never_breaks _ _ D)|discriminate H]. cbn [bind] in H.
  match type of H with (if ?b then _ else _) = _ => destruct b end; [discriminate H|exact (IH _ _ H)].
Qed.

Lemma tail_never_breaks : forall exp n g, draw_tail n exp g <> Broken.
Proof.
  intro exp. induction n as [|n IH]; intros g H; [discriminate H|]. cbn [draw_tail] in H. set (fuel1 := S n) in *.
  destruct (draw_exponential fuel1 exp f_zero g) as [r1| |] eqn:D1; [|exact (exponential_never_breaks _ _ _ _ D1)|discriminate H]. cbn [bind] in H.
  destruct (draw_exponential fuel1 exp f_zero (snd r1)) as [r2| |] eqn:D2; [|exact (exponential_never_breaks _ _ _ _ D2)|discriminate H].
  cbn [bind] in H. cbv zeta in H. destruct (f_lt _ _); [discriminate H|exact (IH _ H)].
Qed.

Lemma unit_normal_never_breaks : forall exp n g, draw_unit_normal n exp g <> Broken.
Proof.
  intro exp. induction n as [|n IH]; intros g H; [discriminate H|]. cbn [draw_unit_normal] in H.
  destruct (draw g) as [u g1]. cbv zeta in H. destruct (f_lt _ _); [discriminate H|]. destruct (_ =? 0).
  { destruct (draw_tail n exp g1) as [r| |] eqn:D; [discriminate H|exact (tail_never_breaks _ _ _ D)|discriminate H]. }
  destruct (draw_01 n g1) as [r| |] eqn:D; [|exact (uniform_never_breaks _ _ D)|discriminate H]. cbn [bind] in H.
  match type of H with (if ?b then _ else _) = _ => destruct b end; [discriminate H|exact (IH _ H)].
Qed.
