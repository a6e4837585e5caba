(** * Counting states of the generator: a window of six good numbers *)

From Coq Require Import List ZArith Bool Arith Lia.
From Verif Require Import Base RandomModel RandomSpec RandomProofs.
Import ListNotations.
Local Open Scope Z_scope.

Definition below (n : Z) : list Z := map Z.of_nat (seq 0 (Z.to_nat n)).

Lemma in_below : forall n z, In z (below n) <-> 0 <= z < n.
Proof.
  intros n z. unfold below. rewrite in_map_iff. split.
  - intros (k & <- & H). apply in_seq in H. lia.
  - intro H. exists (Z.to_nat z). split; [lia|]. apply in_seq. lia.
Qed.

Lemma nodup_below : forall n, NoDup (below n).
Proof.
  intro n. unfold below. apply FinFun.Injective_map_NoDup; [|apply seq_NoDup].
  intros x y H. apply Nat2Z.inj, H.
Qed.

Lemma length_below : forall n, length (below n) = Z.to_nat n.
Proof. intro n. unfold below. rewrite map_length, seq_length. reflexivity. Qed.

Lemma length_below_Z : forall n, 0 <= n -> Z.of_nat (length (below n)) = n.
Proof. intros n H. rewrite length_below. apply Z2Nat.id, H. Qed.

Opaque below.

Lemma below_in : forall n z, 0 <= z < n -> In z (below n).
Proof. intros n z H. exact (proj2 (in_below n z) H). Qed.

Lemma below_out : forall n z, In z (below n) -> 0 <= z < n.
Proof. intros n z H. exact (proj1 (in_below n z) H). Qed.

Lemma filter_in : forall (f : Z -> bool) l x, In x l -> f x = true -> In x (filter f l).
Proof. intros f l x A B. exact (proj2 (filter_In f x l) (conj A B)). Qed.

Lemma filter_out : forall (f : Z -> bool) l x, In x (filter f l) -> In x l /\ f x = true.
Proof. intros f l x H. exact (proj1 (filter_In f x l) H). Qed.

Lemma nodup_map : forall (A B : Type) (f : A -> B) l, NoDup l ->
  (forall x y, In x l -> In y l -> f x = f y -> x = y) -> NoDup (map f l).
Proof.
  induction l as [|x l IH]; intros N I; cbn; [constructor|].
  inversion N as [|? ? H1 H2]; subst. constructor.
  - rewrite in_map_iff. intros (y & E & H). apply I in E; [|right; exact H|left; reflexivity]. subst y. apply H1, H.
  - apply IH; [exact H2|]. intros a b Ha Hb. apply I; right; assumption.
Qed.

(** An injective map into a list. *)
Lemma pigeons : forall (A B : Type) (f : A -> B) l l', NoDup l ->
  (forall x y, In x l -> In y l -> f x = f y -> x = y) -> (forall x, In x l -> In (f x) l') ->
  (length l <= length l')%nat.
Proof.
  intros A B f l l' N I H. rewrite <- (map_length f l). apply NoDup_incl_length; [apply nodup_map; assumption|].
  intros y Hy. apply in_map_iff in Hy. destruct Hy as (x & <- & Hx). apply H, Hx.
Qed.

(** ** States *)

Lemma mult_inverse : pcg_mult * 13877824140714322085 = 1 + 4787856489426250814 * 2 ^ 64.
Proof. reflexivity. Qed.

Lemma step_injective : forall c x y, 0 <= x < 2 ^ 64 -> 0 <= y < 2 ^ 64 ->
  gn_state (pcg_step {| gn_state := x; gn_inc := c |}) = gn_state (pcg_step {| gn_state := y; gn_inc := c |}) -> x = y.
Proof.
  intros c x y X Y H. cbn [pcg_step gn_state gn_inc] in H.
  assert (D : (2 ^ 64 | (x - y) * pcg_mult)).
  { replace ((x - y) * pcg_mult) with ((x * pcg_mult + c) - (y * pcg_mult + c)) by ring.
    apply Z.mod_divide; [lia|]. rewrite Zminus_mod, H, Z.sub_diag. reflexivity. }
  apply cong_eq; [|exact X|exact Y]. destruct D as (d & D). unfold cong. change (Z.of_nat 64) with 64.
  exists (d * 13877824140714322085 - (x - y) * 4787856489426250814).
  pose proof mult_inverse as I.
  assert (E : (x - y) * (pcg_mult * 13877824140714322085) = d * 2 ^ 64 * 13877824140714322085) by (rewrite Z.mul_assoc, D; reflexivity).
  rewrite I in E. lia.
Qed.

Definition from (c x : Z) : generator := {| gn_state := x; gn_inc := c |}.

Lemma steps_injective : forall n c x y, 0 <= x < 2 ^ 64 -> 0 <= y < 2 ^ 64 ->
  gn_state (steps n (from c x)) = gn_state (steps n (from c y)) -> x = y.
Proof.
  induction n as [|n IH]; intros c x y X Y H; [exact H|].
  cbn [steps] in H. apply (step_injective c); [exact X|exact Y|]. apply (IH c).
  - cbn. apply Z.mod_pos_bound. lia.
  - cbn. apply Z.mod_pos_bound. lia.
  - exact H.
Qed.

Definition rest_of (s : Z) : Z := s / 2 ^ 59 * 2 ^ 27 + s mod 2 ^ 27.

Lemma rest_compose : forall r m l, 0 <= r < 32 -> 0 <= m < 2 ^ 32 -> 0 <= l < 2 ^ 27 ->
  rest_of (compose r m l) = r * 2 ^ 27 + l.
Proof.
  intros r m l R M L. unfold rest_of, compose.
  assert (E1 : (r * 2 ^ 59 + m * 2 ^ 27 + l) / 2 ^ 59 = r) by (symmetry; apply Z.div_unique_pos with (m * 2 ^ 27 + l); lia).
  assert (E2 : (r * 2 ^ 59 + m * 2 ^ 27 + l) mod 2 ^ 27 = l).
  { symmetry. apply Z.mod_unique_pos with (r * 2 ^ 32 + m); [lia|]. change (2 ^ 59) with (2 ^ 32 * 2 ^ 27). ring. }
  rewrite E1, E2. reflexivity.
Qed.

Lemma output_rest_injective : forall s t, 0 <= s < 2 ^ 64 -> 0 <= t < 2 ^ 64 ->
  pcg_output s = pcg_output t -> rest_of s = rest_of t -> s = t.
Proof.
  intros s t S T O H. pose proof (output_range s S) as RS.
  destruct (decompose s S) as (r & m & l & R & M & L & ->). destruct (decompose t T) as (r' & m' & l' & R' & M' & L' & ->).
  rewrite !rest_compose in H by assumption.
  assert (r = r') by nia. subst r'. assert (l = l') by lia. subst l'.
  destruct (output_unique r l (pcg_output (compose r m l)) R L RS) as (m0 & _ & _ & U).
  rewrite (U m M eq_refl), (U m' M' (eq_sym O)). reflexivity.
Qed.

(** States whose [k]-th number is bad. *)
Definition bad_states (c : Z) (bad : Z -> bool) (k : nat) : list Z :=
  filter (fun s => bad (pcg_output (gn_state (steps k (from c s))))) (below (2 ^ 64)).

Lemma in_bad_states : forall c bad k s, In s (bad_states c bad k) <->
  0 <= s < 2 ^ 64 /\ bad (pcg_output (gn_state (steps k (from c s)))) = true.
Proof. intros c bad k s. unfold bad_states. rewrite filter_In, in_below. reflexivity. Qed.

Lemma from_proper : forall c s, 0 <= c < 2 ^ 64 -> Z.odd c = true -> 0 <= s < 2 ^ 64 -> proper (from c s).
Proof. intros c s C O S. split; [exact S|]. split; assumption. Qed.

Lemma bad_states_few : forall c bad k, 0 <= c < 2 ^ 64 -> Z.odd c = true ->
  Z.of_nat (length (bad_states c bad k)) <= 2 ^ 32 * Z.of_nat (length (filter bad (below (2 ^ 32)))).
Proof.
  intros c bad k C O.
  assert (L : (length (bad_states c bad k) <= length (list_prod (filter bad (below (2 ^ 32))) (below (2 ^ 32))))%nat).
  { apply pigeons with (f := fun s => let t := gn_state (steps k (from c s)) in (pcg_output t, rest_of t)).
    - unfold bad_states. apply NoDup_filter, nodup_below.
    - intros x y X Y H. destruct (proj1 (in_bad_states _ _ _ _) X) as [X1 _]. destruct (proj1 (in_bad_states _ _ _ _) Y) as [Y1 _]. clear X Y. rename X1 into X, Y1 into Y.
      apply (steps_injective k c); [exact X|exact Y|]. cbv zeta in H. injection H as H1 H2.
      apply output_rest_injective; [apply steps_proper, from_proper; assumption|apply steps_proper, from_proper; assumption|exact H1|exact H2].
    - intros x X0. destruct (proj1 (in_bad_states _ _ _ _) X0) as [X B]. clear X0. cbv zeta.
      assert (P : 0 <= gn_state (steps k (from c x)) < 2 ^ 64) by (apply steps_proper, from_proper; assumption).
      apply in_prod; [apply filter_in; [apply below_in, output_range, P|exact B]|].
      apply below_in. unfold rest_of.
      assert (0 <= gn_state (steps k (from c x)) / 2 ^ 59 < 32) by (split; [apply Z.div_pos; lia|apply Z.div_lt_upper_bound; lia]).
      pose proof (Z.mod_pos_bound (gn_state (steps k (from c x))) (2 ^ 27)). lia. }
  rewrite prod_length, length_below in L. apply Nat2Z.inj_le in L. rewrite Nat2Z.inj_mul, Z2Nat.id in L by lia. lia.
Qed.

(** If the bad numbers for the positions of [bads] are fewer than the
    numbers of the generator, there is a state from which all positions are
    good. *)
Fixpoint all_good (c : Z) (k : nat) (bads : list (Z -> bool)) (s : Z) : bool :=
  match bads with
  | [] => true
  | bad :: bads' => negb (bad (pcg_output (gn_state (steps k (from c s))))) && all_good c (S k) bads' s
  end.

Fixpoint bad_total (bads : list (Z -> bool)) : Z :=
  match bads with [] => 0 | bad :: bads' => Z.of_nat (length (filter bad (below (2 ^ 32)))) + bad_total bads' end.

Lemma not_all_good : forall c bads k s, all_good c k bads s = false -> 0 <= s < 2 ^ 64 ->
  exists j bad, nth_error bads j = Some bad /\ In s (bad_states c bad (k + j)).
Proof.
  induction bads as [|bad bads IH]; intros k s H HS; cbn [all_good] in H; [discriminate|].
  apply andb_false_iff in H. destruct H as [H|H].
  - exists O, bad. split; [reflexivity|]. rewrite Nat.add_0_r. apply (proj2 (in_bad_states _ _ _ _)). split; [exact HS|].
    apply negb_false_iff, H.
  - destruct (IH (S k) s H HS) as (j & b & E & I). exists (S j), b. split; [exact E|]. rewrite <- Nat.add_succ_comm. exact I.
Qed.

Fixpoint bad_lists (c : Z) (k : nat) (bads : list (Z -> bool)) : list Z :=
  match bads with [] => [] | bad :: bads' => bad_states c bad k ++ bad_lists c (S k) bads' end.

Lemma bad_lists_length : forall c bads k, 0 <= c < 2 ^ 64 -> Z.odd c = true ->
  Z.of_nat (length (bad_lists c k bads)) <= 2 ^ 32 * bad_total bads.
Proof.
  intros c bads. induction bads as [|bad bads IH]; intros k C O; cbn [bad_lists bad_total]; [cbn; lia|].
  rewrite app_length, Nat2Z.inj_add. specialize (IH (S k) C O). pose proof (bad_states_few c bad k C O). lia.
Qed.

Lemma in_bad_lists : forall c bads k j bad s, nth_error bads j = Some bad -> In s (bad_states c bad (k + j)) ->
  In s (bad_lists c k bads).
Proof.
  intros c bads. induction bads as [|b bads IH]; intros k j bad s E I; [destruct j; discriminate E|].
  cbn [bad_lists]. apply in_or_app. destruct j as [|j]; cbn [nth_error] in E.
  - left. injection E as ->. rewrite Nat.add_0_r in I. exact I.
  - right. apply (IH (S k) j bad); [exact E|]. rewrite Nat.add_succ_comm. exact I.
Qed.

Lemma good_state : forall c bads, 0 <= c < 2 ^ 64 -> Z.odd c = true -> bad_total bads < 2 ^ 32 ->
  exists s, 0 <= s < 2 ^ 64 /\ all_good c 0 bads s = true.
Proof.
  intros c bads C O B.
  destruct (filter (all_good c 0 bads) (below (2 ^ 64))) as [|s l] eqn:E.
  - exfalso.
    assert (L : (length (below (2 ^ 64)) <= length (bad_lists c 0 bads))%nat).
    { apply NoDup_incl_length; [apply nodup_below|]. intros s HS.
      destruct (all_good c 0 bads s) eqn:G.
      - exfalso. assert (I : In s (filter (all_good c 0 bads) (below (2 ^ 64)))) by (apply filter_in; assumption).
        rewrite E in I. destruct I.
      - apply below_out in HS. destruct (not_all_good c bads 0 s G HS) as (j & bad & N & I).
        exact (in_bad_lists c bads 0 j bad s N I). }
    apply Nat2Z.inj_le in L. rewrite length_below_Z in L by lia.
    pose proof (bad_lists_length c bads 0 C O). lia.
  - assert (I : In s (filter (all_good c 0 bads) (below (2 ^ 64)))) by (rewrite E; left; reflexivity).
    apply filter_out in I. destruct I as [I G]. apply below_out in I. exists s. auto.
Qed.

(** ** Numbers: intervals of the upper 24 bits for each value of the lower 8 *)

Definition outside (lo hi : Z -> Z) (u : Z) : bool :=
  negb ((lo (u mod 2 ^ 8) <=? u / 2 ^ 8) && (u / 2 ^ 8 <? hi (u mod 2 ^ 8))).

Fixpoint sum_over (f : Z -> Z) (l : list Z) : Z :=
  match l with [] => 0 | x :: l' => f x + sum_over f l' end.

Definition misses (lo hi : Z -> Z) (i : Z) : Z := lo i + (2 ^ 24 - hi i).

Lemma outside_count : forall lo hi,
  forallb (fun i => (0 <=? lo i) && (hi i <=? 2 ^ 24)) (below (2 ^ 8)) = true ->
  Z.of_nat (length (filter (outside lo hi) (below (2 ^ 32)))) <= sum_over (misses lo hi) (below (2 ^ 8)).
Proof.
  intros lo hi V. rewrite forallb_forall in V.
  assert (V' : forall i, In i (below (2 ^ 8)) -> 0 <= lo i /\ hi i <= 2 ^ 24).
  { intros i I. specialize (V i I). apply andb_true_iff in V. destruct V as [A B]. apply Z.leb_le in A, B. auto. }
  set (part := fun i => map (pair i) (below (lo i) ++ map (Z.add (hi i)) (below (2 ^ 24 - hi i)))).
  assert (L : (length (filter (outside lo hi) (below (2 ^ 32))) <= length (flat_map part (below (2 ^ 8))))%nat).
  { apply pigeons with (f := fun u => (u mod 2 ^ 8, u / 2 ^ 8)).
    - apply NoDup_filter, nodup_below.
    - intros x y _ _ H. pose proof (f_equal fst H) as H1. pose proof (f_equal snd H) as H2. cbn [fst snd] in H1, H2.
      rewrite (Z.div_mod x (2 ^ 8)), (Z.div_mod y (2 ^ 8)), H1, H2 by lia. reflexivity.
    - intros u U. apply filter_out in U. destruct U as [U O]. apply below_out in U.
      pose proof (Z.mod_pos_bound u (2 ^ 8)) as M. apply in_flat_map. exists (u mod 2 ^ 8).
      split; [apply below_in; lia|]. unfold part. apply in_map, in_or_app.
      assert (Q : 0 <= u / 2 ^ 8 < 2 ^ 24) by (split; [apply Z.div_pos; lia|apply Z.div_lt_upper_bound; lia]).
      unfold outside in O. apply negb_true_iff, andb_false_iff in O. destruct O as [O|O].
      + apply Z.leb_gt in O. left. apply below_in. lia.
      + apply Z.ltb_ge in O. right. apply in_map_iff. exists (u / 2 ^ 8 - hi (u mod 2 ^ 8)). split; [lia|].
        apply below_in. lia. }
  apply Nat2Z.inj_le in L. etransitivity; [exact L|]. clear L. revert V'. generalize (below (2 ^ 8)) as l.
  induction l as [|i l IH]; intro W; cbn [flat_map sum_over]; [cbn; lia|].
  rewrite app_length, Nat2Z.inj_add. specialize (IH (fun j J => W j (or_intror J))).
  destruct (W i (or_introl eq_refl)) as [W1 W2].
  assert (E : Z.of_nat (length (part i)) = misses lo hi i).
  { unfold part, misses. rewrite map_length, app_length, map_length, Nat2Z.inj_add, !length_below_Z by lia. reflexivity. }
  lia.
Qed.
