(** * Proofs about the quantile estimator *)

From Coq Require Import List ZArith Bool Arith Reals Lia Lra Sorting.Sorted.
From Flocq Require Import Core BinarySingleNaN.
From Verif Require Import Base F32 F32Facts F32Signed MakespanProofs TemperatureProofs PSquareModel PSquareSpec PSquareFloats.
Import ListNotations.

Local Open Scope R_scope.

Lemma markers : marker_count = 13%nat.
Proof. reflexivity. Qed.

(** Samples whose differences do not overflow. *)
Definition good (x : f32) : Prop := is_finite x = true /\ Rabs (B2R x) <= bpow radix2 100.

Definition height (st : estimator) (i : nat) : f32 := nth i (es_heights st) f_zero.
Definition actual (st : estimator) (i : nat) : f32 := nth i (es_actual st) f_zero.
Definition desired (st : estimator) (i : nat) : f32 := nth i (es_desired st) f_zero.

(** What holds of an estimator that has seen enough samples. *)
Definition shape (st : estimator) : Prop :=
  length (es_heights st) = 13%nat /\ length (es_actual st) = 13%nat /\ length (es_desired st) = 13%nat /\
  (forall i, (i < 13)%nat -> good (height st i)) /\
  (forall i, (i < 12)%nat -> B2R (height st i) <= B2R (height st (S i))) /\
  (forall i, (i < 13)%nat -> exists z, (1 <= z <= 2 ^ 24)%Z /\ whole z (actual st i)) /\
  (forall i, (i < 13)%nat -> in_range (desired st i)).

(** The positions are different. *)
Definition distinct (st : estimator) : Prop :=
  forall i, (i < 12)%nat -> B2R (actual st i) < B2R (actual st (S i)).

Lemma at_nth : forall A (l : list A) i d, (i < length l)%nat -> at_index l i = Ok (nth i l d).
Proof. intros A l i d H. unfold at_index. rewrite (nth_error_nth_lt A l i d H). reflexivity. Qed.

Lemma set_len : forall A (l : list A) i a, length (set_nth l i a) = length l.
Proof. intros A l. induction l as [|x l IH]; intros [|i] a; cbn; auto. Qed.

Lemma good_between : forall lo hi x : f32, good lo -> good hi -> is_finite x = true -> B2R lo <= B2R x <= B2R hi -> good x.
Proof.
  intros lo hi x [_ A] [_ B] F L. split; [exact F|]. apply Rabs_le_inv in A, B. apply Rabs_le. lra.
Qed.

(** Moving one marker between its neighbours. *)
Lemma moved : forall st i h a st', shape st -> (1 <= i <= 11)%nat ->
  st' = {| es_count := es_count st; es_heights := set_nth (es_heights st) i h;
           es_actual := set_nth (es_actual st) i a; es_desired := es_desired st |} ->
  is_finite h = true -> B2R (height st (i - 1)) <= B2R h <= B2R (height st (S i)) ->
  (exists z, (1 <= z <= 2 ^ 24)%Z /\ whole z a) ->
  (distinct st -> B2R (actual st (i - 1)) < B2R a < B2R (actual st (S i))) ->
  shape st' /\ es_count st' = es_count st /\
  (forall k, k = 0%nat \/ k = 12%nat -> height st' k = height st k /\ actual st' k = actual st k) /\
  (distinct st -> distinct st').
Proof.
  intros st i h a st' (L1 & L2 & L3 & G & A & P & D) I -> F B W DI. unfold height, actual, desired in *. cbn [es_count es_heights es_actual es_desired] in *.
  assert (EH : forall k, nth k (set_nth (es_heights st) i h) f_zero = if (k =? i)%nat then h else nth k (es_heights st) f_zero)
    by (intro k; apply nth_set_nth; lia).
  assert (EA : forall k, nth k (set_nth (es_actual st) i a) f_zero = if (k =? i)%nat then a else nth k (es_actual st) f_zero)
    by (intro k; apply nth_set_nth; lia).
  split; [|split; [|split]].
  - unfold shape, height, actual, desired. cbn [es_count es_heights es_actual es_desired].
    rewrite !set_len. repeat (split; [assumption|]).
    split; [|split; [|split]].
    + intros k Hk. rewrite EH. destruct (Nat.eqb_spec k i) as [->|N]; [|apply G, Hk].
      apply good_between with (nth (i - 1) (es_heights st) f_zero) (nth (S i) (es_heights st) f_zero); auto; apply G; lia.
    + intros k Hk. rewrite !EH. destruct (Nat.eqb_spec k i) as [->|N].
      * destruct (Nat.eqb_spec (S i) i); [lia|]. apply B.
      * destruct (Nat.eqb_spec (S k) i) as [E|N2]; [|apply A, Hk].
        replace k with (i - 1)%nat by lia. apply B.
    + intros k Hk. rewrite EA. destruct (Nat.eqb_spec k i) as [->|N]; [exact W|apply P, Hk].
    + exact D.
  - reflexivity.
  - intros k Hk. unfold height, actual. cbn [es_heights es_actual]. rewrite EH, EA.
    destruct (Nat.eqb_spec k i); [lia|]. split; reflexivity.
  - intros DS. specialize (DI DS). unfold distinct, actual in *. cbn [es_actual]. intros k Hk. rewrite !EA.
    destruct (Nat.eqb_spec k i) as [->|N].
    + destruct (Nat.eqb_spec (S i) i); [lia|]. apply DI.
    + destruct (Nat.eqb_spec (S k) i) as [E|N2]; [|apply DS, Hk].
      replace k with (i - 1)%nat by lia. apply DI.
Qed.

Lemma opp_one : is_finite (Bopp f_one) = true /\ B2R (Bopp f_one) = -1.
Proof. rewrite is_finite_Bopp, B2R_Bopp. destruct one_fin as [F E]. rewrite E. split; [exact F|ring]. Qed.

Lemma adjust_ok : forall st i, shape st -> (1 <= i <= 11)%nat -> exists st', adjust_marker st i = Ok st' /\
  shape st' /\ es_count st' = es_count st /\
  (forall k, k = 0%nat \/ k = 12%nat -> height st' k = height st k /\ actual st' k = actual st k) /\
  (distinct st -> distinct st').
Proof.
  intros st i SH I. pose proof SH as (L1 & L2 & L3 & G & A & P & D). unfold adjust_marker.
  rewrite (at_nth _ (es_desired st) i f_zero) by lia. cbn [bind].
  rewrite (at_nth _ (es_actual st) (i - 1) f_zero) by lia. cbn [bind].
  rewrite (at_nth _ (es_actual st) i f_zero) by lia. cbn [bind].
  rewrite (at_nth _ (es_actual st) (i + 1) f_zero) by lia. cbn [bind].
  rewrite (at_nth _ (es_heights st) (i - 1) f_zero) by lia. cbn [bind].
  rewrite (at_nth _ (es_heights st) i f_zero) by lia. cbn [bind].
  rewrite (at_nth _ (es_heights st) (i + 1) f_zero) by lia. cbn [bind].
  replace (i + 1)%nat with (S i) by lia.
  fold (desired st i) (actual st (i - 1)) (actual st i) (actual st (S i)) (height st (i - 1)) (height st i) (height st (S i)).
  pose proof (G (i - 1)%nat ltac:(lia)) as G0. pose proof (G i ltac:(lia)) as G1. pose proof (G (S i) ltac:(lia)) as G2.
  pose proof (A i ltac:(lia)) as A12.
  assert (A01 : B2R (height st (i - 1)) <= B2R (height st i)).
  { pose proof (A (i - 1)%nat ltac:(lia)) as X. replace (S (i - 1)) with i in X by lia. exact X. }
  destruct (P (i - 1)%nat ltac:(lia)) as (z0 & Z0 & W0). destruct (P i ltac:(lia)) as (z1 & Z1 & W1).
  destruct (P (S i) ltac:(lia)) as (z2 & Z2 & W2). pose proof (D i ltac:(lia)) as DI.
  set (want := desired st i) in *. set (a0 := actual st (i - 1)) in *. set (a1 := actual st i) in *.
  set (a2 := actual st (S i)) in *. set (h0 := height st (i - 1)) in *. set (h1 := height st i) in *.
  set (h2 := height st (S i)) in *.
  assert (FD : is_finite (f_sub want a1) = true).
  { destruct DI as [Fw Rw]. destruct W1 as [F1 E1]. apply (sub_fin want a1 Fw F1). rewrite E1.
    apply Rle_trans with (bpow radix2 25); [|apply bpow_le; lia]. change (bpow radix2 25) with (IZR (2 ^ 25)).
    assert (X1 : 1 <= IZR z1 <= IZR (2 ^ 24)) by (split; apply IZR_le; lia).
    assert (X2 : IZR (2 ^ 25) = 2 * IZR (2 ^ 24)) by (rewrite <- mult_IZR; reflexivity).
    apply Rabs_le. lra. }
  pose proof (whole_sub z2 z1 a2 a1 W2 W1 Z2 Z1) as WP. pose proof (whole_sub z0 z1 a0 a1 W0 W1 Z0 Z1) as WM.
  set (d := f_sub want a1) in *. set (dp := f_sub a2 a1) in *. set (dm := f_sub a0 a1) in *.
  destruct one_fin as [FO EO]. destruct opp_one as [FN EN].
  set (h := fun s => f_add h1 (f_mul (f_div s (f_sub dp dm)) (f_add (f_mul (f_sub s dm) (f_div (f_sub h2 h1) dp)) (f_mul (f_sub dp s) (f_div (f_sub h0 h1) dm))))).
  assert (PAR : forall s, f_lt h0 (h s) && f_lt (h s) h2 = true ->
    is_finite (h s) = true /\ B2R h0 <= B2R (h s) <= B2R h2).
  { intros s HB. apply andb_prop in HB. destruct HB as [B1 B2].
    assert (LE : forall x y, f_lt x y = true -> f_le x y = true).
    { intros x y H. destruct (lt_num _ _ H) as [N1 N2]. rewrite lt_key in H by assumption. rewrite le_key by assumption.
      apply Z.ltb_lt in H. apply Z.leb_le. lia. }
    apply between_fin; [apply G0|apply G2|apply LE, B1|apply LE, B2]. }
  destruct (f_le f_one d && f_lt f_one dp) eqn:C1.
  - cbn [orb]. apply andb_prop in C1. destruct C1 as [C1 C2].
    apply (fin_le _ _ FO FD) in C1. rewrite EO in C1. apply (fin_lt _ _ FO (proj1 WP)) in C2. rewrite EO, (proj2 WP) in C2.
    apply lt_IZR in C2.
    destruct (sign_plus d FD C1) as (s & -> & WS). cbn [bind]. eexists. split; [reflexivity|].
    assert (WA : whole (z1 + 1) (f_add a1 s)) by (apply whole_add; [exact W1|exact WS|lia]).
    eapply moved with (i := i); [exact SH|exact I|reflexivity| | |exists (z1 + 1)%Z; split; [lia|exact WA]|].
    + fold (h s). destruct (f_lt h0 (h s) && f_lt (h s) h2) eqn:B; [apply PAR, B|].
      destruct (f_lt f_zero d) eqn:B1.
      * destruct (f_lt d f_zero) eqn:B2.
        { apply (fin_lt d f_zero FD eq_refl) in B2. change (B2R f_zero) with 0 in B2. lra. }
        apply (line_up h1 h2 dp (z2 - z1)); [apply G1|apply G2|exact WP|lia|exact A12|apply G1|apply G2].
      * assert (X : f_lt f_zero d = true) by (apply (fin_lt f_zero d eq_refl FD); change (B2R f_zero) with 0; lra). congruence.
    + fold (h s). destruct (f_lt h0 (h s) && f_lt (h s) h2) eqn:B; [apply PAR, B|].
      destruct (f_lt f_zero d) eqn:B1.
      * destruct (f_lt d f_zero) eqn:B2.
        { apply (fin_lt d f_zero FD eq_refl) in B2. change (B2R f_zero) with 0 in B2. lra. }
        destruct (line_up h1 h2 dp (z2 - z1)) as [_ X]; [apply G1|apply G2|exact WP|lia|exact A12|apply G1|apply G2|].
        fold h0 h2. lra.
      * assert (X : f_lt f_zero d = true) by (apply (fin_lt f_zero d eq_refl FD); change (B2R f_zero) with 0; lra). congruence.
    + intros DS. assert (Y : B2R a0 < B2R a1).
      { pose proof (DS (i - 1)%nat ltac:(lia)) as X. replace (S (i - 1)) with i in X by lia. exact X. }
      fold a0 a2. rewrite (proj2 WA), (proj2 W2). rewrite (proj2 W0) in *. rewrite (proj2 W1) in Y. apply lt_IZR in Y.
      split; apply IZR_lt; lia.
  - cbn [orb]. destruct (f_le d (Bopp f_one) && f_lt dm (Bopp f_one)) eqn:C3.
    + apply andb_prop in C3. destruct C3 as [C3 C4].
      apply (fin_le _ _ FD FN) in C3. rewrite EN in C3. apply (fin_lt _ _ (proj1 WM) FN) in C4. rewrite EN, (proj2 WM) in C4.
      apply lt_IZR in C4.
      destruct (sign_minus d FD C3) as (s & -> & WS). cbn [bind]. eexists. split; [reflexivity|].
      assert (WA : whole (z1 + -1) (f_add a1 s)) by (apply whole_add; [exact W1|exact WS|lia]).
      assert (WM' : whole (- (z1 - z0)) dm) by (replace (- (z1 - z0))%Z with (z0 - z1)%Z by lia; exact WM).
      eapply moved with (i := i); [exact SH|exact I|reflexivity| | |exists (z1 + -1)%Z; split; [lia|exact WA]|].
      * fold (h s). destruct (f_lt h0 (h s) && f_lt (h s) h2) eqn:B; [apply PAR, B|].
        destruct (f_lt f_zero d) eqn:B1.
        { apply (fin_lt f_zero d eq_refl FD) in B1. change (B2R f_zero) with 0 in B1. lra. }
        destruct (f_lt d f_zero) eqn:B2; [|apply G1].
        apply (line_down h0 h1 dm (z1 - z0)); [apply G0|apply G1|exact WM'|lia|exact A01|apply G0|apply G1].
      * fold (h s). destruct (f_lt h0 (h s) && f_lt (h s) h2) eqn:B; [apply PAR, B|].
        fold h0 h2. destruct (f_lt f_zero d) eqn:B1.
        { apply (fin_lt f_zero d eq_refl FD) in B1. change (B2R f_zero) with 0 in B1. lra. }
        destruct (f_lt d f_zero) eqn:B2; [|lra].
        destruct (line_down h0 h1 dm (z1 - z0)) as [_ X]; [apply G0|apply G1|exact WM'|lia|exact A01|apply G0|apply G1|]. lra.
      * intros DS. assert (Y : B2R a1 < B2R a2) by (apply DS; lia).
        fold a0 a2. rewrite (proj2 WA), (proj2 W0). rewrite (proj2 W2) in *. rewrite (proj2 W1) in Y. apply lt_IZR in Y.
        split; apply IZR_lt; lia.
    + exists st. split; [reflexivity|]. split; [exact SH|]. split; [reflexivity|]. split; [intros; split; reflexivity|auto].
Qed.

Lemma adjust_all : forall l st, shape st -> (forall i, In i l -> (1 <= i <= 11)%nat) -> exists st', adjust_markers l st = Ok st' /\
  shape st' /\ es_count st' = es_count st /\
  (forall k, k = 0%nat \/ k = 12%nat -> height st' k = height st k /\ actual st' k = actual st k) /\
  (distinct st -> distinct st').
Proof.
  induction l as [|i l IH]; intros st SH HI.
  - exists st. cbn. split; [reflexivity|]. split; [exact SH|]. split; [reflexivity|]. split; [intros; split; reflexivity|auto].
  - destruct (adjust_ok st i SH (HI i (or_introl eq_refl))) as (st1 & E1 & SH1 & C1 & K1 & D1).
    destruct (IH st1 SH1 (fun j H => HI j (or_intror H))) as (st2 & E2 & SH2 & C2 & K2 & D2).
    exists st2. cbn [adjust_markers]. rewrite E1. cbn [bind]. split; [exact E2|]. split; [exact SH2|].
    split; [congruence|]. split; [|auto]. intros k Hk. destruct (K1 k Hk), (K2 k Hk). split; congruence.
Qed.

(** ** Order *)

Definition le_r (x y : f32) : Prop := B2R x <= B2R y.

Lemma adjacent_sorted : forall l, (forall i, (S i < length l)%nat -> le_r (nth i l f_zero) (nth (S i) l f_zero)) ->
  StronglySorted le_r l.
Proof.
  intros l H. apply Sorted_StronglySorted.
  { intros x y z A B. unfold le_r in *. lra. }
  induction l as [|x l IH]; constructor.
  - apply IH. intros i Hi. apply (H (S i)). cbn [length]. lia.
  - destruct l as [|y l]; constructor. apply (H 0%nat). cbn [length]. lia.
Qed.

Lemma sorted_nth : forall l, StronglySorted le_r l -> forall i j, (i <= j < length l)%nat -> le_r (nth i l f_zero) (nth j l f_zero).
Proof.
  induction 1 as [|x l SL IH F]; intros i j H; cbn [length] in H; [lia|].
  destruct i as [|i]; destruct j as [|j]; cbn [nth]; try lia.
  - unfold le_r. lra.
  - rewrite Forall_forall in F. apply F. apply nth_In. lia.
  - apply IH. lia.
Qed.

Lemma sorted_partitioned : forall s l, is_finite s = true -> Forall (fun x : f32 => is_finite x = true) l ->
  StronglySorted le_r l -> partitioned s l = true.
Proof.
  intros s l Fs F SL. induction SL as [|x l SL IH A]; [reflexivity|]. inversion F; subst. cbn [partitioned].
  destruct (f_lt s x) eqn:E; [|apply IH; assumption].
  apply (fin_lt s x Fs H1) in E. apply forallb_forall. intros y Hy.
  rewrite Forall_forall in A, H2. pose proof (A y Hy) as L. pose proof (H2 y Hy) as Fy.
  apply (fin_lt s y Fs Fy). unfold le_r in L. lra.
Qed.

Lemma upper_bound_lt : forall s l x, In x l -> f_lt s x = true -> (upper_bound s l < length l)%nat.
Proof.
  intros s l x. induction l as [|y l IH]; intros I E; [destruct I|]. cbn [upper_bound length].
  destruct (f_lt s y) eqn:B; [lia|]. destruct I as [->|I]; [congruence|]. specialize (IH I E). lia.
Qed.

(** The cell of a sample. *)
Lemma cell_ok : forall s hs, good s -> length hs = 13%nat ->
  (forall i, (i < 13)%nat -> good (nth i hs f_zero)) ->
  (forall i, (i < 12)%nat -> B2R (nth i hs f_zero) <= B2R (nth (S i) hs f_zero)) ->
  exists c hs', find_cell s hs = Ok (c, hs') /\ (1 <= c <= 12)%nat /\ length hs' = 13%nat /\
    (forall i, (i < 13)%nat -> good (nth i hs' f_zero)) /\
    (forall i, (i < 12)%nat -> B2R (nth i hs' f_zero) <= B2R (nth (S i) hs' f_zero)) /\
    (nth 0 hs' f_zero = s \/ nth 0 hs' f_zero = nth 0 hs f_zero) /\
    (nth 12 hs' f_zero = s \/ nth 12 hs' f_zero = nth 12 hs f_zero) /\
    B2R (nth 0 hs' f_zero) <= B2R s <= B2R (nth 12 hs' f_zero) /\
    B2R (nth 0 hs' f_zero) <= B2R (nth 0 hs f_zero) /\ B2R (nth 12 hs f_zero) <= B2R (nth 12 hs' f_zero).
Proof.
  intros s hs GS L G A. unfold find_cell. rewrite L. change (13 - 1)%nat with 12%nat.
  rewrite (at_nth _ hs 0 f_zero) by lia. rewrite (at_nth _ hs 12 f_zero) by lia. cbn [bind].
  pose proof (G 0%nat ltac:(lia)) as G0. pose proof (G 12%nat ltac:(lia)) as G12.
  assert (SL : StronglySorted le_r hs) by (apply adjacent_sorted; intros i Hi; apply A; lia).
  pose proof (sorted_nth hs SL 0 12 ltac:(lia)) as E012. unfold le_r in E012.
  destruct (f_lt s (nth 0 hs f_zero)) eqn:C1.
  - apply (fin_lt _ _ (proj1 GS) (proj1 G0)) in C1. exists 1%nat, (set_nth hs 0 s).
    assert (E : forall k, nth k (set_nth hs 0 s) f_zero = if (k =? 0)%nat then s else nth k hs f_zero)
      by (intro k; apply nth_set_nth; lia).
    split; [reflexivity|]. split; [lia|]. split; [rewrite set_len; exact L|]. split; [|split].
    + intros i Hi. rewrite E. destruct (i =? 0)%nat; [exact GS|apply G, Hi].
    + intros i Hi. rewrite !E. destruct (Nat.eqb_spec i 0) as [->|N].
      * cbn [Nat.eqb]. pose proof (A 0%nat ltac:(lia)). lra.
      * cbn [Nat.eqb]. apply A, Hi.
    + rewrite !E. cbn [Nat.eqb]. split; [left; reflexivity|]. split; [right; reflexivity|]. repeat split; lra.
  - assert (N1 : B2R (nth 0 hs f_zero) <= B2R s).
    { destruct (Rle_or_lt (B2R (nth 0 hs f_zero)) (B2R s)) as [X|X]; [exact X|].
      apply (fin_lt _ _ (proj1 GS) (proj1 G0)) in X. congruence. }
    destruct (f_le (nth 12 hs f_zero) s) eqn:C2.
    + apply (fin_le _ _ (proj1 G12) (proj1 GS)) in C2. exists 12%nat, (set_nth hs 12 s).
      assert (E : forall k, nth k (set_nth hs 12 s) f_zero = if (k =? 12)%nat then s else nth k hs f_zero)
        by (intro k; apply nth_set_nth; lia).
      split; [reflexivity|]. split; [lia|]. split; [rewrite set_len; exact L|]. split; [|split].
      * intros i Hi. rewrite E. destruct (i =? 12)%nat; [exact GS|apply G, Hi].
      * intros i Hi. rewrite !E. destruct (Nat.eqb_spec i 12) as [->|N]; [lia|].
        destruct (Nat.eqb_spec (S i) 12) as [N2|N2]; [|apply A, Hi].
        pose proof (A i Hi) as X. rewrite N2 in X. lra.
      * rewrite !E. cbn [Nat.eqb]. split; [right; reflexivity|]. split; [left; reflexivity|]. repeat split; lra.
    + assert (N2 : B2R s < B2R (nth 12 hs f_zero)).
      { destruct (Rle_or_lt (B2R (nth 12 hs f_zero)) (B2R s)) as [X|X]; [|exact X].
        apply (fin_le _ _ (proj1 G12) (proj1 GS)) in X. congruence. }
      rewrite sorted_partitioned; [|apply GS| |exact SL].
      2:{ apply Forall_forall. intros x Hx. apply (In_nth _ _ f_zero) in Hx. destruct Hx as (i & Hi & <-). apply G. lia. }
      cbn [expects bind]. exists (upper_bound s hs), hs. split; [reflexivity|]. split.
      * split.
        { destruct hs as [|h hs]; [discriminate L|]. cbn [upper_bound nth] in *. rewrite C1. lia. }
        { apply (fin_lt _ _ (proj1 GS) (proj1 G12)) in N2.
          pose proof (upper_bound_lt s hs (nth 12 hs f_zero) ltac:(apply nth_In; lia) N2). lia. }
      * repeat (split; [assumption|]). split; [right; reflexivity|]. split; [right; reflexivity|]. repeat split; lra.
Qed.

Lemma nth_shift_actual : forall c l i, (i < length l)%nat ->
  nth i (shift_actual c l) f_zero = if (i <? c)%nat then nth i l f_zero else f_add (nth i l f_zero) f_one.
Proof.
  unfold shift_actual. induction c as [|c IH]; intros l i H.
  - cbn [firstn skipn app Nat.ltb Nat.leb]. rewrite (nth_indep _ _ (f_add f_zero f_one)) by (rewrite map_length; exact H).
    apply map_nth with (f := fun a => f_add a f_one).
  - destruct l as [|x l]; cbn [length] in H; [lia|]. cbn [firstn skipn app]. destruct i as [|i]; [reflexivity|].
    cbn [nth]. rewrite IH by lia. reflexivity.
Qed.

Lemma shift_actual_length : forall c l, length (shift_actual c l) = length l.
Proof.
  intros c l. unfold shift_actual. rewrite app_length, map_length, <- app_length, firstn_skipn. reflexivity.
Qed.

Lemma increments_unit : length increments = 13%nat /\ forall i, (i < 13)%nat ->
  is_finite (nth i increments f_zero) = true /\ 0 <= B2R (nth i increments f_zero) <= 1.
Proof.
  assert (T : forallb (fun x => f_le f_zero x && f_le x f_one) increments = true) by (vm_compute; reflexivity).
  split; [reflexivity|]. intros i Hi. rewrite forallb_forall in T.
  specialize (T (nth i increments f_zero) (nth_In increments f_zero Hi)). apply andb_prop in T. apply unit_fin; apply T.
Qed.

Lemma shift_desired_ok : forall l, length l = 13%nat -> (forall i, (i < 13)%nat -> in_range (nth i l f_zero)) ->
  length (shift_desired l) = 13%nat /\ forall i, (i < 13)%nat -> in_range (nth i (shift_desired l) f_zero).
Proof.
  intros l L R. destruct increments_unit as [LI UI]. unfold shift_desired.
  assert (LC : length (combine l increments) = 13%nat) by (rewrite combine_length, L, LI; reflexivity).
  split; [rewrite map_length; exact LC|]. intros i Hi.
  set (f := fun xy : f32 * f32 => f_add (fst xy) (snd xy)).
  rewrite (nth_indep _ _ (f (f_zero, f_zero))) by (rewrite map_length; lia).
  rewrite map_nth, combine_nth by congruence. unfold f. cbn [fst snd]. apply range_add; [apply R, Hi|apply UI, Hi|apply UI, Hi].
Qed.

(** ** The invariant *)

Definition tracks (l : list f32) (st : estimator) : Prop :=
  shape st /\ es_count st = length l /\ (13 <= length l)%nat /\
  (In (height st 0) l /\ forall y, In y l -> B2R (height st 0) <= B2R y) /\
  (In (height st 12) l /\ forall y, In y l -> B2R y <= B2R (height st 12)) /\
  ((Z.of_nat (length l) <= 2 ^ 24)%Z ->
   whole 1 (actual st 0) /\ whole (Z.of_nat (length l)) (actual st 12) /\ distinct st).

Lemma add_sample_tracks : forall l st s, tracks l st -> good s ->
  exists st', add_sample st s = Ok st' /\ tracks (l ++ [s]) st'.
Proof.
  intros l st s ((L1 & L2 & L3 & G & A & P & D) & C & N & (I0 & M0) & (I12 & M12) & R) GS.
  unfold add_sample. rewrite C, markers. destruct (Nat.leb_spec (S (length l)) 13) as [X|_]; [lia|].
  destruct (cell_ok s (es_heights st) GS L1 G A) as (c & hs & EC & HC & LH & GH & AH & S0 & S12 & B1 & B2 & B3).
  rewrite EC. cbn [bind fst snd].
  set (st1 := {| es_count := S (length l); es_heights := hs; es_actual := shift_actual c (es_actual st);
                 es_desired := shift_desired (es_desired st) |}).
  destruct (shift_desired_ok (es_desired st) L3 D) as [LD RD].
  assert (NA : forall i, (i < 13)%nat -> actual st1 i = if (i <? c)%nat then actual st i else f_add (actual st i) f_one)
    by (intros i Hi; unfold actual, st1; cbn [es_actual]; apply nth_shift_actual; lia).
  assert (SH1 : shape st1).
  { split; [exact LH|]. split; [unfold st1; cbn [es_actual]; rewrite shift_actual_length; exact L2|].
    split; [exact LD|]. split; [exact GH|]. split; [exact AH|]. split; [|exact RD].
    intros i Hi. rewrite NA by exact Hi. destruct (P i Hi) as (z & Hz & W).
    destruct (i <? c)%nat; [exists z; auto|]. exists (Z.min (z + 1) (2 ^ 24)). split; [lia|]. apply whole_count; assumption. }
  destruct (adjust_all (seq 1 (13 - 2)) st1 SH1) as (st' & E & SH & CT & K & DS).
  { intros i Hi. apply in_seq in Hi. lia. }
  exists st'. split; [exact E|].
  destruct (K 0%nat (or_introl eq_refl)) as [K0 Q0]. destruct (K 12%nat (or_intror eq_refl)) as [K12 Q12].
  unfold tracks. rewrite K0, K12, Q0, Q12, CT. rewrite app_length. cbn [length].
  split; [exact SH|]. split; [unfold st1; cbn [es_count]; lia|]. split; [lia|].
  unfold height in *. cbn [st1 es_heights] in *. split; [|split].
  - split.
    + apply in_or_app. destruct S0 as [->| ->]; [right; left; reflexivity|left; exact I0].
    + intros y Hy. apply in_app_or in Hy. destruct Hy as [Hy|[<-|[]]]; [specialize (M0 y Hy)|]; lra.
  - split.
    + apply in_or_app. destruct S12 as [->| ->]; [right; left; reflexivity|left; exact I12].
    + intros y Hy. apply in_app_or in Hy. destruct Hy as [Hy|[<-|[]]]; [specialize (M12 y Hy)|]; lra.
  - intros HR. destruct R as (W0 & W12 & DD); [lia|].
    assert (EX : forall i, (i < 13)%nat -> (i <> 12)%nat -> exists z, (1 <= z < 2 ^ 24)%Z /\ whole z (actual st i)).
    { intros i Hi Ni. destruct (P i Hi) as (z & Hz & W). exists z. split; [|exact W].
      pose proof (DD i ltac:(lia)) as X. destruct (P (S i) ltac:(lia)) as (z' & Hz' & W').
      rewrite (proj2 W), (proj2 W') in X. apply lt_IZR in X. lia. }
    rewrite (NA 0%nat), (NA 12%nat) by lia.
    destruct (Nat.ltb_spec 0 c) as [_|X]; [|lia]. destruct (Nat.ltb_spec 12 c) as [X|_]; [lia|].
    split; [exact W0|]. split.
    + replace (Z.of_nat (length l + 1)) with (Z.of_nat (length l) + 1)%Z by lia.
      apply whole_add; [exact W12|exact whole_one|lia].
    + apply DS. intros i Hi. rewrite !NA by lia.
      pose proof (DD i Hi) as X.
      assert (INC : forall k z, whole z (actual st k) -> (1 <= z < 2 ^ 24)%Z -> B2R (f_add (actual st k) f_one) = B2R (actual st k) + 1).
      { intros k z W Hz. destruct (whole_add z 1 (actual st k) f_one W whole_one) as [_ ->]; [lia|].
        rewrite plus_IZR, (proj2 W). reflexivity. }
      destruct (EX i ltac:(lia) ltac:(lia)) as (z & Hz & W). pose proof (INC i z W Hz) as EI.
      destruct (P (S i) ltac:(lia)) as (z' & Hz' & W').
      assert (EJ : B2R (f_add (actual st (S i)) f_one) = B2R (actual st (S i)) + 1).
      { destruct (Nat.eq_dec (S i) 12) as [E12|N12].
        - rewrite E12 in *. apply (INC 12%nat _ W12). lia.
        - destruct (EX (S i) ltac:(lia) N12) as (z2 & Hz2 & W2). apply (INC (S i) z2 W2 Hz2). }
      destruct (Nat.ltb_spec i c) as [Y|Y]; destruct (Nat.ltb_spec (S i) c) as [Y2|Y2]; try lia; lra.
Qed.

Lemma add_samples_tracks : forall k l st, tracks l st -> Forall good k ->
  exists st', add_samples st k = Ok st' /\ tracks (l ++ k) st'.
Proof.
  induction k as [|s k IH]; intros l st T F.
  - exists st. rewrite app_nil_r. split; [reflexivity|exact T].
  - inversion F; subst. destruct (add_sample_tracks l st s T H1) as (st1 & E1 & T1).
    destruct (IH _ _ T1 H2) as (st2 & E2 & T2). exists st2. cbn [add_samples]. rewrite E1. cbn [bind].
    split; [exact E2|]. rewrite <- app_assoc in T2. exact T2.
Qed.

(** ** The first samples *)

Lemma set_nth_first_free : forall (l : list f32) n s, (0 < n)%nat ->
  set_nth (l ++ repeat f_zero n) (length l) s = (l ++ [s]) ++ repeat f_zero (n - 1).
Proof.
  intros l n s H. destruct n as [|n]; [lia|]. cbn [repeat]. replace (S n - 1)%nat with n by lia.
  induction l as [|x l IH]; cbn; [reflexivity|]. rewrite IH. reflexivity.
Qed.

Lemma collecting : forall l, (length l < 13)%nat -> add_samples new_estimator l =
  Ok {| es_count := length l; es_heights := l ++ repeat f_zero (13 - length l);
        es_actual := es_actual new_estimator; es_desired := es_desired new_estimator |}.
Proof.
  assert (ADD : forall a b st, add_samples st (a ++ b) = (st' <- add_samples st a ;; add_samples st' b)).
  { induction a as [|x a IH]; intros b st; [reflexivity|]. cbn [app add_samples].
    destruct (add_sample st x); cbn [bind]; auto. }
  intros l. induction l as [|s l IH] using rev_ind; intro H; [reflexivity|].
  rewrite app_length in *. cbn [length] in *. rewrite ADD, IH by lia. cbn [bind add_samples]. unfold add_sample.
  cbn [es_count es_heights es_actual es_desired]. rewrite markers.
  destruct (Nat.leb_spec (S (length l)) 13) as [_|X]; [|lia]. destruct (Nat.eqb_spec (S (length l)) 13) as [X|_]; [lia|].
  cbn [bind]. replace (S (length l) - 1)%nat with (length l) by lia. rewrite set_nth_first_free by lia.
  f_equal. f_equal; [lia|]. do 2 f_equal. lia.
Qed.

Lemma insert_in : forall x l y, In y (f_insert x l) <-> y = x \/ In y l.
Proof.
  intros x l y. induction l as [|z l IH]; cbn [f_insert].
  - cbn. intuition.
  - destruct (f_lt x z); cbn [In]; [intuition|]. rewrite IH. intuition.
Qed.

Lemma insert_length : forall x l, length (f_insert x l) = S (length l).
Proof. intros x l. induction l as [|z l IH]; cbn [f_insert]; [reflexivity|]. destruct (f_lt x z); cbn; auto. Qed.

Lemma sort_in : forall l y, In y (f_sort l) <-> In y l.
Proof.
  intros l y. unfold f_sort. induction l as [|x l IH]; cbn [fold_right In]; [tauto|].
  rewrite insert_in, IH. intuition.
Qed.

Lemma sort_length : forall l, length (f_sort l) = length l.
Proof. unfold f_sort. induction l as [|x l IH]; cbn [fold_right length]; [reflexivity|]. rewrite insert_length, IH. reflexivity. Qed.

Lemma insert_sorted : forall x l, is_finite x = true -> Forall (fun y : f32 => is_finite y = true) l ->
  StronglySorted le_r l -> StronglySorted le_r (f_insert x l).
Proof.
  intros x l Fx F SL. induction SL as [|y l SL IH A]; cbn [f_insert]; [repeat constructor|].
  inversion F; subst. destruct (f_lt x y) eqn:E.
  - apply (fin_lt x y Fx H1) in E. constructor; [constructor; assumption|]. constructor; [unfold le_r; lra|].
    apply Forall_forall. intros z Hz. rewrite Forall_forall in A. specialize (A z Hz). unfold le_r in *. lra.
  - assert (X : B2R y <= B2R x).
    { destruct (Rle_or_lt (B2R y) (B2R x)) as [X|X]; [exact X|]. apply (fin_lt x y Fx H1) in X. congruence. }
    constructor; [apply IH; assumption|]. apply Forall_forall. intros z Hz. apply insert_in in Hz.
    destruct Hz as [->|Hz]; [exact X|]. rewrite Forall_forall in A. apply A, Hz.
Qed.

Lemma sort_sorted : forall l, Forall (fun y : f32 => is_finite y = true) l -> StronglySorted le_r (f_sort l).
Proof.
  intros l. induction l as [|x l IH]; intro F; [constructor|]. inversion F; subst. unfold f_sort. cbn [fold_right].
  apply insert_sorted; [assumption| |apply IH; assumption]. apply Forall_forall. intros y Hy. apply (sort_in l y) in Hy.
  rewrite Forall_forall in H2. apply H2, Hy.
Qed.

Lemma thirteen : forall l, length l = 13%nat -> Forall good l ->
  exists st, add_samples new_estimator l = Ok st /\ tracks l st.
Proof.
  intros l L F.
  assert (ADD : forall a b st, add_samples st (a ++ b) = (st' <- add_samples st a ;; add_samples st' b)).
  { induction a as [|x a IH]; intros b st; [reflexivity|]. cbn [app add_samples].
    destruct (add_sample st x); cbn [bind]; auto. }
  destruct (rev l) as [|s k] eqn:RL.
  { apply (f_equal (@rev f32)) in RL. rewrite rev_involutive in RL. subst l. discriminate L. }
  apply (f_equal (@rev f32)) in RL. rewrite rev_involutive in RL. cbn [rev] in RL.
  assert (LK : length (rev k) = 12%nat) by (rewrite RL, app_length in L; cbn in L; lia).
  exists {| es_count := 13; es_heights := f_sort l; es_actual := es_actual new_estimator; es_desired := es_desired new_estimator |}.
  split.
  { rewrite RL at 1. rewrite ADD, collecting by lia. cbn [bind add_samples]. unfold add_sample.
    cbn [es_count es_heights es_actual es_desired]. rewrite markers, LK. cbn [Nat.leb Nat.eqb bind].
    change (13 - 12)%nat with 1%nat. change (13 - 1)%nat with (12)%nat.
    pose proof (set_nth_first_free (rev k) 1 s ltac:(lia)) as X. rewrite LK in X. rewrite X.
    cbn [repeat Nat.sub]. rewrite app_nil_r, <- RL. reflexivity. }
  assert (FF : Forall (fun y : f32 => is_finite y = true) l) by (eapply Forall_impl; [|exact F]; intros y [Y _]; exact Y).
  pose proof (sort_sorted l FF) as SL. pose proof (sort_length l) as LS. rewrite L in LS.
  assert (IN : forall i, (i < 13)%nat -> In (nth i (f_sort l) f_zero) l)
    by (intros i Hi; apply sort_in, nth_In; lia).
  assert (RANK : forall i, (i < 13)%nat -> whole (Z.of_nat (S i)) (nth i (es_actual new_estimator) f_zero)).
  { intros i Hi. unfold new_estimator. cbn [es_actual].
    set (f := fun i => f_of_Z (Z.of_nat i)).
    rewrite (nth_indep _ _ (f 0%nat)) by (rewrite map_length, seq_length; exact Hi).
    rewrite map_nth, seq_nth by exact Hi. unfold f. apply whole_of_Z. lia. }
  split; [|split; [|split; [|split; [|split]]]].
  - unfold shape, height, actual, desired. cbn [es_count es_heights es_actual es_desired].
    split; [exact LS|]. split; [reflexivity|]. split; [reflexivity|]. split; [|split; [|split]].
    + intros i Hi. rewrite Forall_forall in F. apply F, IN, Hi.
    + intros i Hi. apply (sorted_nth _ SL). lia.
    + intros i Hi. exists (Z.of_nat (S i)). split; [lia|]. apply RANK, Hi.
    + intros i Hi.
      assert (T : forallb (fun x => is_finite x && f_le f_zero x && f_le x (f_of_Z (2 ^ 24))) (es_desired new_estimator) = true)
        by (vm_compute; reflexivity).
      rewrite forallb_forall in T. specialize (T (nth i (es_desired new_estimator) f_zero) (nth_In (es_desired new_estimator) f_zero Hi)).
      apply andb_prop in T. destruct T as [T T3]. apply andb_prop in T. destruct T as [T1 T2].
      destruct (of_Z_exact (2 ^ 24)) as [FB EB]; [lia|]. split; [exact T1|]. rewrite <- EB.
      apply (fin_le f_zero _ eq_refl T1) in T2. apply (fin_le _ _ T1 FB) in T3. split; assumption.
  - cbn [es_count]. lia.
  - lia.
  - unfold height. cbn [es_heights]. split; [apply IN; lia|]. intros y Hy. apply sort_in in Hy.
    apply (In_nth _ _ f_zero) in Hy. destruct Hy as (i & Hi & <-). apply (sorted_nth _ SL). lia.
  - unfold height. cbn [es_heights]. split; [apply IN; lia|]. intros y Hy. apply sort_in in Hy.
    apply (In_nth _ _ f_zero) in Hy. destruct Hy as (i & Hi & <-). apply (sorted_nth _ SL). lia.
  - intros _. unfold distinct, actual. cbn [es_actual]. rewrite L. split; [apply (RANK 0%nat); lia|].
    split; [apply (RANK 12%nat); lia|]. intros i Hi. rewrite (proj2 (RANK i ltac:(lia))), (proj2 (RANK (S i) ltac:(lia))).
    apply IZR_lt. lia.
Qed.

Lemma estimator_tracks : forall l, (13 <= length l)%nat -> Forall good l ->
  exists st, add_samples new_estimator l = Ok st /\ tracks l st.
Proof.
  intros l L F. rewrite <- (firstn_skipn 13 l) in F. apply Forall_app in F. destruct F as [F1 F2].
  destruct (thirteen (firstn 13 l)) as (st & E & T); [apply firstn_length_le; lia|exact F1|].
  destruct (add_samples_tracks _ _ _ T F2) as (st' & E' & T'). exists st'. rewrite firstn_skipn in T'. split; [|exact T'].
  rewrite <- (firstn_skipn 13 l). revert E E'. generalize new_estimator (firstn 13 l) (skipn 13 l). clear.
  intros e a b. revert e. induction a as [|x a IH]; intros e E E'; cbn [app add_samples] in *; [congruence|].
  destruct (add_sample e x); cbn [bind] in *; try discriminate. apply IH; assumption.
Qed.

(** What the estimates are, for an estimator that tracks the samples. *)
Lemma tracked_estimates : forall l st, tracks l st ->
  length (quantile_estimates st) = 5%nat /\
  forall lo hi : f32, In lo l -> In hi l -> (forall y, In y l -> B2R lo <= B2R y) -> (forall y, In y l -> B2R y <= B2R hi) ->
    is_finite lo = true -> is_finite hi = true -> ascending (lo :: quantile_estimates st ++ [hi]).
Proof.
  intros l st ((L1 & L2 & L3 & G & A & P & D) & C & N & (I0 & M0) & (I12 & M12) & R).
  split; [reflexivity|]. intros lo hi Il Ih Ml Mh Fl Fh.
  assert (SL : StronglySorted le_r (es_heights st)) by (apply adjacent_sorted; intros i Hi; apply A; lia).
  assert (Q : quantile_estimates st = [height st 2; height st 4; height st 6; height st 8; height st 10]) by reflexivity.
  assert (O : forall i j, (i <= j < 13)%nat -> B2R (height st i) <= B2R (height st j)) by (intros i j Hij; apply (sorted_nth _ SL); lia).
  assert (LO : B2R lo <= B2R (height st 0)) by (apply Ml, I0). assert (HI : B2R (height st 12) <= B2R hi) by (apply Mh, I12).
  assert (ST : StronglySorted le_r (lo :: quantile_estimates st ++ [hi])).
  { rewrite Q. cbn [app]. pose proof (O 0 2 ltac:(lia))%nat. pose proof (O 2 4 ltac:(lia))%nat. pose proof (O 4 6 ltac:(lia))%nat.
    pose proof (O 6 8 ltac:(lia))%nat. pose proof (O 8 10 ltac:(lia))%nat. pose proof (O 10 12 ltac:(lia))%nat.
    apply adjacent_sorted. cbn [length]. intros i Hi.
    do 6 (destruct i as [|i]; [unfold le_r; cbn [nth]; lra|]). lia. }
  assert (FA : forall x, In x (lo :: quantile_estimates st ++ [hi]) -> is_finite x = true).
  { rewrite Q. intros x Hx. cbn [app In] in Hx.
    decompose [or] Hx; try (subst; assumption); try contradiction; subst x; apply G; lia. }
  intros i j x y Hij Hx Hy. apply fin_le; [apply FA; eapply nth_error_In; exact Hx|apply FA; eapply nth_error_In; exact Hy|].
  pose proof (sorted_nth _ ST i j) as X. unfold le_r in X.
  rewrite (nth_error_nth _ _ f_zero Hx), (nth_error_nth _ _ f_zero Hy) in X. apply X. split; [exact Hij|].
  apply nth_error_Some. congruence.
Qed.
