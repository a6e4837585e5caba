(** * Proofs about the pointers of optimizers and jobs *)

From Coq Require Import List ZArith Bool Arith Lia.
From Verif Require Import Base F32 ProjectModel ScheduleModel MutatorModel MakespanModel TemperatureModel
  StunModel SearchSpec StunProofs OptimizerModel OptimizerSpec OptimizerProofs OptimizerSame
  BindingModel BindingSpec.
Import ListNotations.

Section Facts.
Context {G : Type} (gs : source G) (o : oracles).
Notation memory := (memory G).
Notation slot := (slot G).
Notation world := (world G).

(** ** Memory *)

Lemma set_nth_length : forall A (l : list A) i a, length (set_nth l i a) = length l.
Proof. intros A l. induction l as [|x l IH]; intros [|i] a; cbn; auto. Qed.

Lemma set_nth_twice : forall A (l : list A) i a b, set_nth (set_nth l i a) i b = set_nth l i b.
Proof. intros A l. induction l as [|x l IH]; intros [|i] a b; cbn; auto. rewrite IH. reflexivity. Qed.

Lemma set_nth_id : forall A (l : list A) i a, nth_error l i = Some a -> set_nth l i a = l.
Proof.
  intros A l. induction l as [|x l IH]; intros [|i] a H; cbn in *; auto.
  - congruence.
  - rewrite IH; auto.
Qed.

Lemma map_set_nth : forall A B (f : A -> B) l i a, map f (set_nth l i a) = set_nth (map f l) i (f a).
Proof. intros A B f l. induction l as [|x l IH]; intros [|i] a; cbn; auto. rewrite IH. reflexivity. Qed.

Lemma nth_set_same : forall A (l : list A) i a, i < length l -> nth_error (set_nth l i a) i = Some a.
Proof.
  intros A l i a H. rewrite nth_error_set_nth, Nat.eqb_refl. apply Nat.ltb_lt in H. rewrite H. reflexivity.
Qed.

Lemma nth_set_other : forall A (l : list A) i k a, i <> k -> nth_error (set_nth l i a) k = nth_error l k.
Proof.
  intros A l i k a H. rewrite nth_error_set_nth. apply Nat.eqb_neq in H. rewrite H. reflexivity.
Qed.

Lemma at_index_ok : forall A (l : list A) i a, at_index l i = Ok a <-> nth_error l i = Some a.
Proof. intros A l i a. unfold at_index. destruct (nth_error l i); split; congruence. Qed.

Lemma block_ok : forall (m : memory) b l, block m b = Ok l <-> nth_error m b = Some (Some l).
Proof.
  intros m b l. unfold block, at_index. destruct (nth_error m b) as [[x|]|]; cbn; split; congruence.
Qed.

Lemma read_ok : forall (m : memory) a s, read m a = Ok s <-> cell m a = Some s.
Proof.
  intros m a s. unfold read, cell, block, at_index.
  destruct (nth_error m (fst a)) as [[l|]|]; cbn [bind]; try (split; discriminate).
  destruct (nth_error l (snd a)); split; congruence.
Qed.

Lemma read_broken : forall (m : memory) a, cell m a = None -> read m a = Broken.
Proof.
  intros m a. unfold read, cell, block, at_index.
  destruct (nth_error m (fst a)) as [[l|]|]; cbn [bind]; auto.
  destruct (nth_error l (snd a)); congruence.
Qed.

(** The vectors have the same lengths. *)
Definition same_sizes (m m' : memory) : Prop :=
  map (option_map (@length slot)) m = map (option_map (@length slot)) m'.

Lemma same_sizes_refl : forall m, same_sizes m m.
Proof. reflexivity. Qed.
Lemma same_sizes_trans : forall a b c, same_sizes a b -> same_sizes b c -> same_sizes a c.
Proof. unfold same_sizes. congruence. Qed.

Lemma same_sizes_block : forall m m' b l, same_sizes m m' -> nth_error m b = Some (Some l) ->
  exists l', nth_error m' b = Some (Some l') /\ length l' = length l.
Proof.
  intros m m' b l S H. pose proof (f_equal (fun x => nth_error x b) S) as E. cbn in E.
  rewrite !nth_error_map, H in E. cbn in E.
  destruct (nth_error m' b) as [[l'|]|]; try discriminate. cbn in E. injection E as E. exists l'. auto.
Qed.

Lemma same_sizes_none : forall m m' b, same_sizes m m' -> nth_error m b = Some None -> nth_error m' b = Some None.
Proof.
  intros m m' b S H. pose proof (f_equal (fun x => nth_error x b) S) as E. cbn in E.
  rewrite !nth_error_map, H in E. cbn in E.
  destruct (nth_error m' b) as [[l'|]|]; try discriminate. reflexivity.
Qed.

Lemma same_sizes_length : forall m m', same_sizes m m' -> length m = length m'.
Proof. intros m m' S. apply (f_equal (@length _)) in S. rewrite !map_length in S. exact S. Qed.

Lemma set_block_sizes : forall m b l l', nth_error m b = Some (Some l) -> length l' = length l ->
  same_sizes m (set_nth m b (Some l')).
Proof.
  intros m b l l' H L. unfold same_sizes. rewrite map_set_nth. cbn [option_map]. rewrite L.
  symmetry. apply set_nth_id. rewrite nth_error_map, H. reflexivity.
Qed.

Lemma place_dec : forall a b : place, {a = b} + {a <> b}.
Proof. intros. decide equality; apply Nat.eq_dec. Qed.

Lemma write_spec : forall (m : memory) a s m', write m a s = Ok m' ->
  same_sizes m m' /\ cell m' a = Some s /\ (forall a', a' <> a -> cell m' a' = cell m a') /\
  (forall b, b <> fst a -> nth_error m' b = nth_error m b) /\
  exists l, nth_error m (fst a) = Some (Some l) /\ snd a < length l /\
    m' = set_nth m (fst a) (Some (set_nth l (snd a) s)).
Proof.
  intros m a s m' H. unfold write in H.
  apply bind_ok in H. destruct H as (l & B & H). apply block_ok in B.
  apply bind_ok in H. destruct H as (x & X & H). apply at_index_ok in X. injection H as <-.
  assert (Lm : fst a < length m) by (apply nth_error_Some; congruence).
  assert (Ll : snd a < length l) by (apply nth_error_Some; congruence).
  split; [apply set_block_sizes with l; [exact B|apply set_nth_length]|].
  split; [unfold cell; rewrite nth_set_same by exact Lm; apply nth_set_same, Ll|].
  split; [|split].
  - intros a' N. unfold cell. destruct (Nat.eq_dec (fst a) (fst a')) as [E|E].
    + rewrite <- E, B, nth_set_same by exact Lm. apply nth_set_other.
      intro E2. apply N. destruct a, a'; cbn in *; congruence.
    + rewrite nth_set_other by exact E. reflexivity.
  - intros b N. apply nth_set_other. auto.
  - exists l. auto.
Qed.

Lemma write_total : forall (m : memory) a s0 s, cell m a = Some s0 -> exists m', write m a s = Ok m'.
Proof.
  intros m a s0 s H. unfold cell in H. unfold write, block, at_index.
  destruct (nth_error m (fst a)) as [[l|]|]; try discriminate. cbn [bind].
  rewrite H. cbn [bind]. eauto.
Qed.

(** A second write to the same slot replaces the first. *)
Lemma write_write : forall (m : memory) a s m1 s', write m a s = Ok m1 -> write m1 a s' = write m a s'.
Proof.
  intros m a s m1 s' H. destruct (write_spec m a s m1 H) as (_ & _ & _ & _ & l & B & L & ->).
  assert (Lm : fst a < length m) by (apply nth_error_Some; congruence).
  unfold write, block, at_index. rewrite nth_set_same by exact Lm. rewrite B. cbn [bind].
  rewrite nth_set_same by exact L.
  destruct (nth_error_some _ l (snd a) L) as (x & ->). cbn [bind]. rewrite !set_nth_twice. reflexivity.
Qed.

(** Writing back what is there changes nothing. *)
Lemma write_id : forall (m : memory) a s, cell m a = Some s -> write m a s = Ok m.
Proof.
  intros m a s H. unfold cell in H. unfold write, block, at_index.
  destruct (nth_error m (fst a)) as [[l|]|] eqn:B; try discriminate. cbn [bind].
  rewrite H. cbn [bind]. rewrite (set_nth_id _ l) by exact H. rewrite set_nth_id by exact B. reflexivity.
Qed.

(** ** One iteration *)

(** The job and the pointers of a slot. *)
Definition bones (s : slot) : job * pointers := (sl_job s, sl_pointers s).
Definition bones_at (m : memory) (a : place) := option_map bones (cell m a).
Definition random_at (m : memory) (a : place) := option_map sl_random (cell m a).

Lemma write_random_spec : forall (m : memory) a g m', write_random m a g = Ok m' ->
  same_sizes m m' /\ (forall a', bones_at m' a' = bones_at m a') /\
  (forall a', a' <> a -> cell m' a' = cell m a') /\
  (forall b, b <> fst a -> nth_error m' b = nth_error m b) /\
  random_at m' a = Some g /\ exists s, cell m a = Some s.
Proof.
  intros m a g m' H. unfold write_random in H. apply bind_ok in H. destruct H as (s & R & H).
  apply read_ok in R. destruct (write_spec _ _ _ _ H) as (S & C & O & B & _).
  split; [exact S|]. split; [|split; [exact O|split; [exact B|split; [|eauto]]]].
  - intro a'. unfold bones_at. destruct (place_dec a' a) as [->|N]; [|rewrite O by exact N; reflexivity].
    rewrite C, R. reflexivity.
  - unfold random_at. rewrite C. reflexivity.
Qed.

Lemma write_job_spec : forall (m : memory) a f m', write_job m a f = Ok m' ->
  same_sizes m m' /\ (forall a', random_at m' a' = random_at m a') /\
  (forall a', a' <> a -> cell m' a' = cell m a') /\
  (forall b, b <> fst a -> nth_error m' b = nth_error m b) /\
  exists s, cell m a = Some s /\ cell m' a = Some (Slot (sl_random s) (f (sl_job s)) (sl_pointers s)).
Proof.
  intros m a f m' H. unfold write_job in H. apply bind_ok in H. destruct H as (s & R & H).
  apply read_ok in R. destruct (write_spec _ _ _ _ H) as (S & C & O & B & _).
  split; [exact S|]. split; [|split; [exact O|split; [exact B|eauto]]].
  intro a'. unfold random_at. destruct (place_dec a' a) as [->|N]; [|rewrite O by exact N; reflexivity].
  rewrite C, R. reflexivity.
Qed.

Lemma reach_own : forall (m : memory) a s, cell m a = Some s -> own_parts a (sl_pointers s) ->
  reach m a = Ok (sl_job s).
Proof.
  intros m a s C (P1 & P2 & P3). unfold reach. apply read_ok in C. rewrite C. cbn [bind].
  rewrite P1, P2, P3, C. cbn [bind]. destruct (sl_job s); reflexivity.
Qed.

(** The job after [store]. *)
Definition stored (j k : job) : job :=
  {| jb_batch := jb_batch k; jb_mutator := jb_mutator k; jb_params := jb_params k;
     jb_makespan := jb_makespan j; jb_temp := jb_temp j; jb_stun := jb_stun j |}.

Lemma store_own : forall (m : memory) a s j, cell m a = Some s -> own_parts a (sl_pointers s) ->
  store m a j = write m a (Slot (sl_random s) (stored j (sl_job s)) (sl_pointers s)).
Proof.
  intros m a s j C (P1 & P2 & P3). unfold store. pose proof C as R. apply read_ok in R. rewrite R. cbn [bind].
  rewrite P2, P3. unfold write_job. rewrite R. cbn [bind].
  set (s1 := Slot _ _ _). destruct (write_total m a s s1 C) as (m1 & W1). rewrite W1. cbn [bind].
  destruct (write_spec _ _ _ _ W1) as (_ & C1 & _). pose proof C1 as R1. apply read_ok in R1. rewrite R1. cbn [bind].
  set (s2 := Slot _ _ _). destruct (write_total m1 a s1 s2 C1) as (m2 & W2). rewrite W2. cbn [bind].
  destruct (write_spec _ _ _ _ W2) as (_ & C2 & _). pose proof C2 as R2. apply read_ok in R2. rewrite R2. cbn [bind].
  rewrite (write_write _ _ _ _ _ W2), (write_write _ _ _ _ _ W1). subst s1 s2. reflexivity.
Qed.

Definition same_links (j j' : job) : Prop :=
  jb_batch j' = jb_batch j /\ jb_mutator j' = jb_mutator j /\ jb_params j' = jb_params j.

Lemma new_neighbor_links : forall j d j', get_new_neighbor j d = Ok j' -> same_links j j'.
Proof.
  intros j d j' H. unfold get_new_neighbor in H. repeat ok_step H.
  apply bind_ok in H. destruct H as (t & _ & H). apply bind_ok in H. destruct H as (r & _ & H).
  ok_step H. injection H as <-. repeat split.
Qed.

Lemma perform_links : forall u j j', perform_stun o u j = Ok j' -> same_links j j'.
Proof.
  intros u j j' H. unfold perform_stun in H. repeat ok_step H.
  apply bind_ok in H. destruct H as (t & _ & H). destruct (f_le u _).
  - apply bind_ok in H. destruct H as (r & _ & H). ok_step H. injection H as <-. repeat split.
  - repeat ok_step H. injection H as <-. repeat split.
Qed.

Lemma stored_links : forall j k, same_links k j -> stored j k = j.
Proof. intros j k (A & B & C). unfold stored. rewrite <- A, <- B, <- C. destruct j; reflexivity. Qed.

Lemma update_links : forall j k j', stun_update o j k = Ok j' -> same_links j j'.
Proof.
  intros j k j' H. unfold stun_update in H. ok_step H.
  apply bind_ok in H. destruct H as (j1 & E1 & H). apply bind_ok in H. destruct H as (r & _ & H).
  apply new_neighbor_links in E1. destruct E1 as (A & B & C).
  destruct (fst r).
  - injection H as <-. repeat split; assumption.
  - apply perform_links in H. destruct H as (A' & B' & C'). cbn in *. repeat split; congruence.
Qed.

(** An iteration of a job that uses its own parts: some random numbers turn
    the job into the result; nothing else changes but the states of the
    sources that are used. *)
Lemma iterate_spec : forall m a m' s, iterate gs o m a = Ok m' -> cell m a = Some s ->
  own_parts a (sl_pointers s) ->
  exists k j', stun_update o (sl_job s) k = Ok j' /\ same_sizes m m' /\
    bones_at m' a = Some (j', sl_pointers s) /\
    (forall a', a' <> a -> bones_at m' a' = bones_at m a') /\
    (forall a', a' <> a -> a' <> pt_mutator_random (sl_pointers s) -> a' <> pt_random (sl_pointers s) ->
       cell m' a' = cell m a') /\
    (forall b, b <> fst a -> b <> fst (pt_mutator_random (sl_pointers s)) ->
       b <> fst (pt_random (sl_pointers s)) -> nth_error m' b = nth_error m b).
Proof.
  intros m a m' s H C OW. unfold iterate in H. pose proof C as R. apply read_ok in R. rewrite R in H.
  cbn [bind] in H. rewrite (reach_own _ _ _ C OW) in H. cbn [bind] in H. ok_step H.
  destruct OW as (P1 & P2 & P3). rewrite P1, R in H. cbn [bind] in H.
  apply bind_ok in H. destruct H as (rs & RS & H). apply read_ok in RS.
  set (dg := so_draws gs _ _ _) in H.
  apply bind_ok in H. destruct H as (j1 & E1 & H).
  apply bind_ok in H. destruct H as (m1 & W1 & H).
  destruct (write_random_spec _ _ _ _ W1) as (S1 & B1 & O1 & N1 & _ & _).
  apply bind_ok in H. destruct H as (r & E2 & H).
  assert (OWN : forall x, bones_at x a = bones_at m a -> exists sx, cell x a = Some sx /\
            sl_job sx = sl_job s /\ sl_pointers sx = sl_pointers s).
  { intros x E. unfold bones_at in E. rewrite C in E. destruct (cell x a) as [sx|]; [|discriminate].
    exists sx. cbn in E. injection E as E E'. auto. }
  assert (L1 : same_links (sl_job s) j1) by (apply new_neighbor_links with (fst dg); exact E1).
  destruct (fst r) eqn:F.
  - destruct (OWN m1 (B1 a)) as (s1 & C1 & J1 & Q1).
    rewrite (store_own _ _ _ _ C1) in H by (rewrite Q1; repeat split; assumption).
    destruct (write_spec _ _ _ _ H) as (S2 & C2 & O2 & N2 & _).
    exists (Luck (fst dg) f_zero), (with_stun j1 (snd r)).
    split; [unfold stun_update; rewrite X; cbn [expects bind lk_draws]; rewrite E1; cbn [bind]; rewrite E2; cbn [bind];
            rewrite F; reflexivity|].
    split; [apply same_sizes_trans with m1; assumption|].
    split; [unfold bones_at; rewrite C2; cbn; unfold bones; cbn; rewrite Q1, J1; rewrite stored_links; [reflexivity|exact L1]|].
    split; [intros a' N; unfold bones_at; rewrite O2 by exact N; apply B1|].
    split; [intros a' N N' N''; rewrite O2 by exact N; apply O1; exact N'|].
    intros b N N' N''. rewrite N2 by exact N. apply N1. exact N'.
  - apply bind_ok in H. destruct H as (us & US & H). apply read_ok in US.
    set (ug := so_uniform gs _) in H.
    apply bind_ok in H. destruct H as (j3 & E3 & H).
    apply bind_ok in H. destruct H as (m2 & W2 & H).
    destruct (write_random_spec _ _ _ _ W2) as (S2 & B2 & O2 & N2 & _ & _).
    assert (B12 : bones_at m2 a = bones_at m a) by (rewrite B2; apply B1).
    destruct (OWN m2 B12) as (s2 & C2 & J2 & Q2).
    rewrite (store_own _ _ _ _ C2) in H by (rewrite Q2; repeat split; assumption).
    destruct (write_spec _ _ _ _ H) as (S3 & C3 & O3 & N3 & _).
    exists (Luck (fst dg) (fst ug)), j3.
    split; [unfold stun_update; rewrite X; cbn [expects bind lk_draws lk_uniform]; rewrite E1; cbn [bind]; rewrite E2;
            cbn [bind]; rewrite F; exact E3|].
    split; [apply same_sizes_trans with m1; [assumption|apply same_sizes_trans with m2; assumption]|].
    split.
    { unfold bones_at; rewrite C3; cbn; unfold bones; cbn; rewrite Q2, J2; rewrite stored_links; [reflexivity|].
      destruct L1 as (A1 & A2 & A3). destruct (perform_links _ _ _ E3) as (A4 & A5 & A6). cbn in *.
      repeat split; congruence. }
    split; [intros a' N; unfold bones_at; rewrite O3 by exact N; fold (bones_at m2 a'); rewrite B2; apply B1|].
    split; [intros a' N N' N''; rewrite O3 by exact N; rewrite O2 by exact N''; apply O1; exact N'|].
    intros b N N' N''. rewrite N3 by exact N. rewrite N2 by exact N''. apply N1; exact N'.
Qed.

(** What an iteration makes of a slot that uses only itself. *)
Definition own_step (s : slot) : outcome slot :=
  let j := sl_job s in
  _ <- expects (negb (length (st_current (jb_stun j)) =? 0)) ;;
  let dg := so_draws gs (jb_mutator j) (st_current (jb_stun j)) (sl_random s) in
  j1 <- get_new_neighbor j (fst dg) ;;
  r <- neighbor_is_better o (jb_stun j1) ;;
  let j2 := with_stun j1 (snd r) in
  if fst r then Ok (Slot (snd dg) (stored j2 j) (sl_pointers s))
  else
    let ug := so_uniform gs (snd dg) in
    j3 <- perform_stun o (fst ug) j2 ;;
    Ok (Slot (snd ug) (stored j3 j) (sl_pointers s)).

Lemma iterate_own : forall m a s, cell m a = Some s -> own_parts a (sl_pointers s) ->
  own_source a (sl_pointers s) -> iterate gs o m a = bind (own_step s) (write m a).
Proof.
  intros m a s C OW (Q1 & Q2). unfold iterate, own_step. pose proof C as R. apply read_ok in R. rewrite R.
  cbn [bind]. rewrite (reach_own _ _ _ C OW). cbn [bind].
  pose proof OW as (P1 & P2 & P3). rewrite P1, R. cbn [bind].
  destruct (expects _); cbn [bind]; try reflexivity.
  rewrite Q1, R. cbn [bind].
  set (dg := so_draws gs _ _ _).
  destruct (get_new_neighbor (sl_job s) (fst dg)) as [j1| |]; cbn [bind]; try reflexivity.
  unfold write_random at 1. rewrite R. cbn [bind].
  set (s1 := Slot _ _ _). destruct (write_total m a s s1 C) as (m1 & W1). rewrite W1. cbn [bind].
  destruct (write_spec _ _ _ _ W1) as (_ & C1 & _).
  destruct (neighbor_is_better o (jb_stun j1)) as [r| |]; cbn [bind]; try reflexivity.
  destruct (fst r).
  - rewrite (store_own _ _ _ _ C1) by (subst s1; exact OW). cbn [bind]. apply (write_write _ _ _ _ _ W1).
  - rewrite Q2. pose proof C1 as R1. apply read_ok in R1. rewrite R1. cbn [bind].
    subst s1. cbn [sl_random sl_job sl_pointers] in *. set (ug := so_uniform gs _).
    destruct (perform_stun o (fst ug) _) as [j3| |]; cbn [bind]; try reflexivity.
    unfold write_random. rewrite R1. cbn [bind].
    match goal with |- bind (write m1 a ?s2) _ = _ => destruct (write_total m1 a _ s2 C1) as (m2 & W2) end.
    rewrite W2. cbn [bind].
    destruct (write_spec _ _ _ _ W2) as (_ & C2 & _).
    rewrite (store_own _ _ _ _ C2) by exact OW. cbn [sl_random sl_job sl_pointers].
    rewrite (write_write _ _ _ _ _ W2), (write_write _ _ _ _ _ W1). reflexivity.
Qed.

(** ** A whole batch *)

(** Every job of the vector [b] uses its own parts. *)
Definition block_own (m : memory) (b : nat) : Prop :=
  forall i s, cell m (b, i) = Some s -> own_parts (b, i) (sl_pointers s).

Lemma cell_block : forall (m : memory) b l i, nth_error m b = Some (Some l) -> cell m (b, i) = nth_error l i.
Proof. intros m b l i H. unfold cell. cbn. rewrite H. reflexivity. Qed.

Lemma bones_own : forall (m m' : memory) b, (forall i, option_map sl_pointers (cell m' (b, i)) = option_map sl_pointers (cell m (b, i))) ->
  block_own m b -> block_own m' b.
Proof.
  intros m m' b E OW i s C. specialize (E i). rewrite C in E. cbn in E.
  destruct (cell m (b, i)) as [s0|] eqn:C0; [|discriminate]. cbn in E. injection E as E.
  rewrite E. apply OW. exact C0.
Qed.

Lemma interleaved_agree : forall order jobs done ks ks',
  (forall i c d, nth_error done i = Some d -> d <= c -> ks i c = ks' i c) ->
  interleaved o jobs done ks order = interleaved o jobs done ks' order.
Proof.
  induction order as [|i order IH]; intros jobs done ks ks' A; [reflexivity|]. cbn [interleaved].
  destruct (at_index jobs i) as [j| |]; try reflexivity. cbn [bind].
  destruct (at_index done i) as [c| |] eqn:E; try reflexivity. cbn [bind]. apply at_index_ok in E.
  rewrite (A i c c E (le_n _)). destruct (stun_update o j (ks' i c)) as [j'| |]; try reflexivity. cbn [bind].
  apply IH. intros k d e H L. rewrite nth_error_set_nth in H.
  destruct (Nat.eqb_spec i k) as [->|N]; cbn [andb] in H.
  - destruct (k <? length done) eqn:LL; [injection H as <-; apply (A k d c E); lia|].
    apply (A k d e H L).
  - apply (A k d e H L).
Qed.

Lemma iterate_all_spec : forall order m b m' l done, iterate_all gs o m b order = Ok m' ->
  nth_error m b = Some (Some l) -> block_own m b -> length done = length l ->
  exists ks l', interleaved o (map sl_job l) done ks order = Ok (map sl_job l') /\
    nth_error m' b = Some (Some l') /\ same_sizes m m' /\
    (forall a, option_map sl_pointers (cell m' a) = option_map sl_pointers (cell m a)) /\
    (forall a, fst a <> b -> bones_at m' a = bones_at m a).
Proof.
  induction order as [|i order IH]; intros m b m' l done H B OW L; cbn [iterate_all] in H.
  - injection H as <-. exists (fun _ _ => Luck (Draws 0 0 0) f_zero), l.
    cbn [interleaved]. repeat split; auto.
  - apply bind_ok in H. destruct H as (m1 & I & H).
    assert (C : exists s, cell m (b, i) = Some s).
    { unfold iterate in I. apply bind_ok in I. destruct I as (s & R & _). apply read_ok in R. eauto. }
    destruct C as (s & C). pose proof C as Cl. rewrite (cell_block _ _ _ _ B) in Cl.
    destruct (iterate_spec _ _ _ _ I C (OW i s C)) as (k & j' & U & S1 & B1 & O1 & _).
    destruct (same_sizes_block _ _ _ _ S1 B) as (l1 & Bl1 & Ll1).
    assert (P1 : forall a, option_map sl_pointers (cell m1 a) = option_map sl_pointers (cell m a)).
    { intro a. destruct (place_dec a (b, i)) as [->|N].
      - unfold bones_at, bones in B1. rewrite C. destruct (cell m1 (b, i)); [|discriminate]. cbn in B1. injection B1 as _ E.
        cbn. rewrite E. reflexivity.
      - specialize (O1 a N). unfold bones_at, bones in O1. destruct (cell m1 a), (cell m a); try discriminate; auto.
        cbn in O1. injection O1 as _ E. cbn. rewrite E. reflexivity. }
    assert (M1 : map sl_job l1 = set_nth (map sl_job l) i j').
    { apply nth_ext with (d := sl_job s) (d' := sl_job s).
      - rewrite set_nth_length, !map_length. exact Ll1.
      - intros n Ln. rewrite map_length in Ln.
        assert (E : nth_error (map sl_job l1) n = nth_error (set_nth (map sl_job l) i j') n).
        { rewrite nth_error_set_nth, map_length, !nth_error_map, <- !(cell_block _ _ _ _ Bl1), <- !(cell_block _ _ _ _ B).
          destruct (Nat.eqb_spec i n) as [<-|N]; cbn [andb].
          - assert (Li : i < length l) by (apply nth_error_Some; congruence).
            apply Nat.ltb_lt in Li. rewrite Li. unfold bones_at, bones in B1.
            destruct (cell m1 (b, i)); [|discriminate]. cbn in B1. injection B1 as E _. cbn. rewrite E. reflexivity.
          - assert (N' : (b, n) <> (b, i)) by congruence. specialize (O1 _ N'). unfold bones_at, bones in O1.
            destruct (cell m1 (b, n)), (cell m (b, n)); try discriminate; auto.
            cbn in O1. injection O1 as E _. cbn. rewrite E. reflexivity. }
        erewrite nth_error_nth; [|rewrite E; apply nth_error_nth'; rewrite set_nth_length, map_length; lia].
        reflexivity. }
    assert (OW1 : block_own m1 b) by (apply bones_own with m; [intro; apply P1|exact OW]).
    assert (Dn : exists c, nth_error done i = Some c).
    { apply nth_error_some. rewrite L. apply nth_error_Some. congruence. }
    destruct Dn as (c & Dn).
    destruct (IH m1 b m' l1 (set_nth done i (S c)) H Bl1 OW1) as (ks & l' & E & Bl' & S' & P' & O').
    { rewrite set_nth_length. congruence. }
    exists (fun x y => if (x =? i) && (y =? c) then k else ks x y), l'.
    split; [|split; [exact Bl'|split; [apply same_sizes_trans with m1; assumption|split]]].
    + cbn [interleaved].
      assert (X1 : at_index (map sl_job l) i = Ok (sl_job s)).
      { apply at_index_ok. rewrite nth_error_map, Cl. reflexivity. }
      rewrite X1. cbn [bind]. apply at_index_ok in Dn. rewrite Dn. cbn [bind]. rewrite !Nat.eqb_refl. cbn [andb].
      rewrite U. cbn [bind]. rewrite <- M1. rewrite <- E. apply interleaved_agree.
      intros x y d Hd Ly. destruct (Nat.eqb_spec x i) as [->|N]; [|reflexivity].
      destruct (Nat.eqb_spec y c) as [->|N]; [|reflexivity]. exfalso. apply at_index_ok in Dn.
      rewrite nth_set_same in Hd by (apply nth_error_Some; congruence). injection Hd as <-. lia.
    + intro a. rewrite P'. apply P1.
    + intros a Na. rewrite O' by exact Na. apply O1. intros ->. apply Na. reflexivity.
Qed.

(** ** Replication *)

Lemma min_slot_job : forall l (s : slot), sl_job (min_slot s l) = min_job (sl_job s) (map sl_job l).
Proof.
  unfold min_slot, min_job. induction l as [|x l IH]; intro s; [reflexivity|]. cbn [fold_left map].
  destruct (f_lt (job_best (sl_job x)) (job_best (sl_job s))); apply IH.
Qed.

Lemma map_slots_jobs : forall (f : place -> slot -> outcome slot) (g : job -> outcome job) b,
  (forall a s s', f a s = Ok s' -> g (sl_job s) = Ok (sl_job s')) ->
  forall l i l', map_slots f b i l = Ok l' -> map_outcome g (map sl_job l) = Ok (map sl_job l').
Proof.
  intros f g b E. induction l as [|s l IH]; intros i l' H; cbn [map_slots] in H.
  - injection H as <-. reflexivity.
  - apply bind_ok in H. destruct H as (s' & Es & H). apply bind_ok in H. destruct H as (r & Er & H).
    injection H as <-. cbn [map map_outcome]. rewrite (E _ _ _ Es). cbn [bind]. rewrite (IH _ _ Er). reflexivity.
Qed.

Lemma map_slots_nth : forall (f : place -> slot -> outcome slot) b l i l', map_slots f b i l = Ok l' ->
  length l' = length l /\
  forall k s', nth_error l' k = Some s' -> exists s, nth_error l k = Some s /\ f (b, i + k) s = Ok s'.
Proof.
  intros f b. induction l as [|s l IH]; intros i l' H; cbn [map_slots] in H.
  - injection H as <-. split; [reflexivity|]. intros [|k] s' E; discriminate.
  - apply bind_ok in H. destruct H as (s' & Es & H). apply bind_ok in H. destruct H as (r & Er & H).
    injection H as <-. destruct (IH _ _ Er) as (L & N). split; [cbn; congruence|].
    intros [|k] t E; cbn in E.
    + injection E as <-. exists s. rewrite Nat.add_0_r. auto.
    + destruct (N k t E) as (s0 & A & B). exists s0. rewrite Nat.add_succ_r. auto.
Qed.

Lemma replicate_refines : forall (m : memory) b (m' : memory) (l : list slot), replicate m b = Ok m' -> nth_error m b = Some (Some l) ->
  exists l', replicate_best_job (map sl_job l) = Ok (map sl_job l') /\ m' = set_nth m b (Some l') /\
    length l' = length l /\
    forall i s', nth_error l' i = Some s' -> exists s, nth_error l i = Some s /\ sl_random s' = sl_random s /\
      (s' = s \/ sl_pointers s' = new_pointers (b, i) (b, i)).
Proof.
  intros m b m' l H B. unfold replicate in H. pose proof B as B'. apply block_ok in B'. rewrite B' in H. cbn [bind] in H.
  destruct l as [|s0 rest]; [discriminate|].
  apply bind_ok in H. destruct H as (t & T & H). apply bind_ok in H. destruct H as (l' & E & H). injection H as <-.
  exists l'. split; [|split; [reflexivity|]].
  - cbn [map replicate_best_job]. rewrite <- min_slot_job, T. cbn [bind].
    change (sl_job s0 :: map sl_job rest) with (map sl_job (s0 :: rest)).
    eapply map_slots_jobs; [|exact E]. intros a s s' R. unfold replicate_slot in R. cbn beta.
    destruct (f_eq _ _); [congruence|]. apply bind_ok in R. destruct R as (c & -> & R). injection R as <-. reflexivity.
  - destruct (map_slots_nth _ _ _ _ _ E) as (L & N). split; [exact L|].
    intros i s' Hs. destruct (N i s' Hs) as (s & A & R). exists s. split; [exact A|]. unfold replicate_slot in R.
    destruct (f_eq _ _); [injection R as <-; auto|]. apply bind_ok in R. destruct R as (c & _ & R). injection R as <-.
    split; [reflexivity|]. right. reflexivity.
Qed.

(** ** Reset *)

Lemma stun_reset_links : forall j src j', stun_reset o j src = Ok j' -> same_links j j'.
Proof.
  intros j src j' H. unfold stun_reset in H. ok_step H.
  apply bind_ok in H. destruct H as (s1 & _ & H). apply bind_ok in H. destruct H as (s2 & _ & H).
  unfold init_energies in H. ok_step H.
  apply bind_ok in H. destruct H as (r & _ & H). apply bind_ok in H. destruct H as (cs & _ & H).
  repeat ok_step H. injection H as <-. repeat split.
Qed.

Lemma job_reset_links : forall j j', job_reset o j = Ok j' -> same_links j j'.
Proof.
  intros j j' H. unfold job_reset in H. ok_step H.
  apply bind_ok in H. destruct H as (src & _ & H). apply bind_ok in H. destruct H as (j1 & E & H).
  apply bind_ok in H. destruct H as (t & _ & H). injection H as <-.
  apply stun_reset_links in E. exact E.
Qed.

Lemma reset_at_own : forall (m : memory) a s, cell m a = Some s -> own_parts a (sl_pointers s) ->
  reset_at o m a = bind (job_reset o (sl_job s)) (fun j => write m a (Slot (sl_random s) j (sl_pointers s))).
Proof.
  intros m a s C OW. unfold reset_at, job_reset. pose proof C as R. apply read_ok in R. rewrite R. cbn [bind].
  destruct (expects _); cbn [bind]; try reflexivity.
  destruct (initial_schedule _) as [src| |]; cbn [bind]; try reflexivity.
  rewrite (reach_own _ _ _ C OW). cbn [bind].
  destruct (stun_reset o (sl_job s) src) as [j1| |] eqn:E; cbn [bind]; try reflexivity.
  rewrite (store_own _ _ _ _ C OW). rewrite stored_links by (apply stun_reset_links with src; exact E).
  match goal with |- bind (write m a ?x) _ = _ => destruct (write_total m a _ x C) as (m1 & W1) end.
  rewrite W1. cbn [bind]. destruct (write_spec _ _ _ _ W1) as (_ & C1 & _).
  apply read_ok in C1. rewrite C1. cbn [bind sl_job].
  destruct (temperature_reset (jb_temp j1)) as [t| |]; cbn [bind]; try reflexivity.
  unfold write_job. rewrite C1. cbn [bind sl_random sl_job sl_pointers]. apply (write_write _ _ _ _ _ W1).
Qed.

Lemma set_nth_app : forall A (l r : list A) x y, set_nth (l ++ x :: r) (length l) y = l ++ y :: r.
Proof. intros A l r x y. induction l as [|a l IH]; cbn; [reflexivity|]. rewrite IH. reflexivity. Qed.

Lemma reset_all_spec : forall rest pre (m : memory) b m', nth_error m b = Some (Some (pre ++ rest)) ->
  block_own m b -> reset_all o m b (length pre) (length rest) = Ok m' ->
  exists rest', m' = set_nth m b (Some (pre ++ rest')) /\
    map_outcome (job_reset o) (map sl_job rest) = Ok (map sl_job rest') /\
    map sl_pointers rest' = map sl_pointers rest.
Proof.
  induction rest as [|s rest IH]; intros pre m b m' B OW H; cbn [reset_all length] in H.
  - injection H as <-. exists []. rewrite set_nth_id by exact B. auto.
  - apply bind_ok in H. destruct H as (m1 & E & H).
    assert (C : cell m (b, length pre) = Some s).
    { rewrite (cell_block _ _ _ _ B), nth_error_app2 by lia. rewrite Nat.sub_diag. reflexivity. }
    rewrite (reset_at_own _ _ _ C (OW _ _ C)) in E.
    apply bind_ok in E. destruct E as (j & J & W).
    destruct (write_spec _ _ _ _ W) as (_ & _ & _ & _ & l & Bl & _ & M1). cbn [fst snd] in *.
    rewrite B in Bl. injection Bl as <-. rewrite set_nth_app in M1.
    set (s1 := Slot _ _ _) in *.
    assert (Lb : b < length m) by (apply nth_error_Some; congruence).
    destruct (IH (pre ++ [s1]) m1 b m') as (rest' & -> & EM & EP).
    + rewrite M1, nth_set_same by exact Lb. rewrite <- app_assoc. reflexivity.
    + apply bones_own with m; [|exact OW]. intro i. rewrite M1.
      assert (B1 : nth_error (set_nth m b (Some (pre ++ s1 :: rest))) b = Some (Some (pre ++ s1 :: rest)))
        by (apply nth_set_same; exact Lb).
      rewrite (cell_block _ _ _ _ B1), (cell_block _ _ _ _ B).
      destruct (Nat.lt_ge_cases i (length pre)) as [L|L].
      * rewrite !nth_error_app1 by exact L. reflexivity.
      * rewrite !nth_error_app2 by exact L. destruct (i - length pre); reflexivity.
    + rewrite app_length. cbn [length]. rewrite Nat.add_1_r. exact H.
    + exists (s1 :: rest'). split; [|split].
      * rewrite M1, set_nth_twice, <- app_assoc. reflexivity.
      * cbn [map map_outcome]. rewrite J. cbn [bind]. rewrite EM. reflexivity.
      * cbn [map]. rewrite EP. reflexivity.
Qed.

(** ** The state of all optimizers *)

Record good (w : world) : Prop := {
  gd_parts : forall a s, cell (w_memory w) a = Some s ->
    own_parts a (sl_pointers s) /\ pt_random (sl_pointers s) = pt_mutator_random (sl_pointers s);
  gd_live : forall x ob, nth_error (w_objects w) x = Some (Some ob) ->
    exists l b, nth_error (w_memory w) (ob_block ob) = Some (Some l) /\
      Forall (fun s => jb_batch (sl_job s) = b) l;
  gd_distinct : forall x y ox oy, nth_error (w_objects w) x = Some (Some ox) ->
    nth_error (w_objects w) y = Some (Some oy) -> ob_block ox = ob_block oy -> x = y
}.

Lemma good_empty : good (empty_world G).
Proof.
  split.
  - intros [b i] s H. unfold cell in H. cbn in H. destruct b; discriminate.
  - intros [|x] ob H; discriminate.
  - intros [|x] y ox oy H; discriminate.
Qed.

Lemma object_ok : forall (w : world) x ob, object_at w x = Ok ob <-> nth_error (w_objects w) x = Some (Some ob).
Proof.
  intros w x ob. unfold object_at, at_index. destruct (nth_error (w_objects w) x) as [[y|]|]; cbn; split; congruence.
Qed.

Lemma value_ok : forall (w : world) x z, value_of w x = Ok z <->
  exists ob l, nth_error (w_objects w) x = Some (Some ob) /\
    nth_error (w_memory w) (ob_block ob) = Some (Some l) /\ z = with_jobs (ob_head ob) (map sl_job l).
Proof.
  intros w x z. unfold value_of. split.
  - intro H. apply bind_ok in H. destruct H as (ob & A & H). apply bind_ok in H. destruct H as (l & B & H).
    apply object_ok in A. apply block_ok in B. exists ob, l. split; [exact A|split; [exact B|congruence]].
  - intros (ob & l & A & B & ->). apply object_ok in A. apply block_ok in B. rewrite A. cbn [bind]. rewrite B. reflexivity.
Qed.

(** Pointers change only to the slot itself. *)
Definition pointers_kept (m m' : memory) : Prop :=
  forall a s', fst a < length m -> cell m' a = Some s' ->
    (exists s, cell m a = Some s /\ sl_pointers s' = sl_pointers s) \/ sl_pointers s' = new_pointers a a.

(** Optimizers keep their vectors. *)
Definition objects_kept (w w' : world) : Prop :=
  forall y ob', y < length (w_objects w) -> nth_error (w_objects w') y = Some (Some ob') ->
    exists ob, nth_error (w_objects w) y = Some (Some ob) /\ ob_block ob' = ob_block ob.

(** The optimizers other than [x] keep their values. *)
Definition others_kept (w w' : world) (x : nat) : Prop :=
  forall y, y < length (w_objects w) -> y <> x -> value_of w' y = value_of w y.

Lemma with_jobs_id : forall z, with_jobs z (oz_jobs z) = z.
Proof. intros []; reflexivity. Qed.

Lemma finish_jobs : forall z z', finish_update o z = Ok z' -> oz_jobs z' = oz_jobs z.
Proof.
  intros z z' H. unfold finish_update in H. apply bind_ok in H. destruct H as (m & _ & H).
  cbn [oz_last] in H. destruct (f_eq m (oz_last z)).
  - unfold interpolate_progress in H. ok_step H. apply bind_ok in H. destruct H as (p & _ & H). injection H as <-. reflexivity.
  - unfold estimate_progress in H. ok_step H. apply bind_ok in H. destruct H as (p & _ & H).
    apply bind_ok in H. destruct H as (e & _ & H). apply bind_ok in H. destruct H as (r & _ & H).
    repeat ok_step H. injection H as <-. reflexivity.
Qed.

Lemma update_unfold : forall z jobs ks jobs1 jobs2 z', (0 <? oz_batch z)%Z = true -> jobs <> [] ->
  update_jobs o 0 jobs ks = Ok jobs1 -> replicate_best_job jobs1 = Ok jobs2 ->
  finish_update o (with_jobs z jobs2) = Ok z' -> optimizer_update o (with_jobs z jobs) ks = Ok z'.
Proof.
  intros z jobs ks jobs1 jobs2 z' B N U R F. unfold optimizer_update. cbn [oz_batch oz_jobs with_jobs].
  rewrite B. cbn [expects bind]. destruct jobs as [|j jobs]; [congruence|]. cbn [length Nat.eqb negb expects bind].
  rewrite U. cbn [bind]. rewrite R. cbn [bind]. exact F.
Qed.

Lemma fair_spec : forall (l : list slot) order b, fair l order = true -> Forall (fun s => jb_batch (sl_job s) = b) l ->
  l <> [] -> (0 < b)%Z /\ (forall i, In i order -> i < length l) /\
  (forall i, i < length l -> count_occ Nat.eq_dec order i = Z.to_nat b).
Proof.
  intros l order b F A N. unfold fair in F. apply andb_prop in F. destruct F as (F & F3). apply andb_prop in F.
  destruct F as (F1 & F2). rewrite forallb_forall in F1, F2, F3. rewrite Forall_forall in A.
  split; [|split].
  - destruct l as [|s l]; [congruence|]. specialize (F3 s (or_introl eq_refl)). apply Z.ltb_lt in F3.
    rewrite (A s (or_introl eq_refl)) in F3. exact F3.
  - intros i Hi. apply Nat.ltb_lt, F1, Hi.
  - intros i Hi. assert (I : In i (seq 0 (length l))) by (apply in_seq; lia). specialize (F2 i I).
    destruct (nth_error_some _ l i Hi) as (s & E). rewrite E in F2. apply Z.eqb_eq in F2.
    rewrite (A s (nth_error_In _ _ E)) in F2. lia.
Qed.

(** The jobs of a vector after a change that keeps jobs. *)
Lemma bones_jobs : forall (m m' : memory) b l l', nth_error m b = Some (Some l) -> nth_error m' b = Some (Some l') ->
  (forall i, bones_at m' (b, i) = bones_at m (b, i)) -> map sl_job l' = map sl_job l.
Proof.
  intros m m' b l l' B B' E.
  assert (X : map bones l' = map bones l).
  { clear - B B' E. assert (Y : forall i, nth_error (map bones l') i = nth_error (map bones l) i).
    { intro i. specialize (E i). unfold bones_at in E. rewrite (cell_block _ _ _ _ B), (cell_block _ _ _ _ B') in E.
      rewrite !nth_error_map. exact E. }
    clear - Y. revert Y. generalize (map bones l'), (map bones l). intros u. induction u as [|a u IH]; intros [|c v] Y.
    - reflexivity.
    - specialize (Y 0). discriminate.
    - specialize (Y 0). discriminate.
    - pose proof (Y 0) as Y0. cbn in Y0. injection Y0 as ->. f_equal. apply IH. intro i. apply (Y (S i)). }
  apply (f_equal (map fst)) in X. rewrite !map_map in X. exact X.
Qed.

Lemma forall_map_batch : forall b (l : list slot), Forall (fun j => jb_batch j = b) (map sl_job l) <->
  Forall (fun s => jb_batch (sl_job s) = b) l.
Proof. intros b l. rewrite Forall_map. reflexivity. Qed.

Lemma copy_links : forall j j', job_copy j = Ok j' -> same_links j j'.
Proof.
  intros j j' H. unfold job_copy in H. apply bind_ok in H. destruct H as (m & _ & H).
  apply bind_ok in H. destruct H as (s & _ & H). injection H as <-. repeat split.
Qed.

Lemma stun_run_batch : forall ks j j', stun_run o j ks = Ok j' -> jb_batch j' = jb_batch j.
Proof.
  induction ks as [|k ks IH]; intros j j' H; cbn [stun_run] in H; [congruence|].
  apply bind_ok in H. destruct H as (j1 & E & H). apply update_links in E. destruct E as (E & _).
  rewrite (IH _ _ H). exact E.
Qed.

Lemma update_jobs_batch : forall b ks jobs i jobs', Forall (fun j => jb_batch j = b) jobs ->
  update_jobs o i jobs ks = Ok jobs' -> Forall (fun j => jb_batch j = b) jobs'.
Proof.
  intros b ks. induction jobs as [|j jobs IH]; intros i jobs' F H; cbn [update_jobs] in H.
  - injection H as <-. constructor.
  - apply bind_ok in H. destruct H as (j' & E & H). apply bind_ok in H. destruct H as (r & Er & H). injection H as <-.
    inversion F as [|? ? F1 F2]. subst. constructor; [|apply (IH (S i)); assumption].
    unfold job_update in E. ok_step E. apply stun_run_batch in E. exact E.
Qed.

Lemma min_job_in : forall l j, In (min_job j l) (j :: l).
Proof.
  unfold min_job. induction l as [|x l IH]; intro j; cbn [fold_left]; [left; reflexivity|].
  destruct (f_lt _ _); [right; apply IH|]. destruct (IH j) as [E|E]; [left; exact E|right; right; exact E].
Qed.

Lemma replicate_batch : forall b jobs jobs', Forall (fun j => jb_batch j = b) jobs ->
  replicate_best_job jobs = Ok jobs' -> Forall (fun j => jb_batch j = b) jobs'.
Proof.
  intros b [|j jobs] jobs' F H; [discriminate|]. cbn [replicate_best_job] in H.
  apply bind_ok in H. destruct H as (t & T & H).
  apply copy_links in T. destruct T as (T & _).
  assert (Tb : jb_batch t = b) by (rewrite T; rewrite Forall_forall in F; apply F, min_job_in).
  apply map_outcome_forall2 in H.
  assert (Y : forall l l', Forall2 (fun x y => (if f_eq (job_best x) (job_best t) then Ok x
              else bind (job_copy t) (fun c => Ok (job_set_params c (jb_mutator j)))) = Ok y) l l' ->
            Forall (fun j => jb_batch j = b) l -> Forall (fun j => jb_batch j = b) l').
  { intros l l' F2. induction F2 as [|x y l l' E F2 IH]; intro A; [constructor|].
    inversion A as [|? ? A1 A2]. subst. constructor; [|apply IH; assumption].
    destruct (f_eq _ _); [injection E as <-; assumption|].
    apply bind_ok in E. destruct E as (c & C & E). injection E as <-. apply copy_links in C. destruct C as (C & _).
    cbn. congruence. }
  apply (Y _ _ H F).
Qed.

End Facts.
