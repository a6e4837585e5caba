(** * Proofs about the interleaving of the iterations of jobs in memory *)

From Coq Require Import List ZArith Bool Arith Lia Permutation.
From Verif Require Import Base F32 ProjectModel ScheduleModel MutatorModel MakespanModel TemperatureModel
  StunModel SearchSpec StunProofs OptimizerModel OptimizerSpec OptimizerProofs OptimizerSame
  BindingModel BindingSpec BindingProofs BindingEffects OrderSpec.
Import ListNotations.

Section Order.
Context {G : Type} (gs : source G) (o : oracles).
Notation memory := (memory G).
Notation slot := (slot G).
Notation world := (world G).

(** ** One iteration as a function of the job and its source *)

Definition step : iteration G := fun j g =>
  _ <- expects (negb (length (st_current (jb_stun j)) =? 0)) ;;
  let dg := so_draws gs (jb_mutator j) (st_current (jb_stun j)) g in
  j1 <- get_new_neighbor j (fst dg) ;;
  r <- neighbor_is_better o (jb_stun j1) ;;
  let j2 := with_stun j1 (snd r) in
  if fst r then Ok (stored j2 j, snd dg)
  else
    let ug := so_uniform gs (snd dg) in
    j3 <- perform_stun o (fst ug) j2 ;;
    Ok (stored j3 j, snd ug).

Lemma iterate_step : forall m a s, cell m a = Some s -> own_parts a (sl_pointers s) ->
  pt_random (sl_pointers s) = pt_mutator_random (sl_pointers s) ->
  iterate gs o m a =
  (rs <- read m (pt_mutator_random (sl_pointers s)) ;;
   r <- step (sl_job s) (sl_random rs) ;;
   m1 <- write_random m (pt_mutator_random (sl_pointers s)) (snd r) ;;
   write_job m1 a (fun _ => fst r)).
Proof.
  intros m a s C OW Q. unfold iterate, step. pose proof C as R. apply read_ok in R. rewrite R.
  cbn [bind]. rewrite (reach_own _ _ _ C OW). cbn [bind].
  pose proof OW as (P1 & P2 & P3). rewrite P1, R. cbn [bind]. rewrite Q.
  set (q := pt_mutator_random (sl_pointers s)).
  destruct (cell m q) as [rs|] eqn:CQ.
  2:{ rewrite (read_broken m q CQ). cbn [bind]. unfold expects. destruct (negb _); reflexivity. }
  pose proof CQ as RQ. apply read_ok in RQ. rewrite RQ. cbn [bind].
  destruct (expects _); cbn [bind]; try reflexivity.
  set (dg := so_draws gs _ _ _).
  destruct (get_new_neighbor (sl_job s) (fst dg)) as [j1| |]; cbn [bind]; try reflexivity.
  unfold write_random at 1. rewrite RQ. cbn [bind].
  match goal with |- bind (write m q ?s1) _ = _ => destruct (write_total m q rs s1 CQ) as (m1 & W1) end.
  assert (WR1 : write_random m q (snd dg) = Ok m1) by (unfold write_random; rewrite RQ; exact W1).
  rewrite W1. cbn [bind].
  destruct (write_random_spec _ _ _ _ WR1) as (_ & B1 & _ & _ & _ & _).
  destruct (neighbor_is_better o (jb_stun j1)) as [r| |]; cbn [bind]; try reflexivity.
  assert (At : forall x : memory, bones_at x a = bones_at m a -> exists sx, cell x a = Some sx /\
            sl_job sx = sl_job s /\ sl_pointers sx = sl_pointers s).
  { intros x E. unfold bones_at in E. rewrite C in E. destruct (cell x a) as [sx|]; [|discriminate].
    exists sx. cbn in E. injection E as E E'. auto. }
  assert (St : forall (x : memory) j, bones_at x a = bones_at m a -> store x a j = write_job x a (fun _ => stored j (sl_job s))).
  { intros x j E. destruct (At x E) as (sx & Cx & Jx & Qx).
    rewrite (store_own _ _ _ _ Cx) by (rewrite Qx; exact OW). unfold write_job. apply read_ok in Cx. rewrite Cx.
    cbn [bind]. rewrite Jx. reflexivity. }
  destruct (fst r).
  - cbn [bind fst snd]. rewrite WR1. cbn [bind]. apply St, B1.
  - destruct (write_spec _ _ _ _ W1) as (_ & C1 & _). pose proof C1 as R1. apply read_ok in R1. rewrite R1. cbn [bind].
    cbn [sl_random]. set (ug := so_uniform gs _).
    destruct (perform_stun o (fst ug) _) as [j3| |]; cbn [bind]; try reflexivity. cbn [fst snd].
    assert (E2 : write_random m1 q (snd ug) = write_random m q (snd ug)).
    { unfold write_random. rewrite R1, RQ. cbn [bind sl_job sl_pointers]. apply (write_write _ _ _ _ _ W1). }
    rewrite E2. destruct (write_random m q (snd ug)) as [m2| |] eqn:W2; cbn [bind]; try reflexivity.
    apply St. apply (write_random_spec _ _ _ _ W2).
Qed.

(** ** Memory with the same contents *)

Lemma same_memory : forall m m' : memory, same_sizes m m' ->
  (forall a, bones_at m a = bones_at m' a) -> (forall a, random_at m a = random_at m' a) -> m = m'.
Proof.
  intros m m' S B R.
  assert (E : forall a, cell m a = cell m' a).
  { intro a. specialize (B a). specialize (R a). unfold bones_at, random_at, bones in *.
    destruct (cell m a) as [[r j p]|], (cell m' a) as [[r' j' p']|]; cbn in *; congruence. }
  clear B R. revert m' S E. induction m as [|x m IH]; intros [|x' m'] S E; try discriminate; [reflexivity|].
  unfold same_sizes in S. cbn [map] in S. injection S as S0 S. f_equal.
  - assert (N : forall i, cell (x :: m) (0, i) = cell (x' :: m') (0, i)) by (intro; apply E).
    destruct x as [l|], x' as [l'|]; try discriminate; [|reflexivity]. f_equal.
    unfold cell in N. cbn in N. clear - N. revert l' N. induction l as [|s l IH]; intros [|s' l'] N.
    + reflexivity.
    + specialize (N 0). discriminate.
    + specialize (N 0). discriminate.
    + pose proof (N 0) as N0. cbn in N0. injection N0 as ->. f_equal. apply IH. intro i. apply (N (S i)).
  - apply IH; [exact S|]. intros [b i]. apply (E (Datatypes.S b, i)).
Qed.

(** What an iteration does, as a relation. *)
Lemma iterate_iff : forall m a s, cell m a = Some s -> own_parts a (sl_pointers s) ->
  pt_random (sl_pointers s) = pt_mutator_random (sl_pointers s) ->
  let q := pt_mutator_random (sl_pointers s) in
  forall m', iterate gs o m a = Ok m' <->
  exists g r, random_at m q = Some g /\ step (sl_job s) g = Ok r /\ same_sizes m m' /\
    bones_at m' a = Some (fst r, sl_pointers s) /\ (forall a', a' <> a -> bones_at m' a' = bones_at m a') /\
    random_at m' q = Some (snd r) /\ (forall a', a' <> q -> random_at m' a' = random_at m a').
Proof.
  intros m a s C OW Q q.
  assert (Fwd : forall m', iterate gs o m a = Ok m' ->
    exists g r, random_at m q = Some g /\ step (sl_job s) g = Ok r /\ same_sizes m m' /\
    bones_at m' a = Some (fst r, sl_pointers s) /\ (forall a', a' <> a -> bones_at m' a' = bones_at m a') /\
    random_at m' q = Some (snd r) /\ (forall a', a' <> q -> random_at m' a' = random_at m a')).
  { intros m' H. rewrite (iterate_step m a s C OW Q) in H. fold q in H.
    apply bind_ok in H. destruct H as (rs & RS & H). apply read_ok in RS.
    apply bind_ok in H. destruct H as (r & ST & H). apply bind_ok in H. destruct H as (m1 & W1 & H).
    destruct (write_random_spec _ _ _ _ W1) as (S1 & B1 & O1 & _ & R1 & _).
    destruct (write_job_spec _ _ _ _ H) as (S2 & R2 & O2 & _ & s1 & C1 & C2).
    exists (sl_random rs), r. split; [unfold random_at; rewrite RS; reflexivity|]. split; [exact ST|].
    split; [apply same_sizes_trans with m1; assumption|].
    split.
    { unfold bones_at. rewrite C2. cbn. unfold bones. cbn. specialize (B1 a). unfold bones_at in B1.
      rewrite C1, C in B1. cbn in B1. unfold bones in B1. injection B1 as _ B1. rewrite B1. reflexivity. }
    split; [intros a' N; unfold bones_at; rewrite O2 by exact N; apply B1|].
    split; [rewrite R2; exact R1|]. intros a' N. rewrite R2. unfold random_at. rewrite O1 by exact N. reflexivity. }
  intro m'. split; [apply Fwd|].
  intros (g & r & RG & ST & S & BA & BO & RA & RO).
  assert (T : exists m2, iterate gs o m a = Ok m2).
  { rewrite (iterate_step m a s C OW Q). fold q. unfold random_at in RG.
    destruct (cell m q) as [rs|] eqn:CQ; [|discriminate]. cbn in RG. injection RG as <-.
    pose proof CQ as RQ. apply read_ok in RQ. rewrite RQ. cbn [bind]. rewrite ST. cbn [bind].
    unfold write_random. rewrite RQ. cbn [bind].
    match goal with |- context [write m q ?s1] => destruct (write_total m q rs s1 CQ) as (m1 & W1) end.
    rewrite W1. cbn [bind].
    assert (WR1 : write_random m q (snd r) = Ok m1) by (unfold write_random; rewrite RQ; exact W1).
    destruct (write_random_spec _ _ _ _ WR1) as (_ & B1 & _). specialize (B1 a). unfold bones_at in B1. rewrite C in B1.
    destruct (cell m1 a) as [s1|] eqn:C1; [|discriminate]. unfold write_job. pose proof C1 as R1. apply read_ok in R1.
    rewrite R1. cbn [bind]. apply (write_total m1 a s1 _ C1). }
  destruct T as (m2 & T). rewrite T. f_equal.
  destruct (Fwd m2 T) as (g2 & r2 & RG2 & ST2 & S2 & BA2 & BO2 & RA2 & RO2).
  assert (g2 = g) as -> by congruence. assert (r2 = r) as -> by congruence.
  apply same_memory.
  - unfold same_sizes in *. congruence.
  - intro a'. destruct (place_dec a' a) as [->|N]; [congruence|]. rewrite BO, BO2 by exact N. reflexivity.
  - intro a'. destruct (place_dec a' q) as [->|N]; [congruence|]. rewrite RO, RO2 by exact N. reflexivity.
Qed.

(** ** Jobs that do not share sources *)

Definition lined (m : memory) : Prop :=
  forall a s, cell m a = Some s -> own_parts a (sl_pointers s) /\
    pt_random (sl_pointers s) = pt_mutator_random (sl_pointers s) /\
    snd (pt_mutator_random (sl_pointers s)) = snd a.

Lemma iterate_cell : forall m a m', iterate gs o m a = Ok m' -> exists s, cell m a = Some s.
Proof.
  intros m a m' I. unfold iterate in I. apply bind_ok in I. destruct I as (s & R & _). apply read_ok in R. eauto.
Qed.

Lemma iterate_pointers : forall m a m', lined m -> iterate gs o m a = Ok m' ->
  forall a', option_map sl_pointers (cell m' a') = option_map sl_pointers (cell m a').
Proof.
  intros m a m' L I a'. destruct (iterate_cell _ _ _ I) as (s & C). destruct (L a s C) as (P & Q & _).
  apply (iterate_iff m a s C P Q) in I. destruct I as (g & r & _ & _ & _ & BA & BO & _).
  destruct (place_dec a' a) as [->|N].
  - unfold bones_at, bones in BA. rewrite C. destruct (cell m' a) as [s'|]; [|discriminate]. cbn in *. congruence.
  - specialize (BO a' N). unfold bones_at, bones in BO. destruct (cell m' a'), (cell m a'); cbn in *; congruence.
Qed.

Lemma lined_pointers : forall m m', lined m ->
  (forall a', option_map sl_pointers (cell m' a') = option_map sl_pointers (cell m a')) -> lined m'.
Proof.
  intros m m' L E a s C. specialize (E a). rewrite C in E. cbn in E. destruct (cell m a) as [s0|] eqn:C0; [|discriminate].
  cbn in E. injection E as E. rewrite E. apply L. exact C0.
Qed.

Lemma iterate_swap : forall m b i k m1 m2, lined m -> i <> k ->
  iterate gs o m (b, i) = Ok m1 -> iterate gs o m1 (b, k) = Ok m2 ->
  exists m1', iterate gs o m (b, k) = Ok m1' /\ iterate gs o m1' (b, i) = Ok m2.
Proof.
  intros m b i k m1 m2 L N I1 I2.
  destruct (iterate_cell _ _ _ I1) as (s & C). destruct (L _ s C) as (P & Q & D).
  pose proof (lined_pointers m m1 L (iterate_pointers _ _ _ L I1)) as L1.
  destruct (iterate_cell _ _ _ I2) as (t1 & C1). destruct (L1 _ t1 C1) as (P1 & Q1 & D1).
  pose proof I1 as K1. apply (iterate_iff m (b, i) s C P Q) in K1. destruct K1 as (g & r & RG & ST & S1 & BA & BO & RA & RO).
  pose proof I2 as K2. apply (iterate_iff m1 (b, k) t1 C1 P1 Q1) in K2.
  destruct K2 as (h & u & RH & SU & S2 & BA2 & BO2 & RA2 & RO2).
  set (q := pt_mutator_random (sl_pointers s)) in *. set (p := pt_mutator_random (sl_pointers t1)) in *.
  assert (NA : (b, k) <> (b, i)) by congruence.
  assert (NQ : p <> q) by (intro E; apply N; cbn [snd] in D, D1; congruence).
  assert (T : exists t, cell m (b, k) = Some t /\ sl_job t = sl_job t1 /\ sl_pointers t = sl_pointers t1).
  { specialize (BO _ NA). unfold bones_at, bones in BO. rewrite C1 in BO. destruct (cell m (b, k)) as [t|]; [|discriminate].
    exists t. cbn in BO. injection BO as E1 E2. auto. }
  destruct T as (t & CT & JT & PT).
  destruct (L _ t CT) as (Pt & Qt & Dt).
  assert (RHm : random_at m p = Some h) by (rewrite <- RH; symmetry; apply RO; exact NQ).
  (* the first of the two in the other order *)
  assert (X : exists m1', iterate gs o m (b, k) = Ok m1').
  { rewrite (iterate_step m (b, k) t CT Pt Qt). rewrite PT. fold p. unfold random_at in RHm.
    destruct (cell m p) as [rs|] eqn:CP; [|discriminate]. cbn in RHm. injection RHm as RHm.
    pose proof CP as RP. apply read_ok in RP. rewrite RP. cbn [bind]. rewrite RHm, JT, SU. cbn [bind].
    unfold write_random. rewrite RP. cbn [bind].
    match goal with |- context [write m p ?s1] => destruct (write_total m p rs s1 CP) as (mm & W1) end.
    rewrite W1. cbn [bind].
    assert (WR1 : write_random m p (snd u) = Ok mm) by (unfold write_random; rewrite RP; exact W1).
    destruct (write_random_spec _ _ _ _ WR1) as (_ & B1 & _). specialize (B1 (b, k)). unfold bones_at in B1. rewrite CT in B1.
    destruct (cell mm (b, k)) as [s1|] eqn:Cm; [|discriminate]. unfold write_job. pose proof Cm as Rm. apply read_ok in Rm.
    rewrite Rm. cbn [bind]. apply (write_total mm (b, k) s1 _ Cm). }
  destruct X as (m1' & X). exists m1'. split; [exact X|].
  apply (iterate_iff m (b, k) t CT Pt Qt) in X. rewrite PT in X. fold p in X.
  destruct X as (h' & u' & RH' & SU' & S1' & BA' & BO' & RA' & RO').
  assert (h' = h) as -> by congruence. assert (u' = u) as -> by (rewrite JT in SU'; congruence).
  assert (T' : exists s', cell m1' (b, i) = Some s' /\ sl_job s' = sl_job s /\ sl_pointers s' = sl_pointers s).
  { specialize (BO' (b, i) (not_eq_sym NA)). unfold bones_at, bones in BO'. rewrite C in BO'.
    destruct (cell m1' (b, i)) as [s'|]; [|discriminate]. exists s'. cbn in BO'. injection BO' as E1 E2. auto. }
  destruct T' as (s' & C' & JS & PS).
  assert (P' : own_parts (b, i) (sl_pointers s')) by (rewrite PS; exact P).
  assert (Q' : pt_random (sl_pointers s') = pt_mutator_random (sl_pointers s')) by (rewrite PS; exact Q).
  apply (iterate_iff m1' (b, i) s' C' P' Q'). rewrite PS. fold q.
  exists g, r. split; [rewrite RO' by (apply not_eq_sym; exact NQ); exact RG|]. split; [rewrite JS; exact ST|].
  split; [unfold same_sizes in *; congruence|].
  split; [rewrite BO2 by (apply not_eq_sym; exact NA); exact BA|].
  split.
  { intros a' Na. destruct (place_dec a' (b, k)) as [->|N2]; [rewrite BA2, BA'; reflexivity|].
    rewrite BO2, BO' by exact N2. apply BO. exact Na. }
  split; [rewrite RO2 by (apply not_eq_sym; exact NQ); exact RA|].
  intros a' Na. destruct (place_dec a' p) as [->|N2]; [congruence|].
  rewrite RO2, RO' by exact N2. apply RO. exact Na.
Qed.

Lemma iterate_all_order : forall order order', Permutation order order' ->
  forall m b m', lined m -> iterate_all gs o m b order = Ok m' -> iterate_all gs o m b order' = Ok m'.
Proof.
  induction 1 as [|i u v P IH|i k u|u v w P1 IH1 P2 IH2]; intros m b m' L H.
  - exact H.
  - cbn [iterate_all] in *. apply bind_ok in H. destruct H as (m1 & I & H). rewrite I. cbn [bind].
    apply IH; [|exact H]. apply (lined_pointers m m1 L (iterate_pointers _ _ _ L I)).
  - destruct (Nat.eq_dec i k) as [->|N]; [exact H|]. cbn [iterate_all] in *.
    apply bind_ok in H. destruct H as (m1 & I1 & H). apply bind_ok in H. destruct H as (m2 & I2 & H).
    destruct (iterate_swap m b k i m1 m2 L (not_eq_sym N) I1 I2) as (m1' & J1 & J2).
    rewrite J1. cbn [bind]. rewrite J2. exact H.
  - apply IH2; [exact L|]. apply IH1; [exact L|exact H].
Qed.

(** ** Histories *)

Lemma lined_empty : lined (w_memory (empty_world G)).
Proof. intros [b i] s H. unfold cell in H. cbn in H. destruct b; discriminate. Qed.

Lemma good_lined : forall w : world, good w ->
  (forall a s, cell (w_memory w) a = Some s -> snd (pt_mutator_random (sl_pointers s)) = snd a) -> lined (w_memory w).
Proof. intros w Gd H a s C. destruct (gd_parts w Gd a s C) as (P & Q). auto. Qed.

Lemma cell_app : forall (m : memory) l a s, cell (m ++ [Some l]) a = Some s ->
  (fst a < length m /\ cell m a = Some s) \/ (fst a = length m /\ nth_error l (snd a) = Some s).
Proof.
  intros m l [b i] s H. unfold cell in *. cbn [fst snd] in *. destruct (Nat.lt_ge_cases b (length m)) as [L|L].
  - left. rewrite nth_error_app1 in H by exact L. auto.
  - right. rewrite nth_error_app2 in H by exact L. destruct (b - length m) as [|k] eqn:E; cbn in H.
    + split; [lia|exact H].
    + destruct k; discriminate.
Qed.

Lemma execute_lined : forall w c w', good w -> lined (w_memory w) -> execute gs o w c = Ok w' -> lined (w_memory w').
Proof.
  intros w c w' Gd L H. pose proof (execute_kept gs o w c w' Gd H) as K. apply good_lined; [apply (kp_good _ _ _ K)|].
  intros a s C.
  assert (Old : fst a < length (w_memory w) -> snd (pt_mutator_random (sl_pointers s)) = snd a).
  { intro La. destruct (kp_pointers _ _ _ K a s La C) as [(s0 & C0 & E)|E]; rewrite E; [apply (L a s0 C0)|reflexivity]. }
  destruct (Nat.lt_ge_cases (fst a) (length (w_memory w))) as [La|La]; [apply Old, La|].
  destruct c; cbn [execute] in H.
  - apply bind_ok in H. destruct H as (z & Z & H). injection H as <-. cbn [w_memory] in C.
    apply cell_app in C. destruct C as [(C & _)|(E & C)]; [lia|].
    assert (LJ : length (oz_jobs z) = length seeds).
    { unfold optimizer_new in Z. ok_step Z. ok_step Z. apply bind_ok in Z. destruct Z as (jobs & J & Z). ok_step Z.
      injection Z as <-. cbn [oz_jobs]. apply map_outcome_forall2 in J. apply Forall2_length in J. rewrite seq_length in J. auto. }
    apply (new_slots_nth _ _ _ _ _ LJ) in C. destruct C as (_ & ->). reflexivity.
  - exfalso. apply bind_ok in H. destruct H as (ob & OB & H). apply object_ok in OB. ok_step H.
    apply bind_ok in H. destruct H as (l & B & H). ok_step H. ok_step H. apply block_ok in B.
    apply bind_ok in H. destruct H as (m1 & I & H). apply bind_ok in H. destruct H as (m2 & R & H).
    apply bind_ok in H. destruct H as (l2 & B2 & H). apply bind_ok in H. destruct H as (z' & F & H). injection H as <-.
    cbn [w_memory] in C. 
    destruct (iterate_all_spec gs o order (w_memory w) (ob_block ob) m1 l (repeat 0 (length l)) I B
      (good_block_own w _ Gd) (repeat_length _ _)) as (_ & l1 & _ & B1 & S1 & _).
    destruct (replicate_refines m1 _ m2 l1 R B1) as (l' & _ & -> & _).
    assert (fst a < length m1); [|apply same_sizes_length in S1; lia].
    rewrite <- (set_nth_length _ m1 (ob_block ob) (Some l')). apply nth_error_Some. intro E. unfold cell in C. rewrite E in C. discriminate.
  - exfalso. apply bind_ok in H. destruct H as (ob & OB & H). apply object_ok in OB. ok_step H. ok_step H.
    apply bind_ok in H. destruct H as (l & B & H). ok_step H. apply block_ok in B.
    apply bind_ok in H. destruct H as (m1 & I & H). injection H as <-. cbn [w_memory] in C.
    destruct (reset_all_spec o l [] (w_memory w) (ob_block ob) m1 B (good_block_own w _ Gd) I) as (l' & -> & _).
    assert (fst a < length (w_memory w)); [|lia].
    rewrite <- (set_nth_length _ (w_memory w) (ob_block ob) (Some ([] ++ l'))). apply nth_error_Some. intro E. unfold cell in C. rewrite E in C. discriminate.
  - exfalso. apply bind_ok in H. destruct H as (ob & OB & H). apply bind_ok in H. destruct H as (l & B & H). ok_step H.
    apply bind_ok in H. destruct H as (l' & M & H). injection H as <-. cbn [w_memory] in C.
    assert (fst a < length (w_memory w)); [|lia].
    rewrite <- (set_nth_length _ (w_memory w) (ob_block ob) (Some l')). apply nth_error_Some. intro E. unfold cell in C. rewrite E in C. discriminate.
  - apply bind_ok in H. destruct H as (ob & OB & H). apply bind_ok in H. destruct H as (l & B & H). apply block_ok in B.
    apply bind_ok in H. destruct H as (l' & M & H). injection H as <-. cbn [w_memory] in C.
    apply cell_app in C. destruct C as [(C & _)|(E & C)]; [lia|].
    destruct (map_slots_nth _ _ _ _ _ M) as (_ & N). destruct (N _ _ C) as (s0 & A & F). unfold copy_slot in F.
    apply bind_ok in F. destruct F as (j & _ & F). injection F as <-. cbn [sl_pointers copied_pointers pt_mutator_random].
    apply (L (ob_block ob, snd a) s0). rewrite (cell_block _ _ _ _ B). exact A.
  - exfalso. apply bind_ok in H. destruct H as (ob & OB & H). injection H as <-. cbn [w_memory] in C.
    assert (fst a < length (w_memory w)); [|lia]. apply nth_error_Some. intro E. unfold cell in C. rewrite E in C. discriminate.
  - exfalso. apply bind_ok in H. destruct H as (ob & OB & H). injection H as <-. cbn [w_memory] in C.
    assert (fst a < length (w_memory w)); [|lia].
    rewrite <- (set_nth_length _ (w_memory w) (ob_block ob) None). apply nth_error_Some. intro E. unfold cell in C. rewrite E in C. discriminate.
Qed.

Lemma execute_all_lined : forall cs w w', good w -> lined (w_memory w) -> execute_all gs o w cs = Ok w' -> lined (w_memory w').
Proof.
  induction cs as [|c cs IH]; intros w w' Gd L H; cbn [execute_all] in H; [injection H as <-; exact L|].
  apply bind_ok in H. destruct H as (w1 & E & H). apply (IH w1 w'); [|apply (execute_lined w c w1 Gd L E)|exact H].
  apply (kp_good _ _ _ (execute_kept gs o w c w1 Gd E)).
Qed.

Lemma fair_order : forall (l : list slot) order order', Permutation order order' -> fair l order = true -> fair l order' = true.
Proof.
  intros l order order' P F. unfold fair in *. apply andb_prop in F. destruct F as (F & F3). apply andb_prop in F.
  destruct F as (F1 & F2). rewrite F3, andb_true_r. apply andb_true_intro. split.
  - rewrite forallb_forall in *. intros i Hi. apply F1. apply (Permutation_in i (Permutation_sym P) Hi).
  - rewrite forallb_forall in *. intros i Hi. specialize (F2 i Hi). destruct (nth_error l i); [|reflexivity].
    rewrite (proj1 (Permutation_count_occ Nat.eq_dec order order') P) in F2. exact F2.
Qed.

Lemma update_order : forall w x order order' w', lined (w_memory w) -> Permutation order order' ->
  execute gs o w (Update x order) = Ok w' -> execute gs o w (Update x order') = Ok w'.
Proof.
  intros w x order order' w' L P H. cbn [execute] in *.
  destruct (object_at w x) as [ob| |]; cbn [bind] in *; try discriminate.
  destruct (expects (0 <? oz_batch (ob_head ob))%Z); cbn [bind] in *; try discriminate.
  destruct (block (w_memory w) (ob_block ob)) as [l| |]; cbn [bind] in *; try discriminate.
  destruct (expects (negb (length l =? 0))); cbn [bind] in *; try discriminate.
  ok_step H. rewrite (fair_order l order order' P X). cbn [expects bind].
  apply bind_ok in H. destruct H as (m1 & I & H). rewrite (iterate_all_order order order' P _ _ _ L I). exact H.
Qed.

Lemma fair_same : forall (l : list slot) order order', fair l order = true -> fair l order' = true -> Permutation order order'.
Proof.
  intros l order order' F F'. apply (Permutation_count_occ Nat.eq_dec). intro i. unfold fair in *.
  apply andb_prop in F, F'. destruct F as (F & _), F' as (F' & _). apply andb_prop in F, F'.
  destruct F as (F1 & F2), F' as (F1' & F2'). rewrite forallb_forall in *.
  destruct (Nat.lt_ge_cases i (length l)) as [Li|Li].
  - assert (I : In i (seq 0 (length l))) by (apply in_seq; lia). specialize (F2 i I). specialize (F2' i I).
    destruct (nth_error_some _ l i Li) as (s & E). rewrite E in F2, F2'. apply Z.eqb_eq in F2, F2'. lia.
  - assert (N : forall u, (forall k, In k u -> (k <? length l) = true) -> count_occ Nat.eq_dec u i = 0).
    { intros u Hu. apply count_occ_not_In. intro I. specialize (Hu i I). apply Nat.ltb_lt in Hu. lia. }
    rewrite (N order F1), (N order' F1'). reflexivity.
Qed.

Lemma execute_reordered : forall w c c' w', lined (w_memory w) -> reordered c c' ->
  execute gs o w c = Ok w' -> execute gs o w c' = Ok w'.
Proof. intros w c c' w' L R H. destruct R as [x u v P|c]; [apply (update_order w x u v w' L P H)|exact H]. Qed.

Lemma execute_all_reordered : forall cs cs', Forall2 reordered cs cs' -> forall w w', good w -> lined (w_memory w) ->
  execute_all gs o w cs = Ok w' -> execute_all gs o w cs' = Ok w'.
Proof.
  induction 1 as [|c c' cs cs' R F IH]; intros w w' Gd L H; [exact H|]. cbn [execute_all] in *.
  apply bind_ok in H. destruct H as (w1 & E & H). rewrite (execute_reordered w c c' w1 L R E). cbn [bind].
  apply IH; [apply (kp_good _ _ _ (execute_kept gs o w c w1 Gd E))|apply (execute_lined w c w1 Gd L E)|exact H].
Qed.
End Order.
