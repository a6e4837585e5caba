(** * Proofs about mutation *)

From Coq Require Import List ZArith Bool Arith Relations Permutation Sorted Lia.
From Verif Require Import Base F32 ProjectModel ScheduleModel ScheduleSpec
  ScheduleProofs MutatorModel.
Import ListNotations.

(** ** Lists *)

Lemma set_nth_length : forall A (l : list A) i a, length (set_nth l i a) = length l.
Proof.
  intros A l. induction l as [|x l IH]; intros [|i] a; cbn; auto.
Qed.

Lemma set_nth_app : forall A (l r : list A) x a,
  set_nth (l ++ x :: r) (length l) a = l ++ a :: r.
Proof.
  intros A l. induction l as [|y l IH]; intros r x a; cbn; [reflexivity|].
  rewrite IH. reflexivity.
Qed.

Lemma nth_error_split' : forall A (l : list A) i x, nth_error l i = Some x ->
  exists a b, l = a ++ x :: b /\ length a = i.
Proof. intros A l i x H. apply nth_error_split, H. Qed.

Lemma nth_error_mid : forall A (l r : list A) x, nth_error (l ++ x :: r) (length l) = Some x.
Proof.
  intros A l r x. rewrite nth_error_app2, Nat.sub_diag by lia. reflexivity.
Qed.

(** Split a list around two adjacent positions. *)
Lemma split_two : forall A (s : list A) i, S i < length s ->
  exists l a b r, s = l ++ a :: b :: r /\ length l = i.
Proof.
  intros A s i H.
  destruct (nth_error_lt _ s i) as [a Ea]; [lia|].
  destruct (nth_error_split s i Ea) as (l & r & E & L).
  destruct r as [|b r].
  - subst s. rewrite app_length in H. cbn in H. lia.
  - exists l, a, b, r. auto.
Qed.

(** ** Binary search *)

Lemma sorted_nth : forall l, StronglySorted lt l -> forall i j a b,
  i < j -> nth_error l i = Some a -> nth_error l j = Some b -> a < b.
Proof.
  induction 1 as [|x l Hs IH Hf]; intros i j a b L Ha Hb.
  - destruct i; discriminate.
  - destruct j as [|j]; [lia|]. cbn in Hb. destruct i as [|i].
    + cbn in Ha. injection Ha as <-. rewrite Forall_forall in Hf.
      apply Hf. eapply nth_error_In, Hb.
    + cbn in Ha. apply (IH i j); [lia|assumption|assumption].
Qed.

Lemma lower_bound_ok : forall l v, StronglySorted lt l ->
  forall fuel first len, len < fuel -> first + len <= length l ->
  (forall i a, i < first -> nth_error l i = Some a -> a < v) ->
  (forall i a, first + len <= i -> nth_error l i = Some a -> v <= a) ->
  exists k, lower_bound fuel l v first len = Ok k /\ k <= length l /\
    (forall i a, i < k -> nth_error l i = Some a -> a < v) /\
    (forall i a, k <= i -> nth_error l i = Some a -> v <= a).
Proof.
  intros l v Hs. induction fuel as [|fuel IH]; intros first len Hf Hl Lo Hi; [lia|].
  cbn [lower_bound]. destruct (Nat.eqb_spec len 0) as [E|E].
  - subst len. exists first. rewrite Nat.add_0_r in *. auto.
  - assert (Hh : Nat.div2 len < len) by (apply Nat.lt_div2; lia).
    destruct (nth_error_lt _ l (first + Nat.div2 len)) as [m Em]; [lia|].
    rewrite (at_index_Ok _ _ _ _ Em). cbn [bind].
    destruct (Nat.ltb_spec m v) as [L|L].
    + apply IH.
      * lia.
      * lia.
      * intros i a Hia Ha. destruct (Nat.eq_dec i (first + Nat.div2 len)) as [->|Ne].
        -- congruence.
        -- assert (a < m) by (apply (sorted_nth l Hs i (first + Nat.div2 len)); [lia|assumption|assumption]).
           lia.
      * intros i a Hia Ha. apply (Hi i a); [lia|exact Ha].
    + apply IH.
      * lia.
      * lia.
      * exact Lo.
      * intros i a Hia Ha. destruct (Nat.eq_dec i (first + Nat.div2 len)) as [->|Ne].
        -- congruence.
        -- assert (m < a) by (apply (sorted_nth l Hs (first + Nat.div2 len) i); [lia|assumption|assumption]).
           lia.
Qed.

Lemma binary_search_ok : forall l v, StronglySorted lt l ->
  exists b, binary_search l v = Ok b /\ (b = true <-> In v l).
Proof.
  intros l v Hs. unfold binary_search.
  destruct (lower_bound_ok l v Hs (S (length l)) 0 (length l)) as (k & E & Hk & Lo & Hi).
  - lia.
  - lia.
  - intros i a Hi. lia.
  - intros i a H Ha. assert (i < length l) by (apply nth_error_Some; congruence). lia.
  - rewrite E. cbn [bind]. destruct (Nat.eqb_spec k (length l)) as [Ek|Ek].
    + exists false. split; [reflexivity|]. split; [discriminate|]. intro H.
      apply In_nth_error in H. destruct H as (i & H).
      assert (i < length l) by (apply nth_error_Some; congruence).
      specialize (Lo i v ltac:(lia) H). lia.
    + destruct (nth_error_lt _ l k) as [m Em]; [lia|].
      rewrite (at_index_Ok _ _ _ _ Em). cbn [bind].
      exists (negb (v <? m)). split; [reflexivity|].
      rewrite negb_true_iff, Nat.ltb_ge. specialize (Hi k m ltac:(lia) Em). split.
      * intro L. assert (m = v) by lia. subst m. eapply nth_error_In, Em.
      * intro H. apply In_nth_error in H. destruct H as (i & H).
        destruct (Nat.lt_trichotomy i k) as [L|[->|L]].
        -- specialize (Lo i v L H). lia.
        -- assert (m = v) by congruence. lia.
        -- pose proof (sorted_nth l Hs k i m v L Em H). lia.
Qed.

(** ** Draws *)

Lemma uniform_int_ok : forall n k raw, (Z.of_nat (S n) - k = Z.of_nat n - (k - 1))%Z /\
  ((0 <= size_minus n k)%Z ->
   exists i, uniform_int (size_minus n k) raw = Ok i /\ (Z.of_nat i <= size_minus n k)%Z).
Proof.
  intros n k raw. split; [lia|]. intro H. unfold uniform_int.
  rewrite (proj2 (Z.leb_le _ _) H). cbn [expects bind].
  eexists. split; [reflexivity|].
  pose proof (Nat.mod_upper_bound raw (S (Z.to_nat (size_minus n k)))). lia.
Qed.

Lemma uniform_int_hit : forall n k i, (Z.of_nat i <= size_minus n k)%Z ->
  uniform_int (size_minus n k) i = Ok i.
Proof.
  intros n k i H. unfold uniform_int.
  rewrite (proj2 (Z.leb_le _ _)) by lia. cbn [expects bind].
  rewrite Nat.mod_small by lia. reflexivity.
Qed.

Section Mutation.
Variable p : params.
Hypothesis HP : problem p.

Lemma valid_length : forall s, valid_schedule p s -> length s = task_count p.
Proof.
  intros s V. pose proof (Permutation_length (vs_complete p s V)) as H.
  rewrite map_length, seq_length in H. exact H.
Qed.

Lemma valid_nodup : forall s, valid_schedule p s -> NoDup (map it_task s).
Proof.
  intros s V. eapply Permutation_NoDup.
  - apply Permutation_sym, vs_complete, V.
  - apply seq_NoDup.
Qed.

Lemma valid_range : forall s x, valid_schedule p s -> In x s -> it_task x < task_count p.
Proof.
  intros s x V H. assert (In (it_task x) (seq 0 (task_count p))).
  { apply (Permutation_in _ (vs_complete p s V)). apply in_map, H. }
  apply in_seq in H0. lia.
Qed.

(** What a task needs, as a boolean decision. *)
Lemma is_swappable_ok : forall a b, a < task_count p -> b < task_count p -> a <> b ->
  exists r, is_swappable p a b = Ok r /\ (r = true <-> ~ depends p a b).
Proof.
  intros a b Ha Hb Hne. unfold is_swappable. rewrite (pb_deps_len p HP).
  rewrite (proj2 (Nat.ltb_lt _ _) Ha), (proj2 (Nat.ltb_lt _ _) Hb).
  rewrite (proj2 (Nat.eqb_neq _ _) Hne). cbn [negb expects bind].
  destruct (nth_error_lt _ (sp_deps p) a) as [deps E].
  { rewrite (pb_deps_len p HP). exact Ha. }
  unfold row. rewrite (at_index_Ok _ _ _ _ E). cbn [bind].
  assert (Hs : StronglySorted lt deps).
  { pose proof (pb_deps_sorted p HP) as F. rewrite Forall_forall in F.
    apply F. eapply nth_error_In, E. }
  destruct (binary_search_ok deps b Hs) as (r & Er & Hr). rewrite Er. cbn [bind].
  exists (negb r). split; [reflexivity|]. rewrite negb_true_iff. split.
  - intros F (row & E' & H). rewrite E in E'. injection E' as <-.
    apply Hr in H. congruence.
  - intro H. apply not_true_is_false. intro T. apply H. exists deps.
    split; [exact E|]. apply Hr, T.
Qed.

(** *** Exchanging two neighbours *)

Lemma swap_valid : forall l a b r,
  valid_schedule p (l ++ a :: b :: r) -> ~ depends p (it_task b) (it_task a) ->
  valid_schedule p (l ++ b :: a :: r).
Proof.
  intros l a b r V Hnd.
  assert (NDup := valid_nodup _ V).
  constructor.
  - eapply Permutation_trans; [|apply (vs_complete p _ V)].
    rewrite !map_app. apply Permutation_app_head. cbn [map]. apply perm_swap.
  - intros pre x post E d Hd.
    assert (Cases : (exists r1, l = pre ++ x :: r1) \/ (pre = l /\ x = b) \/
                    (pre = l ++ [b] /\ x = a) \/
                    (exists r0, pre = l ++ b :: a :: r0 /\ r = r0 ++ x :: post)).
    { clear - E. revert l E. induction pre as [|y pre IH]; intros l E.
      - destruct l as [|z l]; cbn in E; injection E as E1 E2; subst.
        + right. left. auto.
        + left. exists l. reflexivity.
      - destruct l as [|z l]; cbn in E; injection E as E1 E2; subst.
        + destruct pre as [|y2 pre]; cbn in E2; injection E2 as E3 E4; subst.
          * right. right. left. auto.
          * right. right. right. exists pre. auto.
        + destruct (IH l E2) as [(r1 & ->)|[(-> & ->)|[(-> & ->)|(r0 & -> & ->)]]].
          * left. exists r1. reflexivity.
          * right. left. auto.
          * right. right. left. auto.
          * right. right. right. exists r0. auto. }
    destruct Cases as [(r1 & ->)|[(-> & ->)|[(-> & ->)|(r0 & -> & ->)]]].
    + apply (vs_order p _ V pre x (r1 ++ a :: b :: r)); [|exact Hd].
      rewrite <- app_assoc. reflexivity.
    + pose proof (vs_order p _ V (l ++ [a]) b r) as O.
      rewrite <- app_assoc in O. specialize (O eq_refl d Hd).
      rewrite map_app in O. apply in_app_or in O. destruct O as [O|[O|[]]]; [exact O|].
      subst d. contradiction.
    + rewrite map_app. apply in_or_app. left.
      apply (vs_order p _ V l a (b :: r)); [reflexivity|exact Hd].
    + pose proof (vs_order p _ V (l ++ a :: b :: r0) x post) as O.
      rewrite <- app_assoc in O. specialize (O eq_refl d Hd).
      rewrite !map_app in *. cbn [map] in *. apply in_app_or in O. apply in_or_app.
      destruct O as [O|[O|[O|O]]]; [left|right; right; left|right; left|right; right; right]; exact O.
  - intros x Hx. apply (vs_agents p _ V). apply in_app_or in Hx. apply in_or_app.
    destruct Hx as [H|[H|[H|H]]]; [left|right; right; left|right; left|right; right; right]; exact H.
Qed.

Lemma try_swap_cases : forall s raw, valid_schedule p s ->
  exists s', try_swap p raw s = Ok s' /\
    (s' = s \/
     exists l a b r, s = l ++ a :: b :: r /\ s' = l ++ b :: a :: r /\
       ~ depends p (it_task b) (it_task a)).
Proof.
  intros s raw V. unfold try_swap.
  pose proof (valid_length s V) as L. pose proof (pb_tasks p HP) as T.
  destruct (Nat.eqb_spec (length s) 0); [lia|]. cbn [negb expects bind].
  destruct (Nat.eqb_spec (length s) 1) as [E1|E1]; [exists s; auto|].
  destruct (proj2 (uniform_int_ok (length s) 2 raw)) as (k & Ek & Hk).
  { unfold size_minus. lia. }
  rewrite Ek. cbn [bind]. unfold size_minus in Hk.
  destruct (split_two _ s k) as (l & b & a & r & Es & Hl); [lia|].
  replace (1 + k - 1) with k by lia. change (1 + k) with (S k).
  assert (Ea : nth_error s (S k) = Some a).
  { rewrite Es, <- Hl. change (b :: a :: r) with ([b] ++ a :: r). rewrite app_assoc.
    replace (S (length l)) with (length (l ++ [b])) by (rewrite app_length; cbn; lia).
    apply nth_error_mid. }
  assert (Eb : nth_error s k = Some b) by (rewrite Es, <- Hl; apply nth_error_mid).
  rewrite (at_index_Ok _ _ _ _ Ea), (at_index_Ok _ _ _ _ Eb). cbn [bind].
  assert (Hab : it_task a <> it_task b).
  { pose proof (valid_nodup s V) as ND. rewrite Es in ND. rewrite map_app in ND. cbn [map] in ND.
    apply NoDup_remove_2 in ND. intro E. apply ND. apply in_or_app. right. left. exact E. }
  destruct (is_swappable_ok (it_task a) (it_task b)) as (ok & Eok & Hok).
  { apply (valid_range s); [exact V|]. eapply nth_error_In, Ea. }
  { apply (valid_range s); [exact V|]. eapply nth_error_In, Eb. }
  { exact Hab. }
  rewrite Eok. cbn [bind]. destruct ok.
  - exists (l ++ a :: b :: r). split.
    + f_equal. rewrite Es.
      change (b :: a :: r) with ([b] ++ a :: r). rewrite app_assoc.
      replace (S k) with (length (l ++ [b])) by (rewrite app_length; cbn; lia).
      rewrite set_nth_app, <- app_assoc. cbn [app]. rewrite <- Hl. apply set_nth_app.
    + right. exists l, b, a, r. split; [exact Es|]. split; [reflexivity|].
      apply Hok. reflexivity.
  - exists s. auto.
Qed.

(** A swap drawn on purpose. *)
Lemma try_swap_hit : forall l a b r,
  valid_schedule p (l ++ a :: b :: r) -> ~ depends p (it_task b) (it_task a) ->
  try_swap p (length l) (l ++ a :: b :: r) = Ok (l ++ b :: a :: r).
Proof.
  intros l a b r V Hnd. set (s := l ++ a :: b :: r) in *. unfold try_swap.
  assert (Ls : length s = length l + S (S (length r))) by (unfold s; rewrite app_length; reflexivity).
  destruct (Nat.eqb_spec (length s) 0); [lia|]. cbn [negb expects bind].
  destruct (Nat.eqb_spec (length s) 1) as [E1|E1]; [lia|].
  rewrite uniform_int_hit by (unfold size_minus; lia). cbn [bind].
  replace (1 + length l - 1) with (length l) by lia. change (1 + length l) with (S (length l)).
  assert (Ea : nth_error s (S (length l)) = Some b).
  { unfold s. change (a :: b :: r) with ([a] ++ b :: r). rewrite app_assoc.
    replace (S (length l)) with (length (l ++ [a])) by (rewrite app_length; cbn; lia).
    apply nth_error_mid. }
  assert (Eb : nth_error s (length l) = Some a) by apply nth_error_mid.
  rewrite (at_index_Ok _ _ _ _ Ea), (at_index_Ok _ _ _ _ Eb). cbn [bind].
  assert (Hab : it_task b <> it_task a).
  { pose proof (valid_nodup s V) as ND. unfold s in ND. rewrite map_app in ND. cbn [map] in ND.
    apply NoDup_remove_2 in ND. intro E. apply ND. apply in_or_app. right. left. exact E. }
  destruct (is_swappable_ok (it_task b) (it_task a)) as (ok & Eok & Hok).
  { apply (valid_range s); [exact V|]. eapply nth_error_In, Ea. }
  { apply (valid_range s); [exact V|]. eapply nth_error_In, Eb. }
  { exact Hab. }
  rewrite Eok. cbn [bind]. apply Hok in Hnd. rewrite Hnd.
  f_equal. unfold s. change (a :: b :: r) with ([a] ++ b :: r). rewrite app_assoc.
  replace (S (length l)) with (length (l ++ [a])) by (rewrite app_length; cbn; lia).
  rewrite set_nth_app, <- app_assoc. cbn [app]. apply set_nth_app.
Qed.

(** *** Changing an agent *)

Lemma reassign_valid : forall l x r a,
  valid_schedule p (l ++ x :: r) -> allowed p (it_task x) a ->
  valid_schedule p (l ++ Item (it_task x) a :: r).
Proof.
  intros l x r a V Ha. constructor.
  - pose proof (vs_complete p _ V) as C. rewrite map_app in *. exact C.
  - intros pre y post E d Hd.
    assert (Cases : exists pre' y' post', l ++ x :: r = pre' ++ y' :: post' /\
              it_task y' = it_task y /\ map it_task pre' = map it_task pre).
    { clear - E. revert pre E. induction l as [|z l IH]; intros pre E.
      - destruct pre as [|z pre]; cbn in E; injection E as E1 E2; subst.
        + exists [], x, post. auto.
        + exists (x :: pre), y, post. auto.
      - destruct pre as [|z' pre]; cbn in E; injection E as E1 E2; subst.
        + exists [], y, (l ++ x :: r). auto.
        + destruct (IH pre E2) as (pre' & y' & post' & A & B & C).
          exists (z' :: pre'), y', post'. cbn. rewrite A, C. auto. }
    destruct Cases as (pre' & y' & post' & A & B & C). rewrite <- C.
    apply (vs_order p _ V pre' y' post' A). rewrite B. exact Hd.
  - intros y Hy. apply in_app_or in Hy. destruct Hy as [Hy|[<-|Hy]].
    + apply (vs_agents p _ V). apply in_or_app. left. exact Hy.
    + exact Ha.
    + apply (vs_agents p _ V). apply in_or_app. right. right. exact Hy.
Qed.

Lemma update_agent_cases : forall s r1 r2, valid_schedule p s ->
  exists l x r a, s = l ++ x :: r /\ allowed p (it_task x) a /\
    update_agent p r1 r2 s = Ok (l ++ Item (it_task x) a :: r).
Proof.
  intros s r1 r2 V. unfold update_agent.
  pose proof (valid_length s V) as L. pose proof (pb_tasks p HP) as T.
  destruct (Nat.eqb_spec (length s) 0); [lia|]. cbn [negb expects bind].
  rewrite (pb_agents_len p HP), L, Nat.eqb_refl. cbn [expects bind]. rewrite <- L.
  destruct (proj2 (uniform_int_ok (length s) 1 r1)) as (k & Ek & Hk).
  { unfold size_minus. lia. }
  rewrite Ek. cbn [bind]. unfold size_minus in Hk.
  destruct (nth_error_lt _ s k) as [x Ex]; [lia|].
  rewrite (at_index_Ok _ _ _ _ Ex). cbn [bind].
  assert (Hx : it_task x < task_count p).
  { apply (valid_range s); [exact V|]. eapply nth_error_In, Ex. }
  destruct (pb_agents_some p HP _ Hx) as (a0 & av & Eav & Ha0).
  unfold row. rewrite (at_index_Ok _ _ _ _ Eav). cbn [bind].
  destruct (proj2 (uniform_int_ok (length av) 1 r2)) as (j & Ej & Hj).
  { unfold size_minus. destruct av; [destruct Ha0|cbn [length]; lia]. }
  rewrite Ej. cbn [bind]. unfold size_minus in Hj.
  destruct (nth_error_lt _ av j) as [a Ea]; [lia|].
  rewrite (at_index_Ok _ _ _ _ Ea). cbn [bind].
  destruct (nth_error_split s k Ex) as (l & r & Es & Hl).
  exists l, x, r, a. split; [exact Es|]. split.
  - exists av. split; [exact Eav|]. eapply nth_error_In, Ea.
  - f_equal. rewrite Es, <- Hl. apply set_nth_app.
Qed.

Lemma update_agent_hit : forall l x r a,
  valid_schedule p (l ++ x :: r) -> allowed p (it_task x) a ->
  exists r2, update_agent p (length l) r2 (l ++ x :: r) = Ok (l ++ Item (it_task x) a :: r).
Proof.
  intros l x r a V (av & Eav & Ha). apply In_nth_error in Ha. destruct Ha as (j & Ej).
  exists j. set (s := l ++ x :: r) in *. unfold update_agent.
  pose proof (valid_length s V) as L. pose proof (pb_tasks p HP) as T.
  assert (Ls : length s = length l + S (length r)) by (unfold s; rewrite app_length; reflexivity).
  destruct (Nat.eqb_spec (length s) 0); [lia|]. cbn [negb expects bind].
  rewrite (pb_agents_len p HP), L, Nat.eqb_refl. cbn [expects bind]. rewrite <- L.
  rewrite uniform_int_hit by (unfold size_minus; lia). cbn [bind].
  assert (Ex : nth_error s (length l) = Some x) by apply nth_error_mid.
  rewrite (at_index_Ok _ _ _ _ Ex). cbn [bind].
  unfold row. rewrite (at_index_Ok _ _ _ _ Eav). cbn [bind].
  assert (j < length av) by (apply nth_error_Some; congruence).
  rewrite uniform_int_hit by (unfold size_minus; lia). cbn [bind].
  rewrite (at_index_Ok _ _ _ _ Ej). cbn [bind]. f_equal. unfold s. apply set_nth_app.
Qed.

(** *** One mutation *)

Lemma mutate_split : forall d s, valid_schedule p s -> exists s1 s',
  try_swap p (dr_swap d) s = Ok s1 /\ valid_schedule p s1 /\ swapped_once s s1 /\
  update_agent p (dr_task d) (dr_agent d) s1 = Ok s' /\ valid_schedule p s' /\
  reassigned_once s1 s' /\ mutate p d s = Ok s'.
Proof.
  intros d s V. destruct (try_swap_cases s (dr_swap d) V) as (s1 & E1 & C).
  assert (V1 : valid_schedule p s1).
  { destruct C as [->|(l & a & b & r & -> & -> & H)]; [exact V|].
    apply swap_valid; assumption. }
  assert (W1 : swapped_once s s1).
  { destruct C as [->|(l & a & b & r & -> & -> & H)]; [left; reflexivity|].
    right. exists l, a, b, r. auto. }
  destruct (update_agent_cases s1 (dr_task d) (dr_agent d) V1) as (l & x & r & a & Es & Ha & E2).
  exists s1, (l ++ Item (it_task x) a :: r).
  split; [exact E1|]. split; [exact V1|]. split; [exact W1|]. split; [exact E2|].
  split; [rewrite Es in V1; apply reassign_valid; assumption|].
  split; [exists l, x, r, a; auto|].
  unfold mutate. pose proof (valid_length s V). pose proof (pb_tasks p HP).
  destruct (Nat.eqb_spec (length s) 0); [lia|]. cbn [negb expects bind].
  rewrite E1. cbn [bind]. exact E2.
Qed.

Lemma mutate_many_valid : forall ds s, valid_schedule p s ->
  exists s', mutate_many p ds s = Ok s' /\ valid_schedule p s'.
Proof.
  induction ds as [|d ds IH]; intros s V; cbn [mutate_many].
  - exists s. auto.
  - destruct (mutate_split d s V) as (s1 & s' & _ & _ & _ & _ & V' & _ & E).
    rewrite E. cbn [bind]. apply IH, V'.
Qed.

Lemma mutate_many_app : forall ds es s s1 s2,
  mutate_many p ds s = Ok s1 -> mutate_many p es s1 = Ok s2 ->
  mutate_many p (ds ++ es) s = Ok s2.
Proof.
  induction ds as [|d ds IH]; intros es s s1 s2 H1 H2; cbn [app mutate_many] in *.
  - injection H1 as <-. exact H2.
  - destruct (mutate p d s) as [s'| |] eqn:E; cbn [bind] in *; try discriminate.
    eapply IH; eassumption.
Qed.

(** *** Reachability *)

Definition reaches (s s' : list item) : Prop := exists ds, mutate_many p ds s = Ok s'.

Lemma reaches_refl : forall s, reaches s s.
Proof. intro s. exists []. reflexivity. Qed.

Lemma reaches_trans : forall a b c, reaches a b -> reaches b c -> reaches a c.
Proof.
  intros a b c (d1 & H1) (d2 & H2). exists (d1 ++ d2). eapply mutate_many_app; eassumption.
Qed.

Lemma mutate_Ok : forall d s s1 s2, s <> [] -> try_swap p (dr_swap d) s = Ok s1 ->
  update_agent p (dr_task d) (dr_agent d) s1 = Ok s2 -> mutate p d s = Ok s2.
Proof.
  intros d s s1 s2 Hne E1 E2. unfold mutate.
  destruct (Nat.eqb_spec (length s) 0); [destruct s; [congruence|discriminate]|].
  cbn [negb expects bind]. rewrite E1. cbn [bind]. exact E2.
Qed.

Lemma item_eta : forall x, Item (it_task x) (it_agent x) = x.
Proof. intros [t a]. reflexivity. Qed.

(** Exchange two neighbours, leaving every agent as it is. *)
Lemma reach_swap : forall l a b r,
  valid_schedule p (l ++ a :: b :: r) -> ~ depends p (it_task b) (it_task a) ->
  reaches (l ++ a :: b :: r) (l ++ b :: a :: r).
Proof.
  intros l a b r V H. pose proof (swap_valid l a b r V H) as V'.
  destruct (update_agent_hit l b (a :: r) (it_agent b)) as (r2 & E2).
  { exact V'. }
  { apply (vs_agents p _ V'). apply in_or_app. right. left. reflexivity. }
  rewrite item_eta in E2.
  exists [Draws (length l) (length l) r2]. cbn [mutate_many].
  rewrite (mutate_Ok _ _ (l ++ b :: a :: r) (l ++ b :: a :: r)).
  - reflexivity.
  - destruct l; discriminate.
  - apply try_swap_hit; assumption.
  - exact E2.
Qed.

(** Keep the order and the agents for one mutation out of two: the pair of
    mutations used to change one agent only. *)
Lemma reach_agent : forall l x r a,
  valid_schedule p (l ++ x :: r) -> allowed p (it_task x) a ->
  reaches (l ++ x :: r) (l ++ Item (it_task x) a :: r).
Proof.
  intros l x r a V Ha.
  destruct (update_agent_hit l x r a V Ha) as (r2 & E2).
  destruct (try_swap_cases (l ++ x :: r) 0 V) as (s1 & E1 & C).
  destruct C as [->|(l0 & u & v & r0 & Es & -> & H)].
  - exists [Draws 0 (length l) r2]. cbn [mutate_many].
    rewrite (mutate_Ok _ _ (l ++ x :: r) (l ++ Item (it_task x) a :: r)); auto.
    destruct l; discriminate.
  - (* exchange, then exchange back *)
    rewrite Es in E1, V |- *.
    assert (Hne : l0 ++ v :: u :: r0 <> []) by (destruct l0; discriminate).
    pose proof (swap_valid _ _ _ _ V H) as V'.
    assert (Hback : ~ depends p (it_task u) (it_task v)).
    { intro D. pose proof (vs_order p _ V l0 u (v :: r0) eq_refl _ D) as I.
      pose proof (valid_nodup _ V) as ND. rewrite map_app in ND. cbn [map] in ND.
      change (it_task u :: it_task v :: map it_task r0)
        with ([it_task u] ++ it_task v :: map it_task r0) in ND.
      rewrite app_assoc in ND. apply NoDup_remove_2 in ND. apply ND.
      apply in_or_app. left. apply in_or_app. left. exact I. }
    eapply reaches_trans; [apply reach_swap; assumption|].
    assert (E1' : try_swap p (length l0) (l0 ++ v :: u :: r0) = Ok (l0 ++ u :: v :: r0)).
    { apply try_swap_hit; assumption. }
    exists [Draws (length l0) (length l) r2]. cbn [mutate_many].
    rewrite (mutate_Ok _ _ (l0 ++ u :: v :: r0) (l ++ Item (it_task x) a :: r)).
    + reflexivity.
    + exact Hne.
    + exact E1'.
    + rewrite <- Es. exact E2.
Qed.

(** Move an item to the front of the unfinished part. *)
Lemma reach_front : forall mid done x post,
  valid_schedule p (done ++ mid ++ x :: post) ->
  (forall y, In y mid -> ~ depends p (it_task x) (it_task y)) ->
  reaches (done ++ mid ++ x :: post) (done ++ x :: mid ++ post) /\
  valid_schedule p (done ++ x :: mid ++ post).
Proof.
  intros mid. induction mid as [|y mid IH] using rev_ind; intros done x post V H.
  - split; [apply reaches_refl|exact V].
  - rewrite <- (app_assoc mid [y] (x :: post)) in V |- *.
    rewrite <- (app_assoc mid [y] post). cbn [app] in *.
    assert (Hy : ~ depends p (it_task x) (it_task y)).
    { apply H. apply in_or_app. right. left. reflexivity. }
    rewrite app_assoc in V. pose proof (swap_valid _ _ _ _ V Hy) as V1.
    pose proof (reach_swap _ _ _ _ V Hy) as R1. 
    rewrite <- (app_assoc done mid (y :: x :: post)) in R1.
    rewrite <- (app_assoc done mid (x :: y :: post)) in R1, V1.
    destruct (IH done x (y :: post) V1) as [R2 V2].
    { intros z Hz. apply H. apply in_or_app. left. exact Hz. }
    split; [|exact V2]. eapply reaches_trans; eassumption.
Qed.

Lemma reach_all : forall rest' done rest,
  valid_schedule p (done ++ rest) -> valid_schedule p (done ++ rest') ->
  reaches (done ++ rest) (done ++ rest').
Proof.
  induction rest' as [|x' rest' IH]; intros done rest V V'.
  - assert (rest = []) as ->; [|apply reaches_refl].
    pose proof (valid_length _ V) as L. pose proof (valid_length _ V') as L'.
    rewrite app_length in *. cbn in L'. destruct rest; [reflexivity|cbn in L; lia].
  - assert (Hin : In (it_task x') (map it_task rest)).
    { assert (I : In (it_task x') (map it_task (done ++ rest))).
      { apply (Permutation_in _ (Permutation_sym (vs_complete p _ V))).
        apply (Permutation_in _ (vs_complete p _ V')). rewrite map_app.
        apply in_or_app. right. left. reflexivity. }
      rewrite map_app in I. apply in_app_or in I. destruct I as [I|I]; [|exact I].
      exfalso. pose proof (valid_nodup _ V') as ND. rewrite map_app in ND. cbn [map] in ND.
      apply NoDup_remove_2 in ND. apply ND. apply in_or_app. left. exact I. }
    apply in_map_iff in Hin. destruct Hin as (x & Ex & Hx).
    apply in_split in Hx. destruct Hx as (mid & post & ->).
    destruct (reach_front mid done x post V) as [R1 V1].
    { intros y Hy D. rewrite Ex in D.
      pose proof (vs_order p _ V' done x' rest' eq_refl _ D) as I.
      pose proof (valid_nodup _ V) as ND. apply in_split in Hy. destruct Hy as (m1 & m2 & ->).
      rewrite <- app_assoc in ND. cbn [app] in ND. rewrite app_assoc, map_app in ND. cbn [map] in ND.
      apply NoDup_remove_2 in ND. apply ND. apply in_or_app. left.
      rewrite map_app. apply in_or_app. left. exact I. }
    eapply reaches_trans; [exact R1|].
    assert (Ha : allowed p (it_task x) (it_agent x')).
    { rewrite Ex. apply (vs_agents p _ V'). apply in_or_app. right. left. reflexivity. }
    pose proof (reach_agent done x (mid ++ post) (it_agent x') V1 Ha) as R2.
    pose proof (reassign_valid done x (mid ++ post) (it_agent x') V1 Ha) as V2.
    rewrite Ex, item_eta in R2, V2.
    eapply reaches_trans; [exact R2|].
    specialize (IH (done ++ [x']) (mid ++ post)). rewrite <- !app_assoc in IH. cbn [app] in IH.
    apply IH; assumption.
Qed.

End Mutation.
