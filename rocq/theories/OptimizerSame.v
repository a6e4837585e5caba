(** * Resets, totality and interleavings of the optimizer *)

From Coq Require Import List ZArith Bool Arith Lia Reals Lra.
From Flocq Require Import Core BinarySingleNaN.
From Verif Require Import Base F32 F32Facts NormaliseProofs F32Signed ProjectModel ScheduleModel ScheduleSpec ScheduleProofs
  MutatorModel MutatorProofs MakespanModel TimelineSpec MakespanProofs TemperatureModel TemperatureSpec
  TemperatureProofs StunModel SearchSpec StunProofs SameProofs StunProps OptimizerModel OptimizerSpec
  OptimizerProofs.
Import ListNotations.

(** ** Relations between lists of jobs *)

Lemma agree_map : forall A B (R : A -> A -> Prop) (S : B -> B -> Prop) (f g : A -> outcome B) l l',
  Forall2 R l l' -> (forall a b, In a l -> R a b -> agree S (f a) (g b)) ->
  agree (Forall2 S) (map_outcome f l) (map_outcome g l').
Proof.
  intros A B R S f g l l' H. induction H as [|a b l l' Hab H IH]; intro HF; cbn [map_outcome].
  - constructor.
  - apply agree_bind with (R := S); [apply HF; [left; reflexivity|exact Hab]|]. intros x y Hxy.
    apply agree_bind with (R := Forall2 S); [apply IH; intros; apply HF; [right|]; assumption|].
    intros xs ys Hxs. cbn. constructor; assumption.
Qed.

Lemma agree_Ok : forall A (R : A -> A -> Prop) x y a, agree R x y -> x = Ok a -> exists b, y = Ok b /\ R a b.
Proof. intros A R x y a H ->. destruct y; cbn in H; try contradiction. eauto. Qed.

Section Same.
Variables (o : oracles) (p : params) (op : options).
Hypothesis HP : problem p.
Notation reached := (job_reached o p op).

Lemma same_copy_reached : forall j j', reached j -> same_job j j' -> agree same_job (job_copy j) (job_copy j').
Proof.
  intros j j' R S. pose proof (reached_inv o p op j HP R) as I.
  pose proof (valid_length p _ (ji_best p p j I)) as L0. pose proof (valid_length p _ (ji_one p p j I)) as L1.
  pose proof (ji_two_len p p j I) as L2. pose proof (pb_tasks p HP) as T.
  apply same_copy; auto; try lia; congruence.
Qed.

Lemma same_min : forall l l' j j', same_job j j' -> Forall2 same_job l l' ->
  same_job (min_job j l) (min_job j' l').
Proof.
  intros l l' j j' S H. revert j j' S. induction H as [|a b l l' Hab H IH]; intros j j' S; [exact S|].
  unfold min_job. cbn [fold_left].
  rewrite <- (proj2 (same_observed a b Hab)), <- (proj2 (same_observed j j' S)).
  destruct (f_lt (job_best a) (job_best j)); apply IH; assumption.
Qed.

Lemma same_set_params : forall j j' q, same_job j j' -> same_job (job_set_params j q) (job_set_params j' q).
Proof.
  intros j j' q [H1 H2 H3 H4 H5 H6 H7 H8 H9 H10 H11 H12 H13 H14 H15]. constructor; cbn; auto.
Qed.

Lemma same_replicate : forall jobs jobs', Forall reached jobs -> Forall2 same_job jobs jobs' ->
  agree (Forall2 same_job) (replicate_best_job jobs) (replicate_best_job jobs').
Proof.
  intros jobs jobs' F H. destruct H as [|j j' l l' Hj H]; [exact Logic.I|].
  unfold replicate_best_job.
  assert (F' := F). inversion F' as [|? ? R0 F0]; subst.
  destruct (min_job_spec l j) as [I _]; [apply (reached_num o p op HP), R0| |].
  { intros k Hk. apply (reached_num o p op HP). rewrite Forall_forall in F0. apply F0, Hk. }
  assert (Rm : reached (min_job j l)) by (rewrite Forall_forall in F; apply F, I).
  pose proof (same_copy_reached _ _ Rm (same_min l l' j j' Hj H)) as SC.
  destruct (job_copy (min_job j l)) as [t| |] eqn:E; destruct (job_copy (min_job j' l')) as [t'| |];
    cbn [agree] in SC; try contradiction; cbn [bind]; try exact Logic.I.
  assert (Rt : reached t) by (apply jr_copy with (min_job j l); assumption).
  apply agree_map with (R := same_job); [constructor; assumption|].
  intros a b _ Hab. rewrite <- (proj2 (same_observed a b Hab)), <- (proj2 (same_observed t t' SC)).
  destruct (f_eq (job_best a) (job_best t)); [exact Hab|].
  apply agree_bind with (R := same_job); [apply same_copy_reached; assumption|].
  intros c c' Hc. cbn. rewrite <- (sj_mutator j j' Hj). apply same_set_params, Hc.
Qed.

Lemma same_update_jobs : forall ks jobs jobs' i, Forall2 same_job jobs jobs' ->
  agree (Forall2 same_job) (update_jobs o i jobs ks) (update_jobs o i jobs' ks).
Proof.
  intros ks jobs jobs' i H. revert i. induction H as [|j j' l l' Hj H IH]; intro i; cbn [update_jobs].
  - constructor.
  - apply agree_bind with (R := same_job); [apply same_job_update, Hj|]. intros a b Hab.
    apply agree_bind with (R := Forall2 same_job); [apply IH|]. intros x y Hxy. cbn. constructor; assumption.
Qed.

Lemma same_front : forall y z, same_optimizer y z ->
  optimizer_best y = optimizer_best z /\ optimizer_schedule y = optimizer_schedule z.
Proof.
  intros y z S. pose proof (so_jobs_same y z S) as H.
  unfold optimizer_best, optimizer_schedule, best_job, at_index.
  destruct H as [|j j' l l' Hj H]; cbn [nth_error bind]; [auto|].
  destruct (same_observed j j' Hj) as [A B]. rewrite A, B. auto.
Qed.

Lemma same_estimated : forall y z, same_optimizer y z -> observed y = observed z.
Proof.
  intros y z S. destruct (same_front y z S) as [A B]. destruct S as [S1 S2 S3 S4 S5 S6 S7 _].
  unfold observed, estimated_progress, has_converged. rewrite A, B, S2, S3, S4, S5. reflexivity.
Qed.

Lemma same_optimizer_update : forall y z ks, Forall reached (oz_jobs y) -> same_optimizer y z ->
  agree same_optimizer (optimizer_update o y ks) (optimizer_update o z ks).
Proof.
  intros y z ks F S. assert (S' := S). destruct S' as [S1 S2 S3 S4 S5 S6 S7 S8].
  unfold optimizer_update. rewrite <- S1, <- (Forall2_length S8).
  apply agree_expects, agree_expects.
  pose proof (same_update_jobs ks _ _ 0 S8) as A.
  destruct (update_jobs o 0 (oz_jobs y) ks) as [jobs1| |] eqn:E1;
    destruct (update_jobs o 0 (oz_jobs z) ks) as [jobs1'| |]; cbn [agree] in A; try contradiction;
    cbn [bind]; try exact Logic.I.
  destruct (update_jobs_reached o p op HP ks _ 0 jobs1 F E1) as [F1 _].
  apply agree_bind with (R := Forall2 same_job); [apply same_replicate; assumption|].
  intros a b Hab. rewrite S2, S3, S4, S5, S6, S7.
  set (y1 := Build_optimizer _ _ _ _ _ _ _ a). set (z1 := Build_optimizer _ _ _ _ _ _ _ b).
  assert (S1' : same_optimizer y1 z1) by (constructor; try reflexivity; exact Hab).
  destruct (same_front y1 z1 S1') as [B _]. rewrite <- B.
  destruct (optimizer_best y1) as [m| |] eqn:EM; cbn [bind]; try exact Logic.I.
  cbn [oz_last]. change (oz_last y1) with (oz_last z1).
  destruct (f_eq m (oz_last z1)).
  - unfold interpolate_progress, idle_progress. cbn [oz_epochs oz_max_idle oz_idle y1 z1].
    apply agree_expects.
    apply agree_bind with (R := eq); [apply agree_eq|]. intros q q' <-. cbn.
    constructor; try reflexivity. exact Hab.
  - unfold estimate_progress. rewrite <- B, EM. unfold idle_progress.
    cbn [oz_epochs oz_max_idle oz_idle oz_curve y1 z1]. apply agree_expects.
    apply agree_bind with (R := eq); [apply agree_eq|]. intros q q' <-. cbn [bind].
    apply agree_bind with (R := eq); [apply agree_eq|]. intros r r' <-.
    apply agree_expects, agree_expects. cbn. constructor; try reflexivity. exact Hab.
Qed.

Variable threads : nat.

Lemma same_optimizer_run : forall ks n y z, OI o p op threads y -> same_optimizer y z ->
  agree same_optimizer (optimizer_run o y ks n) (optimizer_run o z ks n).
Proof.
  intros ks n. induction n as [|n IH]; intros y z I S; cbn [optimizer_run]; [exact S|].
  specialize (IH y z I S).
  destruct (optimizer_run o y ks n) as [y1| |] eqn:E; destruct (optimizer_run o z ks n) as [z1| |];
    cbn [agree] in IH; try contradiction; cbn [bind]; try exact Logic.I.
  apply same_optimizer_update; [|exact IH]. apply (orun_inv o p op HP threads ks n y y1 I E).
Qed.

(** ** Resets *)

(** The options never change. *)
Lemma reached_options : forall j, reached j ->
  st_gamma (jb_stun j) = op_gamma op /\ tp_scale (jb_temp j) = op_scale op /\
  tp_window (jb_temp j) = op_window op /\ tp_mask (jb_temp j) = Z.to_N (op_period op - 1).
Proof.
  intros j R. induction R as [j H|j k j' R IH H|j j' R IH H|j j' R IH H].
  - destruct (job_new_cases p p HP o op j eq_refl H) as (_ & _ & _ & G & _ & _ & _ & _ & _ & T).
    split; [exact G|]. unfold temperature_new in T. ok_step T. ok_step T. ok_step T. ok_step T.
    injection T as <-. auto.
  - destruct (update_cases p p HP o j k j' (reached_inv o p op j HP R) H) as
      (_ & [_ _ _ KG] & t & m & _ & _ & _ & _ & IT). rewrite KG. destruct IH as (I1 & I2 & I3 & I4).
    split; [exact I1|].
    destruct IT as [cs LC LL SF B1 L1 C1 CE CS T1|LC LL B1 L1 C1 CE CS T1
                   |ts LC SF AC B1 L1 C1 CE CS TU|ts LC SF AC B1 L1 C1 CE CS T1];
      try (rewrite T1; auto).
    unfold temperature_update in TU. ok_step TU. ok_step TU. injection TU as <-. auto.
  - destruct (job_reset_cases p p HP o j j' (reached_inv o p op j HP R) H) as
      (_ & [_ _ _ KG] & _ & _ & _ & _ & _ & TR). rewrite KG. destruct IH as (I1 & I2 & I3 & I4).
    split; [exact I1|]. unfold temperature_reset in TR. ok_step TR. injection TR as <-. auto.
  - destruct (job_copy_cases p p HP j j' (reached_inv o p op j HP R) H) as (_ & [_ _ _ KG] & T & _).
    rewrite KG, T. exact IH.
Qed.

Lemma reset_same_new : forall j j' j0, reached j -> job_reset o j = Ok j' -> job_new o p op = Ok j0 ->
  same_job j' j0.
Proof.
  intros j j' j0 R H N. pose proof (reached_inv o p op j HP R) as I.
  destruct (job_reset_cases p p HP o j j' I H) as (I' & [KB KM KP KG] & S & O & W & CE & SF & TR).
  destruct (job_new_cases p p HP o op j0 eq_refl N) as (I0 & B0 & _ & G0 & S0 & O0 & W0 & CE0 & SF0 & T0).
  destruct (reached_options j R) as (G & TS & TW & TM).
  rewrite S in S0. injection S0 as SB.
  assert (LOW : st_lowest_e (jb_stun j') = st_lowest_e (jb_stun j0)).
  { pose proof (ji_low p p j' I') as A. pose proof (ji_low p p j0 I0) as B. rewrite SB in A. congruence. }
  assert (GA : st_gamma (jb_stun j') = st_gamma (jb_stun j0)) by congruence.
  constructor.
  - rewrite KB, B0. apply (reached_batch o p op HP), R.
  - rewrite (ji_mutator p p j' I'), (ji_mutator p p j0 I0). reflexivity.
  - rewrite (ji_params p p j' I'), (ji_params p p j0 I0). reflexivity.
  - rewrite (ji_task p p j' I'), (ji_task p p j0 I0). reflexivity.
  - rewrite (ji_work p p j' I'), (ji_work p p j0 I0). reflexivity.
  - unfold temperature_reset in TR. ok_step TR. injection TR as <-.
    unfold temperature_new in T0. ok_step T0. ok_step T0. ok_step T0. ok_step T0. injection T0 as <-.
    rewrite TS, TW, TM. reflexivity.
  - exact SB.
  - congruence.
  - congruence.
  - intro X. congruence.
  - rewrite (ji_two_len p p j' I'), (ji_two_len p p j0 I0). reflexivity.
  - congruence.
  - exact LOW.
  - exact GA.
  - rewrite CE, LOW, GA in SF. rewrite CE0 in SF0. rewrite SF in SF0. injection SF0 as SF0. exact SF0.
Qed.

Lemma optimizer_reset_same_new : forall z z' z0, OI o p op threads z ->
  optimizer_reset o z = Ok z' -> optimizer_new o p op threads = Ok z0 -> same_optimizer z' z0.
Proof.
  intros z z' z0 I H N. unfold optimizer_reset in H. ok_step H. ok_step H. ok_step H.
  apply bind_ok in H. destruct H as (jobs & E & H). injection H as <-. apply map_outcome_forall2 in E.
  unfold optimizer_new in N. ok_step N. ok_step N. apply bind_ok in N. destruct N as (jobs0 & E0 & N).
  ok_step N. injection N as <-. apply map_outcome_forall2 in E0.
  pose proof (oi_jobs o p op threads z I) as J.
  constructor; cbn [oz_batch oz_max_idle oz_idle oz_epochs oz_progress oz_last oz_curve oz_jobs];
    try reflexivity; try apply I.
  assert (L0 : Forall (fun j => job_new o p op = Ok j) jobs0).
  { apply Forall_forall. intros j Hj. destruct (forall2_in_r _ _ _ _ _ _ E0 Hj) as (x & _ & Hx). exact Hx. }
  assert (LL : length jobs = length jobs0).
  { rewrite <- (Forall2_length E), <- (Forall2_length E0), seq_length. apply I. }
  clear -E J HP L0 LL. revert jobs0 L0 LL.
  induction E as [|a b l l' Hab E IH]; intros [|c jobs0] L0 LL; try discriminate; constructor.
  - inversion J; subst. inversion L0; subst. apply (reset_same_new a b c); assumption.
  - inversion J; subst. inversion L0; subst. apply IH; auto.
Qed.
End Same.

(** ** Interleavings *)

Lemma nth_error_set_nth : forall A (l : list A) i k a,
  nth_error (set_nth l i a) k = if (i =? k) && (i <? length l) then Some a else nth_error l k.
Proof.
  intros A l. induction l as [|x l IH]; intros [|i] [|k] a; cbn; auto.
  - destruct (i =? k); reflexivity.
  - rewrite IH. reflexivity.
Qed.

Lemma run_app : forall o l l' j, stun_run o j (l ++ l') = bind (stun_run o j l) (fun j' => stun_run o j' l').
Proof.
  intros o l l'. induction l as [|k l IH]; intro j; cbn [stun_run app bind]; [reflexivity|].
  destruct (stun_update o j k) as [j1| |]; cbn [bind]; auto.
Qed.

(** The first [c] iterations of a job. *)
Definition first_steps (o : oracles) (j : job) (ks : nat -> luck) (c : nat) : outcome job :=
  stun_run o j (map ks (seq 0 c)).

Lemma first_steps_S : forall o j ks c, first_steps o j ks (S c) =
  bind (first_steps o j ks c) (fun j' => stun_update o j' (ks c)).
Proof.
  intros o j ks c. unfold first_steps. rewrite seq_S, map_app, run_app. cbn [plus map].
  destruct (stun_run o j (map ks (seq 0 c))) as [j1| |]; cbn [bind stun_run]; auto.
  destruct (stun_update o j1 (ks c)); reflexivity.
Qed.

Lemma first_steps_prefix : forall o j ks d c j', first_steps o j ks (c + d) = Ok j' ->
  exists j1, first_steps o j ks c = Ok j1.
Proof.
  intros o j ks d. induction d as [|d IH]; intros c j' H.
  - rewrite Nat.add_0_r in H. eauto.
  - rewrite Nat.add_succ_r, first_steps_S in H. apply bind_ok in H. destruct H as (j1 & H & _). eauto.
Qed.

(** [jobs] are the jobs of [start] after [done] iterations each. *)
Definition progressed (o : oracles) (start jobs : list job) (done : list nat) (ks : nat -> nat -> luck) : Prop :=
  length jobs = length start /\ length done = length start /\
  forall i j0 j c, nth_error start i = Some j0 -> nth_error jobs i = Some j -> nth_error done i = Some c ->
    first_steps o j0 (ks i) c = Ok j.

Lemma nth_error_some : forall A (l : list A) i, i < length l -> exists a, nth_error l i = Some a.
Proof.
  intros A l i H. apply nth_error_Some in H. destruct (nth_error l i) as [a|]; [eauto|contradiction].
Qed.

Lemma progressed_step : forall o start jobs done ks i j j' c,
  progressed o start jobs done ks -> nth_error jobs i = Some j -> nth_error done i = Some c ->
  stun_update o j (ks i c) = Ok j' ->
  progressed o start (set_nth jobs i j') (set_nth done i (S c)) ks.
Proof.
  intros o start jobs done ks i j j' c (L1 & L2 & P) Hj Hc U. split; [|split].
  - rewrite set_nth_length. exact L1.
  - rewrite set_nth_length. exact L2.
  - intros x j0 jx cx H0 Hjx Hcx. rewrite nth_error_set_nth in Hjx, Hcx.
    assert (Li : i < length start) by (rewrite <- L1; apply nth_error_Some; congruence).
    assert (B1 : (i <? length jobs) = true) by (apply Nat.ltb_lt; lia).
    assert (B2 : (i <? length done) = true) by (apply Nat.ltb_lt; lia).
    rewrite B1, andb_true_r in Hjx. rewrite B2, andb_true_r in Hcx.
    destruct (Nat.eqb_spec i x) as [<-|NE].
    + injection Hjx as <-. injection Hcx as <-. rewrite first_steps_S, (P i j0 j c H0 Hj Hc). exact U.
    + apply (P x j0 jx cx); assumption.
Qed.

(** Any order that ends well ends with every job after its own iterations. *)
Lemma interleaved_end : forall o start ks order jobs done js,
  progressed o start jobs done ks -> interleaved o jobs done ks order = Ok js ->
  exists done', progressed o start js done' ks /\
    forall i c, nth_error done i = Some c -> nth_error done' i = Some (c + count_occ Nat.eq_dec order i).
Proof.
  intros o start ks order. induction order as [|i order IH]; intros jobs done js P H; cbn [interleaved] in H.
  - injection H as <-. exists done. split; [exact P|]. intros i c Hc. cbn. rewrite Nat.add_0_r. exact Hc.
  - unfold at_index in H. destruct (nth_error jobs i) as [j|] eqn:Ej; [|discriminate].
    destruct (nth_error done i) as [c|] eqn:Ec; [|discriminate]. cbn [bind] in H.
    apply bind_ok in H. destruct H as (j' & U & H).
    destruct (IH _ _ js (progressed_step o start jobs done ks i j j' c P Ej Ec U) H) as (d' & P' & D).
    exists d'. split; [exact P'|]. intros x cx Hx.
    specialize (D x). rewrite nth_error_set_nth in D.
    assert (B2 : (i <? length done) = true) by (apply Nat.ltb_lt, nth_error_Some; congruence).
    rewrite B2, andb_true_r in D. cbn [count_occ]. destruct (Nat.eqb_spec i x) as [->|NE].
    + rewrite (D _ eq_refl). destruct (Nat.eq_dec x x); [|contradiction]. f_equal. rewrite Ec in Hx.
      injection Hx as ->. lia.
    + rewrite (D cx Hx). destruct (Nat.eq_dec i x); [contradiction|reflexivity].
Qed.

(** If every job can do its iterations, every order ends well. *)
Lemma interleaved_total : forall o start ks order jobs done,
  progressed o start jobs done ks ->
  (forall i, In i order -> i < length start) ->
  (forall i j0 c, nth_error start i = Some j0 -> nth_error done i = Some c ->
     exists j', first_steps o j0 (ks i) (c + count_occ Nat.eq_dec order i) = Ok j') ->
  exists js, interleaved o jobs done ks order = Ok js.
Proof.
  intros o start ks order. induction order as [|i order IH]; intros jobs done P HI HT; cbn [interleaved]; [eauto|].
  assert (P' := P). destruct P' as (L1 & L2 & PP).
  assert (Li : i < length start) by (apply HI; left; reflexivity).
  destruct (nth_error_some _ start i Li) as (j0 & E0).
  destruct (nth_error_some _ jobs i) as (j & Ej); [lia|].
  destruct (nth_error_some _ done i) as (c & Ec); [lia|].
  unfold at_index. rewrite Ej, Ec. cbn [bind].
  destruct (HT i j0 c E0 Ec) as (jf & Hf). cbn [count_occ] in Hf.
  destruct (Nat.eq_dec i i) as [_|X]; [|contradiction].
  replace (c + S (count_occ Nat.eq_dec order i)) with (S c + count_occ Nat.eq_dec order i) in Hf by lia.
  destruct (first_steps_prefix o j0 (ks i) _ (S c) jf Hf) as (j' & Hj').
  assert (U : stun_update o j (ks i c) = Ok j').
  { rewrite first_steps_S, (PP i j0 j c E0 Ej Ec) in Hj'. exact Hj'. }
  rewrite U. cbn [bind]. apply IH.
  - apply (progressed_step o start jobs done ks i j j' c P Ej Ec U).
  - intros x Hx. apply HI. right. exact Hx.
  - intros x jx cx Hx Hcx. rewrite nth_error_set_nth in Hcx.
    assert (B2 : (i <? length done) = true) by (apply Nat.ltb_lt; lia). rewrite B2, andb_true_r in Hcx.
    destruct (Nat.eqb_spec i x) as [<-|NE].
    + injection Hcx as <-. rewrite E0 in Hx. injection Hx as <-. eauto.
    + destruct (HT x jx cx Hx Hcx) as (y & Hy). cbn [count_occ] in Hy.
      destruct (Nat.eq_dec i x); [contradiction|]. eauto.
Qed.

Lemma update_jobs_nth : forall o ks jobs i js, update_jobs o i jobs ks = Ok js <->
  (Forall (fun j => (0 < jb_batch j)%Z) jobs /\ length js = length jobs /\
   forall x j0 j, nth_error jobs x = Some j0 -> nth_error js x = Some j ->
     first_steps o j0 (ks (i + x)) (Z.to_nat (jb_batch j0)) = Ok j).
Proof.
  intros o ks jobs. induction jobs as [|a jobs IH]; intros i js; cbn [update_jobs].
  - split.
    + intro H. injection H as <-. repeat split; auto. intros [|x]; discriminate.
    + intros (_ & L & _). destruct js; [reflexivity|discriminate].
  - split.
    + intro H. apply bind_ok in H. destruct H as (a' & E & H). apply bind_ok in H. destruct H as (r & E' & H).
      injection H as <-. apply IH in E'. destruct E' as (F & L & P).
      unfold job_update in E. destruct (0 <? jb_batch a)%Z eqn:B; [|discriminate]. cbn [expects bind] in E.
      apply Z.ltb_lt in B. split; [constructor; assumption|]. split; [cbn; congruence|].
      intros [|x] j0 j H0 Hj; cbn in H0, Hj.
      * injection H0 as <-. injection Hj as <-. rewrite Nat.add_0_r. exact E.
      * rewrite Nat.add_succ_r. apply (P x j0 j H0 Hj).
    + intros (F & L & P). destruct js as [|b js]; [discriminate|]. inversion F as [|? ? B F']; subst.
      unfold job_update. rewrite expects_Ok by (apply Z.ltb_lt, B).
      pose proof (P 0 a b eq_refl eq_refl) as E. rewrite Nat.add_0_r in E. unfold first_steps in E.
      rewrite E. cbn [bind].
      assert (E' : update_jobs o (S i) jobs ks = Ok js).
      { apply IH. split; [exact F'|]. split; [cbn in L; congruence|].
        intros x j0 j H0 Hj. specialize (P (S x) j0 j H0 Hj). rewrite Nat.add_succ_r in P. exact P. }
      rewrite E'. reflexivity.
Qed.

Lemma interleaved_update : forall o jobs ks order js b,
  Forall (fun j => jb_batch j = b) jobs -> (0 < b)%Z ->
  (forall i, In i order -> i < length jobs) ->
  (forall i, i < length jobs -> count_occ Nat.eq_dec order i = Z.to_nat b) ->
  (interleaved o jobs (repeat 0 (length jobs)) ks order = Ok js <-> update_jobs o 0 jobs ks = Ok js).
Proof.
  intros o jobs ks order js b FB BP HI HC.
  assert (P0 : progressed o jobs jobs (repeat 0 (length jobs)) ks).
  { split; [reflexivity|]. split; [apply repeat_length|]. intros i j0 j c H0 Hj Hc.
    rewrite H0 in Hj. injection Hj as <-.
    assert (c = 0) as ->.
    { apply nth_error_In in Hc. apply repeat_spec in Hc. exact Hc. }
    reflexivity. }
  assert (D0 : forall i, i < length jobs -> nth_error (repeat 0 (length jobs)) i = Some 0).
  { intros i Hi. destruct (nth_error_some _ (repeat 0 (length jobs)) i) as (c & Hc); [rewrite repeat_length; exact Hi|].
    rewrite Hc. apply nth_error_In in Hc. apply repeat_spec in Hc. subst c. reflexivity. }
  assert (End : forall js, interleaved o jobs (repeat 0 (length jobs)) ks order = Ok js ->
                  update_jobs o 0 jobs ks = Ok js).
  { intros js' H. destruct (interleaved_end o jobs ks order jobs _ js' P0 H) as (d' & (L1 & _ & P) & D).
    apply update_jobs_nth. split; [|split; [exact L1|]].
    - eapply Forall_impl; [|exact FB]. intros a ->. exact BP.
    - intros x j0 j H0 Hj. cbn [plus].
      assert (Lx : x < length jobs) by (apply nth_error_Some; congruence).
      specialize (D x 0 (D0 x Lx)). cbn [plus] in D. rewrite (HC x Lx) in D.
      rewrite Forall_forall in FB. rewrite (FB j0) by (apply nth_error_In with x; exact H0).
      apply (P x j0 j _ H0 Hj D). }
  split; [apply End|]. intro H.
  assert (T : exists js', interleaved o jobs (repeat 0 (length jobs)) ks order = Ok js').
  { apply update_jobs_nth in H. destruct H as (_ & L & P). apply (interleaved_total o jobs); auto.
    intros i j0 c H0 Hc.
    assert (Li : i < length jobs) by (apply nth_error_Some; congruence).
    rewrite (D0 i Li) in Hc. injection Hc as <-. cbn [plus]. rewrite (HC i Li).
    destruct (nth_error_some _ js i) as (j & Hj); [lia|]. specialize (P i j0 j H0 Hj).
    rewrite Forall_forall in FB. rewrite (FB j0) in P by (apply nth_error_In with i; exact H0). eauto. }
  destruct T as (js' & E). rewrite E. pose proof (End js' E) as E'. congruence.
Qed.

(** ** Totality *)

Section Total.
Variables (o : oracles) (p : params) (op : options).
Hypothesis HP : problem p.
Hypothesis HN : sane_numbers p.
Hypothesis HF : finite_work p.
Hypothesis HE : exp_sane o.
Hypothesis HM : mean_sane o op.
Hypothesis HO : sane_options op.
Variable threads : nat.
Notation reached := (job_reached o p op).

Lemma update_jobs_total : forall ks jobs i, Forall reached jobs -> exists js, update_jobs o i jobs ks = Ok js.
Proof.
  intros ks jobs. induction jobs as [|j jobs IH]; intros i F; cbn [update_jobs]; [eauto|].
  inversion F as [|? ? R F']; subst.
  destruct (proj2 (job_never_fails o p op HP HN HF HE HM HO) j R) as (_ & U & _).
  destruct (U (ks i)) as (j' & E). rewrite E. cbn [bind].
  destruct (IH (S i) F') as (r & E'). rewrite E'. cbn [bind]. eauto.
Qed.

Lemma copy_exists : forall j, reached j -> exists c, job_copy j = Ok c.
Proof. intros j R. apply (proj2 (job_never_fails o p op HP HN HF HE HM HO) j R). Qed.

Lemma replicate_total : forall jobs, jobs <> [] -> Forall reached jobs ->
  exists js, replicate_best_job jobs = Ok js.
Proof.
  intros [|j0 jobs] NE F; [contradiction|]. unfold replicate_best_job.
  assert (F' := F). inversion F' as [|? ? R0 F0]; subst.
  destruct (min_job_spec jobs j0) as [I _]; [apply (reached_num o p op HP), R0| |].
  { intros k Hk. apply (reached_num o p op HP). rewrite Forall_forall in F0. apply F0, Hk. }
  assert (Rm : reached (min_job j0 jobs)) by (rewrite Forall_forall in F; apply F, I).
  destruct (copy_exists _ Rm) as (t & E). rewrite E. cbn [bind].
  assert (Rt : reached t) by (apply jr_copy with (min_job j0 jobs); assumption).
  apply map_outcome_exists. intros j Hj. destruct (f_eq (job_best j) (job_best t)); [eauto|].
  destruct (copy_exists t Rt) as (c & Ec). rewrite Ec. cbn [bind]. eauto.
Qed.

Lemma of_Z_nn : forall n, (0 <= n)%Z -> nn (f_of_Z n).
Proof.
  intros n H. apply nn_iff. unfold f_of_Z.
  pose proof (binary_normalize_correct 24 128 _ _ mode_NE n 0 false) as C. cbv zeta in C.
  assert (E : F2R (Float radix2 n 0) = IZR n) by (unfold F2R; cbn; ring). rewrite E in C.
  destruct (Rlt_bool _ _) in C.
  - destruct C as (V & F & _). apply fin_le; [reflexivity|exact F|]. change (B2R f_zero) with 0%R.
    rewrite V. rewrite <- rnd_0. apply rnd_le. apply IZR_le, H.
  - assert (S : Rlt_bool (IZR n) 0 = false) by (apply Rlt_bool_false, IZR_le, H).
    rewrite S in C. cbn in C. apply inf_of_SF in C. rewrite C. reflexivity.
Qed.

Lemma of_Z_pos : forall n, (0 < n <= 2 ^ 64)%Z -> pos (f_of_Z n).
Proof.
  intros n H. destruct (of_Z_fin n) as [F V]; [lia|]. apply val_pos_pos; [apply of_Z_nn; lia|].
  rewrite val_finite by exact F. rewrite V.
  assert (R1 : rnd 1 = 1%R).
  { replace 1%R with (IZR 1 * bpow radix2 0)%R by (cbn; ring). apply rnd_dyadic; lia. }
  assert (P : (rnd 1 <= rnd (IZR n))%R) by (apply rnd_le, IZR_le; lia). rewrite R1 in P. lra.
Qed.

Lemma min_one_nn : forall x, f_le f_zero x = true -> f_le f_zero (f_min x f_one) = true /\ f_le (f_min x f_one) f_one = true.
Proof.
  intros x H. unfold f_min. destruct (f_lt f_one x) eqn:E; [split; vm_compute; reflexivity|].
  split; [exact H|]. apply f_lt_ge; [reflexivity|apply (le_num _ _ H)|exact E].
Qed.

Lemma optimizer_new_total : 0 < threads -> exists z, optimizer_new o p op threads = Ok z.
Proof.
  intro T. unfold optimizer_new. rewrite expects_Ok by (apply Z.ltb_lt, HO).
  rewrite expects_Ok by (apply Z.ltb_lt, HO).
  destruct (map_outcome_exists _ _ (fun _ : nat => job_new o p op) (seq 0 threads)) as (jobs & E).
  { intros _ _. apply (job_never_fails o p op HP HN HF HE HM HO). }
  rewrite E. cbn [bind]. apply map_outcome_forall2 in E. pose proof (Forall2_length E) as L.
  rewrite seq_length in L. rewrite expects_Ok by (apply nonempty_neg; lia). eauto.
Qed.

Lemma optimizer_reset_total : forall z, OI o p op threads z -> exists z', optimizer_reset o z = Ok z'.
Proof.
  intros z I. unfold optimizer_reset. rewrite (oi_max _ _ _ _ z I), (oi_batch _ _ _ _ z I).
  rewrite expects_Ok by (apply Z.ltb_lt, HO). rewrite expects_Ok by (apply Z.ltb_lt, HO).
  rewrite expects_Ok by (apply nonempty_neg; rewrite (oi_count _ _ _ _ z I); apply I).
  destruct (map_outcome_exists _ _ (job_reset o) (oz_jobs z)) as (jobs & E).
  { intros j Hj. pose proof (oi_jobs _ _ _ _ z I) as J. rewrite Forall_forall in J.
    apply (proj2 (job_never_fails o p op HP HN HF HE HM HO) j (J j Hj)). }
  rewrite E. cbn [bind]. eauto.
Qed.
End Total.
