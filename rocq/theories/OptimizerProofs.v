(** * Proofs about the optimizer *)

From Coq Require Import List ZArith Bool Arith Lia.
From Flocq Require Import Core BinarySingleNaN.
From Verif Require Import Base F32 F32Facts ProjectModel ScheduleModel ScheduleSpec ScheduleProofs
  MutatorModel MutatorProofs MakespanModel TimelineSpec MakespanProofs TemperatureModel TemperatureSpec
  TemperatureProofs StunModel SearchSpec StunProofs SameProofs StunProps OptimizerModel OptimizerSpec.
Import ListNotations.

Lemma map_outcome_forall2 : forall A B (f : A -> outcome B) l l',
  map_outcome f l = Ok l' -> Forall2 (fun a b => f a = Ok b) l l'.
Proof.
  intros A B f l. induction l as [|a l IH]; intros l' H; cbn [map_outcome] in H.
  - injection H as <-. constructor.
  - apply bind_ok in H. destruct H as (b & E & H). apply bind_ok in H. destruct H as (bs & E' & H).
    injection H as <-. constructor; auto.
Qed.

Lemma forall2_map_outcome : forall A B (f : A -> outcome B) l l',
  Forall2 (fun a b => f a = Ok b) l l' -> map_outcome f l = Ok l'.
Proof.
  intros A B f l l' H. induction H as [|a b l l' E H IH]; cbn [map_outcome]; [reflexivity|].
  rewrite E. cbn [bind]. rewrite IH. reflexivity.
Qed.

Lemma map_outcome_exists : forall A B (f : A -> outcome B) l,
  (forall a, In a l -> exists b, f a = Ok b) -> exists l', map_outcome f l = Ok l'.
Proof.
  intros A B f l. induction l as [|a l IH]; intro H; cbn [map_outcome]; [eauto|].
  destruct (H a (or_introl eq_refl)) as (b & E). rewrite E. cbn [bind].
  destruct IH as (l' & E'); [intros; apply H; right; assumption|]. rewrite E'. cbn [bind]. eauto.
Qed.

Lemma forall2_in_r : forall A B (R : A -> B -> Prop) l l' b, Forall2 R l l' -> In b l' ->
  exists a, In a l /\ R a b.
Proof.
  intros A B R l l' b H. induction H as [|x y l l' E H IH]; intros [<-|I] || intros []; eauto.
  - exists x. split; [left; reflexivity|exact E].
  - destruct (IH I) as (a & Ha & Hr). exists a. split; [right; exact Ha|exact Hr].
Qed.

Lemma forall2_in_l : forall A B (R : A -> B -> Prop) l l' a, Forall2 R l l' -> In a l ->
  exists b, In b l' /\ R a b.
Proof.
  intros A B R l l' a H. induction H as [|x y l l' E H IH]; intros [<-|I] || intros []; eauto.
  - exists y. split; [left; reflexivity|exact E].
  - destruct (IH I) as (b & Hb & Hr). exists b. split; [right; exact Hb|exact Hr].
Qed.

Lemma Forall2_length : forall A B (R : A -> B -> Prop) l l', Forall2 R l l' -> length l = length l'.
Proof. intros A B R l l' H. induction H; cbn; congruence. Qed.
Arguments Forall2_length {A B R l l'}.

Lemma set_params_same : forall j, job_set_params j (jb_mutator j) = j.
Proof. intros []. reflexivity. Qed.

(** ** The best of several jobs *)

Lemma min_job_spec : forall l j, num (job_best j) -> (forall k, In k l -> num (job_best k)) ->
  In (min_job j l) (j :: l) /\ forall k, In k (j :: l) -> f_le (job_best (min_job j l)) (job_best k) = true.
Proof.
  intro l. induction l as [|a l IH]; intros j Nj Nl; unfold min_job; cbn [fold_left].
  - split; [left; reflexivity|]. intros k [<-|[]]. apply f_le_refl, Nj.
  - fold (min_job (if f_lt (job_best a) (job_best j) then a else j) l).
    assert (Na : num (job_best a)) by (apply Nl; left; reflexivity).
    destruct (f_lt (job_best a) (job_best j)) eqn:E.
    + destruct (IH a Na) as [I L]; [intros; apply Nl; right; assumption|].
      split; [right; exact I|]. intros k [<-|Hk]; [|apply L, Hk].
      apply f_le_trans with (job_best a); [apply L; left; reflexivity|apply f_lt_le, E].
    + destruct (IH j Nj) as [I L]; [intros; apply Nl; right; assumption|].
      split; [destruct I as [I|I]; [left|right; right]; exact I|].
      intros k [<-|[<-|Hk]]; [apply L; left; reflexivity| |apply L; right; exact Hk].
      apply f_le_trans with (job_best j); [apply L; left; reflexivity|]. apply f_lt_ge; assumption.
Qed.

Section History.
Variables (o : oracles) (p : params) (op : options).
Hypothesis HP : problem p.

Notation reached := (job_reached o p op).

Lemma reached_num : forall j, reached j -> num (job_best j).
Proof. intros j R. apply (le_num _ _ (ji_nn p p j (reached_inv o p op j HP R))). Qed.

Lemma reached_nn : forall j, reached j -> nn (job_best j).
Proof. intros j R. apply nn_iff. apply (ji_nn p p j (reached_inv o p op j HP R)). Qed.

Lemma reached_batch : forall j, reached j -> jb_batch j = op_batch op.
Proof.
  intros j R. induction R as [j H|j k j' R IH H|j j' R IH H|j j' R IH H].
  - apply (job_new_cases p p HP o op j eq_refl H).
  - destruct (update_cases p p HP o j k j' (reached_inv o p op j HP R) H) as (_ & [K _ _ _] & _). congruence.
  - destruct (job_reset_cases p p HP o j j' (reached_inv o p op j HP R) H) as (_ & [K _ _ _] & _). congruence.
  - destruct (job_copy_cases p p HP j j' (reached_inv o p op j HP R) H) as (_ & [K _ _ _] & _). congruence.
Qed.

Lemma reached_mutator : forall j, reached j -> jb_mutator j = p.
Proof. intros j R. apply (reached_inv o p op j HP R). Qed.

(** What one job becomes in an update. *)
Definition batch_of (j : job) (ks : nat -> luck) : list luck :=
  map ks (seq 0 (Z.to_nat (jb_batch j))).

Lemma job_update_run : forall j ks j', job_update o j ks = Ok j' -> stun_run o j (batch_of j ks) = Ok j'.
Proof. intros j ks j' H. unfold job_update in H. ok_step H. exact H. Qed.

Lemma update_jobs_reached : forall ks jobs i jobs', Forall reached jobs ->
  update_jobs o i jobs ks = Ok jobs' ->
  Forall reached jobs' /\ Forall2 (fun j j' => f_le (job_best j') (job_best j) = true) jobs jobs'.
Proof.
  intros ks jobs. induction jobs as [|j jobs IH]; intros i jobs' F H; cbn [update_jobs] in H.
  - injection H as <-. split; constructor.
  - inversion F as [|? ? Rj Fj]; subst.
    apply bind_ok in H. destruct H as (j' & E & H). apply bind_ok in H. destruct H as (r & E' & H).
    injection H as <-. destruct (IH (S i) r Fj E') as [A B]. apply job_update_run in E.
    split; constructor; auto.
    + apply (reached_run o p op _ j j' Rj E).
    + apply (best_is_minimum_seen o p op j _ j' HP Rj E).
Qed.

(** The jobs evaluate [job_candidates]. *)
Lemma update_jobs_seen : forall ks jobs i jobs', Forall reached jobs ->
  update_jobs o i jobs ks = Ok jobs' ->
  (forall j', In j' jobs' ->
     In (job_schedule j') (map job_schedule jobs ++ job_candidates o i jobs ks)) /\
  (forall c m, In c (job_candidates o i jobs ks) -> makespan p c = Ok m ->
     exists j', In j' jobs' /\ f_le (job_best j') m = true) /\
  Forall (valid_schedule p) (job_candidates o i jobs ks) /\
  length (job_candidates o i jobs ks) = length jobs * Z.to_nat (op_batch op).
Proof.
  intros ks jobs. induction jobs as [|j jobs IH]; intros i jobs' F H; cbn [update_jobs] in H.
  - injection H as <-. cbn. repeat split; auto; contradiction.
  - inversion F as [|? ? Rj Fj]; subst.
    apply bind_ok in H. destruct H as (j' & E & H). apply bind_ok in H. destruct H as (r & E' & H).
    injection H as <-. destruct (IH (S i) r Fj E') as (A & B & C & D). apply job_update_run in E.
    destruct (best_is_minimum_seen o p op j _ j' HP Rj E) as (L & V & _ & I & M).
    unfold batch_of in *. cbn [job_candidates map]. split; [|split; [|split]].
    + intros k [<-|Hk].
      * destruct I as [I|I]; [left; exact I|]. right. apply in_or_app. right. apply in_or_app. left. exact I.
      * specialize (A k Hk). apply in_app_or in A. right. apply in_or_app.
        destruct A as [A|A]; [left; exact A|right; apply in_or_app; right; exact A].
    + intros c m Hc Em. apply in_app_or in Hc. destruct Hc as [Hc|Hc].
      * exists j'. split; [left; reflexivity|]. apply (M c m); [right; exact Hc|exact Em].
      * destruct (B c m Hc Em) as (k & Hk & Lk). exists k. split; [right; exact Hk|exact Lk].
    + apply Forall_app. split; [|exact C]. inversion V; assumption.
    + rewrite app_length, D. cbn [length] in *. rewrite map_length, seq_length in L.
      rewrite (reached_batch j Rj) in *. lia.
Qed.

(** A copy of a copy of the best job, or an equally good job. *)
Definition replaced (t j j' : job) : Prop :=
  (f_eq (job_best j) (job_best t) = true /\ j' = j) \/
  (f_eq (job_best j) (job_best t) = false /\
   exists c, job_copy t = Ok c /\ job_copy c = Ok j').

Lemma replicate_spec : forall jobs jobs', Forall reached jobs ->
  replicate_best_job jobs = Ok jobs' ->
  exists t, In t jobs /\ (forall k, In k jobs -> f_le (job_best t) (job_best k) = true) /\
    Forall2 (replaced t) jobs jobs'.
Proof.
  intros [|j0 jobs] jobs' F H; [discriminate|]. unfold replicate_best_job in H.
  apply bind_ok in H. destruct H as (c & E & H). apply map_outcome_forall2 in H.
  inversion F as [|? ? R0 F0]; subst.
  destruct (min_job_spec jobs j0) as [I L]; [apply reached_num, R0| |].
  { intros k Hk. apply reached_num. rewrite Forall_forall in F0. apply F0, Hk. }
  set (t := min_job j0 jobs) in *. exists t. split; [exact I|]. split; [exact L|].
  assert (Rt : reached t) by (rewrite Forall_forall in F; apply F, I).
  destruct (copy_reports_the_same o p op t c HP Rt E) as (_ & CB & _).
  assert (Rc : reached c) by (apply jr_copy with t; assumption).
  revert H. rewrite CB. generalize (j0 :: jobs). intros l H. clear -H E Rc R0 HP.
  induction H as [|a b l l' Hab H IH]; constructor; auto.
  unfold replaced. destruct (f_eq (job_best a) (job_best t)).
  - left. injection Hab as <-. auto.
  - right. split; [reflexivity|]. apply bind_ok in Hab. destruct Hab as (c' & E' & Hc).
    exists c. split; [exact E|]. rewrite E'. f_equal. injection Hc as <-.
    assert (Rc' : reached c') by (apply jr_copy with c; assumption).
    rewrite (reached_mutator _ R0), <- (reached_mutator _ Rc'). symmetry. apply set_params_same.
Qed.

Lemma replaced_reached : forall t j j', reached t -> reached j -> replaced t j j' -> reached j'.
Proof.
  intros t j j' Rt Rj [[_ ->]|[_ (c & E1 & E2)]]; [exact Rj|].
  apply jr_copy with c; [apply jr_copy with t|]; assumption.
Qed.

Lemma replaced_best : forall t j j', reached t -> replaced t j j' ->
  (job_best j' = job_best j /\ job_schedule j' = job_schedule j /\ f_eq (job_best j) (job_best t) = true) \/
  (job_best j' = job_best t /\ job_schedule j' = job_schedule t).
Proof.
  intros t j j' Rt [[E ->]|[_ (c & E1 & E2)]]; [auto|]. right.
  destruct (copy_reports_the_same o p op t c HP Rt E1) as (S1 & B1 & _).
  destruct (copy_reports_the_same o p op c j' HP) as (S2 & B2 & _); auto; [apply jr_copy with t; assumption|].
  split; congruence.
Qed.

Lemma f_eq_le : forall x y, num x -> num y -> f_eq x y = true -> f_le x y = true.
Proof.
  intros x y Nx Ny H. rewrite eq_key in H by assumption. rewrite le_key by assumption.
  apply Z.eqb_eq in H. apply Z.leb_le. lia.
Qed.

(** ** The optimizer *)

Variable threads : nat.
Notation oreached := (optimizer_reached o p op threads).

(** What all histories maintain. *)
Record OI (z : optimizer) : Prop := {
  oi_jobs : Forall reached (oz_jobs z);
  oi_count : length (oz_jobs z) = threads;
  oi_some : 0 < threads;
  oi_batch : oz_batch z = op_batch op;
  oi_batch_pos : (0 < op_batch op)%Z;
  oi_max : oz_max_idle z = op_max_idle op;
  oi_max_pos : (0 < op_max_idle op)%Z;
  oi_idle : (0 <= oz_idle z)%Z;
  oi_epochs : (0 <= oz_epochs z)%Z
}.

Lemma oi_front : forall z, OI z -> exists j, best_job z = Ok j /\ In j (oz_jobs z) /\ reached j /\
  optimizer_best z = Ok (job_best j) /\ optimizer_schedule z = Ok (job_schedule j).
Proof.
  intros z I. pose proof (oi_some z I) as T. pose proof (oi_count z I) as C. pose proof (oi_jobs z I) as J.
  unfold optimizer_best, optimizer_schedule, best_job, at_index.
  destruct (oz_jobs z) as [|j l]; [cbn in C; lia|]. cbn [nth_error].
  exists j. inversion J; subst. cbn [bind]. repeat split; auto. left. reflexivity.
Qed.

(** The part of an update after the jobs: counters only. *)
Lemma update_split : forall z ks z', OI z -> optimizer_update o z ks = Ok z' ->
  exists jobs1 m, update_jobs o 0 (oz_jobs z) ks = Ok jobs1 /\
    replicate_best_job jobs1 = Ok (oz_jobs z') /\
    optimizer_best z' = Ok m /\
    oz_batch z' = oz_batch z /\ oz_max_idle z' = oz_max_idle z /\
    if f_eq m (oz_last z)
    then oz_idle z' = (oz_idle z + oz_batch z)%Z /\ oz_epochs z' = oz_epochs z /\ oz_last z' = oz_last z
    else oz_idle z' = 0%Z /\ oz_epochs z' = (oz_epochs z + 1)%Z /\ oz_last z' = m.
Proof.
  intros z ks z' I H. unfold optimizer_update in H. ok_step H. ok_step H.
  apply bind_ok in H. destruct H as (jobs1 & E1 & H). apply bind_ok in H. destruct H as (jobs2 & E2 & H).
  apply bind_ok in H. destruct H as (m & EM & H). exists jobs1, m. split; [exact E1|].
  cbn [oz_last] in H. destruct (f_eq m (oz_last z)) eqn:E.
  - unfold interpolate_progress in H. ok_step H. apply bind_ok in H. destruct H as (pr & _ & H).
    injection H as <-. cbn. repeat split; auto.
  - unfold estimate_progress in H. ok_step H. apply bind_ok in H. destruct H as (pr & _ & H).
    rewrite EM in H. cbn [bind] in H. apply bind_ok in H. destruct H as (r & _ & H).
    ok_step H. ok_step H. injection H as <-. cbn. repeat split; auto.
Qed.

Lemma oi_update : forall z ks z', OI z -> optimizer_update o z ks = Ok z' -> OI z'.
Proof.
  intros z ks z' I H. destruct (update_split z ks z' I H) as (jobs1 & m & E1 & E2 & EM & B & MX & C).
  destruct (update_jobs_reached ks _ 0 jobs1 (oi_jobs z I) E1) as [F1 L1].
  destruct (replicate_spec jobs1 _ F1 E2) as (t & It & _ & R).
  assert (Rt : reached t) by (rewrite Forall_forall in F1; apply F1, It).
  destruct I as [J CN T BT BP MT MP ID EP].
  constructor; auto; try congruence.
  - apply Forall_forall. intros j' Hj. destruct (forall2_in_r _ _ _ _ _ _ R Hj) as (j & Hj1 & Rj).
    apply (replaced_reached t j j'); auto. rewrite Forall_forall in F1. apply F1, Hj1.
  - rewrite <- CN. transitivity (length jobs1); symmetry; [eapply Forall2_length; exact R|].
    apply (Forall2_length L1).
  - destruct (f_eq m (oz_last z)); destruct C as (-> & _); lia.
  - destruct (f_eq m (oz_last z)); destruct C as (_ & -> & _); lia.
Qed.

Lemma oi_new : forall z, optimizer_new o p op threads = Ok z -> OI z.
Proof.
  intros z H. unfold optimizer_new in H.
  destruct (0 <? op_batch op)%Z eqn:E1; [|discriminate]. destruct (0 <? op_max_idle op)%Z eqn:E2; [|discriminate].
  cbn [expects bind] in H. apply bind_ok in H. destruct H as (jobs & E & H). apply map_outcome_forall2 in E.
  destruct (Nat.eqb_spec (length jobs) 0) as [Z|NZ]; [discriminate|]. cbn [negb expects bind] in H.
  injection H as <-. pose proof (Forall2_length E) as L. rewrite seq_length in L.
  apply Z.ltb_lt in E1, E2. constructor; cbn; auto; try lia.
  apply Forall_forall. intros j Hj. destruct (forall2_in_r _ _ _ _ _ _ E Hj) as (x & _ & Hx).
  apply jr_new, Hx.
Qed.

Lemma oi_reset : forall z z', OI z -> optimizer_reset o z = Ok z' -> OI z'.
Proof.
  intros z z' I H. unfold optimizer_reset in H. ok_step H. ok_step H. ok_step H.
  apply bind_ok in H. destruct H as (jobs & E & H). apply map_outcome_forall2 in E. injection H as <-.
  destruct I as [J CN T BT BP MT MP ID EP]. constructor; cbn; auto; try lia.
  - apply Forall_forall. intros j Hj. destruct (forall2_in_r _ _ _ _ _ _ E Hj) as (x & Hx & R).
    apply jr_reset with x; [|exact R]. rewrite Forall_forall in J. apply J, Hx.
  - rewrite <- CN. symmetry. apply (Forall2_length E).
Qed.

Lemma oi_copy : forall z z', OI z -> optimizer_copy z = Ok z' -> OI z'.
Proof.
  intros z z' I H. unfold optimizer_copy in H.
  apply bind_ok in H. destruct H as (jobs & E & H). apply map_outcome_forall2 in E. injection H as <-.
  destruct I as [J CN T BT BP MT MP ID EP]. constructor; cbn; auto.
  - apply Forall_forall. intros j Hj. destruct (forall2_in_r _ _ _ _ _ _ E Hj) as (x & Hx & R).
    apply jr_copy with x; [|exact R]. rewrite Forall_forall in J. apply J, Hx.
  - rewrite <- CN. symmetry. apply (Forall2_length E).
Qed.

Lemma oreached_inv : forall z, oreached z -> OI z.
Proof.
  intros z R. induction R as [z H|z ks z' R I H|z z' R I H|z z' R I H].
  - apply oi_new, H.
  - apply (oi_update z ks z' I H).
  - apply (oi_reset z z' I H).
  - apply (oi_copy z z' I H).
Qed.

Lemma orun_inv : forall ks n z z', OI z -> optimizer_run o z ks n = Ok z' -> OI z'.
Proof.
  intros ks n. induction n as [|n IH]; intros z z' I H; cbn [optimizer_run] in H.
  - injection H as <-. exact I.
  - apply bind_ok in H. destruct H as (z1 & E & H). apply (oi_update z1 (ks n) z'); auto. apply (IH z); auto.
Qed.

(** Among the jobs of an update the reported one is the best. *)
Lemma update_best : forall z ks z', OI z -> optimizer_update o z ks = Ok z' ->
  exists jobs1 m m0, update_jobs o 0 (oz_jobs z) ks = Ok jobs1 /\
    optimizer_best z' = Ok m /\ optimizer_best z = Ok m0 /\
    (exists j, In j jobs1 /\ job_best j = m /\ optimizer_schedule z' = Ok (job_schedule j)) /\
    (forall j, In j jobs1 -> f_le m (job_best j) = true) /\
    (forall j, In j (oz_jobs z') -> f_eq (job_best j) m = true /\
       exists k, In k jobs1 /\ job_schedule j = job_schedule k) /\
    f_le m m0 = true.
Proof.
  intros z ks z' I H. pose proof (oi_update z ks z' I H) as I'.
  destruct (update_split z ks z' I H) as (jobs1 & m & E1 & E2 & EM & _).
  destruct (update_jobs_reached ks _ 0 jobs1 (oi_jobs z I) E1) as [F1 L1].
  destruct (replicate_spec jobs1 _ F1 E2) as (t & It & Lt & R).
  assert (Rt : reached t) by (rewrite Forall_forall in F1; apply F1, It).
  pose proof (reached_num t Rt) as Nt.
  destruct (oi_front z I) as (j0 & _ & Ij0 & Rj0 & B0 & _).
  destruct (oi_front z' I') as (f & _ & If & Rf & Bf & Sf).
  rewrite EM in Bf. injection Bf as ->.
  exists jobs1, (job_best f), (job_best j0). split; [exact E1|]. split; [exact EM|]. split; [exact B0|].
  assert (KT : forall j, In j (oz_jobs z') -> key (job_best j) = key (job_best t) /\
            exists k, In k jobs1 /\ job_best j = job_best k /\ job_schedule j = job_schedule k).
  { intros j Hj. destruct (forall2_in_r _ _ _ _ _ _ R Hj) as (k & Hk & Rk).
    assert (Rkk : reached k) by (rewrite Forall_forall in F1; apply F1, Hk).
    destruct (replaced_best t k j Rt Rk) as [(A & B & C)|(A & B)].
    - split; [|exists k; auto]. rewrite eq_key in C by (auto; apply reached_num, Rkk).
      apply Z.eqb_eq in C. rewrite A. exact C.
    - split; [rewrite A; reflexivity|]. exists t. auto. }
  destruct (KT f If) as [Kf (k & Hk & Bk & Sk)].
  assert (Lf : forall j, In j jobs1 -> f_le (job_best f) (job_best j) = true).
  { intros j Hj. specialize (Lt j Hj). assert (Rj : reached j) by (rewrite Forall_forall in F1; apply F1, Hj).
    rewrite le_key in * by (auto using reached_num). rewrite Kf. exact Lt. }
  split; [exists k; rewrite Sf, Sk; auto|]. split; [exact Lf|]. split.
  - intros j Hj. destruct (KT j Hj) as [Kj (k' & Hk' & _ & Sk')]. split; [|eauto].
    assert (Rj : reached j) by (pose proof (oi_jobs z' I') as J; rewrite Forall_forall in J; apply J, Hj).
    rewrite eq_key by (auto using reached_num). rewrite Kj, Kf. apply Z.eqb_refl.
  - destruct (forall2_in_l _ _ _ _ _ _ L1 Ij0) as (j1 & Hj1 & LL).
    exact (f_le_trans _ _ _ (Lf j1 Hj1) LL).
Qed.

(** ** C31 for the optimizer *)

Lemma orun_seen : forall ks n z z', OI z -> optimizer_run o z ks n = Ok z' ->
  exists m0 m, optimizer_best z = Ok m0 /\ optimizer_best z' = Ok m /\ f_le m m0 = true /\
  length (evaluated o z ks n) = n * (threads * Z.to_nat (op_batch op)) /\
  Forall (valid_schedule p) (evaluated o z ks n) /\
  (forall j, In j (oz_jobs z') ->
     In (job_schedule j) (map job_schedule (oz_jobs z) ++ evaluated o z ks n)) /\
  forall c mc, In c (evaluated o z ks n) -> makespan p c = Ok mc -> f_le m mc = true.
Proof.
  intros ks n. induction n as [|n IH]; intros z z' I H.
  - cbn in H. injection H as <-. destruct (oi_front z I) as (j & _ & Ij & Rj & Bj & Sj).
    exists (job_best j), (job_best j). repeat split; auto; cbn; auto; try contradiction.
    + apply f_le_refl, reached_num, Rj.
    + intros k Hk. rewrite app_nil_r. apply in_map, Hk.
  - cbn [optimizer_run] in H. apply bind_ok in H. destruct H as (z1 & E & H).
    destruct (IH z z1 I E) as (m0 & m1 & B0 & B1 & L & LEN & V & S & M).
    pose proof (orun_inv ks n z z1 I E) as I1.
    destruct (update_best z1 (ks n) z' I1 H) as (jobs1 & m & m1' & U & Bm & Bm1 & (jb & Ijb & _) & LE & EQ & LM).
    rewrite B1 in Bm1. injection Bm1 as <-.
    destruct (update_jobs_seen (ks n) _ 0 jobs1 (oi_jobs z1 I1) U) as (A & B & C & D).
    exists m0, m. cbn [evaluated]. rewrite E.
    split; [exact B0|]. split; [exact Bm|]. split; [exact (f_le_trans _ _ _ LM L)|].
    split; [rewrite app_length, LEN, D, (oi_count z1 I1); lia|].
    split; [apply Forall_app; split; assumption|]. split.
    + intros j Hj. destruct (EQ j Hj) as [_ (k & Hk & ->)].
      specialize (A k Hk). apply in_app_or in A. rewrite app_assoc. apply in_or_app.
      destruct A as [A|A]; [left|right; exact A].
      apply in_map_iff in A. destruct A as (x & Ex & Hx). rewrite <- Ex. apply S, Hx.
    + intros c mc Hc Ec. apply in_app_or in Hc. destruct Hc as [Hc|Hc].
      * exact (f_le_trans _ _ _ LM (M c mc Hc Ec)).
      * destruct (B c mc Hc Ec) as (j' & Hj' & Lj'). exact (f_le_trans _ _ _ (LE j' Hj') Lj').
Qed.

(** ** C36 *)

Lemma improvements_snoc : forall l a b,
  improvements (l ++ [a; b]) = improvements (l ++ [a]) + (if f_lt b a then 1 else 0).
Proof.
  intro l. induction l as [|x l IH]; intros a b.
  - cbn. lia.
  - destruct l as [|y l]; cbn [app improvements] in *.
    + lia.
    + specialize (IH a b). cbn [app] in IH. rewrite IH. lia.
Qed.

Lemma quiet_snoc : forall l c a b,
  quiet_from c (l ++ [a; b]) = if f_lt b a then 0 else S (quiet_from c (l ++ [a])).
Proof.
  intro l. induction l as [|x l IH]; intros c a b.
  - cbn. destruct (f_lt b a); reflexivity.
  - destruct l as [|y l]; cbn [app quiet_from] in *.
    + destruct (f_lt b a); reflexivity.
    + apply IH.
Qed.

Lemma makespan_positive : forall s m, sane_numbers p -> positive_work p -> valid_schedule p s ->
  makespan p s = Ok m -> f_lt f_zero m = true.
Proof.
  intros s m HN W V E. destruct (makespan_bounds p HP HN s m V E) as (_ & L & _).
  destruct s as [|x s].
  { pose proof (valid_length p [] V) as LL. pose proof (pb_tasks p HP) as T. cbn in LL. lia. }
  apply f_lt_le_trans with (work_time p (it_task x) (it_agent x)).
  - apply W. apply (vs_agents p (x :: s) V). left. reflexivity.
  - apply L. left. reflexivity.
Qed.

Lemma reached_positive : forall j, sane_numbers p -> positive_work p -> reached j ->
  f_lt f_zero (job_best j) = true.
Proof.
  intros j HN W R. pose proof (reached_inv o p op j HP R) as I.
  apply (makespan_positive (job_schedule j)); auto; apply I.
Qed.

Lemma reports_split : forall z ks n ms, reports o z ks (S n) ms ->
  exists l m, ms = l ++ [m] /\ reports o z ks n l /\
    exists z', optimizer_run o z ks (S n) = Ok z' /\ optimizer_best z' = Ok m.
Proof. intros z ks n ms H. inversion H; subst. eauto 10. Qed.

Lemma counters : forall z ks, sane_numbers p -> positive_work p -> OI z ->
  f_eq (oz_last z) f_zero = true -> oz_idle z = 0%Z -> oz_epochs z = 0%Z ->
  forall n z' ms, optimizer_run o z ks (S n) = Ok z' -> reports o z ks (S n) ms ->
  exists m0 l m, ms = m0 :: l ++ [m] /\ optimizer_best z' = Ok m /\ f_eq m (oz_last z') = true /\
    oz_epochs z' = Z.of_nat (S (improvements (l ++ [m]))) /\
    oz_idle z' = (op_batch op * Z.of_nat (quiet (l ++ [m])))%Z.
Proof.
  intros z ks HN W I L0 I0 E0 n. induction n as [|n IH]; intros z' ms H RP.
  - apply reports_split in RP. destruct RP as (l & m & -> & RP & z'' & H' & Bm).
    rewrite H in H'. injection H' as <-. inversion RP as [m0 B0|]; subst.
    cbn [optimizer_run bind] in H. pose proof (oi_update z (ks 0) z' I H) as I'.
    destruct (update_split z (ks 0) z' I H) as (_ & m' & _ & _ & Bm' & _ & _ & C).
    rewrite Bm in Bm'. injection Bm' as <-.
    destruct (oi_front z' I') as (j & _ & _ & Rj & Bj & _). rewrite Bm in Bj. injection Bj as ->.
    pose proof (reached_positive j HN W Rj) as P. pose proof (reached_num j Rj) as N.
    assert (NE : f_eq (job_best j) (oz_last z) = false).
    { assert (NL : num (oz_last z)).
      { destruct (oz_last z) as [s|s| |s mm e B] eqn:X; try reflexivity. discriminate. }
      rewrite eq_key in * by (auto; reflexivity). rewrite lt_key in P by (auto; reflexivity).
      apply Z.eqb_eq in L0. apply Z.ltb_lt in P. apply Z.eqb_neq. lia. }
    rewrite NE in C. destruct C as (C1 & C2 & C3).
    exists m0, [], (job_best j). repeat split; auto.
    + rewrite C3, eq_key by assumption. apply Z.eqb_refl.
    + rewrite C2, E0. reflexivity.
    + rewrite C1. cbn. lia.
  - apply reports_split in RP. destruct RP as (ms' & m & -> & RP & z'' & H' & Bm).
    rewrite H in H'. injection H' as <-.
    change (optimizer_run o z ks (S (S n))) with
      (bind (optimizer_run o z ks (S n)) (fun z1 => optimizer_update o z1 (ks (S n)))) in H.
    apply bind_ok in H. destruct H as (z1 & E & H).
    destruct (IH z1 ms' E RP) as (m0 & l & m1 & -> & B1 & Q1 & EP1 & ID1).
    pose proof (orun_inv ks (S n) z z1 I E) as I1. pose proof (oi_update z1 _ z' I1 H) as I'.
    destruct (update_split z1 _ z' I1 H) as (_ & m' & _ & _ & Bm' & _ & _ & C).
    rewrite Bm in Bm'. injection Bm' as <-.
    destruct (update_best z1 _ z' I1 H) as (_ & m2 & m3 & _ & Bm2 & Bm3 & _ & _ & _ & LE).
    rewrite Bm in Bm2. injection Bm2 as <-. rewrite B1 in Bm3. injection Bm3 as <-.
    destruct (le_num _ _ LE) as [Nm N1].
    assert (NL : num (oz_last z1)).
    { destruct (oz_last z1) as [s|s| |s mm e B] eqn:X; try reflexivity.
      destruct m1; discriminate. }
    exists m0, (l ++ [m1]), m. split; [cbn; rewrite <- app_assoc; reflexivity|]. split; [exact Bm|].
    rewrite <- app_assoc. cbn [app]. rewrite improvements_snoc. unfold quiet in *. rewrite quiet_snoc.
    assert (EQ : f_eq m (oz_last z1) = negb (f_lt m m1)).
    { rewrite eq_key in * by assumption. rewrite lt_key by assumption. rewrite le_key in LE by assumption.
      apply Z.eqb_eq in Q1. apply Z.leb_le in LE.
      destruct (Z.ltb_spec (key m) (key m1)); cbn [negb]; [apply Z.eqb_neq|apply Z.eqb_eq]; lia. }
    rewrite EQ in C. rewrite (oi_batch z1 I1) in C.
    destruct (f_lt m m1) eqn:LT; cbn [negb] in C; destruct C as (C1 & C2 & C3).
    + split; [rewrite C3, eq_key by assumption; apply Z.eqb_refl|]. split; [lia|]. rewrite C1. lia.
    + split; [rewrite C3, EQ; reflexivity|]. split; [lia|]. rewrite C1, ID1. lia.
Qed.

(** ** C35 *)

Definition shift (ks : nat -> nat -> nat -> luck) : nat -> nat -> nat -> luck := fun i => ks (S i).

Lemma run_shift : forall ks n z, optimizer_run o z ks (S n) =
  bind (optimizer_update o z (ks 0)) (fun z1 => optimizer_run o z1 (shift ks) n).
Proof.
  intros ks n. induction n as [|n IH]; intro z.
  - cbn. destruct (optimizer_update o z (ks 0)); reflexivity.
  - change (optimizer_run o z ks (S (S n))) with
      (bind (optimizer_run o z ks (S n)) (fun z1 => optimizer_update o z1 (ks (S n)))).
    rewrite IH. destruct (optimizer_update o z (ks 0)) as [z1| |]; reflexivity.
Qed.

Lemma loop_step : forall z ks z1 n, has_converged z = false -> optimizer_update o z (ks 0) = Ok z1 ->
  loop_stops o z1 (shift ks) n -> loop_stops o z ks (S n).
Proof.
  intros z ks z1 n NC E ((z' & H & CV) & A). split.
  - exists z'. split; [|exact CV]. rewrite run_shift, E. exact H.
  - intros [|i] Hi; [exists z; auto|]. destruct (A i ltac:(lia)) as (y & Hy & Cy).
    exists y. split; [|exact Cy]. rewrite run_shift, E. exact Hy.
Qed.

Lemma loop_runs_step : forall z ks z1, has_converged z = false -> optimizer_update o z (ks 0) = Ok z1 ->
  loop_runs o z ks -> loop_runs o z1 (shift ks).
Proof.
  intros z ks z1 CZ E T n z' H NC. apply (T (S n) z'); [rewrite run_shift, E; exact H|].
  intros [|i] y Hi Hy; [injection Hy as <-; exact CZ|]. rewrite run_shift, E in Hy.
  apply (NC i y); [lia|exact Hy].
Qed.

Lemma loop_runs_first : forall z ks, has_converged z = false -> loop_runs o z ks ->
  exists z1, optimizer_update o z (ks 0) = Ok z1.
Proof.
  intros z ks CZ T. apply (T 0 z eq_refl). intros [|i] y Hi Hy; [injection Hy as <-; exact CZ|lia].
Qed.

(** Once [last_makespan] is the reported makespan. *)
Lemma loop_ends_synced : forall K k z ks m, OI z -> optimizer_best z = Ok m ->
  f_eq m (oz_last z) = true -> Z.to_nat (key m) <= K -> Z.to_nat (op_max_idle op - oz_idle z) <= k ->
  loop_runs o z ks -> exists n, loop_stops o z ks n.
Proof.
  intro K. induction K as [K IHK] using lt_wf_ind.
  intro k. induction k as [|k IHk]; intros z ks m I B Q HK Hk T.
  - exists 0. split; [|intros i Hi; lia]. exists z. split; [reflexivity|].
    unfold has_converged. rewrite (oi_max z I). apply Z.leb_le. lia.
  - destruct (has_converged z) eqn:CZ.
    { exists 0. split; [|intros i Hi; lia]. exists z. auto. }
    destruct (loop_runs_first z ks CZ T) as (z1 & E).
    pose proof (oi_update z _ z1 I E) as I1. pose proof (loop_runs_step z ks z1 CZ E T) as T1.
    assert (G : exists n, loop_stops o z1 (shift ks) n).
    { destruct (update_split z _ z1 I E) as (_ & m' & _ & _ & Bm' & _ & _ & C).
      destruct (update_best z _ z1 I E) as (_ & m2 & m3 & _ & Bm2 & Bm3 & _ & _ & _ & LE).
      rewrite Bm' in Bm2. injection Bm2 as <-. rewrite B in Bm3. injection Bm3 as <-.
      destruct (oi_front z1 I1) as (j & _ & _ & Rj & Bj & _). rewrite Bm' in Bj. injection Bj as ->.
      destruct (reached_nn j Rj) as [Nj Pj]. destruct (le_num _ _ LE) as [_ Nm].
      assert (NL : num (oz_last z)).
      { destruct (oz_last z) as [s|s| |s mm e BB] eqn:X; try reflexivity. destruct m; discriminate. }
      rewrite (eq_key m) in Q by assumption. rewrite le_key in LE by assumption.
      apply Z.eqb_eq in Q. apply Z.leb_le in LE.
      destruct (f_eq (job_best j) (oz_last z)) eqn:EQ; destruct C as (C1 & _ & C3).
      - pose proof (oi_batch_pos z I) as BP. pose proof (oi_batch z I) as BE.
        apply (IHk z1 (shift ks) (job_best j)); auto; try lia. rewrite C3. exact EQ.
      - rewrite eq_key in EQ by assumption. apply Z.eqb_neq in EQ.
        apply (IHK (Z.to_nat (key (job_best j))) ltac:(lia) (Z.to_nat (op_max_idle op - oz_idle z1))
                 z1 (shift ks) (job_best j)); auto.
        rewrite C3, eq_key by assumption. apply Z.eqb_refl. }
    destruct G as (n & H). exists (S n). apply loop_step with z1; assumption.
Qed.

Lemma loop_ends : forall z ks, OI z -> loop_runs o z ks -> exists n, loop_stops o z ks n.
Proof.
  intros z ks I T. destruct (has_converged z) eqn:CZ.
  { exists 0. split; [|intros i Hi; lia]. exists z. auto. }
  destruct (loop_runs_first z ks CZ T) as (z1 & E).
  pose proof (oi_update z _ z1 I E) as I1. pose proof (loop_runs_step z ks z1 CZ E T) as T1.
  destruct (update_split z _ z1 I E) as (_ & m & _ & _ & Bm & _ & _ & C).
  destruct (oi_front z1 I1) as (j & _ & _ & Rj & Bj & _). rewrite Bm in Bj. injection Bj as ->.
  pose proof (reached_num j Rj) as Nj.
  destruct (loop_ends_synced (Z.to_nat (key (job_best j))) (Z.to_nat (op_max_idle op - oz_idle z1))
              z1 (shift ks) (job_best j)) as (n & H); auto.
  - destruct (f_eq (job_best j) (oz_last z)) eqn:EQ; destruct C as (_ & _ & ->); [exact EQ|].
    rewrite eq_key by assumption. apply Z.eqb_refl.
  - exists (S n). apply loop_step with z1; assumption.
Qed.
End History.
