(** * Jobs that differ only in memory that is not read *)

From Coq Require Import List ZArith Bool Arith Lia.
From Flocq Require Import Core BinarySingleNaN.
From Verif Require Import Base F32 F32Facts ProjectModel ScheduleModel
  ScheduleSpec ScheduleProofs MutatorModel MakespanModel MakespanProofs
  TemperatureModel StunModel SearchSpec StunProofs.
Import ListNotations.

Lemma same_refl : forall j, same_job j j.
Proof. intro j. constructor; reflexivity. Qed.

Lemma same_sym : forall j j', same_job j j' -> same_job j' j.
Proof.
  intros j j' [H1 H2 H3 H4 H5 H6 H7 H8 H9 H10 H11 H12 H13 H14 H15].
  constructor; auto. intro S. rewrite <- H8 in S. symmetry. auto.
Qed.

Lemma same_trans : forall a b c, same_job a b -> same_job b c -> same_job a c.
Proof.
  intros a b c [A1 A2 A3 A4 A5 A6 A7 A8 A9 A10 A11 A12 A13 A14 A15]
               [B1 B2 B3 B4 B5 B6 B7 B8 B9 B10 B11 B12 B13 B14 B15].
  constructor; try congruence. intro S. rewrite A10 by exact S. apply B10. congruence.
Qed.

Lemma agree_bind : forall A B (R : A -> A -> Prop) (S : B -> B -> Prop) x y f g,
  agree R x y -> (forall a b, R a b -> agree S (f a) (g b)) ->
  agree S (bind x f) (bind y g).
Proof.
  intros A B R S [a| |] [b| |] f g H HF; cbn in *; try tauto. apply HF, H.
Qed.

Lemma agree_eq : forall A (x : outcome A), agree eq x x.
Proof. intros A [a| |]; cbn; auto. Qed.

Lemma agree_expects : forall A (S : A -> A -> Prop) b f g,
  agree S f g -> agree S (bind (expects b) (fun _ => f)) (bind (expects b) (fun _ => g)).
Proof. intros A S [|] f g H; cbn; auto. Qed.

(** After the candidate is stored everything except [target_s] agrees. *)
Record near_same (j j' : job) : Prop := {
  ns_batch : jb_batch j = jb_batch j';
  ns_mutator : jb_mutator j = jb_mutator j';
  ns_params : jb_params j = jb_params j';
  ns_mk : jb_makespan j = jb_makespan j';
  ns_temp : jb_temp j = jb_temp j';
  ns_stun : exists ts,
    jb_stun j' =
    {| st_best := st_best (jb_stun j); st_one := st_one (jb_stun j); st_two := st_two (jb_stun j);
       st_swapped := st_swapped (jb_stun j); st_current_e := st_current_e (jb_stun j);
       st_lowest_e := st_lowest_e (jb_stun j); st_target_e := st_target_e (jb_stun j);
       st_gamma := st_gamma (jb_stun j); st_current_s := st_current_s (jb_stun j);
       st_target_s := ts |}
}.

Lemma near_same_same : forall j j', near_same j j' -> same_job j j'.
Proof.
  intros j j' [B M P K T (ts & S)].
  constructor; rewrite ?S; cbn; auto; rewrite K; reflexivity.
Qed.

Lemma same_update : forall o j j' k, same_job j j' ->
  agree same_job (stun_update o j k) (stun_update o j' k).
Proof.
  intros o j j' k [H1 H2 H3 H4 H5 H6 H7 H8 H9 H10 H11 H12 H13 H14 H15].
  assert (C : st_current (jb_stun j) = st_current (jb_stun j')).
  { unfold st_current. rewrite <- H8. destruct (st_swapped (jb_stun j)) eqn:S; auto. }
  assert (L : length (st_target (jb_stun j)) = length (st_target (jb_stun j'))).
  { unfold st_target. rewrite <- H8. destruct (st_swapped (jb_stun j)); congruence. }
  unfold stun_update. rewrite <- C. apply agree_expects.
  apply agree_bind with (R := near_same).
  - unfold get_new_neighbor. rewrite <- C, <- L. do 3 apply agree_expects.
    rewrite <- H2. apply agree_bind with (R := eq); [apply agree_eq|].
    intros t ? <-. rewrite <- H3.
    rewrite (eval_depends_on_lengths (jb_params j) t (jb_makespan j') (jb_makespan j)) by auto.
    apply agree_bind with (R := eq); [apply agree_eq|].
    intros r ? <-. apply agree_expects. cbn [agree].
    constructor; cbn [jb_batch jb_mutator jb_params jb_makespan jb_temp jb_stun]; auto.
    exists (st_target_s (jb_stun j')). unfold set_target. cbn.
    rewrite <- H7, <- H8, <- H9, <- H12, <- H13, <- H14, <- H15.
    destruct (st_swapped (jb_stun j)) eqn:S.
    + rewrite H10 by reflexivity. reflexivity.
    + reflexivity.
  - clear. intros j j' [B M P K T (ts & S)]. rewrite S.
    unfold neighbor_is_better, perform_stun, with_stun, st_current, st_target.
    cbn [st_best st_one st_two st_swapped st_current_e st_lowest_e st_target_e st_gamma st_current_s st_target_s].
    apply agree_bind with (R := fun a b => fst a = fst b /\ exists ts,
      snd b = {| st_best := st_best (snd a); st_one := st_one (snd a); st_two := st_two (snd a);
       st_swapped := st_swapped (snd a); st_current_e := st_current_e (snd a);
       st_lowest_e := st_lowest_e (snd a); st_target_e := st_target_e (snd a);
       st_gamma := st_gamma (snd a); st_current_s := st_current_s (snd a);
       st_target_s := ts |}).
    + do 7 apply agree_expects.
      destruct (f_lt (st_target_e (jb_stun j)) (st_current_e (jb_stun j))).
      * destruct (f_lt (st_target_e (jb_stun j)) (st_lowest_e (jb_stun j))).
        -- apply agree_bind with (R := eq); [apply agree_eq|]. intros cs ? <-. cbn. split; eauto.
        -- cbn. split; eauto.
      * cbn. split; eauto.
    + intros [b s] [b' s'] [E (ts' & S')]. cbn [fst snd] in *. subst b' s'.
      destruct b.
      * cbn [agree]. constructor; cbn; auto; rewrite K; reflexivity.
      * cbn [jb_stun jb_temp st_best st_one st_two st_swapped st_current_e st_lowest_e st_target_e st_gamma
             st_current_s st_target_s]. do 5 apply agree_expects.
        apply agree_bind with (R := eq); [apply agree_eq|]. intros u ? <-. rewrite <- T.
        destruct (f_le (lk_uniform k) _).
        -- apply agree_bind with (R := eq); [apply agree_eq|]. intros t ? <-.
           apply agree_expects. constructor; cbn; auto; rewrite K; reflexivity.
        -- do 2 apply agree_expects. constructor; cbn; auto; rewrite K; reflexivity.
Qed.

Lemma same_run : forall o ks j j', same_job j j' ->
  agree same_job (stun_run o j ks) (stun_run o j' ks).
Proof.
  intros o ks. induction ks as [|k ks IH]; intros j j' H; cbn [stun_run].
  - exact H.
  - apply agree_bind with (R := same_job); [apply same_update, H|]. intros a b HS. apply IH, HS.
Qed.

Lemma same_job_update : forall o ks j j', same_job j j' ->
  agree same_job (job_update o j ks) (job_update o j' ks).
Proof.
  intros o ks j j' H. unfold job_update. rewrite <- (sj_batch j j' H).
  apply agree_expects. apply same_run, H.
Qed.

(** Copying keeps the relation. *)
Lemma same_copy : forall j j', same_job j j' ->
  length (st_best (jb_stun j)) = length (st_one (jb_stun j)) ->
  length (st_best (jb_stun j)) = length (st_two (jb_stun j)) ->
  0 < length (st_best (jb_stun j)) ->
  agree same_job (job_copy j) (job_copy j').
Proof.
  intros j j' [H1 H2 H3 H4 H5 H6 H7 H8 H9 H10 H11 H12 H13 H14 H15] L1 L2 L0.
  unfold job_copy, makespan_copy. rewrite <- H3, <- H4, <- H5.
  apply agree_bind with (R := eq); [apply agree_eq|]. intros m ? <-.
  unfold stun_copy. rewrite <- H7.
  destruct (Nat.eqb_spec (length (st_best (jb_stun j))) 0) as [Z|NZ]; [lia|].
  destruct (prepare_ok (jb_stun j) (length (st_best (jb_stun j))) L0)
    as (s & E & _ & _ & LT & SW & GA & CE & LE & CS & SG).
  destruct (prepare_ok (jb_stun j') (length (st_best (jb_stun j))) L0)
    as (s' & E' & _ & _ & LT' & SW' & GA' & CE' & LE' & CS' & SG').
  rewrite E, E'. cbn [bind agree].
  destruct SG as (S0 & S1 & S2); try congruence.
  destruct SG' as (S0' & S1' & S2'); try congruence.
  constructor; cbn [jb_batch jb_mutator jb_params jb_makespan jb_temp jb_stun]; try congruence.
Qed.

Lemma same_observed : forall j j', same_job j j' ->
  job_schedule j = job_schedule j' /\ job_best j = job_best j'.
Proof. intros j j' H. split; apply H. Qed.
