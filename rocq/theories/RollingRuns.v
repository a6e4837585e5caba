(** * Runs with the rolling mean: what a run does depends only on the means
      of as many samples as it has seen *)

From Coq Require Import List ZArith Bool Arith Reals Lia Lra.
From Flocq Require Import Core BinarySingleNaN.
From Verif Require Import Base F32 F32Facts F32Signed ScheduleModel TemperatureModel TemperatureSpec TemperatureProofs
  StunModel StunProofs OptimizerModel OptimizerProofs OptimizerSpec BindingProofs RollingModel RollingSpec RollingProofs.
Import ListNotations.

(** The rolling mean, replaced by 0 beyond [N] samples. *)
Definition cut (N : Z) (o : oracles) : oracles :=
  {| or_exp := or_exp o; or_log := or_log o;
     or_mean := fun w l => if (Z.of_nat (length l) <=? N)%Z then rolling_mean w l else f_zero |}.

Lemma cut_within : forall N e o, error_ok e -> (N <= 2 ^ 21)%Z -> (IZR N * / 8388608 <= B2R e)%R ->
  mean_within e (cut N o).
Proof.
  intros N e o [_ Be] HN HE w l W _ F. cbn [cut or_mean].
  destruct (Z.leb_spec (Z.of_nat (length l)) N) as [L|L].
  - destruct (rolling_error w l W F) as [G1 G2]; [lia|]. split; [exact G1|].
    pose proof (window_mean_range w l F) as R. apply Rabs_le_inv in G2.
    assert (B : (INR (length l) * / 8388608 <= B2R e)%R).
    { apply Rle_trans with (2 := HE). apply Rmult_le_compat_r; [lra|]. rewrite INR_IZR_INZ. apply IZR_le, L. }
    lra.
  - split; [reflexivity|]. cbn. lra.
Qed.

Section Agree.
Context (N : Z) (o : oracles).

Lemma temperature_agree : forall t s, (Z.of_nat (length (tp_acc t)) < N)%Z ->
  temperature_update (cut N o) t s = temperature_update (with_rolling o) t s.
Proof.
  intros t s L. unfold temperature_update, average_stun. cbn [cut with_rolling or_mean tp_acc tp_window length].
  replace (Z.of_nat (S (length (tp_acc t))) <=? N)%Z with true; [reflexivity|]. symmetry. apply Z.leb_le. lia.
Qed.

Lemma temperature_grows : forall o' t s t', temperature_update o' t s = Ok t' -> tp_acc t' = s :: tp_acc t.
Proof.
  intros o' t s t' H. unfold temperature_update in H. ok_step H.
  apply bind_ok in H. destruct H as (u & _ & H). injection H as <-. reflexivity.
Qed.

Lemma temperature_run_agree : forall l t, (Z.of_nat (length (tp_acc t)) + Z.of_nat (length l) <= N)%Z ->
  temperature_run (cut N o) t l = temperature_run (with_rolling o) t l.
Proof.
  induction l as [|s l IH]; intros t L; cbn [temperature_run]; [reflexivity|]. cbn [length] in L.
  rewrite temperature_agree by lia. destruct (temperature_update (with_rolling o) t s) as [t'| |] eqn:E; try reflexivity.
  cbn [bind]. apply IH. rewrite (temperature_grows _ _ _ _ E). cbn [length]. lia.
Qed.

(** A job that has made at most [n] iterations of batches of [b]. *)
Definition young (n : Z) (b : Z) (j : job) : Prop :=
  (Z.of_nat (length (tp_acc (jb_temp j))) <= n)%Z /\ jb_batch j = b.

Lemma perform_agree : forall u j, (Z.of_nat (length (tp_acc (jb_temp j))) < N)%Z ->
  perform_stun (cut N o) u j = perform_stun (with_rolling o) u j.
Proof.
  intros u j L. unfold perform_stun. do 5 (destruct (expects _); cbn [bind]; try reflexivity).
  change (stun_fn (cut N o)) with (stun_fn (with_rolling o)).
  destruct (stun_fn (with_rolling o) _ _ _) as [ts| |]; cbn [bind]; try reflexivity.
  change (acceptance (cut N o)) with (acceptance (with_rolling o)).
  destruct (f_le u _); [|reflexivity]. rewrite temperature_agree by exact L. reflexivity.
Qed.

Lemma neighbor_keeps : forall j d j', get_new_neighbor j d = Ok j' ->
  jb_temp j' = jb_temp j /\ jb_batch j' = jb_batch j.
Proof.
  intros j d j' H. unfold get_new_neighbor in H. ok_step H. ok_step H. ok_step H.
  apply bind_ok in H. destruct H as (t & _ & H). apply bind_ok in H. destruct H as (r & _ & H).
  ok_step H. injection H as <-. split; reflexivity.
Qed.

Lemma update_agree : forall j k, (Z.of_nat (length (tp_acc (jb_temp j))) < N)%Z ->
  stun_update (cut N o) j k = stun_update (with_rolling o) j k.
Proof.
  intros j k L. unfold stun_update. destruct (expects _); cbn [bind]; try reflexivity.
  destruct (get_new_neighbor j (lk_draws k)) as [j1| |] eqn:E; cbn [bind]; try reflexivity.
  apply neighbor_keeps in E. destruct E as [E _].
  change (neighbor_is_better (cut N o)) with (neighbor_is_better (with_rolling o)).
  destruct (neighbor_is_better (with_rolling o) (jb_stun j1)) as [r| |]; cbn [bind]; try reflexivity.
  destruct (fst r); [reflexivity|]. apply perform_agree. cbn [with_stun jb_temp]. rewrite E. exact L.
Qed.

Lemma update_young : forall o' n b j k j', young n b j -> stun_update o' j k = Ok j' -> young (n + 1) b j'.
Proof.
  intros o' n b j k j' [A B] H. unfold stun_update in H. ok_step H.
  apply bind_ok in H. destruct H as (j1 & E & H). apply neighbor_keeps in E. destruct E as [E1 E2].
  apply bind_ok in H. destruct H as (r & _ & H). destruct (fst r).
  - injection H as <-. split; cbn [with_stun jb_temp jb_batch]; [rewrite E1; lia|congruence].
  - unfold perform_stun in H. cbv zeta in H. do 5 ok_step H. apply bind_ok in H. destruct H as (ts & _ & H).
    match type of H with (if ?c then _ else _) = _ => destruct c end.
    + apply bind_ok in H. destruct H as (t & T & H). ok_step H. injection H as <-.
      apply temperature_grows in T. cbn [with_stun jb_temp] in T.
      split; cbn [jb_temp jb_batch with_stun]; [rewrite T, E1; cbn [length]; lia|congruence].
    + ok_step H. cbn [expects bind] in H. injection H as <-. split; cbn [with_stun jb_temp jb_batch]; [rewrite E1; lia|congruence].
Qed.

Lemma run_agree : forall b ks n j, young n b j -> (n + Z.of_nat (length ks) <= N)%Z ->
  stun_run (cut N o) j ks = stun_run (with_rolling o) j ks /\
  forall j', stun_run (with_rolling o) j ks = Ok j' -> young (n + Z.of_nat (length ks)) b j'.
Proof.
  intro b. induction ks as [|k ks IH]; intros n j Y L; cbn [stun_run].
  - split; [reflexivity|]. intros j' [= <-]. cbn [length]. rewrite Z.add_0_r. exact Y.
  - cbn [length] in L. rewrite update_agree by (destruct Y; lia).
    destruct (stun_update (with_rolling o) j k) as [j1| |] eqn:E; cbn [bind]; [|split; [reflexivity|discriminate]..].
    destruct (IH (n + 1)%Z j1) as [G1 G2]; [apply (update_young _ n b j k j1 Y E)|lia|].
    split; [exact G1|]. intros j' H. cbn [length]. rewrite Nat2Z.inj_succ.
    replace (n + Z.succ (Z.of_nat (length ks)))%Z with (n + 1 + Z.of_nat (length ks))%Z by lia. apply G2, H.
Qed.

Lemma jobs_agree : forall b ks jobs n i, (0 <= b)%Z -> Forall (young n b) jobs -> (n + b <= N)%Z ->
  update_jobs (cut N o) i jobs ks = update_jobs (with_rolling o) i jobs ks /\
  forall js, update_jobs (with_rolling o) i jobs ks = Ok js -> Forall (young (n + b) b) js.
Proof.
  intros b ks jobs. induction jobs as [|j jobs IH]; intros n i HB F L; cbn [update_jobs].
  - split; [reflexivity|]. intros js [= <-]. constructor.
  - inversion F as [|? ? Y F']; subst. unfold job_update.
    destruct (expects (0 <? jb_batch j)%Z); cbn [bind]; [|split; [reflexivity|discriminate]..].
    pose proof (proj2 Y) as EB.
    assert (EL : Z.of_nat (length (map (ks i) (seq 0 (Z.to_nat (jb_batch j))))) = b)
      by (rewrite map_length, seq_length, EB; lia).
    destruct (run_agree b (map (ks i) (seq 0 (Z.to_nat (jb_batch j)))) n j Y) as [G1 G2]; [lia|].
    rewrite G1. rewrite EL in G2.
    destruct (stun_run (with_rolling o) j _) as [j'| |]; cbn [bind]; [|split; [reflexivity|discriminate]..].
    destruct (IH n (S i) HB F' L) as [G3 G4]. rewrite G3.
    destruct (update_jobs (with_rolling o) (S i) jobs ks) as [js'| |]; cbn [bind];
      [|split; [reflexivity|discriminate]..].
    split; [reflexivity|]. intros js [= <-]. constructor; [apply G2; reflexivity|apply G4; reflexivity].
Qed.

Lemma copy_young : forall n b j c, young n b j -> job_copy j = Ok c -> young n b c.
Proof.
  intros n b j c [A B] H. unfold job_copy in H. apply bind_ok in H. destruct H as (m & _ & H).
  apply bind_ok in H. destruct H as (s & _ & H). injection H as <-. split; assumption.
Qed.

Lemma replicate_young : forall n b jobs js, Forall (young n b) jobs -> replicate_best_job jobs = Ok js ->
  Forall (young n b) js.
Proof.
  intros n b jobs js F H. unfold replicate_best_job in H. destruct jobs as [|j0 rest]; [discriminate|].
  apply bind_ok in H. destruct H as (t & T & H).
  assert (Yt : young n b t).
  { apply copy_young with (2 := T). rewrite Forall_forall in F. apply F, min_job_in. }
  apply map_outcome_forall2 in H. rewrite Forall_forall in F. apply Forall_forall. intros j Hj.
  destruct (forall2_in_r _ _ _ _ _ _ H Hj) as (j1 & I1 & E). cbn beta in E.
  destruct (f_eq _ _) in E; [injection E as <-; apply F, I1|].
  apply bind_ok in E. destruct E as (c & C & E). injection E as <-.
  destruct (copy_young n b t c Yt C) as [A B]. split; assumption.
Qed.

Lemma estimate_keeps : forall o' z z', estimate_progress o' z = Ok z' \/ interpolate_progress o' z = Ok z' ->
  oz_jobs z' = oz_jobs z /\ oz_batch z' = oz_batch z.
Proof.
  intros o' z z' [H|H].
  - unfold estimate_progress in H. cbv zeta in H. ok_step H. apply bind_ok in H. destruct H as (q & _ & H).
    apply bind_ok in H. destruct H as (m & _ & H). apply bind_ok in H. destruct H as (r & _ & H).
    ok_step H. ok_step H. injection H as <-. split; reflexivity.
  - unfold interpolate_progress in H. cbv zeta in H. ok_step H. apply bind_ok in H. destruct H as (q & _ & H).
    injection H as <-. split; reflexivity.
Qed.

(** An optimizer all of whose jobs are young. *)
Definition young_all (n b : Z) (z : optimizer) : Prop := oz_batch z = b /\ Forall (young n b) (oz_jobs z).

Lemma optimizer_agree : forall n b z ks, (0 <= b)%Z -> young_all n b z -> (n + b <= N)%Z ->
  optimizer_update (cut N o) z ks = optimizer_update (with_rolling o) z ks /\
  forall z', optimizer_update (with_rolling o) z ks = Ok z' -> young_all (n + b) b z'.
Proof.
  intros n b z ks HB [EB F] L. destruct (jobs_agree b ks (oz_jobs z) n 0 HB F L) as [G1 G2].
  unfold optimizer_update. cbv zeta. rewrite G1.
  change (interpolate_progress (cut N o)) with (interpolate_progress (with_rolling o)).
  change (estimate_progress (cut N o)) with (estimate_progress (with_rolling o)).
  split; [reflexivity|]. intros z' H. ok_step H. ok_step H.
  apply bind_ok in H. destruct H as (js & J1 & H). apply bind_ok in H. destruct H as (js' & J2 & H).
  apply bind_ok in H. destruct H as (m & _ & H).
  assert (K : oz_jobs z' = js' /\ oz_batch z' = oz_batch z).
  { destruct (f_eq _ _) in H; [apply (fun x => estimate_keeps _ _ _ (or_intror x)) in H
      |apply (fun x => estimate_keeps _ _ _ (or_introl x)) in H]; exact H. }
  destruct K as [K1 K2]. split; [congruence|]. rewrite K1.
  apply (replicate_young _ _ js js'); [apply G2, J1|exact J2].
Qed.

Lemma optimizer_run_agree : forall b z ks, (0 <= b)%Z -> young_all 0 b z -> forall n, (Z.of_nat n * b <= N)%Z ->
  optimizer_run (cut N o) z ks n = optimizer_run (with_rolling o) z ks n /\
  forall z', optimizer_run (with_rolling o) z ks n = Ok z' -> young_all (Z.of_nat n * b) b z'.
Proof.
  intros b z ks HB Y. induction n as [|n IH]; intro L; cbn [optimizer_run].
  - split; [reflexivity|]. intros z' [= <-]. exact Y.
  - destruct IH as [G1 G2]; [lia|]. rewrite G1.
    destruct (optimizer_run (with_rolling o) z ks n) as [z1| |]; cbn [bind]; [|split; [reflexivity|discriminate]..].
    destruct (optimizer_agree (Z.of_nat n * b) b z1 (ks n) HB (G2 z1 eq_refl)) as [G3 G4]; [lia|].
    split; [exact G3|]. intros z' H. replace (Z.of_nat (S n) * b)%Z with (Z.of_nat n * b + b)%Z by lia.
    apply G4, H.
Qed.

Lemma new_agree : forall p op threads, optimizer_new (cut N o) p op threads = optimizer_new (with_rolling o) p op threads.
Proof. reflexivity. Qed.
End Agree.

Lemma new_job_young : forall o p op j, job_new o p op = Ok j -> young 0 (op_batch op) j.
Proof.
  intros o p op j H. unfold job_new in H. ok_step H. ok_step H.
  apply bind_ok in H. destruct H as (mk & _ & H). apply bind_ok in H. destruct H as (t & T & H).
  apply bind_ok in H. destruct H as (src & _ & H). ok_step H.
  apply bind_ok in H. destruct H as (j1 & R & H). ok_step H. injection H as <-.
  unfold temperature_new in T. do 4 ok_step T. injection T as <-.
  unfold stun_reset in R. ok_step R. apply bind_ok in R. destruct R as (s1 & _ & R).
  apply bind_ok in R. destruct R as (s2 & _ & R). unfold init_energies in R. cbv zeta in R. ok_step R.
  apply bind_ok in R. destruct R as (r & _ & R). apply bind_ok in R. destruct R as (cs & _ & R).
  ok_step R. ok_step R. injection R as <-. split; cbn; [lia|reflexivity].
Qed.

Lemma new_young : forall o p op threads z, optimizer_new o p op threads = Ok z ->
  (0 < op_batch op)%Z /\ young_all 0 (op_batch op) z.
Proof.
  intros o p op threads z H. unfold optimizer_new in H. ok_step H. ok_step H.
  apply bind_ok in H. destruct H as (jobs & J & H). ok_step H. injection H as <-.
  split; [apply Z.ltb_lt; assumption|]. split; [reflexivity|]. cbn [oz_jobs].
  apply map_outcome_forall2 in J. apply Forall_forall. intros j Hj.
  destruct (forall2_in_r _ _ _ _ _ _ J Hj) as (i & _ & E). apply new_job_young with (1 := E).
Qed.
