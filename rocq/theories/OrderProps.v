(** * Property theorems C82: the interleaving of parallel jobs *)

From Coq Require Import List ZArith Bool Arith Lia Permutation.
From Flocq Require Import BinarySingleNaN.
From Verif Require Import Base F32 ProjectModel ScheduleModel ScheduleSpec MutatorModel MakespanModel
  TemperatureModel StunModel SearchSpec StunProofs StunProps OptimizerModel OptimizerSpec OptimizerProofs
  OptimizerProps BindingModel BindingSpec BindingProofs BindingEffects BindingProps OrderSpec OrderProofs.
Import ListNotations.

(** ** Examples: two optimizers with two jobs each, the second a copy of the
    first *)

Definition ex_pair : list (@command nat) := [New ex2_params ex_options [0; 2]; Copy 0].
Definition ex_w2 : world nat := result_or no_world (execute_all ex_source step_exp no_world ex_pair).

Example ex_w2_reached : execute_all ex_source step_exp no_world ex_pair = Ok ex_w2.
Proof. apply result_or_ok. vm_compute. reflexivity. Qed.

(** C82: an iteration is a function of one job and one random number source
    and changes nothing but these two; different jobs of an optimizer have
    different sources.  This holds in every history, also for copies, which
    draw from the sources of the original. *)
Theorem iterations_apart : forall G (gs : source G) o,
  exists step : iteration G, forall cs w, execute_all gs o (empty_world G) cs = Ok w ->
    let m := w_memory w in
    forall b i s, cell m (b, i) = Some s ->
      let q := pt_mutator_random (sl_pointers s) in
      iterate gs o m (b, i) =
        (rs <- read m q ;;
         r <- step (sl_job s) (sl_random rs) ;;
         m1 <- write_random m q (snd r) ;;
         write_job m1 (b, i) (fun _ => fst r)) /\
      forall k t, k <> i -> cell m (b, k) = Some t -> pt_mutator_random (sl_pointers t) <> q.
Proof.
  intros G gs o. exists (step gs o). intros cs w H m b i s C q.
  pose proof (execute_all_lined gs o cs _ w good_empty lined_empty H) as L. destruct (L _ s C) as (P & Q & D).
  split; [apply iterate_step; assumption|]. intros k t N CT E. destruct (L _ t CT) as (_ & _ & D').
  apply N. cbn [snd] in D, D'. rewrite <- D', E. exact D.
Qed.
Print Assumptions iterations_apart.

Example ex_iterations_apart :
  option_map (fun s => pt_mutator_random (sl_pointers s)) (cell (w_memory ex_w2) (1, 0)) = Some (0, 0) /\
  option_map (fun s => pt_mutator_random (sl_pointers s)) (cell (w_memory ex_w2) (1, 1)) = Some (0, 1) /\
  is_ok (iterate ex_source step_exp (w_memory ex_w2) (1, 1)) = true.
Proof. repeat split; vm_compute; reflexivity. Qed.

(** C82: the result of an update does not depend on how the iterations of
    the jobs are interleaved: the same jobs, the same states of all sources,
    the same progress. *)
Theorem order_irrelevant : forall G (gs : source G) o cs w x order order' w1,
  execute_all gs o (empty_world G) cs = Ok w -> execute gs o w (Update x order) = Ok w1 ->
  (Permutation order order' -> execute gs o w (Update x order') = Ok w1) /\
  (forall w2, execute gs o w (Update x order') = Ok w2 -> w2 = w1).
Proof.
  intros G gs o cs w x order order' w1 H E.
  pose proof (execute_all_lined gs o cs _ w good_empty lined_empty H) as L. split.
  - intro P. apply (update_order gs o w x order order' w1 L P E).
  - intros w2 E2.
    assert (P : Permutation order order').
    { cbn [execute] in E, E2. destruct (object_at w x) as [ob| |]; cbn [bind] in *; try discriminate.
      destruct (expects (0 <? oz_batch (ob_head ob))%Z); cbn [bind] in *; try discriminate.
      destruct (block (w_memory w) (ob_block ob)) as [l| |]; cbn [bind] in *; try discriminate.
      destruct (expects (negb (length l =? 0))); cbn [bind] in *; try discriminate.
      ok_step E. ok_step E2. apply (fair_same l); assumption. }
    rewrite (update_order gs o w x order order' w1 L P E) in E2. congruence.
Qed.
Print Assumptions order_irrelevant.

Definition order_a : list nat := [0; 1; 1; 0; 1; 0].
Definition order_b : list nat := [1; 0; 0; 0; 1; 1].

Example ex_order_irrelevant : Permutation order_a order_b /\
  is_ok (execute ex_source step_exp ex_w2 (Update 1 order_a)) = true /\
  is_ok (execute ex_source step_exp ex_w2 (Update 1 order_b)) = true.
Proof.
  split; [|split; vm_compute; reflexivity].
  apply (Permutation_count_occ Nat.eq_dec). intros [|[|x]]; reflexivity.
Qed.

(** C82: in particular the result is that of running the jobs one after the
    other. *)
Lemma count_repeat : forall i k n, count_occ Nat.eq_dec (repeat i n) k = if Nat.eq_dec i k then n else 0.
Proof.
  intros i k n. induction n as [|n IH]; cbn [repeat count_occ]; [destruct (Nat.eq_dec i k); reflexivity|].
  rewrite IH. destruct (Nat.eq_dec i k); reflexivity.
Qed.

Lemma count_one_by_one : forall jobs i k, count_occ Nat.eq_dec (one_by_one i jobs) k =
  if k <? i then 0 else match nth_error jobs (k - i) with Some j => Z.to_nat (jb_batch j) | None => 0 end.
Proof.
  induction jobs as [|j jobs IH]; intros i k; cbn [one_by_one].
  - destruct (k <? i); [reflexivity|]. destruct (k - i); reflexivity.
  - rewrite count_occ_app, count_repeat, IH. destruct (Nat.eq_dec i k) as [->|N].
    + rewrite Nat.ltb_irrefl, Nat.sub_diag. replace (k <? S k) with true by (symmetry; apply Nat.ltb_lt; lia). cbn. lia.
    + destruct (Nat.ltb_spec k i) as [L|L].
      * replace (k <? S i) with true by (symmetry; apply Nat.ltb_lt; lia). reflexivity.
      * replace (k <? S i) with false by (symmetry; apply Nat.ltb_ge; lia).
        replace (k - i) with (S (k - S i)) by lia. reflexivity.
Qed.

Theorem parallel_is_sequential : forall G (gs : source G) o cs w x order w1,
  execute_all gs o (empty_world G) cs = Ok w -> execute gs o w (Update x order) = Ok w1 ->
  exists z, value_of w x = Ok z /\ execute gs o w (Update x (one_by_one 0 (oz_jobs z))) = Ok w1.
Proof.
  intros G gs o cs w x order w1 H E. pose proof E as E0. cbn [execute] in E0.
  apply bind_ok in E0. destruct E0 as (ob & OB & E0). ok_step E0.
  apply bind_ok in E0. destruct E0 as (l & B & E0). ok_step E0. ok_step E0.
  exists (with_jobs (ob_head ob) (map sl_job l)). split.
  - unfold value_of. rewrite OB. cbn [bind]. rewrite B. reflexivity.
  - apply (order_irrelevant G gs o cs w x order _ w1 H E). apply (fair_same l); [assumption|].
    match goal with F : fair l order = true |- _ => unfold fair in F |- *; apply andb_prop in F; destruct F as (F & F3);
      apply andb_prop in F; destruct F as (F1 & F2) end.
    rewrite F3, andb_true_r. cbn [oz_jobs with_jobs].
    assert (Cn : forall k, count_occ Nat.eq_dec (one_by_one 0 (map sl_job l)) k =
      match nth_error l k with Some s => Z.to_nat (jb_batch (sl_job s)) | None => 0 end).
    { intro k. rewrite count_one_by_one. cbn [Nat.ltb Nat.leb]. rewrite Nat.sub_0_r, nth_error_map. destruct (nth_error l k); reflexivity. }
    apply andb_true_intro. split; apply forallb_forall; intros k Hk.
    + apply Nat.ltb_lt, nth_error_Some. intro N. apply (count_occ_In Nat.eq_dec) in Hk. rewrite Cn, N in Hk. lia.
    + rewrite Cn. destruct (nth_error l k) as [s|] eqn:Es; [|reflexivity]. apply Z.eqb_eq, Z2Nat.id.
      rewrite forallb_forall in F3. specialize (F3 s (nth_error_In _ _ Es)). apply Z.ltb_lt in F3. lia.
Qed.
Print Assumptions parallel_is_sequential.

Example ex_parallel_is_sequential :
  bind (value_of ex_w2 1) (fun z => Ok (one_by_one 0 (oz_jobs z))) = Ok [0; 0; 0; 1; 1; 1].
Proof. vm_compute. reflexivity. Qed.

(** C82: whole histories: with the same seeds, the optimizers end in the
    same states whatever the interleavings in all their updates. *)
Theorem histories_deterministic : forall G (gs : source G) o cs cs' w,
  Forall2 reordered cs cs' -> execute_all gs o (empty_world G) cs = Ok w ->
  execute_all gs o (empty_world G) cs' = Ok w.
Proof.
  intros G gs o cs cs' w F H. apply (execute_all_reordered gs o cs cs' F _ w good_empty lined_empty H).
Qed.
Print Assumptions histories_deterministic.

Example ex_histories :
  Forall2 reordered (ex_pair ++ [Update 1 order_a; Update 0 order_b; Update 1 order_a])
                    (ex_pair ++ [Update 1 order_b; Update 0 order_b; Update 1 order_a]) /\
  is_ok (execute_all ex_source step_exp no_world (ex_pair ++ [Update 1 order_a; Update 0 order_b; Update 1 order_a])) = true.
Proof.
  split; [|vm_compute; reflexivity].
  repeat constructor. apply ex_order_irrelevant.
Qed.
