(** * Proofs for C90 and C91 *)

From Coq Require Import String List ZArith Bool Arith Lia Permutation Sorted Reals Lra.
From Flocq Require Import Core BinarySingleNaN.
From Verif Require Import Base F32 F32Facts F32Signed ProjectModel ScheduleModel ScheduleSpec ScheduleProofs TimelineSpec
  SimulationSpec JsonModel JsonSpec JsonProps StatsProofs StunModel StunProofs OptimizerModel OptimizerProofs PredictModel
  YamlModel DocumentSpec LoadSpec LoadModel LoadFacts LoadProps LoadTotalProps PlanSpec PlanTimeProofs.
From Verif Require Import JsonModel.
Import ListNotations.
Local Open Scope nat_scope.

(** ** Times in the file *)

Lemma whole_sum : forall s d a b z, nn s -> nn d -> whole_seconds s a -> whole_seconds d b -> whole_seconds (f_add s d) z ->
  (a <= z)%Z /\ (z < 2 ^ 24 -> a + b <= z)%Z.
Proof.
  intros s d a b z Ns Nd (Fs & S1 & S2) (Fd & D1 & D2) (Ff & Z1 & Z2).
  destruct (add_nn s d Ns Nd) as [Nf V]. rewrite !val_finite in V by assumption.
  assert (C : (rnd (B2R s + B2R d) = B2R (f_add s d))%R).
  { rewrite V. unfold clamp. symmetry. apply Rmin_left. destruct (Rle_or_lt (rnd (B2R s + B2R d)) (bpow radix2 128)) as [L|L]; [exact L|].
    exfalso. unfold clamp in V. rewrite Rmin_right in V by lra.
    pose proof (abs_B2R_lt_emax _ _ (f_add s d)) as A. rewrite V in A. rewrite Rabs_pos_eq in A by apply bpow_ge_0. lra. }
  split.
  - pose proof (add_ge_l s d Ns Nd) as K. apply val_le_key in K. rewrite !val_finite in K by assumption.
    assert (a < z + 1)%Z by (apply lt_IZR; lra). lia.
  - intro L. destruct (Z.le_gt_cases (a + b) z) as [G|G]; [exact G|]. exfalso.
    assert (a + b >= z + 1)%Z by lia.
    assert (P : (0 <= z + 1)%Z).
    { pose proof (nn_val _ Nf) as P. rewrite val_finite in P by exact Ff. assert (0 < z + 1)%Z by (apply lt_IZR; lra). lia. }
    assert (R : (rnd (IZR (z + 1)) <= rnd (B2R s + B2R d))%R).
    { apply rnd_le. apply Rle_trans with (IZR (a + b)); [apply IZR_le; lia|]. rewrite plus_IZR. lra. }
    rewrite rnd_int, C in R by lia. lra.
Qed.

Section Json.
  Context (pr : project) (p : params) (s : list item) (ms : Z) (j : json_result).
  Context (HE : to_schedule_params pr = Ok p) (HP : problem p) (PB : positive_bounds pr) (MP : moderate_performance pr).
  Context (V : valid_schedule p s) (E : schedule_json pr s ms = Ok j).

  Lemma json_over : forall k n x y i o, k < n ->
    nth_error s k = Some y -> nth_error s n = Some x -> nth_error (jr_tasks j) k = Some o -> nth_error (jr_tasks j) n = Some i ->
    depends p (it_task x) (it_task y) \/ it_agent y = it_agent x -> over_before o i.
  Proof.
    intros k n x y i o L Y X O I M. destruct (json_times pr p s ms j HE HP PB MP V E) as (tl & G & T). cbv zeta in T.
    destruct (nth_error_split s n X) as (pre & post & Es & Ln). destruct (nth_error_split s k Y) as (pre' & post' & Es' & Lk).
    destruct (T pre x post Es) as (i' & I' & W1 & _ & _ & _ & MPr). rewrite Ln, I in I'. injection I' as <-.
    destruct (T pre' y post' Es') as (o' & O' & W2 & W3 & _). rewrite Lk, O in O'. injection O' as <-.
    assert (IY : In y pre).
    { apply (nth_error_In pre k). rewrite <- Y, Es. symmetry. apply nth_error_app1. lia. }
    destruct (MPr y) as (z & Wz & Lz). { split; [exact IY|exact M]. }
    destruct (in_seconds_ok pr p HE HP PB MP) as (_ & _ & HV').
    destruct (times_nn pr p HE HP PB MP s tl y (HV' s V) G) as (Ns & Nd & F); [rewrite Es; apply in_or_app; auto|].
    rewrite F in Wz. destruct (whole_sum _ _ _ _ _ Ns Nd W2 W3 Wz) as [S1 S2]. split; [lia|]. intro B. lia.
  Qed.
End Json.

(** ** Success implies able agents *)

Section Able.
  Context (p : params).

  Definition served (i : nat) : Prop := exists a, allowed p i a.

  Lemma push_deps_served : forall push, (forall i s s', push i s = Ok s' -> forall k, In k (snd s) -> In k (snd s') \/ served k) ->
    forall deps s s', push_deps push deps s = Ok s' -> forall k, In k (snd s) -> In k (snd s') \/ served k.
  Proof.
    intros push HPU. induction deps as [|d deps IH]; intros s s' H k I; cbn [push_deps] in H.
    - injection H as <-. auto.
    - apply bind_ok in H. destruct H as (s1 & H1 & H2). destruct (HPU _ _ _ H1 k I) as [I1|S]; [|auto]. exact (IH _ _ H2 k I1).
  Qed.

  Lemma push_task_served : forall fuel i s s', push_task fuel p i s = Ok s' ->
    forall k, In k (snd s) -> In k (snd s') \/ served k.
  Proof.
    induction fuel as [|fuel IH]; intros i s s' H k I; [discriminate H|]. cbn [push_task] in H.
    destruct (expects _) as [[]| |]; cbn [bind] in H; try discriminate H. destruct (expects _) as [[]| |]; cbn [bind] in H; try discriminate H.
    destruct (negb (contains i (snd s))); [injection H as <-; auto|].
    apply bind_ok in H. destruct H as (deps & _ & H). apply bind_ok in H. destruct H as (s1 & H1 & H).
    apply bind_ok in H. destruct H as (av & R & H). apply bind_ok in H. destruct H as (a & A & H).
    destruct (expects _) as [[]| |]; cbn [bind] in H; try discriminate H. injection H as <-. cbn [snd].
    destruct (push_deps_served _ IH _ _ _ H1 k I) as [I1|S]; [|auto].
    destruct (Nat.eq_dec i k) as [<-|N].
    - right. exists a, av. unfold row, at_index in *. destruct (nth_error (sp_agents p) i); [|discriminate R]. injection R as ->.
      split; [reflexivity|]. destruct av as [|b av]; [discriminate A|]. injection A as ->. left. reflexivity.
    - left. unfold erase. apply filter_In. split; [exact I1|]. apply negb_true_iff. apply Nat.eqb_neq. exact N.
  Qed.

  Lemma push_all_served : forall n fuel s s', push_all n fuel p s = Ok s' -> forall k, In k (snd s) -> served k.
  Proof.
    induction n as [|n IH]; intros fuel [done todo] s' H k I; destruct todo as [|t todo]; try (destruct I; fail).
    - discriminate H.
    - cbn [push_all snd] in H. apply bind_ok in H. destruct H as (s1 & H1 & H2).
      destruct (push_task_served _ _ _ _ H1 k I) as [I1|S]; [|exact S]. exact (IH _ _ _ H2 k I1).
  Qed.

  Lemma initial_served : forall s, initial_schedule p = Ok s -> forall i, i < task_count p -> served i.
  Proof.
    intros s H i L. unfold initial_schedule in H. destruct (expects _) as [[]| |]; cbn [bind] in H; try discriminate H.
    apply bind_ok in H. destruct H as (s1 & H1 & _). apply (push_all_served _ _ _ _ H1). apply in_seq. exact (conj (Nat.le_0_l i) L).
  Qed.

  Lemma job_served : forall o op jb, job_new o p op = Ok jb -> forall i, i < task_count p -> served i.
  Proof.
    intros o op jb H. unfold job_new in H. destruct (expects _) as [[]| |]; cbn [bind] in H; try discriminate H.
    destruct (expects _) as [[]| |]; cbn [bind] in H; try discriminate H.
    apply bind_ok in H. destruct H as (mk & _ & H). apply bind_ok in H. destruct H as (tp & _ & H).
    apply bind_ok in H. destruct H as (src & H1 & _). exact (initial_served _ H1).
  Qed.

  Lemma optimizer_served : forall o op threads z, optimizer_new o p op threads = Ok z -> forall i, i < task_count p -> served i.
  Proof.
    intros o op threads z H. unfold optimizer_new in H. destruct (expects _) as [[]| |]; cbn [bind] in H; try discriminate H.
    destruct (expects _) as [[]| |]; cbn [bind] in H; try discriminate H. apply bind_ok in H. destruct H as (jobs & H1 & H).
    destruct threads as [|t].
    - cbn in H1. injection H1 as <-. discriminate H.
    - cbn [seq map_outcome] in H1. apply bind_ok in H1. destruct H1 as (jb & H1 & _). exact (job_served _ _ _ H1).
  Qed.

  Lemma optimize_served : forall fuel o op threads ks r, snd (optimize fuel o p op threads ks) = Ok r ->
    forall i, i < task_count p -> served i.
  Proof.
    intros fuel o op threads ks r H. unfold optimize, quietly, andthen in H. cbn [fst snd] in H.
    destruct (expects _) as [[]| |]; cbn [snd] in H; try discriminate H.
    destruct (expects _) as [[]| |]; cbn [snd] in H; try discriminate H.
    destruct (expects _) as [[]| |]; cbn [snd] in H; try discriminate H.
    destruct (expects _) as [[]| |]; cbn [snd] in H; try discriminate H.
    destruct (optimizer_new o p op threads) as [z| |] eqn:N; cbn [snd] in H; try discriminate H.
    exact (optimizer_served _ _ _ _ N).
  Qed.
End Able.

(** ** Loaded projects *)

Lemma groups_none : forall table names, resolves table [] names -> names = [].
Proof.
  intros table [|g names] (_ & _ & H); [reflexivity|]. destruct (H g (or_introl eq_refl)) as (i & [] & _).
Qed.

Lemma groups_incl : forall table ids ids' names names', resolves table ids names -> resolves table ids' names' ->
  incl ids ids' -> incl names names'.
Proof.
  intros table ids ids' names names' (_ & _ & H) (_ & H' & _) I g G. destruct (H g G) as (i & Ii & N).
  destruct (H' i (I i Ii)) as (g' & N' & G'). rewrite N in N'. injection N' as <-. exact G'.
Qed.

Section Loaded.
  Context (as_float : string -> option f32) (d : yaml) (p : project) (ags : list (yaml * yaml)) (es : list (yaml * list nat)).
  Context (F : facts as_float d p ags es) (H : load as_float d = Loads p).

  Lemma agent_entry : forall k a, nth_error (pr_agents p) k = Some a ->
    exists e, nth_error ags k = Some e /\ agent_mirrors as_float (pr_groups p) k a e.
  Proof.
    intros k a N. destruct (nth_error ags k) as [e|] eqn:E.
    - exists e. split; [reflexivity|]. exact (proj2 (fa_agents _ _ _ _ _ F) k a e N E).
    - exfalso. apply nth_error_None in E. rewrite <- (proj1 (fa_agents _ _ _ _ _ F)) in E. apply nth_error_None in E. congruence.
  Qed.

  Lemma may_do_loaded : forall k a i t ea et, nth_error (pr_agents p) k = Some a -> nth_error (pr_tasks p) i = Some t ->
    nth_error ags k = Some ea -> nth_error es i = Some et -> can_work_on a t = true -> may_do ea et.
  Proof.
    intros k a i t ea et A T EA ET C. destruct (loaded_sorted _ _ _ H) as [SA ST].
    apply can_work_on_spec in C; [|apply SA, (nth_error_In _ _ A)|apply ST, (nth_error_In _ _ T)].
    destruct (agent_entry k a A) as (ea' & EA' & M). rewrite EA in EA'. injection EA' as <-.
    destruct (Forall2_nth _ _ _ _ _ (fa_tasks _ _ _ _ _ F) i t T) as (et' & ET' & MT). rewrite ET in ET'. injection ET' as <-.
    pose proof (tm_agent _ _ _ _ MT) as TA. unfold may_work_impl in C. destruct (tk_agent t) as [q|].
    - left. destruct TA as (a' & N & X). exists (ag_name a'). split; [exact X|].
      rewrite (am_id _ _ _ _ _ M) in C. subst q. rewrite A in N. injection N as <-. apply (am_name _ _ _ _ _ M).
    - right. split; [exact TA|]. destruct (am_groups _ _ _ _ _ M) as (ga & GA & RA & _).
      destruct (tm_groups _ _ _ _ MT) as (gt & GT & RT & _). exists ga, gt. split; [exact GA|]. split; [exact GT|].
      destruct C as [C|[_ C]].
      + left. rewrite C in RA. exact (groups_none _ _ RA).
      + right. exact (groups_incl _ _ _ _ _ RT RA C).
  Qed.

  (** Every task once, so every task has a position. *)
  Lemma position : forall n (s : list item), Permutation (map it_task s) (seq 0 n) ->
    exists at_, (forall i, i < n -> at_ i < n) /\ (forall i, i < n -> exists x, nth_error s (at_ i) = Some x /\ it_task x = i).
  Proof.
    intros n s PM.
    assert (L : length s = n) by (rewrite <- (map_length it_task), (Permutation_length PM), seq_length; reflexivity).
    exists (fun i => (fix find (l : list item) : nat := match l with [] => 0 | x :: l' => if it_task x =? i then 0 else S (find l') end) s).
    assert (G : forall i, i < n -> exists x, nth_error s ((fix find (l : list item) : nat :=
      match l with [] => 0 | x :: l' => if it_task x =? i then 0 else S (find l') end) s) = Some x /\ it_task x = i).
    { intros i B. assert (I : In i (map it_task s)).
      { apply (Permutation_in _ (Permutation_sym PM)). apply in_seq. lia. }
      clear - I. induction s as [|x s IH]; [destruct I|]. destruct (Nat.eqb_spec (it_task x) i) as [E|E].
      - exists x. auto.
      - cbn [nth_error]. apply IH. destruct I as [I|I]; [congruence|exact I]. }
    split; [|exact G]. intros i B. destruct (G i B) as (x & N & _). rewrite <- L. apply nth_error_Some. congruence.
  Qed.

  Context (ps : params) (s : list item) (ms : Z) (j : json_result).
  Context (HE : to_schedule_params p = Ok ps) (HP : problem ps) (PB : positive_bounds p) (MP : moderate_performance p).
  Context (V : valid_schedule ps s) (E : schedule_json p s ms = Ok j).

  Lemma sizes : task_count ps = length es /\ length (pr_tasks p) = length es /\ length s = length es /\ length (jr_tasks j) = length es.
  Proof.
    assert (T : length (pr_tasks p) = length es) by exact (Forall2_same_length _ _ _ _ _ (fa_tasks _ _ _ _ _ F)).
    assert (C : task_count ps = length es).
    { rewrite <- (pb_agents_len _ HP). rewrite (proj1 (available_exact p ps HE)). exact T. }
    assert (S : length s = length es).
    { rewrite <- C, <- (map_length it_task), (Permutation_length (vs_complete _ _ V)), seq_length. reflexivity. }
    destruct (json_in_order p s ms j E) as (LJ & _). rewrite LJ. auto.
  Qed.

  Lemma object_of : forall k x, nth_error s k = Some x ->
    exists o t a, nth_error (jr_tasks j) k = Some o /\ nth_error (pr_tasks p) (it_task x) = Some t /\ ji_task o = tk_name t /\
      nth_error (pr_agents p) (it_agent x) = Some a /\ ji_agent o = ag_name a /\ can_work_on a t = true.
  Proof.
    intros k x X. destruct (json_in_order p s ms j E) as (_ & _ & O).
    destruct (nth_error_split s k X) as (pre & post & Es & Lk).
    destruct (O pre x post Es) as (o & No & (t & Nt & Et) & (a & Na & Ea) & _). rewrite Lk in No.
    exists o, t, a. split; [exact No|]. split; [exact Nt|]. split; [exact Et|]. split; [exact Na|]. split; [exact Ea|].
    destruct (vs_agents _ _ V x (nth_error_In _ _ X)) as (r & R & I).
    destruct (proj2 (available_exact p ps HE) _ t Nt) as (r' & R' & _ & C). rewrite R in R'. injection R' as <-.
    apply C in I. destruct I as (a' & Na' & CW). rewrite Na in Na'. injection Na' as <-. exact CW.
  Qed.

  Lemma names_differ : forall k k' a a', nth_error (pr_agents p) k = Some a -> nth_error (pr_agents p) k' = Some a' ->
    ag_name a = ag_name a' -> k = k'.
  Proof.
    intros k k' a a' A A' N. pose proof (fa_names _ _ _ _ _ F) as ND. rewrite NoDup_nth_error in ND.
    apply ND; [rewrite map_length; apply nth_error_Some; congruence|]. rewrite !nth_error_map, A, A'. cbn. congruence.
  Qed.

  Lemma duration_of : forall k x o t a ea e, nth_error s k = Some x -> nth_error (jr_tasks j) k = Some o ->
    nth_error (pr_tasks p) (it_task x) = Some t -> nth_error (pr_agents p) (it_agent x) = Some a ->
    agent_mirrors as_float (pr_groups p) (it_agent x) a ea -> task_mirrors (pr_agents p) (pr_groups p) t e -> takes_about as_float ea e (ji_duration o).
  Proof.
    intros k x o t a ea e X O Nt Na M MT. destruct (tm_duration _ _ _ _ MT) as (lo & hi & D & L & G).
    exists lo, hi, (tk_min t), (tk_max t), (ag_perf a). split; [exact D|]. split; [exact L|]. split; [exact G|].
    split; [exact (am_perf _ _ _ _ _ M)|].
    destruct (json_times p ps s ms j HE HP PB MP V E) as (tl & _ & TM). cbv zeta in TM.
    destruct (nth_error_split s k X) as (pre & post & Es & Lk). destruct (TM pre x post Es) as (i & I & _ & W & _ & R & _).
    rewrite Lk, O in I. injection I as <-.
    destruct (task_time_json p ps HE PB MP t a _ _ Nt Na) as (J & C & _).
    destruct PB as [PA PD]. rewrite Forall_forall in PA. destruct (PA a (nth_error_In _ _ Na)) as [P1 P2].
    unfold moderate_performance in MP. rewrite Forall_forall in MP. destruct (MP a (nth_error_In _ _ Na)) as [M1 M2].
    apply (duration_near t a _ _ (PD t (nth_error_In _ _ Nt)) P1 P2 M2 M1 J). apply whole_to_int; [apply clean_nn, C|exact W|lia].
  Qed.

  Lemma loaded_plan : exists at_, plan as_float ags es (jr_tasks j) at_.
  Proof.
    destruct sizes as (C & T & S & LJ). pose proof (vs_complete _ _ V) as PM. rewrite C in PM.
    destruct (position _ _ PM) as (at_ & R & P). exists at_. constructor.
    - exact LJ.
    - exact R.
    - intros i k Li Lk Q. destruct (P i Li) as (x & X & <-). destruct (P k Lk) as (y & Y & <-). congruence.
    - intros i e N. assert (L : i < length es) by (apply nth_error_Some; congruence).
      destruct (P i L) as (x & X & Q). destruct (object_of _ x X) as (o & t & a & No & Nt & Et & Na & Ea & CW).
      rewrite Q in Nt. destruct (agent_entry _ _ Na) as (ea & NE & M).
      destruct (Forall2_nth _ _ _ _ _ (fa_tasks _ _ _ _ _ F) i t Nt) as (e' & N' & MT). rewrite N in N'. injection N' as <-.
      exists o, ea. split; [exact No|]. rewrite Et, Ea. split; [apply (tm_name _ _ _ _ MT)|]. split; [exact (nth_error_In _ _ NE)|].
      split; [apply (am_name _ _ _ _ _ M)|]. split; [exact (may_do_loaded _ _ _ _ _ _ Na Nt NE N CW)|].
      rewrite <- Q in Nt. exact (duration_of _ x o t a ea e X No Nt Na M MT).
    - intros i k x y DD X Y. destruct (fa_es _ _ _ _ _ F) as (l & kids & _ & LAY).
      assert (Li : i < length es). { destruct DD as (n & kk & N & _). apply nth_error_Some. congruence. }
      destruct (nth_error (pr_tasks p) i) as [t|] eqn:Nt; [|apply nth_error_None in Nt; lia].
      pose proof (proj2 (proj2 (fa_deps _ _ _ _ _ F i t Nt) k) DD) as IK.
      assert (DP : depends ps i k).
      { exists (tk_deps t). split; [|exact IK]. destruct (params_Ok p ps HE) as (_ & _ & _ & _ & _ & ->).
        rewrite nth_error_map, Nt. reflexivity. }
      assert (Lk : k < length es) by (rewrite <- C; exact (pb_deps_range _ HP _ _ DP)).
      destruct (P i Li) as (xi & Xi & Qi). destruct (P k Lk) as (xk & Xk & Qk).
      assert (LT : at_ k < at_ i).
      { destruct (nth_error_split s (at_ i) Xi) as (pre & post & Es & Ln).
        pose proof (vs_order _ _ V pre xi post Es k ltac:(rewrite Qi; exact DP)) as I. apply in_map_iff in I.
        destruct I as (z & Qz & Iz). apply In_nth_error in Iz. destruct Iz as (m & Nm).
        assert (Lm : m < length pre) by (apply nth_error_Some; congruence).
        assert (Sm : nth_error s m = Some z) by (rewrite Es, nth_error_app1 by exact Lm; exact Nm).
        assert (m = at_ k).
        { assert (ND : NoDup (map it_task s)) by (apply (Permutation_NoDup (Permutation_sym PM)), seq_NoDup).
          rewrite NoDup_nth_error in ND. apply ND; [rewrite map_length; apply nth_error_Some; congruence|].
          rewrite !nth_error_map, Sm, Xk. cbn. congruence. }
        subst m. lia. }
      split; [exact LT|]. refine (json_over p ps s ms j HE HP PB MP V E _ _ xi xk x y LT Xk Xi Y X _). left. rewrite Qi, Qk. exact DP.
    - intros m n x y L Y X Q.
      assert (Ln : n < length s) by (rewrite S, <- LJ; apply nth_error_Some; congruence).
      destruct (nth_error s n) as [xn|] eqn:Xn; [|apply nth_error_None in Xn; lia].
      destruct (nth_error s m) as [xm|] eqn:Xm; [|apply nth_error_None in Xm; lia].
      destruct (object_of _ _ Xn) as (o & t & a & No & _ & _ & Na & Ea & _).
      destruct (object_of _ _ Xm) as (o' & t' & a' & No' & _ & _ & Na' & Ea' & _).
      rewrite X in No. injection No as <-. rewrite Y in No'. injection No' as <-.
      refine (json_over p ps s ms j HE HP PB MP V E _ _ xn xm x y L Xm Xn Y X _). right.
      apply (names_differ _ _ _ _ Na' Na). congruence.
  Qed.
End Loaded.
