(** * Proofs about schedule parameters and the initial schedule *)

From Coq Require Import List ZArith Bool Arith Relations Permutation Sorted Lia.
From Verif Require Import Base F32 ProjectModel ScheduleModel ScheduleSpec.
Import ListNotations.

(** ** Small facts *)

Lemma contains_In : forall x l, contains x l = true <-> In x l.
Proof.
  intros x l. unfold contains. rewrite existsb_exists. split.
  - intros (y & Hy & E). apply Nat.eqb_eq in E. subst. exact Hy.
  - intro H. exists x. split; [exact H|apply Nat.eqb_refl].
Qed.

Lemma erase_In : forall x y l, In y (erase x l) <-> In y l /\ x <> y.
Proof.
  intros x y l. unfold erase. rewrite filter_In. rewrite negb_true_iff, Nat.eqb_neq.
  tauto.
Qed.

Lemma erase_perm : forall x l, NoDup l -> In x l -> Permutation (x :: erase x l) l.
Proof.
  intros x l Hnd Hin. apply NoDup_Permutation.
  - constructor.
    + rewrite erase_In. tauto.
    + apply NoDup_filter, Hnd.
  - exact Hnd.
  - intro y. cbn [In]. rewrite erase_In. split.
    + intros [->|[H _]]; assumption.
    + intro H. destruct (Nat.eq_dec x y); [left; assumption|right; split; assumption].
Qed.

Lemma expects_Ok : forall b A (k : unit -> outcome A), b = true ->
  bind (expects b) k = k tt.
Proof. intros b A k ->. reflexivity. Qed.

Lemma at_index_Ok : forall A (l : list A) i a, nth_error l i = Some a ->
  at_index l i = Ok a.
Proof. intros A l i a H. unfold at_index. rewrite H. reflexivity. Qed.

Lemma nth_error_lt : forall A (l : list A) i, i < length l ->
  exists a, nth_error l i = Some a.
Proof.
  intros A l i H. destruct (nth_error l i) eqn:E; [eauto|].
  apply nth_error_None in E. lia.
Qed.

(** ** The initial schedule *)

Section Initial.
Variable p : params.
Hypothesis HP : problem p.
Let n := task_count p.

Definition reach := clos_trans nat (depends p).

Record Inv (s : push_state) : Prop := {
  inv_perm : Permutation (map it_task (fst s) ++ snd s) (seq 0 n);
  inv_order : dependencies_first p (fst s);
  inv_agents : forall x, In x (fst s) -> allowed p (it_task x) (it_agent x)
}.

Lemma inv_nodup : forall s, Inv s -> NoDup (map it_task (fst s) ++ snd s).
Proof.
  intros s H. apply (Permutation_NoDup (l := seq 0 n)).
  - apply Permutation_sym, inv_perm, H.
  - apply seq_NoDup.
Qed.

Lemma NoDup_app_r : forall A (a b : list A), NoDup (a ++ b) -> NoDup b.
Proof.
  intros A a b. induction a as [|x a IH]; cbn [app]; intro H; [exact H|].
  inversion H; subst. apply IH. assumption.
Qed.

Lemma inv_sizes : forall s, Inv s -> push_sizes p s = true.
Proof.
  intros s H. unfold push_sizes. apply Nat.eqb_eq.
  pose proof (Permutation_length (inv_perm s H)) as L.
  rewrite app_length, map_length, seq_length in L. unfold n, task_count in L. lia.
Qed.

Lemma inv_range : forall s i, Inv s -> In i (snd s) -> i < n.
Proof.
  intros s i H Hin.
  assert (In i (seq 0 n)).
  { apply (Permutation_in _ (inv_perm s H)). apply in_or_app. right. exact Hin. }
  apply in_seq in H0. lia.
Qed.

Lemma inv_cases : forall s i, Inv s -> i < n ->
  In i (map it_task (fst s)) \/ In i (snd s).
Proof.
  intros s i H Hi. apply in_app_or.
  apply (Permutation_in _ (Permutation_sym (inv_perm s H))).
  apply in_seq. lia.
Qed.

(** One scheduling call. *)
Definition pushed (i : nat) (s s' : push_state) : Prop :=
  Inv s' /\ In i (map it_task (fst s')) /\
  exists ext, fst s' = fst s ++ ext /\
    (forall x, In x (map it_task ext) -> x = i \/ reach i x).

Lemma pushed_keeps : forall i s s' q, Inv s -> pushed i s s' -> In q (snd s) ->
  q <> i -> ~ reach i q -> In q (snd s').
Proof.
  intros i s s' q HI (HI' & _ & ext & E & Hext) Hq Hne Hnr.
  destruct (inv_cases s' q HI' (inv_range s q HI Hq)) as [H|H]; [|exact H].
  exfalso. rewrite E, map_app in H. apply in_app_or in H. destruct H as [H|H].
  - pose proof (inv_nodup s HI) as ND.
    apply in_split in Hq. destruct Hq as (l1 & l2 & Eq). rewrite Eq in ND.
    rewrite app_assoc in ND. apply NoDup_remove_2 in ND. apply ND.
    apply in_or_app. left. apply in_or_app. left. exact H.
  - destruct (Hext q H); auto.
Qed.

Lemma push_deps_ok : forall i path fuel deps s,
  (forall d, In d deps -> depends p i d) ->
  Inv s -> In i (snd s) ->
  (forall q, In q path -> In q (snd s) /\ (q = i \/ reach q i)) ->
  (forall d s0, depends p i d -> Inv s0 ->
     (forall q, In q path -> In q (snd s0)) ->
     In i (snd s0) ->
     exists s1, push_task fuel p d s0 = Ok s1 /\ pushed d s0 s1) ->
  exists s', push_deps (push_task fuel p) deps s = Ok s' /\ Inv s' /\
    (forall q, In q path -> In q (snd s')) /\ In i (snd s') /\
    (forall d, In d deps -> In d (map it_task (fst s'))) /\
    exists ext, fst s' = fst s ++ ext /\
      (forall x, In x (map it_task ext) -> reach i x).
Proof.
  intros i path fuel deps. induction deps as [|d deps IH];
    intros s Hdeps HI Hi Hpath Hcall.
  - exists s. cbn [push_deps]. split; [reflexivity|]. split; [exact HI|].
    split; [intros q Hq; apply Hpath, Hq|]. split; [exact Hi|].
    split; [intros d []|]. exists []. rewrite app_nil_r. split; [reflexivity|intros x []].
  - assert (Hd : depends p i d) by (apply Hdeps; left; reflexivity).
    destruct (Hcall d s Hd HI (fun q Hq => proj1 (Hpath q Hq)) Hi) as (s1 & E1 & P1).
    assert (Keep : forall q, In q (snd s) -> (q = i \/ reach q i) -> In q (snd s1)).
    { intros q Hq Hr. apply (pushed_keeps d s s1 q HI P1 Hq).
      - intro E. subst q. destruct Hr as [E|Hr].
        + subst d. apply (pb_acyclic p HP i). apply t_step. exact Hd.
        + apply (pb_acyclic p HP d). apply t_trans with i; [exact Hr|apply t_step; exact Hd].
      - intro R. destruct Hr as [E|Hr].
        + subst q. apply (pb_acyclic p HP i).
          apply t_trans with d; [apply t_step; exact Hd|exact R].
        + apply (pb_acyclic p HP q). apply t_trans with i; [exact Hr|].
          apply t_trans with d; [apply t_step; exact Hd|exact R]. }
    destruct P1 as (HI1 & Hin1 & ext1 & Ee1 & Hr1).
    destruct (IH s1) as (s' & E' & HI' & Hp' & Hi' & Hd' & ext & Ee & Hr).
    + intros x Hx. apply Hdeps. right. exact Hx.
    + exact HI1.
    + apply Keep; [exact Hi|left; reflexivity].
    + intros q Hq. destruct (Hpath q Hq) as [A B]. split; [apply Keep; assumption|exact B].
    + exact Hcall.
    + exists s'. cbn [push_deps]. rewrite E1. cbn [bind]. split; [exact E'|].
      split; [exact HI'|]. split; [exact Hp'|]. split; [exact Hi'|]. split.
      * intros x [Ex|Hx].
        -- subst x. rewrite Ee, map_app. apply in_or_app. left. exact Hin1.
        -- apply Hd', Hx.
      * exists (ext1 ++ ext). rewrite Ee, Ee1, app_assoc. split; [reflexivity|].
        intros x Hx. rewrite map_app in Hx. apply in_app_or in Hx. destruct Hx as [Hx|Hx].
        -- destruct (Hr1 x Hx) as [->|R].
           ++ apply t_step, Hd.
           ++ apply t_trans with d; [apply t_step, Hd|exact R].
        -- apply Hr, Hx.
Qed.

Lemma nodup_range_length : forall l, NoDup l -> (forall x, In x l -> x < n) ->
  length l <= n.
Proof.
  intros l Hnd Hr. rewrite <- (seq_length n 0). apply NoDup_incl_length; [exact Hnd|].
  intros x Hx. apply in_seq. specialize (Hr x Hx). lia.
Qed.

Lemma push_task_ok : forall fuel path i s,
  Inv s -> snd s <> [] -> i < n -> NoDup path ->
  (forall q, In q path -> In q (snd s) /\ reach q i) ->
  n < length path + fuel ->
  exists s', push_task fuel p i s = Ok s' /\ pushed i s s'.
Proof.
  induction fuel as [|fuel IH]; intros path i s HI Hne Hi Hnd Hpath Hfuel.
  - exfalso. pose proof (nodup_range_length path Hnd) as H.
    assert (length path <= n).
    { apply H. intros x Hx. apply (inv_range s x HI). apply Hpath, Hx. }
    lia.
  - cbn [push_task].
    rewrite expects_Ok by (destruct (snd s); [congruence|reflexivity]).
    rewrite expects_Ok by (apply inv_sizes, HI).
    destruct (contains i (snd s)) eqn:Ec; cbn [negb].
    + apply contains_In in Ec.
      assert (Hni : ~ In i path).
      { intro H. apply (pb_acyclic p HP i). apply Hpath, H. }
      destruct (nth_error_lt _ (sp_deps p) i) as [deps Edeps].
      { rewrite (pb_deps_len p HP). exact Hi. }
      unfold row at 1. rewrite (at_index_Ok _ _ _ _ Edeps). cbn [bind].
      assert (Hdeps : forall d, In d deps -> depends p i d).
      { intros d Hd. exists deps. auto. }
      destruct (push_deps_ok i (i :: path) fuel deps s) as
        (s1 & E1 & HI1 & Hp1 & Hi1 & Hd1 & ext & Ee & Hr); try assumption.
      { intros q [<-|Hq].
        - split; [exact Ec|left; reflexivity].
        - split; [apply Hpath, Hq|right; apply Hpath, Hq]. }
      { intros d s0 Hd HI0 Hp0 Hi0. apply (IH (i :: path)).
        - exact HI0.
        - intro E. rewrite E in Hi0. destruct Hi0.
        - apply (pb_deps_range p HP i d Hd).
        - constructor; assumption.
        - intros q Hq. split; [apply Hp0, Hq|]. destruct Hq as [<-|Hq].
          + apply t_step, Hd.
          + apply t_trans with i; [apply Hpath, Hq|apply t_step, Hd].
        - cbn [length]. lia. }
      rewrite E1. cbn [bind].
      destruct (pb_agents_some p HP i Hi) as (a0 & av & Eav & Ha0).
      unfold row. rewrite (at_index_Ok _ _ _ _ Eav). cbn [bind].
      destruct av as [|a av]; [destruct Ha0|].
      rewrite (at_index_Ok _ (a :: av) 0 a eq_refl). cbn [bind].
      set (s2 := (fst s1 ++ [Item i a], erase i (snd s1))).
      assert (ND1 : NoDup (snd s1)) by (eapply NoDup_app_r, inv_nodup, HI1).
      assert (HI2 : Inv s2).
      { constructor; unfold s2; cbn [fst snd].
        - rewrite map_app. cbn [map it_task]. rewrite <- app_assoc. cbn [app].
          apply Permutation_trans with (map it_task (fst s1) ++ snd s1).
          + apply Permutation_app_head. apply erase_perm; assumption.
          + apply inv_perm, HI1.
        - intros pre x post E d Hd.
          destruct (exists_last (l := x :: post)) as (l' & last & El); [discriminate|].
          rewrite El in E. rewrite app_assoc in E.
          apply app_inj_tail in E. destruct E as [E Elast].
          destruct l' as [|x' l'].
          + cbn [app] in El. injection El as Ex Epost.
            rewrite app_nil_r in E. subst pre.
            assert (it_task x = i) as Ei by (rewrite Ex, <- Elast; reflexivity).
            rewrite Ei in Hd. apply Hd1. destruct Hd as (r & Er & Hr').
            rewrite Edeps in Er. injection Er as <-. exact Hr'.
          + cbn [app] in El. injection El as Ex Epost. subst x'.
            apply (inv_order s1 HI1 pre x l'); assumption.
        - intros x Hx. apply in_app_or in Hx. destruct Hx as [Hx|[<-|[]]].
          + apply (inv_agents s1 HI1), Hx.
          + exists (a :: av). cbn. auto. }
      rewrite expects_Ok by (apply inv_sizes, HI2).
      exists s2. split; [reflexivity|]. split; [exact HI2|]. split.
      * unfold s2. cbn [fst]. rewrite map_app. apply in_or_app. right. left. reflexivity.
      * exists (ext ++ [Item i a]). unfold s2. cbn [fst]. rewrite Ee, app_assoc.
        split; [reflexivity|]. intros x Hx. rewrite map_app in Hx.
        apply in_app_or in Hx. destruct Hx as [Hx|[<-|[]]].
        -- right. apply Hr, Hx.
        -- left. reflexivity.
    + exists s. split; [reflexivity|]. split; [exact HI|]. split.
      * destruct (inv_cases s i HI Hi) as [H|H]; [exact H|].
        apply contains_In in H. congruence.
      * exists []. rewrite app_nil_r. split; [reflexivity|intros x []].
Qed.

Lemma push_all_ok : forall k s, Inv s -> length (snd s) <= k ->
  exists s', push_all k (S n) p s = Ok s' /\ Inv s' /\ snd s' = [].
Proof.
  induction k as [|k IH]; intros s HI Hk.
  - assert (E : snd s = []) by (destruct (snd s); [reflexivity|cbn in Hk; lia]).
    exists s. unfold push_all. rewrite E. auto.
  - cbn [push_all]. destruct (snd s) as [|t ts] eqn:E.
    + exists s. auto.
    + assert (Ht : In t (snd s)) by (rewrite E; left; reflexivity).
      destruct (push_task_ok (S n) [] t s) as (s1 & E1 & HI1 & Hin & ext & Ee & Hr).
      * exact HI.
      * rewrite E. discriminate.
      * apply (inv_range s t HI Ht).
      * constructor.
      * intros q [].
      * cbn [length]. lia.
      * rewrite E1. cbn [bind].
        assert (L : length (snd s1) < length (snd s)).
        { pose proof (inv_sizes s HI) as A. pose proof (inv_sizes s1 HI1) as B.
          unfold push_sizes in A, B. apply Nat.eqb_eq in A, B.
          assert (length ext <> 0).
          { intro L0. destruct ext; [|discriminate]. rewrite app_nil_r in Ee.
            rewrite Ee in Hin. pose proof (inv_nodup s HI) as ND. rewrite E in ND.
            apply NoDup_remove_2 in ND. apply ND. apply in_or_app. left. exact Hin. }
          rewrite Ee, app_length in B. lia. }
        apply IH; [exact HI1|]. rewrite E in L. cbn [length] in L, Hk. lia.
Qed.

Lemma initial_ok : exists s, initial_schedule p = Ok s /\ valid_schedule p s.
Proof.
  unfold initial_schedule.
  assert (Hn : 0 < n) by (apply (pb_tasks p HP)).
  rewrite expects_Ok.
  2:{ apply negb_true_iff, Nat.eqb_neq. unfold n, task_count in Hn. lia. }
  assert (HI : Inv ([], seq 0 n)).
  { constructor; cbn [fst snd map app].
    - apply Permutation_refl.
    - intros pre x post E. destruct pre; discriminate.
    - intros x []. }
  destruct (push_all_ok n ([], seq 0 n) HI) as (s & E & HIs & Es).
  { cbn [snd]. rewrite seq_length. lia. }
  fold (task_count p). fold n. rewrite E. cbn [bind].
  pose proof (inv_sizes s HIs) as L. unfold push_sizes in L. rewrite Es in L.
  cbn [length] in L. rewrite expects_Ok by exact L.
  exists (fst s). split; [reflexivity|]. constructor.
  - pose proof (inv_perm s HIs) as P. rewrite Es, app_nil_r in P. exact P.
  - apply inv_order, HIs.
  - apply inv_agents, HIs.
Qed.

End Initial.

(** ** The decision rule *)

Lemma includes_incl : forall a b, index_set a -> index_set b ->
  (includes a b = true <-> incl b a).
Proof.
  induction a as [|x a IH]; intros b Ha Hb.
  - destruct b as [|y b]; cbn [includes]; split; intro H; try reflexivity; try discriminate.
    + intros z [].
    + exfalso. apply (H y). left. reflexivity.
  - destruct b as [|y b]; [cbn [includes]; split; intro H; [intros z []|reflexivity]|].
    cbn [includes]. inversion Ha as [|? ? Ha' Hx]; subst. inversion Hb as [|? ? Hb' Hy]; subst.
    rewrite Forall_forall in Hx, Hy.
    destruct (Nat.ltb_spec y x) as [L|L]; [|destruct (Nat.ltb_spec x y) as [M|M]].
    + split; [discriminate|]. intro H. exfalso.
      destruct (H y (or_introl eq_refl)) as [E|E]; [lia|]. specialize (Hx y E). lia.
    + rewrite IH by assumption. split.
      * intros H z Hz. right. apply H, Hz.
      * intros H z Hz. destruct (H z Hz) as [E|E]; [|exact E]. exfalso. subst z.
        destruct Hz as [E|Hz]; [lia|]. specialize (Hy x Hz). lia.
    + assert (x = y) by lia. subst y. rewrite IH by assumption. split.
      * intros H z [<-|Hz]; [left; reflexivity|right; apply H, Hz].
      * intros H z Hz. destruct (H z (or_intror Hz)) as [E|E]; [|exact E]. exfalso.
        subst z. specialize (Hy x Hz). lia.
Qed.

Lemma can_work_on_spec : forall a t, index_set (ag_groups a) -> index_set (tk_groups t) ->
  (can_work_on a t = true <-> may_work_impl a t).
Proof.
  intros a t Ha Ht. unfold can_work_on, may_work_impl.
  destruct (tk_agent t) as [i|].
  - apply Nat.eqb_eq.
  - unfold is_universal. destruct (ag_groups a) as [|g gs] eqn:Eg.
    + cbn [orb]. split; intro; [left; reflexivity|reflexivity].
    + cbn [orb]. rewrite <- Eg in *. rewrite andb_true_iff, negb_true_iff.
      rewrite includes_incl by assumption.
      destruct (tk_groups t) as [|h hs] eqn:Eh; split.
      * intros [E _]. discriminate.
      * intros [E|[E _]]; congruence.
      * intros [_ H]. right. split; [discriminate|exact H].
      * intros [E|[_ H]]; [congruence|]. split; [reflexivity|exact H].
Qed.

(** ** Schedule parameters *)

Lemma agents_for_In : forall t l i k,
  In k (agents_for t l i) <->
  exists j a, k = i + j /\ nth_error l j = Some a /\ can_work_on a t = true.
Proof.
  intros t l. induction l as [|a l IH]; intros i k; cbn [agents_for].
  - split; [intros []|]. intros (j & a & _ & H & _). destruct j; discriminate.
  - assert (Hrest : In k (agents_for t l (S i)) <->
      exists j a0, k = i + S j /\ nth_error l j = Some a0 /\ can_work_on a0 t = true).
    { rewrite IH. split; intros (j & a0 & E & H); exists j, a0; (split; [lia|exact H]). }
    destruct (can_work_on a t) eqn:Ec; cbn [In]; rewrite Hrest; split.
    + intros [<-|(j & a0 & E & H)].
      * exists 0, a. split; [lia|]. auto.
      * exists (S j), a0. auto.
    + intros ([|j] & a0 & E & H).
      * left. lia.
      * right. exists j, a0. auto.
    + intros (j & a0 & E & H). exists (S j), a0. auto.
    + intros ([|j] & a0 & E & H1 & H2).
      * cbn in H1. congruence.
      * exists j, a0. auto.
Qed.

Lemma agents_for_sorted : forall t l i, StronglySorted lt (agents_for t l i) /\
  Forall (le i) (agents_for t l i).
Proof.
  intros t l. induction l as [|a l IH]; intro i; cbn [agents_for].
  - split; constructor.
  - destruct (IH (S i)) as [S1 F1].
    assert (F : Forall (le i) (agents_for t l (S i))).
    { eapply Forall_impl; [|exact F1]. cbn. intros x Hx. lia. }
    destruct (can_work_on a t).
    + split.
      * constructor; [exact S1|]. eapply Forall_impl; [|exact F1]. cbn. intros x Hx. lia.
      * constructor; [lia|exact F].
    + split; assumption.
Qed.

Lemma params_Ok : forall pr p, to_schedule_params pr = Ok p ->
  pr_agents pr <> [] /\ pr_tasks pr <> [] /\
  task_duration (pr_tasks pr) (length (pr_agents pr)) = Ok (sp_dur p, sp_mult p) /\
  agent_performance (pr_agents pr) = Ok (sp_perf p) /\
  sp_agents p = map (fun t => agents_for t (pr_agents pr) 0) (pr_tasks pr) /\
  sp_deps p = map tk_deps (pr_tasks pr).
Proof.
  intros pr p H. unfold to_schedule_params in H.
  destruct (pr_agents pr) as [|a0 al] eqn:Ea; [discriminate|].
  destruct (pr_tasks pr) as [|t0 tl] eqn:Et; [discriminate|].
  rewrite <- Ea, <- Et in *.
  unfold expects in H. cbn [bind negb] in H.
  destruct (task_duration (pr_tasks pr) (length (pr_agents pr))) as [[d m]| |] eqn:Ed;
    cbn [bind] in H; try discriminate.
  destruct (agent_performance (pr_agents pr)) as [ap| |] eqn:Eap; cbn [bind] in H; try discriminate.
  unfold available_agents, dependencies in H.
  destruct (pr_tasks pr) as [|t1 tl1] eqn:Et1; [discriminate|].
  destruct (pr_agents pr) as [|a1 al1] eqn:Ea1; [discriminate|].
  unfold expects in H. cbn [bind negb] in H. injection H as <-.
  cbn [sp_dur sp_mult sp_perf sp_agents sp_deps fst snd].
  repeat split; discriminate.
Qed.

Lemma available_exact : forall pr p, to_schedule_params pr = Ok p ->
  length (sp_agents p) = length (pr_tasks pr) /\
  forall i t, nth_error (pr_tasks pr) i = Some t ->
  exists r, nth_error (sp_agents p) i = Some r /\ StronglySorted lt r /\
    forall k, In k r <->
      exists a, nth_error (pr_agents pr) k = Some a /\ can_work_on a t = true.
Proof.
  intros pr p H. destruct (params_Ok pr p H) as (_ & _ & _ & _ & E & _).
  rewrite E, map_length. split; [reflexivity|]. intros i t Hi.
  exists (agents_for t (pr_agents pr) 0). split.
  - rewrite nth_error_map, Hi. reflexivity.
  - split; [apply agents_for_sorted|]. intro k. rewrite agents_for_In. split.
    + intros (j & a & -> & H1 & H2). exists a. auto.
    + intros (a & H1 & H2). exists k, a. auto.
Qed.

Lemma deps_exact : forall pr p, to_schedule_params pr = Ok p ->
  sp_deps p = map tk_deps (pr_tasks pr).
Proof. intros pr p H. apply params_Ok, H. Qed.
