(** * Proofs about optimization jobs *)

From Coq Require Import List ZArith Bool Arith Lia Lra Reals.
From Flocq Require Import Core BinarySingleNaN.
From Verif Require Import Base F32 F32Facts NormaliseProofs F32Signed ProjectModel ScheduleModel
  ScheduleSpec ScheduleProofs MutatorModel MutatorProofs MakespanModel TimelineSpec MakespanProofs
  TemperatureModel TemperatureSpec TemperatureProofs StunModel SearchSpec.
Import ListNotations.

(** Step over the checks of a successful run. *)
Ltac ok_step H :=
  match type of H with
  | bind (expects ?b) _ = Ok _ =>
      let E := fresh "X" in
      destruct b eqn:E; [cbn [expects bind] in H|discriminate H]
  end.

Lemma bind_ok : forall A B (x : outcome A) (f : A -> outcome B) b,
  bind x f = Ok b -> exists a, x = Ok a /\ f a = Ok b.
Proof. intros A B [a| |] f b H; try discriminate. exists a. auto. Qed.

Lemma nonempty_neg : forall A (l : list A), 0 < length l -> negb (length l =? 0) = true.
Proof. intros A l H. destruct (Nat.eqb_spec (length l) 0); [lia|reflexivity]. Qed.

Lemma f_lt_ge : forall x y, num x -> num y -> f_lt x y = false -> f_le y x = true.
Proof.
  intros x y Nx Ny H. rewrite lt_key in H by assumption. rewrite le_key by assumption.
  apply Z.ltb_ge in H. apply Z.leb_le. exact H.
Qed.

Lemma f_lt_le : forall x y, f_lt x y = true -> f_le x y = true.
Proof.
  intros x y H. destruct (lt_num _ _ H) as [Nx Ny]. rewrite lt_key in H by assumption.
  rewrite le_key by assumption. apply Z.ltb_lt in H. apply Z.leb_le. lia.
Qed.

Lemma f_le_refl : forall x, num x -> f_le x x = true.
Proof. intros x N. rewrite le_key by assumption. apply Z.leb_refl. Qed.

Lemma f_le_lt_trans : forall x y z, f_le x y = true -> f_lt y z = true -> f_lt x z = true.
Proof.
  intros x y z A B. destruct (le_num _ _ A) as [Nx Ny]. destruct (lt_num _ _ B) as [_ Nz].
  rewrite le_key in A by assumption. rewrite lt_key in B by assumption. rewrite lt_key by assumption.
  apply Z.leb_le in A. apply Z.ltb_lt in B. apply Z.ltb_lt. lia.
Qed.

Lemma f_lt_le_trans : forall x y z, f_lt x y = true -> f_le y z = true -> f_lt x z = true.
Proof.
  intros x y z A B. destruct (lt_num _ _ A) as [Nx Ny]. destruct (le_num _ _ B) as [_ Nz].
  rewrite lt_key in A by assumption. rewrite le_key in B by assumption. rewrite lt_key by assumption.
  apply Z.ltb_lt in A. apply Z.leb_le in B. apply Z.ltb_lt. lia.
Qed.

(** ** The segments of the schedule buffer *)

Lemma prepare_ok : forall s n, 0 < n -> exists s', prepare_schedules s n = Ok s' /\
  length (st_best s') = n /\ length (st_one s') = n /\ length (st_two s') = n /\
  st_swapped s' = false /\ st_gamma s' = st_gamma s /\
  st_current_e s' = st_current_e s /\ st_lowest_e s' = st_lowest_e s /\
  st_current_s s' = st_current_s s /\
  (length (st_best s) = n -> length (st_one s) = n -> length (st_two s) = n ->
   st_best s' = st_best s /\ st_one s' = st_one s /\ st_two s' = st_two s).
Proof.
  intros s n Hn. unfold prepare_schedules. rewrite expects_Ok by (apply Nat.ltb_lt, Hn).
  eexists. split; [reflexivity|]. cbn [st_best st_one st_two st_swapped st_gamma st_current_e
    st_lowest_e st_current_s].
  set (buf := firstn (3 * n) _).
  assert (L : length buf = 3 * n).
  { unfold buf. rewrite firstn_length, !app_length, repeat_length. lia. }
  repeat split; try reflexivity.
  - rewrite firstn_length. lia.
  - rewrite firstn_length, skipn_length. lia.
  - rewrite firstn_length, skipn_length. lia.
  - unfold buf. rewrite firstn_firstn, Nat.min_l by lia. rewrite firstn_app.
    replace (n - length (st_best s)) with 0 by lia. cbn [firstn]. rewrite app_nil_r.
    rewrite <- H. apply firstn_all.
  - assert (E : buf = st_best s ++ st_one s ++ st_two s).
    { unfold buf. rewrite !app_assoc. rewrite firstn_app.
      replace (3 * n - _) with 0 by (rewrite !app_length; lia). cbn [firstn].
      rewrite app_nil_r. replace (3 * n) with (length ((st_best s ++ st_one s) ++ st_two s))
        by (rewrite !app_length; lia). apply firstn_all. }
    rewrite E. rewrite skipn_app. rewrite (skipn_all2 (st_best s)) by lia.
    replace (n - length (st_best s)) with 0 by lia. cbn [skipn app].
    rewrite firstn_app. replace (n - length (st_one s)) with 0 by lia. cbn [firstn].
    rewrite app_nil_r, <- H0. apply firstn_all.
  - assert (E : buf = (st_best s ++ st_one s) ++ st_two s).
    { unfold buf. rewrite !app_assoc. rewrite firstn_app.
      replace (3 * n - _) with 0 by (rewrite !app_length; lia). cbn [firstn].
      rewrite app_nil_r. replace (3 * n) with (length ((st_best s ++ st_one s) ++ st_two s))
        by (rewrite !app_length; lia). apply firstn_all. }
    rewrite E. rewrite skipn_app. rewrite skipn_all2 by (rewrite app_length; lia).
    replace (2 * n - length (st_best s ++ st_one s)) with 0 by (rewrite app_length; lia).
    cbn [skipn app]. rewrite <- H1. apply firstn_all.
Qed.

(** ** The invariant of a job.  [p] are the parameters of the mutator, [q]
    those of the evaluator. *)

Record JI (p q : params) (j : job) : Prop := {
  ji_mutator : jb_mutator j = p;
  ji_params : jb_params j = q;
  ji_task : length (mk_task (jb_makespan j)) = length (sp_dur q);
  ji_work : length (mk_work (jb_makespan j)) = length (sp_perf q);
  ji_best : valid_schedule p (st_best (jb_stun j));
  ji_low : makespan q (st_best (jb_stun j)) = Ok (st_lowest_e (jb_stun j));
  ji_one : valid_schedule p (st_one (jb_stun j));
  ji_two : st_swapped (jb_stun j) = true -> valid_schedule p (st_two (jb_stun j));
  ji_two_len : length (st_two (jb_stun j)) = task_count p;
  ji_nn : f_le f_zero (st_lowest_e (jb_stun j)) = true;
  ji_cur : f_le (st_lowest_e (jb_stun j)) (st_current_e (jb_stun j)) = true
}.

Lemma ji_current : forall p q j, JI p q j -> valid_schedule p (st_current (jb_stun j)).
Proof.
  intros p q j I. unfold st_current. destruct (st_swapped (jb_stun j)) eqn:E.
  - exact (ji_two p q j I E).
  - exact (ji_one p q j I).
Qed.

Lemma ji_target_len : forall p q j, JI p q j -> length (st_target (jb_stun j)) = task_count p.
Proof.
  intros p q j I. unfold st_target. destruct (st_swapped (jb_stun j)).
  - apply valid_length. exact (ji_one p q j I).
  - exact (ji_two_len p q j I).
Qed.

Lemma makespan_new_Ok : forall q m, makespan_new q = Ok m ->
  length (mk_task m) = length (sp_dur q) /\ length (mk_work m) = length (sp_perf q).
Proof.
  intros q m H. unfold makespan_new in H. ok_step H. ok_step H. injection H as <-.
  cbn. rewrite !repeat_length. auto.
Qed.

(** An evaluation by the job's evaluator is an evaluation by a new one. *)
Lemma eval_makespan : forall q mk s m mk',
  length (mk_task mk) = length (sp_dur q) -> length (mk_work mk) = length (sp_perf q) ->
  0 < length (sp_dur q) -> 0 < length (sp_perf q) ->
  makespan_eval q mk s = Ok (m, mk') ->
  makespan q s = Ok m /\
  length (mk_task mk') = length (sp_dur q) /\ length (mk_work mk') = length (sp_perf q).
Proof.
  intros q mk s m mk' LT LW HD HPf E.
  destruct (eval_lengths q s mk m mk' E) as [A B]. split; [|split; congruence].
  unfold makespan. destruct (makespan_new q) as [m0| |] eqn:N.
  - destruct (makespan_new_Ok q m0 N) as [A0 B0]. cbn [bind].
    rewrite (eval_depends_on_lengths q s m0 mk) by congruence. rewrite E. reflexivity.
  - unfold makespan_new in N. rewrite !nonempty_neg in N by assumption. discriminate.
  - unfold makespan_new in N. rewrite !nonempty_neg in N by assumption. discriminate.
Qed.

Lemma makespan_makes_lengths : forall q s m, makespan q s = Ok m ->
  0 < length (sp_dur q) /\ 0 < length (sp_perf q).
Proof.
  intros q s m H. unfold makespan in H. destruct (makespan_new q) as [m0| |] eqn:N; try discriminate.
  unfold makespan_new in N. ok_step N. ok_step N.
  destruct (Nat.eqb_spec (length (sp_perf q)) 0); [discriminate|].
  destruct (Nat.eqb_spec (length (sp_dur q)) 0); [discriminate|]. lia.
Qed.

(** ** One iteration *)

(** What an iteration does to a job: [t] is the candidate and [m] its
    makespan. *)
Inductive iteration (o : oracles) (j : job) (k : luck) (t : list item) (m : f32) (j' : job) : Prop :=
| it_best : forall cs,
    f_lt m (st_current_e (jb_stun j)) = true -> f_lt m (st_lowest_e (jb_stun j)) = true ->
    stun_fn o m (st_current_e (jb_stun j)) (st_gamma (jb_stun j)) = Ok cs ->
    st_best (jb_stun j') = t -> st_lowest_e (jb_stun j') = m ->
    st_current (jb_stun j') = t -> st_current_e (jb_stun j') = m ->
    st_current_s (jb_stun j') = cs -> jb_temp j' = jb_temp j ->
    iteration o j k t m j'
| it_better :
    f_lt m (st_current_e (jb_stun j)) = true -> f_lt m (st_lowest_e (jb_stun j)) = false ->
    st_best (jb_stun j') = st_best (jb_stun j) ->
    st_lowest_e (jb_stun j') = st_lowest_e (jb_stun j) ->
    st_current (jb_stun j') = t -> st_current_e (jb_stun j') = m ->
    st_current_s (jb_stun j') = st_current_s (jb_stun j) -> jb_temp j' = jb_temp j ->
    iteration o j k t m j'
| it_accepted : forall ts,
    f_lt m (st_current_e (jb_stun j)) = false ->
    stun_fn o (st_lowest_e (jb_stun j)) m (st_gamma (jb_stun j)) = Ok ts ->
    f_le (lk_uniform k)
      (acceptance o (tp_value (jb_temp j)) ts (st_current_s (jb_stun j))) = true ->
    st_best (jb_stun j') = st_best (jb_stun j) ->
    st_lowest_e (jb_stun j') = st_lowest_e (jb_stun j) ->
    st_current (jb_stun j') = t -> st_current_e (jb_stun j') = m ->
    st_current_s (jb_stun j') = ts ->
    temperature_update o (jb_temp j) ts = Ok (jb_temp j') ->
    iteration o j k t m j'
| it_rejected : forall ts,
    f_lt m (st_current_e (jb_stun j)) = false ->
    stun_fn o (st_lowest_e (jb_stun j)) m (st_gamma (jb_stun j)) = Ok ts ->
    f_le (lk_uniform k)
      (acceptance o (tp_value (jb_temp j)) ts (st_current_s (jb_stun j))) = false ->
    st_best (jb_stun j') = st_best (jb_stun j) ->
    st_lowest_e (jb_stun j') = st_lowest_e (jb_stun j) ->
    st_current (jb_stun j') = st_current (jb_stun j) ->
    st_current_e (jb_stun j') = st_current_e (jb_stun j) ->
    st_current_s (jb_stun j') = st_current_s (jb_stun j) -> jb_temp j' = jb_temp j ->
    iteration o j k t m j'.

(** Facts that hold whatever the outcome. *)
Record kept (j j' : job) : Prop := {
  kp_batch : jb_batch j' = jb_batch j;
  kp_mutator : jb_mutator j' = jb_mutator j;
  kp_params : jb_params j' = jb_params j;
  kp_gamma : st_gamma (jb_stun j') = st_gamma (jb_stun j)
}.

Lemma target_set : forall s t e, st_target (set_target s t e) = t /\
  st_current (set_target s t e) = st_current s.
Proof. intros s t e. unfold st_target, st_current, set_target. cbn. destruct (st_swapped s); auto. Qed.

Section Job.
Variables p q : params.
Hypothesis HP : problem p.
Variable o : oracles.

Lemma count_pos : 0 < task_count p.
Proof. apply HP. Qed.

Lemma valid_nonempty : forall s, valid_schedule p s -> negb (length s =? 0) = true.
Proof. intros s V. apply nonempty_neg. rewrite (valid_length p s V). apply count_pos. Qed.

Lemma update_cases : forall j k j', JI p q j -> stun_update o j k = Ok j' ->
  JI p q j' /\ kept j j' /\
  exists t m, mutate p (lk_draws k) (st_current (jb_stun j)) = Ok t /\
    valid_schedule p t /\ makespan q t = Ok m /\ f_le f_zero m = true /\
    iteration o j k t m j'.
Proof.
  intros j k j' I H. pose proof (ji_current p q j I) as VC.
  unfold stun_update in H. ok_step H.
  apply bind_ok in H. destruct H as (j1 & G & H).
  unfold get_new_neighbor in G. ok_step G. ok_step G. ok_step G.
  rewrite (ji_mutator p q j I) in G.
  destruct (mutate_split p HP (lk_draws k) (st_current (jb_stun j)) VC)
    as (s1 & t & _ & _ & _ & _ & VT & _ & MT).
  rewrite MT in G. cbn [bind] in G.
  apply bind_ok in G. destruct G as ((m & mk') & EV & G). cbn [fst snd] in G. ok_step G.
  rewrite (ji_params p q j I) in EV.
  destruct (makespan_makes_lengths q _ _ (ji_low p q j I)) as [HD HPf].
  destruct (eval_makespan q (jb_makespan j) t m mk') as (MK & LT & LW);
    auto; [apply (ji_task p q j I)|apply (ji_work p q j I)|].
  injection G as <-. cbn [jb_stun] in H.
  apply bind_ok in H. destruct H as ((better & s2) & NB & H). cbn [fst snd] in H.
  unfold neighbor_is_better in NB. do 7 ok_step NB.
  destruct (target_set (jb_stun j) t m) as [TS CS].
  set (s1' := set_target (jb_stun j) t m) in *.
  assert (Es : st_target_e s1' = m /\ st_current_e s1' = st_current_e (jb_stun j) /\
    st_lowest_e s1' = st_lowest_e (jb_stun j) /\ st_gamma s1' = st_gamma (jb_stun j) /\
    st_best s1' = st_best (jb_stun j) /\ st_swapped s1' = st_swapped (jb_stun j) /\
    st_current_s s1' = st_current_s (jb_stun j)) by (unfold s1', set_target; cbn; auto 10).
  destruct Es as (E1 & E2 & E3 & E4 & E5 & E6 & E7).
  rewrite E1, E2, E3, E4 in NB.
  assert (V1 : valid_schedule p (st_one s1') /\ valid_schedule p (if st_swapped s1' then st_two s1' else t) /\
    st_two s1' = if st_swapped s1' then st_two (jb_stun j) else t).
  { unfold s1', set_target. cbn. pose proof (ji_one p q j I). pose proof (ji_two p q j I).
    destruct (st_swapped (jb_stun j)); auto. }
  assert (VT2 : valid_schedule p (st_two s1')).
  { destruct V1 as (_ & B & C). rewrite C in *. destruct (st_swapped s1'); [|exact VT].
    rewrite <- C. rewrite C. exact B. }
  destruct V1 as (V1 & _ & _).
  assert (L2 : length (st_two s1') = task_count p) by (apply valid_length, VT2).
  clearbody s1'.
  assert (SW : forall (b : list item) e l te g cs ts,
    st_current {| st_best := b; st_one := st_one s1'; st_two := st_two s1';
                  st_swapped := negb (st_swapped s1'); st_current_e := e; st_lowest_e := l;
                  st_target_e := te; st_gamma := g; st_current_s := cs; st_target_s := ts |} = t).
  { intros. rewrite <- TS. unfold st_current, st_target. cbn. destruct (st_swapped s1'); reflexivity. }
  pose proof (ji_nn p q j I) as INN. pose proof (ji_cur p q j I) as ICU.
  assert (Nm : num m) by (apply (le_num _ _ X3)).
  assert (Nl : num (st_lowest_e (jb_stun j))) by (apply (le_num _ _ INN)).
  assert (Nc : num (st_current_e (jb_stun j))) by (apply (le_num _ _ ICU)).
  destruct (f_lt m (st_current_e (jb_stun j))) eqn:LC.
  - destruct (f_lt m (st_lowest_e (jb_stun j))) eqn:LL.
    + apply bind_ok in NB. destruct NB as (cs & SF & NB). injection NB as <- <-.
      injection H as <-. cbn [jb_stun with_stun jb_mutator jb_params jb_makespan].
      split; [|split].
      * constructor; cbn [jb_mutator jb_params jb_makespan jb_stun st_best st_one st_two
          st_swapped st_lowest_e st_current_e with_stun]; auto; try (apply (ji_params p q j I)).
        -- rewrite TS. exact VT.
        -- rewrite TS. exact MK.
        -- apply f_le_refl, Nm.
      * constructor; cbn; auto. symmetry. apply (ji_mutator p q j I).
      * exists t, m. repeat (split; [assumption|]).
        eapply it_best; cbn [jb_stun jb_temp with_stun st_best st_lowest_e st_current_e st_current_s]; eauto.
    + injection NB as <- <-. injection H as <-.
      split; [|split].
      * constructor; cbn [jb_mutator jb_params jb_makespan jb_stun st_best st_one st_two
          st_swapped st_lowest_e st_current_e with_stun]; auto; try (apply (ji_params p q j I)).
        -- rewrite E5. apply (ji_best p q j I).
        -- rewrite E5. apply (ji_low p q j I).
        -- apply f_lt_ge; assumption.
      * constructor; cbn; auto. symmetry. apply (ji_mutator p q j I).
      * exists t, m. repeat (split; [assumption|]).
        apply it_better; cbn [jb_stun jb_temp with_stun st_best st_lowest_e st_current_e st_current_s]; auto.
  - injection NB as <- <-. unfold perform_stun in H.
    cbn [jb_stun with_stun jb_temp jb_batch jb_mutator jb_params jb_makespan] in H.
    do 5 ok_step H. apply bind_ok in H. destruct H as (ts & SF & H).
    rewrite E1, E3, E4 in SF.
    assert (Low : f_le (st_lowest_e (jb_stun j)) m = true).
    { unfold stun_fn in SF. ok_step SF. ok_step SF. assumption. }
    rewrite E7 in H.
    destruct (f_le (lk_uniform k) (acceptance o (tp_value (jb_temp j)) ts (st_current_s (jb_stun j)))) eqn:AC.
    + apply bind_ok in H. destruct H as (temp & TU & H). ok_step H. injection H as <-.
      rewrite E1, E3, E4, E5 in *.
      split; [|split].
      * constructor; cbn [jb_mutator jb_params jb_makespan jb_stun st_best st_one st_two
          st_swapped st_lowest_e st_current_e with_stun]; auto; try (apply (ji_params p q j I));
          try apply (ji_best p q j I); try apply (ji_low p q j I).
      * constructor; cbn; auto. symmetry. apply (ji_mutator p q j I).
      * exists t, m. repeat (split; [assumption|]).
        eapply it_accepted; cbn [jb_stun jb_temp with_stun st_best st_lowest_e st_current_e st_current_s]; eauto.
    + ok_step H. try ok_step H. injection H as <-.
      split; [|split].
      * constructor; cbn [jb_mutator jb_params jb_makespan jb_stun st_best st_one st_two
          st_swapped st_lowest_e st_current_e with_stun]; auto; try (apply (ji_params p q j I));
          rewrite ?E5, ?E3, ?E2; try apply (ji_best p q j I); try apply (ji_low p q j I); auto.
      * constructor; cbn; auto. symmetry. apply (ji_mutator p q j I).
      * exists t, m. repeat (split; [assumption|]).
        eapply it_rejected; cbn [jb_stun jb_temp with_stun st_best st_lowest_e st_current_e st_current_s]; eauto.
Qed.

(** ** Resetting *)

Lemma reset_cases : forall j src j',
  jb_mutator j = p -> jb_params j = q ->
  length (mk_task (jb_makespan j)) = length (sp_dur q) ->
  length (mk_work (jb_makespan j)) = length (sp_perf q) ->
  0 < length (sp_dur q) -> 0 < length (sp_perf q) ->
  valid_schedule p src -> stun_reset o j src = Ok j' ->
  JI p q j' /\ kept j j' /\ jb_temp j' = jb_temp j /\
  st_best (jb_stun j') = src /\ st_one (jb_stun j') = src /\
  st_swapped (jb_stun j') = false /\
  st_current_e (jb_stun j') = st_lowest_e (jb_stun j') /\
  stun_fn o (st_lowest_e (jb_stun j')) (st_current_e (jb_stun j')) (st_gamma (jb_stun j'))
    = Ok (st_current_s (jb_stun j')).
Proof.
  intros j src j' M Q LT LW HD HPf V H. unfold stun_reset in H. ok_step H.
  assert (LS : length src = task_count p) by (apply valid_length, V).
  destruct (prepare_ok (jb_stun j) (length src)) as
    (s1 & E & L0 & L1 & L2 & SW & GA & _). { rewrite LS. apply count_pos. }
  rewrite E in H. cbn [bind] in H.
  apply bind_ok in H. destruct H as (s2 & IS & H).
  unfold init_schedules in IS. do 3 ok_step IS. injection IS as <-.
  unfold init_energies in H.
  cbn [with_stun jb_stun jb_params jb_makespan jb_mutator jb_batch jb_temp] in H. rewrite SW in H.
  unfold st_current in H. cbn [st_swapped st_one st_two st_gamma st_best] in H.
  ok_step H. apply bind_ok in H. destruct H as ((m & mk') & EV & H). cbn [fst snd] in H.
  rewrite Q in EV. destruct (eval_makespan q _ _ _ _ LT LW HD HPf EV) as (MK & LT' & LW').
  apply bind_ok in H. destruct H as (cs & SF & H). ok_step H. ok_step H. injection H as <-.
  cbn [jb_mutator jb_params jb_makespan jb_stun jb_temp jb_batch st_best st_one st_two st_swapped
       st_current_e st_lowest_e st_gamma st_current_s].
  split; [|split; [|repeat split; auto]].
  - constructor; cbn [jb_mutator jb_params jb_makespan jb_stun st_best st_one st_two
      st_swapped st_lowest_e st_current_e]; auto.
    + discriminate.
    + rewrite L2. exact LS.
    + apply f_le_refl. match goal with X : f_le f_zero m = true |- _ => apply (le_num _ _ X) end.
  - constructor; cbn; auto.
Qed.

Lemma job_reset_cases : forall j j', JI p q j -> job_reset o j = Ok j' ->
  JI p q j' /\ kept j j' /\ initial_schedule p = Ok (st_best (jb_stun j')) /\
  st_one (jb_stun j') = st_best (jb_stun j') /\ st_swapped (jb_stun j') = false /\
  st_current_e (jb_stun j') = st_lowest_e (jb_stun j') /\
  stun_fn o (st_lowest_e (jb_stun j')) (st_current_e (jb_stun j')) (st_gamma (jb_stun j'))
    = Ok (st_current_s (jb_stun j')) /\
  temperature_reset (jb_temp j) = Ok (jb_temp j').
Proof.
  intros j j' I H. unfold job_reset in H. ok_step H.
  rewrite (ji_mutator p q j I) in H.
  destruct (initial_ok p HP) as (src & ES & V). rewrite ES in H. cbn [bind] in H.
  apply bind_ok in H. destruct H as (j1 & R & H).
  destruct (makespan_makes_lengths q _ _ (ji_low p q j I)) as [HD HPf].
  destruct (reset_cases j src j1) as (I1 & K1 & T1 & B1 & O1 & S1 & C1 & F1); auto;
    [apply (ji_mutator p q j I)|apply (ji_params p q j I)|apply (ji_task p q j I)|apply (ji_work p q j I)|].
  apply bind_ok in H. destruct H as (temp & TR & H). injection H as <-.
  cbn [jb_stun jb_temp]. rewrite T1 in TR.
  split; [|split].
  - destruct I1. constructor; cbn [jb_mutator jb_params jb_makespan jb_stun]; assumption.
  - destruct K1. constructor; cbn; assumption.
  - rewrite B1, O1. auto 10.
Qed.

(** ** Copies *)

Lemma job_copy_cases : forall j j', JI p q j -> job_copy j = Ok j' ->
  JI p q j' /\ kept j j' /\ jb_temp j' = jb_temp j /\
  st_best (jb_stun j') = st_best (jb_stun j) /\
  st_one (jb_stun j') = st_one (jb_stun j) /\
  st_two (jb_stun j') = st_two (jb_stun j) /\
  st_swapped (jb_stun j') = false /\
  st_current_e (jb_stun j') = st_current_e (jb_stun j) /\
  st_lowest_e (jb_stun j') = st_lowest_e (jb_stun j) /\
  st_current_s (jb_stun j') = st_current_s (jb_stun j).
Proof.
  intros j j' I H. unfold job_copy in H.
  apply bind_ok in H. destruct H as (m & MC & H).
  apply bind_ok in H. destruct H as (s & SC & H). injection H as <-.
  unfold makespan_copy in MC. rewrite (ji_params p q j I) in MC.
  apply bind_ok in MC. destruct MC as (m' & MN & MC). ok_step MC. injection MC as <-.
  destruct (makespan_new_Ok q m' MN) as [A B].
  pose proof (valid_length p _ (ji_best p q j I)) as LB.
  pose proof (valid_length p _ (ji_one p q j I)) as L1.
  pose proof (ji_two_len p q j I) as L2. pose proof count_pos as CP.
  unfold stun_copy in SC. destruct (Nat.eqb_spec (length (st_best (jb_stun j))) 0) as [Z|_]; [lia|].
  destruct (prepare_ok (jb_stun j) (length (st_best (jb_stun j)))) as
    (s1 & E & _ & _ & _ & SW & GA & CE & LE & CS & SG); [lia|].
  rewrite E in SC. injection SC as <-.
  destruct SG as (S0 & S1 & S2); try lia.
  cbn [jb_stun jb_temp]. rewrite S0, S1, S2, SW, CE, LE, CS.
  split; [|split; [|auto 10]].
  - constructor; cbn [jb_mutator jb_params jb_makespan jb_stun]; rewrite ?S0, ?S1, ?S2, ?SW, ?CE, ?LE; auto;
      try (apply I); discriminate.
  - constructor; cbn; auto.
Qed.

Lemma job_new_cases : forall op j, q = p -> job_new o p op = Ok j ->
  JI p q j /\ jb_batch j = op_batch op /\ (0 < op_batch op)%Z /\
  st_gamma (jb_stun j) = op_gamma op /\
  initial_schedule p = Ok (st_best (jb_stun j)) /\
  st_one (jb_stun j) = st_best (jb_stun j) /\ st_swapped (jb_stun j) = false /\
  st_current_e (jb_stun j) = st_lowest_e (jb_stun j) /\
  stun_fn o (st_lowest_e (jb_stun j)) (st_current_e (jb_stun j)) (st_gamma (jb_stun j))
    = Ok (st_current_s (jb_stun j)) /\
  temperature_new (op_scale op) (op_window op) (op_period op) = Ok (jb_temp j).
Proof.
  intros op j QP H. unfold job_new in H. ok_step H. ok_step H.
  apply bind_ok in H. destruct H as (mk & MN & H).
  apply bind_ok in H. destruct H as (temp & TN & H).
  destruct (initial_ok p HP) as (src & ES & V). rewrite ES in H. cbn [bind] in H.
  ok_step H. apply bind_ok in H. destruct H as (j1 & R & H). ok_step H. injection H as <-.
  destruct (makespan_new_Ok p mk MN) as [A B].
  assert (LL : 0 < length (sp_dur p) /\ 0 < length (sp_perf p)).
  { clear - MN. unfold makespan_new in MN. ok_step MN. ok_step MN.
    destruct (Nat.eqb_spec (length (sp_perf p)) 0); [discriminate|].
    destruct (Nat.eqb_spec (length (sp_dur p)) 0); [discriminate|]. lia. }
  match type of R with stun_reset o ?j0 _ = _ =>
    destruct (reset_cases j0 src j1) as (I1 & K1 & T1 & B1 & O1 & S1 & C1 & F1);
    cbn [jb_mutator jb_params jb_makespan]; rewrite ?QP; auto; try tauto
  end.
  destruct K1 as [KB _ _ KG]. cbn [jb_batch jb_temp jb_stun stun_new st_gamma] in KB, KG, T1.
  rewrite B1, O1, T1. rewrite QP in I1. split; [exact I1|]. split; [exact KB|].
  split; [apply Z.ltb_lt; assumption|]. auto 10.
Qed.

End Job.

(** ** Runs never fail *)

Lemma stun_fn_ok : forall o low e g, exp_sane o ->
  f_le f_zero low = true -> f_le low e = true -> is_finite e = true ->
  f_le f_zero g = true -> is_finite g = true ->
  exists r, stun_fn o low e g = Ok r /\ in_unit r.
Proof.
  intros o low e g HE L0 LE Fe G0 Fg. unfold stun_fn.
  rewrite expects_Ok by exact L0. rewrite expects_Ok by exact LE. cbv zeta.
  destruct (between_fin f_zero e low) as [Fl Bl]; auto. change (B2R f_zero) with 0%R in Bl.
  destruct (sub_nn e low Fe Fl) as [Fd Bd]; [lra|].
  apply fin_le in G0; auto. change (B2R f_zero) with 0%R in G0.
  pose proof (mul_neg g (f_sub e low) Fg Fd G0 (proj1 Bd)) as Neg.
  destruct (HE _ Neg) as [A B]. destruct (unit_fin _ A B) as [Fx Bx].
  destruct (one_minus _ Fx Bx) as [Fr Br]. destruct (fin_unit _ Fr Br) as [C D].
  unfold f_opp. rewrite expects_Ok by (rewrite C, D; reflexivity).
  eexists. split; [reflexivity|]. split; assumption.
Qed.

Lemma stun_fn_unit : forall o low e g r, stun_fn o low e g = Ok r -> in_unit r.
Proof.
  intros o low e g r H. unfold stun_fn in H. ok_step H. ok_step H. ok_step H.
  injection H as <-. match goal with X : _ && _ = true |- _ => apply andb_true_iff in X; exact X end.
Qed.

(** What is needed besides the invariant. *)
Record TI (e : f32) (j : job) : Prop := {
  ti_temp : temp_fits e (jb_temp j);
  ti_s : in_unit (st_current_s (jb_stun j));
  ti_gamma : f_le f_zero (st_gamma (jb_stun j)) = true /\ is_finite (st_gamma (jb_stun j)) = true;
  ti_e : is_finite (st_current_e (jb_stun j)) = true
}.

Section Total.
Variable p : params.
Hypothesis HP : problem p.
Hypothesis HN : sane_numbers p.
Hypothesis HF : finite_work p.
Variable o : oracles.
Hypothesis HE : exp_sane o.
Variable e : f32.
Hypothesis HR : error_ok e.
Hypothesis HM : mean_within e o.

Lemma makespan_finite : forall s m, valid_schedule p s -> makespan p s = Ok m ->
  is_finite m = true /\ f_le f_zero m = true.
Proof.
  intros s m V E. destruct (makespan_bounds p HP HN s m V E) as (A & _ & _ & _ & B).
  split; [|exact A]. apply (between_fin f_zero (total_time p s) m); auto.
Qed.

Lemma eval_total : forall mk s,
  length (mk_task mk) = length (sp_dur p) -> length (mk_work mk) = length (sp_perf p) ->
  valid_schedule p s ->
  exists m mk', makespan_eval p mk s = Ok (m, mk') /\ makespan p s = Ok m /\
    is_finite m = true /\ f_le f_zero m = true.
Proof.
  intros mk s LT LW V.
  destruct (eval_ok p HP HN mk s V LT LW) as (m & mk' & tl & E & _).
  destruct (eval_makespan p mk s m mk') as (MK & _); auto; [apply HP|apply perf_nonempty, HP|].
  exists m, mk'. split; [exact E|]. split; [exact MK|]. apply (makespan_finite s m V MK).
Qed.

Lemma update_total : forall j k, JI p p j -> TI e j ->
  exists j', stun_update o j k = Ok j' /\ TI e j'.
Proof.
  intros j k I T.
  pose proof (ji_current p p j I) as VC.
  pose proof (ji_nn p p j I) as INN. pose proof (ji_cur p p j I) as ICU.
  pose proof (ti_s e j T) as [CS0 CS1]. pose proof (ti_gamma e j T) as [G0 GF].
  pose proof (ti_e e j T) as FE.
  assert (C0 : f_le f_zero (st_current_e (jb_stun j)) = true) by (exact (f_le_trans _ _ _ INN ICU)).
  unfold stun_update. rewrite expects_Ok by (apply (valid_nonempty p HP), VC).
  unfold get_new_neighbor. rewrite expects_Ok by (apply (valid_nonempty p HP), VC).
  assert (LT : length (st_target (jb_stun j)) = task_count p) by (apply (ji_target_len p p j I)).
  assert (NT : negb (length (st_target (jb_stun j)) =? 0) = true).
  { apply nonempty_neg. rewrite LT. apply HP. }
  rewrite expects_Ok by exact NT.
  rewrite expects_Ok by (apply Nat.eqb_eq; rewrite LT; apply valid_length, VC).
  rewrite (ji_mutator p p j I), (ji_params p p j I).
  destruct (mutate_split p HP (lk_draws k) (st_current (jb_stun j)) VC)
    as (s1 & t & _ & _ & _ & _ & VT & _ & MT).
  rewrite MT. cbn [bind].
  destruct (eval_total (jb_makespan j) t (ji_task p p j I) (ji_work p p j I) VT)
    as (m & mk' & EV & MK & FM & M0).
  rewrite EV. cbn [bind fst snd]. rewrite expects_Ok by exact M0. cbn [bind jb_stun].
  destruct (target_set (jb_stun j) t m) as [TS CS].
  set (s1' := set_target (jb_stun j) t m) in *.
  assert (Es : st_target_e s1' = m /\ st_current_e s1' = st_current_e (jb_stun j) /\
    st_lowest_e s1' = st_lowest_e (jb_stun j) /\ st_gamma s1' = st_gamma (jb_stun j) /\
    st_best s1' = st_best (jb_stun j) /\
    st_current_s s1' = st_current_s (jb_stun j)) by (unfold s1', set_target; cbn; auto 10).
  destruct Es as (E1 & E2 & E3 & E4 & E5 & E7). clearbody s1'.
  assert (NT1 : negb (length (st_target s1') =? 0) = true) by (rewrite TS; apply (valid_nonempty p HP), VT).
  assert (NC1 : negb (length (st_current s1') =? 0) = true) by (rewrite CS; apply (valid_nonempty p HP), VC).
  assert (NB1 : negb (length (st_best s1') =? 0) = true)
    by (rewrite E5; apply (valid_nonempty p HP), (ji_best p p j I)).
  unfold neighbor_is_better. rewrite E1, E2, E3, E4, E7.
  rewrite (expects_Ok _ _ _ M0), (expects_Ok _ _ _ C0), (expects_Ok _ _ _ INN), (expects_Ok _ _ _ ICU),
    (expects_Ok _ _ _ NT1), (expects_Ok _ _ _ NC1), (expects_Ok _ _ _ NB1).
  destruct (f_lt m (st_current_e (jb_stun j))) eqn:LC.
  - destruct (f_lt m (st_lowest_e (jb_stun j))) eqn:LL.
    + destruct (stun_fn_ok o m (st_current_e (jb_stun j)) (st_gamma (jb_stun j))) as (cs & SF & U); auto.
      { apply f_lt_le, LC. }
      rewrite SF. cbn [bind fst snd]. eexists. split; [reflexivity|].
      constructor; cbn [with_stun jb_temp jb_stun st_current_s st_gamma st_current_e]; auto. apply T.
    + cbn [bind fst snd]. eexists. split; [reflexivity|].
      constructor; cbn [with_stun jb_temp jb_stun st_current_s st_gamma st_current_e]; auto; apply T.
  - cbn [bind fst snd].
    assert (Lm : f_le (st_lowest_e (jb_stun j)) m = true).
    { eapply f_le_trans; [exact ICU|]. apply f_lt_ge; auto; [apply (le_num _ _ M0)|apply (le_num _ _ C0)]. }
    destruct (stun_fn_ok o (st_lowest_e (jb_stun j)) m (st_gamma (jb_stun j))) as (ts & SF & U); auto.
    unfold perform_stun.
    cbn [with_stun jb_stun jb_temp jb_batch jb_mutator jb_params jb_makespan].
    rewrite E1, E2, E3, E4, E7.
    rewrite (expects_Ok _ _ _ M0), (expects_Ok _ _ _ INN), (expects_Ok _ _ _ CS0),
      (expects_Ok _ _ _ NT1), (expects_Ok _ _ _ NC1).
    rewrite SF. cbn [bind].
    destruct (f_le (lk_uniform k) _).
    + destruct (temp_update_fits e (proj1 HR) (proj2 HR) o (jb_temp j) ts) as (t' & TU & TO & _); auto; [apply T|].
      rewrite TU. cbn [bind]. rewrite expects_Ok by apply U.
      eexists. split; [reflexivity|].
      constructor; cbn [jb_temp jb_stun st_current_s st_gamma st_current_e]; auto.
    + rewrite expects_Ok by apply U. rewrite expects_Ok by exact CS0.
      eexists. split; [reflexivity|].
      constructor; cbn [jb_temp jb_stun st_current_s st_gamma st_current_e]; auto; apply T.
Qed.

Lemma stun_reset_total : forall j src,
  jb_mutator j = p -> jb_params j = p ->
  length (mk_task (jb_makespan j)) = length (sp_dur p) ->
  length (mk_work (jb_makespan j)) = length (sp_perf p) ->
  f_le f_zero (st_gamma (jb_stun j)) = true -> is_finite (st_gamma (jb_stun j)) = true ->
  valid_schedule p src ->
  exists j', stun_reset o j src = Ok j' /\
    in_unit (st_current_s (jb_stun j')) /\ is_finite (st_current_e (jb_stun j')) = true.
Proof.
  intros j src M Q LT LW G0 GF V. unfold stun_reset.
  assert (LS : length src = task_count p) by (apply valid_length, V).
  assert (NS : negb (length src =? 0) = true) by (apply (valid_nonempty p HP), V).
  rewrite (expects_Ok _ _ _ NS).
  destruct (prepare_ok (jb_stun j) (length src)) as
    (s1 & E & L0 & L1 & L2 & SW & GA & _). { rewrite LS. apply HP. }
  rewrite E. cbn [bind]. unfold init_schedules, st_current. rewrite SW, L0, L1.
  rewrite Nat.eqb_refl. cbn [expects bind]. rewrite (expects_Ok _ _ _ NS). cbn [bind].
  unfold init_energies, st_current.
  cbn [with_stun jb_stun jb_params jb_makespan jb_mutator jb_batch jb_temp st_swapped st_one st_two st_gamma st_best].
  rewrite (expects_Ok _ _ _ NS). rewrite Q.
  destruct (eval_total (jb_makespan j) src LT LW V) as (m & mk' & EV & MK & FM & M0).
  rewrite EV. cbn [bind fst snd].
  destruct (stun_fn_ok o m m (st_gamma s1)) as (cs & SF & U); rewrite ?GA; auto.
  { apply f_le_refl. apply (le_num _ _ M0). }
  rewrite GA in SF. rewrite SF. cbn [bind]. rewrite expects_Ok by exact M0.
  rewrite expects_Ok by (destruct U as [A B]; rewrite A, B; reflexivity).
  eexists. split; [reflexivity|]. cbn. auto.
Qed.

Lemma temp_reset_ok : forall t, temp_fits e t -> exists t', temperature_reset t = Ok t' /\ temp_fits e t'.
Proof.
  intros t (A & B & C & D & E & F). unfold temperature_reset.
  rewrite expects_Ok by (apply Z.ltb_lt, F). eexists. split; [reflexivity|].
  unfold temp_fits. cbn [tp_value tp_scale tp_mask tp_acc tp_window].
  split; [split; vm_compute; first [reflexivity|discriminate]|]. split; [exact B|]. split; [exact C|].
  split; [exact D|]. split; [constructor|exact F].
Qed.

Lemma job_reset_total : forall j, JI p p j -> TI e j -> (0 < jb_batch j)%Z ->
  exists j', job_reset o j = Ok j' /\ TI e j'.
Proof.
  intros j I T HB. unfold job_reset. rewrite expects_Ok by (apply Z.ltb_lt, HB).
  rewrite (ji_mutator p p j I). destruct (initial_ok p HP) as (src & ES & V). rewrite ES. cbn [bind].
  destruct (stun_reset_total j src) as (j1 & R & U & F); auto;
    try apply (ji_mutator p p j I); try apply (ji_params p p j I); try apply I; try apply (ti_gamma e j T).
  rewrite R. cbn [bind].
  destruct (makespan_makes_lengths p _ _ (ji_low p p j I)) as [HD HPf].
  destruct (reset_cases p p HP o j src j1) as (I1 & K1 & T1 & _); auto;
    [apply (ji_mutator p p j I)|apply (ji_params p p j I)|apply (ji_task p p j I)|apply (ji_work p p j I)|].
  rewrite T1. destruct (temp_reset_ok (jb_temp j) (ti_temp e j T)) as (t' & TR & TO).
  rewrite TR. cbn [bind]. eexists. split; [reflexivity|].
  constructor; cbn [jb_temp jb_stun]; auto. destruct K1 as [_ _ _ KG]. rewrite KG. apply T.
Qed.

Lemma job_copy_total : forall j, JI p p j -> TI e j -> exists j', job_copy j = Ok j' /\ TI e j'.
Proof.
  intros j I T.
  destruct (makespan_makes_lengths p _ _ (ji_low p p j I)) as [HD HPf].
  assert (E : exists j', job_copy j = Ok j').
  { unfold job_copy, makespan_copy. rewrite (ji_params p p j I). unfold makespan_new.
    rewrite !nonempty_neg by assumption. cbn [expects bind].
    rewrite expects_Ok.
    - cbn [bind]. unfold stun_copy.
      destruct (Nat.eqb_spec (length (st_best (jb_stun j))) 0) as [Z|NZ].
      + cbn [bind]. eexists. reflexivity.
      + destruct (prepare_ok (jb_stun j) (length (st_best (jb_stun j)))) as (s1 & E & _); [lia|].
        rewrite E. cbn [bind]. eexists. reflexivity.
    - cbn. rewrite !repeat_length, (ji_task p p j I), (ji_work p p j I). apply Nat.eqb_refl. }
  destruct E as (j' & E). exists j'. split; [exact E|].
  destruct (job_copy_cases p p HP j j' I E) as (I' & K & TT & _ & _ & _ & _ & CE & _ & CS).
  destruct K as [_ _ _ KG]. constructor; rewrite ?TT, ?CE, ?CS, ?KG; apply T.
Qed.

Lemma period_bit : forall k, has_single_bit (Z.to_N (2 ^ Z.of_nat k)) = true.
Proof.
  intro k. unfold has_single_bit.
  assert (E : Z.to_N (2 ^ Z.of_nat k) = (2 ^ N.of_nat k)%N).
  { replace (2 ^ Z.of_nat k)%Z with (Z.of_N (2 ^ N.of_nat k)) by (rewrite N2Z.inj_pow, nat_N_Z; reflexivity).
    apply N2Z.id. }
  rewrite E. apply andb_true_iff. split.
  - apply negb_true_iff, N.eqb_neq, N.pow_nonzero. discriminate.
  - apply N.eqb_eq. rewrite land_mask. apply N.mod_same, N.pow_nonzero. discriminate.
Qed.

Lemma job_new_total : forall op, sane_options op -> scale_fits e (op_scale op) = true ->
  exists j, job_new o p op = Ok j /\ TI e j.
Proof.
  intros op [HB HI HS0 HW [G0 GF] (k & HK & K62)] HS1.
  assert (E : exists j, job_new o p op = Ok j /\ in_unit (st_current_s (jb_stun j)) /\
                is_finite (st_current_e (jb_stun j)) = true).
  { unfold job_new.
    rewrite expects_Ok by (apply nonempty_neg; rewrite (pb_deps_len p HP); apply HP).
    rewrite expects_Ok by (apply nonempty_neg; rewrite (pb_agents_len p HP); apply HP).
    unfold makespan_new.
    rewrite !nonempty_neg by (try apply (perf_nonempty p HP); apply HP). cbn [expects bind].
    unfold temperature_new. rewrite expects_Ok by exact HS0.
    rewrite expects_Ok by (apply Z.ltb_lt, HW).
    rewrite expects_Ok by (apply Z.ltb_lt; rewrite HK; apply Z.pow_pos_nonneg; lia).
    rewrite expects_Ok by (rewrite HK; apply period_bit). cbn [bind].
    destruct (initial_ok p HP) as (src & ES & V). rewrite ES. cbn [bind].
    rewrite expects_Ok by (apply (valid_nonempty p HP), V).
    match goal with |- context [stun_reset o ?j0 src] =>
      destruct (stun_reset_total j0 src) as (j1 & R & U & F);
      cbn [jb_mutator jb_params jb_makespan jb_stun stun_new st_gamma mk_task mk_work];
      rewrite ?repeat_length; auto
    end.
    rewrite R. cbn [bind]. rewrite expects_Ok by (apply Z.ltb_lt, HB). exists j1. auto. }
  destruct E as (j & E & U & F). exists j. split; [exact E|].
  destruct (job_new_cases p p HP o op j eq_refl E) as (_ & _ & _ & GA & _ & _ & _ & _ & _ & TN).
  constructor; auto.
  - apply (temp_new_fits e _ _ _ _ TN HS1). rewrite HK. apply Z.pow_le_mono_r; lia.
  - rewrite GA. auto.
Qed.

End Total.
