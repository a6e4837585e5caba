(** * Proofs about the makespan evaluator *)

From Coq Require Import List ZArith Bool Arith Relations Permutation Lia.
From Flocq Require Import BinarySingleNaN.
From Verif Require Import Base F32 F32Facts ProjectModel ScheduleModel ScheduleSpec
  ScheduleProofs MutatorProofs MakespanModel TimelineSpec.
Import ListNotations.

(** ** Lists *)

Lemma nth_set_nth : forall A (l : list A) i j a d, i < length l ->
  nth j (set_nth l i a) d = if j =? i then a else nth j l d.
Proof.
  intros A l. induction l as [|x l IH]; intros i j a d H; cbn [length] in H; [lia|].
  destruct i as [|i]; destruct j as [|j]; cbn [set_nth nth Nat.eqb]; try reflexivity.
  apply IH. lia.
Qed.

Lemma nth_error_nth_lt : forall A (l : list A) i d, i < length l ->
  nth_error l i = Some (nth i l d).
Proof. intros A l i d H. apply nth_error_nth'. exact H. Qed.

Lemma at_index_nth : forall A (l : list A) i d, i < length l ->
  at_index l i = Ok (nth i l d).
Proof. intros A l i d H. apply at_index_Ok, nth_error_nth_lt, H. Qed.

Lemma map_outcome_all : forall A B (f : A -> outcome B) (g : A -> B) l,
  (forall a, In a l -> f a = Ok (g a)) -> map_outcome f l = Ok (map g l).
Proof.
  intros A B f g l. induction l as [|a l IH]; intro H; cbn [map_outcome map]; [reflexivity|].
  rewrite H by (left; reflexivity). cbn [bind]. rewrite IH; [reflexivity|].
  intros x Hx. apply H. right. exact Hx.
Qed.

Lemma le_nn : forall x y, nn x -> nn y -> (f_le x y = true <-> (key x <= key y)%Z).
Proof. intros x y [Nx _] [Ny _]. rewrite le_key by assumption. apply Z.leb_le. Qed.

Lemma f_le_trans : forall x y z, f_le x y = true -> f_le y z = true -> f_le x z = true.
Proof.
  intros x y z H1 H2. destruct (le_num _ _ H1) as [Nx Ny]. destruct (le_num _ _ H2) as [_ Nz].
  rewrite le_key in * by assumption. apply Z.leb_le in H1, H2. apply Z.leb_le. lia.
Qed.

(** ** The loop *)

Section Loop.
Variable p : params.
Hypothesis HP : problem p.
Hypothesis HN : sane_numbers p.

Lemma work_time_nn : forall t a, t < length (sp_dur p) -> a < length (sp_perf p) ->
  nn (work_time p t a).
Proof.
  intros t a Ht Ha. destruct HN as [HD HQ]. rewrite Forall_forall in HD, HQ.
  unfold work_time.
  destruct (HD (nth t (sp_dur p) f_zero) (nth_In _ _ Ht)) as [F N].
  apply div_nn.
  - apply nn_iff, N.
  - exact F.
  - apply pos_iff. apply HQ, nth_In, Ha.
Qed.

Lemma task_time_ok : forall t a, t < length (sp_dur p) -> a < length (sp_perf p) ->
  task_time p t a = Ok (work_time p t a).
Proof.
  intros t a Ht Ha. unfold task_time, work_time.
  rewrite (proj2 (Nat.ltb_lt _ _) Ht), (proj2 (Nat.ltb_lt _ _) Ha). cbn [expects bind].
  rewrite (at_index_nth _ _ t f_zero Ht), (at_index_nth _ _ a f_zero Ha). reflexivity.
Qed.

Record LInv (pre : list item) (st : makespan_state) (tl : timeline) : Prop := {
  li_tl : length (mk_task st) = length (sp_dur p);
  li_wl : length (mk_work st) = length (sp_perf p);
  li_greedy : greedy_timeline p pre tl;
  li_fin : forall y, In y pre -> nth (it_task y) (mk_task st) f_zero = tl_finish tl (it_task y);
  li_tnn : Forall nn (mk_task st);
  li_wnn : Forall nn (mk_work st);
  li_wge : forall y, In y pre ->
     (key (tl_finish tl (it_task y)) <= key (nth (it_agent y) (mk_work st) f_zero))%Z;
  li_wex : forall a, a < length (sp_perf p) -> nth a (mk_work st) f_zero = f_zero \/
     exists y, In y pre /\ it_agent y = a /\ nth a (mk_work st) f_zero = tl_finish tl (it_task y)
}.

Lemma Forall_nth_nn : forall l i, Forall nn l -> nn (nth i l f_zero).
Proof.
  intros l i H. rewrite Forall_forall in H. destruct (Nat.lt_ge_cases i (length l)) as [L|L].
  - apply H, nth_In, L.
  - rewrite nth_overflow by exact L. apply nn_zero.
Qed.

Lemma Forall_set_nth : forall l i a, Forall nn l -> nn a -> Forall nn (set_nth l i a).
Proof.
  intros l. induction l as [|x l IH]; intros i a H Ha; [constructor|].
  inversion H; subst. destruct i; cbn; constructor; auto.
Qed.

Lemma deps_done_ok : forall pre st tl x, LInv pre st tl -> it_task x < task_count p ->
  (forall d, depends p (it_task x) d -> In d (map it_task pre)) ->
  exists dd, dependencies_done p (mk_task st) (it_task x) = Ok dd /\ nn dd /\
    (forall y, In y pre -> depends p (it_task x) (it_task y) ->
       (key (tl_finish tl (it_task y)) <= key dd)%Z) /\
    (dd = f_zero \/ exists y, In y pre /\ depends p (it_task x) (it_task y) /\
       dd = tl_finish tl (it_task y)).
Proof.
  intros pre st tl x I Hx Hd. unfold dependencies_done.
  fold (task_count p). rewrite (proj2 (Nat.ltb_lt _ _) Hx). cbn [expects bind].
  destruct (nth_error_lt _ (sp_deps p) (it_task x)) as [deps E].
  { rewrite (pb_deps_len p HP). exact Hx. }
  unfold row. rewrite (at_index_Ok _ _ _ _ E). cbn [bind].
  assert (Hdeps : forall d, In d deps <-> depends p (it_task x) d).
  { intro d. split; [intro H; exists deps; auto|]. intros (r & E' & H). congruence. }
  destruct deps as [|d0 deps].
  - exists f_zero. split; [reflexivity|]. split; [apply nn_zero|]. split; [|left; reflexivity].
    intros y _ H. apply Hdeps in H. destruct H.
  - set (ds := d0 :: deps) in *.
    rewrite (map_outcome_all _ _ _ (fun d => nth d (mk_task st) f_zero)).
    2:{ intros d H. apply at_index_nth. rewrite (li_tl _ _ _ I).
        apply (pb_deps_range p HP (it_task x)). apply Hdeps, H. }
    cbn [bind]. set (ends := map _ ds).
    assert (Hne : ends <> []) by discriminate.
    assert (Hnn : Forall nn ends).
    { unfold ends. apply Forall_map, Forall_forall. intros d _. apply Forall_nth_nn, (li_tnn _ _ _ I). }
    destruct (max_list_nn f_zero ends Hne Hnn) as (A & B & C).
    exists (f_max_list f_zero ends). split; [reflexivity|]. split; [exact A|]. split.
    + intros y Hy D. rewrite Forall_forall in C. pose proof (li_fin _ _ _ I y Hy) as Ef. rewrite <- Ef. apply C.
      apply in_map_iff. exists (it_task y). split; [reflexivity|]. apply Hdeps, D.
    + right. apply in_map_iff in B. destruct B as (d & Ed & Hin).
      apply Hdeps in Hin. pose proof (Hd d Hin) as Hm. apply in_map_iff in Hm.
      destruct Hm as (y & <- & Hy). exists y. split; [exact Hy|]. split; [exact Hin|].
      rewrite <- Ed. apply (li_fin _ _ _ I y Hy).
Qed.

Definition upd (f : nat -> f32) (t : nat) (v : f32) : nat -> f32 :=
  fun k => if k =? t then v else f k.

Lemma step_ok : forall pre x st tl, LInv pre st tl ->
  it_task x < task_count p -> it_agent x < length (sp_perf p) ->
  ~ In (it_task x) (map it_task pre) ->
  (forall d, depends p (it_task x) d -> In d (map it_task pre)) ->
  exists st' tl', makespan_step p st x = Ok st' /\ LInv (pre ++ [x]) st' tl' /\
    (forall y, In y pre -> tl_start tl' (it_task y) = tl_start tl (it_task y) /\
                           tl_finish tl' (it_task y) = tl_finish tl (it_task y)) /\
    exists dd, dependencies_done p (mk_task st) (it_task x) = Ok dd /\
      tl_start tl' (it_task x) = f_max dd (nth (it_agent x) (mk_work st) f_zero).
Proof.
  intros pre x st tl I Hx Ha Hnew Hd.
  destruct (deps_done_ok pre st tl x I Hx Hd) as (dd & Edd & Ndd & Gdd & Xdd).
  unfold makespan_step. rewrite Edd. cbn [bind].
  rewrite (at_index_nth _ _ (it_agent x) f_zero) by (rewrite (li_wl _ _ _ I); exact Ha).
  cbn [bind]. set (w := nth (it_agent x) (mk_work st) f_zero).
  rewrite task_time_ok by assumption. cbn [bind]. cbv zeta.
  rewrite (at_index_nth _ _ (it_task x) f_zero) by (rewrite (li_tl _ _ _ I); exact Hx).
  cbn [bind].
  set (start := f_max dd w). set (fin := f_add start (work_time p (it_task x) (it_agent x))).
  assert (Nw : nn w) by (apply Forall_nth_nn, (li_wnn _ _ _ I)).
  destruct (max_nn dd w Ndd Nw) as (Ns & Ks & Cs). fold start in Ns, Ks, Cs.
  pose proof (work_time_nn _ _ Hx Ha) as Nt.
  destruct (add_nn start _ Ns Nt) as [Nf _]. fold fin in Nf.
  assert (Old : forall y, In y pre -> it_task y <> it_task x).
  { intros y Hy E. apply Hnew. rewrite <- E. apply in_map, Hy. }
  eexists. exists {| tl_start := upd (tl_start tl) (it_task x) start;
                     tl_finish := upd (tl_finish tl) (it_task x) fin |}.
  assert (OldF : forall y, In y pre -> upd (tl_finish tl) (it_task x) fin (it_task y) = tl_finish tl (it_task y)).
  { intros y Hy. unfold upd. destruct (Nat.eqb_spec (it_task y) (it_task x)) as [E|E]; [|reflexivity].
    exfalso. apply (Old y Hy E). }
  assert (OldS : forall y, In y pre -> upd (tl_start tl) (it_task x) start (it_task y) = tl_start tl (it_task y)).
  { intros y Hy. unfold upd. destruct (Nat.eqb_spec (it_task y) (it_task x)) as [E|E]; [|reflexivity].
    exfalso. apply (Old y Hy E). }
  assert (NewF : upd (tl_finish tl) (it_task x) fin (it_task x) = fin)
    by (unfold upd; rewrite Nat.eqb_refl; reflexivity).
  assert (NewS : upd (tl_start tl) (it_task x) start (it_task x) = start)
    by (unfold upd; rewrite Nat.eqb_refl; reflexivity).
  assert (NF : forall y, In y pre -> nn (tl_finish tl (it_task y))).
  { intros y Hy. rewrite <- (li_fin _ _ _ I y Hy). apply Forall_nth_nn, (li_tnn _ _ _ I). }
  split; [reflexivity|]. split; [|split; [intros y Hy; split; [apply OldS, Hy|apply OldF, Hy]|]].
  2:{ exists dd. split; [reflexivity|exact NewS]. }
  constructor; cbn [mk_task mk_work tl_start tl_finish].
  - rewrite set_nth_length. apply (li_tl _ _ _ I).
  - rewrite set_nth_length. apply (li_wl _ _ _ I).
  - intros pre' y post E. cbn [tl_start tl_finish].
    destruct (exists_last (l := y :: post)) as (l' & z & El); [discriminate|].
    rewrite El, app_assoc in E. apply app_inj_tail in E. destruct E as [E Ez]. subst z.
    destruct l' as [|y' l'].
    + cbn [app] in El. injection El as Ey Ep. subst y post. rewrite app_nil_r in E. subst pre'.
      rewrite NewF, NewS. split; [reflexivity|]. split; [apply nn_iff, Ns|]. split.
      * intros y (Hy & C). rewrite OldF by exact Hy. apply le_nn; [apply NF, Hy|exact Ns|].
        rewrite Ks. destruct C as [C|C].
        -- specialize (Gdd y Hy C). lia.
        -- pose proof (li_wge _ _ _ I y Hy) as G. rewrite C in G. fold w in G. lia.
      * destruct Cs as [Cs|Cs].
        -- destruct Xdd as [X|(y & Hy & D & X)]; [left; congruence|].
           right. exists y. split; [split; auto|]. rewrite OldF by exact Hy. congruence.
        -- destruct (li_wex _ _ _ I _ Ha) as [X|(y & Hy & A & X)]; fold w in X.
           ++ left. congruence.
           ++ right. exists y. split; [split; auto|]. rewrite OldF by exact Hy. congruence.
    + cbn [app] in El. injection El as Ey Ep. subst y'.
      assert (Hin : forall z, In z pre' \/ z = y -> In z pre).
      { intros z Hz. rewrite E. apply in_or_app. destruct Hz as [Hz| ->]; [left; exact Hz|right; left; reflexivity]. }
      destruct (li_greedy _ _ _ I pre' y l' E) as (G1 & G2 & G3 & G4).
      rewrite OldF, OldS by (apply Hin; right; reflexivity).
      split; [exact G1|]. split; [exact G2|]. split.
      * intros z Hz. rewrite OldF by (apply Hin; left; apply Hz). apply G3, Hz.
      * destruct G4 as [G4|(z & Hz & G4)]; [left; exact G4|]. right. exists z.
        split; [exact Hz|]. rewrite OldF by (apply Hin; left; apply Hz). exact G4.
  - intros y Hy. rewrite nth_set_nth by (rewrite (li_tl _ _ _ I); exact Hx).
    apply in_app_or in Hy. destruct Hy as [Hy|[<-|[]]].
    + rewrite OldF by exact Hy. destruct (Nat.eqb_spec (it_task y) (it_task x)) as [E|E].
      * exfalso. apply (Old y Hy E).
      * apply (li_fin _ _ _ I y Hy).
    + rewrite NewF, Nat.eqb_refl. reflexivity.
  - apply Forall_set_nth; [apply (li_tnn _ _ _ I)|exact Nf].
  - apply Forall_set_nth; [apply (li_wnn _ _ _ I)|exact Nf].
  - intros y Hy. rewrite nth_set_nth by (rewrite (li_wl _ _ _ I); exact Ha).
    apply in_app_or in Hy. destruct Hy as [Hy|[<-|[]]].
    + rewrite OldF by exact Hy. pose proof (li_wge _ _ _ I y Hy) as G.
      destruct (Nat.eqb_spec (it_agent y) (it_agent x)) as [E|E]; [|exact G].
      rewrite E in G. fold w in G. pose proof (add_ge_l start _ Ns Nt) as G2. fold fin in G2. lia.
    + rewrite NewF, Nat.eqb_refl. lia.
  - intros a La. rewrite nth_set_nth by (rewrite (li_wl _ _ _ I); exact Ha).
    destruct (Nat.eqb_spec a (it_agent x)) as [E|E].
    + right. exists x. split; [apply in_or_app; right; left; reflexivity|]. split; [auto|].
      symmetry. exact NewF.
    + destruct (li_wex _ _ _ I a La) as [X|(y & Hy & A & X)]; [left; exact X|].
      right. exists y. split; [apply in_or_app; left; exact Hy|]. split; [exact A|].
      rewrite OldF by exact Hy. exact X.
Qed.

Lemma loop_ok : forall rest pre st tl, LInv pre st tl -> valid_schedule p (pre ++ rest) ->
  exists st' tl', makespan_loop p st rest = Ok st' /\ LInv (pre ++ rest) st' tl'.
Proof.
  induction rest as [|x rest IH]; intros pre st tl I V.
  - exists st, tl. rewrite app_nil_r. auto.
  - assert (Hin : In x (pre ++ x :: rest)) by (apply in_or_app; right; left; reflexivity).
    destruct (step_ok pre x st tl I) as (st1 & tl1 & E1 & I1 & _).
    + apply (valid_range p _ _ V Hin).
    + apply (pb_agents_range p HP (it_task x)). apply (vs_agents p _ V x Hin).
    + pose proof (valid_nodup p _ V) as ND. rewrite map_app in ND. cbn [map] in ND.
      apply NoDup_remove_2 in ND. intro H. apply ND. apply in_or_app. left. exact H.
    + apply (vs_order p _ V pre x rest eq_refl).
    + cbn [makespan_loop]. rewrite E1. cbn [bind].
      specialize (IH (pre ++ [x]) st1 tl1 I1). rewrite <- app_assoc in IH.
      apply IH. exact V.
Qed.

Lemma repeat_nn : forall n, Forall nn (repeat f_zero n).
Proof. induction n; cbn; constructor; [apply nn_zero|assumption]. Qed.

Lemma nth_repeat_zero : forall n i, nth i (repeat f_zero n) f_zero = f_zero.
Proof. induction n; intros [|i]; cbn; auto. Qed.

Lemma linv_start : LInv [] {| mk_task := repeat f_zero (length (sp_dur p));
                              mk_work := repeat f_zero (length (sp_perf p)) |}
                       {| tl_start := fun _ => f_zero; tl_finish := fun _ => f_zero |}.
Proof.
  constructor; cbn [mk_task mk_work].
  - apply repeat_length.
  - apply repeat_length.
  - intros pre x post E. destruct pre; discriminate.
  - intros y [].
  - apply repeat_nn.
  - apply repeat_nn.
  - intros y [].
  - intros a _. left. apply nth_repeat_zero.
Qed.

Lemma perf_nonempty : 0 < length (sp_perf p).
Proof.
  destruct (pb_agents_some p HP 0 (pb_tasks p HP)) as (a & Ha).
  pose proof (pb_agents_range p HP 0 a Ha). lia.
Qed.

Lemma eval_ok : forall st s, valid_schedule p s ->
  length (mk_task st) = length (sp_dur p) -> length (mk_work st) = length (sp_perf p) ->
  exists m st' tl, makespan_eval p st s = Ok (m, st') /\
    length (mk_task st') = length (sp_dur p) /\ length (mk_work st') = length (sp_perf p) /\
    greedy_timeline p s tl /\ nn m /\ last_finish s tl m.
Proof.
  intros st s V Lt Lw. unfold makespan_eval.
  pose proof (valid_length p s V) as Ls. pose proof (pb_tasks p HP) as T. unfold task_count in Ls, T.
  rewrite Lt, Lw.
  destruct (Nat.eqb_spec (length s) 0); [lia|]. cbn [negb expects bind].
  rewrite Ls, Nat.eqb_refl. cbn [expects bind]. cbv zeta.
  destruct (loop_ok s [] _ _ linv_start V) as (st' & tl & E & I). cbn [app] in I.
  rewrite E. cbn [bind]. pose proof perf_nonempty as PN.
  rewrite (li_wl _ _ _ I). destruct (Nat.eqb_spec (length (sp_perf p)) 0); [lia|].
  cbn [negb expects bind].
  assert (Hne : mk_work st' <> []).
  { intro H. pose proof (li_wl _ _ _ I) as W. rewrite H in W. cbn in W. lia. }
  destruct (max_list_nn f_zero _ Hne (li_wnn _ _ _ I)) as (A & B & C).
  set (m := f_max_list f_zero (mk_work st')) in *.
  exists m, st', tl. split; [reflexivity|]. split; [apply (li_tl _ _ _ I)|].
  split; [apply (li_wl _ _ _ I)|]. split; [apply (li_greedy _ _ _ I)|]. split; [exact A|].
  assert (NF : forall y, In y s -> nn (tl_finish tl (it_task y))).
  { intros y Hy. rewrite <- (li_fin _ _ _ I y Hy). apply Forall_nth_nn, (li_tnn _ _ _ I). }
  assert (Up : forall x, In x s -> (key (tl_finish tl (it_task x)) <= key m)%Z).
  { intros x Hx. pose proof (li_wge _ _ _ I x Hx) as G. rewrite Forall_forall in C.
    assert (La : it_agent x < length (sp_perf p)).
    { apply (pb_agents_range p HP (it_task x)). apply (vs_agents p _ V x Hx). }
    specialize (C (nth (it_agent x) (mk_work st') f_zero)).
    assert (In (nth (it_agent x) (mk_work st') f_zero) (mk_work st')).
    { apply nth_In. rewrite (li_wl _ _ _ I). exact La. }
    specialize (C H). lia. }
  split.
  - intros x Hx. apply le_nn; [apply NF, Hx|exact A|apply Up, Hx].
  - apply In_nth with (d := f_zero) in B. destruct B as (a & La & Ea).
    rewrite (li_wl _ _ _ I) in La.
    destruct (li_wex _ _ _ I a La) as [X|(y & Hy & _ & X)]; rewrite Ea in X.
    + destruct s as [|x s]; [cbn in Ls; lia|]. exists x. split; [left; reflexivity|].
      pose proof (Up x (or_introl eq_refl)) as U. pose proof (NF x (or_introl eq_refl)) as N.
      rewrite eq_key by (apply A || apply N). apply Z.eqb_eq.
      rewrite X in U |- *. rewrite key_zero in *. destruct N. lia.
    + exists y. split; [exact Hy|]. rewrite X. pose proof (NF y Hy) as N.
      rewrite eq_key by apply N. apply Z.eqb_refl.
Qed.

Lemma makespan_ok : forall s, valid_schedule p s ->
  exists m tl, makespan p s = Ok m /\ greedy_timeline p s tl /\ nn m /\ last_finish s tl m.
Proof.
  intros s V. unfold makespan, makespan_new.
  pose proof perf_nonempty. pose proof (pb_tasks p HP) as T. unfold task_count in T.
  destruct (Nat.eqb_spec (length (sp_perf p)) 0); [lia|].
  destruct (Nat.eqb_spec (length (sp_dur p)) 0); [lia|]. cbn [negb expects bind].
  destruct (eval_ok {| mk_task := repeat f_zero (length (sp_dur p));
                       mk_work := repeat f_zero (length (sp_perf p)) |} s V) as (m & st' & tl & E & _ & _ & G & N & L);
    [apply repeat_length|apply repeat_length|].
  rewrite E. exists m, tl. auto.
Qed.

(** ** Bounds *)

Section Bounds.
Variable s : list item.
Hypothesis V : valid_schedule p s.
Variable tl : timeline.
Hypothesis G : greedy_timeline p s tl.

Lemma item_range : forall x, In x s -> it_task x < length (sp_dur p) /\ it_agent x < length (sp_perf p).
Proof.
  intros x Hx. split; [apply (valid_range p s x V Hx)|].
  apply (pb_agents_range p HP (it_task x)). apply (vs_agents p _ V x Hx).
Qed.

Lemma item_wt : forall x, In x s -> nn (work_time p (it_task x) (it_agent x)).
Proof. intros x Hx. apply work_time_nn; apply item_range, Hx. Qed.

Lemma start_nn : forall x, In x s -> nn (tl_start tl (it_task x)).
Proof.
  intros x Hx. apply in_split in Hx. destruct Hx as (pre & post & E).
  destruct (G pre x post E) as (_ & N & _). apply nn_iff, N.
Qed.

Lemma finish_eq : forall x, In x s -> tl_finish tl (it_task x)
  = f_add (tl_start tl (it_task x)) (work_time p (it_task x) (it_agent x)).
Proof.
  intros x Hx. apply in_split in Hx. destruct Hx as (pre & post & E).
  destruct (G pre x post E) as (F & _). exact F.
Qed.

Lemma finish_nn : forall x, In x s -> nn (tl_finish tl (it_task x)).
Proof.
  intros x Hx. rewrite finish_eq by exact Hx. apply add_nn; [apply start_nn, Hx|apply item_wt, Hx].
Qed.

Lemma same_item : forall x y, In x s -> In y s -> it_task x = it_task y -> x = y.
Proof.
  intros x y Hx Hy E. pose proof (valid_nodup p s V) as ND.
  apply in_split in Hx. destruct Hx as (a & b & ->). rewrite map_app in ND. cbn [map] in ND.
  apply NoDup_remove_2 in ND. apply in_app_or in Hy. destruct Hy as [Hy|[Hy|Hy]]; [|exact Hy|].
  - exfalso. apply ND. apply in_or_app. left. rewrite E. apply in_map, Hy.
  - exfalso. apply ND. apply in_or_app. right. rewrite E. apply in_map, Hy.
Qed.

Lemma dep_before : forall x y, In x s -> In y s -> depends p (it_task y) (it_task x) ->
  (key (tl_finish tl (it_task x)) <= key (tl_start tl (it_task y)))%Z.
Proof.
  intros x y Hx Hy D. pose proof Hy as Hy'. apply in_split in Hy. destruct Hy as (pre & post & E).
  pose proof (vs_order p s V pre y post E _ D) as I. apply in_map_iff in I.
  destruct I as (x' & Ex & Hx').
  assert (x' = x).
  { apply same_item; [rewrite E; apply in_or_app; left; exact Hx'|exact Hx|exact Ex]. }
  subst x'. destruct (G pre y post E) as (_ & _ & H & _).
  specialize (H x (conj Hx' (or_introl D))).
  apply le_nn in H; [exact H|apply finish_nn, Hx|apply start_nn, Hy'].
Qed.

Lemma sum_step : forall (t : f32) x, In x s -> nn t -> (key t <= key (tl_start tl (it_task x)))%Z ->
  nn (f_add t (work_time p (it_task x) (it_agent x))) /\
  (key (f_add t (work_time p (it_task x) (it_agent x))) <= key (tl_finish tl (it_task x)))%Z.
Proof.
  intros t x Hx Nt L. pose proof (item_wt x Hx) as W. split; [apply add_nn; assumption|].
  rewrite finish_eq by exact Hx. apply add_mono; auto; [apply start_nn, Hx|lia].
Qed.

Definition step_time (t : f32) (x : item) : f32 :=
  f_add t (work_time p (it_task x) (it_agent x)).

Lemma chain_sum : forall l x t, (forall y, In y (x :: l) -> In y s) -> chain p (x :: l) ->
  nn t -> (key t <= key (tl_start tl (it_task x)))%Z ->
  exists z, In z s /\ nn (fold_left step_time (x :: l) t) /\
    (key (fold_left step_time (x :: l) t) <= key (tl_finish tl (it_task z)))%Z.
Proof.
  induction l as [|y l IH]; intros x t Hin Hc Nt L.
  - destruct (sum_step t x (Hin x (or_introl eq_refl)) Nt L) as [A B].
    exists x. split; [apply Hin; left; reflexivity|]. cbn [fold_left]. split; assumption.
  - destruct Hc as [D Hc]. cbn [fold_left].
    destruct (sum_step t x (Hin x (or_introl eq_refl)) Nt L) as [A B].
    pose proof (dep_before x y (Hin x (or_introl eq_refl)) (Hin y (or_intror (or_introl eq_refl))) D) as E.
    apply IH.
    + intros z Hz. apply Hin. right. exact Hz.
    + exact Hc.
    + exact A.
    + unfold step_time. lia.
Qed.

Lemma agent_sum : forall a rest pre t, s = pre ++ rest -> nn t ->
  (t = f_zero \/ exists y, In y pre /\ it_agent y = a /\ (key t <= key (tl_finish tl (it_task y)))%Z) ->
  let r := fold_left step_time (filter (fun x => it_agent x =? a) rest) t in
  nn r /\ (r = f_zero \/ exists y, In y s /\ (key r <= key (tl_finish tl (it_task y)))%Z).
Proof.
  intros a rest. induction rest as [|x rest IH]; intros pre t E Nt H; cbn [filter fold_left].
  - cbv zeta. split; [exact Nt|]. destruct H as [H|(y & Hy & _ & H)]; [left; exact H|].
    right. exists y. split; [rewrite E; apply in_or_app; left; exact Hy|exact H].
  - assert (E' : s = (pre ++ [x]) ++ rest) by (rewrite <- app_assoc; exact E).
    assert (Hx : In x s) by (rewrite E; apply in_or_app; right; left; reflexivity).
    destruct (Nat.eqb_spec (it_agent x) a) as [Ea|Ea].
    + cbn [fold_left].
      assert (L : (key t <= key (tl_start tl (it_task x)))%Z).
      { destruct (G pre x rest E) as (_ & N & P & _). apply nn_iff in N.
        destruct H as [->|(y & Hy & A & H)]; [rewrite key_zero; apply N|].
        assert (Hy' : In y s) by (rewrite E; apply in_or_app; left; exact Hy).
        specialize (P y (conj Hy (or_intror (eq_trans A (eq_sym Ea))))).
        apply le_nn in P; [lia|apply finish_nn, Hy'|exact N]. }
      destruct (sum_step t x Hx Nt L) as [A B].
      apply (IH (pre ++ [x]) _ E' A). right. exists x.
      split; [apply in_or_app; right; left; reflexivity|]. split; [exact Ea|exact B].
    + apply (IH (pre ++ [x]) t E' Nt). destruct H as [H|(y & Hy & H)]; [left; exact H|].
      right. exists y. split; [apply in_or_app; left; exact Hy|exact H].
Qed.

Lemma serial_sum : forall rest pre t, s = pre ++ rest -> nn t ->
  (forall y, In y pre -> (key (tl_finish tl (it_task y)) <= key t)%Z) ->
  nn (fold_left step_time rest t) /\
  forall y, In y s -> (key (tl_finish tl (it_task y)) <= key (fold_left step_time rest t))%Z.
Proof.
  intros rest. induction rest as [|x rest IH]; intros pre t E Nt H; cbn [fold_left].
  - split; [exact Nt|]. intros y Hy. apply H. rewrite E, app_nil_r in Hy. exact Hy.
  - assert (E' : s = (pre ++ [x]) ++ rest) by (rewrite <- app_assoc; exact E).
    assert (Hx : In x s) by (rewrite E; apply in_or_app; right; left; reflexivity).
    pose proof (item_wt x Hx) as W.
    assert (L : (key (tl_start tl (it_task x)) <= key t)%Z).
    { destruct (G pre x rest E) as (_ & _ & _ & [Z|(y & (Hy & _) & Z)]).
      - rewrite Z, key_zero. apply Nt.
      - rewrite Z. apply H, Hy. }
    apply (IH (pre ++ [x])); [exact E'|apply add_nn; assumption|].
    intros y Hy. apply in_app_or in Hy. destruct Hy as [Hy|[<-|[]]].
    + specialize (H y Hy). pose proof (add_ge_l t _ Nt W). unfold step_time. lia.
    + rewrite finish_eq by exact Hx. unfold step_time.
      apply add_mono; auto; [apply start_nn, Hx|lia].
Qed.

End Bounds.

(** The greedy timeline is unique (as a function to numbers). *)
Lemma timeline_unique : forall s tl tl', valid_schedule p s ->
  greedy_timeline p s tl -> greedy_timeline p s tl' ->
  forall rest pre, s = pre ++ rest ->
  (forall y, In y pre -> key (tl_finish tl (it_task y)) = key (tl_finish tl' (it_task y))) ->
  forall y, In y s -> key (tl_finish tl (it_task y)) = key (tl_finish tl' (it_task y)).
Proof.
  intros s tl tl' V G G' rest. induction rest as [|x rest IH]; intros pre E H y Hy.
  - apply H. rewrite E, app_nil_r in Hy. exact Hy.
  - assert (E' : s = (pre ++ [x]) ++ rest) by (rewrite <- app_assoc; exact E).
    assert (Hx : In x s) by (rewrite E; apply in_or_app; right; left; reflexivity).
    apply (IH (pre ++ [x]) E'); [|exact Hy].
    intros z Hz. apply in_app_or in Hz. destruct Hz as [Hz|[<-|[]]]; [apply H, Hz|].
    destruct (G pre x rest E) as (F1 & _ & P1 & C1).
    destruct (G' pre x rest E) as (F2 & _ & P2 & C2).
    pose proof (start_nn s tl G x Hx) as N1. pose proof (start_nn s tl' G' x Hx) as N2.
    pose proof (item_wt s V x Hx) as W.
    assert (Hp : forall q, In q pre -> In q s) by (intros q Hq; rewrite E; apply in_or_app; left; exact Hq).
    assert (L1 : (key (tl_start tl (it_task x)) <= key (tl_start tl' (it_task x)))%Z).
    { destruct C1 as [C|(q & Q & C)]; rewrite C.
      - rewrite key_zero. apply N2.
      - rewrite H by apply Q. specialize (P2 q Q).
        apply le_nn in P2; [exact P2| |exact N2].
        apply (finish_nn s V tl' G'), Hp, Q. }
    assert (L2 : (key (tl_start tl' (it_task x)) <= key (tl_start tl (it_task x)))%Z).
    { destruct C2 as [C|(q & Q & C)]; rewrite C.
      - rewrite key_zero. apply N1.
      - rewrite <- H by apply Q. specialize (P1 q Q).
        apply le_nn in P1; [exact P1| |exact N1].
        apply (finish_nn s V tl G), Hp, Q. }
    rewrite F1, F2. apply Z.le_antisymm; apply add_mono; auto; lia.
Qed.

Lemma last_finish_all : forall s tl tl' m, valid_schedule p s ->
  greedy_timeline p s tl -> greedy_timeline p s tl' -> nn m ->
  last_finish s tl m -> last_finish s tl' m.
Proof.
  intros s tl tl' m V G G' Nm (A & x & Hx & B).
  assert (U : forall y, In y s -> key (tl_finish tl (it_task y)) = key (tl_finish tl' (it_task y))).
  { apply (timeline_unique s tl tl' V G G' s [] eq_refl). intros y []. }
  split.
  - intros y Hy. specialize (A y Hy).
    apply le_nn in A; [|apply (finish_nn s V tl G), Hy|exact Nm].
    apply le_nn; [apply (finish_nn s V tl' G'), Hy|exact Nm|]. rewrite <- U by exact Hy. exact A.
  - exists x. split; [exact Hx|].
    pose proof (finish_nn s V tl G x Hx) as N1. pose proof (finish_nn s V tl' G' x Hx) as N2.
    rewrite eq_key in * by (apply Nm || apply N1 || apply N2).
    rewrite <- U by exact Hx. exact B.
Qed.

Lemma makespan_spec : forall s, valid_schedule p s ->
  exists m, makespan p s = Ok m /\ f_le f_zero m = true /\
    (exists tl, greedy_timeline p s tl) /\
    forall tl, greedy_timeline p s tl -> last_finish s tl m.
Proof.
  intros s V. destruct (makespan_ok s V) as (m & tl & E & G & N & L).
  exists m. split; [exact E|]. split; [apply nn_iff, N|]. split; [exists tl; exact G|].
  intros tl' G'. apply (last_finish_all s tl tl' m V G G' N L).
Qed.

Lemma makespan_bounds : forall s m, valid_schedule p s -> makespan p s = Ok m ->
  f_le f_zero m = true /\
  (forall x, In x s -> f_le (work_time p (it_task x) (it_agent x)) m = true) /\
  (forall l, incl l s -> chain p l -> f_le (total_time p l) m = true) /\
  (forall a, f_le (total_time p (filter (fun x => it_agent x =? a) s)) m = true) /\
  f_le m (total_time p s) = true.
Proof.
  intros s m V E. destruct (makespan_ok s V) as (m' & tl & E' & G & N & L).
  rewrite E in E'. injection E' as <-.
  assert (Up : forall x, In x s -> (key (tl_finish tl (it_task x)) <= key m)%Z).
  { intros x Hx. destruct L as [L _]. specialize (L x Hx).
    apply le_nn in L; [exact L|apply (finish_nn s V tl G), Hx|exact N]. }
  assert (Chains : forall l, incl l s -> chain p l -> f_le (total_time p l) m = true).
  { intros [|x l] Hi Hc; [apply nn_iff, N|].
    destruct (chain_sum s V tl G l x f_zero Hi Hc nn_zero) as (z & Hz & A & B).
    - rewrite key_zero. apply (start_nn s tl G), Hi. left. reflexivity.
    - apply le_nn; [exact A|exact N|]. specialize (Up z Hz). unfold total_time. unfold step_time in B. lia. }
  split; [apply nn_iff, N|]. split; [|split; [exact Chains|split]].
  - intros x Hx. specialize (Up x Hx). rewrite (finish_eq s tl G x Hx) in Up.
    pose proof (item_wt s V x Hx) as W. pose proof (start_nn s tl G x Hx) as S.
    pose proof (add_ge_r _ _ S W). apply le_nn; [exact W|exact N|lia].
  - intro a. destruct (agent_sum s V tl G a s [] f_zero eq_refl nn_zero (or_introl eq_refl)) as (A & B).
    change (fold_left step_time (filter (fun x => it_agent x =? a) s) f_zero)
      with (total_time p (filter (fun x => it_agent x =? a) s)) in *.
    apply le_nn; [exact A|exact N|]. destruct B as [->|(y & Hy & B)].
    + rewrite key_zero. apply N.
    + specialize (Up y Hy). lia.
  - destruct (serial_sum s V tl G s [] f_zero eq_refl nn_zero) as (A & B); [intros y []|].
    change (fold_left step_time s f_zero) with (total_time p s) in *.
    apply le_nn; [exact N|exact A|]. destruct L as (_ & x & Hx & L).
    pose proof (finish_nn s V tl G x Hx) as F. rewrite eq_key in L by (apply N || apply F).
    apply Z.eqb_eq in L. rewrite L. apply B, Hx.
Qed.

End Loop.

(** ** History *)

Lemma step_lengths : forall p st x st', makespan_step p st x = Ok st' ->
  length (mk_task st') = length (mk_task st) /\ length (mk_work st') = length (mk_work st).
Proof.
  intros p st x st' H. unfold makespan_step in H.
  destruct (dependencies_done p (mk_task st) (it_task x)); cbn [bind] in H; try discriminate.
  destruct (at_index (mk_work st) (it_agent x)); cbn [bind] in H; try discriminate.
  destruct (task_time p (it_task x) (it_agent x)); cbn [bind] in H; try discriminate.
  destruct (at_index (mk_task st) (it_task x)); cbn [bind] in H; try discriminate.
  injection H as <-. cbn. rewrite !set_nth_length. auto.
Qed.

Lemma loop_lengths : forall p s st st', makespan_loop p st s = Ok st' ->
  length (mk_task st') = length (mk_task st) /\ length (mk_work st') = length (mk_work st).
Proof.
  intros p s. induction s as [|x s IH]; intros st st' H; cbn [makespan_loop] in H.
  - injection H as <-. auto.
  - destruct (makespan_step p st x) as [st1| |] eqn:E; cbn [bind] in H; try discriminate.
    apply step_lengths in E. apply IH in H. lia.
Qed.

Lemma eval_lengths : forall p s st m st', makespan_eval p st s = Ok (m, st') ->
  length (mk_task st') = length (mk_task st) /\ length (mk_work st') = length (mk_work st).
Proof.
  intros p s st m st' H. unfold makespan_eval in H.
  destruct (expects (negb (length s =? 0))); cbn [bind] in H; try discriminate.
  destruct (expects (length s =? length (mk_task st))); cbn [bind] in H; try discriminate.
  cbv zeta in H.
  destruct (makespan_loop _ _ s) as [st1| |] eqn:E; cbn [bind] in H; try discriminate.
  destruct (expects (negb (length (mk_work st1) =? 0))); cbn [bind] in H; try discriminate.
  injection H as _ <-. apply loop_lengths in E. cbn [mk_task mk_work] in E.
  rewrite !repeat_length in E. exact E.
Qed.

Lemma history_lengths : forall p l st st', makespan_history p st l = Ok st' ->
  length (mk_task st') = length (mk_task st) /\ length (mk_work st') = length (mk_work st).
Proof.
  intros p l. induction l as [|s l IH]; intros st st' H; cbn [makespan_history] in H.
  - injection H as <-. auto.
  - destruct (makespan_eval p st s) as [[m st1]| |] eqn:E; cbn [bind snd] in H; try discriminate.
    apply eval_lengths in E. apply IH in H. lia.
Qed.

Lemma eval_depends_on_lengths : forall p s st st',
  length (mk_task st) = length (mk_task st') -> length (mk_work st) = length (mk_work st') ->
  makespan_eval p st s = makespan_eval p st' s.
Proof. intros p s st st' H1 H2. unfold makespan_eval. rewrite H1, H2. reflexivity. Qed.

Lemma history_independent : forall p l st0 st s,
  makespan_new p = Ok st0 -> makespan_history p st0 l = Ok st ->
  makespan_eval p st s = makespan_eval p st0 s.
Proof.
  intros p l st0 st s _ H. apply history_lengths in H. destruct H.
  apply eval_depends_on_lengths; assumption.
Qed.
