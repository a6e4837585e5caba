(** * Property theorems C59-C61: the JSON results *)

From Coq Require Import String List ZArith Bool Arith Permutation Sorted Relations Lia Reals Lra.
From Flocq Require Import Core BinarySingleNaN.
From Verif Require Import Base F32 F32Facts F32Signed NormaliseProofs ProjectModel ScheduleModel
  ScheduleSpec ScheduleProofs ScheduleProps MutatorProofs MutatorProps MakespanModel TimelineSpec MakespanProofs
  MakespanProps StunProofs OptimizerProofs HistogramModel HistogramSpec HistogramProofs HistogramProps
  SimulationModel SimulationSpec SimulationProofs SimulationProps JsonModel JsonSpec.
Import ListNotations.

Lemma at_index_inv : forall A (l : list A) i a, at_index l i = Ok a -> nth_error l i = Some a.
Proof. intros A l i a H. unfold at_index in H. destruct (nth_error l i); congruence. Qed.

(** What one step of the loop computes. *)
Lemma json_step_inv : forall p st x st' i, json_step p st x = Ok (st', i) ->
  exists t a d w dd,
    nth_error (pr_tasks p) (it_task x) = Some t /\
    nth_error (pr_agents p) (it_agent x) = Some a /\
    json_task_duration t a = Ok d /\
    nth_error (jn_work st) (it_agent x) = Some w /\
    json_dependencies_done (jn_done st) (tk_deps t) = Ok dd /\
    f_lt f_zero (f_add (f_max w dd) d) = true /\
    to_int d = Ok (ji_duration i) /\ to_int (f_max w dd) = Ok (ji_start i) /\
    nth_error (jn_priority st) (it_agent x) = Some (ji_priority i) /\
    ji_task i = tk_name t /\ ji_agent i = ag_name a /\
    st' = {| jn_work := set_nth (jn_work st) (it_agent x) (f_add (f_max w dd) d);
             jn_done := set_nth (jn_done st) (it_task x) (f_add (f_max w dd) d);
             jn_priority := set_nth (jn_priority st) (it_agent x) (S (ji_priority i)) |}.
Proof.
  intros p st x st' i E. unfold json_step in E.
  apply bind_ok in E. destruct E as (old & _ & E). ok_step E. ok_step E. ok_step E.
  apply bind_ok in E. destruct E as (t & Et & E). apply bind_ok in E. destruct E as (a & Ea & E).
  apply bind_ok in E. destruct E as (d & Ed & E). apply bind_ok in E. destruct E as (w & Ew & E).
  apply bind_ok in E. destruct E as (dd & Edd & E). cbv zeta in E.
  destruct (f_lt f_zero (f_add (f_max w dd) d)) eqn:X2; [|discriminate E]. cbn [expects bind] in E.
  apply bind_ok in E. destruct E as (di & Edi & E). apply bind_ok in E. destruct E as (si & Esi & E).
  apply bind_ok in E. destruct E as (n & En & E).
  exists t, a, d, w, dd.
  assert (Q : st' = {| jn_work := set_nth (jn_work st) (it_agent x) (f_add (f_max w dd) d);
             jn_done := set_nth (jn_done st) (it_task x) (f_add (f_max w dd) d);
             jn_priority := set_nth (jn_priority st) (it_agent x) (S n) |} /\
    i = {| ji_task := tk_name t; ji_agent := ag_name a; ji_priority := n; ji_duration := di; ji_start := si |})
    by (split; congruence).
  destruct Q as [-> ->]. cbn [ji_task ji_agent ji_priority ji_duration ji_start].
  split; [apply at_index_inv, Et|]. split; [apply at_index_inv, Ea|]. split; [exact Ed|].
  split; [apply at_index_inv, Ew|]. split; [exact Edd|]. split; [exact X2|]. split; [exact Edi|].
  split; [exact Esi|]. split; [apply at_index_inv, En|]. auto.
Qed.

(** The items of the result follow the items of the schedule. *)
Fixpoint follows (Q : list item -> item -> json_item -> Prop) (pre rest : list item)
  (items : list json_item) : Prop :=
  match rest, items with
  | [], [] => True
  | x :: rest', i :: items' => Q pre x i /\ follows Q (pre ++ [x]) rest' items'
  | _, _ => False
  end.

Lemma follows_length : forall Q rest pre items, follows Q pre rest items -> length items = length rest.
Proof.
  intros Q. induction rest as [|x rest IH]; intros pre [|i items] H; cbn in H; try tauto; cbn [length].
  f_equal. apply (IH _ _ (proj2 H)).
Qed.

Lemma follows_at : forall Q a pre x b items, follows Q pre (a ++ x :: b) items ->
  exists i, nth_error items (length a) = Some i /\ Q (pre ++ a) x i.
Proof.
  intros Q. induction a as [|y a IH]; intros pre x b [|i items] H; cbn [app follows] in H; try tauto.
  - exists i. rewrite app_nil_r. split; [reflexivity|apply H].
  - destruct H as [_ H]. destruct (IH _ _ _ _ H) as (j & E & J). exists j. cbn [length nth_error].
    rewrite <- app_assoc in J. auto.
Qed.

(** ** C59 *)

Definition lists (p : project) (pre : list item) (x : item) (i : json_item) : Prop :=
  (exists t, nth_error (pr_tasks p) (it_task x) = Some t /\ ji_task i = tk_name t) /\
  (exists a, nth_error (pr_agents p) (it_agent x) = Some a /\ ji_agent i = ag_name a) /\
  ji_priority i = tasks_of (it_agent x) pre.

Lemma nth_error_set_nth : forall A (l : list A) i j a, i < length l ->
  nth_error (set_nth l i a) j = if j =? i then Some a else nth_error l j.
Proof.
  intros A l. induction l as [|x l IH]; intros i j a H; cbn [length] in H; [lia|].
  destruct i as [|i]; destruct j as [|j]; cbn [set_nth nth_error Nat.eqb]; try reflexivity.
  apply IH. lia.
Qed.

Lemma tasks_of_snoc : forall a pre x,
  tasks_of a (pre ++ [x]) = tasks_of a pre + (if it_agent x =? a then 1 else 0).
Proof.
  intros a pre x. unfold tasks_of. rewrite filter_app, app_length. cbn [filter].
  destruct (it_agent x =? a); reflexivity.
Qed.

Lemma json_lists : forall p rest pre st items,
  (forall a n, nth_error (jn_priority st) a = Some n -> n = tasks_of a pre) ->
  json_loop p st rest = Ok items -> follows (lists p) pre rest items.
Proof.
  intros p. induction rest as [|x rest IH]; intros pre st items I E; cbn [json_loop] in E.
  - injection E as <-. exact Logic.I.
  - apply bind_ok in E. destruct E as ([st' i] & E1 & E). cbn [fst snd] in E.
    apply bind_ok in E. destruct E as (items' & E2 & E). injection E as <-.
    destruct (json_step_inv p st x st' i E1)
      as (t & a & d & w & dd & Et & Ea & _ & _ & _ & _ & _ & _ & En & Ti & Ai & ->).
    cbn [follows]. split.
    + split; [eauto|]. split; [eauto|]. apply I, En.
    + eapply IH; [|exact E2]. cbn [jn_priority]. intros b n Hn.
      assert (L : it_agent x < length (jn_priority st)) by (apply nth_error_Some; congruence).
      rewrite nth_error_set_nth in Hn by exact L. rewrite tasks_of_snoc.
      destruct (Nat.eqb_spec b (it_agent x)) as [->|N].
      * injection Hn as <-. rewrite Nat.eqb_refl, (I _ _ En). lia.
      * destruct (Nat.eqb_spec (it_agent x) b); [congruence|]. rewrite (I _ _ Hn). lia.
Qed.

(** What an accepted call does. *)
Lemma schedule_json_inv : forall p s ms j, schedule_json p s ms = Ok j ->
  jr_makespan j = ms /\ (0 < ms)%Z /\ 0 < length (pr_tasks p) /\ 0 < length (pr_agents p) /\
  json_loop p {| jn_work := repeat f_zero (length (pr_agents p));
                 jn_done := repeat f_zero (length (pr_tasks p));
                 jn_priority := repeat 0 (length (pr_agents p)) |} s = Ok (jr_tasks j).
Proof.
  intros p s ms j E. unfold schedule_json, json_start in E.
  destruct (Nat.eqb_spec (length (pr_tasks p)) 0); [discriminate|].
  destruct (Nat.eqb_spec (length (pr_agents p)) 0); [discriminate|]. cbn [negb expects bind] in E.
  apply bind_ok in E. destruct E as (items & E1 & E).
  destruct (negb _); [|discriminate]. cbn [expects bind] in E.
  destruct (Z.ltb_spec 0 ms); [|discriminate]. cbn [expects bind] in E. injection E as <-.
  cbn [jr_makespan jr_tasks]. repeat split; auto; lia.
Qed.

Lemma nth_repeat_error : forall A (a b : A) n i, nth_error (repeat a n) i = Some b -> b = a.
Proof. intros A a b n i H. apply nth_error_In, repeat_spec in H. exact H. Qed.

Lemma json_follows : forall p s ms j, schedule_json p s ms = Ok j -> follows (lists p) [] s (jr_tasks j).
Proof.
  intros p s ms j E. destruct (schedule_json_inv p s ms j E) as (_ & _ & _ & _ & L).
  eapply json_lists; [|exact L]. cbn [jn_priority]. intros a n H.
  apply nth_repeat_error in H. exact H.
Qed.

(** The agent of an item goes with the item of the result. *)
Lemma follows_priorities : forall p a rest pre items, follows (lists p) pre rest items ->
  map (fun xi => ji_priority (snd xi)) (filter (fun xi => it_agent (fst xi) =? a) (combine rest items))
  = seq (tasks_of a pre) (tasks_of a rest).
Proof.
  intros p a. induction rest as [|x rest IH]; intros pre [|i items] H; cbn [follows] in H; try tauto.
  destruct H as [(_ & _ & P) H]. cbn [combine filter fst]. specialize (IH _ _ H).
  rewrite tasks_of_snoc in IH.
  unfold tasks_of at 2. cbn [filter].
  destruct (Nat.eqb_spec (it_agent x) a) as [<-|N].
  - cbn [map snd length seq]. rewrite P. f_equal. rewrite IH. f_equal. lia.
  - rewrite IH. f_equal. lia.
Qed.

Lemma follows_names : forall p rest pre items, follows (lists p) pre rest items ->
  Forall2 (fun x n => exists t, nth_error (pr_tasks p) (it_task x) = Some t /\ n = tk_name t)
    rest (map ji_task items).
Proof.
  intros p. induction rest as [|x rest IH]; intros pre [|i items] H; cbn [follows] in H; try tauto;
    cbn [map]; constructor.
  - apply H.
  - apply (IH _ _ (proj2 H)).
Qed.

Lemma map_nth_seq : forall A (l : list A) d, map (fun k => nth k l d) (seq 0 (length l)) = l.
Proof.
  intros A l d. induction l as [|a l IH]; [reflexivity|]. cbn [length seq map nth].
  rewrite <- seq_shift, map_map. cbn [nth]. rewrite IH. reflexivity.
Qed.

(** C59: the array "tasks" has one object per item of the schedule, in
    the order of the schedule, with the names of the item's task and
    agent; an object's priority is the number of earlier objects of the
    same agent. *)
Theorem json_in_order : forall pr s ms j, schedule_json pr s ms = Ok j ->
  length (jr_tasks j) = length s /\ jr_makespan j = ms /\
  forall pre x post, s = pre ++ x :: post ->
  exists i, nth_error (jr_tasks j) (length pre) = Some i /\
    (exists t, nth_error (pr_tasks pr) (it_task x) = Some t /\ ji_task i = tk_name t) /\
    (exists a, nth_error (pr_agents pr) (it_agent x) = Some a /\ ji_agent i = ag_name a) /\
    ji_priority i = tasks_of (it_agent x) pre.
Proof.
  intros pr s ms j E. pose proof (json_follows pr s ms j E) as F.
  split; [apply (follows_length _ _ _ _ F)|]. split; [apply (schedule_json_inv pr s ms j E)|].
  intros pre x post ->. destruct (follows_at _ _ _ _ _ _ F) as (i & A & B). exists i.
  split; [exact A|exact B].
Qed.
Print Assumptions json_in_order.

(** C59: every task appears exactly once and the priorities of each
    agent's tasks are 0, 1, 2, ... *)
Theorem json_complete : forall pr p s ms j,
  to_schedule_params pr = Ok p -> problem p -> valid_schedule p s -> schedule_json pr s ms = Ok j ->
  Permutation (map ji_task (jr_tasks j)) (map tk_name (pr_tasks pr)) /\
  forall a, map (fun xi => ji_priority (snd xi))
              (filter (fun xi => it_agent (fst xi) =? a) (combine s (jr_tasks j)))
            = seq 0 (tasks_of a s).
Proof.
  intros pr p s ms j HE HP V E. pose proof (json_follows pr s ms j E) as F. split.
  - destruct (params_shape pr p HE HP) as (_ & _ & L & _).
    pose proof (vs_complete p s V) as C. unfold task_count in C. rewrite L in C.
    apply (Permutation_map (fun k => nth k (map tk_name (pr_tasks pr)) ""%string)) in C.
    rewrite <- (map_length tk_name), map_nth_seq in C.
    apply follows_names in F.
    assert (N : forall rest names, Forall2 (fun x n => exists t, nth_error (pr_tasks pr) (it_task x) = Some t /\ n = tk_name t)
        rest names -> names = map (fun k => nth k (map tk_name (pr_tasks pr)) ""%string) (map it_task rest)).
    { intros rest names G. induction G as [|x n rest names (t & H & ->) G IH]; [reflexivity|].
      cbn [map]. rewrite <- IH. f_equal. symmetry. apply nth_error_nth.
      rewrite nth_error_map, H. reflexivity. }
    rewrite (N _ _ F). exact C.
  - intro a. rewrite (follows_priorities pr a s [] _ F). reflexivity.
Qed.
Print Assumptions json_complete.

(** ** C60 *)

Lemma to_int_whole : forall m z, nn m -> to_int m = Ok z -> whole_seconds m z /\ (0 <= z < 2 ^ 31)%Z.
Proof.
  intros m z N E. unfold to_int in E. destruct (f_trunc m) as [q|] eqn:T; [|discriminate].
  ok_step E. injection E as ->. apply andb_true_iff in X. destruct X as [_ X]. apply Z.ltb_lt in X.
  assert (R : to_rep m = Ok z \/ (z < - 2 ^ 63)%Z).
  { unfold to_rep. rewrite T. destruct (Z.leb_spec (- 2 ^ 63) z); [|right; lia].
    destruct (Z.ltb_spec z (2 ^ 63)); [left; reflexivity|lia]. }
  destruct R as [R|R].
  - destruct (to_rep_whole m z N R) as [W B]. split; [exact W|lia].
  - exfalso. unfold f_trunc in T. destruct (is_finite m) eqn:F; [|discriminate]. injection T as <-.
    assert (P : (0 <= B2R m)%R) by (rewrite <- val_finite by exact F; apply nn_val, N).
    assert (H : Btrunc m = Zfloor (B2R m)).
    { apply eq_IZR. rewrite Btrunc_correct by exact f32_prec_lt_emax. rewrite round_FIX_IZR.
      f_equal. apply Ztrunc_floor, P. }
    assert (0 <= Zfloor (B2R m))%Z by (apply Zfloor_lub; exact P). lia.
Qed.

Lemma whole_to_int : forall m z, nn m -> whole_seconds m z -> (z < 2 ^ 31)%Z -> to_int m = Ok z.
Proof.
  intros m z N W H. pose proof (whole_to_rep m z N W) as R. unfold to_rep, to_int in *.
  destruct (f_trunc m) as [q|]; [|discriminate R; lia].
  destruct ((- 2 ^ 63 <=? q) && (q <? 2 ^ 63))%Z eqn:X; [|discriminate R; lia].
  assert (q = z) by (cbn [expects bind] in R; assert (Ok q = Ok z) by (apply R; lia); congruence).
  subst q. destruct W as [F [_ W]].
  assert (P : (0 <= B2R m)%R) by (rewrite <- val_finite by exact F; apply nn_val, N).
  assert (0 < z + 1)%Z by (apply lt_IZR; lra).
  destruct (Z.leb_spec (- 2 ^ 31) z); [|lia]. destruct (Z.ltb_spec z (2 ^ 31)); [reflexivity|lia].
Qed.

Lemma whole_exists : forall m : f32, is_finite m = true -> exists z, whole_seconds m z.
Proof.
  intros m F. exists (Zfloor (B2R m)). split; [exact F|]. split; [apply Zfloor_lb|].
  rewrite plus_IZR. apply Zfloor_ub.
Qed.

Lemma whole_mono : forall (a b : f32) x y, whole_seconds a x -> whole_seconds b y -> f_le a b = true ->
  (x <= y)%Z.
Proof.
  intros a b x y [Fa [A1 A2]] [Fb [B1 B2]] L. apply fin_le in L; [|exact Fa|exact Fb].
  assert (x < y + 1)%Z by (apply lt_IZR; lra). lia.
Qed.

(** Times are zero or positive (never -0), so the order of arguments of
    the maximum does not matter. *)
Definition clean (x : f32) : Prop := x = f_zero \/ pos x.

Lemma clean_nn : forall x, clean x -> nn x.
Proof. intros x [->|H]; [apply nn_zero|apply pos_nn, H]. Qed.

Lemma clean_inj : forall x y, clean x -> clean y -> key x = key y -> x = y.
Proof.
  intros x y Hx Hy E.
  destruct Hx as [->|[Nx Kx]]; destruct Hy as [->|[Ny Ky]]; rewrite ?key_zero in *; try lia; [reflexivity|].
  destruct (num_cases x (pos_nn x (conj Nx Kx))) as [Fx|Ex];
    destruct (num_cases y (pos_nn y (conj Ny Ky))) as [Fy|Ey].
  - apply key_inj_pos; assumption.
  - subst y. pose proof (key_finite_lt x Fx). cbn [key] in E. lia.
  - subst x. pose proof (key_finite_lt y Fy). cbn [key] in E. lia.
  - congruence.
Qed.

Lemma max_clean : forall x y, clean x -> clean y -> clean (f_max x y) /\ f_max x y = f_max y x.
Proof.
  intros x y Hx Hy. pose proof (clean_nn x Hx) as Nx. pose proof (clean_nn y Hy) as Ny.
  destruct (max_nn x y Nx Ny) as (_ & K1 & C1). destruct (max_nn y x Ny Nx) as (_ & K2 & C2).
  assert (A : clean (f_max x y)) by (destruct C1 as [-> | ->]; assumption).
  assert (B : clean (f_max y x)) by (destruct C2 as [-> | ->]; assumption).
  split; [exact A|]. apply clean_inj; [exact A|exact B|]. lia.
Qed.

Section Times.
Context (pr : project) (p0 : params) (HE : to_schedule_params pr = Ok p0) (HP : problem p0).
Context (PB : positive_bounds pr) (MP : moderate_performance pr).

Let P := in_seconds pr p0.

Lemma averages : Forall2 (fun a q => perf_average (ag_perf a) = Ok q /\ f_lt f_zero q = true /\
    is_finite q = true) (pr_agents pr) (sp_perf p0).
Proof.
  destruct (params_Ok pr p0 HE) as (_ & _ & _ & A & _). unfold agent_performance in A.
  ok_step A. apply map_outcome_forall2 in A. destruct PB as [PA _]. clear - A PA MP. unfold moderate_performance in MP.
  induction A as [|a q l l' H A IH]; [constructor|].
  inversion PA as [|? ? [P1 P2] PA']; subst. inversion MP as [|? ? [M1 M2] MP']; subst.
  constructor; [|apply IH; assumption]. split; [exact H|].
  destruct (perf_average_spec (ag_perf a) P1 P2 M2 M1) as (b & E & F & B1 & _).
  assert (b = q) by congruence. subst b. split; [|exact F].
  assert (F1 : is_finite (perf_min (ag_perf a)) = true).
  { destruct (num_cases (perf_min (ag_perf a))) as [G|G]; [apply pos_nn, pos_iff, P1|exact G|].
    exfalso. rewrite G in P2. destruct (perf_max (ag_perf a)) as [s|s| |s m e B]; try discriminate;
      destruct s; discriminate. }
  apply fin_lt; [reflexivity|exact F|]. change (B2R f_zero) with 0%R.
  apply fin_lt in P1; [|reflexivity|exact F1]. change (B2R f_zero) with 0%R in P1. lra.
Qed.

Lemma seconds_sane :
  Forall (fun x : f32 => f_lt f_zero x = true /\ is_finite x = true)
    (map (fun t => f_of_Z (mean t)) (pr_tasks pr)).
Proof.
  apply Forall_map, Forall_forall. intros t Ht. destruct PB as [_ D].
  destruct (of_Z_near (mean t) (mean_range t (D t Ht))) as (A & B & _).
  split; [apply pos_iff, A|exact B].
Qed.

Lemma averages_pos : Forall (fun x : f32 => f_lt f_zero x = true) (sp_perf p0).
Proof.
  pose proof averages as A. clear - A. induction A as [|a q l l' (_ & H & _) A IH]; constructor; auto.
Qed.

Lemma in_seconds_ok : problem P /\ sane_numbers P /\ (forall l, valid_schedule p0 l -> valid_schedule P l).
Proof.
  destruct (params_shape pr p0 HE HP) as (_ & LA & LT & _).
  assert (LD : length (map (fun t => f_of_Z (mean t)) (pr_tasks pr)) = length (pr_tasks pr)) by apply map_length.
  split; [|split].
  - apply (under_problem pr p0 HP LA LT); [exact LA|exact LD].
  - apply (under_sane p0); [apply averages_pos|apply seconds_sane].
  - intros l. apply (under_valid pr p0 LT); exact LD.
Qed.

Lemma task_time_json : forall t a k i, nth_error (pr_tasks pr) k = Some t ->
  nth_error (pr_agents pr) i = Some a -> json_task_duration t a = Ok (work_time P k i) /\
  clean (work_time P k i) /\ f_lt f_zero (work_time P k i) = true.
Proof.
  intros t a k i Et Ea. unfold json_task_duration.
  destruct PB as [_ D]. specialize (D t (nth_error_In _ _ Et)).
  rewrite duration_average_ok by lia. cbn [bind]. pose proof (mean_range t D) as MR.
  destruct (Z.ltb_spec 0 (mean t)); [|lia]. cbn [expects bind].
  assert (Q : exists q, nth_error (sp_perf p0) i = Some q /\ perf_average (ag_perf a) = Ok q /\
      f_lt f_zero q = true /\ is_finite q = true).
  { pose proof averages as A. clear - A Ea. revert i Ea. induction A as [|b q l l' H A IH]; intros [|i] Ea;
      cbn [nth_error] in *; try discriminate; eauto.
    injection Ea as ->. exists q. auto. }
  destruct Q as (q & Eq & E & L & F). rewrite E. cbn [bind]. rewrite L. cbn [expects bind].
  assert (W : work_time P k i = f_div (f_of_Z (mean t)) q).
  { unfold work_time, P, in_seconds. cbn [under sp_dur sp_perf]. f_equal.
    - apply nth_error_nth. rewrite nth_error_map, Et. reflexivity.
    - apply nth_error_nth, Eq. }
  rewrite W. split; [reflexivity|].
  destruct (of_Z_near (mean t) MR) as (A & B & _ & V & _).
  destruct (div_finite (f_of_Z (mean t)) q (pos_nn _ A) B) as [N W']; [apply pos_iff, L|exact F|].
  assert (K : pos (f_div (f_of_Z (mean t)) q)).
  { split; [apply N|]. rewrite <- key_zero. apply val_lt_key. rewrite W'.
    assert (Z0 : val f_zero = 0%R) by (unfold val; rewrite key_zero; ring). rewrite Z0.
    pose proof (pos_val q (proj2 (pos_iff q) L)) as Pq.
    pose proof (val_abs_le q) as Bq. apply Rabs_le_inv in Bq.
    assert (R : (bpow radix2 (-128) <= val (f_of_Z (mean t)) / val q)%R).
    { unfold Rdiv. apply Rle_trans with (1 * / val q)%R.
      - rewrite Rmult_1_l. change (-128)%Z with (- (128))%Z. rewrite bpow_opp.
        apply Rinv_le_contravar; [exact Pq|apply Bq].
      - apply Rmult_le_compat_r; [left; apply Rinv_0_lt_compat, Pq|exact V]. }
    apply Rlt_le_trans with (clamp (bpow radix2 (-128))).
    - unfold clamp. apply Rmin_glb_lt; apply bpow_gt_0.
    - apply clamp_le. rewrite <- (rnd_bpow (-128)) by lia. apply rnd_le, R. }
  split; [right; exact K|apply pos_iff, K].
Qed.

Definition timed (tl : timeline) (pre : list item) (x : item) (i : json_item) : Prop :=
  to_int (tl_start tl (it_task x)) = Ok (ji_start i) /\
  to_int (work_time P (it_task x) (it_agent x)) = Ok (ji_duration i).

(** The state of the loop and the state of the makespan evaluator. *)
Record JInv (pre : list item) (st : json_state) (ms : makespan_state) (tl : timeline) : Prop := {
  jv_linv : LInv P pre ms tl;
  jv_work : jn_work st = mk_work ms;
  jv_done : jn_done st = mk_task ms;
  jv_cwork : Forall clean (jn_work st);
  jv_cdone : Forall clean (jn_done st);
  jv_prio : length (jn_priority st) = length (pr_agents pr);
  jv_new : forall t, ~ In t (map it_task pre) -> nth t (jn_done st) f_zero = f_zero
}.

Lemma clean_set_nth : forall l i a, Forall clean l -> clean a -> Forall clean (set_nth l i a).
Proof.
  intros l. induction l as [|x l IH]; intros i a H Ha; [constructor|].
  inversion H; subst. destruct i; cbn; constructor; auto.
Qed.

Lemma json_deps_ok : forall ms k t dd, nth_error (pr_tasks pr) k = Some t ->
  0 < length (mk_task ms) ->
  dependencies_done P (mk_task ms) k = Ok dd -> Forall clean (mk_task ms) ->
  json_dependencies_done (mk_task ms) (tk_deps t) = Ok dd /\ clean dd.
Proof.
  intros ms k t dd Et L E C. unfold dependencies_done in E. ok_step E.
  destruct (params_shape pr p0 HE HP) as (D & _).
  unfold P, in_seconds in E. cbn [under sp_deps] in E. unfold row in E. rewrite D in E.
  rewrite (at_index_Ok _ (map tk_deps (pr_tasks pr)) k (tk_deps t)) in E by (rewrite nth_error_map, Et; reflexivity).
  cbn [bind] in E. unfold json_dependencies_done.
  destruct (Nat.eqb_spec (length (mk_task ms)) 0); [lia|]. cbn [negb expects bind]. split; [exact E|].
  destruct (tk_deps t) as [|d deps]; [injection E as <-; left; reflexivity|].
  apply bind_ok in E. destruct E as (ends & E1 & E). injection E as <-.
  apply map_outcome_forall2 in E1.
  assert (CE : Forall clean ends).
  { clear - E1 C. induction E1 as [|i e l l' H A IH]; constructor; [|exact IH].
    apply at_index_inv, nth_error_In in H. rewrite Forall_forall in C. apply C, H. }
  assert (NE : ends <> []) by (inversion E1; discriminate).
  destruct (max_list_nn f_zero ends NE) as (_ & I & _).
  { eapply Forall_impl; [|exact CE]. apply clean_nn. }
  rewrite Forall_forall in CE. apply CE, I.
Qed.

(** One step, when the integers fit. *)
Lemma json_step_ok : forall pre x rest st ms tl, JInv pre st ms tl ->
  valid_schedule P (pre ++ x :: rest) ->
  exists ms' tl' w dd, 
    JInv (pre ++ [x])
      {| jn_work := set_nth (jn_work st) (it_agent x) (tl_finish tl' (it_task x));
         jn_done := set_nth (jn_done st) (it_task x) (tl_finish tl' (it_task x));
         jn_priority := set_nth (jn_priority st) (it_agent x) (S (nth (it_agent x) (jn_priority st) 0)) |}
      ms' tl' /\
    (forall y, In y pre -> tl_start tl' (it_task y) = tl_start tl (it_task y)) /\
    tl_start tl' (it_task x) = f_max w dd /\
    tl_finish tl' (it_task x) = f_add (f_max w dd) (work_time P (it_task x) (it_agent x)) /\
    nth_error (jn_work st) (it_agent x) = Some w /\
    (forall t, nth_error (pr_tasks pr) (it_task x) = Some t ->
       json_dependencies_done (jn_done st) (tk_deps t) = Ok dd) /\
    nth_error (jn_done st) (it_task x) = Some f_zero /\
    it_agent x < length (pr_agents pr) /\ it_task x < length (pr_tasks pr) /\
    f_lt f_zero (tl_finish tl' (it_task x)) = true.
Proof.
  intros pre x rest st ms tl [I W D CW CD LPr NW] V.
  destruct in_seconds_ok as (HP' & HN' & _).
  assert (Hin : In x (pre ++ x :: rest)) by (apply in_or_app; right; left; reflexivity).
  pose proof (valid_range P _ _ V Hin) as RT.
  pose proof (pb_agents_range P HP' _ _ (vs_agents P _ V x Hin)) as RA.
  assert (Fresh : ~ In (it_task x) (map it_task pre)).
  { pose proof (valid_nodup P _ V) as ND. rewrite map_app in ND. cbn [map] in ND.
    apply NoDup_remove_2 in ND. intro H. apply ND. apply in_or_app. left. exact H. }
  destruct (params_shape pr p0 HE HP) as (_ & LA & LT & TP).
  assert (RT' : it_task x < length (pr_tasks pr)).
  { unfold task_count, P, in_seconds in RT. cbn [under sp_dur] in RT. rewrite map_length in RT. exact RT. }
  assert (RA' : it_agent x < length (pr_agents pr)).
  { unfold P, in_seconds in RA. cbn [under sp_perf] in RA. lia. }
  destruct (step_ok P HP' HN' pre x ms tl I RT RA Fresh (vs_order P _ V pre x rest eq_refl))
    as (ms' & tl' & E & I' & Old & dd & Edd & St).
  assert (LT0 : length (mk_task ms) = length (pr_tasks pr)).
  { rewrite (li_tl _ _ _ _ I). unfold P, in_seconds. cbn [under sp_dur]. apply map_length. }
  assert (LW0 : length (mk_work ms) = length (pr_agents pr)).
  { rewrite (li_wl _ _ _ _ I). unfold P, in_seconds. cbn [under sp_perf]. exact LA. }
  destruct (nth_error_lt _ (pr_tasks pr) _ RT') as [t Et].
  destruct (nth_error_lt _ (pr_agents pr) _ RA') as [a Ea].
  destruct (json_deps_ok ms (it_task x) t dd Et) as [Jd Cd]; [lia|exact Edd|rewrite <- D; exact CD|].
  destruct (task_time_json t a _ _ Et Ea) as (_ & _ & Pw).
  set (w := nth (it_agent x) (mk_work ms) f_zero) in *.
  assert (Cw : clean w).
  { rewrite Forall_forall in CW. apply CW. rewrite W. apply nth_In. lia. }
  destruct (max_clean w dd Cw Cd) as [Cs Com].
  unfold makespan_step in E. rewrite Edd in E. cbn [bind] in E.
  rewrite (at_index_nth _ (mk_work ms) (it_agent x) f_zero) in E by lia. fold w in E. cbn [bind] in E.
  rewrite (task_time_ok P) in E by assumption. cbn [bind] in E. cbv zeta in E.
  rewrite (at_index_nth _ (mk_task ms) (it_task x) f_zero) in E by lia. cbn [bind] in E.
  injection E as <-. rewrite <- Com in *.
  assert (Fin : tl_finish tl' (it_task x) = f_add (f_max w dd) (work_time P (it_task x) (it_agent x))).
  { destruct (li_greedy _ _ _ _ I' pre x [] eq_refl) as (G & _). rewrite G, St. reflexivity. }
  assert (Pf : pos (tl_finish tl' (it_task x))).
  { rewrite Fin. pose proof (proj2 (pos_iff _) Pw) as Pw'.
    destruct (add_nn (f_max w dd) _ (clean_nn _ Cs) (pos_nn _ Pw')) as [N _].
    split; [apply N|]. pose proof (add_ge_r (f_max w dd) _ (clean_nn _ Cs) (pos_nn _ Pw')) as G.
    destruct Pw' as [_ K]. lia. }
  exists {| mk_task := set_nth (mk_task ms) (it_task x) (tl_finish tl' (it_task x));
            mk_work := set_nth (mk_work ms) (it_agent x) (tl_finish tl' (it_task x)) |}, tl', w, dd.
  split.
  - split; cbn [jn_work jn_done jn_priority mk_work mk_task].
    + rewrite Fin. exact I'.
    + rewrite W. reflexivity.
    + rewrite D. reflexivity.
    + apply clean_set_nth; [exact CW|right; exact Pf].
    + apply clean_set_nth; [exact CD|right; exact Pf].
    + rewrite set_nth_length. exact LPr.
    + intros k Hk. rewrite map_app in Hk. cbn [map] in Hk.
      rewrite nth_set_nth by (rewrite D; lia). destruct (Nat.eqb_spec k (it_task x)) as [->|N].
      * exfalso. apply Hk. apply in_or_app. right. left. reflexivity.
      * apply NW. intro H. apply Hk. apply in_or_app. left. exact H.
  - split; [intros y Hy; apply (Old y Hy)|]. split; [exact St|]. split; [exact Fin|].
    split; [rewrite W; apply nth_error_nth_lt; lia|].
    split; [intros t' Et'; rewrite Et in Et'; injection Et' as <-; rewrite D; exact Jd|].
    split; [rewrite <- (NW _ Fresh); apply nth_error_nth_lt; rewrite D; lia|].
    split; [exact RA'|]. split; [exact RT'|]. apply pos_iff, Pf.
Qed.

Lemma follows_impl : forall (Q Q' : list item -> item -> json_item -> Prop) rest pre items,
  (forall a x i, In x rest -> Q a x i -> Q' a x i) -> follows Q pre rest items -> follows Q' pre rest items.
Proof.
  intros Q Q'. induction rest as [|x rest IH]; intros pre [|i items] H F; cbn [follows] in *; try tauto.
  destruct F as [F1 F2]. split; [apply H; [left; reflexivity|exact F1]|].
  apply IH; [|exact F2]. intros a y j Hy. apply H. right. exact Hy.
Qed.

(** The loop: the timeline found describes the items of the result. *)
Lemma json_loop_timed : forall rest pre st ms tl items, JInv pre st ms tl ->
  valid_schedule P (pre ++ rest) -> json_loop pr st rest = Ok items ->
  exists tl', greedy_timeline P (pre ++ rest) tl' /\
    (forall y, In y pre -> tl_start tl' (it_task y) = tl_start tl (it_task y)) /\
    follows (timed tl') pre rest items.
Proof.
  induction rest as [|x rest IH]; intros pre st ms tl items J V E; cbn [json_loop] in E.
  - injection E as <-. exists tl. rewrite app_nil_r. split; [apply (li_greedy _ _ _ _ (jv_linv _ _ _ _ J))|].
    split; [reflexivity|exact Logic.I].
  - apply bind_ok in E. destruct E as ([st' i] & E1 & E). cbn [fst snd] in E.
    apply bind_ok in E. destruct E as (items' & E2 & E). injection E as <-.
    destruct (json_step_inv pr st x st' i E1)
      as (t & a & d & w & dd & Et & Ea & Ed & Ew & Edd & _ & Di & Si & En & _ & _ & ->).
    destruct (json_step_ok pre x rest st ms tl J V)
      as (ms' & tl1 & w' & dd' & J' & Old & S1 & F1 & Ew' & Edd' & _ & RA & _).
    assert (w' = w) by congruence. specialize (Edd' t Et). assert (dd' = dd) by congruence. subst w' dd'.
    destruct (task_time_json t a _ _ Et Ea) as (Tt & _). assert (d = work_time P (it_task x) (it_agent x)) by congruence.
    subst d. rewrite <- F1 in E2. rewrite (nth_error_nth (jn_priority st) (it_agent x) 0 En) in J'.
    destruct (IH (pre ++ [x]) _ ms' tl1 items' J') as (tl2 & G & A & B).
    + rewrite <- app_assoc. exact V.
    + exact E2.
    + exists tl2. rewrite <- app_assoc in G. split; [exact G|]. split.
      * intros y Hy. rewrite A by (apply in_or_app; left; exact Hy). apply Old, Hy.
      * cbn [follows]. split; [|exact B]. split; [|exact Di].
        rewrite A by (apply in_or_app; right; left; reflexivity). rewrite S1. exact Si.
Qed.

Lemma json_start_inv : JInv []
  {| jn_work := repeat f_zero (length (pr_agents pr)); jn_done := repeat f_zero (length (pr_tasks pr));
     jn_priority := repeat 0 (length (pr_agents pr)) |}
  {| mk_task := repeat f_zero (length (sp_dur P)); mk_work := repeat f_zero (length (sp_perf P)) |}
  {| tl_start := fun _ => f_zero; tl_finish := fun _ => f_zero |}.
Proof.
  destruct (params_shape pr p0 HE HP) as (_ & LA & LT & TP).
  split; cbn [jn_work jn_done jn_priority mk_task mk_work].
  - apply linv_start.
  - unfold P, in_seconds. cbn [under sp_perf]. rewrite LA. reflexivity.
  - unfold P, in_seconds. cbn [under sp_dur]. rewrite map_length. reflexivity.
  - apply Forall_forall. intros y Hy. left. apply repeat_spec in Hy. exact Hy.
  - apply Forall_forall. intros y Hy. left. apply repeat_spec in Hy. exact Hy.
  - apply repeat_length.
  - intros t _. destruct (Nat.lt_ge_cases t (length (pr_tasks pr))) as [L|L].
    + apply nth_repeat.
    + apply nth_overflow. rewrite repeat_length. exact L.
Qed.

Definition fits (x : f32) : Prop := exists z, to_int x = Ok z.

(** Without assuming that the loop succeeds: it does if all times fit. *)
Lemma json_loop_total : forall rest pre st ms tl, JInv pre st ms tl -> valid_schedule P (pre ++ rest) ->
  exists tl', greedy_timeline P (pre ++ rest) tl' /\
    (forall y, In y pre -> tl_start tl' (it_task y) = tl_start tl (it_task y)) /\
    ((forall y, In y rest -> fits (tl_start tl' (it_task y)) /\ fits (work_time P (it_task y) (it_agent y))) ->
     exists items, json_loop pr st rest = Ok items /\ length items = length rest).
Proof.
  induction rest as [|x rest IH]; intros pre st ms tl J V.
  - exists tl. rewrite app_nil_r. split; [apply (li_greedy _ _ _ _ (jv_linv _ _ _ _ J))|].
    split; [reflexivity|]. intros _. exists []. auto.
  - destruct (json_step_ok pre x rest st ms tl J V)
      as (ms' & tl1 & w & dd & J' & Old & S1 & F1 & Ew & Edd & E0 & RA & RT & Pf).
    destruct (IH (pre ++ [x]) _ ms' tl1 J') as (tl2 & G & A & B).
    { rewrite <- app_assoc. exact V. }
    exists tl2. rewrite <- app_assoc in G. split; [exact G|]. split.
    + intros y Hy. rewrite A by (apply in_or_app; left; exact Hy). apply Old, Hy.
    + intro H. destruct (H x (or_introl eq_refl)) as [[zs Hs] [zd Hd]].
      rewrite A in Hs by (apply in_or_app; right; left; reflexivity). rewrite S1 in Hs.
      destruct (nth_error_lt _ (pr_tasks pr) _ RT) as [t Et].
      destruct (nth_error_lt _ (pr_agents pr) _ RA) as [a Ea].
      destruct (task_time_json t a _ _ Et Ea) as (Tt & _ & _).
      destruct B as (items & Ei & Li); [intros y Hy; apply H; right; exact Hy|].
      assert (Ep : nth_error (jn_priority st) (it_agent x) = Some (nth (it_agent x) (jn_priority st) 0)).
      { apply nth_error_nth_lt. rewrite (jv_prio _ _ _ _ J). exact RA. }
      cbn [json_loop]. unfold json_step.
      rewrite (at_index_Ok _ _ _ _ E0). cbn [bind]. change (f_eq f_zero f_zero) with true. cbn [expects bind].
      rewrite (proj2 (Nat.ltb_lt _ _) RA), (proj2 (Nat.ltb_lt _ _) RT). cbn [expects bind].
      rewrite (at_index_Ok _ _ _ _ Et), (at_index_Ok _ _ _ _ Ea). cbn [bind]. rewrite Tt. cbn [bind].
      rewrite (at_index_Ok _ _ _ _ Ew). cbn [bind]. rewrite (Edd t Et). cbn [bind]. cbv zeta.
      rewrite <- F1, Pf. cbn [expects bind]. rewrite Hd. cbn [bind]. rewrite Hs. cbn [bind].
      rewrite (at_index_Ok _ _ _ _ Ep). cbn [bind fst snd]. rewrite Ei. cbn [bind].
      eexists. split; [reflexivity|]. cbn [length]. congruence.
Qed.

Lemma times_nn : forall s tl x, valid_schedule P s -> greedy_timeline P s tl -> In x s ->
  nn (tl_start tl (it_task x)) /\ nn (work_time P (it_task x) (it_agent x)) /\
  tl_finish tl (it_task x) = f_add (tl_start tl (it_task x)) (work_time P (it_task x) (it_agent x)).
Proof.
  intros s tl x V G Hx. destruct in_seconds_ok as (HP' & HN' & _).
  destruct (in_split x s Hx) as (pre & post & E). destruct (G pre x post E) as (A & B & _).
  split; [apply nn_iff, B|]. split; [|exact A].
  apply work_time_nn; [exact HN'|apply (valid_range P _ _ V Hx)|].
  apply (pb_agents_range P HP' (it_task x)). apply (vs_agents P _ V x Hx).
Qed.

Lemma below_fits : forall a b, nn a -> (key a <= key b)%Z -> f_lt b (f_of_Z (2 ^ 31)) = true -> fits a.
Proof.
  intros a b Na K L. assert (Nb : nn b).
  { destruct (lt_num _ _ L) as [N _]. split; [exact N|]. destruct Na as [_ Ka]. lia. }
  assert (F31 : is_finite (f_of_Z (2 ^ 31)) = true) by (vm_compute; reflexivity).
  assert (V31 : B2R (f_of_Z (2 ^ 31)) = IZR (2 ^ 31)).
  { rewrite <- val_finite by exact F31. destruct (of_Z_spec (2 ^ 31)) as [_ ->]; [lia|].
    change (IZR (2 ^ 31)) with (bpow radix2 31). rewrite rnd_bpow by lia.
    unfold clamp. apply Rmin_left. apply bpow_le. lia. }
  rewrite lt_key in L; [|apply Nb|apply finite_num, F31]. apply Z.ltb_lt in L.
  assert (Fa : is_finite a = true).
  { destruct (num_cases a Na) as [F|E]; [exact F|]. subst a.
    pose proof (key_finite_lt _ F31). cbn [key] in K. lia. }
  destruct (whole_exists a Fa) as [z W]. exists z. apply whole_to_int; [exact Na|exact W|].
  assert (V : (val a < val (f_of_Z (2 ^ 31)))%R) by (apply val_lt_key; lia).
  rewrite !val_finite in V by assumption. rewrite V31 in V. destruct W as [_ [W _]].
  apply lt_IZR. lra.
Qed.
End Times.

(** C60: there is a greedy timeline, in seconds, of the schedule such that
    every object of the array "tasks" reports the whole seconds of the
    start and of the duration of its task; the tasks that must precede it
    (dependencies, earlier tasks of the agent) finish, in whole seconds,
    not after the reported start. *)
Theorem json_times : forall pr p s ms j,
  to_schedule_params pr = Ok p -> problem p -> positive_bounds pr -> moderate_performance pr ->
  valid_schedule p s -> schedule_json pr s ms = Ok j ->
  let P := in_seconds pr p in
  exists tl, greedy_timeline P s tl /\
  forall pre x post, s = pre ++ x :: post ->
  exists i, nth_error (jr_tasks j) (length pre) = Some i /\
    whole_seconds (tl_start tl (it_task x)) (ji_start i) /\
    whole_seconds (work_time P (it_task x) (it_agent x)) (ji_duration i) /\
    (0 <= ji_start i < 2 ^ 31)%Z /\ (0 <= ji_duration i < 2 ^ 31)%Z /\
    forall y, must_precede P pre x y ->
      exists z, whole_seconds (tl_finish tl (it_task y)) z /\ (z <= ji_start i)%Z.
Proof.
  intros pr p s ms j HE HP PB MP V E P.
  destruct (schedule_json_inv pr s ms j E) as (_ & _ & _ & _ & L).
  destruct (in_seconds_ok pr p HE HP PB MP) as (HP' & HN' & HV').
  pose proof (HV' s V) as V'. fold P in HP', HN', V'.
  destruct (json_loop_timed pr p HE HP PB MP s [] _ _ _ _ (json_start_inv pr p HE HP) V' L)
    as (tl & G & _ & F). cbn [app] in G. fold P in G.
  exists tl. split; [exact G|]. intros pre x post Es.
  assert (Hx : In x s) by (rewrite Es; apply in_or_app; right; left; reflexivity).
  rewrite Es in F. destruct (follows_at _ _ _ _ _ _ F) as (i & Ei & S1 & D1).
  destruct (times_nn pr p HE HP PB MP s tl x V' G Hx) as (Ns & Nd & _). fold P in Nd.
  destruct (to_int_whole _ _ Ns S1) as [W1 B1]. fold P in D1. destruct (to_int_whole _ _ Nd D1) as [W2 B2].
  exists i. split; [exact Ei|]. split; [exact W1|]. split; [exact W2|]. split; [exact B1|]. split; [exact B2|].
  intros y Hy. destruct (G pre x post Es) as (_ & _ & M & _). specialize (M y Hy).
  assert (Hy' : In y s) by (rewrite Es; apply in_or_app; left; apply Hy).
  destruct (times_nn pr p HE HP PB MP s tl y V' G Hy') as (Nsy & Ndy & Fy). fold P in Ndy, Fy.
  assert (Nf : nn (tl_finish tl (it_task y))).
  { rewrite Fy. apply (add_nn _ _ Nsy Ndy). }
  assert (Ff : is_finite (tl_finish tl (it_task y)) = true).
  { destruct (num_cases _ Nf) as [Q|Q]; [exact Q|]. rewrite Q in M.
    rewrite le_key in M; [|reflexivity|apply Ns]. apply Z.leb_le in M.
    pose proof (key_finite_lt _ (proj1 W1)). cbn [key] in M. lia. }
  destruct (whole_exists _ Ff) as [z Wz]. exists z. split; [exact Wz|].
  apply (whole_mono _ _ _ _ Wz W1 M).
Qed.
Print Assumptions json_times.

(** C60: the call succeeds when all tasks finish before 2^31 seconds and
    the reported makespan is at least one second. *)
Theorem json_total : forall pr p s ms,
  to_schedule_params pr = Ok p -> problem p -> positive_bounds pr -> moderate_performance pr ->
  valid_schedule p s -> (0 < ms)%Z ->
  (forall tl, greedy_timeline (in_seconds pr p) s tl -> forall x, In x s ->
     f_lt (tl_finish tl (it_task x)) (f_of_Z (2 ^ 31)) = true) ->
  exists j, schedule_json pr s ms = Ok j.
Proof.
  intros pr p s ms HE HP PB MP V M H.
  destruct (in_seconds_ok pr p HE HP PB MP) as (HP' & HN' & HV'). pose proof (HV' s V) as V'.
  destruct (json_loop_total pr p HE HP PB MP s [] _ _ _ (json_start_inv pr p HE HP) V') as (tl & G & _ & T).
  cbn [app] in G. specialize (H tl G). destruct T as (items & E & L).
  { intros y Hy. destruct (times_nn pr p HE HP PB MP s tl y V' G Hy) as (Ns & Nd & F).
    specialize (H y Hy). rewrite F in H.
    split; eapply below_fits; try exact H; try assumption; [apply add_ge_l|apply add_ge_r]; assumption. }
  destruct (params_Ok pr p HE) as (NA & NT & _).
  unfold schedule_json, json_start.
  rewrite (nonempty_neg _ (pr_tasks pr)) by (destruct (pr_tasks pr); [congruence|cbn; lia]).
  rewrite (nonempty_neg _ (pr_agents pr)) by (destruct (pr_agents pr); [congruence|cbn; lia]).
  cbn [expects bind]. rewrite E. cbn [bind].
  assert (0 < length items).
  { rewrite L. pose proof (vs_complete p s V) as C. apply Permutation_length in C.
    rewrite map_length, seq_length in C. pose proof (pb_tasks p HP). lia. }
  rewrite (nonempty_neg _ items) by assumption. destruct (Z.ltb_spec 0 ms); [|lia]. cbn [expects bind].
  eauto.
Qed.
Print Assumptions json_total.

(** ** C61 *)

Lemma json_bins_inv : forall l r, Forall (fun b => (0 < b_count b)%Z) l -> json_bins l = Ok r ->
  r = map (fun b => (b_low b, b_count b)) l.
Proof.
  induction l as [|b l IH]; intros r F E; cbn [json_bins] in E; [injection E as <-; reflexivity|].
  inversion F as [|? ? F1 F2]; subst. destruct (Z.eqb_spec (b_count b) 0); [lia|].
  unfold int_cast in E. destruct ((- 2 ^ 31 <=? b_low b) && (b_low b <? 2 ^ 31))%Z; [|discriminate].
  cbn [expects bind] in E. destruct ((- 2 ^ 31 <=? b_count b) && (b_count b <? 2 ^ 31))%Z; [|discriminate].
  cbn [expects bind] in E. apply bind_ok in E. destruct E as (rest & E1 & E). injection E as <-.
  cbn [map]. rewrite <- (IH rest F2 E1). reflexivity.
Qed.

Lemma json_bins_total : forall l,
  Forall (fun b => (0 <= b_low b < 2 ^ 31 /\ 0 <= b_count b < 2 ^ 31)%Z) l -> exists r, json_bins l = Ok r.
Proof.
  induction l as [|b l IH]; intro F; cbn [json_bins]; [eauto|].
  inversion F as [|? ? [F1 F2] F3]; subst. destruct (IH F3) as [r E]. rewrite E.
  destruct (b_count b =? 0)%Z; [eauto|]. unfold int_cast.
  destruct (Z.leb_spec (- 2 ^ 31) (b_low b)); [|lia]. destruct (Z.ltb_spec (b_low b) (2 ^ 31)); [|lia].
  cbn [andb expects bind].
  destruct (Z.leb_spec (- 2 ^ 31) (b_count b)); [|lia]. destruct (Z.ltb_spec (b_count b) (2 ^ 31)); [|lia].
  cbn [andb expects bind]. eauto.
Qed.

(** C61: the histogram of any values; [used bs ops h] says that [h] was
    made with bin size [bs] by the calls [ops].  The bins are listed in
    increasing order; [(low, count)] is listed exactly if [low] is a
    multiple of the bin size and [count] values, at least one, lie between
    [low] and [low] plus the bin size; the counts add up to the number of
    values. *)
Theorem histogram_json_exact : forall bs ops h j, used bs ops h -> histogram_json h = Ok j ->
  jh_bin_size j = bs /\
  StronglySorted (fun a b => (fst a < fst b)%Z) (jh_bins j) /\
  (forall low count, In (low, count) (jh_bins j) <->
     (exists k, 0 <= k /\ low = k * bs)%Z /\ (0 < count)%Z /\
     count = how_many (fun v => (low <=? v)%Z && (v <? low + bs)%Z) (values_of ops)) /\
  fold_right Z.add 0%Z (map snd (jh_bins j)) = Z.of_nat (length (values_of ops)).
Proof.
  intros bs ops h j U E. unfold histogram_json in E. ok_step E.
  destruct (histogram_counts bs ops h U) as (bins & I & C1 & C2 & C3).
  destruct (histogram_iteration bs ops h U) as (bins' & I' & S1 & F & _).
  assert (bins' = bins) by congruence. subst bins'. rewrite I in E. cbn [bind] in E.
  apply bind_ok in E. destruct E as (r & E1 & E). apply bind_ok in E. destruct E as (size & E2 & E).
  injection E as <-. cbn [jh_bin_size jh_bins].
  apply json_bins_inv in E1; [|eapply Forall_impl; [|exact F]; cbn; tauto]. subst r.
  destruct (used_holds bs ops h U) as (B & Eb & _).
  split; [|split; [|split]].
  - unfold int_cast in E2. ok_step E2. injection E2 as <-. exact Eb.
  - clear - S1. induction S1 as [|b l S1 IH Fa]; cbn [map]; constructor; [exact IH|].
    apply Forall_map. cbn [fst]. exact Fa.
  - intros low count. split.
    + intro H. apply in_map_iff in H. destruct H as (b & Q & Hb). injection Q as <- <-.
      rewrite Forall_forall in F. destruct (F b Hb) as (F1 & _). destruct (C1 b Hb) as (N & K).
      split; [exact K|]. split; [exact F1|exact N].
    + intros ((k & K0 & ->) & P & N).
      assert (X1 : exists v, In v (values_of ops) /\ (k * bs <= v < k * bs + bs)%Z).
      { unfold how_many in N. destruct (filter _ (values_of ops)) as [|v vs] eqn:Q; [cbn in N; lia|].
        assert (Hv : In v (filter (fun v => (k * bs <=? v)%Z && (v <? k * bs + bs)%Z) (values_of ops)))
          by (rewrite Q; left; reflexivity).
        apply filter_In in Hv. destruct Hv as [H1 H2]. apply andb_true_iff in H2.
        rewrite Z.leb_le, Z.ltb_lt in H2. eauto. }
      destruct X1 as (v & Hv & Rv). destruct (C2 v Hv) as (b & (Hb & Lb) & _).
      destruct (C1 b Hb) as (Nb & k' & K0' & Kb). rewrite Forall_forall in F. destruct (F b Hb) as (_ & Hh & _).
      unfold lies_in in Lb. rewrite Hh, Kb in Lb. assert (k' = k) by nia. subst k'.
      apply in_map_iff. exists b. split; [|exact Hb]. rewrite Kb, N, Nb, Kb. reflexivity.
  - rewrite map_map. cbn [snd]. exact C3.
Qed.
Print Assumptions histogram_json_exact.

(** C61: the call succeeds for a non-empty histogram whose numbers fit an
    int. *)
Theorem histogram_json_total : forall bs ops h, used bs ops h -> values_of ops <> [] ->
  (bs < 2 ^ 31)%Z -> (Z.of_nat (length (values_of ops)) < 2 ^ 31)%Z ->
  (forall v, In v (values_of ops) -> v < 2 ^ 31)%Z -> exists j, histogram_json h = Ok j.
Proof.
  intros bs ops h U NE B1 B2 B3.
  destruct (histogram_counts bs ops h U) as (bins & I & C1 & C2 & C3).
  destruct (histogram_iteration bs ops h U) as (bins' & I' & S1 & F & Hs & _ & He & _).
  assert (bins' = bins) by congruence. subst bins'.
  destruct (used_holds bs ops h U) as (B & Eb & _).
  assert (NB : bins <> []).
  { intros ->. destruct (values_of ops); [congruence|]. cbn in C3. lia. }
  unfold histogram_json. destruct (Nat.leb_spec 1 (hist_size h)) as [_|L];
    [|rewrite Hs in L; destruct bins; [congruence|cbn in L; lia]].
  cbn [expects bind]. rewrite I. cbn [bind].
  destruct (json_bins_total bins) as [r E].
  { apply Forall_forall. intros b Hb. destruct (C1 b Hb) as (N & k & K0 & Kb).
    rewrite Forall_forall in F. destruct (F b Hb) as (F1 & _).
    assert (X1 : exists v, In v (values_of ops) /\ (b_low b <= v)%Z).
    { unfold how_many in N. destruct (filter _ (values_of ops)) as [|v vs] eqn:Q; [cbn in N; lia|].
      assert (Hv : In v (filter (fun v => (b_low b <=? v)%Z && (v <? b_low b + bs)%Z) (values_of ops)))
        by (rewrite Q; left; reflexivity).
      apply filter_In in Hv. destruct Hv as [H1 H2]. apply andb_true_iff in H2.
      rewrite Z.leb_le in H2. exists v. tauto. }
    destruct X1 as (v & Hv & Lv). specialize (B3 v Hv). split; [nia|].
    assert (M : (how_many (fun v => (b_low b <=? v)%Z && (v <? b_low b + bs)%Z) (values_of ops)
                 <= Z.of_nat (length (values_of ops)))%Z).
    { unfold how_many. apply inj_le. clear. induction (values_of ops) as [|x l IH]; cbn [filter length]; [lia|].
      destruct (_ && _); cbn [length]; lia. }
    lia. }
  rewrite E. cbn [bind]. unfold int_cast. rewrite Eb.
  destruct (Z.leb_spec (- 2 ^ 31) bs); [|lia]. destruct (Z.ltb_spec bs (2 ^ 31)); [|lia].
  cbn [andb expects bind]. eauto.
Qed.
Print Assumptions histogram_json_total.

(** ** Concrete results *)

Definition ex_plan : list item := [Item 2 0; Item 1 1; Item 0 1].

Definition ex_json : json_result := {| jr_makespan := 3640; jr_tasks :=
  [{| ji_task := "z"; ji_agent := "Bob"; ji_priority := 0; ji_duration := 0; ji_start := 0 |};
   {| ji_task := "y"; ji_agent := "Jack"; ji_priority := 0; ji_duration := 40; ji_start := 0 |};
   {| ji_task := "x"; ji_agent := "Jack"; ji_priority := 1; ji_duration := 3600; ji_start := 40 |}]%string |}.

Example ex_json_ok : schedule_json ex_project ex_plan 3640 = Ok ex_json.
Proof. vm_compute. reflexivity. Qed.

Lemma ex_moderate : moderate_performance ex_project.
Proof.
  assert (M : is_finite (perf_max ex_perf) = true /\ (B2R (perf_max ex_perf) < bpow radix2 127)%R).
  { destruct two_pos as (_ & F & V). cbn [perf_max ex_perf]. split; [exact F|].
    rewrite <- val_finite by exact F. rewrite V. change 2%R with (bpow radix2 1). apply bpow_lt. lia. }
  constructor; [exact M|]. constructor; [exact M|constructor].
Qed.

Example ex_json_order : forall pre x post, ex_plan = pre ++ x :: post ->
  exists i, nth_error (jr_tasks ex_json) (length pre) = Some i /\
    (exists t, nth_error (pr_tasks ex_project) (it_task x) = Some t /\ ji_task i = tk_name t) /\
    (exists a, nth_error (pr_agents ex_project) (it_agent x) = Some a /\ ji_agent i = ag_name a) /\
    ji_priority i = tasks_of (it_agent x) pre.
Proof. apply (json_in_order ex_project ex_plan 3640 ex_json ex_json_ok). Qed.

Example ex_json_complete : Permutation (map ji_task (jr_tasks ex_json)) ["x"; "y"; "z"]%string /\
  map (fun xi => ji_priority (snd xi))
    (filter (fun xi => it_agent (fst xi) =? 1) (combine ex_plan (jr_tasks ex_json))) = [0; 1].
Proof.
  destruct (json_complete ex_project ex_params ex_plan 3640 ex_json ex_params_ok ex_problem
    (ex_valid 0 (or_introl eq_refl)) ex_json_ok) as [A B].
  split; [exact A|exact (B 1)].
Qed.

Example ex_json_times : exists tl, greedy_timeline (in_seconds ex_project ex_params) ex_plan tl /\
  whole_seconds (tl_start tl 0) 40.
Proof.
  destruct (json_times ex_project ex_params ex_plan 3640 ex_json ex_params_ok ex_problem ex_positive_bounds
    ex_moderate (ex_valid 0 (or_introl eq_refl)) ex_json_ok) as (tl & G & H).
  exists tl. split; [exact G|].
  destruct (H [Item 2 0; Item 1 1] (Item 0 1) [] eq_refl) as (i & E & W & _).
  injection E as <-. exact W.
Qed.

Example ex_json_hist : histogram_json ex_hist = Ok {| jh_bin_size := 40;
  jh_bins := [(0, 1); (40, 4); (80, 2); (200, 1)]%Z |}.
Proof. reflexivity. Qed.

Example ex_json_hist_sum :
  fold_right Z.add 0%Z (map snd [(0, 1); (40, 4); (80, 2); (200, 1)]%Z) = Z.of_nat (length (values_of ex_ops)).
Proof. apply (histogram_json_exact 40 ex_ops ex_hist _ ex_used ex_json_hist). Qed.

Example ex_json_hist_total : exists j, histogram_json ex_hist = Ok j.
Proof.
  apply (histogram_json_total 40 ex_ops ex_hist ex_used); [discriminate|reflexivity|reflexivity|].
  intros v Hv. vm_compute in Hv. repeat destruct Hv as [<-|Hv]; try reflexivity. destruct Hv.
Qed.

Example ex_json_total : exists j, schedule_json ex_project ex_plan 7 = Ok j.
Proof.
  pose proof (ex_valid 0 (or_introl eq_refl)) as V.
  destruct (in_seconds_ok ex_project ex_params ex_params_ok ex_problem ex_positive_bounds ex_moderate)
    as (HP & HN & HV).
  apply (json_total ex_project ex_params); auto using ex_params_ok, ex_problem, ex_positive_bounds, ex_moderate; [lia|].
  intros tl G x Hx.
  destruct (makespan_is_timeline_length _ ex_plan HP HN (HV _ V)) as (m & E & _ & _ & L).
  destruct (L tl G) as [L1 _]. specialize (L1 x Hx).
  assert (B : f_lt (result_or f_zero (makespan (in_seconds ex_project ex_params) ex_plan)) (f_of_Z (2 ^ 31)) = true)
    by (vm_compute; reflexivity).
  rewrite E in B. cbn [result_or] in B.
  destruct (le_num _ _ L1) as [N1 N2]. destruct (lt_num _ _ B) as [_ N3].
  rewrite lt_key in B |- * by assumption. rewrite le_key in L1 by assumption.
  apply Z.leb_le in L1. apply Z.ltb_lt in B. apply Z.ltb_lt. lia.
Qed.

(** A finding: the reported makespan is truncated to whole seconds, so it
    is 0 for a one second task done by an agent of performance 2; then the
    postcondition [makespan.count() > 0] of cli/schedule.cpp:162 is
    violated, although the project and the schedule are valid. *)
Definition ex_fast : project := {|
  pr_groups := [];
  pr_agents := [{| ag_id := 0; ag_name := "Bob"; ag_groups := [];
                   ag_perf := {| perf_min := f_of_Z 2; perf_max := f_of_Z 2 |} |}];
  pr_tasks := [{| tk_name := "x"; tk_id := ""; tk_groups := []; tk_agent := None;
                  tk_deps := []; tk_min := 1; tk_max := 1 |}] |}%string.

Theorem json_total_refuted : exists pr p s z,
  to_schedule_params pr = Ok p /\ problem p /\ positive_bounds pr /\ moderate_performance pr /\
  valid_schedule p s /\ (m <- makespan p s ;; to_rep (f_mul m (sp_mult p))) = Ok z /\
  schedule_json pr s z = Broken.
Proof.
  exists ex_fast, (result_or ex_params (to_schedule_params ex_fast)), [Item 0 0], 0%Z.
  set (p := result_or ex_params (to_schedule_params ex_fast)).
  assert (E : to_schedule_params ex_fast = Ok p) by (apply result_or_ok; vm_compute; reflexivity).
  assert (Ea : sp_agents p = [[0]]) by (vm_compute; reflexivity).
  assert (Ed : sp_deps p = [[]]) by (vm_compute; reflexivity).
  assert (Et : task_count p = 1) by (vm_compute; reflexivity).
  assert (Ep : length (sp_perf p) = 1) by (vm_compute; reflexivity).
  assert (ND : forall t d, ~ depends p t d).
  { intros t d (r & R1 & R2). rewrite Ed in R1. destruct t as [|[|t]]; cbn in R1; try discriminate.
    injection R1 as <-. destruct R2. }
  assert (AL : forall t a, allowed p t a -> t = 0 /\ a = 0).
  { intros t a (r & R1 & R2). rewrite Ea in R1. destruct t as [|[|t]]; cbn in R1; try discriminate.
    injection R1 as <-. destruct R2 as [<-|[]]. auto. }
  split; [exact E|]. split.
  { split; rewrite ?Ea, ?Ed, ?Et, ?Ep; try lia; try reflexivity.
    - intros t d H. destruct (ND t d H).
    - repeat constructor.
    - intros t Ht. exists 0. exists [0]. rewrite Ea. assert (t = 0) by lia. subst t.
      split; [reflexivity|left; reflexivity].
    - intros t a H. destruct (AL t a H). lia.
    - intros t H. assert (N : forall a b, clos_trans nat (depends p) a b -> False).
      { clear - ND. intros a b H. induction H as [a b H|]; [apply (ND a b H)|assumption]. }
      apply (N t t H). }
  split. { split; [repeat constructor; vm_compute; reflexivity|]. intros t [<-|[]]; cbn; lia. }
  split.
  { constructor; [|constructor]. destruct two_pos as (_ & F & V). cbn [perf_max ag_perf]. split; [exact F|].
    rewrite <- val_finite by exact F. rewrite V. change 2%R with (bpow radix2 1). apply bpow_lt. lia. }
  split.
  { split.
    - rewrite Et. apply Permutation_refl.
    - intros pre x post _ d H. destruct (ND _ _ H).
    - intros x [<-|[]]. exists [0]. rewrite Ea. split; [reflexivity|left; reflexivity]. }
  split; vm_compute; reflexivity.
Qed.
Print Assumptions json_total_refuted.
