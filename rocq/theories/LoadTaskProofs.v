(** * Proofs about the loader: tasks *)

From Coq Require Import String List Bool Arith ZArith Ascii Lia Sorted.
From Verif Require Import Base F32 ProjectModel YamlModel ValidationModel DurationModel DurationSpec DurationProofs
  DurationProps DocumentSpec ValidationProofs ScheduleSpec LoadModel LoadSpec LoadProofs.
Import ListNotations.
Local Open Scope string_scope.
Local Open Scope nat_scope.

(** ** Durations *)

Lemma duration_text_spec : forall task text z, duration_text task text = Loads z -> denotes text z.
Proof.
  intros task text z H. unfold duration_text in H.
  destruct (DurationModel.parse_duration (list_ascii_of_string text)) as [x| |] eqn:P; try discriminate H.
  injection H as ->. split; [exact (duration_accepted_only_phrases _ _ P)|].
  intros ph OK T FIT. rewrite <- T in P. split.
  - rewrite (duration_value_charged ph OK FIT) in P. congruence.
  - intro SEP. rewrite (duration_value_partial ph OK FIT SEP) in P. congruence.
Qed.

Lemma field_Map : forall y n v, field y n v -> exists l, y = Map l.
Proof. intros y n v (l & -> & _). eauto. Qed.

Lemma range_text : forall v n s, is_range v -> get_text v n = Loads s ->
  (n = "min" \/ n = "max") -> text_field v n s.
Proof.
  intros v n s R H D. unfold get_text in H. step H o. destruct o as [w|]; [|discriminate H].
  injection H as <-. apply get_field in E. destruct R as [(x & ->)|(K & (a & A & (sa & ->)) & (b & B & (sb & ->)))].
  - destruct E as (l & X & _). discriminate X.
  - assert (W : exists t, w = Scalar t).
    { pose proof (has_keys_unique _ _ _ _ K E) as E'. destruct D as [-> | ->].
      - pose proof (has_keys_unique _ _ _ _ K A). exists sa. congruence.
      - pose proof (has_keys_unique _ _ _ _ K B). exists sb. congruence. }
    destruct W as (t & ->). exact E.
Qed.

Lemma parse_duration_spec : forall y name v z1 z2, field y "duration" v -> is_range v ->
  parse_task_duration name (Some v) = Loads (z1, z2) ->
  (exists lo hi, duration_texts y lo hi /\ denotes lo z1 /\ denotes hi z2) /\ (z1 <= z2)%Z.
Proof.
  intros y name v z1 z2 F R H. unfold parse_task_duration in H. step H zz. destruct zz as [lo hi].
  destruct (Z.ltb_spec hi lo) as [L|L]; [discriminate H|]. injection H as <- <-. split; [|exact L].
  assert (MM : next (get_text v "min") (fun s => next (duration_text name s) (fun lo =>
      next (get_text v "max") (fun s => next (duration_text name s) (fun hi => Loads (lo, hi))))) = Loads (lo, hi) ->
    exists a b, duration_texts y a b /\ denotes a lo /\ denotes b hi).
  { intro M. step M s1. step M x1. step M s2. step M x2. injection M as -> ->.
    apply range_text in E0; [|exact R|auto]. apply range_text in E2; [|exact R|auto].
    apply duration_text_spec in E1, E3. exists s1, s2. split; [|auto]. right. exists v. auto. }
  destruct v as [|s|l|l]; try (exact (MM E)).
  step E x. injection E as <- <-. apply duration_text_spec in E0. exists s, s. split; [|auto]. left. auto.
Qed.

(** ** Groups *)

Definition has_universal (agents : list agent) : Prop := exists a, In a agents /\ ag_groups a = [].

Lemma universal_agents_spec : forall p, universal_agents p = Loads true -> has_universal (pr_agents p).
Proof.
  intros p H. unfold universal_agents, has_universal_agents in H. destruct (pr_agents p) as [|a l]; [discriminate H|].
  set (L := a :: l) in *. clearbody L. injection H as H. apply existsb_exists in H. destruct H as (x & I & U).
  exists x. split; [exact I|]. unfold is_universal in U. destruct (ag_groups x); [reflexivity|discriminate U].
Qed.

Lemma parse_task_group_spec : forall p ids done s p' ids',
  parse_task_group (p, ids) (Scalar s) = Loads (p', ids') -> resolves (pr_groups p) ids done ->
  pr_agents p' = pr_agents p /\ pr_tasks p' = pr_tasks p /\ pr_groups p' = add_new (pr_groups p) s /\
  resolves (pr_groups p') ids' (done ++ [s]) /\ s <> "" /\
  (has_universal (pr_agents p) \/ pr_groups p' = pr_groups p).
Proof.
  intros p ids done s p' ids' H R. unfold parse_task_group in H. cbn [scalar_of] in H. skip H. clear E.
  step H r. destruct r as [[groups i] ins]. apply find_group_spec in E. destruct E as (NE & G & N & OLD & _).
  step H un. destruct un; cbn [negb] in H; [|discriminate H]. injection H as <- <-.
  cbn [pr_agents pr_tasks pr_groups]. split; [reflexivity|]. split; [reflexivity|]. split; [exact G|].
  split; [apply resolves_more with (pr_groups p); assumption|]. split; [exact NE|].
  destruct ins.
  - left. apply universal_agents_spec in E. exact E.
  - right. rewrite G. unfold add_new. specialize (OLD eq_refl). apply existsb_In in OLD. rewrite OLD. reflexivity.
Qed.

Lemma parse_task_groups_spec : forall names p ids done p' ids',
  each parse_task_group (p, ids) (map Scalar names) = Loads (p', ids') -> resolves (pr_groups p) ids done ->
  pr_agents p' = pr_agents p /\ pr_tasks p' = pr_tasks p /\ pr_groups p' = add_all names (pr_groups p) /\
  resolves (pr_groups p') ids' (done ++ names) /\ ~ In "" names /\
  (has_universal (pr_agents p) \/ pr_groups p' = pr_groups p).
Proof.
  induction names as [|s names IH]; intros p ids done p' ids' H R; cbn [map each] in H.
  - injection H as <- <-. rewrite app_nil_r. do 2 (split; [reflexivity|]). split; [reflexivity|].
    split; [exact R|]. split; [intros []|right; reflexivity].
  - step H r. destruct r as [p1 ids1].
    destruct (parse_task_group_spec p ids done s p1 ids1 E R) as (A & T & G & R1 & NE & U).
    destruct (IH p1 ids1 (done ++ [s])%list p' ids' H R1) as (A' & T' & G' & R' & NI & U').
    split; [congruence|]. split; [congruence|]. split; [unfold add_all in *; cbn [fold_left]; rewrite <- G; exact G'|].
    rewrite <- app_assoc in R'. split; [exact R'|]. split; [intros [X|X]; [congruence|auto]|].
    rewrite A in U'. destruct U as [U|U]; [auto|]. destruct U' as [U'|U']; [auto|]. right. congruence.
Qed.

Lemma resolves_nil : forall t, resolves t [] [].
Proof. intro t. split; [constructor|]. split; [intros i []|intros g []]. Qed.

Lemma parse_assignment_spec : forall n name p p' ids ag, own_shape n ->
  (forall i a, nth_error (pr_agents p) i = Some a -> ag_id a = i) ->
  parse_groups_and_agents n name p = Loads (p', ids, ag) ->
  pr_agents p' = pr_agents p /\ pr_tasks p' = pr_tasks p /\
  (exists names, task_groups n names /\ resolves (pr_groups p') ids names /\ ~ In "" names /\
     pr_groups p' = add_all names (pr_groups p)) /\
  (has_universal (pr_agents p) \/ pr_groups p' = pr_groups p) /\
  match ag with
  | None => absent n "agent"
  | Some i => exists a, nth_error (pr_agents p) i = Some a /\ text_field n "agent" (ag_name a)
  end /\
  one_assignment n.
Proof.
  intros n name p p' ids ag (K & SG & SGS & SA & _) IDS H. unfold parse_groups_and_agents in H. skip H. clear E.
  step H g. step H gs. step H a.
  destruct g as [g|], gs as [gs|], a as [a|]; cbn [count_defined filter length Nat.ltb Nat.leb] in H; try discriminate H.
  - apply get_field in E. apply get_absent in E0, E1. destruct (SG g E) as (s & ->).
    step H r. destruct r as [q i]. injection H as <- <- <-.
    apply (parse_task_group_spec p [] [] s q i) in E2; [|apply resolves_nil].
    destruct E2 as (A & T & G & R & NE & U). split; [exact A|]. split; [exact T|]. split.
    + exists [s]. split; [left; exists s; auto|]. split; [exact R|]. split; [intros [X|[]]; congruence|exact G].
    + split; [exact U|]. split; [exact E1|]. right. right. auto.
  - apply get_field in E0. apply get_absent in E, E1. destruct (texts_items gs (SGS gs E0)) as (names & ->).
    step H r. destruct r as [q i]. injection H as <- <- <-. unfold parse_task_groups in E2. cbn [items_of] in E2.
    apply (parse_task_groups_spec names p [] [] q i) in E2; [|apply resolves_nil].
    destruct E2 as (A & T & G & R & NE & U). split; [exact A|]. split; [exact T|]. split.
    + exists names. split; [right; left; auto|]. split; [exact R|]. split; [exact NE|exact G].
    + split; [exact U|]. split; [exact E1|]. right. left. auto.
  - apply get_field in E1. apply get_absent in E, E0. step H i. injection H as <- <- <-.
    split; [reflexivity|]. split; [reflexivity|]. split.
    + exists []. split; [right; right; auto|]. split; [apply resolves_nil|]. split; [intros []|reflexivity].
    + split; [right; reflexivity|]. split; [|left; auto].
      unfold parse_task_agent in E2. skip E2. destruct a as [|s|l|l]; try discriminate E2.
      destruct (is_empty s) eqn:M; [discriminate E2|]. unfold find_agent_index in E2. skip E2. skip E2.
      destruct (position s (map ag_name (pr_agents p))) as [k|] eqn:P; [|discriminate E2].
      destruct (nth_error (pr_agents p) k) as [b|] eqn:B; [|discriminate E2]. injection E2 as <-.
      rewrite (IDS k b B). exists b. split; [exact B|]. apply position_Some in P.
      rewrite nth_error_map, B in P. cbn in P. injection P as ->. exact E1.
  - apply get_absent in E, E0, E1. injection H as <- <- <-. split; [reflexivity|]. split; [reflexivity|]. split.
    + exists []. split; [right; right; auto|]. split; [apply resolves_nil|]. split; [intros []|reflexivity].
    + split; [right; reflexivity|]. split; [exact E1|left; auto].
Qed.

(** ** Dependencies by name *)

Definition depends_ok (e : yaml * list nat) (l : list string) : Prop := depends_on (fst e) l /\ Forall (fun s => s <> "") l.

Lemma validate_task_id_Loads : forall i name x, validate_task_id i name = Loads x -> x = i /\ i <> "".
Proof.
  intros i name x H. unfold validate_task_id in H. destruct (is_empty i) eqn:M; [discriminate H|].
  injection H as <-. split; [reflexivity|]. apply is_empty_false. rewrite M. reflexivity.
Qed.

Lemma dependency_ids : forall l name done r,
  each (fun ids d => do i <- validate_task_id (scalar_of d) name ; Loads (ids ++ [i])%list) done (map Scalar l) = Loads r ->
  r = (done ++ l)%list /\ Forall (fun s => s <> "") l.
Proof.
  induction l as [|s l IH]; intros name done r H; cbn [map each] in H.
  - injection H as <-. rewrite app_nil_r. auto.
  - step H d1. step E i. injection E as <-. cbn [scalar_of] in E0. apply validate_task_id_Loads in E0. destruct E0 as [-> N].
    apply IH in H. destruct H as [-> F]. rewrite <- app_assoc. auto.
Qed.

Lemma parse_dependencies_spec : forall n v name l kids, field n "depends_on" v -> (is_text v \/ is_texts v) ->
  parse_dependencies v name = Loads l -> depends_ok (n, kids) l.
Proof.
  intros n v name l kids F D H. unfold parse_dependencies in H. step H r. skip H. injection H as <-.
  destruct D as [(s & ->)|D].
  - step E i. injection E as <-. apply validate_task_id_Loads in E1. destruct E1 as [-> N].
    split; [left; exists s; auto|]. constructor; auto.
  - destruct (texts_items v D) as (names & ->). apply dependency_ids in E. destruct E as [-> N].
    split; [right; left; exact F|exact N].
Qed.

(** ** Unique ids *)

Definition ids_ok (l : list string) : Prop :=
  forall i j s, nth_error l i = Some s -> nth_error l j = Some s -> s <> "" -> i = j.

Lemma ids_ok_snoc : forall l s, ids_ok l -> (s = "" \/ ~ In s l) -> ids_ok (l ++ [s]).
Proof.
  intros l s H D.
  assert (P : forall i x, nth_error (l ++ [s]) i = Some x -> nth_error l i = Some x \/ i = length l /\ x = s).
  { intros i x N. destruct (Nat.lt_ge_cases i (length l)) as [L|L].
    - rewrite nth_error_app1 in N by exact L. auto.
    - rewrite nth_error_app2 in N by exact L. destruct (i - length l) as [|k] eqn:K.
      + cbn in N. right. split; [lia|congruence].
      + cbn in N. destruct k; discriminate N. }
  intros i j x A B NE. apply P in A, B. destruct A as [A|[-> ->]], B as [B|[-> B]].
  - exact (H i j x A B NE).
  - subst x. destruct D as [D|D]; [contradiction|]. destruct D. exact (nth_error_In _ _ A).
  - destruct D as [D|D]; [contradiction|]. destruct D. exact (nth_error_In _ _ B).
  - reflexivity.
Qed.

(** ** One task *)

Definition kids_ok (t : task) (e : yaml * list nat) : Prop :=
  index_set (tk_deps t) /\ forall j, In j (tk_deps t) <-> In j (snd e).

Definition filled (agents : list agent) (table : list string) (t : task) (e : yaml * list nat) : Prop :=
  task_mirrors agents table t e /\ kids_ok t e.

Record grown (b b' : building) (new : list task) (es : list (yaml * list nat)) : Prop := {
  gr_agents : pr_agents (bd_project b') = pr_agents (bd_project b);
  gr_groups : exists names, Forall2 (fun e g => task_groups (fst e) g) es names /\
    pr_groups (bd_project b') = add_all (concat names) (pr_groups (bd_project b));
  gr_deps : exists nd, Forall2 depends_ok es nd /\ bd_deps b' = (bd_deps b ++ nd)%list;
  gr_filled : Forall2 (filled (pr_agents (bd_project b)) (pr_groups (bd_project b'))) new es;
  gr_fresh : has_universal (pr_agents (bd_project b)) \/ pr_groups (bd_project b') = pr_groups (bd_project b)
}.

Lemma task_mirrors_prefix : forall agents t r k e, task_mirrors agents t k e -> task_mirrors agents (t ++ r) k e.
Proof.
  intros agents t r k e [N I (names & G1 & G2 & G3) A O D L]. constructor; auto.
  exists names. split; [exact G1|]. split; [apply resolves_prefix, G2|exact G3].
Qed.

Lemma filled_prefix : forall agents t r new es, Forall2 (filled agents t) new es -> Forall2 (filled agents (t ++ r)) new es.
Proof.
  intros agents t r new es H. induction H as [|k e new es [A B] H IH]; constructor; [|exact IH].
  split; [apply task_mirrors_prefix, A|exact B].
Qed.

Lemma grown_trans : forall b b1 b2 n1 n2 e1 e2, grown b b1 n1 e1 -> grown b1 b2 n2 e2 ->
  grown b b2 (n1 ++ n2) (e1 ++ e2).
Proof.
  intros b b1 b2 n1 n2 e1 e2 [A (g1 & F1 & G1) (d1 & D1 & E1) M1 U1] [A' (g2 & F2 & G2) (d2 & D2 & E2) M2 U2].
  constructor.
  - congruence.
  - exists (g1 ++ g2)%list. split; [apply Forall2_app; assumption|]. rewrite concat_app, add_all_app, <- G1. exact G2.
  - exists (d1 ++ d2)%list. split; [apply Forall2_app; assumption|]. rewrite E2, E1, app_assoc. reflexivity.
  - apply Forall2_app.
    + rewrite G2. destruct (add_all_prefix (concat g2) (pr_groups (bd_project b1))) as [r ->]. apply filled_prefix, M1.
    + rewrite <- A. exact M2.
  - rewrite A in U2. destruct U1 as [U1|U1]; [auto|]. destruct U2 as [U2|U2]; [auto|]. right. congruence.
Qed.

Lemma set_nth_app : forall A (pre : list A) t mid x,
  set_nth (pre ++ t :: mid) (length pre) x = (pre ++ x :: mid)%list.
Proof. intros A pre t mid x. induction pre as [|y pre IH]; cbn; [reflexivity|]. rewrite IH. reflexivity. Qed.

Definition with_deps (t : task) (d : list nat) : task :=
  {| tk_name := tk_name t; tk_id := tk_id t; tk_groups := tk_groups t; tk_agent := tk_agent t; tk_deps := d;
     tk_min := tk_min t; tk_max := tk_max t |}.

Lemma with_deps_mirrors : forall agents table t d e k, task_mirrors agents table t (e, k) ->
  forall k', task_mirrors agents table (with_deps t d) (e, k').
Proof. intros agents table t d e k [N I G A O D L] k'. constructor; assumption. Qed.

(** What one call of [parse_task] does. *)
Definition task_contract (parse : building -> yaml -> loading building) (n : yaml) : Prop :=
  forall b b', parse b n = Loads b' ->
  (forall i a, nth_error (pr_agents (bd_project b)) i = Some a -> ag_id a = i) ->
  exists new es,
    layout (length (pr_tasks (bd_project b))) n es /\
    pr_tasks (bd_project b') = (pr_tasks (bd_project b) ++ new)%list /\
    grown b b' new es /\
    (ids_ok (map tk_id (pr_tasks (bd_project b))) -> ids_ok (map tk_id (pr_tasks (bd_project b')))).

Lemma grown_length : forall b b' new es, grown b b' new es -> length new = length es.
Proof.
  intros b b' new es G. pose proof (gr_filled _ _ _ _ G) as F. clear G.
  induction F; cbn; congruence.
Qed.

Lemma subtasks_loop : forall parse subs, (forall n, In n subs -> task_contract parse n) ->
  forall b b' pre t mid,
  each (fun b sub =>
    do j <- to_int8 (length (pr_tasks (bd_project b))) ;
    do p <- add_dependency (bd_project b) (length pre) j ;
    parse {| bd_project := p; bd_deps := bd_deps b |} sub) b subs = Loads b' ->
  (forall i a, nth_error (pr_agents (bd_project b)) i = Some a -> ag_id a = i) ->
  pr_tasks (bd_project b) = (pre ++ t :: mid)%list -> index_set (tk_deps t) ->
  exists d new kids es,
    layouts (length (pr_tasks (bd_project b))) subs kids es /\
    pr_tasks (bd_project b') = (pre ++ with_deps t d :: mid ++ new)%list /\
    index_set d /\ (forall j, In j d <-> In j (tk_deps t) \/ In j kids) /\
    grown b b' new es /\
    (ids_ok (map tk_id (pr_tasks (bd_project b))) -> ids_ok (map tk_id (pr_tasks (bd_project b')))).
Proof.
  intros parse subs. induction subs as [|n subs IH]; intros C b b' pre t mid H IDS T SD; cbn [each] in H.
  - injection H as <-. exists (tk_deps t), [], [], []. split; [constructor|]. rewrite T, app_nil_r.
    split; [destruct t; reflexivity|]. split; [exact SD|]. split; [cbn; tauto|]. split; [|auto].
    constructor; [reflexivity| | |constructor|right; reflexivity].
    + exists []. split; [constructor|reflexivity].
    + exists []. split; [constructor|]. rewrite app_nil_r. reflexivity.
  - step H b1. step E j. apply to_int8_Loads in E0. destruct E0 as [-> _]. step E p1.
    unfold add_dependency in E0. rewrite T in E0 at 1. rewrite nth_error_app2, Nat.sub_diag in E0 by lia.
    cbn [nth_error] in E0. injection E0 as <-. set (len := length (pr_tasks (bd_project b))) in *.
    rewrite T, set_nth_app in E. fold (with_deps t (set_insert len (tk_deps t))) in E.
    set (t1 := with_deps t (set_insert len (tk_deps t))) in *.
    set (b0 := {| bd_project := {| pr_groups := pr_groups (bd_project b); pr_agents := pr_agents (bd_project b);
                                   pr_tasks := (pre ++ t1 :: mid)%list |}; bd_deps := bd_deps b |}) in *.
    destruct (C n (or_introl eq_refl) b0 b1 E IDS) as (new1 & es1 & LAY & T1 & G1 & U1).
    cbn [b0 bd_project pr_tasks] in LAY, T1, U1. rewrite <- app_assoc in T1. cbn [app] in T1.
    assert (IDS1 : forall i a, nth_error (pr_agents (bd_project b1)) i = Some a -> ag_id a = i).
    { intros i a. rewrite (gr_agents _ _ _ _ G1). exact (IDS i a). }
    destruct (IH (fun m I => C m (or_intror I)) b1 b' pre t1 (mid ++ new1)%list H IDS1 T1
      (set_insert_sorted len (tk_deps t) SD)) as (d & new2 & kids & es2 & LAYS & T2 & SD2 & DK & G2 & U2).
    assert (L0 : length (pre ++ t1 :: mid) = len).
    { unfold len. rewrite T, !app_length. reflexivity. }
    assert (L1 : length (pr_tasks (bd_project b1)) = len + length es1).
    { rewrite T1, <- L0, <- (grown_length _ _ _ _ G1), !app_length. cbn [length]. rewrite !app_length. lia. }
    exists d, (new1 ++ new2)%list, (len :: kids), (es1 ++ es2)%list.
    split; [rewrite L0 in LAY; rewrite L1 in LAYS; constructor; assumption|].
    split; [rewrite T2, <- app_assoc; reflexivity|]. split; [exact SD2|]. split.
    + intro j. rewrite DK. unfold t1. cbn [with_deps tk_deps]. rewrite set_insert_In. cbn [In]. clear. intuition.
    + split.
      * apply grown_trans with b1; [|exact G2]. destruct G1 as [Ga Gg Gd Gf Gu]. constructor; assumption.
      * intro I. apply U2, U1. rewrite T in I. rewrite map_app in *. exact I.
Qed.

(** ** Nested tasks *)

Lemma parse_task_contract : forall fuel n, height n <= fuel -> own_shape n ->
  (forall v, field n "subtasks" v -> tasks_shape v) -> task_contract (parse_task fuel) n.
Proof.
  induction fuel as [|fuel IH]; intros n HT SH SUB b b' H IDS; [discriminate H|].
  cbn [parse_task] in H. set (p := bd_project b) in *. skip H. clear E. skip H. clear E. step H name.
  destruct (is_empty name) eqn:NE; [discriminate H|]. assert (NE' : name <> "") by (apply is_empty_false; rewrite NE; reflexivity).
  step H idn. step H tid. step H dn. step H zz. destruct zz as [lo hi]. step H r. destruct r as [[p1 ids] ag].
  step H on. step H deps. step H sn. step H b2. skip H. injection H as <-.
  pose proof SH as (K & _ & _ & _ & (nv & NF & (ns & ->)) & SI & SD & (dv & DF & DR)).
  assert (NAME : text_field n "name" name).
  { unfold get_text, get in E. rewrite (has_keys_unique _ _ _ _ K NF) in E. cbn in E. injection E as <-. exact NF. }
  assert (ID : (text_field n "id" tid /\ tid <> "" /\ ~ In tid (map tk_id (pr_tasks p))) \/ absent n "id" /\ tid = "").
  { destruct idn as [v|].
    - apply get_field in E0. destruct (SI v E0) as (s & ->). left. unfold parse_task_id in E1. cbn [scalar_of] in E1.
      destruct (is_empty s) eqn:M; [discriminate E1|]. step E1 u2. injection E1 as <-. unfold check_task_id in E10.
      skip E10. rewrite map_app in E10.
      destruct (position s (map tk_id (pr_tasks p) ++ map tk_id [blank_task name])%list) eqn:P; [discriminate E10|].
      apply position_None in P. split; [exact E0|]. split; [apply is_empty_false; rewrite M; reflexivity|].
      intro I. apply P, in_or_app. auto.
    - apply get_absent in E0. right. split; [exact E0|congruence]. }
  destruct dn as [v|]; [|discriminate E3]. apply get_field in E2.
  pose proof (parse_duration_spec n name v lo hi E2 (eq_ind _ is_range DR _
    (f_equal (fun o => match o with Ok (Some x) => x | _ => dv end)
      (eq_trans (eq_sym (has_keys_unique _ _ _ _ K DF)) (has_keys_unique _ _ _ _ K E2)))) E3) as [DUR ORD].
  destruct (parse_assignment_spec n name p p1 ids ag SH IDS E4) as (A1 & T1 & (names & TG & RS & NI & G1) & UN & AG & ONE).
  assert (DEP : depends_ok (n, []) deps).
  { destruct on as [v'|].
    - apply get_field in E5. exact (parse_dependencies_spec n v' name deps [] E5 (SD v' E5) E6).
    - apply get_absent in E5. injection E6 as <-. split; [right; right; auto|constructor]. }
  set (t := {| tk_name := name; tk_id := tid; tk_groups := ids; tk_agent := ag; tk_deps := []; tk_min := lo; tk_max := hi |}) in *.
  set (b1 := {| bd_project := {| pr_groups := pr_groups p1; pr_agents := pr_agents p1; pr_tasks := (pr_tasks p1 ++ [t])%list |};
                bd_deps := (bd_deps b ++ [deps])%list |}) in *.
  assert (MIR : forall kids, task_mirrors (pr_agents p) (pr_groups p1) t (n, kids)).
  { intro kids. constructor; cbn [fst t tk_name tk_id tk_groups tk_agent tk_min tk_max].
    - auto.
    - destruct ID as [(I1 & I2 & _)|I]; auto.
    - exists names. auto.
    - exact AG.
    - exact ONE.
    - exact DUR.
    - exact ORD. }
  assert (UID : ids_ok (map tk_id (pr_tasks p)) -> ids_ok (map tk_id (pr_tasks (bd_project b1)))).
  { intro I. cbn [b1 bd_project pr_tasks]. rewrite T1, map_app. cbn [map t tk_id]. apply ids_ok_snoc; [exact I|].
    destruct ID as [(_ & _ & I1)|[_ I1]]; auto. }
  assert (GROW : forall kids d, index_set d -> (forall j, In j d <-> In j kids) -> grown b b1 [with_deps t d] [(n, kids)]).
  { intros kids d Sd Kd. constructor; cbn [b1 bd_project pr_agents pr_groups bd_deps].
    - exact A1.
    - exists [names]. split; [constructor; [exact TG|constructor]|]. cbn [concat]. rewrite app_nil_r. exact G1.
    - exists [deps]. split; [constructor; [exact DEP|constructor]|]. reflexivity.
    - constructor; [|constructor]. split; [apply with_deps_mirrors with []; apply MIR|]. split; assumption.
    - exact UN. }
  destruct sn as [sv|].
  - apply get_field in E7. pose proof (SUB sv E7) as TS. pose proof (height_field n "subtasks" sv E7) as HF.
    destruct TS as [subs TS1 TS2]. step E8 k. apply to_int8_Loads in E10. destruct E10 as [-> _].
    unfold parse_subtasks in E8. skip E8. skip E8. cbn [items_of] in E8.
    cbn [b1 bd_project pr_tasks] in E8. rewrite T1, app_length in E8. cbn [length] in E8.
    rewrite Nat.add_sub in E8.
    assert (CON : forall m, In m subs -> task_contract (parse_task fuel) m).
    { intros m I. apply IH; [pose proof (height_item subs m I); lia|apply TS1, I|intros w W; exact (TS2 m w I W)]. }
    assert (IDS1 : forall i a, nth_error (pr_agents (bd_project b1)) i = Some a -> ag_id a = i).
    { intros i a. cbn [b1 bd_project pr_agents]. rewrite A1. exact (IDS i a). }
    destruct (subtasks_loop (parse_task fuel) subs CON b1 b2 (pr_tasks p) t [] E8 IDS1
      ltac:(cbn [b1 bd_project pr_tasks]; rewrite T1; reflexivity) ltac:(constructor))
      as (d & new & kids & es & LAY & T2 & Sd & DK & G2 & U2).
    exists (with_deps t d :: new), ((n, kids) :: es). split.
    + econstructor; [exact E7|]. cbn [b1 bd_project pr_tasks] in LAY. rewrite T1, app_length in LAY.
      cbn [length] in LAY. rewrite Nat.add_1_r in LAY. exact LAY.
    + split; [exact T2|]. split.
      * apply (grown_trans b b1 b2 [with_deps t d] new [(n, kids)] es); [|exact G2]. apply GROW; [exact Sd|].
        intro j. rewrite DK. cbn [t tk_deps In]. tauto.
      * intro I. apply U2, UID, I.
  - apply get_absent in E7. injection E8 as <-. exists [t], [(n, [])]. split; [constructor; exact E7|].
    split; [cbn [b1 bd_project pr_tasks]; rewrite T1; reflexivity|]. split; [|exact UID].
    apply (GROW [] []); [constructor|tauto].
Qed.

Lemma tasks_loop : forall fuel l, (forall n, In n l -> task_contract (parse_task fuel) n) ->
  forall b b', each (parse_task fuel) b l = Loads b' ->
  (forall i a, nth_error (pr_agents (bd_project b)) i = Some a -> ag_id a = i) ->
  exists new kids es,
    layouts (length (pr_tasks (bd_project b))) l kids es /\
    pr_tasks (bd_project b') = (pr_tasks (bd_project b) ++ new)%list /\
    grown b b' new es /\
    (ids_ok (map tk_id (pr_tasks (bd_project b))) -> ids_ok (map tk_id (pr_tasks (bd_project b')))).
Proof.
  intros fuel l. induction l as [|n l IH]; intros C b b' H IDS; cbn [each] in H.
  - injection H as <-. exists [], [], []. rewrite app_nil_r. split; [constructor|]. split; [reflexivity|]. split; [|auto].
    constructor; [reflexivity| | |constructor|right; reflexivity].
    + exists []. split; [constructor|reflexivity].
    + exists []. split; [constructor|]. rewrite app_nil_r. reflexivity.
  - step H b1. destruct (C n (or_introl eq_refl) b b1 E IDS) as (new1 & es1 & LAY & T1 & G1 & U1).
    assert (IDS1 : forall i a, nth_error (pr_agents (bd_project b1)) i = Some a -> ag_id a = i).
    { intros i a. rewrite (gr_agents _ _ _ _ G1). exact (IDS i a). }
    destruct (IH (fun m I => C m (or_intror I)) b1 b' H IDS1) as (new2 & kids & es2 & LAYS & T2 & G2 & U2).
    exists (new1 ++ new2)%list, (length (pr_tasks (bd_project b)) :: kids), (es1 ++ es2)%list.
    rewrite T1, app_length, (grown_length _ _ _ _ G1) in LAYS. split; [constructor; assumption|].
    split; [rewrite T2, T1, app_assoc; reflexivity|]. split; [exact (grown_trans _ _ _ _ _ _ _ G1 G2)|]. auto.
Qed.
