(** * Proofs about the loader: what it builds *)

From Coq Require Import String List Bool Arith ZArith Ascii Lia Sorted.
From Verif Require Import Base F32 ProjectModel YamlModel ValidationModel DurationModel DurationSpec DurationProofs
  DurationProps DocumentSpec ValidationProofs ScheduleSpec LoadModel LoadSpec.
Import ListNotations.
Local Open Scope string_scope.
Local Open Scope nat_scope.

(** ** Sequencing *)

Lemma next_Loads : forall A B (x : loading A) (f : A -> loading B) b,
  next x f = Loads b -> exists a, x = Loads a /\ f a = Loads b.
Proof. intros A B [a|e| | |] f b H; try discriminate H. exists a. auto. Qed.

Lemma demand_Loads : forall b u, demand b = Loads u -> b = true.
Proof. intros [] u H; [reflexivity|discriminate H]. Qed.

(** Split a sequence of steps that succeeds; forget the contracts. *)
Ltac step H a :=
  let E := fresh "E" in
  apply next_Loads in H; destruct H as (a & E & H); cbv beta iota in H.

Ltac skip H :=
  let E := fresh "E" in
  let u := fresh "u" in
  apply next_Loads in H; destruct H as (u & E & H); apply demand_Loads in E; cbv beta iota in H.

Lemma each_app : forall A S (f : S -> A -> loading S) l1 l2 s,
  each f s (l1 ++ l2) = next (each f s l1) (fun s' => each f s' l2).
Proof.
  intros A S f l1. induction l1 as [|a l1 IH]; intros l2 s; [reflexivity|]. cbn [app each].
  destruct (f s a); cbn [next]; auto.
Qed.

Lemma each_map : forall A B S (g : B -> A) (f : S -> A -> loading S) l s,
  each f s (map g l) = each (fun s b => f s (g b)) s l.
Proof.
  intros A B S g f l. induction l as [|b l IH]; intro s; [reflexivity|]. cbn [map each].
  destruct (f s (g b)); cbn [next]; auto.
Qed.

(** ** Small facts *)

Lemma is_empty_false : forall s, negb (is_empty s) = true -> s <> "".
Proof. intros [|c s] H; [discriminate H|discriminate]. Qed.

Lemma position_Some : forall x l i, position x l = Some i -> nth_error l i = Some x.
Proof.
  induction l as [|y l IH]; intros i H; [discriminate H|]. cbn in H.
  destruct (String.eqb_spec y x) as [->|_]; [injection H as <-; reflexivity|].
  destruct (position x l) as [j|]; [|discriminate H]. injection H as <-. cbn. auto.
Qed.

Lemma position_None : forall x l, position x l = None -> ~ In x l.
Proof.
  induction l as [|y l IH]; intros H I; [destruct I|]. cbn in H.
  destruct (String.eqb_spec y x) as [->|N]; [discriminate H|].
  destruct (position x l) as [j|]; [discriminate H|]. destruct I as [->|I]; [congruence|exact (IH eq_refl I)].
Qed.

Lemma position_In : forall x l, In x l -> exists i, position x l = Some i.
Proof.
  intros x l H. destruct (position x l) as [i|] eqn:E; [eauto|]. destruct (position_None x l E H).
Qed.

(** Sorted sets. *)
Lemma set_insert_In : forall x l y, In y (set_insert x l) <-> y = x \/ In y l.
Proof.
  intros x l y. induction l as [|z l IH]; [cbn; intuition|]. cbn [set_insert].
  destruct (x <? z); [cbn; intuition|]. destruct (Nat.eqb_spec x z) as [E|_]; [subst; cbn; intuition|].
  cbn [In]. rewrite IH. clear. tauto.
Qed.

Lemma set_insert_sorted : forall x l, index_set l -> index_set (set_insert x l).
Proof.
  intros x l H. induction H as [|z l H IH F]; cbn [set_insert]; [constructor; constructor|].
  destruct (Nat.ltb_spec x z) as [L|L].
  - constructor; [constructor; assumption|]. constructor; [exact L|].
    eapply Forall_impl; [|exact F]. cbn. intros. lia.
  - destruct (Nat.eqb_spec x z) as [->|N]; [constructor; assumption|].
    constructor; [exact IH|]. apply Forall_forall. intros y I. apply set_insert_In in I. destruct I as [->|I]; [lia|].
    rewrite Forall_forall in F. auto.
Qed.

(** ** The group table *)

Definition add_new (t : list string) (g : string) : list string :=
  if existsb (String.eqb g) t then t else (t ++ [g])%list.

Definition add_all (names t : list string) : list string := fold_left add_new names t.

Lemma add_new_prefix : forall t g, exists r, add_new t g = (t ++ r)%list.
Proof. intros t g. unfold add_new. destruct (existsb _ t); [exists []; rewrite app_nil_r; reflexivity|eauto]. Qed.

Lemma add_all_prefix : forall names t, exists r, add_all names t = (t ++ r)%list.
Proof.
  induction names as [|g names IH]; intro t; [exists []; rewrite app_nil_r; reflexivity|].
  cbn. destruct (IH (add_new t g)) as [r E]. destruct (add_new_prefix t g) as [r' E']. exists (r' ++ r)%list.
  unfold add_all in *. rewrite E, E', <- app_assoc. reflexivity.
Qed.

Lemma add_all_app : forall a b t, add_all (a ++ b) t = add_all b (add_all a t).
Proof. intros. unfold add_all. apply fold_left_app. Qed.

Lemma NoDup_snoc : forall (l : list string) x, NoDup l -> ~ In x l -> NoDup (l ++ [x]).
Proof.
  intros l x H N. induction H as [|y l Hy H IH]; cbn; [constructor; [auto|constructor]|].
  constructor; [|apply IH; intro; apply N; right; assumption].
  intro I. apply in_app_or in I. destruct I as [I|[<-|[]]]; [auto|]. apply N. left. reflexivity.
Qed.

Lemma add_new_NoDup : forall t g, NoDup t -> NoDup (add_new t g).
Proof.
  intros t g H. unfold add_new. destruct (existsb (String.eqb g) t) eqn:E; [exact H|]. apply NoDup_snoc; [exact H|].
  intro I. apply existsb_In in I. congruence.
Qed.

Lemma add_all_NoDup : forall names t, NoDup t -> NoDup (add_all names t).
Proof.
  induction names as [|g names IH]; intros t H; [exact H|]. cbn. apply IH, add_new_NoDup, H.
Qed.

Lemma nth_prefix : forall A (t r : list A) i x, nth_error t i = Some x -> nth_error (t ++ r) i = Some x.
Proof. intros A t r i x H. rewrite nth_error_app1; [exact H|]. apply nth_error_Some. congruence. Qed.

Lemma resolves_prefix : forall t r ids names, resolves t ids names -> resolves (t ++ r) ids names.
Proof.
  intros t r ids names (S & A & B). split; [exact S|]. split.
  - intros i I. destruct (A i I) as (g & G & H). exists g. split; [apply nth_prefix, G|exact H].
  - intros g H. destruct (B g H) as (i & I & G). exists i. split; [exact I|apply nth_prefix, G].
Qed.

Lemma to_int8_Loads : forall n i, to_int8 n = Loads i -> i = n /\ n <= 127.
Proof. intros n i H. unfold to_int8 in H. destruct (Nat.leb_spec n 127); [injection H as <-; auto|discriminate H]. Qed.

Lemma find_group_spec : forall t g t' i new, find_or_insert_group t g = Loads (t', i, new) ->
  g <> "" /\ t' = add_new t g /\ nth_error t' i = Some g /\ (new = false -> In g t) /\ (new = true -> ~ In g t).
Proof.
  intros t g t' i new H. unfold find_or_insert_group in H. skip H. apply is_empty_false in E.
  split; [exact E|]. unfold add_new. destruct (position g t) as [j|] eqn:P.
  - step H k. apply to_int8_Loads in E0. destruct E0 as [-> _]. injection H as <- <- <-.
    pose proof (position_Some g t j P) as N. pose proof (nth_error_In t j N) as I.
    replace (existsb (String.eqb g) t) with true by (symmetry; apply existsb_In, I).
    split; [reflexivity|]. split; [exact N|]. split; [auto|discriminate].
  - step H k. apply to_int8_Loads in E0. destruct E0 as [-> _]. injection H as <- <- <-.
    pose proof (position_None g t P) as N.
    destruct (existsb (String.eqb g) t) eqn:X; [apply existsb_In in X; contradiction|].
    split; [reflexivity|]. split; [rewrite nth_error_app2, Nat.sub_diag by lia; reflexivity|]. split; [discriminate|auto].
Qed.

Lemma NoDup_nth_eq : forall (t : list string) i j g, NoDup t -> nth_error t i = Some g -> nth_error t j = Some g -> i = j.
Proof.
  intros t i j g ND Hi Hj. apply (NoDup_nth_error t); [exact ND| |congruence].
  apply nth_error_Some. congruence.
Qed.

Lemma resolves_more : forall t ids names g t' i, resolves t ids names -> t' = add_new t g ->
  nth_error t' i = Some g -> resolves t' (set_insert i ids) (names ++ [g]).
Proof.
  intros t ids names g t' i R E N. destruct (add_new_prefix t g) as [r P]. rewrite <- E in P.
  assert (R' : resolves t' ids names) by (rewrite P; apply resolves_prefix, R).
  destruct R' as (S & A & B). split; [apply set_insert_sorted, S|]. split.
  - intros j I. apply set_insert_In in I. destruct I as [->|I].
    + exists g. split; [exact N|]. apply in_or_app. right. left. reflexivity.
    + destruct (A j I) as (h & G & H). exists h. split; [exact G|]. apply in_or_app. auto.
  - intros h H. apply in_app_or in H. destruct H as [H|[<-|[]]].
    + destruct (B h H) as (j & I & G). exists j. split; [apply set_insert_In; auto|exact G].
    + exists i. split; [apply set_insert_In; auto|exact N].
Qed.

(** A sequence of scalars. *)
Lemma texts_map : forall l, Forall is_text l -> exists names, l = map Scalar names.
Proof.
  intros l H. induction H as [|y l (s & ->) H (names & ->)]; [exists []; reflexivity|].
  exists (s :: names). reflexivity.
Qed.

Lemma texts_items : forall y, is_texts y -> exists names, y = Seq (map Scalar names).
Proof. intros y (l & -> & F). destruct (texts_map l F) as (names & ->). eauto. Qed.

(** ** Agents *)

Lemma agent_groups_spec : forall names t ids done t' ids',
  each (fun s g => next (find_or_insert_group (fst s) g) (fun '(groups', i, _) => Loads (groups', set_insert i (snd s))))
    (t, ids) names = Loads (t', ids') ->
  resolves t ids done ->
  t' = add_all names t /\ resolves t' ids' (done ++ names) /\ ~ In "" names.
Proof.
  induction names as [|g names IH]; intros t ids done t' ids' H R; cbn [each] in H.
  - injection H as <- <-. split; [reflexivity|]. rewrite app_nil_r. auto.
  - step H s1. step E r1. destruct r1 as [[t1 i] new]. injection E as <-. cbn [fst snd] in *.
    destruct (find_group_spec t g t1 i new E0) as (NE & T1 & N & _).
    destruct (IH t1 (set_insert i ids) (done ++ [g])%list t' ids' H) as (T & R' & NI).
    + apply resolves_more with t; assumption.
    + split; [unfold add_all in *; cbn; rewrite <- T1; exact T|]. rewrite <- app_assoc in R'.
      split; [exact R'|]. intros [->|I]; [congruence|auto].
Qed.

Lemma parse_agent_groups_spec : forall names t t' ids',
  parse_agent_groups (Seq (map Scalar names)) t [] = Loads (t', ids') ->
  t' = add_all names t /\ resolves t' ids' names /\ ~ In "" names.
Proof.
  intros names t t' ids' H. unfold parse_agent_groups in H. cbn [items_of] in H. rewrite each_map in H.
  cbn [scalar_of] in H. apply (agent_groups_spec names t [] [] t' ids') in H.
  - exact H.
  - split; [constructor|]. split; [intros i []|intros g []].
Qed.

(** Fields of nodes with proper keys. *)
Lemma get_field : forall y n v, get y n = Loads (Some v) -> field y n v.
Proof.
  intros y n v H. unfold get in H. destruct (subscript y n) as [o| |] eqn:E; try discriminate H.
  injection H as ->. apply subscript_field, E.
Qed.

Lemma get_absent : forall y n, get y n = Loads None -> absent y n.
Proof.
  intros y n H. unfold get in H. destruct (subscript y n) as [o| |] eqn:E; try discriminate H.
  injection H as ->. exact (subscript_none y n E).
Qed.

Lemma performance_value_spec : forall as_float name o x, performance_value as_float name o = Loads x ->
  (exists s, o = Some (Scalar s) /\ as_float s = Some x) /\ f_le x f_zero = false.
Proof.
  intros as_float name o x H. unfold performance_value in H.
  destruct (node_float as_float o) as [y|] eqn:N; [|discriminate H].
  unfold validate_performance in H. destruct (f_le y f_zero) eqn:L; [discriminate H|]. injection H as ->.
  split; [|exact L]. unfold node_float in N. destruct o as [[|s|l|l]|]; try discriminate N. exists s. auto.
Qed.

Lemma performance_spec : forall as_float name node p y, field y "performance" node ->
  parse_agent_performance as_float name node = Loads p ->
  performance_written as_float y p /\ f_le (perf_min p) f_zero = false /\ f_le (perf_max p) f_zero = false /\
  f_lt (perf_max p) (perf_min p) = false.
Proof.
  intros as_float name node p y F H. unfold parse_agent_performance in H. step H q.
  destruct (f_lt (perf_max q) (perf_min q)) eqn:L; [discriminate H|]. injection H as <-.
  assert (MM : next (get node "min") (fun lo_node => next (performance_value as_float name lo_node) (fun lo =>
      next (get node "max") (fun hi_node => next (performance_value as_float name hi_node) (fun hi =>
      Loads {| perf_min := lo; perf_max := hi |})))) = Loads q ->
    performance_written as_float y q /\ f_le (perf_min q) f_zero = false /\ f_le (perf_max q) f_zero = false /\
    f_lt (perf_max q) (perf_min q) = false).
  { intro M. step M o1. step M lo. step M o2. step M hi. injection M as <-. cbn [perf_min perf_max] in *.
    apply performance_value_spec in E1, E3. destruct E1 as ((s1 & -> & A1) & L1), E3 as ((s2 & -> & A2) & L2).
    apply get_field in E0, E2. split; [|auto]. right. left. exists node, s1, s2, lo, hi. auto 10. }
  destruct node as [|s|l|l]; try (exact (MM E)).
  step E x. injection E as <-. cbn [perf_min perf_max] in *. apply performance_value_spec in E0.
  destruct E0 as ((s' & S & A) & L'). injection S as <-. split; [|auto]. left. exists s, x. auto.
Qed.

Lemma parse_agent_spec : forall as_float p e p', agent_shape (snd e) -> parse_agent as_float p e = Loads p' ->
  exists a names,
    pr_agents p' = (pr_agents p ++ [a])%list /\ pr_tasks p' = pr_tasks p /\
    agent_groups (snd e) names /\ pr_groups p' = add_all names (pr_groups p) /\
    agent_mirrors as_float (pr_groups p') (length (pr_agents p)) a e /\
    ~ In (ag_name a) (map ag_name (pr_agents p)).
Proof.
  intros as_float p e p' (K & SP & SG) H. unfold parse_agent in H. set (name := scalar_of (fst e)) in *.
  skip H. apply is_empty_false in E. step H u1. unfold check_agent_name in E0. skip E0.
  destruct (position name (map ag_name (pr_agents p))) eqn:PN; [discriminate E0|]. apply position_None in PN.
  step H aid. apply to_int8_Loads in E2. destruct E2 as [-> _].
  step H gn. step H gi. destruct gi as [groups ids]. step H pn. step H perf. injection H as <-.
  assert (G : exists names, agent_groups (snd e) names /\ groups = add_all names (pr_groups p) /\
    resolves groups ids names /\ ~ In "" names).
  { destruct gn as [g|].
    - apply get_field in E2. destruct (texts_items g (SG g E2)) as (names & ->).
      apply parse_agent_groups_spec in E3. destruct E3 as (T & R & N). exists names. split; [left; exact E2|auto].
    - apply get_absent in E2. injection E3 as <- <-. exists []. split; [right; auto|]. split; [reflexivity|].
      split; [|intros []]. split; [constructor|]. split; [intros i []|intros g []]. }
  destruct G as (names & G1 & G2 & G3 & G4).
  assert (P : performance_written as_float (snd e) perf /\ f_le (perf_min perf) f_zero = false /\
    f_le (perf_max perf) f_zero = false /\ f_lt (perf_max perf) (perf_min perf) = false).
  { destruct pn as [n|].
    - apply get_field in E4. exact (performance_spec as_float name n perf (snd e) E4 E5).
    - apply get_absent in E4.
      assert (PE : perf = {| perf_min := f_one; perf_max := f_one |}) by congruence. subst perf.
      cbn [perf_min perf_max]. split; [right; right; auto|]. split; [vm_compute; reflexivity|]. split; vm_compute; reflexivity. }
  destruct P as [P1 P2].
  exists {| ag_id := length (pr_agents p); ag_name := name; ag_groups := ids; ag_perf := perf |}, names.
  cbn [pr_agents pr_tasks pr_groups ag_name].
  split; [reflexivity|]. split; [reflexivity|]. split; [exact G1|]. split; [exact G2|]. split; [|exact PN].
  constructor; cbn [ag_name ag_id ag_groups ag_perf].
  - split; [|exact E]. unfold name in *. destruct (fst e); cbn in E |- *; congruence.
  - reflexivity.
  - exists names. auto.
  - exact P1.
  - exact P2.
Qed.

Definition agents_mirror (as_float : string -> option f32) (table : list string) (start : nat)
  (l : list agent) (es : list (yaml * yaml)) : Prop :=
  length l = length es /\
    forall i a e, nth_error l i = Some a -> nth_error es i = Some e -> agent_mirrors as_float table (start + i) a e.

Lemma agent_mirrors_prefix : forall as_float t r i a e,
  agent_mirrors as_float t i a e -> agent_mirrors as_float (t ++ r) i a e.
Proof.
  intros as_float t r i a e [N I (names & G1 & G2 & G3) P S]. constructor; auto.
  exists names. split; [exact G1|]. split; [apply resolves_prefix, G2|exact G3].
Qed.

Lemma parse_agents_loop : forall as_float es p p',
  (forall e, In e es -> agent_shape (snd e)) -> each (parse_agent as_float) p es = Loads p' ->
  exists new la,
    pr_agents p' = (pr_agents p ++ new)%list /\ pr_tasks p' = pr_tasks p /\
    Forall2 (fun e g => agent_groups (snd e) g) es la /\ pr_groups p' = add_all (concat la) (pr_groups p) /\
    agents_mirror as_float (pr_groups p') (length (pr_agents p)) new es /\
    (NoDup (map ag_name (pr_agents p)) -> NoDup (map ag_name (pr_agents p'))).
Proof.
  intros as_float es. induction es as [|e es IH]; intros p p' SH H; cbn [each] in H.
  - injection H as <-. exists [], []. rewrite app_nil_r. split; [reflexivity|]. split; [reflexivity|].
    split; [constructor|]. split; [reflexivity|]. split; [|auto]. split; [reflexivity|]. intros [|i] a e X; discriminate X.
  - step H p1. apply parse_agent_spec in E; [|apply SH; left; reflexivity].
    destruct E as (a & names & A & T & G & GR & M & NI).
    apply IH in H; [|intros; apply SH; right; assumption].
    destruct H as (new & la & A' & T' & F & GR' & (L & M') & ND).
    exists (a :: new), (names :: la). split; [rewrite A', A, <- app_assoc; reflexivity|]. split; [congruence|].
    split; [constructor; assumption|]. split; [cbn [concat]; rewrite add_all_app, <- GR; exact GR'|]. split.
    + split; [cbn; congruence|]. intros [|i] b f X Y.
      * cbn in X, Y. injection X as <-. injection Y as <-. rewrite Nat.add_0_r, GR'.
        destruct (add_all_prefix (concat la) (pr_groups p1)) as [r ->]. apply agent_mirrors_prefix, M.
      * cbn in X, Y. specialize (M' i b f X Y). rewrite A, app_length in M'. cbn [length] in M'.
        replace (length (pr_agents p) + 1 + i) with (length (pr_agents p) + S i) in M' by lia. exact M'.
    + intro N. apply ND. rewrite A, map_app. apply NoDup_snoc; assumption.
Qed.

(** The table contains what has been mentioned. *)
Lemma add_all_In : forall names t g, In g (add_all names t) <-> In g t \/ In g names.
Proof.
  induction names as [|x names IH]; intros t g; [cbn; tauto|]. unfold add_all in *. cbn [fold_left]. rewrite IH.
  unfold add_new. destruct (existsb (String.eqb x) t) eqn:E.
  - apply existsb_In in E. cbn [In]. split; [tauto|]. intros [H|[<-|H]]; auto.
  - rewrite in_app_iff. cbn [In]. tauto.
Qed.

Lemma filter_all : forall A (f : A -> bool) l, Forall (fun x => f x = true) l -> filter f l = l.
Proof. intros A f l H. induction H as [|x l E H IH]; [reflexivity|]. cbn. rewrite E, IH. reflexivity. Qed.

Lemma add_all_first : forall names t,
  add_all names t = (t ++ filter (fun g => negb (existsb (String.eqb g) t)) (first_mentions names))%list.
Proof.
  induction names as [|x names IH]; intro t; [cbn; rewrite app_nil_r; reflexivity|].
  unfold add_all in *. cbn [fold_left first_mentions filter]. rewrite IH. unfold add_new.
  assert (FF : forall f h : string -> bool, forall l, filter f (filter h l) = filter (fun g => f g && h g) l).
  { intros f h l. induction l as [|y l IHl]; [reflexivity|]. cbn. destruct (h y); cbn; destruct (f y); cbn; rewrite IHl; reflexivity. }
  rewrite FF. destruct (existsb (String.eqb x) t) eqn:E; cbn [negb].
  - f_equal. apply filter_ext_in. intros g _. destruct (String.eqb_spec x g) as [<-|N].
    + rewrite E. reflexivity.
    + cbn. rewrite andb_true_r. reflexivity.
  - rewrite <- app_assoc. cbn [app]. do 2 f_equal. apply filter_ext_in. intros g _.
    rewrite existsb_app. cbn. rewrite orb_false_r, (String.eqb_sym g x).
    destruct (existsb (String.eqb g) t); destruct (String.eqb x g); reflexivity.
Qed.

Lemma add_all_nil : forall names, add_all names [] = first_mentions names.
Proof.
  intro names. rewrite add_all_first. cbn. apply filter_all. apply Forall_forall. reflexivity.
Qed.
