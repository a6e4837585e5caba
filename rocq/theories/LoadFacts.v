(** * Proofs about the loader: the whole document *)

From Coq Require Import String List Bool Arith ZArith Lia Sorted Relations.
From Verif Require Import Base F32 ProjectModel YamlModel ValidationModel DocumentSpec ValidationProofs ScheduleSpec
  LoadModel LoadSpec LoadProofs LoadTaskProofs LoadCycleProofs LayoutProofs.
Import ListNotations.
Local Open Scope string_scope.
Local Open Scope nat_scope.

(** ** What is written is unique *)

Lemma map_Scalar_inj : forall a b, map Scalar a = map Scalar b -> a = b.
Proof.
  induction a as [|x a IH]; intros [|y b] H; try discriminate H; [reflexivity|]. cbn in H. injection H as -> H.
  rewrite (IH b H). reflexivity.
Qed.

Lemma agent_groups_fun : forall y a b, agent_shape y -> agent_groups y a -> agent_groups y b -> a = b.
Proof.
  intros y a b (K & _) [A|[A ->]] [B|[B ->]]; try reflexivity.
  - pose proof (field_unique _ _ _ _ _ K A B) as E. injection E as E. exact (map_Scalar_inj _ _ E).
  - destruct (B _ A).
  - destruct (A _ B).
Qed.

Lemma task_groups_fun : forall y a b, own_shape y -> task_groups y a -> task_groups y b -> a = b.
Proof.
  intros y a b (K & _) [(g & A & ->)|[(A & A')|(A & A' & ->)]] [(h & B & ->)|[(B & B')|(B & B' & ->)]]; try reflexivity;
    try (destruct (B _ A); fail); try (destruct (A _ B); fail); try (destruct (B' _ A'); fail); try (destruct (A' _ B'); fail).
  - pose proof (field_unique _ _ _ _ _ K A B) as E. injection E as ->. reflexivity.
  - pose proof (field_unique _ _ _ _ _ K A' B') as E. injection E as E. exact (map_Scalar_inj _ _ E).
Qed.

Lemma depends_on_fun : forall y a b, own_shape y -> depends_on y a -> depends_on y b -> a = b.
Proof.
  intros y a b (K & _) [(g & A & ->)|[A|(A & ->)]] [(h & B & ->)|[B|(B & ->)]]; try reflexivity;
    try (destruct (B _ A); fail); try (destruct (A _ B); fail);
    pose proof (field_unique _ _ _ _ _ K A B) as E; try discriminate E.
  - injection E as ->. reflexivity.
  - injection E as E. exact (map_Scalar_inj _ _ E).
Qed.

Lemma text_field_fun : forall ns y n a b, has_keys ns y -> text_field y n a -> text_field y n b -> a = b.
Proof. intros ns y n a b K A B. pose proof (field_unique _ _ _ _ _ K A B). congruence. Qed.

Lemma document_tasks_fun : forall d a b, document_shape d -> document_tasks d a -> document_tasks d b -> a = b.
Proof.
  intros d a b (K & _ & (v & F & S)) (l & k & A & LA) (m & k' & B & LB).
  pose proof (field_unique _ _ _ _ _ K A B) as E. injection E as <-.
  pose proof (field_unique _ _ _ _ _ K A F) as E. subst v.
  destruct (proj2 layout_fun _ _ _ _ LB S _ _ LA) as [_ ->]. reflexivity.
Qed.

Lemma document_agents_fun : forall d a b, document_shape d -> document_agents d a -> document_agents d b -> a = b.
Proof. intros d a b (K & _) A B. pose proof (field_unique _ _ _ _ _ K A B). congruence. Qed.

Lemma document_tasks_exist : forall d, document_shape d -> exists es, document_tasks d es.
Proof.
  intros d (_ & _ & (v & F & S)). inversion S as [l A B]; subst.
  destruct (layout_exists _ S l 0 eq_refl) as (kids & es & L). exists es, l, kids. auto.
Qed.

Lemma document_agents_exist : forall d, document_shape d -> exists ags, document_agents d ags.
Proof. intros d (_ & (v & F & (l & -> & _)) & _). exists l. exact F. Qed.

(** ** Steps that do not find cycles *)

Definition tame {A} (x : loading A) : Prop := x <> Rejects DependencyCycle.

Lemma tame_next : forall A B (x : loading A) (f : A -> loading B), tame x -> (forall a, tame (f a)) -> tame (next x f).
Proof. intros A B [a|e| | |] f X F; cbn; try discriminate; [apply F|]. intro E. injection E as ->. apply X. reflexivity. Qed.

Lemma tame_each : forall A S (f : S -> A -> loading S) l, (forall s a, tame (f s a)) -> forall s, tame (each f s l).
Proof.
  intros A S f l F. induction l as [|a l IH]; intro s; cbn; [discriminate|]. apply tame_next; auto.
Qed.

Lemma tame_demand : forall b, tame (demand b).
Proof. intros []; discriminate. Qed.

Lemma tame_int8 : forall n, tame (to_int8 n).
Proof. intro n. unfold to_int8. destruct (n <=? 127); discriminate. Qed.

Lemma tame_get : forall y n, tame (get y n).
Proof. intros y n. unfold get. destruct (subscript y n); discriminate. Qed.

Ltac tame :=
  repeat lazymatch goal with
    | |- forall _, _ => intro
    | |- tame (next _ _) => apply tame_next
    | |- tame (each _ _ _) => apply tame_each
    | |- tame (demand _) => apply tame_demand
    | |- tame (to_int8 _) => apply tame_int8
    | |- tame (get _ _) => apply tame_get
    | |- tame (match ?x with _ => _ end) => destruct x
    | |- _ => first [discriminate | solve [auto]]
    end.

Lemma tame_group : forall t g, tame (find_or_insert_group t g).
Proof. intros. unfold find_or_insert_group. tame. Qed.

Lemma tame_performance_value : forall f n o, tame (performance_value f n o).
Proof. intros. unfold performance_value. tame. Qed.

Lemma tame_parse_agent : forall f p e, tame (parse_agent f p e).
Proof.
  intros. unfold parse_agent, check_agent_name, parse_agent_groups, parse_agent_performance.
  pose proof tame_group. pose proof tame_performance_value. tame.
Qed.

Lemma tame_parse_agents : forall f n p, tame (parse_agents f n p).
Proof. intros. unfold parse_agents. pose proof tame_parse_agent. tame. Qed.

Lemma tame_duration_text : forall t s, tame (duration_text t s).
Proof. intros. unfold duration_text. tame. Qed.

Lemma tame_get_text : forall y n, tame (get_text y n).
Proof. intros. unfold get_text. tame. Qed.

Lemma tame_duration : forall n o, tame (parse_task_duration n o).
Proof.
  intros. unfold parse_task_duration. pose proof tame_duration_text. pose proof tame_get_text. tame.
Qed.

Lemma tame_task_group : forall s n, tame (parse_task_group s n).
Proof.
  intros [p ids] n. unfold parse_task_group, universal_agents. pose proof tame_group. tame.
Qed.

Lemma tame_assignment : forall n name p, tame (parse_groups_and_agents n name p).
Proof.
  intros. unfold parse_groups_and_agents, parse_task_groups, parse_task_agent, find_agent_index.
  pose proof tame_task_group. tame.
Qed.

Lemma tame_dependencies : forall n name, tame (parse_dependencies n name).
Proof. intros. unfold parse_dependencies, validate_task_id. tame. Qed.

Lemma tame_parse_task : forall fuel b n, tame (parse_task fuel b n).
Proof.
  induction fuel as [|fuel IH]; intros b n; [discriminate|]. cbn [parse_task].
  unfold parse_task_id, check_task_id, parse_subtasks, add_dependency.
  pose proof tame_get_text. pose proof tame_duration. pose proof tame_assignment. pose proof tame_dependencies.
  tame.
Qed.

Lemma tame_resolve : forall ts ds, tame (resolve_dependencies ts ds).
Proof.
  intros. unfold resolve_dependencies.
  assert (R : forall l d, tame (resolve_all ts l d)).
  { induction l as [|t l IH]; intros [|d ds']; cbn [resolve_all]; try discriminate.
    unfold resolve_task, find_task_index. tame. }
  tame.
Qed.

Lemma next_cycle : forall A B (x : loading A) (f : A -> loading B), tame x -> next x f = Rejects DependencyCycle ->
  exists a, x = Loads a /\ f a = Rejects DependencyCycle.
Proof.
  intros A B [a|e| | |] f T H; try discriminate H; [eauto|]. cbn in H. injection H as ->. destruct (T eq_refl).
Qed.

(** ** The project before the search for cycles *)

Record facts (as_float : string -> option f32) (d : yaml) (q : project)
  (ags : list (yaml * yaml)) (es : list (yaml * list nat)) : Prop := {
  fa_shape : document_shape d;
  fa_ags : document_agents d ags;
  fa_es : document_tasks d es;
  fa_groups : exists names, mentions ags es names /\ pr_groups q = first_mentions names;
  fa_agents : agents_mirror as_float (pr_groups q) 0 (pr_agents q) ags;
  fa_names : NoDup (map ag_name (pr_agents q));
  fa_tasks : Forall2 (task_mirrors (pr_agents q) (pr_groups q)) (pr_tasks q) es;
  fa_deps : forall i t, nth_error (pr_tasks q) i = Some t ->
    index_set (tk_deps t) /\ forall j, In j (tk_deps t) <-> document_depends es i j;
  fa_found : forall e ids s, In e es -> depends_on (fst e) ids -> In s ids ->
    exists e', In e' es /\ text_field (fst e') "id" s;
  fa_ids : ids_ok (map tk_id (pr_tasks q));
  fa_covered : has_universal (pr_agents q) \/
    forall k g, nth_error (pr_groups q) k = Some g -> exists a, In a (pr_agents q) /\ In k (ag_groups a);
  fa_some : pr_agents q <> [] /\ pr_tasks q <> []
}.

Lemma Forall2_nth : forall A B (R : A -> B -> Prop) l m, Forall2 R l m -> forall i a, nth_error l i = Some a ->
  exists b, nth_error m i = Some b /\ R a b.
Proof.
  intros A B R l m H. induction H as [|x y l m P H IH]; intros [|i] a N; try discriminate N.
  - cbn in N. injection N as <-. exists y. auto.
  - exact (IH i a N).
Qed.

Lemma Forall2_nth_r : forall A B (R : A -> B -> Prop) l m, Forall2 R l m -> forall i b, nth_error m i = Some b ->
  exists a, nth_error l i = Some a /\ R a b.
Proof.
  intros A B R l m H. induction H as [|x y l m P H IH]; intros [|i] b N; try discriminate N.
  - cbn in N. injection N as <-. exists x. auto.
  - exact (IH i b N).
Qed.

Lemma Forall2_same_length : forall A B (R : A -> B -> Prop) l m, Forall2 R l m -> length l = length m.
Proof. intros A B R l m H. induction H; cbn; congruence. Qed.

Lemma first_mentions_In : forall l g, In g (first_mentions l) <-> In g l.
Proof. intros l g. rewrite <- add_all_nil, add_all_In. cbn. tauto. Qed.

Lemma first_mentions_NoDup : forall l, NoDup (first_mentions l).
Proof. intro l. rewrite <- add_all_nil. apply add_all_NoDup. constructor. Qed.

Lemma agents_covered : forall as_float table agents ags la,
  agents_mirror as_float table 0 agents ags -> (forall e, In e ags -> agent_shape (snd e)) ->
  Forall2 (fun e g => agent_groups (snd e) g) ags la -> NoDup table -> (forall g, In g table -> In g (concat la)) ->
  forall k g, nth_error table k = Some g -> exists a, In a agents /\ In k (ag_groups a).
Proof.
  intros as_float table agents ags la (L & M) SH F ND C k g N.
  pose proof (C g (nth_error_In _ _ N)) as I. apply in_concat in I. destruct I as (l & I & G).
  apply In_nth_error in I. destruct I as (i & I). destruct (Forall2_nth_r _ _ _ _ _ F i l I) as (e & E & AG).
  destruct (nth_error agents i) as [a|] eqn:A.
  - pose proof (M i a e A E) as [_ _ (names & G1 & (_ & _ & R) & _) _ _].
    pose proof (agent_groups_fun _ _ _ (SH e (nth_error_In _ _ E)) AG G1) as <-.
    destruct (R g G) as (j & J & T). exists a. split; [exact (nth_error_In _ _ A)|].
    rewrite (NoDup_nth_eq table k j g ND N T). exact J.
  - apply nth_error_None in A. rewrite L in A. apply nth_error_None in A. congruence.
Qed.

Lemma mirror_id_iff : forall agents table t e s, own_shape (fst e) -> task_mirrors agents table t e -> s <> "" ->
  (tk_id t = s <-> text_field (fst e) "id" s).
Proof.
  intros agents table t e s S M NE. destruct (tm_id _ _ _ _ M) as [[I _]|[I Z]].
  - split; [intros <-; exact I|]. intro J. exact (text_field_fun _ _ _ _ _ (shape_keys _ S) I J).
  - split; [congruence|]. intro J. destruct (I _ J).
Qed.

Lemma with_deps_mirrors' : forall agents table t d e, task_mirrors agents table t e -> task_mirrors agents table (with_deps t d) e.
Proof. intros agents table t d [e k] M. exact (with_deps_mirrors _ _ _ d _ _ M k). Qed.

(** From the parsed tasks to the resolved ones. *)
Lemma resolved : forall agents table tasks es nd tasks',
  Forall2 (filled agents table) tasks es -> Forall2 depends_ok es nd -> Forall (fun e => own_shape (fst e)) es ->
  ids_ok (map tk_id tasks) -> resolve_all tasks tasks nd = Loads tasks' ->
  Forall2 (task_mirrors agents table) tasks' es /\ map tk_id tasks' = map tk_id tasks /\
  (forall i t, nth_error tasks' i = Some t ->
    index_set (tk_deps t) /\ forall j, In j (tk_deps t) <-> document_depends es i j) /\
  (forall e ids s, In e es -> depends_on (fst e) ids -> In s ids -> exists e', In e' es /\ text_field (fst e') "id" s).
Proof.
  intros agents table tasks es nd tasks' F D SH ID H.
  pose proof (Forall2_same_length _ _ _ _ _ F) as L1. pose proof (Forall2_same_length _ _ _ _ _ D) as L2.
  destruct (resolve_all_spec tasks tasks nd tasks' H) as [L3 N]; [congruence| |].
  { apply Forall_forall. intros t I. apply In_nth_error in I. destruct I as (i & I).
    destruct (Forall2_nth _ _ _ _ _ F i t I) as (e & _ & _ & (S & _)). exact S. }
  assert (SHi : forall i e, nth_error es i = Some e -> own_shape (fst e)).
  { intros i e E. rewrite Forall_forall in SH. apply SH. exact (nth_error_In _ _ E). }
  assert (POS : forall s j, s <> "" -> position s (map tk_id tasks) = Some j ->
    exists e, nth_error es j = Some e /\ text_field (fst e) "id" s).
  { intros s j NE P. apply position_Some in P. rewrite nth_error_map in P.
    destruct (nth_error tasks j) as [t|] eqn:T; [|discriminate P]. cbn in P. injection P as P.
    destruct (Forall2_nth _ _ _ _ _ F j t T) as (e & E & M & _). exists e. split; [exact E|].
    apply (mirror_id_iff _ _ _ _ _ (SHi j e E) M NE). exact P. }
  assert (NTH : forall i t', nth_error tasks' i = Some t' -> exists t e ds dd,
    nth_error tasks i = Some t /\ nth_error es i = Some e /\ nth_error nd i = Some ds /\
    filled agents table t e /\ depends_ok e ds /\ t' = with_deps t dd /\ index_set dd /\
    (forall j, In j dd <-> In j (tk_deps t) \/ exists s, In s ds /\ position s (map tk_id tasks) = Some j) /\
    (forall s, In s ds -> exists j, position s (map tk_id tasks) = Some j)).
  { intros i t' T'. destruct (nth_error tasks i) as [t|] eqn:T.
    - destruct (Forall2_nth _ _ _ _ _ F i t T) as (e & E & FI). destruct (Forall2_nth _ _ _ _ _ D i e E) as (ds & DS & DO).
      destruct (N i t T) as (ds' & dd & DS' & T2 & S & J & X). rewrite DS in DS'. injection DS' as <-.
      rewrite T' in T2. injection T2 as ->. exists t, e, ds, dd. auto 12.
    - apply nth_error_None in T. rewrite <- L3 in T. apply nth_error_None in T. congruence. }
  split; [|split; [|split]].
  - clear N POS. assert (G : forall i t e, nth_error tasks' i = Some t -> nth_error es i = Some e -> task_mirrors agents table t e).
    { intros i t' e' T' E'. destruct (NTH i t' T') as (t & e & ds & dd & T & E & _ & (M & _) & _ & -> & _).
      rewrite E' in E. injection E as <-. apply with_deps_mirrors', M. }
    assert (L : length tasks' = length es) by congruence.
    clear - G L. revert es L G. induction tasks' as [|t l IH]; intros [|e es] L G; try discriminate L; constructor.
    + exact (G 0 t e eq_refl eq_refl).
    + apply IH; [cbn in L; lia|]. intros i x y X Y. exact (G (S i) x y X Y).
  - clear POS NTH.
    assert (G : forall i t t', nth_error tasks i = Some t -> nth_error tasks' i = Some t' -> tk_id t' = tk_id t).
    { intros i t t' T T'. destruct (N i t T) as (ds & dd & _ & T2 & _). rewrite T' in T2. injection T2 as ->. reflexivity. }
    clear - G L3. revert tasks L3 G. induction tasks' as [|t l IH]; intros [|e es] L G; try discriminate L; [reflexivity|]. cbn.
    rewrite (G 0 e t eq_refl eq_refl). f_equal. apply IH; [cbn in L; lia|]. intros i x y X Y. exact (G (S i) x y X Y).
  - intros i t' T'. destruct (NTH i t' T') as (t & e & ds & dd & T & E & DS & (M & (KS & KJ)) & (DO & NE) & -> & S & J & X).
    split; [exact S|]. intro j. cbn [with_deps tk_deps]. rewrite J, KJ. rewrite Forall_forall in NE. split.
    + intros [K|(s & I & P)].
      * exists (fst e), (snd e). split; [destruct e; exact E|]. auto.
      * destruct (POS s j (NE s I) P) as ([n' k'] & E' & TF). exists (fst e), (snd e). split; [destruct e; exact E|].
        right. exists ds, s, n', k'. split; [exact DO|]. split; [exact I|]. split; [exact (NE s I)|]. split; [exact E'|exact TF].
    + intros (n & kids & E' & C). rewrite E' in E. injection E as <-. cbn [fst snd] in *. destruct C as [K|C]; [auto|].
      destruct C as (ids & s & n' & k' & DO' & I & SN & E2 & TF). right.
      pose proof (depends_on_fun n ids ds (SHi i (n, kids) E') DO' DO) as ->. exists s. split; [exact I|].
      destruct (X s I) as (j' & P). rewrite P. f_equal. apply position_Some in P.
      destruct (Forall2_nth_r _ _ _ _ _ F j (n', k') E2) as (t2 & T2 & (M2 & _)).
      apply (ID j' j s P); [|exact SN]. rewrite nth_error_map, T2. cbn. f_equal.
      apply (mirror_id_iff _ _ _ _ _ (SHi j _ E2) M2 SN). exact TF.
  - intros e ids s I DO IS. apply In_nth_error in I. destruct I as (i & E).
    destruct (Forall2_nth_r _ _ _ _ _ F i e E) as (t & T & _).
    destruct (N i t T) as (ds & dd & DS & _ & _ & _ & X). destruct (Forall2_nth _ _ _ _ _ D i e E) as (ds' & DS' & (DO' & NE)).
    rewrite DS in DS'. injection DS' as <-. pose proof (depends_on_fun _ _ _ (SHi i e E) DO DO') as ->.
    destruct (X s IS) as (j & P). rewrite Forall_forall in NE. destruct (POS s j (NE s IS) P) as (e' & E' & TF).
    exists e'. split; [exact (nth_error_In _ _ E')|exact TF].
Qed.

(** The stages of [load]. *)
Lemma load_stages : forall as_float d r, load as_float d = r ->
  (exists p, r = Loads p) \/ r = Rejects DependencyCycle ->
  exists q ags es, facts as_float d q ags es /\
    (check_for_cycles (pr_tasks q) = Loads tt /\ r = Loads q \/
     check_for_cycles (pr_tasks q) = Rejects DependencyCycle /\ r = Rejects DependencyCycle).
Proof.
  intros as_float d r H OUT. unfold load in H.
  destruct (schema_accepts d) as (m & V & MI). rewrite V in H.
  destruct m as [m|]; [subst r; destruct OUT as [(p & X)|X]; discriminate X|].
  pose proof (proj1 MI eq_refl) as SH. clear V MI.
  pose proof SH as (K & (va & FA & (ags & -> & SA)) & (vt & FT & ST)).
  inversion ST as [l SO SS]; subst vt.
  unfold get in H. rewrite (has_keys_unique _ _ _ _ K FA), (has_keys_unique _ _ _ _ K FT) in H. cbn [next] in H.
  set (p0 := {| pr_groups := []; pr_agents := []; pr_tasks := [] |}) in *.
  destruct (parse_agents as_float (Map ags) p0) as [p1|e| | |] eqn:PA; cbn [next] in H;
    try (subst r; destruct OUT as [(p & X)|X]; discriminate X).
  2:{ subst r. destruct OUT as [(p & X)|X]; [discriminate X|]. injection X as ->.
      destruct (tame_parse_agents as_float (Map ags) p0 PA). }
  unfold parse_agents in PA. skip PA. destruct (size_of (Map ags) =? 0); [discriminate PA|]. step PA p1'. skip PA.
  injection PA as ->. clear E. cbn [entries_of] in E0.
  destruct (parse_agents_loop as_float ags p0 p1) as (agents & la & A1 & T1 & FG & G1 & AM & ND); [|exact E0|].
  { intros [k v] I. exact (SA k v I). }
  cbn [p0 pr_agents pr_groups pr_tasks app length] in A1, T1, G1, AM, ND. specialize (ND (NoDup_nil _)).
  assert (IDS : forall i a, nth_error (pr_agents p1) i = Some a -> ag_id a = i).
  { intros i a N. rewrite A1 in N. destruct AM as [L AM]. destruct (nth_error ags i) as [e|] eqn:E.
    - exact (am_id _ _ _ _ _ (AM i a e N E)).
    - apply nth_error_None in E. rewrite <- L in E. apply nth_error_None in E. congruence. }
  assert (STAGE : exists b tasks', each (parse_task (height (Seq l))) {| bd_project := p1; bd_deps := [] |} l = Loads b /\
    resolve_dependencies (pr_tasks (bd_project b)) (bd_deps b) = Loads tasks' /\
    (check_for_cycles tasks' = Loads tt /\
       r = Loads {| pr_groups := pr_groups (bd_project b); pr_agents := pr_agents (bd_project b); pr_tasks := tasks' |} \/
     check_for_cycles tasks' = Rejects DependencyCycle /\ r = Rejects DependencyCycle)).
  { unfold parse_tasks in H. cbn [items_of] in H. destruct OUT as [(p & ->)|X]; [|pose proof X as X0].
    - step H q. skip E. destruct (size_of (Seq l) =? 0); [discriminate E|]. step E b. step E tasks'. step E u2.
      destruct u2. skip E. injection E as <-. skip H. skip H. injection H as <-. exists b, tasks'. auto.
    - rewrite <- H in X. clear H.
      match type of X with next ?e ?k = _ => assert (Y : e = Rejects DependencyCycle) end.
      { match type of X with next ?e ?k = _ => destruct e as [q|e'| | |] end; try discriminate X.
        - exfalso. cbn [next] in X. apply next_cycle in X; [|apply tame_demand]. destruct X as (u3 & _ & X).
          apply next_cycle in X; [|apply tame_demand]. destruct X as (u4 & _ & X). discriminate X.
        - cbn [next] in X. injection X as ->. reflexivity. }
      clear X. apply next_cycle in Y; [|apply tame_demand]. destruct Y as (u3 & _ & Y).
      destruct (size_of (Seq l) =? 0); [discriminate Y|].
      apply next_cycle in Y; [|apply tame_each; intros; apply tame_parse_task]. destruct Y as (b & B & Y).
      apply next_cycle in Y; [|apply tame_resolve]. destruct Y as (tasks' & R & Y). exists b, tasks'.
      split; [exact B|]. split; [exact R|]. right. split; [|exact X0].
      destruct (check_for_cycles tasks') as [u4|e| | |]; cbn [next] in Y; try discriminate Y.
      + apply next_cycle in Y; [|apply tame_demand]. destruct Y as (u5 & _ & Y). discriminate Y.
      + injection Y as ->. reflexivity. }
  clear H. destruct STAGE as (b & tasks' & B & R & OUT').
  assert (CON : forall n, In n l -> task_contract (parse_task (height (Seq l))) n).
  { intros n I. apply parse_task_contract; [pose proof (height_item l n I); lia|exact (SO n I)|intros v F; exact (SS n v I F)]. }
  destruct (tasks_loop (height (Seq l)) l CON {| bd_project := p1; bd_deps := [] |} b B IDS) as (new & kids & es & LAY & T2 & GR & ID2).
  cbn [bd_project] in LAY, T2, ID2. rewrite T1 in LAY, T2, ID2. cbn [length app map] in LAY, T2, ID2.
  specialize (ID2 ltac:(intros [|i] j s X; discriminate X)).
  destruct GR as [GA (le & FL & GG) (nd & FD & BD) FI FR]. cbn [bd_project bd_deps app] in GA, GG, BD, FI, FR.
  unfold resolve_dependencies in R. skip R. skip R. rewrite T2, BD in R. rewrite T2 in ID2, E.
  pose proof (proj2 layout_shape _ _ _ _ LAY ST) as SHE.
  destruct (resolved _ _ new es nd tasks' FI FD SHE ID2 R) as (TM & MID & DEPS & FOUND).
  set (q := {| pr_groups := pr_groups (bd_project b); pr_agents := pr_agents (bd_project b); pr_tasks := tasks' |}) in *.
  assert (MEN : mentions ags es (concat la ++ concat le)) by (exists la, le; auto).
  assert (TAB : pr_groups q = first_mentions (concat la ++ concat le)).
  { cbn [q pr_groups]. rewrite GG, G1, <- add_all_app. apply add_all_nil. }
  exists q, ags, es. split; [|exact OUT']. constructor; cbn [q pr_groups pr_agents pr_tasks].
  - exact SH.
  - exact FA.
  - exists l, kids. auto.
  - exists (concat la ++ concat le)%list. auto.
  - rewrite GA, A1. destruct AM as [L AM]. split; [exact L|]. intros i a e X Y. rewrite GG.
    destruct (add_all_prefix (concat le) (pr_groups p1)) as [rr ->]. apply agent_mirrors_prefix. exact (AM i a e X Y).
  - rewrite GA. exact ND.
  - rewrite GA. exact TM.
  - exact DEPS.
  - exact FOUND.
  - rewrite MID. exact ID2.
  - rewrite GA. destruct FR as [U|U]; [left; exact U|]. right. rewrite U, A1.
    apply (agents_covered as_float (pr_groups p1) agents ags la AM).
    + intros [k v] I. exact (SA k v I).
    + exact FG.
    + rewrite G1, add_all_nil. apply first_mentions_NoDup.
    + intros g I. rewrite G1, add_all_nil in I. apply first_mentions_In, I.
  - rewrite GA. split.
    + intro X. rewrite X in E1. discriminate E1.
    + intro X. pose proof (Forall2_same_length _ _ _ _ _ TM) as L. rewrite X in L.
      pose proof (Forall2_same_length _ _ _ _ _ FI) as L'. rewrite <- L in L'. destruct new; [discriminate E|discriminate L'].
Qed.
