(** * Proofs about the loader: how loading ends *)

From Coq Require Import String Ascii List Bool Arith ZArith Lia Sorted Relations.
From Verif Require Import Base F32 ProjectModel YamlModel ValidationModel DurationModel DurationSpec DurationProofs
  DurationProps DocumentSpec ValidationProofs ScheduleSpec
  LoadModel LoadSpec LoadProofs LoadTaskProofs LoadCycleProofs LayoutProofs LoadFacts.
Import ListNotations.
Local Open Scope string_scope.
Local Open Scope nat_scope.

Definition fine {A} (x : loading A) : Prop := match x with Loads _ | Rejects _ => True | _ => False end.

Lemma fine_next : forall A B (x : loading A) (f : A -> loading B),
  fine x -> (forall a, x = Loads a -> fine (f a)) -> fine (next x f).
Proof. intros A B [a|e| | |] f X F; cbn in *; auto. Qed.

Lemma fine_get : forall ns y n, has_keys ns y -> fine (get y n).
Proof. intros ns y n K. unfold get. destruct (has_keys_total ns y n K) as (o & ->). exact I. Qed.

Lemma fine_int8 : forall n, n <= 127 -> fine (to_int8 n).
Proof. intros n H. unfold to_int8. destruct (Nat.leb_spec n 127); [exact I|lia]. Qed.

Lemma not_empty : forall s, s <> "" -> is_empty s = false.
Proof. intros [|c s] H; [congruence|reflexivity]. Qed.

Ltac ready E := rewrite E; cbn [negb demand next].

(** ** Groups *)

Lemma position_lt : forall x l i, position x l = Some i -> i < length l.
Proof. intros x l i H. apply nth_error_Some. rewrite (position_Some x l i H). discriminate. Qed.

Lemma add_all_grows : forall names t, length t <= length (add_all names t).
Proof. intros names t. destruct (add_all_prefix names t) as [r ->]. rewrite app_length. lia. Qed.

Lemma add_all_app_grows : forall a b t, length (add_all a t) <= length (add_all (a ++ b) t).
Proof. intros a b t. rewrite add_all_app. apply add_all_grows. Qed.

Lemma fine_group : forall t g, g <> "" -> length (add_new t g) <= 128 -> fine (find_or_insert_group t g).
Proof.
  intros t g NE L. unfold find_or_insert_group. ready (not_empty g NE).
  assert (LT : length t <= length (add_new t g)) by (apply (add_all_grows [g] t)).
  destruct (position g t) as [i|] eqn:P.
  - apply fine_next; [apply fine_int8; apply position_lt in P; lia|]. intros a _. exact I.
  - apply fine_next; [|intros a _; exact I]. apply fine_int8. unfold add_new in L.
    destruct (existsb (String.eqb g) t) eqn:X.
    + apply existsb_In in X. destruct (position_None g t P X).
    + rewrite app_length in L. cbn in L. lia.
Qed.

Lemma fine_agent_groups : forall names t ids, ~ In "" names -> length (add_all names t) <= 128 ->
  fine (each (fun s g => next (find_or_insert_group (fst s) g) (fun '(groups', i, _) => Loads (groups', set_insert i (snd s))))
    (t, ids) names).
Proof.
  induction names as [|g names IH]; intros t ids NI L; cbn [each]; [exact I|].
  assert (NG : g <> "") by (intros ->; apply NI; left; reflexivity).
  assert (L1 : length (add_new t g) <= 128).
  { pose proof (add_all_grows names (add_new t g)) as X. unfold add_all in L, X. cbn [fold_left] in L. lia. }
  apply fine_next.
  - apply fine_next; [apply fine_group; assumption|]. intros [[t1 i] new] _. exact I.
  - intros s1 E. step E r. destruct r as [[t1 i] new]. injection E as <-. apply find_group_spec in E0.
    destruct E0 as (_ & T1 & _). cbn [fst] in T1. subst t1. apply IH.
    + intro X. apply NI. right. exact X.
    + exact L.
Qed.

(** ** Agents *)

Lemma fine_performance_value : forall f n o, fine (performance_value f n o).
Proof.
  intros. unfold performance_value. destruct (node_float f o) as [x|]; [|exact I].
  destruct (validate_performance x); exact I.
Qed.

Lemma fine_performance : forall f n node, is_range node -> fine (parse_agent_performance f n node).
Proof.
  intros f n node R. unfold parse_agent_performance. apply fine_next.
  - assert (MM : is_range node -> (forall s, node <> Scalar s) ->
      fine (next (get node "min") (fun lo_node => next (performance_value f n lo_node) (fun lo =>
        next (get node "max") (fun hi_node => next (performance_value f n hi_node) (fun hi =>
          Loads {| perf_min := lo; perf_max := hi |})))))).
    { intros [(s & E)|(K & _)] NS; [destruct (NS s E)|].
      apply fine_next; [exact (fine_get _ _ _ K)|]. intros o1 _.
      apply fine_next; [apply fine_performance_value|]. intros lo _.
      apply fine_next; [exact (fine_get _ _ _ K)|]. intros o2 _.
      apply fine_next; [apply fine_performance_value|]. intros hi _. exact I. }
    destruct node as [|s|l|l]; try (apply MM; [exact R|discriminate]).
    apply fine_next; [apply fine_performance_value|]. intros x _. exact I.
  - intros p _. destruct (f_lt (perf_max p) (perf_min p)); exact I.
Qed.

Lemma fine_agent : forall f p e s names, agent_shape (snd e) -> fst e = Scalar s -> s <> "" ->
  agent_groups (snd e) names -> ~ In "" names -> length (pr_agents p) <= 127 ->
  length (add_all names (pr_groups p)) <= 128 -> fine (parse_agent f p e).
Proof.
  intros f p e s names SH KE NE G NI LA LG. pose proof SH as (K & SP & SG). unfold parse_agent. rewrite KE. cbn [scalar_of].
  ready (not_empty s NE). apply fine_next.
  { unfold check_agent_name. ready (not_empty s NE). destruct (position s (map ag_name (pr_agents p))); exact I. }
  intros _ _. apply fine_next; [apply fine_int8; exact LA|]. intros aid _.
  apply fine_next; [exact (fine_get _ _ _ K)|]. intros gn GN. apply fine_next.
  - destruct gn as [g|]; [|exact I]. apply get_field in GN. destruct (texts_items g (SG g GN)) as (l & ->).
    pose proof (agent_groups_fun _ _ _ SH G (or_introl GN)) as ->.
    unfold parse_agent_groups. cbn [items_of]. rewrite each_map. cbn [scalar_of]. apply fine_agent_groups; assumption.
  - intros [groups ids] _. apply fine_next; [exact (fine_get _ _ _ K)|]. intros pn PN. apply fine_next; [|intros; exact I].
    destruct pn as [n|]; [|exact I]. apply get_field in PN. apply fine_performance. exact (SP n PN).
Qed.

Lemma fine_agents : forall f es p la, (forall e, In e es -> agent_shape (snd e)) ->
  (forall k v, In (k, v) es -> exists s, k = Scalar s /\ s <> "") ->
  Forall2 (fun e g => agent_groups (snd e) g) es la -> ~ In "" (concat la) ->
  length (pr_agents p) + length es <= 128 -> length (add_all (concat la) (pr_groups p)) <= 128 ->
  fine (each (parse_agent f) p es).
Proof.
  intros f es. induction es as [|e es IH]; intros p la SH NM F NI LA LG; cbn [each]; [exact I|].
  inversion F as [|e' g es' la' G F']; subst. cbn [concat] in NI, LG. cbn [length] in LA.
  destruct (NM (fst e) (snd e)) as (s & KE & NE); [left; destruct e; reflexivity|].
  assert (NI1 : ~ In "" g) by (intro X; apply NI, in_or_app; auto).
  apply fine_next.
  - apply (fine_agent f p e s g); try assumption; [apply SH; left; reflexivity|lia|].
    pose proof (add_all_app_grows g (concat la') (pr_groups p)). lia.
  - intros p1 P1. apply parse_agent_spec in P1; [|apply SH; left; reflexivity].
    destruct P1 as (a & names & A & _ & G' & GR & _).
    pose proof (agent_groups_fun _ _ _ (SH e (or_introl eq_refl)) G G') as <-.
    apply (IH p1 la').
    + intros x X. apply SH. right. exact X.
    + intros k v X. apply (NM k v). right. exact X.
    + exact F'.
    + intro X. apply NI, in_or_app. auto.
    + rewrite A, app_length. cbn. lia.
    + rewrite GR, <- add_all_app. exact LG.
Qed.

(** ** Tasks *)

Lemma fine_duration_text : forall t s, numbers_fit (list_ascii_of_string s) -> fine (duration_text t s).
Proof.
  intros t s NF. unfold duration_text. destruct (duration_accepted_iff _ NF) as [A B].
  destruct (DurationModel.parse_duration (list_ascii_of_string s)) as [z| |] eqn:P; try exact I.
  assert (X : Undefined = ParseError); [|discriminate X]. apply B. intros ph OK TX.
  destruct (proj2 A) as (x & X); [exists ph; auto|]. discriminate X.
Qed.

Lemma fine_duration : forall y name v, field y "duration" v -> is_range v ->
  (forall lo hi, duration_texts y lo hi -> numbers_fit (list_ascii_of_string lo) /\ numbers_fit (list_ascii_of_string hi)) ->
  fine (parse_task_duration name (Some v)).
Proof.
  intros y name v F R NF. unfold parse_task_duration. apply fine_next.
  - destruct R as [(s & ->)|(K & (a & A & (sa & ->)) & (b & B & (sb & ->)))].
    + apply fine_next; [|intros; exact I]. apply fine_duration_text. apply (NF s s). left. auto.
    + destruct (NF sa sb) as [N1 N2]; [right; exists v; auto|].
      pose proof (has_keys_unique _ _ _ _ K A) as SA. pose proof (has_keys_unique _ _ _ _ K B) as SB.
      destruct (field_Map _ _ _ A) as (l & ->).
      unfold get_text, get. rewrite SA, SB. cbn [next scalar_of].
      apply fine_next; [apply fine_duration_text, N1|]. intros lo _.
      apply fine_next; [apply fine_duration_text, N2|]. intros hi _. exact I.
  - intros [lo hi] _. destruct (hi <? lo)%Z; exact I.
Qed.

Lemma fine_task_group : forall p ids s, s <> "" -> pr_agents p <> [] -> length (add_new (pr_groups p) s) <= 128 ->
  fine (parse_task_group (p, ids) (Scalar s)).
Proof.
  intros p ids s NE NA L. unfold parse_task_group. cbn [scalar_of]. ready (not_empty s NE).
  apply fine_next; [apply fine_group; assumption|]. intros [[g i] new] _. apply fine_next.
  - destruct new; [|exact I]. unfold universal_agents, has_universal_agents. cbn [pr_agents].
    destruct (pr_agents p); [congruence|exact I].
  - intros u _. destruct (negb u); exact I.
Qed.

Lemma fine_task_groups : forall names p ids, ~ In "" names -> pr_agents p <> [] ->
  length (add_all names (pr_groups p)) <= 128 -> fine (each parse_task_group (p, ids) (map Scalar names)).
Proof.
  induction names as [|g names IH]; intros p ids NI NA L; cbn [map each]; [exact I|].
  assert (NG : g <> "") by (intros ->; apply NI; left; reflexivity).
  assert (L1 : length (add_new (pr_groups p) g) <= 128).
  { pose proof (add_all_grows names (add_new (pr_groups p) g)) as X. unfold add_all in L, X. cbn [fold_left] in L. lia. }
  apply fine_next; [apply fine_task_group; assumption|]. intros [p1 ids1] E.
  assert (Q : pr_agents p1 = pr_agents p /\ pr_groups p1 = add_new (pr_groups p) g).
  { unfold parse_task_group in E. cbn [scalar_of] in E. skip E. step E r. destruct r as [[t1 i] new]. step E u1.
    destruct (negb u1); [discriminate E|]. injection E as <- <-. apply find_group_spec in E1. split; [reflexivity|apply E1]. }
  destruct Q as [Q1 Q2]. apply IH; [intro X; apply NI; right; exact X|congruence|]. rewrite Q2. exact L.
Qed.

Lemma fine_assignment : forall n name p names, own_shape n -> name <> "" -> pr_agents p <> [] ->
  task_groups n names -> ~ In "" names -> length (add_all names (pr_groups p)) <= 128 ->
  fine (parse_groups_and_agents n name p).
Proof.
  intros n name p names SH NE NA TG NI L. pose proof SH as (K & SG & SGS & SA & _). unfold parse_groups_and_agents.
  ready (not_empty name NE).
  apply fine_next; [exact (fine_get _ _ _ K)|]. intros g G.
  apply fine_next; [exact (fine_get _ _ _ K)|]. intros gs GS.
  apply fine_next; [exact (fine_get _ _ _ K)|]. intros a A.
  destruct (1 <? count_defined [g; gs; a]); [exact I|].
  destruct g as [g|].
  - apply get_field in G. destruct (SG g G) as (s & ->).
    assert (E : names = [s]).
    { apply (task_groups_fun n names [s] SH TG). left. exists s. auto. }
    subst names. apply fine_next; [apply fine_task_group|intros [q i] _; exact I].
    + intros ->. apply NI. left. reflexivity.
    + exact NA.
    + exact L.
  - apply get_absent in G. destruct gs as [gs|].
    + apply get_field in GS. destruct (texts_items gs (SGS gs GS)) as (l & ->).
      assert (E : names = l).
      { apply (task_groups_fun n names l SH TG). right. left. auto. }
      subst l. apply fine_next; [|intros [q i] _; exact I]. unfold parse_task_groups. cbn [items_of].
      apply fine_task_groups; assumption.
    + destruct a as [a|]; [|exact I]. apply get_field in A. destruct (SA a A) as (s & ->).
      apply fine_next; [|intros; exact I]. unfold parse_task_agent.
      assert (DA : match pr_agents p with [] => false | _ => true end = true) by (destruct (pr_agents p); congruence).
      ready DA. destruct (is_empty s) eqn:ES; [exact I|]. unfold find_agent_index. ready DA. ready ES.
      destruct (position s (map ag_name (pr_agents p))) as [i|] eqn:P; [|exact I].
      apply position_lt in P. rewrite map_length in P. destruct (nth_error (pr_agents p) i) eqn:N; [exact I|].
      apply nth_error_None in N. lia.
Qed.

Lemma fine_dependencies : forall n v name, field n "depends_on" v -> is_text v \/ is_texts v ->
  ~ texts_field n "depends_on" [] -> fine (parse_dependencies v name).
Proof.
  intros n v name F D NE. unfold parse_dependencies. destruct D as [(s & ->)|D].
  - apply fine_next.
    + apply fine_next; [unfold validate_task_id; destruct (is_empty s); exact I|]. intros i _. exact I.
    + intros ids E. step E i. injection E as <-. exact I.
  - destruct (texts_items v D) as (l & ->). apply fine_next.
    + clear. enough (X : forall done, fine (each (fun ids d => do i <- validate_task_id (scalar_of d) name ; Loads (ids ++ [i])%list)
        done (map Scalar l))) by apply X.
      induction l as [|s l IH]; intro done; cbn [map each]; [exact I|].
      apply fine_next; [|intros; apply IH].
      apply fine_next; [unfold validate_task_id; cbn [scalar_of]; destruct (is_empty s); exact I|]. intros i _. exact I.
    + intros ids E. apply dependency_ids in E. destruct E as [-> _]. destruct l as [|s l]; [|exact I].
      destruct (NE F).
Qed.

Definition good (es : list (yaml * list nat)) : Prop :=
  forall e, In e es ->
  ~ texts_field (fst e) "depends_on" [] /\
  forall lo hi, duration_texts (fst e) lo hi ->
    numbers_fit (list_ascii_of_string lo) /\ numbers_fit (list_ascii_of_string hi).

Record room (b : building) (es : list (yaml * list nat)) (le : list (list string)) : Prop := {
  rm_ids : forall i a, nth_error (pr_agents (bd_project b)) i = Some a -> ag_id a = i;
  rm_agents : pr_agents (bd_project b) <> [];
  rm_same : length (pr_tasks (bd_project b)) = length (bd_deps b);
  rm_groups : Forall2 (fun e g => task_groups (fst e) g) es le;
  rm_good : good es;
  rm_tasks : length (pr_tasks (bd_project b)) + length es <= 127;
  rm_names : ~ In "" (concat le);
  rm_table : length (add_all (concat le) (pr_groups (bd_project b))) <= 128
}.

Definition task_fine (parse : building -> yaml -> loading building) (n : yaml) : Prop :=
  forall b es le, layout (length (pr_tasks (bd_project b))) n es -> room b es le -> fine (parse b n).

(** After a task there is room for the others. *)
Lemma room_after : forall b b1 new es1 es2 le1 le2,
  room b (es1 ++ es2) (le1 ++ le2) -> length es1 = length le1 -> Forall (fun e => own_shape (fst e)) es1 ->
  length (pr_tasks (bd_project b1)) = length (pr_tasks (bd_project b)) + length new ->
  grown b b1 new es1 -> room b1 es2 le2.
Proof.
  intros b b1 new es1 es2 le1 le2 R L SH T G. pose proof (grown_length _ _ _ _ G) as LN.
  destruct R as [R1 R2 R3 R4 R5 R6 R7 R8]. destruct G as [GA (names & GN & GG) (nd & GD & GB) _ _].
  apply Forall2_app_inv_l in R4. destruct R4 as (x & y & F1 & F2 & E).
  assert (X : x = le1 /\ y = le2).
  { pose proof (Forall2_same_length _ _ _ _ _ F1) as LX. assert (LE : length x = length le1) by congruence.
    clear - E LE. revert x LE E. induction le1 as [|a l IH]; intros [|b x] LE E; try discriminate LE; [auto|].
    cbn in E. injection E as <- E. destruct (IH x) as [-> ->]; auto. }
  destruct X as [-> ->].
  assert (NE : names = le1).
  { refine (eq_sym _). clear - F1 GN SH. revert le1 names F1 GN. induction es1 as [|e es IH]; intros le1 names F1 GN;
      inversion F1; inversion GN; subst; [reflexivity|]. inversion SH; subst.
    f_equal; [eapply task_groups_fun; eassumption|apply IH; assumption]. }
  subst names. rewrite concat_app in R7, R8. constructor.
  - intros i a. rewrite GA. exact (R1 i a).
  - congruence.
  - rewrite T, GB, app_length, R3, <- (Forall2_same_length _ _ _ _ _ GD). lia.
  - exact F2.
  - intros e I. apply R5, in_or_app. auto.
  - rewrite T. rewrite app_length in R6. lia.
  - intro X. apply R7, in_or_app. auto.
  - rewrite GG, <- add_all_app. exact R8.
Qed.

Lemma room_first : forall b es1 es2 le, room b (es1 ++ es2) le ->
  exists le1 le2, le = (le1 ++ le2)%list /\ length es1 = length le1 /\ room b es1 le1.
Proof.
  intros b es1 es2 le [R1 R2 R3 R4 R5 R6 R7 R8]. apply Forall2_app_inv_l in R4. destruct R4 as (x & y & F1 & F2 & ->).
  exists x, y. split; [reflexivity|]. split; [exact (Forall2_same_length _ _ _ _ _ F1)|].
  rewrite app_length in R6. rewrite concat_app in R7, R8. constructor; try assumption.
  - intros e I. apply R5, in_or_app. auto.
  - lia.
  - intro X. apply R7, in_or_app. auto.
  - pose proof (add_all_app_grows (concat x) (concat y) (pr_groups (bd_project b))). lia.
Qed.

Lemma room_same : forall b b' es le, room b es le -> pr_agents (bd_project b') = pr_agents (bd_project b) ->
  pr_groups (bd_project b') = pr_groups (bd_project b) -> length (pr_tasks (bd_project b')) = length (pr_tasks (bd_project b)) ->
  bd_deps b' = bd_deps b -> room b' es le.
Proof.
  intros b b' es le [R1 R2 R3 R4 R5 R6 R7 R8] A G T D.
  constructor; rewrite ?A, ?G, ?T, ?D; assumption.
Qed.

Definition shaped (n : yaml) : Prop := own_shape n /\ forall v, field n "subtasks" v -> tasks_shape v.

Lemma fine_subtasks : forall parse subs, (forall n, In n subs -> task_contract parse n /\ task_fine parse n /\ shaped n) ->
  forall b index kids es le, layouts (length (pr_tasks (bd_project b))) subs kids es -> room b es le ->
  index < length (pr_tasks (bd_project b)) ->
  fine (each (fun b sub =>
    do j <- to_int8 (length (pr_tasks (bd_project b))) ;
    do p <- add_dependency (bd_project b) index j ;
    parse {| bd_project := p; bd_deps := bd_deps b |} sub) b subs).
Proof.
  intros parse subs. induction subs as [|n subs IH]; intros C b index kids es le LAY R LT; cbn [each]; [exact I|].
  inversion LAY as [|pos t ts es1 kids2 es2 L1 L2]; subst.
  destruct (C n (or_introl eq_refl)) as (CO & FI & (SH & SS)).
  destruct (room_first b es1 es2 le R) as (le1 & le2 & -> & LEN & R1).
  assert (POS : 0 < length es1) by (apply (proj1 layout_range _ _ _ L1)).
  pose proof (rm_tasks _ _ _ R1) as SZ.
  destruct (nth_error (pr_tasks (bd_project b)) index) as [t|] eqn:N; [|apply nth_error_None in N; lia].
  set (body := next (to_int8 (length (pr_tasks (bd_project b)))) _).
  assert (B : exists b0, body = parse b0 n /\ pr_agents (bd_project b0) = pr_agents (bd_project b) /\
    pr_groups (bd_project b0) = pr_groups (bd_project b) /\
    length (pr_tasks (bd_project b0)) = length (pr_tasks (bd_project b)) /\ bd_deps b0 = bd_deps b).
  { unfold body, to_int8. destruct (Nat.leb_spec (length (pr_tasks (bd_project b))) 127); [|lia]. cbn [next].
    unfold add_dependency. rewrite N. cbn [next]. eexists. split; [reflexivity|]. cbn [bd_project pr_agents pr_groups pr_tasks bd_deps].
    split; [reflexivity|]. split; [reflexivity|]. split; [apply set_nth_len|reflexivity]. }
  clearbody body. destruct B as (b0 & -> & A0 & G0 & T0 & D0).
  pose proof (room_same b b0 es1 le1 R1 A0 G0 T0 D0) as R0.
  assert (L1' : layout (length (pr_tasks (bd_project b0))) n es1) by (rewrite T0; exact L1).
  apply fine_next; [exact (FI b0 es1 le1 L1' R0)|]. intros b1 E1.
  destruct (CO b0 b1 E1 (rm_ids _ _ _ R0)) as (new & es1' & LAY' & T1 & GR & _).
  pose proof (proj1 layout_fun _ _ _ L1' SH SS _ LAY') as ->.
  assert (LT1 : length (pr_tasks (bd_project b1)) = length (pr_tasks (bd_project b)) + length es1).
  { rewrite T1, app_length, T0, (grown_length _ _ _ _ GR). reflexivity. }
  apply (IH (fun m I => C m (or_intror I)) b1 index kids2 es2 le2).
  - rewrite LT1. exact L2.
  - apply (room_after b0 b1 new es1 es2 le1 le2).
    + apply (room_same b b0 _ _ R A0 G0 T0 D0).
    + exact LEN.
    + exact (proj1 layout_shape _ _ _ L1 SH SS).
    + rewrite T1, app_length. reflexivity.
    + exact GR.
  - lia.
Qed.

Lemma fine_task : forall fuel n, height n <= fuel -> shaped n -> task_fine (parse_task fuel) n.
Proof.
  induction fuel as [|fuel IH]; intros n HT SS b es le LAY R.
  { destruct SS as ((_ & _ & _ & _ & (v & F & _) & _) & _). pose proof (height_field _ _ _ F). lia. }
  destruct SS as [SH SUB]. cbn [parse_task]. pose proof SH as (K & _ & _ & _ & (nv & NF & (ns & ->)) & SI & SD & (dv & DF & DR)).
  assert (NN : match n with Null => false | _ => true end = true) by (destruct NF as (l & -> & _); reflexivity).
  ready NN. rewrite (rm_same _ _ _ R), Nat.eqb_refl. cbn [demand next].
  unfold get_text, get at 1. rewrite (has_keys_unique _ _ _ _ K NF). cbn [next scalar_of].
  destruct (is_empty ns) eqn:ES; [exact I|]. assert (NE : ns <> "") by (intros ->; discriminate ES).
  assert (HD : exists kids es', es = (n, kids) :: es' /\ exists lg le', le = lg :: le' /\ task_groups n lg).
  { pose proof (rm_groups _ _ _ R) as F.
    inversion LAY as [pos t A|pos t subs kids es' FS LS]; subst; inversion F as [|x y xs ys TG F']; subst.
    - exists [], []. split; [reflexivity|]. exists y, ys. auto.
    - exists kids, es'. split; [reflexivity|]. exists y, ys. auto. }
  destruct HD as (kids & es' & -> & lg & le' & -> & TG).
  destruct (rm_good _ _ _ R (n, kids) (or_introl eq_refl)) as [GD GN]. cbn [fst] in GD, GN.
  pose proof (rm_names _ _ _ R) as RN. pose proof (rm_table _ _ _ R) as RT. cbn [concat] in RN, RT.
  apply fine_next; [exact (fine_get _ _ _ K)|]. intros idn IDN. apply fine_next.
  { destruct idn as [v|]; [|exact I]. unfold parse_task_id. destruct (is_empty (scalar_of v)) eqn:EV; [exact I|].
    apply fine_next; [|intros; exact I]. unfold check_task_id. ready EV.
    destruct (position _ _); exact I. }
  intros tid TID. apply fine_next; [exact (fine_get _ _ _ K)|]. intros dn DN.
  assert (DV : dn = Some dv).
  { unfold get in DN. rewrite (has_keys_unique _ _ _ _ K DF) in DN. congruence. }
  subst dn. apply fine_next; [exact (fine_duration n ns dv DF DR GN)|]. intros [lo hi] DUR.
  apply fine_next.
  { apply (fine_assignment n ns (bd_project b) lg SH NE (rm_agents _ _ _ R) TG).
    - intro X. apply RN, in_or_app. auto.
    - pose proof (add_all_app_grows lg (concat le') (pr_groups (bd_project b))). lia. }
  intros [[p1 ids] ag] AS. apply fine_next; [exact (fine_get _ _ _ K)|]. intros on ON. apply fine_next.
  { destruct on as [v|]; [|exact I]. apply get_field in ON. exact (fine_dependencies n v ns ON (SD v ON) GD). }
  intros deps DP. cbv zeta.
  destruct (parse_assignment_spec n ns (bd_project b) p1 ids ag SH (rm_ids _ _ _ R) AS) as (A1 & T1 & (lg' & TG' & _ & _ & G1) & _).
  pose proof (task_groups_fun n lg lg' SH TG TG') as <-.
  set (t := {| tk_name := ns; tk_id := tid; tk_groups := ids; tk_agent := ag; tk_deps := []; tk_min := lo; tk_max := hi |}).
  set (b1 := {| bd_project := {| pr_groups := pr_groups p1; pr_agents := pr_agents p1; pr_tasks := (pr_tasks p1 ++ [t])%list |};
                bd_deps := (bd_deps b ++ [deps])%list |}).
  pose proof (rm_tasks _ _ _ R) as SZ. cbn [length] in SZ.
  assert (LB : length (pr_tasks (bd_project b1)) = S (length (pr_tasks (bd_project b)))).
  { cbn [b1 bd_project pr_tasks]. rewrite T1, app_length. cbn. lia. }
  apply fine_next; [exact (fine_get _ _ _ K)|]. intros sn SN.
  assert (SAME : forall b2, length (pr_tasks (bd_project b2)) = length (bd_deps b2) ->
    fine (next (demand (length (pr_tasks (bd_project b2)) =? length (bd_deps b2))) (fun _ => Loads b2))).
  { intros b2 E. rewrite E, Nat.eqb_refl. exact I. }
  assert (S1 : length (pr_tasks (bd_project b1)) = length (bd_deps b1)).
  { rewrite LB. cbn [b1 bd_deps]. rewrite app_length, (rm_same _ _ _ R). cbn. lia. }
  destruct sn as [sv|].
  - apply get_field in SN. pose proof (SUB sv SN) as TS. pose proof (height_field n "subtasks" sv SN) as HF.
    destruct TS as [subs TS1 TS2].
    assert (CON : forall m, In m subs -> task_contract (parse_task fuel) m /\ task_fine (parse_task fuel) m /\ shaped m).
    { intros m I. assert (HM : height m <= fuel) by (pose proof (height_item subs m I); lia).
      assert (SM : shaped m) by (split; [apply TS1, I|intros w W; exact (TS2 m w I W)]).
      split; [apply parse_task_contract; [exact HM|apply SM|apply SM]|]. split; [apply IH; assumption|exact SM]. }
    assert (LAYS : layouts (length (pr_tasks (bd_project b1))) subs kids es').
    { rewrite LB. inversion LAY as [pos u A|pos u subs' kids' es2 FS LS]; subst.
      - destruct (A _ SN).
      - pose proof (field_unique _ _ _ _ _ K SN FS) as E. injection E as <-. exact LS. }
    assert (R1 : room b1 es' le').
    { destruct R as [R1 R2 R3 R4 R5 R6 R7 R8]. constructor; cbn [b1 bd_project pr_agents pr_groups].
      - intros i a. rewrite A1. exact (R1 i a).
      - congruence.
      - exact S1.
      - inversion R4; assumption.
      - intros e X. apply R5. right. exact X.
      - fold b1. cbn [b1 bd_project] in LB. rewrite LB. lia.
      - intro X. apply RN, in_or_app. auto.
      - rewrite G1, <- add_all_app. exact RT. }
    apply fine_next.
    + apply fine_next; [apply fine_int8; rewrite LB; lia|]. intros index IX. apply to_int8_Loads in IX. destruct IX as [-> _].
      unfold parse_subtasks.
      assert (D1 : match pr_tasks (bd_project b1) with [] => false | _ => true end = true)
        by (destruct (pr_tasks (bd_project b1)); [discriminate LB|reflexivity]).
      ready D1. rewrite LB. assert (D2 : S (length (pr_tasks (bd_project b))) - 1 <? S (length (pr_tasks (bd_project b))) = true)
        by (apply Nat.ltb_lt; lia). ready D2. cbn [items_of].
      apply (fine_subtasks (parse_task fuel) subs CON b1 _ kids es' le' LAYS R1). lia.
    + intros b2 E2. apply SAME. step E2 ix. apply to_int8_Loads in E. destruct E as [-> _]. unfold parse_subtasks in E2.
      skip E2. skip E2. cbn [items_of] in E2. rewrite LB in E2. replace (S (length (pr_tasks (bd_project b))) - 1)
        with (length (pr_tasks p1)) in E2 by (rewrite T1; lia).
      destruct (subtasks_loop (parse_task fuel) subs (fun m I => proj1 (CON m I)) b1 b2 (pr_tasks p1) t [] E2 (rm_ids _ _ _ R1) eq_refl
        ltac:(constructor)) as (d & new & kids' & es2 & _ & T2 & _ & _ & G2 & _).
      destruct G2 as [_ _ (nd & GD2 & GB) GF _].
      rewrite T2, GB, !app_length. cbn [length app]. rewrite <- (Forall2_same_length _ _ _ _ _ GD2), (Forall2_same_length _ _ _ _ _ GF).
      rewrite <- S1. cbn [b1 bd_project pr_tasks]. rewrite app_length. cbn. lia.
  - apply fine_next; [exact I|]. intros b2 E2. injection E2 as <-. apply SAME. exact S1.
Qed.

Lemma fine_tasks : forall fuel l, (forall n, In n l -> height n <= fuel /\ shaped n) ->
  forall b kids es le, layouts (length (pr_tasks (bd_project b))) l kids es -> room b es le ->
  fine (each (parse_task fuel) b l).
Proof.
  intros fuel l. induction l as [|n l IH]; intros C b kids es le LAY R; cbn [each]; [exact I|].
  inversion LAY as [|pos t ts es1 kids2 es2 L1 L2]; subst.
  destruct (C n (or_introl eq_refl)) as (HT & (SH & SS)).
  destruct (room_first b es1 es2 le R) as (le1 & le2 & -> & LEN & R1).
  apply fine_next; [exact (fine_task fuel n HT (conj SH SS) b es1 le1 L1 R1)|]. intros b1 E1.
  destruct (parse_task_contract fuel n HT SH SS b b1 E1 (rm_ids _ _ _ R1)) as (new & es1' & LAY' & T1 & GR & _).
  pose proof (proj1 layout_fun _ _ _ L1 SH SS _ LAY') as ->.
  apply (IH (fun m I => C m (or_intror I)) b1 kids2 es2 le2).
  - rewrite T1, app_length, (grown_length _ _ _ _ GR). exact L2.
  - apply (room_after b b1 new es1 es2 le1 le2 R LEN).
    + exact (proj1 layout_shape _ _ _ L1 SH SS).
    + rewrite T1, app_length. reflexivity.
    + exact GR.
Qed.

(** ** Dependencies *)

Lemma fine_resolve : forall tasks l deps, length tasks <= 127 ->
  Forall (fun d => Forall (fun s => s <> "") d) deps -> fine (resolve_all tasks l deps).
Proof.
  intros tasks l. induction l as [|t l IH]; intros [|d deps] L F; cbn [resolve_all]; try exact I.
  inversion F as [|x y FD F']; subst. apply fine_next.
  - clear IH F F'. unfold resolve_task. revert t. induction FD as [|s d NE FD IHd]; intro t; cbn [each]; [exact I|].
    apply fine_next; [|intros; apply IHd]. apply fine_next; [|intros; exact I]. unfold find_task_index.
    ready (not_empty s NE). destruct (position s (map tk_id tasks)) as [i|] eqn:P; [|exact I]. apply fine_int8.
    apply position_lt in P. rewrite map_length in P. lia.
  - intros t' _. apply fine_next; [apply IH; assumption|]. intros r _. exact I.
Qed.

Lemma depends_range : forall l kids es i j, layouts 0 l kids es -> document_depends es i j -> j < length es.
Proof.
  intros l kids es i j LAY (n & ks & E & [K|(ids & s & n' & k' & _ & _ & _ & E' & _)]).
  - destruct (proj2 layout_range _ _ _ _ LAY) as [_ R]. specialize (R (n, ks) j (nth_error_In _ _ E) K). lia.
  - apply nth_error_Some. congruence.
Qed.

Lemma groups_written : forall e : yaml * list nat, own_shape (fst e) -> exists g, task_groups (fst e) g.
Proof.
  intros e (K & SG & SGS & _).
  destruct (has_keys_total _ _ "group" K) as [[v|] E].
  - apply subscript_field in E. destruct (SG v E) as (s & ->). exists [s]. left. exists s. auto.
  - pose proof (subscript_none _ _ E) as A. destruct (has_keys_total _ _ "groups" K) as [[v|] E'].
    + apply subscript_field in E'. destruct (texts_items v (SGS v E')) as (l & ->). exists l. right. left. auto.
    + exists []. right. right. split; [exact A|]. split; [exact (subscript_none _ _ E')|reflexivity].
Qed.

Lemma agent_groups_written : forall e : yaml * yaml, agent_shape (snd e) -> exists g, agent_groups (snd e) g.
Proof.
  intros e (K & _ & SG). destruct (has_keys_total _ _ "groups" K) as [[v|] E'].
  - apply subscript_field in E'. destruct (texts_items v (SG v E')) as (l & ->). exists l. left. exact E'.
  - exists []. right. split; [exact (subscript_none _ _ E')|reflexivity].
Qed.

Lemma Forall2_choice : forall A B (R : A -> B -> Prop) l, Forall (fun a => exists b, R a b) l -> exists m, Forall2 R l m.
Proof.
  intros A B R l H. induction H as [|a l (b & P) H (m & IH)]; [exists []; constructor|]. exists (b :: m). constructor; assumption.
Qed.

(** ** The whole document *)

Lemma fine_load : forall as_float d,
  (forall ags es, document_agents d ags -> document_tasks d es -> ordinary ags es) -> fine (load as_float d).
Proof.
  intros as_float d OR. unfold load. destruct (schema_accepts d) as (m & V & MI). rewrite V.
  destruct m as [m|]; [exact I|]. pose proof (proj1 MI eq_refl) as SH. clear V MI.
  destruct (document_tasks_exist d SH) as (es & DT).
  pose proof SH as (K & (va & FA & (ags & -> & SA)) & (vt & FT & ST)).
  specialize (OR ags es FA DT). destruct DT as (l & kids & FL & LAY).
  pose proof (field_unique _ _ _ _ _ K FT FL) as ->. inversion ST as [l' SO SS]; subst l'.
  unfold get. rewrite (has_keys_unique _ _ _ _ K FA), (has_keys_unique _ _ _ _ K FL). cbn [next].
  pose proof (proj2 layout_shape _ _ _ _ LAY ST) as SHE.
  assert (SAF : forall e, In e ags -> agent_shape (snd e)) by (intros [k v] I; exact (SA k v I)).
  destruct (Forall2_choice _ _ (fun e g => agent_groups (snd e) g) ags) as (la & FG).
  { apply Forall_forall. intros e I. apply agent_groups_written, SAF, I. }
  destruct (Forall2_choice _ _ (fun (e : yaml * list nat) g => task_groups (fst e) g) es) as (le & FL').
  { eapply Forall_impl; [|exact SHE]. intros e. apply groups_written. }
  destruct (or_groups _ _ OR (concat la ++ concat le)%list) as [NI LG]; [exists la, le; auto|].
  rewrite <- add_all_nil in LG.
  set (p0 := {| pr_groups := []; pr_agents := []; pr_tasks := [] |}).
  apply fine_next.
  { unfold parse_agents. cbn [p0 pr_agents demand next]. destruct (Nat.eqb_spec (size_of (Map ags)) 0) as [_|NZ]; [exact I|].
    apply fine_next.
    - apply (fine_agents as_float ags p0 la SAF (or_names _ _ OR) FG).
      + intro X. apply NI, in_or_app. auto.
      + cbn. exact (or_agents _ _ OR).
      + pose proof (add_all_app_grows (concat la) (concat le) []). cbn [p0 pr_groups]. lia.
    - intros p1 E1. apply parse_agents_loop in E1; [|exact SAF]. destruct E1 as (new & la' & A1 & _ & _ & _ & (L & _) & _).
      cbn [p0 pr_agents app] in A1. rewrite A1. destruct new as [|a new]; [|exact I].
      destruct ags; [cbn in NZ; congruence|discriminate L]. }
  intros p1 PA. unfold parse_agents in PA. skip PA. destruct (size_of (Map ags) =? 0); [discriminate PA|]. step PA p1'. skip PA.
  injection PA as ->. cbn [entries_of] in E0.
  destruct (parse_agents_loop as_float ags p0 p1 SAF E0) as (agents & la' & A1 & T1 & FG' & G1 & AM & ND).
  cbn [p0 pr_agents pr_groups pr_tasks app length] in A1, T1, G1, AM, ND.
  assert (X : la = la').
  { clear - FG FG' SAF. revert la la' FG FG'. induction ags as [|e l IH]; intros la la' F G; inversion F; inversion G; subst;
      [reflexivity|]. f_equal; [eapply agent_groups_fun; [apply SAF; left; reflexivity|eassumption|eassumption]|].
    apply IH; try assumption. intros x X. apply SAF. right. exact X. }
  subst la'.
  assert (IDS : forall i a, nth_error (pr_agents p1) i = Some a -> ag_id a = i).
  { intros i a N. rewrite A1 in N. destruct AM as [L AM]. destruct (nth_error ags i) as [e|] eqn:EE.
    - exact (am_id _ _ _ _ _ (AM i a e N EE)).
    - apply nth_error_None in EE. rewrite <- L in EE. apply nth_error_None in EE. congruence. }
  assert (NA : pr_agents p1 <> []) by (intro X; rewrite X in E1; discriminate E1).
  set (b0 := {| bd_project := p1; bd_deps := [] |}).
  assert (R0 : room b0 es le).
  { constructor; cbn [b0 bd_project bd_deps].
    - exact IDS.
    - exact NA.
    - rewrite T1. reflexivity.
    - exact FL'.
    - intros e I. split; [exact (or_depends _ _ OR e I)|exact (fun lo hi => or_numbers _ _ OR e lo hi I)].
    - rewrite T1. exact (or_tasks _ _ OR).
    - intro X. apply NI, in_or_app. auto.
    - rewrite G1, <- add_all_app. exact LG. }
  assert (CON : forall n, In n l -> height n <= height (Seq l) /\ shaped n).
  { intros n I. split; [pose proof (height_item l n I); lia|]. split; [exact (SO n I)|intros v F; exact (SS n v I F)]. }
  assert (LAY0 : layouts (length (pr_tasks (bd_project b0))) l kids es) by (cbn [b0 bd_project]; rewrite T1; exact LAY).
  apply fine_next.
  - unfold parse_tasks. rewrite T1. cbn [demand next].
    destruct (Nat.eqb_spec (size_of (Seq l)) 0) as [_|NZ]; [exact I|]. cbn [items_of]. fold b0.
    apply fine_next; [exact (fine_tasks (height (Seq l)) l CON b0 kids es le LAY0 R0)|]. intros b B.
    destruct (tasks_loop (height (Seq l)) l
      (fun n I => parse_task_contract _ n (proj1 (CON n I)) (proj1 (proj2 (CON n I))) (proj2 (proj2 (CON n I))))
      b0 b B IDS) as (new & kids' & es' & LAY' & T2 & GR & ID2).
    destruct (proj2 layout_fun _ _ _ _ LAY0 ST _ _ LAY') as [-> ->].
    pose proof (grown_length _ _ _ _ GR) as LN.
    cbn [b0 bd_project] in T2, ID2. rewrite T1 in T2, ID2. cbn [app map] in T2, ID2.
    specialize (ID2 ltac:(intros [|i] j s X; discriminate X)).
    destruct GR as [GA _ (nd & FD & BD) FI _]. cbn [b0 bd_project bd_deps app] in GA, BD, FI.
    assert (NW : new <> []).
    { intros ->. destruct es as [|e es]; [|discriminate LN]. destruct l as [|n l]; [cbn in NZ; congruence|].
      inversion LAY as [|pos t ts es1 k2 es2 L1 L2 E2 E3 E4]. pose proof (proj1 (proj1 layout_range _ _ _ L1)) as P.
      destruct es1; [cbn in P; lia|discriminate]. }
    assert (RES : fine (resolve_dependencies (pr_tasks (bd_project b)) (bd_deps b))).
    { unfold resolve_dependencies. rewrite T2, BD.
      assert (D1 : match new with [] => false | _ => true end = true) by (destruct new; congruence). ready D1.
      rewrite LN, <- (Forall2_same_length _ _ _ _ _ FD), Nat.eqb_refl. cbn [demand next].
      apply fine_resolve; [rewrite LN; exact (or_tasks _ _ OR)|].
      clear - FD. induction FD as [|e d es nd (_ & D) FD IH]; constructor; assumption. }
    apply fine_next; [exact RES|]. intros tasks' RD. unfold resolve_dependencies in RD. skip RD. skip RD.
    rewrite T2, BD in RD. rewrite T2 in ID2.
    destruct (resolved _ _ new es nd tasks' FI FD SHE ID2 RD) as (TM & MID & DEPS & _).
    pose proof (Forall2_same_length _ _ _ _ _ TM) as LT.
    assert (NT : tasks' <> []).
    { intros ->. rewrite <- LN in LT. destruct new; [congruence|discriminate LT]. }
    assert (CH : fine (check_for_cycles tasks')).
    { pose proof (check_for_cycles_spec tasks' NT) as S.
      destruct (check_for_cycles tasks') as [u9|e| | |]; try exact I; try contradiction.
      - pose proof (or_tasks _ _ OR). lia.
      - destruct S as (i & j & (r & N & I) & GE). rewrite nth_error_map in N.
        destruct (nth_error tasks' i) as [t|] eqn:TT; [|discriminate N]. cbn in N. injection N as <-.
        apply (proj2 (DEPS i t TT)) in I. pose proof (depends_range _ _ _ _ _ LAY I). lia. }
    apply fine_next; [exact CH|]. intros u3 _.
    assert (D3 : match tasks' with [] => false | _ => true end = true) by (destruct tasks'; congruence). ready D3. exact I.
  - intros q Q. unfold parse_tasks in Q. skip Q. destruct (size_of (Seq l) =? 0); [discriminate Q|]. step Q b. step Q tasks'.
    step Q u4. skip Q. injection Q as <-. cbn [pr_tasks pr_agents]. ready E6.
    cbn [items_of] in E3. fold b0 in E3.
    destruct (tasks_loop (height (Seq l)) l
      (fun n I => parse_task_contract _ n (proj1 (CON n I)) (proj1 (proj2 (CON n I))) (proj2 (proj2 (CON n I))))
      b0 b E3 IDS) as (new & kids' & es' & LAY' & T2 & GR & ID2).
    rewrite (gr_agents _ _ _ _ GR). cbn [b0 bd_project].
    assert (D4 : match pr_agents p1 with [] => false | _ => true end = true) by (destruct (pr_agents p1); congruence). ready D4.
    exact I.
Qed.

(** ** Sizes *)

Definition small (p : project) : Prop := length (pr_agents p) <= 128 /\ length (pr_groups p) <= 128.

Lemma group_small : forall t g t' i new, find_or_insert_group t g = Loads (t', i, new) -> length t <= 128 -> length t' <= 128.
Proof.
  intros t g t' i new H L. unfold find_or_insert_group in H. skip H. destruct (position g t).
  - step H i8. injection H as <- _ _. exact L.
  - step H i8. injection H as <- _ _. apply to_int8_Loads in E0. rewrite app_length. cbn. lia.
Qed.

Lemma each_keeps : forall A S (f : S -> A -> loading S) (P : S -> Prop) l,
  (forall s a s', In a l -> f s a = Loads s' -> P s -> P s') -> forall s s', each f s l = Loads s' -> P s -> P s'.
Proof.
  intros A S f P l. induction l as [|a l IH]; intros K s s' H HP; cbn [each] in H.
  - injection H as <-. exact HP.
  - step H s1. refine (IH _ s1 s' H (K s a s1 (or_introl eq_refl) E HP)). intros x y z I. apply K. right. exact I.
Qed.

Lemma parse_agent_small : forall f p e p', parse_agent f p e = Loads p' -> small p -> small p'.
Proof.
  intros f p e p' H [LA LG]. unfold parse_agent in H. skip H. step H nm. step H aid. step H gn. step H r. destruct r as [groups ids].
  step H pn. step H perf. injection H as <-. apply to_int8_Loads in E1. destruct E1 as [-> E1].
  split; cbn [pr_agents pr_groups]; [rewrite app_length; cbn; lia|].
  destruct gn as [g|]; [|injection E3 as <- _; exact LG]. unfold parse_agent_groups in E3.
  apply (each_keeps _ _ _ (fun s => length (fst s) <= 128)) in E3; [exact E3| |exact LG].
  intros [t is] x s' _ X K. step X y. destruct y as [[t' i] new]. injection X as <-. match goal with Y : find_or_insert_group _ _ = Loads _ |- _ => exact (group_small _ _ _ _ _ Y K) end.
Qed.

Lemma parse_task_group_small : forall s n s', parse_task_group s n = Loads s' -> small (fst s) -> small (fst s').
Proof.
  intros [p ids] n s' H [LA LG]. unfold parse_task_group in H. skip H. step H r. destruct r as [[t i] new]. step H un.
  destruct (negb un); [discriminate H|]. injection H as <-. split; [exact LA|]. exact (group_small _ _ _ _ _ E0 LG).
Qed.

Lemma parse_assignment_small : forall n name p p' ids ag, parse_groups_and_agents n name p = Loads (p', ids, ag) ->
  small p -> small p'.
Proof.
  intros n name p p' ids ag H K. unfold parse_groups_and_agents in H. skip H. step H g. step H gs. step H a.
  destruct (1 <? _); [discriminate H|]. destruct g as [g|].
  - step H r. destruct r as [q i]. injection H as <- _ _. exact (parse_task_group_small _ _ _ E3 K).
  - destruct gs as [gs|].
    + step H r. destruct r as [q i]. injection H as <- _ _. unfold parse_task_groups in E3.
      apply (each_keeps _ _ _ (fun s => small (fst s))) in E3; [exact E3| |exact K].
      intros s x s' _ X. exact (parse_task_group_small _ _ _ X).
    + destruct a as [a|]; [step H i|]; injection H as <- _ _; exact K.
Qed.

Lemma parse_task_small : forall fuel b n b', parse_task fuel b n = Loads b' -> small (bd_project b) -> small (bd_project b').
Proof.
  induction fuel as [|fuel IH]; intros b n b' H K; cbn [parse_task] in H; [discriminate H|].
  skip H. skip H. step H name. destruct (is_empty name); [discriminate H|]. step H idn. step H tid. step H dn. step H du.
  destruct du as [lo hi]. step H r. destruct r as [[p1 ids] ag]. step H on. step H deps. cbv zeta in H. step H sn. step H b2.
  skip H. injection H as <-. pose proof (parse_assignment_small _ _ _ _ _ _ E6 K) as K1. destruct sn as [sv|].
  - step E10 ix. unfold parse_subtasks in E10. skip E10. skip E10.
    apply (each_keeps _ _ _ (fun b => small (bd_project b))) in E10; [exact E10| |exact K1].
    intros s x s' _ X [KA KG]. step X j. step X q. apply IH in X; [exact X|].
    unfold add_dependency in E16. destruct (nth_error (pr_tasks (bd_project s)) ix); [|discriminate E16].
    injection E16 as <-. split; assumption.
  - injection E10 as <-. exact K1.
Qed.

Lemma cycles_small : forall tasks left id state, cycles_loop tasks left id state = Loads tt -> left = 0 \/ id + left <= 127.
Proof.
  intros tasks left. induction left as [|left IH]; intros i state H; [left; reflexivity|]. right. cbn [cycles_loop] in H.
  step H s1. step H i1. apply to_int8_Loads in E0. destruct E0 as [-> E0]. apply IH in H. lia.
Qed.

Lemma check_small : forall tasks, check_for_cycles tasks = Loads tt -> length tasks <= 127.
Proof. intros tasks H. unfold check_for_cycles in H. skip H. apply cycles_small in H. lia. Qed.

Lemma load_small : forall as_float d p, load as_float d = Loads p -> small p /\ length (pr_tasks p) <= 127.
Proof.
  intros as_float d p H. unfold load in H. destruct (validate_configuration d) as [[m|]| |]; try discriminate H.
  step H an. step H p1. step H tn. step H p2. skip H. skip H. injection H as <-.
  destruct an as [an|]; [|discriminate E0]. destruct tn as [tn|]; [|discriminate E2].
  assert (S1 : small p1).
  { unfold parse_agents in E0. skip E0. destruct (size_of an =? 0); [discriminate E0|]. step E0 q. skip E0. injection E0 as <-.
    apply (each_keeps _ _ _ small) in E6; [exact E6| |split; cbn; lia]. intros s x s' _ X. exact (parse_agent_small _ _ _ _ X). }
  unfold parse_tasks in E2. skip E2. destruct (size_of tn =? 0); [discriminate E2|]. step E2 b. step E2 ts. step E2 u3. skip E2.
  injection E2 as <-. cbn [pr_tasks]. split; [|destruct u3; exact (check_small _ E8)].
  apply (each_keeps _ _ _ (fun b => small (bd_project b))) in E6; [exact E6| |exact S1].
  intros s x s' _ X. exact (parse_task_small _ _ _ _ X).
Qed.

(** ** Termination *)

Definition ends {A} (x : loading A) : Prop := x <> Unfinished.

Lemma ends_next : forall A B (x : loading A) (f : A -> loading B), ends x -> (forall a, x = Loads a -> ends (f a)) -> ends (next x f).
Proof. intros A B [a|e| | |] f X F; cbn; try discriminate; [apply F; reflexivity|exact (fun _ => X eq_refl)]. Qed.

Lemma ends_each : forall A S (f : S -> A -> loading S) l, (forall s a, In a l -> ends (f s a)) -> forall s, ends (each f s l).
Proof.
  intros A S f l. induction l as [|a l IH]; intros K s; cbn [each]; [discriminate|].
  apply ends_next; [apply K; left; reflexivity|]. intros s' _. apply IH. intros x y I. apply K. right. exact I.
Qed.

Lemma ends_demand : forall b, ends (demand b).
Proof. intros []; discriminate. Qed.

Lemma ends_int8 : forall n, ends (to_int8 n).
Proof. intro n. unfold to_int8. destruct (n <=? 127); discriminate. Qed.

Lemma ends_get : forall y n, ends (get y n).
Proof. intros y n. unfold get. destruct (subscript y n); discriminate. Qed.

Ltac ends :=
  repeat lazymatch goal with
  | |- ends (next _ _) => apply ends_next; [|intros]
  | |- ends (demand _) => apply ends_demand
  | |- ends (to_int8 _) => apply ends_int8
  | |- ends (get _ _) => apply ends_get
  | |- ends (each _ _ _) => apply ends_each; intros
  | |- ends (match ?x with _ => _ end) => destruct x
  | |- ends (Loads _) => discriminate
  | |- ends (Rejects _) => discriminate
  | |- ends Throws => discriminate
  | |- ends Violates => discriminate
  end.

Lemma ends_group : forall t g, ends (find_or_insert_group t g).
Proof. intros. unfold find_or_insert_group. ends. Qed.

Lemma ends_parse_agent : forall f p e, ends (parse_agent f p e).
Proof.
  intros. unfold parse_agent, check_agent_name, parse_agent_groups, parse_agent_performance, performance_value. ends;
    apply ends_group.
Qed.

Lemma ends_task_group : forall s n, ends (parse_task_group s n).
Proof. intros [p ids] n. unfold parse_task_group, universal_agents. ends. apply ends_group. Qed.

Lemma ends_assignment : forall n name p, ends (parse_groups_and_agents n name p).
Proof.
  intros. unfold parse_groups_and_agents, parse_task_groups, parse_task_agent, find_agent_index. ends; apply ends_task_group.
Qed.

Lemma ends_parse_task : forall fuel n b, height n <= fuel -> ends (parse_task fuel b n).
Proof.
  induction fuel as [|fuel IH]; intros n b HT; [destruct n; cbn in HT; lia|]. cbn [parse_task].
  unfold get_text, parse_task_id, check_task_id, parse_task_duration, get_text, duration_text, parse_dependencies, validate_task_id.
  ends; try apply ends_assignment.
  unfold parse_subtasks, add_dependency. ends. apply IH.
  match goal with H : get n "subtasks" = Loads (Some ?v) |- _ => apply get_field in H; pose proof (height_field _ _ _ H) end.
  match goal with H : In ?a (items_of ?v) |- _ => destruct v; cbn [items_of] in H; try contradiction; pose proof (height_item _ _ H) end.
  lia.
Qed.

Lemma ends_resolve : forall ts l ds, ends (resolve_all ts l ds).
Proof.
  intros ts l. induction l as [|t l IH]; intros [|d ds]; cbn [resolve_all]; try discriminate.
  unfold resolve_task, find_task_index. ends. apply IH.
Qed.

Lemma ends_check : forall ts, ends (check_for_cycles ts).
Proof.
  intros ts H. destruct ts as [|t ts]; [discriminate H|].
  pose proof (check_for_cycles_spec (t :: ts) ltac:(discriminate)) as S. rewrite H in S. exact S.
Qed.

Lemma load_ends : forall as_float d, load as_float d <> Unfinished.
Proof.
  intros as_float d. change (ends (load as_float d)). unfold load. destruct (schema_accepts d) as (m & -> & _).
  destruct m as [m|]; [discriminate|]. unfold parse_agents, parse_tasks, resolve_dependencies. ends.
  - apply ends_parse_agent.
  - apply ends_parse_task.
    match goal with H : In ?a (items_of ?v) |- _ => destruct v; cbn [items_of] in H; try contradiction; pose proof (height_item _ _ H) end.
    lia.
  - apply ends_resolve.
  - apply ends_check.
Qed.
