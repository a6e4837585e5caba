(** * Property theorems C06-C16: what a loaded project contains

    [load as_float d] models the loading of the document [d]; [as_float] is
    yaml-cpp's conversion of a text to a float, an arbitrary function here.
    Documents, their flattening and what is written in them are described
    in DocumentSpec.v and LoadSpec.v. *)

From Coq Require Import String Ascii List Bool Arith ZArith Lia Sorted Relations.
From Flocq Require Import Core BinarySingleNaN.
From Verif Require Import Base F32 F32Facts ProjectModel YamlModel ValidationModel DurationSpec DocumentSpec ScheduleSpec
  ScheduleModel ScheduleProofs NormaliseProofs LoadModel LoadSpec LoadProofs LoadTaskProofs LoadCycleProofs LayoutProofs LoadFacts.
Import ListNotations.
Local Open Scope string_scope.
Local Open Scope nat_scope.

(** ** An example *)

Definition ex_float (s : string) : option f32 :=
  if String.eqb s "0.5" then Some (f_div f_one (f_of_Z 2))
  else if String.eqb s "2" then Some (f_of_Z 2)
  else None.

Definition ex_doc : yaml :=
  Map [(Scalar "agents", Map [
          (Scalar "Bob", Null);
          (Scalar "Jack", Map [
             (Scalar "groups", Seq [Scalar "B"; Scalar "A"]);
             (Scalar "performance", Map [(Scalar "min", Scalar "0.5"); (Scalar "max", Scalar "2")])])]);
       (Scalar "tasks", Seq [
          Map [(Scalar "name", Scalar "outer"); (Scalar "id", Scalar "x"); (Scalar "group", Scalar "A");
               (Scalar "duration", Map [(Scalar "min", Scalar "1h"); (Scalar "max", Scalar "2h 30m")]);
               (Scalar "subtasks", Seq [
                  Map [(Scalar "name", Scalar "first"); (Scalar "duration", Scalar "30m");
                       (Scalar "groups", Seq [Scalar "A"; Scalar "B"])];
                  Map [(Scalar "name", Scalar "second"); (Scalar "duration", Scalar "45s");
                       (Scalar "agent", Scalar "Jack"); (Scalar "depends_on", Scalar "last")]])];
          Map [(Scalar "name", Scalar "final"); (Scalar "id", Scalar "last"); (Scalar "duration", Scalar "2 days");
               (Scalar "group", Scalar "C")]])].

Definition no_project : project := {| pr_groups := []; pr_agents := []; pr_tasks := [] |}.

Definition loaded (x : loading project) : project := match x with Loads p => p | _ => no_project end.

Definition loads {A} (x : loading A) : bool := match x with Loads _ => true | _ => false end.

Lemma loads_loaded : forall x, loads x = true -> x = Loads (loaded x).
Proof. intros [p|e| | |] H; try discriminate H. reflexivity. Qed.

Definition ex_loaded : project := loaded (load ex_float ex_doc).

Example ex_loads : load ex_float ex_doc = Loads ex_loaded.
Proof. apply loads_loaded. vm_compute. reflexivity. Qed.

(** Its contents; the theorems below speak about all of them. *)
Example ex_contents :
  pr_groups ex_loaded = ["B"; "A"; "C"] /\
  map ag_name (pr_agents ex_loaded) = ["Bob"; "Jack"] /\
  map ag_groups (pr_agents ex_loaded) = [[]; [0; 1]] /\
  map tk_name (pr_tasks ex_loaded) = ["outer"; "first"; "second"; "final"] /\
  map tk_groups (pr_tasks ex_loaded) = [[1]; [0; 1]; []; [2]] /\
  map tk_agent (pr_tasks ex_loaded) = [None; None; Some 1; None] /\
  map tk_deps (pr_tasks ex_loaded) = [[1; 2]; []; [3]; []] /\
  map tk_min (pr_tasks ex_loaded) = [3600; 1800; 45; 172800]%Z /\
  map tk_max (pr_tasks ex_loaded) = [9000; 1800; 45; 172800]%Z.
Proof. vm_compute. do 8 (split; [reflexivity|]). reflexivity. Qed.

(** The entries of the example in document order. *)
Definition ex_node (path : list nat) : yaml :=
  fold_left (fun y i => nth i (items_of (match subscript y "subtasks" with Ok (Some v) => v | _ => Null end)) Null) (tl path)
    (nth (hd 0 path) (items_of (match subscript ex_doc "tasks" with Ok (Some v) => v | _ => Null end)) Null).

Ltac field_here := eexists; split; [reflexivity|]; cbn [In]; tauto.
Ltac absent_here := let v := fresh "v" in let l := fresh "l" in let E := fresh "E" in let I := fresh "I" in
  intros v (l & E & I); injection E as <-; cbn in I; decompose [or] I; try contradiction; congruence.

Example ex_flat : document_tasks ex_doc
  [(ex_node [0], [1; 2]); (ex_node [0; 0], []); (ex_node [0; 1], []); (ex_node [1], [])].
Proof.
  exists [ex_node [0]; ex_node [1]], [0; 3]. split; [field_here|].
  apply (lays_cons 0 (ex_node [0]) [ex_node [1]] [(ex_node [0], [1; 2]); (ex_node [0; 0], []); (ex_node [0; 1], [])] [3]
    [(ex_node [1], [])]).
  - apply (lay_node 0 (ex_node [0]) [ex_node [0; 0]; ex_node [0; 1]]); [field_here|].
    apply (lays_cons 1 (ex_node [0; 0]) [ex_node [0; 1]] [(ex_node [0; 0], [])] [2] [(ex_node [0; 1], [])]).
    + apply lay_leaf. absent_here.
    + apply (lays_cons 2 (ex_node [0; 1]) [] [(ex_node [0; 1], [])] [] []); [apply lay_leaf; absent_here|constructor].
  - apply (lays_cons 3 (ex_node [1]) [] [(ex_node [1], [])] [] []); [apply lay_leaf; absent_here|constructor].
Qed.

(** The facts about a loaded project, for the flattening of its document. *)
Lemma load_facts : forall as_float d p, load as_float d = Loads p ->
  exists ags es, facts as_float d p ags es /\ check_for_cycles (pr_tasks p) = Loads tt.
Proof.
  intros as_float d p H. destruct (load_stages as_float d _ H) as (q & ags & es & F & C); [eauto|].
  destruct C as [[C E]|[_ E]]; [|discriminate E]. injection E as <-. exists ags, es. auto.
Qed.

Ltac facts H ags es F :=
  let C := fresh "C" in
  destruct (load_facts _ _ _ H) as (ags & es & F & C).

(** ** C06 *)

Theorem loaded_agents : forall as_float d p ags,
  load as_float d = Loads p -> document_agents d ags ->
  map fst ags = map (fun a => Scalar (ag_name a)) (pr_agents p) /\
  (forall i a, nth_error (pr_agents p) i = Some a -> ag_id a = i) /\
  NoDup (map ag_name (pr_agents p)) /\ ~ In "" (map ag_name (pr_agents p)).
Proof.
  intros as_float d p ags H D. facts H ags' es F.
  pose proof (document_agents_fun _ _ _ (fa_shape _ _ _ _ _ F) D (fa_ags _ _ _ _ _ F)) as <-.
  destruct (fa_agents _ _ _ _ _ F) as [L M].
  assert (G : forall i a, nth_error (pr_agents p) i = Some a ->
    exists e, nth_error ags i = Some e /\ agent_mirrors as_float (pr_groups p) i a e).
  { intros i a A. destruct (nth_error ags i) as [e|] eqn:E; [exists e; split; [reflexivity|exact (M i a e A E)]|].
    apply nth_error_None in E. rewrite <- L in E. apply nth_error_None in E. congruence. }
  split; [|split; [|split]].
  - clear - L G. set (l := pr_agents p) in *. clearbody l.
    assert (G' : forall i a e, nth_error l i = Some a -> nth_error ags i = Some e -> fst e = Scalar (ag_name a)).
    { intros i a e A E. destruct (G i a A) as (e' & E' & M). rewrite E in E'. injection E' as <-. apply (am_name _ _ _ _ _ M). }
    clear G. revert ags L G'. induction l as [|a l IH]; intros [|e ags] L G'; try discriminate L; [reflexivity|].
    cbn. rewrite (G' 0 a e eq_refl eq_refl). f_equal. apply IH; [cbn in L; lia|]. intros i x y X Y. exact (G' (S i) x y X Y).
  - intros i a A. destruct (G i a A) as (e & _ & M'). exact (am_id _ _ _ _ _ M').
  - exact (fa_names _ _ _ _ _ F).
  - intro I. apply in_map_iff in I. destruct I as (a & Z & I). apply In_nth_error in I. destruct I as (i & A).
    destruct (G i a A) as (e & _ & M'). apply (am_name _ _ _ _ _ M'). exact Z.
Qed.
Print Assumptions loaded_agents.

(** A document that names an agent twice does not load. *)
Theorem duplicate_agent : forall as_float d ags p,
  document_agents d ags -> ~ NoDup (map fst ags) -> load as_float d <> Loads p.
Proof.
  intros as_float d ags p D ND H. apply ND. destruct (loaded_agents _ _ _ _ H D) as (E & _ & N & _).
  rewrite E, <- map_map. clear - N. induction N as [|x l I N IH]; cbn; constructor; [|exact IH].
  intro J. apply in_map_iff in J. destruct J as (y & Y & J). injection Y as ->. exact (I J).
Qed.
Print Assumptions duplicate_agent.

Definition ex_twice : yaml :=
  Map [(Scalar "agents", Map [(Scalar "Bob", Null); (Scalar "Bob", Null)]);
       (Scalar "tasks", Seq [Map [(Scalar "name", Scalar "t"); (Scalar "duration", Scalar "1h")]])].

Example ex_duplicate_agent : load ex_float ex_twice = Rejects (DuplicateAgent "Bob").
Proof. vm_compute. reflexivity. Qed.

(** ** C07 *)

(** The performance values are the written ones, 1.0 if there are none; and
    they are positive and ordered, provided that none of them is not a
    number. *)
Theorem loaded_performance_partial : forall as_float d p ags i a e,
  (forall s x, as_float s = Some x -> is_nan x = false) ->
  load as_float d = Loads p -> document_agents d ags ->
  nth_error (pr_agents p) i = Some a -> nth_error ags i = Some e ->
  performance_written as_float (snd e) (ag_perf a) /\
  f_lt f_zero (perf_min (ag_perf a)) = true /\ f_le (perf_min (ag_perf a)) (perf_max (ag_perf a)) = true.
Proof.
  intros as_float d p ags i a e NAN H D A E. facts H ags' es F.
  pose proof (document_agents_fun _ _ _ (fa_shape _ _ _ _ _ F) D (fa_ags _ _ _ _ _ F)) as <-.
  pose proof (proj2 (fa_agents _ _ _ _ _ F) i a e A E) as M. pose proof (am_perf _ _ _ _ _ M) as P.
  destruct (am_sane _ _ _ _ _ M) as (S1 & S2 & S3). split; [exact P|].
  assert (N : num (perf_min (ag_perf a)) /\ num (perf_max (ag_perf a))).
  { destruct P as [(s & x & _ & X & -> & ->)|[(r & lo & hi & x & z & _ & _ & _ & X & Z & -> & ->)|(_ & -> & ->)]].
    - split; exact (NAN s x X).
    - split; [exact (NAN lo x X)|exact (NAN hi z Z)].
    - split; reflexivity. }
  destruct N as [N1 N2]. assert (NZ : num f_zero) by reflexivity.
  rewrite le_key in S1 by assumption. rewrite lt_key in S3 by assumption. rewrite lt_key, le_key by assumption.
  split; [apply Z.ltb_lt|apply Z.leb_le]; [apply Z.leb_gt in S1; exact S1|apply Z.ltb_ge in S3; exact S3].
Qed.
Print Assumptions loaded_performance_partial.

Example ex_performance : forall s x, ex_float s = Some x -> is_nan x = false.
Proof.
  intros s x. unfold ex_float. destruct (String.eqb s "0.5"); [|destruct (String.eqb s "2"); [|discriminate]];
    intro H; (assert (B : forall y : f32, Some y = Some x -> is_nan y = is_nan x) by congruence);
    rewrite <- (B _ H); vm_compute; reflexivity.
Qed.

(** C07 as stated is false: yaml-cpp reads ".nan" as a float that is not a
    number, and the comparison with 0 lets it pass. *)
Definition ex_nan : yaml :=
  Map [(Scalar "agents", Map [(Scalar "Bob", Map [(Scalar "performance", Scalar ".nan")])]);
       (Scalar "tasks", Seq [Map [(Scalar "name", Scalar "t"); (Scalar "duration", Scalar "1h")]])].

Theorem loaded_performance_refuted : forall as_float, as_float ".nan" = Some B754_nan ->
  exists p a, load as_float ex_nan = Loads p /\ In a (pr_agents p) /\
    f_lt f_zero (perf_min (ag_perf a)) = false /\ to_schedule_params p = Broken.
Proof.
  intros as_float H.
  assert (L : load as_float ex_nan = load (fun _ => Some B754_nan) ex_nan).
  { vm_compute. change (String "."%char (String "n"%char (String "a"%char (String "n"%char EmptyString)))) with ".nan".
    rewrite H. reflexivity. }
  rewrite L. eexists. eexists. split; [apply loads_loaded; vm_compute; reflexivity|].
  split; [vm_compute; left; reflexivity|]. vm_compute. auto.
Qed.
Print Assumptions loaded_performance_refuted.

(** ** C08 *)

Lemma Forall2_fun : forall A B (R : A -> B -> Prop) (P : A -> Prop) l m n,
  (forall a b c, P a -> R a b -> R a c -> b = c) -> Forall P l -> Forall2 R l m -> Forall2 R l n -> m = n.
Proof.
  intros A B R P l m n FUN. revert m n. induction l as [|a l IH]; intros m n HP HM HN;
    inversion HM; inversion HN; subst; [reflexivity|]. inversion HP; subst. f_equal; eauto.
Qed.

Lemma facts_shapes : forall as_float d q ags es, facts as_float d q ags es ->
  Forall (fun e => agent_shape (snd e)) ags /\ Forall (fun e => own_shape (fst e)) es.
Proof.
  intros as_float d q ags es F. pose proof (fa_shape _ _ _ _ _ F) as (K & (va & A & (l & -> & SA)) & (vt & T & ST)). split.
  - pose proof (field_unique _ _ _ _ _ K A (fa_ags _ _ _ _ _ F)) as E. injection E as ->.
    apply Forall_forall. intros [k v] I. exact (SA k v I).
  - destruct (fa_es _ _ _ _ _ F) as (m & kids & B & LAY). pose proof (field_unique _ _ _ _ _ K T B) as ->.
    exact (proj2 layout_shape _ _ _ _ LAY ST).
Qed.

(** The table holds the mentioned names, agents first, each once, in the
    order of their first mention; the indices of every agent and task stand
    for exactly the groups written for it. *)
Theorem loaded_groups : forall as_float d p ags es names,
  load as_float d = Loads p -> document_agents d ags -> document_tasks d es -> mentions ags es names ->
  pr_groups p = first_mentions names /\ NoDup (pr_groups p) /\
  (forall i a e l, nth_error (pr_agents p) i = Some a -> nth_error ags i = Some e -> agent_groups (snd e) l ->
     resolves (pr_groups p) (ag_groups a) l) /\
  (forall i t e l, nth_error (pr_tasks p) i = Some t -> nth_error es i = Some e -> task_groups (fst e) l ->
     resolves (pr_groups p) (tk_groups t) l).
Proof.
  intros as_float d p ags es names H D T M. facts H ags' es' F. destruct (facts_shapes _ _ _ _ _ F) as [SA ST].
  pose proof (document_agents_fun _ _ _ (fa_shape _ _ _ _ _ F) D (fa_ags _ _ _ _ _ F)) as <-.
  pose proof (document_tasks_fun _ _ _ (fa_shape _ _ _ _ _ F) T (fa_es _ _ _ _ _ F)) as <-.
  destruct (fa_groups _ _ _ _ _ F) as (names' & M' & G).
  assert (E : names = names').
  { destruct M as (la & le & A1 & A2 & ->), M' as (la' & le' & B1 & B2 & ->).
    assert (X1 : la = la').
    { refine (Forall2_fun _ _ _ (fun e => agent_shape (snd e)) _ _ _ _ SA A1 B1). intros a b c. apply agent_groups_fun. }
    assert (X2 : le = le').
    { refine (Forall2_fun _ _ _ (fun e => own_shape (fst e)) _ _ _ _ ST A2 B2). intros a b c. apply task_groups_fun. }
    congruence. }
  subst names'. split; [exact G|]. split; [rewrite G; apply first_mentions_NoDup|]. split.
  - intros i a e l A E L. destruct (am_groups _ _ _ _ _ (proj2 (fa_agents _ _ _ _ _ F) i a e A E)) as (l' & L' & R & _).
    rewrite Forall_forall in SA. pose proof (agent_groups_fun _ _ _ (SA e (nth_error_In _ _ E)) L L') as ->. exact R.
  - intros i t e l A E L. destruct (Forall2_nth _ _ _ _ _ (fa_tasks _ _ _ _ _ F) i t A) as (e' & E' & MT).
    rewrite E in E'. injection E' as <-. destruct (tm_groups _ _ _ _ MT) as (l' & L' & R & _).
    rewrite Forall_forall in ST. pose proof (task_groups_fun _ _ _ (ST e (nth_error_In _ _ E)) L L') as ->. exact R.
Qed.
Print Assumptions loaded_groups.

Example ex_mentions : first_mentions ["B"; "A"; "A"; "A"; "B"; "C"] = pr_groups ex_loaded.
Proof. vm_compute. reflexivity. Qed.

(** ** C09 *)

(** There is exactly one flattening of a document with the right shape, and
    the tasks are its entries. *)
Theorem flattening_unique : forall d, document_shape d -> exists es, forall es', document_tasks d es' <-> es' = es.
Proof.
  intros d S. destruct (document_tasks_exist d S) as (es & E). exists es. intro es'. split.
  - intro E'. exact (document_tasks_fun d es' es S E' E).
  - intros ->. exact E.
Qed.
Print Assumptions flattening_unique.

Theorem loaded_tasks : forall as_float d p es,
  load as_float d = Loads p -> document_tasks d es ->
  Forall2 (fun t e => text_field (fst e) "name" (tk_name t)) (pr_tasks p) es.
Proof.
  intros as_float d p es H T. facts H ags' es' F.
  pose proof (document_tasks_fun _ _ _ (fa_shape _ _ _ _ _ F) T (fa_es _ _ _ _ _ F)) as <-.
  pose proof (fa_tasks _ _ _ _ _ F) as M. clear - M. induction M as [|t e l es P M IH]; constructor; [|exact IH].
  apply (tm_name _ _ _ _ P).
Qed.
Print Assumptions loaded_tasks.

(** ** C10 *)

Theorem loaded_dependencies : forall as_float d p es,
  load as_float d = Loads p -> document_tasks d es ->
  (forall i t, nth_error (pr_tasks p) i = Some t -> forall j, In j (tk_deps t) <-> document_depends es i j) /\
  (forall i t j, nth_error (pr_tasks p) i = Some t -> In j (tk_deps t) -> j < length (pr_tasks p)).
Proof.
  intros as_float d p es H T. facts H ags' es' F.
  pose proof (document_tasks_fun _ _ _ (fa_shape _ _ _ _ _ F) T (fa_es _ _ _ _ _ F)) as <-. split.
  - intros i t N. apply (fa_deps _ _ _ _ _ F i t N).
  - intros i t j N I. apply (proj2 (fa_deps _ _ _ _ _ F i t N)) in I.
    rewrite (Forall2_same_length _ _ _ _ _ (fa_tasks _ _ _ _ _ F)).
    destruct I as (n & kids & E & [K|(ids & s & n' & k' & _ & _ & _ & E' & _)]).
    + destruct T as (l & ks & _ & LAY). destruct (proj2 layout_range _ _ _ _ LAY) as [_ R].
      specialize (R (n, kids) j (nth_error_In _ _ E) K). lia.
    + apply nth_error_Some. congruence.
Qed.
Print Assumptions loaded_dependencies.

(** A document with a dependency on an id that no task has does not load. *)
Theorem unknown_dependency : forall as_float d es e ids s p,
  document_tasks d es -> In e es -> depends_on (fst e) ids -> In s ids ->
  (forall e', In e' es -> ~ text_field (fst e') "id" s) -> load as_float d <> Loads p.
Proof.
  intros as_float d es e ids s p T I DO IS NO H. facts H ags' es' F.
  pose proof (document_tasks_fun _ _ _ (fa_shape _ _ _ _ _ F) T (fa_es _ _ _ _ _ F)) as <-.
  destruct (fa_found _ _ _ _ _ F e ids s I DO IS) as (e' & I' & X). exact (NO e' I' X).
Qed.
Print Assumptions unknown_dependency.

Definition ex_one_task (more : list (yaml * yaml)) : yaml :=
  Map [(Scalar "agents", Map [(Scalar "Jack", Map [(Scalar "groups", Seq [Scalar "A"])])]);
       (Scalar "tasks", Seq [Map ((Scalar "name", Scalar "t") :: more)])].

Example ex_unknown : load ex_float (ex_one_task [(Scalar "duration", Scalar "1h"); (Scalar "depends_on", Scalar "s")]) =
  Rejects (TaskNotFound "s").
Proof. vm_compute. reflexivity. Qed.

(** ** C11 *)

Theorem loaded_ids_unique : forall as_float d p,
  load as_float d = Loads p ->
  forall i j t u, nth_error (pr_tasks p) i = Some t -> nth_error (pr_tasks p) j = Some u ->
    tk_id t = tk_id u -> tk_id t <> "" -> i = j.
Proof.
  intros as_float d p H i j t u T U E NE. facts H ags' es' F.
  apply (fa_ids _ _ _ _ _ F i j (tk_id t)); [| |exact NE]; rewrite nth_error_map; [rewrite T|rewrite U]; cbn; congruence.
Qed.
Print Assumptions loaded_ids_unique.

(** A document that defines an id twice, at any level, does not load. *)
Theorem duplicate_id : forall as_float d es i j e e' s p,
  document_tasks d es -> nth_error es i = Some e -> nth_error es j = Some e' ->
  text_field (fst e) "id" s -> text_field (fst e') "id" s -> i <> j -> load as_float d <> Loads p.
Proof.
  intros as_float d es i j e e' s p T E E' X X' NE H. facts H ags' es' F. destruct (facts_shapes _ _ _ _ _ F) as [_ ST].
  pose proof (document_tasks_fun _ _ _ (fa_shape _ _ _ _ _ F) T (fa_es _ _ _ _ _ F)) as <-.
  rewrite Forall_forall in ST.
  destruct (Forall2_nth_r _ _ _ _ _ (fa_tasks _ _ _ _ _ F) i e E) as (t & A & M).
  destruct (Forall2_nth_r _ _ _ _ _ (fa_tasks _ _ _ _ _ F) j e' E') as (u & B & M').
  assert (G : forall f v, own_shape (fst f) -> task_mirrors (pr_agents p) (pr_groups p) v f -> text_field (fst f) "id" s ->
    tk_id v = s /\ s <> "").
  { intros f v S MV Y. destruct (tm_id _ _ _ _ MV) as [[I N]|[I _]]; [|destruct (I _ Y)].
    rewrite (text_field_fun _ _ _ _ _ (shape_keys _ S) I Y) in *. auto. }
  destruct (G e t (ST e (nth_error_In _ _ E)) M X) as [I1 N]. destruct (G e' u (ST e' (nth_error_In _ _ E')) M' X') as [I2 _].
  apply NE. apply (loaded_ids_unique _ _ _ H i j t u A B); congruence.
Qed.
Print Assumptions duplicate_id.

Definition ex_ids : yaml :=
  Map [(Scalar "agents", Map [(Scalar "Bob", Null)]);
       (Scalar "tasks", Seq [Map [(Scalar "name", Scalar "t"); (Scalar "duration", Scalar "1h"); (Scalar "id", Scalar "x");
         (Scalar "subtasks", Seq [Map [(Scalar "name", Scalar "u"); (Scalar "duration", Scalar "1h"); (Scalar "id", Scalar "x")]])]])].

Example ex_duplicate_id : load ex_float ex_ids = Rejects (DuplicateTask "x").
Proof. vm_compute. reflexivity. Qed.

(** ** C12 *)

(** The check itself, for all dependency graphs. *)
Theorem cycle_check : forall tasks,
  tasks <> [] -> (forall i j, depends_in (map tk_deps tasks) i j -> j < length tasks) -> length tasks <= 127 ->
  (check_for_cycles tasks = Rejects DependencyCycle <-> cyclic (depends_in (map tk_deps tasks))) /\
  (check_for_cycles tasks = Loads tt <-> acyclic (depends_in (map tk_deps tasks))).
Proof.
  intros tasks NE R SZ. pose proof (check_for_cycles_spec tasks NE) as S. unfold edge in S.
  destruct (check_for_cycles tasks) as [[]|e| | |]; try contradiction; try lia;
    try (destruct S as (i & j & E & L); specialize (R i j E); lia).
  - split; split; intro H; try discriminate H; try reflexivity; [|exact S]. destruct H as (i & H). destruct (S i H).
  - destruct S as [-> C]. split; split; intro H; try discriminate H; try reflexivity; [exact C|].
    destruct C as (i & C). destruct (H i C).
Qed.
Print Assumptions cycle_check.

(** For whole documents: a loaded one has no cycle, and one that is
    reported as cyclic has one. *)
Theorem cycle_reported : forall as_float d es,
  document_tasks d es ->
  (load as_float d = Rejects DependencyCycle -> cyclic (document_depends es)) /\
  (forall p, load as_float d = Loads p ->
     acyclic (document_depends es) /\ acyclic (depends_in (map tk_deps (pr_tasks p)))).
Proof.
  intros as_float d es T.
  assert (G : forall r, load as_float d = r -> (exists p, r = Loads p) \/ r = Rejects DependencyCycle ->
    exists q, (forall i j, depends_in (map tk_deps (pr_tasks q)) i j <-> document_depends es i j) /\
      (r = Loads q /\ acyclic (depends_in (map tk_deps (pr_tasks q))) \/
       r = Rejects DependencyCycle /\ cyclic (depends_in (map tk_deps (pr_tasks q))))).
  { intros r H OUT. destruct (load_stages as_float d r H OUT) as (q & ags & es' & F & C).
    pose proof (document_tasks_fun _ _ _ (fa_shape _ _ _ _ _ F) T (fa_es _ _ _ _ _ F)) as <-.
    assert (EQ : forall i j, depends_in (map tk_deps (pr_tasks q)) i j <-> document_depends es i j).
    { intros i j. split.
      - intros (l & N & I). rewrite nth_error_map in N. destruct (nth_error (pr_tasks q) i) as [t|] eqn:X; [|discriminate N].
        cbn in N. injection N as <-. apply (fa_deps _ _ _ _ _ F i t X). exact I.
      - intro DD. pose proof DD as (n & kids & E & _).
        destruct (Forall2_nth_r _ _ _ _ _ (fa_tasks _ _ _ _ _ F) i _ E) as (t & X & _).
        exists (tk_deps t). rewrite nth_error_map, X. split; [reflexivity|]. apply (fa_deps _ _ _ _ _ F i t X). exact DD. }
    exists q. split; [exact EQ|].
    pose proof (check_for_cycles_spec (pr_tasks q) (proj2 (fa_some _ _ _ _ _ F))) as S. unfold edge in S.
    destruct C as [[C ->]|[C ->]]; rewrite C in S; [left; auto|right; split; [reflexivity|apply S]]. }
  assert (TR : forall A B : nat -> nat -> Prop, (forall i j, A i j -> B i j) -> forall i j, clos_trans nat A i j -> clos_trans nat B i j).
  { intros A B I i j C. induction C; [apply t_step; auto|eapply t_trans; eassumption]. }
  split.
  - intro H. destruct (G _ H) as (q & EQ & C); [auto|]. destruct C as [[X _]|[_ (i & C)]]; [discriminate X|].
    exists i. apply (TR _ _ (fun i j => proj1 (EQ i j))). exact C.
  - intros p H. destruct (G _ H) as (q & EQ & C); [eauto|]. destruct C as [[X C]|[X _]]; [|discriminate X].
    injection X as <-. split; [|exact C]. intros i CY. apply (C i). apply (TR _ _ (fun i j => proj2 (EQ i j))). exact CY.
Qed.
Print Assumptions cycle_reported.

(** Hence a document without other errors is reported exactly if it has a
    cycle. *)
Corollary cycle_reported_iff : forall as_float d es,
  document_tasks d es -> (exists p, load as_float d = Loads p) \/ load as_float d = Rejects DependencyCycle ->
  (load as_float d = Rejects DependencyCycle <-> cyclic (document_depends es)).
Proof.
  intros as_float d es T OUT. destruct (cycle_reported as_float d es T) as [A B]. split; [exact A|].
  intros (i & C). destruct OUT as [(p & H)|H]; [|exact H]. destruct (B p H) as [X _]. destruct (X i C).
Qed.
Print Assumptions cycle_reported_iff.

(** A subtask that depends on its parent. *)
Definition ex_cycle : yaml :=
  Map [(Scalar "agents", Map [(Scalar "Bob", Null)]);
       (Scalar "tasks", Seq [Map [(Scalar "name", Scalar "t"); (Scalar "duration", Scalar "1h"); (Scalar "id", Scalar "x");
         (Scalar "subtasks", Seq [Map [(Scalar "name", Scalar "u"); (Scalar "duration", Scalar "1h");
           (Scalar "depends_on", Seq [Scalar "x"])]])]])].

Example ex_cyclic : load ex_float ex_cycle = Rejects DependencyCycle.
Proof. vm_compute. reflexivity. Qed.

(** ** C13 *)

Theorem loaded_durations : forall as_float d p es i t e,
  load as_float d = Loads p -> document_tasks d es ->
  nth_error (pr_tasks p) i = Some t -> nth_error es i = Some e ->
  (tk_min t <= tk_max t)%Z /\
  exists lo hi, duration_texts (fst e) lo hi /\ denotes lo (tk_min t) /\ denotes hi (tk_max t).
Proof.
  intros as_float d p es i t e H T A E. facts H ags' es' F.
  pose proof (document_tasks_fun _ _ _ (fa_shape _ _ _ _ _ F) T (fa_es _ _ _ _ _ F)) as <-.
  destruct (Forall2_nth _ _ _ _ _ (fa_tasks _ _ _ _ _ F) i t A) as (e' & E' & M). rewrite E in E'. injection E' as <-.
  split; [exact (tm_order _ _ _ _ M)|exact (tm_duration _ _ _ _ M)].
Qed.
Print Assumptions loaded_durations.

(** Texts that are no durations and swapped bounds are reported. *)
Example ex_bad_durations :
  load ex_float (ex_one_task [(Scalar "duration", Scalar "1 lightyear")]) = Rejects (InvalidDuration "t" "1 lightyear") /\
  load ex_float (ex_one_task [(Scalar "duration", Map [(Scalar "min", Scalar "2h"); (Scalar "max", Scalar "1h")])]) =
    Rejects (DurationMinMax "t").
Proof. vm_compute. auto. Qed.

(** ** C14 *)

Theorem loaded_assignment : forall as_float d p es i t e,
  load as_float d = Loads p -> document_tasks d es ->
  nth_error (pr_tasks p) i = Some t -> nth_error es i = Some e ->
  one_assignment (fst e) /\
  match tk_agent t with
  | None => absent (fst e) "agent"
  | Some k => exists a, nth_error (pr_agents p) k = Some a /\ text_field (fst e) "agent" (ag_name a)
  end.
Proof.
  intros as_float d p es i t e H T A E. facts H ags' es' F.
  pose proof (document_tasks_fun _ _ _ (fa_shape _ _ _ _ _ F) T (fa_es _ _ _ _ _ F)) as <-.
  destruct (Forall2_nth _ _ _ _ _ (fa_tasks _ _ _ _ _ F) i t A) as (e' & E' & M). rewrite E in E'. injection E' as <-.
  split; [exact (tm_one _ _ _ _ M)|exact (tm_agent _ _ _ _ M)].
Qed.
Print Assumptions loaded_assignment.

Example ex_two_assignments :
  load ex_float (ex_one_task [(Scalar "duration", Scalar "1h"); (Scalar "agent", Scalar "Jack"); (Scalar "group", Scalar "A")]) =
    Rejects (InvalidAssignment "t") /\
  load ex_float (ex_one_task [(Scalar "duration", Scalar "1h"); (Scalar "agent", Scalar "Jim")]) = Rejects (AgentNotFound "Jim").
Proof. vm_compute. auto. Qed.

(** ** C16 *)

(** The documented rule holds for tasks that name an agent or have groups. *)
Theorem can_work_partial : forall a t,
  index_set (ag_groups a) -> index_set (tk_groups t) -> tk_agent t <> None \/ tk_groups t <> [] ->
  (can_work_on a t = true <-> may_work_doc a t).
Proof.
  intros a t SA ST D. rewrite (can_work_on_spec a t SA ST). unfold may_work_impl, may_work_doc.
  destruct (tk_agent t) as [i|]; [tauto|]. destruct D as [D|D]; [congruence|]. tauto.
Qed.
Print Assumptions can_work_partial.

(** C16 as stated is false: an agent with groups is refused a task without
    groups. *)
Theorem can_work_refuted : exists d p a t,
  load ex_float d = Loads p /\ In a (pr_agents p) /\ In t (pr_tasks p) /\
  may_work_doc a t /\ can_work_on a t = false.
Proof.
  exists (ex_one_task [(Scalar "duration", Scalar "1h")]). do 3 eexists.
  split; [apply loads_loaded; vm_compute; reflexivity|].
  set (p := loaded _). split; [apply (nth_error_In _ 0); reflexivity|]. split; [apply (nth_error_In _ 0); reflexivity|].
  split; [right; intros x []|]. vm_compute. reflexivity.
Qed.
Print Assumptions can_work_refuted.

(** ** C15 *)

(** The sets of a loaded project are sorted. *)
Lemma loaded_sorted : forall as_float d p, load as_float d = Loads p ->
  (forall a, In a (pr_agents p) -> index_set (ag_groups a)) /\
  (forall t, In t (pr_tasks p) -> index_set (tk_groups t) /\ index_set (tk_deps t)).
Proof.
  intros as_float d p H. facts H ags es F. split.
  - intros a I. apply In_nth_error in I. destruct I as (i & A). destruct (fa_agents _ _ _ _ _ F) as [L M].
    destruct (nth_error ags i) as [e|] eqn:E.
    + destruct (am_groups _ _ _ _ _ (M i a e A E)) as (l & _ & (S & _) & _). exact S.
    + apply nth_error_None in E. rewrite <- L in E. apply nth_error_None in E. congruence.
  - intros t I. apply In_nth_error in I. destruct I as (i & A).
    destruct (Forall2_nth _ _ _ _ _ (fa_tasks _ _ _ _ _ F) i t A) as (e & _ & M).
    destruct (tm_groups _ _ _ _ M) as (l & _ & (S & _) & _). split; [exact S|]. apply (fa_deps _ _ _ _ _ F i t A).
Qed.

(** A task that names an agent or has a single group has an able agent; if
    there is an agent without groups, every task has one. *)
Theorem able_agent_partial : forall as_float d p t,
  load as_float d = Loads p -> In t (pr_tasks p) ->
  tk_agent t <> None \/ length (tk_groups t) = 1 \/ (exists a, In a (pr_agents p) /\ ag_groups a = []) ->
  exists a, In a (pr_agents p) /\ can_work_on a t = true.
Proof.
  intros as_float d p t H I D. destruct (loaded_sorted _ _ _ H) as [SA ST]. facts H ags es F.
  apply In_nth_error in I. destruct I as (i & A).
  destruct (Forall2_nth _ _ _ _ _ (fa_tasks _ _ _ _ _ F) i t A) as (e & _ & M).
  pose proof (tm_agent _ _ _ _ M) as TA. destruct (ST t (nth_error_In _ _ A)) as [S1 _].
  destruct (tk_agent t) as [k|] eqn:K.
  - destruct TA as (a & N & _). exists a. split; [exact (nth_error_In _ _ N)|]. unfold can_work_on. rewrite K.
    apply Nat.eqb_eq. destruct (loaded_agents _ _ _ _ H (fa_ags _ _ _ _ _ F)) as (_ & IDS & _). symmetry. exact (IDS k a N).
  - assert (U : has_universal (pr_agents p) -> exists a, In a (pr_agents p) /\ can_work_on a t = true).
    { intros (a & IA & G). exists a. split; [exact IA|]. unfold can_work_on, is_universal. rewrite K, G. reflexivity. }
    destruct D as [D|[D|D]]; [congruence| |exact (U D)].
    destruct (fa_covered _ _ _ _ _ F) as [CV|CV]; [exact (U CV)|].
    destruct (tk_groups t) as [|g [|h r]] eqn:G; try discriminate D.
    destruct (tm_groups _ _ _ _ M) as (names & _ & (_ & R & _) & _). rewrite G in R.
    destruct (R g (or_introl eq_refl)) as (name & N & _). destruct (CV g name N) as (a & IA & IG).
    exists a. split; [exact IA|]. apply can_work_on_spec; [exact (SA a IA)|rewrite G; exact S1|].
    unfold may_work_impl. rewrite K, G. right. split; [discriminate|]. intros x [<-|[]]. exact IG.
Qed.
Print Assumptions able_agent_partial.

(** C15 as stated is false: a task without groups needs an agent without
    groups, and nothing checks that there is one; and a task with two
    groups needs an agent in both. *)
Definition ex_two_groups : yaml :=
  Map [(Scalar "agents", Map [(Scalar "Jack", Map [(Scalar "groups", Seq [Scalar "A"])]);
                              (Scalar "Jill", Map [(Scalar "groups", Seq [Scalar "B"])])]);
       (Scalar "tasks", Seq [Map [(Scalar "name", Scalar "t"); (Scalar "duration", Scalar "1h");
                                  (Scalar "groups", Seq [Scalar "A"; Scalar "B"])]])].

Theorem able_agent_refuted : forall d, d = ex_one_task [(Scalar "duration", Scalar "1h")] \/ d = ex_two_groups ->
  exists p t, load ex_float d = Loads p /\ In t (pr_tasks p) /\ forall a, In a (pr_agents p) -> can_work_on a t = false.
Proof.
  intros d [-> | ->]; do 2 eexists; (split; [apply loads_loaded; vm_compute; reflexivity|]).
  - set (p := loaded _). split; [apply (nth_error_In _ 0); reflexivity|].
    assert (X : forallb (fun a => negb (can_work_on a (nth 0 (pr_tasks p) (blank_task "")))) (pr_agents p) = true)
      by (vm_compute; reflexivity).
    intros a I. rewrite forallb_forall in X. apply negb_true_iff. exact (X a I).
  - set (p := loaded _). split; [apply (nth_error_In _ 0); reflexivity|].
    assert (X : forallb (fun a => negb (can_work_on a (nth 0 (pr_tasks p) (blank_task "")))) (pr_agents p) = true)
      by (vm_compute; reflexivity).
    intros a I. rewrite forallb_forall in X. apply negb_true_iff. exact (X a I).
Qed.
Print Assumptions able_agent_refuted.
