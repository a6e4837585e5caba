(** * Property theorems C04 and C05: the schema check *)

From Coq Require Import String List ZArith Ascii Bool Arith Lia.
From Verif Require Import Base YamlModel FormatProps ValidationModel DocumentSpec ValidationProofs.
Import ListNotations.
Local Open Scope string_scope.
Local Open Scope nat_scope.

(** ** C04 *)

(** The check accepts exactly the documents of the documented shape, and
    it always comes to a verdict. *)
Theorem schema_exact : forall d,
  (validate_configuration d = Ok None <-> document_shape d) /\
  ((exists m, validate_configuration d = Ok (Some m)) <-> ~ document_shape d).
Proof.
  intro d. destruct (schema_accepts d) as (m & E & I). rewrite E. destruct m as [m|].
  - split; split.
    + discriminate.
    + intro H. apply I in H. discriminate H.
    + intros _ H. apply I in H. discriminate H.
    + intros _. exists m. reflexivity.
  - split; split.
    + intros _. apply I. reflexivity.
    + reflexivity.
    + intros [m H]. discriminate H.
    + intro H. destruct H. apply I. reflexivity.
Qed.
Print Assumptions schema_exact.

(** A document with nested subtasks has the shape, one with a duplicate
    attribute in a subtask does not. *)
Definition ex_task (name : string) (more : list (yaml * yaml)) : yaml :=
  Map ((Scalar "name", Scalar name) :: (Scalar "duration", Scalar "1h") :: more).

Definition ex_document (inner : list (yaml * yaml)) : yaml :=
  Map [(Scalar "agents", Map [(Scalar "Bob", Null); (Scalar "Jack", Map [(Scalar "groups", Seq [Scalar "A"])])]);
       (Scalar "tasks", Seq [ex_task "outer" [(Scalar "subtasks", Seq [ex_task "inner" inner])]])].

Example ex_schema :
  document_shape (ex_document [(Scalar "depends_on", Seq [Scalar "x"])]) /\
  ~ document_shape (ex_document [(Scalar "name", Scalar "again")]).
Proof.
  split.
  - apply schema_exact. vm_compute. reflexivity.
  - apply schema_exact. eexists. vm_compute. reflexivity.
Qed.

(** ** C05 *)

(** The complaint is true of the node with the given role. *)
Definition true_of (r : role) (c : complaint) (y : yaml) : Prop :=
  match c with
  | IsEmpty => y = Null
  | InvalidType =>
      (* a node of this kind is not allowed here *)
      match r with
      | Text => (exists l, y = Seq l) \/ (exists l, y = Map l)
      | Range => exists l, y = Seq l
      | _ => False
      end
  | Missing a => In a (required_names r) /\ (y = Null \/ exists l, y = Map l) /\ forall v, ~ field y a v
  | NotSequence => item_role r <> None /\ forall l, y <> Seq l
  | NotMap => In r [Document; Agents; AgentInfo; TaskInfo] /\ forall l, y <> Map l
  | EmptyAttribute => exists l k v, y = Map l /\ In (k, v) l /\ no_text k
  | DuplicateAttribute a =>
      exists l1 v1 l2 v2 l3, y = Map (l1 ++ (Scalar a, v1) :: l2 ++ (Scalar a, v2) :: l3)
  | UnexpectedAttribute a => (exists v, field y a v) /\ attribute_role r a = None
  end.

(** The exception: a performance or duration given as a map with wrong
    attributes is said to have an invalid type. *)
Definition misleading (r : role) (c : complaint) (y : yaml) : Prop :=
  r = Range /\ c = InvalidType /\ exists l, y = Map l.

Definition blames (d : yaml) (m : message) : Prop :=
  exists r y, placed d r (ms_scope m) y /\ (true_of r (ms_what m) y \/ misleading r (ms_what m) y).

(** Checks whose messages are right at places of a given role. *)
Definition truthful (c : check) (r : role) (y : yaml) : Prop :=
  forall d scope m, placed d r scope y -> c y scope = Ok (Some m) -> blames d m.

Lemma try_error : forall r k m, try r k = Ok (Some m) -> r = Ok (Some m) \/ r = Ok None /\ k = Ok (Some m).
Proof.
  intros [[m'|]| |] k m H; unfold try in H; cbn [bind] in H; try discriminate H; [left; exact H|right; auto].
Qed.

Lemma scalar_truthful : forall y, truthful scalar Text y.
Proof.
  intros y d scope m P H. unfold scalar in H. destruct y as [|s|l|l]; try discriminate H;
    injection H as <-; exists Text; eexists; (split; [exact P|]); left; cbn; eauto.
Qed.

Lemma range_truthful : forall y, truthful (any_of min_max scalar) Range y.
Proof.
  intros y d scope m P H. unfold any_of in H. destruct (min_max y scope) as [[m'|]| |]; try discriminate H.
  cbn [bind] in H. unfold scalar in H. destruct y as [|s|l|l]; try discriminate H; injection H as <-;
    exists Range; eexists; (split; [exact P|]).
  - left. reflexivity.
  - left. cbn. eauto.
  - right. split; [reflexivity|]. split; [reflexivity|]. exists l. reflexivity.
Qed.

Lemma chars_back : forall l, list_ascii_of_string (string_of_list_ascii l) = l.
Proof. intro l. apply list_ascii_of_string_of_list_ascii. Qed.

Lemma items_truthful : forall c r r' d scope l0 m, item_role r = Some r' ->
  (forall x, In x l0 -> truthful c r' x) -> placed d r scope (Seq l0) ->
  forall l pre, l0 = (pre ++ l)%list -> check_items c scope (length pre) l = Ok (Some m) -> blames d m.
Proof.
  intros c r r' d scope l0 m R T P. induction l as [|x l IH]; intros pre E H; [discriminate H|].
  cbn [check_items] in H. destruct (try_error _ _ _ H) as [H1|[_ H1]].
  - apply (T x) with (scope := scope ++ "[" ++ index_text (length pre) ++ "]"); [|
      |exact H1].
    + rewrite E. apply in_or_app. right. left. reflexivity.
    + apply pl_item with r l0 (length pre).
      * exact P.
      * exact R.
      * rewrite E, nth_error_app2, Nat.sub_diag by lia. reflexivity.
      * unfold index_text. rewrite chars_back. apply decimal_text_numeral. lia.
  - apply (IH (pre ++ [x])%list); [rewrite <- app_assoc; exact E|].
    rewrite app_length, Nat.add_comm. exact H1.
Qed.

Lemma sequence_truthful : forall c r r' y, item_role r = Some r' ->
  (forall l x, y = Seq l -> In x l -> truthful c r' x) -> truthful (sequence c) r y.
Proof.
  intros c r r' y R T d scope m P H. unfold sequence in H.
  assert (NS : forall y, (forall l, y <> Seq l) -> placed d r scope y ->
    error NotSequence scope = Ok (Some m) -> blames d m).
  { intros y0 N P0 E. injection E as <-. exists r, y0. split; [exact P0|]. left. cbn. rewrite R. split; [discriminate|exact N]. }
  destruct y as [|s|l|l]; try (eapply NS; [|exact P|exact H]; discriminate).
  apply (items_truthful c r r' d scope l m R (fun x I => T l x eq_refl I) P l []); [reflexivity|exact H].
Qed.

Lemma names_truthful : forall attrs scope m l seen, 
  check_names attrs scope seen l = Ok (Some m) ->
  ms_scope m = scope /\
  ((exists k v, In (k, v) l /\ no_text k /\ ms_what m = EmptyAttribute) \/
   (exists a l1 v l2, l = (l1 ++ (Scalar a, v) :: l2)%list /\ ms_what m = DuplicateAttribute a /\
      (In a seen \/ exists v', In (Scalar a, v') l1)) \/
   (exists a v, In (Scalar a, v) l /\ ~ In a (map attr_name attrs) /\ ms_what m = UnexpectedAttribute a)).
Proof.
  intros attrs scope m l. induction l as [|[k v] l IH]; intros seen H; [discriminate H|]. cbn [check_names] in H.
  assert (EMPTY : scalar_of k = "" -> no_text k).
  { intros E s ->. exact E. }
  destruct (string_dec (scalar_of k) "") as [E|NE].
  { rewrite E in H. injection H as <-. split; [reflexivity|]. left. exists k, v. split; [left; reflexivity|]. auto. }
  assert (K : k = Scalar (scalar_of k)) by (destruct k; cbn in NE |- *; congruence).
  set (a := scalar_of k) in *. clearbody a. subst k.
  replace (match a with "" => error EmptyAttribute scope | String _ _ =>
     if existsb (String.eqb a) seen then error (DuplicateAttribute a) scope
     else if existsb (fun a0 => String.eqb a (attr_name a0)) attrs then check_names attrs scope (a :: seen) l
     else error (UnexpectedAttribute a) scope end)
    with (if existsb (String.eqb a) seen then error (DuplicateAttribute a) scope
     else if existsb (fun a0 => String.eqb a (attr_name a0)) attrs then check_names attrs scope (a :: seen) l
     else error (UnexpectedAttribute a) scope) in H by (destruct a; [congruence|reflexivity]).
  destruct (existsb (String.eqb a) seen) eqn:SE.
  { injection H as <-. split; [reflexivity|]. right. left. exists a, [], v, l. split; [reflexivity|].
    split; [reflexivity|]. left. apply existsb_In, SE. }
  destruct (existsb (fun a0 => String.eqb a (attr_name a0)) attrs) eqn:AE.
  - destruct (IH (a :: seen) H) as [S C]. split; [exact S|].
    destruct C as [(k & v' & I & N & W)|[(b & l1 & v' & l2 & -> & W & C)|(b & v' & I & N & W)]].
    + left. exists k, v'. split; [right; exact I|auto].
    + right. left. exists b, ((Scalar a, v) :: l1), v', l2. split; [reflexivity|]. split; [exact W|].
      destruct C as [[->|C]|[v2 C]]; [right; exists v; left; reflexivity|left; exact C|right; exists v2; right; exact C].
    + right. right. exists b, v'. split; [right; exact I|auto].
  - injection H as <-. split; [reflexivity|]. right. right. exists a, v. split; [left; reflexivity|].
    split; [|reflexivity]. intro I. apply existsb_attr in I. congruence.
Qed.

(** An attribute fits a role: its value gets the documented role, and it is
    required if documented so. *)
Definition fits (r : role) (y : yaml) (a : attribute) : Prop :=
  match a with
  | Required n c => In n (required_names r) /\
      exists r', attribute_role r n = Some r' /\ forall v, field y n v -> truthful c r' v
  | Optional n c => exists r', attribute_role r n = Some r' /\ forall v, field y n v -> truthful c r' v
  end.

Lemma join_dotted : forall a b, join a b = dotted a b.
Proof. intros [|c a] b; reflexivity. Qed.

Lemma attrs_truthful : forall r d scope y m, placed d r scope y -> (y = Null \/ exists l, y = Map l) ->
  forall attrs, Forall (fits r y) attrs -> check_attrs attrs y scope = Ok (Some m) -> blames d m.
Proof.
  intros r d scope y m P K attrs F. induction F as [|a attrs H F IH]; intro C; [discriminate C|].
  cbn [check_attrs] in C. destruct (try_error _ _ _ C) as [C1|[_ C1]]; [clear C IH|exact (IH C1)].
  assert (STEP : forall n c r' v, attribute_role r n = Some r' -> (forall v, field y n v -> truthful c r' v) ->
    subscript y n = Ok (Some v) -> c v (join scope n) = Ok (Some m) -> blames d m).
  { intros n c r' v R T S E. pose proof (subscript_field y n v S) as Fv.
    apply (T v Fv d (join scope n) m); [|exact E]. rewrite join_dotted.
    apply pl_attribute with r y; assumption. }
  destruct a as [n c|n c]; cbn [attr_check] in C1; cbn [fits] in H;
    destruct (subscript y n) as [[v|]| |] eqn:S; cbn [bind] in C1; try discriminate C1.
  - destruct H as (_ & r' & R & T). exact (STEP n c r' v R T S C1).
  - injection C1 as <-. exists r, y. split; [exact P|]. left. cbn. split; [apply H|]. split; [exact K|].
    exact (subscript_none y n S).
  - destruct H as (r' & R & T). exact (STEP n c r' v R T S C1).
Qed.

Lemma attributes_truthful : forall attrs r y, In r [Document; AgentInfo; TaskInfo] ->
  (forall n, ~ In n (map attr_name attrs) -> attribute_role r n = None) ->
  Forall (fits r y) attrs -> truthful (attributes attrs) r y.
Proof.
  intros attrs r y R N F d scope m P H. unfold attributes in H.
  assert (NM : (forall l, y <> Map l) -> error NotMap scope = Ok (Some m) -> blames d m).
  { intros M E. injection E as <-. exists r, y. split; [exact P|]. left. cbn. split; [|exact M].
    cbn in R. tauto. }
  assert (MAP : (y = Null \/ exists l, y = Map l) ->
    try (check_names attrs scope [] (entries_of y)) (check_attrs attrs y scope) = Ok (Some m) -> blames d m).
  { intros K E. destruct (try_error _ _ _ E) as [E1|[_ E1]]; [|exact (attrs_truthful r d scope y m P K attrs F E1)].
    destruct (names_truthful attrs scope m _ _ E1) as [S C]. exists r, y. rewrite S. split; [exact P|]. left.
    destruct K as [->|[l ->]]; cbn [entries_of] in C.
    - destruct C as [(k & v & [] & _)|[(a & l1 & v & l2 & E' & _)|(a & v & [] & _)]]. destruct l1; discriminate E'.
    - destruct C as [(k & v & I & T & ->)|[(a & l1 & v & l2 & -> & -> & [[]|[v' C]])|(a & v & I & T & ->)]]; cbn.
      + exists l, k, v. auto.
      + destruct (in_split _ _ C) as (l3 & l4 & ->). exists l3, v', l4, v, l2. rewrite <- app_assoc. reflexivity.
      + split; [exists v, l; auto|]. apply N, T. }
  destruct y as [|s|l|l].
  - apply MAP; [left; reflexivity|exact H].
  - apply NM; [discriminate|exact H].
  - apply NM; [discriminate|exact H].
  - apply MAP; [right; exists l; reflexivity|exact H].
Qed.

Lemma agent_truthful : forall y, truthful (attributes agent_attrs) AgentInfo y.
Proof.
  intro y. apply attributes_truthful; [cbn; auto| |].
  - intros n N. unfold attribute_role. cbn [find fst].
    destruct (String.eqb_spec "performance" n) as [<-|_]; [destruct N; left; reflexivity|].
    destruct (String.eqb_spec "groups" n) as [<-|_]; [destruct N; right; left; reflexivity|]. reflexivity.
  - constructor; [|constructor; [|constructor]].
    + exists Range. split; [reflexivity|]. intros v _. apply range_truthful.
    + exists Texts. split; [reflexivity|]. intros v _. apply sequence_truthful with Text; [reflexivity|].
      intros l x _ _. apply scalar_truthful.
Qed.

Lemma values_truthful : forall d scope l0 m, placed d Agents scope (Map l0) ->
  forall l, (forall e, In e l -> In e l0) ->
  check_values (attributes agent_attrs) scope l = Ok (Some m) -> blames d m.
Proof.
  intros d scope l0 m P. induction l as [|[k v] l IH]; intros I H; [discriminate H|]. cbn [check_values] in H.
  destruct (try_error _ _ _ H) as [H1|[_ H1]].
  - apply (agent_truthful v d (join scope (scalar_of k)) m); [|exact H1]. rewrite join_dotted.
    apply pl_agent with l0; [exact P|]. apply I. left. reflexivity.
  - apply IH; [|exact H1]. intros e i. apply I. right. exact i.
Qed.

Lemma agents_truthful : forall y, truthful (values (attributes agent_attrs)) Agents y.
Proof.
  intros y d scope m P H. unfold values in H. destruct y as [|s|l|l];
    try (injection H as <-; exists Agents; eexists; (split; [exact P|]); left; cbn; split; [auto|discriminate]).
  apply (values_truthful d scope l m P l); auto.
Qed.

Lemma tasks_truthful : forall fuel y, truthful (validate_task_list fuel) TaskList y.
Proof.
  induction fuel as [|fuel IH]; intro y; [intros d scope m P H; discriminate H|].
  change (truthful (sequence (attributes (task_attrs (validate_task_list fuel)))) TaskList y).
  apply sequence_truthful with TaskInfo; [reflexivity|]. intros l x _ _.
  apply attributes_truthful; [cbn; auto| |].
  - intros n N. cbn [task_attrs map attr_name In] in N.
    unfold attribute_role. cbn [find fst].
    repeat match goal with |- context [String.eqb ?a n] =>
      destruct (String.eqb_spec a n) as [E|_]; [exfalso; tauto|] end.
    reflexivity.
  - unfold task_attrs.
    constructor; [exists Text; split; [reflexivity|]; intros v _; apply scalar_truthful|].
    constructor; [exists Texts; split; [reflexivity|]; intros v _; apply sequence_truthful with Text; [reflexivity|];
      intros l' x' _ _; apply scalar_truthful|].
    constructor; [exists Text; split; [reflexivity|]; intros v _; apply scalar_truthful|].
    constructor; [split; [cbn; auto|]; exists Text; split; [reflexivity|]; intros v _; apply scalar_truthful|].
    constructor; [exists Text; split; [reflexivity|]; intros v _; apply scalar_truthful|].
    constructor.
    { exists Names. split; [reflexivity|]. intros v _ d scope m P H. unfold any_of in H.
      destruct (scalar v scope) as [[m'|]| |] eqn:S; try discriminate H. cbn [bind] in H.
      revert P H. apply sequence_truthful with Text; [reflexivity|]. intros l' x' _ _. apply scalar_truthful. }
    constructor; [split; [cbn; auto|]; exists Range; split; [reflexivity|]; intros v _; apply range_truthful|].
    constructor; [|constructor]. exists TaskList. split; [reflexivity|]. intros v _. apply IH.
Qed.

(** The full claim is [schema_error_located_partial] without [misleading]:
    every error message quotes the path of a node of the document, and the
    complaint is true of that node.  Proved with that one exception. *)
Theorem schema_error_located_partial : forall d m, validate_configuration d = Ok (Some m) ->
  exists r y, placed d r (ms_scope m) y /\ (true_of r (ms_what m) y \/ misleading r (ms_what m) y).
Proof.
  intros d m H. revert H. unfold validate_configuration. fold agent_attrs.
  apply (attributes_truthful [Required "agents" (values (attributes agent_attrs));
     Required "tasks" (validate_task_list (height d))] Document d); [cbn; auto| | |constructor].
  - intros n N. unfold attribute_role. cbn [find fst].
    destruct (String.eqb_spec "agents" n) as [<-|_]; [destruct N; left; reflexivity|].
    destruct (String.eqb_spec "tasks" n) as [<-|_]; [destruct N; right; left; reflexivity|]. reflexivity.
  - constructor; [|constructor; [|constructor]].
    + split; [cbn; auto|]. exists Agents. split; [reflexivity|]. intros v _. apply agents_truthful.
    + split; [cbn; auto|]. exists TaskList. split; [reflexivity|]. intros v _. apply tasks_truthful.
Qed.
Print Assumptions schema_error_located_partial.

(** A duration with a minimum but no maximum: the message says that the
    duration has an invalid type, although maps are allowed and the defect
    is the missing maximum. *)
Definition ex_half_range : yaml :=
  Map [(Scalar "agents", Map [(Scalar "Bob", Null)]);
       (Scalar "tasks", Seq [Map [(Scalar "name", Scalar "x");
          (Scalar "duration", Map [(Scalar "min", Scalar "1h")])]])].

Theorem schema_error_refuted : exists d m,
  validate_configuration d = Ok (Some m) /\
  message_text m = quoted "tasks[0].duration" ++ " has invalid type." /\
  (exists y, placed d Range (ms_scope m) y /\ field y "min" (Scalar "1h") /\ (forall v, ~ field y "max" v)) /\
  document_shape (Map [(Scalar "agents", Map [(Scalar "Bob", Null)]);
       (Scalar "tasks", Seq [Map [(Scalar "name", Scalar "x");
          (Scalar "duration", Map [(Scalar "min", Scalar "1h"); (Scalar "max", Scalar "1h")])]])]).
Proof.
  exists ex_half_range. eexists. split; [vm_compute; reflexivity|]. split; [vm_compute; reflexivity|]. split.
  - exists (Map [(Scalar "min", Scalar "1h")]). split; [|split].
    + cbn [ms_scope].
      apply (pl_attribute ex_half_range TaskInfo Range "tasks[0]"
        (Map [(Scalar "name", Scalar "x"); (Scalar "duration", Map [(Scalar "min", Scalar "1h")])]) "duration").
      * apply (pl_item ex_half_range TaskList TaskInfo "tasks"
          [Map [(Scalar "name", Scalar "x"); (Scalar "duration", Map [(Scalar "min", Scalar "1h")])]] 0 "0").
        -- apply (pl_attribute ex_half_range Document TaskList "" ex_half_range "tasks"); [constructor| |reflexivity].
           eexists. split; [reflexivity|]. right. left. reflexivity.
        -- reflexivity.
        -- reflexivity.
        -- split; [reflexivity|]. split; [reflexivity|]. left. reflexivity.
      * eexists. split; [reflexivity|]. right. left. reflexivity.
      * reflexivity.
    + eexists. split; [reflexivity|]. left. reflexivity.
    + intros v (l & E & I). injection E as <-. destruct I as [E|[]]. discriminate E.
  - apply schema_exact. vm_compute. reflexivity.
Qed.
Print Assumptions schema_error_refuted.

(** An error that names a nested place. *)
Example ex_located :
  validate_configuration (ex_document [(Scalar "depends_on", Seq [Scalar "x"; Null])]) =
  Ok (Some {| ms_what := IsEmpty; ms_scope := "tasks[0].subtasks[0].depends_on[1]" |}).
Proof. vm_compute. reflexivity. Qed.
