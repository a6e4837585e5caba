(** * Independent vocabulary for what a document says

    Only YAML trees and the data of a project; nothing here refers to the
    loader.  See DocumentSpec.v for [field]. *)

From Coq Require Import String List Bool Arith ZArith Ascii Relations.
From Verif Require Import F32 ProjectModel YamlModel DurationSpec DocumentSpec ScheduleSpec.
Import ListNotations.
Local Open Scope string_scope.
Local Open Scope nat_scope.

(** ** Attributes *)

Definition text_field (y : yaml) (name s : string) : Prop := field y name (Scalar s).

Definition texts_field (y : yaml) (name : string) (l : list string) : Prop :=
  field y name (Seq (map Scalar l)).

Definition absent (y : yaml) (name : string) : Prop := forall v, ~ field y name v.

(** The groups written for an agent. *)
Definition agent_groups (y : yaml) (l : list string) : Prop :=
  texts_field y "groups" l \/ absent y "groups" /\ l = [].

(** The groups written for a task. *)
Definition task_groups (y : yaml) (l : list string) : Prop :=
  (exists g, text_field y "group" g /\ l = [g]) \/
  (absent y "group" /\ texts_field y "groups" l) \/
  (absent y "group" /\ absent y "groups" /\ l = []).

(** The id of a task; empty if it has none. *)
Definition task_id (y : yaml) (s : string) : Prop :=
  text_field y "id" s \/ absent y "id" /\ s = "".

(** The ids a task depends on. *)
Definition depends_on (y : yaml) (l : list string) : Prop :=
  (exists s, text_field y "depends_on" s /\ l = [s]) \/
  texts_field y "depends_on" l \/
  absent y "depends_on" /\ l = [].

(** The texts of the shortest and the longest duration. *)
Definition duration_texts (y : yaml) (lo hi : string) : Prop :=
  (text_field y "duration" lo /\ hi = lo) \/
  exists r, field y "duration" r /\ text_field r "min" lo /\ text_field r "max" hi.

(** A task has at most one of the three attributes that assign it. *)
Definition one_assignment (y : yaml) : Prop :=
  (absent y "group" /\ absent y "groups") \/
  (absent y "group" /\ absent y "agent") \/
  (absent y "groups" /\ absent y "agent").

(** ** Nested tasks *)

(** [layout pos t es]: the task [t] and its subtasks at all depths in
    document order, [t] being number [pos]; each with the numbers of its
    direct subtasks. *)
Inductive layout : nat -> yaml -> list (yaml * list nat) -> Prop :=
| lay_leaf : forall pos t, absent t "subtasks" -> layout pos t [(t, [])]
| lay_node : forall pos t subs kids es,
    field t "subtasks" (Seq subs) -> layouts (S pos) subs kids es ->
    layout pos t ((t, kids) :: es)
with layouts : nat -> list yaml -> list nat -> list (yaml * list nat) -> Prop :=
| lays_nil : forall pos, layouts pos [] [] []
| lays_cons : forall pos t ts es kids es',
    layout pos t es -> layouts (pos + length es) ts kids es' ->
    layouts pos (t :: ts) (pos :: kids) (es ++ es')%list.

Definition document_tasks (d : yaml) (es : list (yaml * list nat)) : Prop :=
  exists l kids, field d "tasks" (Seq l) /\ layouts 0 l kids es.

Definition document_agents (d : yaml) (l : list (yaml * yaml)) : Prop :=
  field d "agents" (Map l).

(** Task [i] depends on task [j] according to the document: [j] is a
    direct subtask of [i], or [i] names the id of [j]. *)
Definition document_depends (es : list (yaml * list nat)) (i j : nat) : Prop :=
  exists n kids, nth_error es i = Some (n, kids) /\
    (In j kids \/
     exists ids s n' kids', depends_on n ids /\ In s ids /\ s <> "" /\
       nth_error es j = Some (n', kids') /\ text_field n' "id" s).

(** ** Groups *)

(** The distinct elements in order of their first mention. *)
Fixpoint first_mentions (l : list string) : list string :=
  match l with
  | [] => []
  | x :: l' => x :: filter (fun y => negb (String.eqb x y)) (first_mentions l')
  end.

(** The groups mentioned in a document, agents first. *)
Definition mentions (agents : list (yaml * yaml)) (es : list (yaml * list nat)) (l : list string) : Prop :=
  exists la le,
    Forall2 (fun a g => agent_groups (snd a) g) agents la /\
    Forall2 (fun e g => task_groups (fst e) g) es le /\
    l = (concat la ++ concat le)%list.

(** The indices stand for exactly the names. *)
Definition resolves (table : list string) (ids : list nat) (names : list string) : Prop :=
  index_set ids /\
  (forall i, In i ids -> exists g, nth_error table i = Some g /\ In g names) /\
  (forall g, In g names -> exists i, In i ids /\ nth_error table i = Some g).

(** ** Durations *)

(** What a duration text stands for.  The value of a phrase is
    [charged_seconds], and the sum of the items if the items are separated
    (C02). *)
Definition denotes (text : string) (z : Z) : Prop :=
  (exists ph, phrase_ok ph /\ phrase_text ph = list_ascii_of_string text) /\
  forall ph, phrase_ok ph -> phrase_text ph = list_ascii_of_string text -> counts_fit ph ->
    z = charged_seconds ph /\ (separated ph -> z = phrase_seconds ph).

(** ** What a project must contain for a document *)

(** The performance written for an agent; [as_float] reads numbers. *)
Definition performance_written (as_float : string -> option f32) (y : yaml) (p : performance) : Prop :=
  (exists s x, text_field y "performance" s /\ as_float s = Some x /\ perf_min p = x /\ perf_max p = x) \/
  (exists r lo hi x z, field y "performance" r /\ text_field r "min" lo /\ text_field r "max" hi /\
     as_float lo = Some x /\ as_float hi = Some z /\ perf_min p = x /\ perf_max p = z) \/
  (absent y "performance" /\ perf_min p = f_one /\ perf_max p = f_one).

(** An agent and its entry. *)
Record agent_mirrors (as_float : string -> option f32) (table : list string) (i : nat) (a : agent) (e : yaml * yaml)
  : Prop := {
  am_name : fst e = Scalar (ag_name a) /\ ag_name a <> "";
  am_id : ag_id a = i;
  am_groups : exists names, agent_groups (snd e) names /\ resolves table (ag_groups a) names /\ ~ In "" names;
  am_perf : performance_written as_float (snd e) (ag_perf a);
  am_sane : f_le (perf_min (ag_perf a)) f_zero = false /\ f_le (perf_max (ag_perf a)) f_zero = false /\
            f_lt (perf_max (ag_perf a)) (perf_min (ag_perf a)) = false
}.

(** A task and its entry with the positions of its direct subtasks, apart
    from the dependencies. *)
Record task_mirrors (agents : list agent) (table : list string) (t : task) (e : yaml * list nat) : Prop := {
  tm_name : text_field (fst e) "name" (tk_name t) /\ tk_name t <> "";
  tm_id : (text_field (fst e) "id" (tk_id t) /\ tk_id t <> "") \/ (absent (fst e) "id" /\ tk_id t = "");
  tm_groups : exists names, task_groups (fst e) names /\ resolves table (tk_groups t) names /\ ~ In "" names;
  tm_agent : match tk_agent t with
             | None => absent (fst e) "agent"
             | Some i => exists a, nth_error agents i = Some a /\ text_field (fst e) "agent" (ag_name a)
             end;
  tm_one : one_assignment (fst e);
  tm_duration : exists lo hi, duration_texts (fst e) lo hi /\ denotes lo (tk_min t) /\ denotes hi (tk_max t);
  tm_order : (tk_min t <= tk_max t)%Z
}.

(** ** Cycles *)

Definition cyclic (R : nat -> nat -> Prop) : Prop := exists i, clos_trans nat R i i.

(** ** Documents without peculiarities *)

(** Agents have non-empty names, groups have non-empty names, there are at
    most 128 agents, 127 tasks and 128 groups, no list of dependencies is
    empty, and the numbers in durations fit an [int]. *)
Record ordinary (ags : list (yaml * yaml)) (es : list (yaml * list nat)) : Prop := {
  or_names : forall k v, In (k, v) ags -> exists s, k = Scalar s /\ s <> "";
  or_agents : length ags <= 128;
  or_tasks : length es <= 127;
  or_groups : forall names, mentions ags es names -> ~ In "" names /\ length (first_mentions names) <= 128;
  or_depends : forall e, In e es -> ~ texts_field (fst e) "depends_on" [];
  or_numbers : forall e lo hi, In e es -> duration_texts (fst e) lo hi ->
    numbers_fit (list_ascii_of_string lo) /\ numbers_fit (list_ascii_of_string hi)
}.
