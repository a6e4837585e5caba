(** * Independent vocabulary for documents

    Nothing here refers to the checks or to the loader: only YAML trees. *)

From Coq Require Import String List Arith ZArith Ascii Bool.
From Verif Require Import YamlModel FormatProps.
Import ListNotations.
Local Open Scope string_scope.
Local Open Scope nat_scope.

(** ** Shapes *)

(** A scalar. *)
Definition is_text (y : yaml) : Prop := exists s, y = Scalar s.

(** A sequence of scalars. *)
Definition is_texts (y : yaml) : Prop := exists l, y = Seq l /\ Forall is_text l.

(** [field y name v]: the map [y] has an entry [name: v]. *)
Definition field (y : yaml) (name : string) (v : yaml) : Prop :=
  exists l, y = Map l /\ In (Scalar name, v) l.

(** A map, or nothing at all, whose keys are some of the given names, each
    at most once. *)
Definition has_keys (names : list string) (y : yaml) : Prop :=
  y = Null \/
  exists l, y = Map l /\ NoDup (map fst l) /\
    Forall (fun e => exists n, fst e = Scalar n /\ In n names) l.

Definition required (y : yaml) (name : string) (P : yaml -> Prop) : Prop :=
  exists v, field y name v /\ P v.

Definition optional (y : yaml) (name : string) (P : yaml -> Prop) : Prop :=
  forall v, field y name v -> P v.

(** A single value or a map with a minimum and a maximum. *)
Definition is_range (y : yaml) : Prop :=
  is_text y \/
  has_keys ["min"; "max"] y /\ required y "min" is_text /\ required y "max" is_text.

(** The attributes of an agent. *)
Definition agent_shape (y : yaml) : Prop :=
  has_keys ["performance"; "groups"] y /\
  optional y "performance" is_range /\ optional y "groups" is_texts.

(** The attributes of a task other than its subtasks. *)
Definition own_shape (y : yaml) : Prop :=
  has_keys ["group"; "groups"; "agent"; "name"; "id"; "depends_on"; "duration"; "subtasks"] y /\
  optional y "group" is_text /\
  optional y "groups" is_texts /\
  optional y "agent" is_text /\
  required y "name" is_text /\
  optional y "id" is_text /\
  optional y "depends_on" (fun v => is_text v \/ is_texts v) /\
  required y "duration" is_range.

(** A sequence of tasks with their subtasks. *)
Inductive tasks_shape : yaml -> Prop :=
| tasks_shaped : forall l,
    (forall t, In t l -> own_shape t) ->
    (forall t v, In t l -> field t "subtasks" v -> tasks_shape v) ->
    tasks_shape (Seq l).

Definition agents_shape (y : yaml) : Prop :=
  exists l, y = Map l /\ forall k v, In (k, v) l -> agent_shape v.

Definition document_shape (y : yaml) : Prop :=
  has_keys ["agents"; "tasks"] y /\ required y "agents" agents_shape /\ required y "tasks" tasks_shape.

(** ** Locations *)

(** What the schema expects at a place of a document. *)
Inductive role :=
| Document | Agents | AgentInfo | TaskList | TaskInfo
| Range (* a value or a minimum and a maximum *)
| Names (* a text or a sequence of texts *)
| Texts
| Text.

(** The documented attributes and the roles of their values. *)
Definition attribute_role (r : role) (name : string) : option role :=
  let among := fun l : list (string * role) =>
    match find (fun e => String.eqb (fst e) name) l with Some (_, r') => Some r' | None => None end in
  match r with
  | Document => among [("agents", Agents); ("tasks", TaskList)]
  | AgentInfo => among [("performance", Range); ("groups", Texts)]
  | TaskInfo => among [("group", Text); ("groups", Texts); ("agent", Text); ("name", Text); ("id", Text);
                       ("depends_on", Names); ("duration", Range); ("subtasks", TaskList)]
  | Range => among [("min", Text); ("max", Text)]
  | _ => None
  end.

(** The attributes that must be there. *)
Definition required_names (r : role) : list string :=
  match r with
  | Document => ["agents"; "tasks"]
  | TaskInfo => ["name"; "duration"]
  | Range => ["min"; "max"]
  | _ => []
  end.

Definition item_role (r : role) : option role :=
  match r with
  | TaskList => Some TaskInfo
  | Texts | Names => Some Text
  | _ => None
  end.

Definition dotted (path name : string) : string :=
  if String.eqb path "" then name else path ++ "." ++ name.

(** [placed d r path y]: following the path from the root of [d] leads to
    the node [y], which has the role [r].  The paths are those of the error
    messages: names of map entries separated by dots, positions in
    brackets. *)
Inductive placed (d : yaml) : role -> string -> yaml -> Prop :=
| pl_root : placed d Document "" d
| pl_attribute : forall r r' path y name v,
    placed d r path y -> field y name v -> attribute_role r name = Some r' ->
    placed d r' (dotted path name) v
| pl_agent : forall path l k v,
    placed d Agents path (Map l) -> In (k, v) l -> placed d AgentInfo (dotted path (scalar_of k)) v
| pl_item : forall r r' path l i n v,
    placed d r path (Seq l) -> item_role r = Some r' -> nth_error l i = Some v ->
    numeral (Z.of_nat i) (list_ascii_of_string n) ->
    placed d r' (path ++ "[" ++ n ++ "]") v.

(** Keys without a text: empty ones and those that are not scalars. *)
Definition no_text (k : yaml) : Prop := forall s, k = Scalar s -> s = "".
