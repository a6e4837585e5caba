(** * YAML trees as yaml-cpp 0.7.0 presents them (conanfile.txt:8)

    A document is a finite tree of nodes.  Anchors that contain an alias
    to themselves, which yaml-cpp would represent by a cyclic graph, are
    not modelled. *)

From Coq Require Import String List Bool Arith.
From Verif Require Import Base.
Import ListNotations.

(** [YAML::Node]: the node kinds null, scalar, sequence and map.  The keys
    of a map are nodes; the parser keeps repeated keys (the argument of
    config/load.cpp:84). *)
Inductive yaml :=
| Null
| Scalar (text : string)
| Seq (items : list yaml)
| Map (entries : list (yaml * yaml)).

(** [Node::Scalar()]: the text of a scalar, empty for other kinds (used in
    config/validation.h:247 and 295, config/agents.cpp:32 and 160,
    config/tasks.cpp). *)
Definition scalar_of (y : yaml) : string :=
  match y with Scalar s => s | _ => EmptyString end.

(** The first entry whose key is a scalar with the given text (part of
    [node[name]], config/validation.h:115). *)
Fixpoint find_entry (name : string) (l : list (yaml * yaml)) : option yaml :=
  match l with
  | [] => None
  | (Scalar s, v) :: l' => if String.eqb s name then Some v else find_entry name l'
  | _ :: l' => find_entry name l'
  end.

(** [node[name]] on a constant node (config/validation.h:115 and 179,
    config/load.cpp:90-91, config/agents.cpp:122, config/tasks.cpp).
    [Ok None] is an undefined node; a subscript of a scalar throws
    [YAML::BadSubscript], which nothing expects here: [Broken]. *)
Definition subscript (y : yaml) (name : string) : outcome (option yaml) :=
  match y with
  | Map l => Ok (find_entry name l)
  | Null | Seq _ => Ok None
  | Scalar _ => Broken
  end.

(** The entries visited by a range-for loop over a map or null node
    (config/validation.h:246 and 292, config/agents.cpp:189). *)
Definition entries_of (y : yaml) : list (yaml * yaml) :=
  match y with Map l => l | _ => [] end.

(** The items visited by a range-for loop over a sequence
    (config/agents.cpp:30, config/tasks.cpp:90, 215, 255, 491). *)
Definition items_of (y : yaml) : list yaml :=
  match y with Seq l => l | _ => [] end.

(** [node.size()] (config/agents.cpp:188, config/tasks.cpp:489). *)
Definition size_of (y : yaml) : nat :=
  match y with Map l => length l | Seq l => length l | _ => 0 end.

(** The height of a tree bounds the recursion of the loader
    (no source counterpart). *)
Fixpoint height (y : yaml) : nat :=
  match y with
  | Null => 1
  | Scalar _ => 1
  | Seq l => S ((fix go l := match l with [] => 0 | x :: l' => Nat.max (height x) (go l') end) l)
  | Map l => S ((fix go l := match l with
                             | [] => 0
                             | (k, v) :: l' => Nat.max (height v) (go l')
                             end) l)
  end.
