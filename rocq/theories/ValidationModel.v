(** * Model of src/config/validation.h and of the schema check of
      src/config/load.cpp *)

From Coq Require Import String List Bool Arith ZArith.
From Verif Require Import Base YamlModel FormatModel.
Import ListNotations.
Local Open Scope string_scope.
Local Open Scope nat_scope.

(** The error messages: what is wrong, and the scope that is quoted
    (config/validation.h:51, 53, 117, 209, 244, 249, 251, 256, 291). *)
Inductive complaint :=
| IsEmpty
| InvalidType
| Missing (attribute : string)
| NotSequence
| NotMap
| EmptyAttribute
| DuplicateAttribute (attribute : string)
| UnexpectedAttribute (attribute : string).

(** A message with the scope it quotes (config/validation.h:51). *)
Record message := { ms_what : complaint; ms_scope : string }.

(** The quotation marks of config/validation.h:51, 53, 117. *)
Definition quoted (s : string) : string :=
  let q := String (Ascii.ascii_of_nat 34) EmptyString in q ++ s ++ q.

(** The text of a message (config/validation.h:51, 53, 117, 209, 244, 249,
    251, 256, 291). *)
Definition message_text (m : message) : string :=
  let s := quoted (ms_scope m) in
  match ms_what m with
  | IsEmpty => s ++ " can't be empty."
  | InvalidType => s ++ " has invalid type."
  | Missing a => s ++ " is missing a " ++ quoted a ++ " attribute."
  | NotSequence => s ++ " is expected to be a sequence."
  | NotMap => s ++ " is expected to be a map."
  | EmptyAttribute => "Empty attribute in " ++ s ++ "."
  | DuplicateAttribute a => "Duplicate attribute " ++ quoted a ++ " in " ++ s ++ "."
  | UnexpectedAttribute a => "Unexpected attribute " ++ quoted a ++ " in " ++ s ++ "."
  end.

(** The result of a check: [Ok None] is success, [Ok (Some m)] an error,
    [Broken] an exception of yaml-cpp (config/validation.h:18-28). *)
Definition check := yaml -> string -> outcome (option message).

(** [bo::success()], config/validation.h:54. *)
Definition success : outcome (option message) := Ok None.
(** A text as result, config/validation.h:51. *)
Definition error (c : complaint) (scope : string) : outcome (option message) :=
  Ok (Some {| ms_what := c; ms_scope := scope |}).

(** [BOOST_OUTCOME_TRY] and [&&] on results (config/validation.h:213, 262,
    293): go on after success only. *)
Definition try (r k : outcome (option message)) : outcome (option message) :=
  m <- r ;; match m with None => k | Some _ => r end.

(** [scalar], validation.h:46-56. *)
Definition scalar : check := fun node scope =>
  match node with
  | Null => error IsEmpty scope
  | Scalar _ => success
  | _ => error InvalidType scope
  end.

(** [detail::join], validation.h:88-94. *)
Definition join (a b : string) : string :=
  match a with EmptyString => b | _ => a ++ "." ++ b end.

(** [required] and [optional], validation.h:110-121 and 173-183, with the
    string literals that stand for required scalars (validation.h:136-157). *)
Inductive attribute :=
| Required (name : string) (c : check)
| Optional (name : string) (c : check).

(** [detail::attr_name], validation.h:136-140. *)
Definition attr_name (a : attribute) : string :=
  match a with Required n _ | Optional n _ => n end.

(** The call operators, validation.h:112-120 and 176-182. *)
Definition attr_check (a : attribute) : check := fun node scope =>
  match a with
  | Required name c =>
      n <- subscript node name ;;
      match n with
      | Some v => c v (join scope name)
      | None => error (Missing name) scope
      end
  | Optional name c =>
      n <- subscript node name ;;
      match n with
      | Some v => c v (join scope name)
      | None => success
      end
  end.

(** The index in a scope, validation.h:214. *)
Definition index_text (i : nat) : string :=
  string_of_list_ascii (decimal_text (Z.of_nat i)).

(** The loop of [sequence], validation.h:212-215. *)
Fixpoint check_items (c : check) (scope : string) (i : nat) (l : list yaml) : outcome (option message) :=
  match l with
  | [] => success
  | x :: l' => try (c x (scope ++ "[" ++ index_text i ++ "]")) (check_items c scope (S i) l')
  end.

(** [sequence], validation.h:204-218. *)
Definition sequence (c : check) : check := fun node scope =>
  match node with
  | Seq l => check_items c scope 0 l
  | _ => error NotSequence scope
  end.

(** The first loop of [attributes], validation.h:245-260; [seen] are the
    [unique_fields]. *)
Fixpoint check_names (attrs : list attribute) (scope : string) (seen : list string)
  (l : list (yaml * yaml)) : outcome (option message) :=
  match l with
  | [] => success
  | (k, _) :: l' =>
      let name := scalar_of k in
      match name with
      | EmptyString => error EmptyAttribute scope
      | _ =>
          if existsb (String.eqb name) seen then error (DuplicateAttribute name) scope
          else if existsb (fun a => String.eqb name (attr_name a)) attrs
          then check_names attrs scope (name :: seen) l'
          else error (UnexpectedAttribute name) scope
      end
  end.

(** The fold over the attributes, validation.h:261-263. *)
Fixpoint check_attrs (attrs : list attribute) (node : yaml) (scope : string) : outcome (option message) :=
  match attrs with
  | [] => success
  | a :: attrs' => try (attr_check a node scope) (check_attrs attrs' node scope)
  end.

(** [attributes], validation.h:239-265: null counts as a map without
    entries. *)
Definition attributes (attrs : list attribute) : check := fun node scope =>
  match node with
  | Scalar _ | Seq _ => error NotMap scope
  | _ => try (check_names attrs scope [] (entries_of node)) (check_attrs attrs node scope)
  end.

(** The loop of [values], validation.h:292-296. *)
Fixpoint check_values (c : check) (scope : string) (l : list (yaml * yaml)) : outcome (option message) :=
  match l with
  | [] => success
  | (k, v) :: l' => try (c v (join scope (scalar_of k))) (check_values c scope l')
  end.

(** [values], validation.h:286-299. *)
Definition values (c : check) : check := fun node scope =>
  match node with
  | Map l => check_values c scope l
  | _ => error NotMap scope
  end.

(** [any_of] for two checks, validation.h:323-331: the second one decides
    after a failure of the first. *)
Definition any_of (c1 c2 : check) : check := fun node scope =>
  m <- c1 node scope ;;
  match m with
  | None => success
  | Some _ => c2 node scope
  end.

(** The interval of load.cpp:44-50 and 67-73. *)
Definition min_max : check :=
  attributes [Required "min" scalar; Required "max" scalar].

(** [validate_task_list], load.cpp:29-54. *)
Fixpoint validate_task_list (fuel : nat) : check := fun node scope =>
  match fuel with
  | O => NoFuel
  | S fuel' =>
      sequence (attributes [
        Optional "group" scalar;
        Optional "groups" (sequence scalar);
        Optional "agent" scalar;
        Required "name" scalar;
        Optional "id" scalar;
        Optional "depends_on" (any_of scalar (sequence scalar));
        Required "duration" (any_of min_max scalar);
        Optional "subtasks" (validate_task_list fuel')]) node scope
  end.

(** [validate_configuration], load.cpp:60-82; the scope of the root is
    empty (validation.h:242). *)
Definition validate_configuration (node : yaml) : outcome (option message) :=
  attributes [
    Required "agents" (values (attributes [
      Optional "performance" (any_of min_max scalar);
      Optional "groups" (sequence scalar)]));
    Required "tasks" (validate_task_list (height node))] node EmptyString.
