(** * Independent vocabulary for duration texts

    Nothing here refers to the parser model.  The grammar is the one the
    project documents: items made of a decimal count and a unit, separated
    by optional white space or by the word "and". *)

From Coq Require Import List ZArith Ascii String Bool.
Import ListNotations.
Open Scope Z_scope.

(** ** Characters *)

Definition is_digit (c : ascii) : bool :=
  (Nat.leb 48 (nat_of_ascii c) && Nat.leb (nat_of_ascii c) 57)%bool.

Definition is_space (c : ascii) : bool :=
  let n := nat_of_ascii c in
  (Nat.eqb n 32 || (Nat.leb 9 n && Nat.leb n 13))%bool.

(** ** Units and their spellings *)

Inductive unit_name := Second | Minute | Hour | Day | Week | Month.

(** Length of a unit in seconds; a month is a twelfth of the average
    Gregorian year (365.2425 days). *)
Definition unit_seconds (u : unit_name) : Z :=
  match u with
  | Second => 1
  | Minute => 60
  | Hour => 60 * 60
  | Day => 24 * (60 * 60)
  | Week => 7 * (24 * (60 * 60))
  | Month => 2629746
  end.

(** One letter spellings may follow the count directly; the long ones
    need white space. *)
Definition short_spellings : list (string * unit_name) :=
  [("s", Second); ("m", Minute); ("h", Hour); ("d", Day); ("w", Week)]%string.

Definition long_spellings : list (string * unit_name) :=
  [("sec", Second); ("secs", Second); ("second", Second); ("seconds", Second);
   ("min", Minute); ("mins", Minute); ("minute", Minute); ("minutes", Minute);
   ("hour", Hour); ("hours", Hour); ("day", Day); ("days", Day);
   ("week", Week); ("weeks", Week); ("month", Month); ("months", Month)]%string.

(** ** Items and phrases *)

Record item := Item {
  digits : list ascii;   (* decimal count *)
  pad : list ascii;      (* white space between the count and the unit *)
  word : string;         (* spelling of the unit *)
  unit : unit_name       (* the unit meant *)
}.

Definition item_ok (i : item) : Prop :=
  digits i <> [] /\
  forallb is_digit (digits i) = true /\
  forallb is_space (pad i) = true /\
  (In (word i, unit i) short_spellings \/
   In (word i, unit i) long_spellings /\ pad i <> []).

Definition item_text (i : item) : list ascii :=
  digits i ++ pad i ++ list_ascii_of_string (word i).

(** Decimal value of a digit sequence. *)
Definition decimal (ds : list ascii) : Z :=
  fold_left (fun acc c => 10 * acc + (Z.of_nat (nat_of_ascii c) - 48)) ds 0.

Definition item_seconds (i : item) : Z :=
  decimal (digits i) * unit_seconds (unit i).

Definition separator_ok (s : list ascii) : Prop :=
  forallb is_space s = true \/
  exists a b,
    s = a ++ list_ascii_of_string "and" ++ b /\
    a <> [] /\ b <> [] /\
    forallb is_space a = true /\ forallb is_space b = true.

(** A duration phrase: a first item and further items, each with the
    separator in front of it. *)
Definition phrase := (item * list (list ascii * item))%type.

Definition phrase_items (p : phrase) : list item := fst p :: map snd (snd p).

Definition phrase_ok (p : phrase) : Prop :=
  Forall item_ok (phrase_items p) /\
  Forall separator_ok (map fst (snd p)).

Definition tail_text (l : list (list ascii * item)) : list ascii :=
  flat_map (fun x => fst x ++ item_text (snd x)) l.

Definition phrase_text (p : phrase) : list ascii :=
  item_text (fst p) ++ tail_text (snd p).

(** What a duration phrase means: the sum of its items. *)
Definition phrase_seconds (p : phrase) : Z :=
  fold_right Z.add 0 (map item_seconds (phrase_items p)).

(** Every count fits a 32 bit [int]. *)
Definition counts_fit (p : phrase) : Prop :=
  Forall (fun i => decimal (digits i) <= 2147483647) (phrase_items p).

(** Every run of digits in a text fits a 32 bit [int]. *)
Definition numbers_fit (t : list ascii) : Prop :=
  forall a ds b,
    t = a ++ ds ++ b -> forallb is_digit ds = true ->
    decimal ds <= 2147483647.

(** Only the first item may be joined to its successor without a
    separator. *)
Definition separated (p : phrase) : Prop :=
  match snd p with
  | [] => True
  | _ :: l => Forall (fun x => fst x <> []) l
  end.

(** What the implementation computes for the items after the first one:
    an item joined to its successor without a separator is charged with
    its successor's count. *)
Fixpoint rest_seconds (i : item) (l : list (list ascii * item)) : Z :=
  match l with
  | [] => item_seconds i
  | (s, j) :: l' =>
      (match s with
       | [] => decimal (digits j) * unit_seconds (unit i)
       | _ => item_seconds i
       end) + rest_seconds j l'
  end.

Definition charged_seconds (p : phrase) : Z :=
  match snd p with
  | [] => item_seconds (fst p)
  | (_, j) :: l => item_seconds (fst p) + rest_seconds j l
  end.
