(** * Model of the duration parser, src/config/parse_duration.rl.cpp

    The C++ source is a Ragel 6.10 grammar (conan.lock: ragel/6.10).  The
    grammar of lines 10-27 is transcribed as an annotated regular
    expression; the meaning of such an expression (which actions run on
    which character, in which order) is the generic Ragel semantics given
    in the first half of this file.  The function [parse_duration] of
    lines 35-52 then drives the resulting machine. *)

From Coq Require Import List ZArith Ascii String Bool Arith.
Import ListNotations.

(** A text is the byte sequence behind the [std::string_view] argument
    (parse_duration.rl.cpp:35). *)
Definition text := list ascii.

(** ** Generic part: Ragel expressions with embedded actions *)

(** The seven actions of parse_duration.rl.cpp:10-16. *)
Inductive action :=
| AddSeconds | AddMinutes | AddHours | AddDays | AddWeeks | AddMonths
| Num.

(** Regular expressions with Ragel's entering ([r > a]) and leaving
    ([r % a]) action embeddings; the syntax used in
    parse_duration.rl.cpp:18-27.  The [nat] is the embedding's time stamp
    (see [stamp] below); it is 0 in transcribed source. *)
Inductive rx :=
| Eps
| Cls (cs : list ascii)
| Cat (r s : rx)
| Alt (r s : rx)
| Star (r : rx)
| Enter (t : nat) (a : action) (r : rx)
| Leave (t : nat) (a : action) (r : rx).

(** Equality of actions, used to compare machine states and to drop
    repeated actions (no source counterpart: part of the Ragel compiler
    that processes parse_duration.rl.cpp:7-30). *)
Definition action_eqb (a b : action) : bool :=
  match a, b with
  | AddSeconds, AddSeconds | AddMinutes, AddMinutes | AddHours, AddHours
  | AddDays, AddDays | AddWeeks, AddWeeks | AddMonths, AddMonths
  | Num, Num => true
  | _, _ => false
  end.

(** List equality helper for character classes of
    parse_duration.rl.cpp:18-26. *)
Fixpoint chars_eqb (a b : list ascii) : bool :=
  match a, b with
  | [], [] => true
  | x :: a', y :: b' => Ascii.eqb x y && chars_eqb a' b'
  | _, _ => false
  end.

(** Equality of expressions; expressions are the states of the
    nondeterministic machine Ragel builds for
    parse_duration.rl.cpp:27. *)
Fixpoint rx_eqb (r s : rx) : bool :=
  match r, s with
  | Eps, Eps => true
  | Cls a, Cls b => chars_eqb a b
  | Cat a b, Cat c d => rx_eqb a c && rx_eqb b d
  | Alt a b, Alt c d => rx_eqb a c && rx_eqb b d
  | Star a, Star b => rx_eqb a b
  | Enter t a r', Enter u b s' =>
      Nat.eqb t u && action_eqb a b && rx_eqb r' s'
  | Leave t a r', Leave u b s' =>
      Nat.eqb t u && action_eqb a b && rx_eqb r' s'
  | _, _ => false
  end.

(** Time stamps (Ragel guide 6.10, "Ordering of Actions"): the parse tree
    is traversed, references to machine definitions are followed; at each
    node entering embeddings get the next stamp, then the
    sub-expressions are visited, then leaving embeddings get the next
    stamp.  Applied to [main] of parse_duration.rl.cpp:27. *)
Fixpoint stamp (r : rx) (next : nat) : rx * nat :=
  match r with
  | Eps => (Eps, next)
  | Cls cs => (Cls cs, next)
  | Cat a b =>
      let '(a', n1) := stamp a next in
      let '(b', n2) := stamp b n1 in (Cat a' b', n2)
  | Alt a b =>
      let '(a', n1) := stamp a next in
      let '(b', n2) := stamp b n1 in (Alt a' b', n2)
  | Star a => let '(a', n1) := stamp a next in (Star a', n1)
  | Enter _ act a =>
      let '(a', n1) := stamp a (S next) in (Enter next act a', n1)
  | Leave _ act a =>
      let '(a', n1) := stamp a next in (Leave n1 act a', S n1)
  end.

(** A state is final when its residual expression accepts the empty text
    (the [first_final] test of parse_duration.rl.cpp:49). *)
Fixpoint nullable (r : rx) : bool :=
  match r with
  | Eps => true
  | Cls _ => false
  | Cat a b => nullable a && nullable b
  | Alt a b => nullable a || nullable b
  | Star _ => true
  | Enter _ _ a => nullable a
  | Leave _ _ a => nullable a
  end.

(** Pending leaving actions of a final state: they run on the transition
    that leaves the final state, or at the end of input (the [eof]
    pointer of parse_duration.rl.cpp:42).  Only meaningful for nullable
    expressions.  Simplification: an entering action on an expression
    that accepts the empty text contributes nothing; the grammar has no
    such embedding ([digit+] is not nullable). *)
Fixpoint leaving (r : rx) : list (nat * action) :=
  match r with
  | Eps => []
  | Cls _ => []
  | Cat a b => leaving a ++ leaving b
  | Alt a b =>
      (if nullable a then leaving a else []) ++
      (if nullable b then leaving b else [])
  | Star a => if nullable a then leaving a else []
  | Enter _ _ a => leaving a
  | Leave t act a => leaving a ++ [(t, act)]
  end.

(** Membership of a byte in a character class
    (parse_duration.rl.cpp:18-26). *)
Definition in_class (c : ascii) (cs : list ascii) : bool :=
  existsb (Ascii.eqb c) cs.

(** All transitions of one state on one byte, with the action embeddings
    on each (Antimirov's partial derivatives, carrying actions); the
    machine Ragel builds from parse_duration.rl.cpp:27. *)
Fixpoint moves (r : rx) (c : ascii) : list (list (nat * action) * rx) :=
  match r with
  | Eps => []
  | Cls cs => if in_class c cs then [([], Eps)] else []
  | Cat a b =>
      map (fun m => (fst m, Cat (snd m) b)) (moves a c) ++
      (if nullable a
       then map (fun m => (leaving a ++ fst m, snd m)) (moves b c)
       else [])
  | Alt a b => moves a c ++ moves b c
  | Star a => map (fun m => (fst m, Cat (snd m) (Star a))) (moves a c)
  | Enter t act a =>
      map (fun m => ((t, act) :: fst m, snd m)) (moves a c)
  | Leave t act a =>
      map (fun m => (fst m, Leave t act (snd m))) (moves a c)
  end.

(** Ordered insertion by time stamp, one entry per stamp (Ragel's action
    tables are maps ordered by time stamp;
    parse_duration.rl.cpp:10-27). *)
Fixpoint insert_action (x : nat * action) (l : list (nat * action))
  : list (nat * action) :=
  match l with
  | [] => [x]
  | y :: l' =>
      if Nat.ltb (fst x) (fst y) then x :: l
      else if Nat.eqb (fst x) (fst y) then l
      else y :: insert_action x l'
  end.

(** Drop later repetitions of the same action (Ragel guide 6.10: "the
    first appearance of the action is preserved"; part of the compilation
    of parse_duration.rl.cpp:10-27). *)
Fixpoint first_appearances (seen l : list action) : list action :=
  match l with
  | [] => []
  | a :: l' =>
      if existsb (action_eqb a) seen then first_appearances seen l'
      else a :: first_appearances (a :: seen) l'
  end.

(** The action list of a combined transition: the embeddings of all live
    paths, ordered by time stamp, without repetitions
    (parse_duration.rl.cpp:10-27 compiled by Ragel). *)
Definition action_list (l : list (nat * action)) : list action :=
  first_appearances [] (map snd (fold_right insert_action [] l)).

(** Add a state to a set of states (subset construction for
    parse_duration.rl.cpp:27). *)
Definition add_state (r : rx) (l : list rx) : list rx :=
  if existsb (rx_eqb r) l then l else r :: l.

(** One step of the determinised machine: the actions to run and the set
    of live states.  The empty set is Ragel's error state
    (parse_duration.rl.cpp:47). *)
Definition step (S : list rx) (c : ascii) : list action * list rx :=
  let ms := flat_map (fun r => moves r c) S in
  (action_list (flat_map fst ms), fold_right add_state [] (map snd ms)).

(** Is the machine in a final state (parse_duration.rl.cpp:49)? *)
Definition is_final (S : list rx) : bool := existsb nullable S.

(** Actions run at the end of input in a final state
    (parse_duration.rl.cpp:42, [eof]). *)
Definition eof_actions (S : list rx) : list action :=
  action_list (flat_map leaving (filter nullable S)).

(** ** The grammar, parse_duration.rl.cpp:18-27 *)

(** Ragel's builtin [digit] (parse_duration.rl.cpp:18). *)
Definition rl_digit : rx := Cls (list_ascii_of_string "0123456789").

(** Ragel's builtin [space]: tab, newline, vertical tab, form feed,
    carriage return, space (parse_duration.rl.cpp:19). *)
Definition rl_space : rx :=
  Cls (map ascii_of_nat [9; 10; 11; 12; 13; 32]).

(** A Ragel string literal such as ['sec']
    (parse_duration.rl.cpp:19-26). *)
Fixpoint lit_chars (l : list ascii) : rx :=
  match l with
  | [] => Eps
  | c :: l' => Cat (Cls [c]) (lit_chars l')
  end.

(** Same, from a string constant (parse_duration.rl.cpp:19-26). *)
Definition lit (s : string) : rx := lit_chars (list_ascii_of_string s).

(** Ragel's [r?] (parse_duration.rl.cpp:19). *)
Definition opt (r : rx) : rx := Alt r Eps.

(** Ragel's [r+] (parse_duration.rl.cpp:18). *)
Definition plus (r : rx) : rx := Cat r (Star r).

(** parse_duration.rl.cpp:18 *)
Definition rl_number : rx := Enter 0 Num (plus rl_digit).

(** parse_duration.rl.cpp:19 *)
Definition rl_seconds : rx :=
  Leave 0 AddSeconds
    (Alt (lit "s")
       (Cat rl_space
          (Cat (Alt (lit "sec") (lit "second")) (opt (lit "s"))))).

(** parse_duration.rl.cpp:20 *)
Definition rl_minutes : rx :=
  Leave 0 AddMinutes
    (Alt (lit "m")
       (Cat rl_space
          (Cat (Alt (lit "min") (lit "minute")) (opt (lit "s"))))).

(** parse_duration.rl.cpp:21 *)
Definition rl_hours : rx :=
  Leave 0 AddHours
    (Alt (lit "h") (Cat rl_space (Cat (lit "hour") (opt (lit "s"))))).

(** parse_duration.rl.cpp:22 *)
Definition rl_days : rx :=
  Leave 0 AddDays
    (Alt (lit "d") (Cat rl_space (Cat (lit "day") (opt (lit "s"))))).

(** parse_duration.rl.cpp:23 *)
Definition rl_weeks : rx :=
  Leave 0 AddWeeks
    (Alt (lit "w") (Cat rl_space (Cat (lit "week") (opt (lit "s"))))).

(** parse_duration.rl.cpp:24 *)
Definition rl_months : rx :=
  Leave 0 AddMonths (Cat rl_space (Cat (lit "month") (opt (lit "s")))).

(** parse_duration.rl.cpp:25 *)
Definition rl_duration : rx :=
  Cat rl_number
    (Cat (Star rl_space)
       (Alt rl_seconds
          (Alt rl_minutes
             (Alt rl_hours
                (Alt rl_days (Alt rl_weeks rl_months)))))).

(** parse_duration.rl.cpp:26 *)
Definition rl_and : rx :=
  Cat (plus rl_space) (Cat (lit "and") (plus rl_space)).

(** parse_duration.rl.cpp:27 *)
Definition rl_main : rx :=
  Cat rl_duration (Star (Cat (Alt rl_and (Star rl_space)) rl_duration)).

(** The start state of the machine (parse_duration.rl.cpp:46). *)
Definition start_state : list rx := [fst (stamp rl_main 0)].

(** ** Running the machine, parse_duration.rl.cpp:35-52 *)

(** Outcome of [parse_duration]: the duration in seconds, the
    [DurationParseError] of parse_duration.rl.cpp:38 and 50, or undefined behaviour:
    [std::atoi] on a number that does not fit an [int] (lines 10-15). *)
Inductive parse_result :=
| Parsed (seconds : Z)
| ParseError
| Undefined.

(** Value of a decimal digit byte, for [std::atoi]
    (parse_duration.rl.cpp:10-15). *)
Definition digit_value (c : ascii) : option Z :=
  let n := nat_of_ascii c in
  if Nat.leb 48 n && Nat.leb n 57 then Some (Z.of_nat (n - 48)) else None.

(** The decimal number at the front of a text, as read by [std::atoi]
    (parse_duration.rl.cpp:10-15).  The pointer [n] always points at a
    digit, so leading blanks and signs are not modelled. *)
Fixpoint read_digits (acc : Z) (t : text) : Z :=
  match t with
  | [] => acc
  | c :: t' =>
      match digit_value c with
      | Some d => read_digits (acc * 10 + d) t'
      | None => acc
      end
  end.

(** The largest [int] (parse_duration.rl.cpp:10-15; 32 bit [int]). *)
Definition int_max : Z := 2147483647.

(** [std::atoi(n)]; [None] is undefined behaviour on overflow
    (parse_duration.rl.cpp:10-15). *)
Definition atoi (t : text) : option Z :=
  let v := read_digits 0 t in
  if (v <=? int_max)%Z then Some v else None.

(** Seconds per unit of the [std::chrono] types used in
    parse_duration.rl.cpp:10-15: [std::chrono::months] is 2629746 s. *)
Definition action_unit (a : action) : option Z :=
  match a with
  | AddSeconds => Some 1
  | AddMinutes => Some 60
  | AddHours => Some 3600
  | AddDays => Some 86400
  | AddWeeks => Some 604800
  | AddMonths => Some 2629746
  | Num => None
  end%Z.

(** The variables of [parse_duration], parse_duration.rl.cpp:43-44: the
    pointer [n], modelled as the
    rest of the text from that position (line 44), and the sum [v]
    (line 43). *)
Record vars := { v_n : text; v_sum : Z }.

(** Run one action at input position [p] (parse_duration.rl.cpp:10-16). *)
Definition run_action (p : text) (s : option vars) (a : action)
  : option vars :=
  match s with
  | None => None
  | Some s =>
      match action_unit a with
      | None => Some {| v_n := p; v_sum := v_sum s |}
      | Some u =>
          match atoi (v_n s) with
          | None => None
          | Some k => Some {| v_n := v_n s; v_sum := v_sum s + k * u |}
          end
      end
  end.

(** Run the actions of a transition in order
    (parse_duration.rl.cpp:47). *)
Definition run_actions (p : text) (s : option vars) (l : list action)
  : option vars :=
  fold_left (run_action p) l s.

(** The machine loop of parse_duration.rl.cpp:46-51.  The error state
    (empty set) stops the loop; [None] variables mean that undefined
    behaviour has been reached. *)
Fixpoint exec (S : list rx) (s : option vars) (p : text) : parse_result :=
  match p with
  | [] =>
      if is_final S then
        match run_actions [] s (eof_actions S) with
        | Some s' => Parsed (v_sum s')
        | None => Undefined
        end
      else match s with Some _ => ParseError | None => Undefined end
  | c :: p' =>
      let '(acts, S') := step S c in
      match S' with
      | [] => match s with Some _ => ParseError | None => Undefined end
      | _ => exec S' (run_actions p s acts) p'
      end
  end.

(** [parse_duration], parse_duration.rl.cpp:35-52.  [n] is uninitialised
    in line 44; it is set before it is read on every path, the model
    starts it at the empty text. *)
Definition parse_duration (t : text) : parse_result :=
  match t with
  | [] => ParseError
  | _ => exec start_state (Some {| v_n := []; v_sum := 0 |}) t
  end.
