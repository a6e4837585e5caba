(** * Outcomes shared by the model files *)

From Coq Require Import List.
Import ListNotations.

(** Result of a C++ call.  [Broken] is a violated [Expects]/[Ensures] or an
    access out of range: undefined behaviour in release builds, an
    exception or abort in debug builds (meson.build, gsl-lite contract
    settings).  [NoFuel] is an unfinished loop or recursion. *)
Inductive outcome (A : Type) : Type :=
| Ok (a : A)
| Broken
| NoFuel.
Arguments Ok {A} a.
Arguments Broken {A}.
Arguments NoFuel {A}.

(** Sequencing of C++ statements: stop at the first outcome that is not a
    result (no source counterpart). *)
Definition bind {A B} (x : outcome A) (f : A -> outcome B) : outcome B :=
  match x with
  | Ok a => f a
  | Broken => Broken
  | NoFuel => NoFuel
  end.

(** Notation for [bind] (no source counterpart). *)
Notation "x <- e ;; k" := (bind e (fun x => k))
  (at level 61, e at next level, right associativity).

(** [Expects(b)] / [Ensures(b)] of gsl-lite (no source counterpart). *)
Definition expects (b : bool) : outcome unit := if b then Ok tt else Broken.

(** Checked element access [v[i]] (no source counterpart): out of range is
    [Broken]. *)
Definition at_index {A} (l : list A) (i : nat) : outcome A :=
  match nth_error l i with
  | Some a => Ok a
  | None => Broken
  end.

(** Apply a fallible function to each element in order, as a range-for
    loop does (no source counterpart). *)
Fixpoint map_outcome {A B} (f : A -> outcome B) (l : list A)
  : outcome (list B) :=
  match l with
  | [] => Ok []
  | a :: l' =>
      b <- f a ;;
      bs <- map_outcome f l' ;;
      Ok (b :: bs)
  end.

(** Replace an element of a list; no change when out of range (callers
    check the range first), e.g. stun/utils.cpp:135-136. *)
Fixpoint set_nth {A} (l : list A) (i : nat) (a : A) : list A :=
  match l, i with
  | [], _ => []
  | _ :: l', O => a :: l'
  | x :: l', S i' => x :: set_nth l' i' a
  end.

(** Reading a result (used by examples only; no source counterpart). *)
Definition is_ok {A} (x : outcome A) : bool :=
  match x with Ok _ => true | _ => false end.

(** The same with a value for other outcomes (no source counterpart). *)
Definition result_or {A} (d : A) (x : outcome A) : A :=
  match x with Ok a => a | _ => d end.

Lemma result_or_ok : forall A (d : A) x, is_ok x = true -> x = Ok (result_or d x).
Proof. intros A d [a| |] H; try discriminate. reflexivity. Qed.
