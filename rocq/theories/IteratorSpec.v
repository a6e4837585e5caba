(** * Vocabulary of C76 and C77: iterators of a histogram *)

From Coq Require Import List ZArith.
From Verif Require Import Base HistogramModel HistogramSpec IteratorModel.
Import ListNotations.
Local Open Scope Z_scope.

(** The iterators that a user can get from a histogram. *)
Inductive obtained (h : histogram) : iter -> Prop :=
| from_begin : forall a, iter_begin h = Ok a -> obtained h a
| from_end : forall a, iter_end h = Ok a -> obtained h a
| from_inc : forall a b, obtained h a -> iter_inc h a = Ok b -> obtained h b
| from_dec : forall a b, obtained h a -> iter_dec h a = Ok b -> obtained h b
| from_post_inc : forall a b c, obtained h a -> iter_post_inc h a = Ok (b, c) -> obtained h b
| from_post_inc2 : forall a b c, obtained h a -> iter_post_inc h a = Ok (b, c) -> obtained h c
| from_post_dec : forall a b c, obtained h a -> iter_post_dec h a = Ok (b, c) -> obtained h b
| from_post_dec2 : forall a b c, obtained h a -> iter_post_dec h a = Ok (b, c) -> obtained h c
| from_plus : forall a i b, obtained h a -> iter_plus h a i = Ok b -> obtained h b
| from_plus_left : forall a i b, obtained h a -> iter_plus_left h i a = Ok b -> obtained h b
| from_minus : forall a i b, obtained h a -> iter_minus h a i = Ok b -> obtained h b
| from_minus_left : forall a i b, obtained h a -> iter_minus_left h i a = Ok b -> obtained h b
| from_add : forall a i b, obtained h a -> iter_add h a i = Ok b -> obtained h b
| from_sub : forall a i b, obtained h a -> iter_sub h a i = Ok b -> obtained h b.

(** The bin at a position. *)
Definition bin_at (bins : list bin) (i : Z) : option bin :=
  if i <? 0 then None else nth_error bins (Z.to_nat i).

(** An operation moves by [d]: it succeeds exactly if the target is between
    begin and end, and leads there. *)
Definition moves (pos : iter -> Z) (n d : Z) (a : iter) (r : outcome iter) : Prop :=
  (0 <= pos a + d <= n -> exists b, r = Ok b /\ pos b = pos a + d) /\
  (~ 0 <= pos a + d <= n -> r = Broken).

(** The bins of the values end below 2^63. *)
Definition fitting_values (bs : Z) (l : list hist_op) : Prop :=
  Forall (fun x => match x with Add v => 0 <= v /\ (v / bs + 1) * bs < 2 ^ 63 | Clear => True end) l.
