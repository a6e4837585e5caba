(** * Vocabulary of C45-C49: counting values, quantiles of a list of bins *)

From Coq Require Import List ZArith Bool Arith.
From Verif Require Import HistogramModel.
Import ListNotations.
Local Open Scope Z_scope.

(** The values a history has added since the last clear. *)
Definition values_of (l : list hist_op) : list Z :=
  fold_left (fun vs x => match x with Add v => vs ++ [v] | Clear => [] end) l [].

(** The values of a history are not negative. *)
Definition natural_values (l : list hist_op) : Prop :=
  Forall (fun x => match x with Add v => 0 <= v | Clear => True end) l.

(** How many of the values satisfy a condition. *)
Definition how_many (P : Z -> bool) (vs : list Z) : Z :=
  Z.of_nat (length (filter P vs)).

(** Value [v] lies in bin [b]: lower bound included, upper bound not. *)
Definition lies_in (v : Z) (b : bin) : Prop := b_low b <= v < b_high b.

(** Number of samples in the first [i] bins. *)
Definition cumulative (l : list bin) (i : nat) : Z :=
  fold_right Z.add 0 (map b_count (firstn i l)).

Definition samples (l : list bin) : Z := cumulative l (length l).

(** Bin number [i] is the first at which the cumulative count reaches [p]
    percent of all samples. *)
Definition quantile_index (l : list bin) (p : Z) (i : nat) : Prop :=
  (i < length l)%nat /\
  100 * cumulative l i < p * samples l /\
  p * samples l <= 100 * cumulative l (S i).

(** The percentages and the values reported for them. *)
Definition reported (s : hist_stats) : list (Z * Z) :=
  [(25, p25 s); (50, p50 s); (75, p75 s); (95, p95 s); (99, p99 s)].

(** Where [stats] looks for a percentile whose quantile is bin [q] when
    the previous percentile was read from bin [prev] of [n]: never in the
    bin [prev] again unless it is the last one. *)
Definition next_pick (n prev q : nat) : nat := Nat.min (n - 1) (Nat.max q (S prev)).
