(** * Model of the iterators of src/histogram.h and src/histogram.cpp, and
      of the checked arithmetic of the histogram

    An iterator is used with the histogram it was made from; moving it
    outside of [begin()..end()] is undefined behaviour, [Broken]. *)

From Coq Require Import List ZArith Bool Arith.
From Verif Require Import Base HistogramModel.
Import ListNotations.
Local Open Scope Z_scope.

(** [Histogram::Iterator], histogram.h:111-158: the position in the sorted
    vector and the bin size. *)
Record iter := { it_pos : Z; it_bin : Z }.

(** [Iterator::Iterator], histogram.cpp:45-52, with the check that the
    position is one of the histogram (no source counterpart). *)
Definition iter_make (h : histogram) (pos bin_size : Z) : outcome iter :=
  _ <- expects ((0 <=? pos) && (pos <=? Z.of_nat (hist_size h))) ;;
  _ <- expects (1 <=? bin_size) ;;
  Ok {| it_pos := pos; it_bin := bin_size |}.

(** [Histogram::begin], histogram.cpp:28-31. *)
Definition iter_begin (h : histogram) : outcome iter := iter_make h 0 (h_bin_size h).

(** [Histogram::end], histogram.cpp:33-36. *)
Definition iter_end (h : histogram) : outcome iter :=
  iter_make h (Z.of_nat (hist_size h)) (h_bin_size h).

(** Moving the member [iter], histogram.cpp:60, 71, 118, 125. *)
Definition iter_move (h : histogram) (it : iter) (d : Z) : outcome iter :=
  let pos := it_pos it + d in
  _ <- expects ((0 <=? pos) && (pos <=? Z.of_nat (hist_size h))) ;;
  Ok {| it_pos := pos; it_bin := it_bin it |}.

(** [operator*], histogram.cpp:56. *)
Definition iter_get (h : histogram) (it : iter) : outcome bin :=
  _ <- expects (0 <=? it_pos it) ;;
  v <- at_index (h_bins h) (Z.to_nat (it_pos it)) ;;
  to_bin (it_bin it) v.

(** [++it], histogram.cpp:58-62; the result is [*this]. *)
Definition iter_inc (h : histogram) (it : iter) : outcome iter := iter_move h it 1.

(** [it++], histogram.cpp:64-67: the value returned and the new value. *)
Definition iter_post_inc (h : histogram) (it : iter) : outcome (iter * iter) :=
  it' <- iter_move h it 1 ;;
  old <- iter_make h (it_pos it) (it_bin it) ;;
  Ok (old, it').

(** [--it], histogram.cpp:69-73. *)
Definition iter_dec (h : histogram) (it : iter) : outcome iter := iter_move h it (-1).

(** [it--], histogram.cpp:75-78. *)
Definition iter_post_dec (h : histogram) (it : iter) : outcome (iter * iter) :=
  it' <- iter_move h it (-1) ;;
  old <- iter_make h (it_pos it) (it_bin it) ;;
  Ok (old, it').

(** [a - b], histogram.cpp:80-85. *)
Definition iter_diff (a b : iter) : Z := it_pos a - it_pos b.

(** [it + i], histogram.cpp:87-92. *)
Definition iter_plus (h : histogram) (it : iter) (i : Z) : outcome iter :=
  iter_make h (it_pos it + i) (it_bin it).

(** [i + it], histogram.cpp:94-99. *)
Definition iter_plus_left (h : histogram) (i : Z) (it : iter) : outcome iter := iter_plus h it i.

(** [it - i], histogram.cpp:101-106. *)
Definition iter_minus (h : histogram) (it : iter) (i : Z) : outcome iter :=
  iter_make h (it_pos it - i) (it_bin it).

(** [i - it], histogram.cpp:108-113. *)
Definition iter_minus_left (h : histogram) (i : Z) (it : iter) : outcome iter := iter_minus h it i.

(** [it += i], histogram.cpp:115-120. *)
Definition iter_add (h : histogram) (it : iter) (i : Z) : outcome iter := iter_move h it i.

(** [it -= i], histogram.cpp:122-127. *)
Definition iter_sub (h : histogram) (it : iter) (i : Z) : outcome iter := iter_move h it (- i).

(** [it[i]], histogram.cpp:129-132. *)
Definition iter_at (h : histogram) (it : iter) (i : Z) : outcome bin :=
  _ <- expects (0 <=? it_pos it + i) ;;
  v <- at_index (h_bins h) (Z.to_nat (it_pos it + i)) ;;
  to_bin (it_bin it) v.

(** [operator<=>], histogram.cpp:134-140. *)
Definition iter_compare (a b : iter) : comparison :=
  if it_pos a =? it_pos b then Eq else if it_pos a <? it_pos b then Lt else Gt.

(** [operator==], defaulted, histogram.h:123-125. *)
Definition iter_eqb (a b : iter) : bool := (it_pos a =? it_pos b) && (it_bin a =? it_bin b).

(** [for (it = first; it != last; ++it)] with [*it] in the body, as the
    range based loops over histogram.cpp:28-36 do; the fuel bounds the
    number of rounds. *)
Fixpoint walk (fuel : nat) (h : histogram) (it last : iter) : outcome (list bin) :=
  if iter_eqb it last then Ok []
  else match fuel with
  | O => NoFuel
  | S fuel' =>
      b <- iter_get h it ;;
      it' <- iter_inc h it ;;
      bs <- walk fuel' h it' last ;;
      Ok (b :: bs)
  end.

(** [while (it != first) *--it], with histogram.cpp:69-73. *)
Fixpoint walk_back (fuel : nat) (h : histogram) (it first : iter) : outcome (list bin) :=
  if iter_eqb it first then Ok []
  else match fuel with
  | O => NoFuel
  | S fuel' =>
      it' <- iter_dec h it ;;
      b <- iter_get h it' ;;
      bs <- walk_back fuel' h it' first ;;
      Ok (b :: bs)
  end.

(** ** Checked arithmetic

    [int32] is [boost::safe_numerics::safe] over [std::int_fast32_t]
    (common.h:8-9), which has 64 bits with glibc on x86-64; a result out of
    range throws, [Broken]. *)

(** A result of an operation on [int32], common.h:9. *)
Definition safe (z : Z) : outcome Z :=
  _ <- expects ((- 2 ^ 63 <=? z) && (z <? 2 ^ 63)) ;; Ok z.

(** The increment of histogram.cpp:18, with the check. *)
Fixpoint bins_bump_safe (k : Z) (l : list (Z * Z)) : outcome (list (Z * Z)) :=
  match l with
  | [] => Ok [(k, 1)]
  | (k', n) :: l' =>
      if k <? k' then Ok ((k, 1) :: l)
      else if k' <? k then l2 <- bins_bump_safe k l' ;; Ok ((k', n) :: l2)
      else n' <- safe (n + 1) ;; Ok ((k', n') :: l')
  end.

(** [Histogram::operator()], histogram.cpp:12-19, with the checks. *)
Definition hist_add_safe (h : histogram) (v : Z) : outcome histogram :=
  _ <- expects (1 <=? h_bin_size h) ;;
  _ <- expects (0 <=? v) ;;
  k <- safe (Z.quot v (h_bin_size h)) ;;
  l <- bins_bump_safe k (h_bins h) ;;
  Ok {| h_bin_size := h_bin_size h; h_bins := l |}.

(** [Histogram::Iterator::to_bin], histogram.cpp:142-154, with the checks. *)
Definition to_bin_safe (bin_size : Z) (v : Z * Z) : outcome bin :=
  _ <- expects (0 <=? fst v) ;;
  _ <- expects (0 <=? snd v) ;;
  _ <- expects (1 <=? bin_size) ;;
  start <- safe (fst v * bin_size) ;;
  half <- safe (Z.quot bin_size 2) ;;
  middle <- safe (start + half) ;;
  high <- safe (start + bin_size) ;;
  Ok {| b_count := snd v; b_low := start; b_middle := middle; b_high := high |}.

(** A sequence of calls with checked arithmetic, histogram.cpp:12-21. *)
Fixpoint hist_run_safe (h : histogram) (l : list hist_op) : outcome histogram :=
  match l with
  | [] => Ok h
  | Add v :: l' => h' <- hist_add_safe h v ;; hist_run_safe h' l'
  | Clear :: l' => hist_run_safe (hist_clear h) l'
  end.

(** All bins, read with checked arithmetic, histogram.cpp:28-36, 142-154. *)
Fixpoint read_bins_safe (bin_size : Z) (l : list (Z * Z)) : outcome (list bin) :=
  match l with
  | [] => Ok []
  | v :: l' =>
      b <- to_bin_safe bin_size v ;;
      bs <- read_bins_safe bin_size l' ;;
      Ok (b :: bs)
  end.
