(** * Model of src/histogram.h, src/histogram.cpp and of [stats] and
    [granularity] of src/simulation.cpp

    [int32] is boost::safe_numerics over [std::int_fast32_t]
    (common.h:8-9); its overflow check is not modelled, the numbers are
    integers without bound. *)

From Coq Require Import List ZArith Bool Arith.
From Flocq Require Import BinarySingleNaN.
From Verif Require Import Base F32.
Import ListNotations.

(** [Bin], histogram.h:17-20. *)
Record bin := { b_count : Z; b_low : Z; b_middle : Z; b_high : Z }.

(** [Histogram], histogram.h:62-109.  The [flat_map] is the sorted vector
    of its key-value pairs. *)
Record histogram := { h_bin_size : Z; h_bins : list (Z * Z) }.

(** [Histogram::Histogram], histogram.cpp:6-10. *)
Definition hist_new (bin_size : Z) : outcome histogram :=
  _ <- expects (1 <=? bin_size)%Z ;;
  Ok {| h_bin_size := bin_size; h_bins := [] |}.

(** [++bins.try_emplace(bin, 0).first->second], histogram.cpp:18: look up
    the key in the sorted vector, insert a zero if it is missing,
    increment. *)
Fixpoint bins_bump (k : Z) (l : list (Z * Z)) : list (Z * Z) :=
  match l with
  | [] => [(k, 1%Z)]
  | (k', n) :: l' =>
      if (k <? k')%Z then (k, 1%Z) :: l
      else if (k' <? k)%Z then (k', n) :: bins_bump k l'
      else (k', (n + 1)%Z) :: l'
  end.

(** [Histogram::operator()], histogram.cpp:12-19; C++ division truncates. *)
Definition hist_add (h : histogram) (v : Z) : outcome histogram :=
  _ <- expects (1 <=? h_bin_size h)%Z ;;
  _ <- expects (0 <=? v)%Z ;;
  Ok {| h_bin_size := h_bin_size h;
        h_bins := bins_bump (Z.quot v (h_bin_size h)) (h_bins h) |}.

(** [Histogram::clear], histogram.cpp:21. *)
Definition hist_clear (h : histogram) : histogram :=
  {| h_bin_size := h_bin_size h; h_bins := [] |}.

(** [Histogram::size], histogram.cpp:23. *)
Definition hist_size (h : histogram) : nat := length (h_bins h).

(** [Histogram::empty], histogram.cpp:26. *)
Definition hist_empty (h : histogram) : bool :=
  match h_bins h with [] => true | _ => false end.

(** [Histogram::Iterator::to_bin], histogram.cpp:142-154. *)
Definition to_bin (bin_size : Z) (v : Z * Z) : outcome bin :=
  _ <- expects (0 <=? fst v)%Z ;;
  _ <- expects (0 <=? snd v)%Z ;;
  _ <- expects (1 <=? bin_size)%Z ;;
  let start := (fst v * bin_size)%Z in
  Ok {| b_count := snd v; b_low := start;
        b_middle := start + Z.quot bin_size 2; b_high := start + bin_size |}.

(** [*Iterator{std::next(bins.begin(), pos), bin_size}], histogram.cpp:45-56.
    An iterator is the position it points to. *)
Definition iter_deref (h : histogram) (pos : nat) : outcome bin :=
  _ <- expects (1 <=? h_bin_size h)%Z ;;
  v <- at_index (h_bins h) pos ;;
  to_bin (h_bin_size h) v.

(** [Histogram::operator[]], histogram.cpp:38-43. *)
Definition hist_at (h : histogram) (i : nat) : outcome bin :=
  _ <- expects (negb (hist_empty h)) ;;
  iter_deref h i.

(** The loop [for (it = begin(); it != end(); ++it)] over a histogram,
    histogram.cpp:28-36, 58-62: the bins from position [pos] on; [n] is
    the distance to [end()]. *)
Fixpoint iterate_from (h : histogram) (pos n : nat) : outcome (list bin) :=
  match n with
  | O => Ok []
  | S n' =>
      b <- iter_deref h pos ;;
      bs <- iterate_from h (S pos) n' ;;
      Ok (b :: bs)
  end.

(** The whole range [begin()..end()], histogram.cpp:28-36. *)
Definition hist_iterate (h : histogram) : outcome (list bin) :=
  iterate_from h 0 (hist_size h).

(** [ranges::back(histogram)], used at simulation.cpp:481: the bin before
    [end()]. *)
Definition hist_back (h : histogram) : outcome bin :=
  _ <- expects (negb (hist_empty h)) ;;
  iter_deref h (hist_size h - 1).

(** What a user of a histogram may do between construction and reading:
    histogram.cpp:12-21. *)
Inductive hist_op := Add (v : Z) | Clear.

(** One such call, histogram.cpp:12-21. *)
Definition hist_step (h : histogram) (x : hist_op) : outcome histogram :=
  match x with
  | Add v => hist_add h v
  | Clear => Ok (hist_clear h)
  end.

(** A sequence of such calls (no source counterpart). *)
Fixpoint hist_run (h : histogram) (l : list hist_op) : outcome histogram :=
  match l with
  | [] => Ok h
  | x :: l' => h' <- hist_step h x ;; hist_run h' l'
  end.

(** ** [stats], simulation.cpp:458-491 *)

(** [gsl::narrow<float>(count)], histogram.h:23-27 and 42-49; it throws
    when the conversion changes the value, which is [Broken] here. *)
Definition narrow_float (z : Z) : outcome f32 :=
  let f := f_of_Z z in
  _ <- expects (match f_trunc f with Some z' => (z' =? z)%Z | None => false end) ;;
  Ok f.

(** [ranges::accumulate(histogram, 0.F)], simulation.cpp:464, with
    [operator+] of histogram.h:42-56. *)
Fixpoint sum_bins (acc : f32) (l : list bin) : outcome f32 :=
  match l with
  | [] => Ok acc
  | b :: l' =>
      c <- narrow_float (b_count b) ;;
      sum_bins (f_add c acc) l'
  end.

(** [to_seconds], simulation.cpp:68-73. *)
Definition to_seconds (z : Z) : outcome Z :=
  _ <- expects (0 <=? z)%Z ;; Ok z.

(** The captured variables [count] and [bin_index] of [accumulate_until],
    simulation.cpp:466-467. *)
Record cursor := { cu_count : f32; cu_index : nat }.

(** The loop of [accumulate_until], simulation.cpp:473-480; [n] is the
    number of bins from [bin_index] on.  [None] when the loop ends without
    returning. *)
Fixpoint until_loop (h : histogram) (threshold : f32) (c : cursor) (n : nat)
  : outcome (option Z * cursor) :=
  match n with
  | O => Ok (None, c)
  | S n' =>
      b <- hist_at h (cu_index c) ;;
      x <- narrow_float (b_count b) ;;
      let c' := {| cu_count := f_add (cu_count c) x; cu_index := S (cu_index c) |} in
      if f_le threshold (cu_count c')
      then m <- to_seconds (b_middle b) ;; Ok (Some m, c')
      else until_loop h threshold c' n'
  end.

(** [accumulate_until], simulation.cpp:470-482. *)
Definition accumulate_until (h : histogram) (threshold : f32) (c : cursor)
  : outcome (Z * cursor) :=
  _ <- expects (f_le f_zero threshold) ;;
  r <- until_loop h threshold c (hist_size h - cu_index c) ;;
  match fst r with
  | Some m => Ok (m, snd r)
  | None =>
      b <- hist_back h ;;
      m <- to_seconds (b_middle b) ;;
      Ok (m, snd r)
  end.

(** [HistogramStats], predict.h: the five percentiles in seconds. *)
Record hist_stats := { p25 : Z; p50 : Z; p75 : Z; p95 : Z; p99 : Z }.

(** The literals of simulation.cpp:484-488: the floats nearest to the
    written fractions (division is correctly rounded). *)
Definition pct (n : Z) : f32 := f_div (f_of_Z n) (f_of_Z 100).

(** [stats], simulation.cpp:458-491. *)
Definition stats (h : histogram) : outcome hist_stats :=
  _ <- expects (0 <? hist_size h) ;;
  l <- hist_iterate h ;;
  total <- sum_bins f_zero l ;;
  let c0 := {| cu_count := f_zero; cu_index := 0 |} in
  r25 <- accumulate_until h (f_mul total (pct 25)) c0 ;;
  r50 <- accumulate_until h (f_mul total (pct 50)) (snd r25) ;;
  r75 <- accumulate_until h (f_mul total (pct 75)) (snd r50) ;;
  r95 <- accumulate_until h (f_mul total (pct 95)) (snd r75) ;;
  r99 <- accumulate_until h (f_mul total (pct 99)) (snd r95) ;;
  Ok {| p25 := fst r25; p50 := fst r50; p75 := fst r75; p95 := fst r95;
        p99 := fst r99 |}.

(** ** Bin width, simulation.cpp:341-384 *)

(** [granularity], simulation.cpp:341-357. *)
Definition granularity (makespan : Z) : outcome Z :=
  _ <- expects (1 <=? makespan)%Z ;;
  if (makespan <? 5 * 3600)%Z then Ok 60%Z
  else if (makespan <? 13 * 86400)%Z then Ok 3600%Z
  else Ok 86400%Z.

(** [parse_granularity], simulation.cpp:374-384; the first argument is
    [config.bin_size]. *)
Definition parse_granularity (bin_size : option Z) (makespan : Z) : outcome Z :=
  _ <- expects (1 <=? makespan)%Z ;;
  match bin_size with
  | Some b => Ok b
  | None => granularity makespan
  end.
