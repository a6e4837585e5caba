(** * Model of the quantile estimator of the simulation

    [HistogramOp::acc] (simulation.cpp:16-17 and 395-398) is an accumulator
    of Boost.Accumulators with the feature [extended_p_square]: the P-square
    algorithm, which estimates quantiles without keeping the samples.  This
    file models that feature from the Boost sources (not part of /repo).
    The estimator keeps 2 n + 3 markers for n quantiles.  Marker i has a
    height (an estimate of a sample), an actual position (the rank of that
    sample) and a desired position.  All of them are floats. *)

From Coq Require Import List ZArith Bool Arith.
From Flocq Require Import Core BinarySingleNaN.
From Verif Require Import Base F32 SimulationModel RollingModel.
Import ListNotations.

(** ** Double precision, which the constructor uses in passing *)

(** Side conditions of the format (no source counterpart). *)
#[local] Instance prec53_gt_0 : Prec_gt_0 53 := eq_refl.
(** The same for the exponent (no source counterpart). *)
#[local] Instance prec53_lt_emax : Prec_lt_emax 53 1024 := eq_refl.

(** [double] (the constants of the accumulator of simulation.cpp:398). *)
Definition f64 := binary_float 53 1024.

(** [float] to [double], exact (no source counterpart). *)
Definition widen (x : f32) : f64 :=
  match x with
  | B754_zero s => B754_zero s
  | B754_infinity s => B754_infinity s
  | B754_nan => B754_nan
  | B754_finite s m e _ => binary_normalize 53 1024 _ _ mode_NE (cond_Zopp s (Zpos m)) e s
  end.

(** [double] to [float], rounded (no source counterpart). *)
Definition narrow (x : f64) : f32 :=
  match x with
  | B754_zero s => B754_zero s
  | B754_infinity s => B754_infinity s
  | B754_nan => B754_nan
  | B754_finite s m e _ => binary_normalize 24 128 _ _ mode_NE (cond_Zopp s (Zpos m)) e s
  end.

(** A whole number as [double] (no source counterpart). *)
Definition d_of_Z (z : Z) : f64 := binary_normalize 53 1024 _ _ mode_NE z 0 false.

(** ** The estimator *)

(** The probabilities 0.25F, 0.50F, 0.75F, 0.95F, 0.99F,
    simulation.cpp:396-397. *)
Definition probs : list f32 :=
  map (fun z => f_div (f_of_Z z) (f_of_Z 100)) [25; 50; 75; 95; 99]%Z.

(** The number of markers, simulation.cpp:398: 2 n + 3 for n probabilities. *)
Definition marker_count : nat := 2 * length probs + 3.

(** The probabilities with 0 in front and 1 at the end
    ([positions_increments] at even indices, simulation.cpp:398). *)
Definition even_increments : list f32 := f_zero :: probs ++ [f_one].

(** [0.5 * (a + b)]: the sum is a float, the product a double
    (simulation.cpp:398). *)
Definition halfway (a b : f32) : f32 :=
  narrow (Bmult mode_NE (Bdiv mode_NE (d_of_Z 1) (d_of_Z 2)) (widen (f_add a b))).

(** [positions_increments]: the probabilities and the numbers halfway
    between them (simulation.cpp:398). *)
Fixpoint with_middles (l : list f32) : list f32 :=
  match l with
  | a :: (b :: _) as l' => a :: halfway a b :: with_middles l'
  | _ => l
  end.

(** By how much the desired positions grow with every sample
    (simulation.cpp:398). *)
Definition increments : list f32 := with_middles even_increments.

(** [1. + 2. * (num_quantiles + 1.) * positions_increments[i]]
    (simulation.cpp:398). *)
Definition first_desired (inc : f32) : f32 :=
  narrow (Bplus mode_NE (d_of_Z 1)
    (Bmult mode_NE (Bmult mode_NE (d_of_Z 2) (Bplus mode_NE (d_of_Z (Z.of_nat (length probs))) (d_of_Z 1)))
       (widen inc))).

(** The members of the accumulator, simulation.cpp:398. *)
Record estimator := {
  es_count : nat;
  es_heights : list f32;
  es_actual : list f32;
  es_desired : list f32
}.

(** The constructor, simulation.cpp:398. *)
Definition new_estimator : estimator :=
  {| es_count := 0;
     es_heights := repeat f_zero marker_count;
     es_actual := map (fun i => f_of_Z (Z.of_nat i)) (seq 1 marker_count);
     es_desired := map first_desired increments |}.

(** Insertion into a sorted list, for [f_sort] (simulation.cpp:416). *)
Fixpoint f_insert (x : f32) (l : list f32) : list f32 :=
  match l with
  | [] => [x]
  | y :: l' => if f_lt x y then x :: l else y :: f_insert x l'
  end.

(** [std::sort] of the first samples (simulation.cpp:416). *)
Definition f_sort (l : list f32) : list f32 := fold_right f_insert [] l.

(** The precondition of [std::upper_bound]: the numbers that are at most [s]
    come first (simulation.cpp:416). *)
Fixpoint partitioned (s : f32) (l : list f32) : bool :=
  match l with
  | [] => true
  | h :: l' => if f_lt s h then forallb (f_lt s) l' else partitioned s l'
  end.

(** The index of the first number greater than [s]
    ([std::upper_bound], simulation.cpp:416). *)
Fixpoint upper_bound (s : f32) (l : list f32) : nat :=
  match l with
  | [] => 0
  | h :: l' => if f_lt s h then 0 else S (upper_bound s l')
  end.

(** The cell of a sample, and the heights after the first or the last
    marker has been moved to a sample beyond it (simulation.cpp:416). *)
Definition find_cell (s : f32) (hs : list f32) : outcome (nat * list f32) :=
  let m := length hs in
  lo <- at_index hs 0 ;;
  hi <- at_index hs (m - 1) ;;
  if f_lt s lo then Ok (1, set_nth hs 0 s)
  else if f_le hi s then Ok (m - 1, set_nth hs (m - 1) s)
  else
    _ <- expects (partitioned s hs) ;;
    Ok (upper_bound s hs, hs).

(** The positions of the markers from the cell on grow by one
    (simulation.cpp:416). *)
Definition shift_actual (cell : nat) (l : list f32) : list f32 :=
  firstn cell l ++ map (fun a => f_add a f_one) (skipn cell l).

(** The desired positions grow by their increments (simulation.cpp:416). *)
Definition shift_desired (l : list f32) : list f32 :=
  map (fun xy => f_add (fst xy) (snd xy)) (combine l increments).

(** [static_cast<short>(d / std::abs(d))] as a float; undefined unless the
    quotient is a number (simulation.cpp:416). *)
Definition sign_of (d : f32) : outcome f32 :=
  match f_trunc (f_div d (Babs d)) with
  | Some z => Ok (f_of_Z z)
  | None => Broken
  end.

(** One marker is moved if it is at least one position away from where it
    should be and there is room (simulation.cpp:416).  The new height comes
    from a parabola if that keeps the order of the heights, otherwise from
    a line. *)
Definition adjust_marker (st : estimator) (i : nat) : outcome estimator :=
  want <- at_index (es_desired st) i ;;
  a0 <- at_index (es_actual st) (i - 1) ;;
  a1 <- at_index (es_actual st) i ;;
  a2 <- at_index (es_actual st) (i + 1) ;;
  h0 <- at_index (es_heights st) (i - 1) ;;
  h1 <- at_index (es_heights st) i ;;
  h2 <- at_index (es_heights st) (i + 1) ;;
  let d := f_sub want a1 in
  let dp := f_sub a2 a1 in
  let dm := f_sub a0 a1 in
  let hp := f_div (f_sub h2 h1) dp in
  let hm := f_div (f_sub h0 h1) dm in
  if (f_le f_one d && f_lt f_one dp) || (f_le d (Bopp f_one) && f_lt dm (Bopp f_one)) then
    s <- sign_of d ;;
    let h := f_add h1 (f_mul (f_div s (f_sub dp dm))
                         (f_add (f_mul (f_sub s dm) hp) (f_mul (f_sub dp s) hm))) in
    let h' :=
      if f_lt h0 h && f_lt h h2 then h
      else
        let up := if f_lt f_zero d then f_add h1 hp else h1 in
        if f_lt d f_zero then f_sub up hm else up in
    Ok {| es_count := es_count st;
          es_heights := set_nth (es_heights st) i h';
          es_actual := set_nth (es_actual st) i (f_add a1 s);
          es_desired := es_desired st |}
  else Ok st.

(** The loop over all markers but the first and the last
    (simulation.cpp:416). *)
Fixpoint adjust_markers (l : list nat) (st : estimator) : outcome estimator :=
  match l with
  | [] => Ok st
  | i :: l' => st' <- adjust_marker st i ;; adjust_markers l' st'
  end.

(** One sample, [acc(...)] of simulation.cpp:416. *)
Definition add_sample (st : estimator) (s : f32) : outcome estimator :=
  let count := S (es_count st) in
  if count <=? marker_count then
    let hs := set_nth (es_heights st) (count - 1) s in
    Ok {| es_count := count;
          es_heights := if count =? marker_count then f_sort hs else hs;
          es_actual := es_actual st;
          es_desired := es_desired st |}
  else
    c <- find_cell s (es_heights st) ;;
    adjust_markers (seq 1 (marker_count - 2))
      {| es_count := count;
         es_heights := snd c;
         es_actual := shift_actual (fst c) (es_actual st);
         es_desired := shift_desired (es_desired st) |}.

(** Samples one after the other, simulation.cpp:414-418. *)
Fixpoint add_samples (st : estimator) (l : list f32) : outcome estimator :=
  match l with
  | [] => Ok st
  | s :: l' => st' <- add_sample st s ;; add_samples st' l'
  end.

(** The estimates, [extended_p_square(acc)] of simulation.cpp:46: the
    heights of the markers 2, 4, 6, 8, 10. *)
Definition quantile_estimates (st : estimator) : list f32 :=
  map (fun i => nth (2 * i) (es_heights st) f_zero) (seq 1 (length probs)).

(** The estimates after the given numbers of seconds
    (simulation.cpp:46 and 416); none if the estimator is broken. *)
Definition p_square (zs : list Z) : list f32 :=
  match add_samples new_estimator (map f_of_Z zs) with
  | Ok st => quantile_estimates st
  | _ => []
  end.

(** The two accumulators of the program, simulation.cpp:16-19: the
    estimator, and the rolling mean with a window of 15 errors
    (simulation.cpp:399-401). *)
Definition boost_accumulators : accumulators :=
  {| ac_quantiles := p_square;
     ac_rolling_mean := fun es => rolling_mean 15 (rev es) |}.
