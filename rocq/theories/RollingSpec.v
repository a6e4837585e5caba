(** * Vocabulary of C80: the exact mean of a window *)

From Coq Require Import List ZArith Reals.
From Flocq Require Import Core BinarySingleNaN.
From Verif Require Import F32.
Import ListNotations.

(** The sum of some samples. *)
Definition exact_sum (l : list f32) : R := fold_right (fun x r => (B2R x + r)%R) 0%R l.

(** The mean of the newest [w] samples, or of all of them while there are
    fewer. *)
Definition window_mean (w : Z) (l : list f32) : R :=
  let win := firstn (Z.to_nat w) l in
  (exact_sum win / INR (length win))%R.

(** 1/4, the error of the mean after [2 ^ 21] samples. *)
Definition quarter : f32 := @B754_finite 24 128 false 8388608 (-25) eq_refl.
