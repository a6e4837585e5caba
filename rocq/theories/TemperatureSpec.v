(** * Vocabulary of C41, C42 *)

From Coq Require Import List ZArith Bool Reals.
From Flocq Require Import Core BinarySingleNaN.
From Verif Require Import F32 TemperatureModel.
Import ListNotations.

(** Tunneling energies: numbers in [0, 1]. *)
Definition in_unit (x : f32) : Prop :=
  f_le f_zero x = true /\ f_le x f_one = true.

(** The rolling mean of tunneling energies is between 0 and 1, up to an
    accumulated rounding error (Boost updates the mean incrementally, see
    RollingModel.v), which is at most [e] below 0. *)
Definition mean_within (e : f32) (o : oracles) : Prop :=
  forall w l, (0 < w)%Z -> l <> [] -> Forall in_unit l ->
    is_finite (or_mean o w l) = true /\
    (- B2R e <= B2R (or_mean o w l) <= 2)%R.

(** The errors considered. *)
Definition error_ok (e : f32) : Prop := is_finite e = true /\ (0 <= B2R e <= / 4)%R.

(** 1/64, the error of the examples. *)
Definition slack : f32 := @B754_finite 24 128 false 8388608 (-29) eq_refl.

(** The scale times the largest possible distance of the mean below the
    target 0.03 is, in single precision, less than 1. *)
Definition scale_fits (e scale : f32) : bool :=
  f_lt (f_mul (f_add e f_003) scale) f_one.
Arguments scale_fits : simpl never.

(** The damping factor documented for a restart period of [2 ^ k] after
    [n] samples. *)
Definition damping (k n : nat) : R :=
  (1 - INR (n mod 2 ^ k) / INR (2 ^ k))%R.
