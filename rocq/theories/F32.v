(** * The C++ type [float]

    [float] is IEEE 754 binary32 with rounding to nearest, ties to even.
    The operations are Flocq's computable ones.  Release builds of
    angonoka use -ffast-math (meson.build), which allows the compiler to
    deviate from these results; that is not modelled. *)

From Coq Require Import ZArith Bool List.
From Flocq Require Import Core BinarySingleNaN.
Import ListNotations.

(** C++ [float]; used for every [float] in src/ (e.g.
    stun/schedule_params.h:99-105). *)
Definition f32 := binary_float 24 128.

(** Side conditions of the format (no source counterpart). *)
Global Instance f32_prec_gt_0 : Prec_gt_0 24 := eq_refl.
(** The same for the exponent (no source counterpart). *)
Global Instance f32_prec_lt_emax : Prec_lt_emax 24 128 := eq_refl.

(** [0.F] (e.g. stun/utils.cpp:129). *)
Definition f_zero : f32 := B754_zero false.

(** Float addition (e.g. stun/utils.cpp:134). *)
Definition f_add (x y : f32) : f32 := Bplus mode_NE x y.

(** Float subtraction (e.g. stun/stochastic_tunneling.cpp:19-28). *)
Definition f_sub (x y : f32) : f32 := Bminus mode_NE x y.

(** Float multiplication (e.g. stun/temperature.cpp:53-67). *)
Definition f_mul (x y : f32) : f32 := Bmult mode_NE x y.

(** Float division (e.g. stun/utils.cpp:59-62). *)
Definition f_div (x y : f32) : f32 := Bdiv mode_NE x y.

(** [x < y]; false when an operand is NaN (e.g. stun/utils.cpp:131). *)
Definition f_lt (x y : f32) : bool := Bltb x y.

(** [x <= y]; false when an operand is NaN (e.g. project.cpp:41). *)
Definition f_le (x y : f32) : bool := Bleb x y.

(** [x == y]; false when an operand is NaN (e.g.
    stun/optimizer.cpp:170-190). *)
Definition f_eq (x y : f32) : bool := Beqb x y.

(** Conversion from an integer, rounding to nearest (e.g.
    stun/schedule_params.cpp:63, 71). *)
Definition f_of_Z (z : Z) : f32 := binary_normalize 24 128 _ _ mode_NE z 0 false.

(** [1.F] (e.g. project.h:35). *)
Definition f_one : f32 := f_of_Z 1.

(** [std::max(a, b)]: [(a < b) ? b : a] (e.g. stun/utils.cpp:131). *)
Definition f_max (a b : f32) : f32 := if f_lt a b then b else a.

(** [std::min(a, b)]: [(b < a) ? b : a] (e.g.
    stun/stochastic_tunneling.cpp:93-115). *)
Definition f_min (a b : f32) : f32 := if f_lt b a then b else a.

(** [ranges::max] of a non-empty range: keeps the running result unless
    it is smaller than the next element (stun/utils.cpp:33-35, 137).
    [d] is the value for the empty range, which every caller excludes. *)
Definition f_max_list (d : f32) (l : list f32) : f32 :=
  match l with
  | [] => d
  | x :: l' => fold_left f_max l' x
  end.

(** Truncating conversion to an integer; [None] when the value is not
    finite (undefined behaviour in C++).  Range checks are made where the
    conversion is used (predict.cpp:28-38, simulation.cpp:276-303). *)
Definition f_trunc (x : f32) : option Z :=
  if is_finite x then Some (Btrunc x) else None.
