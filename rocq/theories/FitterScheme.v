(** * The curve fitter over any arithmetic

    The computation of exp_curve_fitter.cpp written once, with the
    arithmetic as an argument.  It links the exact fitter of FitterModel.v,
    about which C43 and C44 speak, with the single precision fitter of
    OptimizerModel.v, which the optimizer runs. *)

From Coq Require Import List Reals Bool.
From Flocq Require Import BinarySingleNaN.
From Verif Require Import Base F32 TemperatureModel StunModel OptimizerModel FitterModel.
Import ListNotations.

(** The operations used by exp_curve_fitter.cpp:20-44. *)
Record arithmetic (T : Type) := {
  ar_zero : T;
  ar_is_zero : T -> bool;
  ar_add : T -> T -> T;
  ar_sub : T -> T -> T;
  ar_opp : T -> T;
  ar_mul : T -> T -> T;
  ar_div : T -> T -> T;
  ar_fma : T -> T -> T -> T;
  ar_log : T -> T;
  ar_exp : T -> T
}.
Arguments ar_zero {T}. Arguments ar_is_zero {T}. Arguments ar_add {T}. Arguments ar_sub {T}.
Arguments ar_opp {T}. Arguments ar_mul {T}. Arguments ar_div {T}. Arguments ar_fma {T}.
Arguments ar_log {T}. Arguments ar_exp {T}.

(** The five sums of exp_curve_fitter.h:45-49, the coefficients and the
    divisor. *)
Record sums (T : Type) := Sums {
  su_xxy : T; su_ylogy : T; su_xy : T; su_xylogy : T; su_y : T; su_a : T; su_b : T; su_divisor : T
}.
Arguments Sums {T}. Arguments su_xxy {T}. Arguments su_ylogy {T}. Arguments su_xy {T}. Arguments su_xylogy {T}.
Arguments su_y {T}. Arguments su_a {T}. Arguments su_b {T}. Arguments su_divisor {T}.

Section Scheme.
Context {T : Type} (A : arithmetic T).
Local Notation "x + y" := (ar_add A x y).
Local Notation "x - y" := (ar_sub A x y).
Local Notation "x * y" := (ar_mul A x y).
Local Notation "x / y" := (ar_div A x y).
Local Notation "- x" := (ar_opp A x).

(** exp_curve_fitter.cpp:6-18. *)
Definition no_points : sums T :=
  Sums (ar_zero A) (ar_zero A) (ar_zero A) (ar_zero A) (ar_zero A) (ar_zero A) (ar_zero A) (ar_zero A).

(** exp_curve_fitter.cpp:40-44. *)
Definition curve_value (s : sums T) (x : T) : T :=
  if ar_is_zero A (su_divisor s) then ar_zero A else ar_exp A (ar_fma A (su_b s) x (su_a s)).

(** exp_curve_fitter.cpp:26-36. *)
Definition with_point (s : sums T) (x y : T) : sums T :=
  let xxy := su_xxy s + x * (x * y) in
  let ylogy := su_ylogy s + y * ar_log A y in
  let xy := su_xy s + x * y in
  let xylogy := su_xylogy s + x * (y * ar_log A y) in
  let sumy := su_y s + y in
  let divisor := ar_fma A sumy xxy ((- xy) * xy) in
  if ar_is_zero A divisor then Sums xxy ylogy xy xylogy sumy (su_a s) (su_b s) divisor
  else Sums xxy ylogy xy xylogy sumy ((xxy * ylogy - xy * xylogy) / divisor)
         ((sumy * xylogy - xy * ylogy) / divisor) divisor.

End Scheme.

(** Single precision: every operation is rounded once. *)
Definition single (o : oracles) : arithmetic f32 :=
  {| ar_zero := f_zero; ar_is_zero := fun x => f_eq x f_zero; ar_add := f_add; ar_sub := f_sub; ar_opp := f_opp;
     ar_mul := f_mul; ar_div := f_div; ar_fma := f_fma; ar_log := or_log o; ar_exp := or_exp o |}.

(** Exact arithmetic. *)
Definition exact : arithmetic R :=
  {| ar_zero := 0%R; ar_is_zero := fun x => if Req_EM_T x 0 then true else false; ar_add := Rplus; ar_sub := Rminus;
     ar_opp := Ropp; ar_mul := Rmult; ar_div := Rdiv; ar_fma := (fun x y z => x * y + z)%R;
     ar_log := ln; ar_exp := exp |}.

(** The states of the two models as sums. *)
Definition single_sums (c : curve) : sums f32 :=
  Sums (cv_xxy c) (cv_ylogy c) (cv_xy c) (cv_xylogy c) (cv_sumy c) (cv_a c) (cv_b c) (cv_divisor c).
Definition exact_sums (f : fitter) : sums R :=
  Sums (fx_xxy f) (fx_ylogy f) (fx_xy f) (fx_xylogy f) (fx_sumy f) (fx_a f) (fx_b f) (fx_divisor f).
