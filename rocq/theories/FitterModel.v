(** * Model of src/stun/exp_curve_fitter.cpp in exact arithmetic

    The single precision version used by the optimizer is in
    OptimizerModel.v; here every [float] is a real number, [std::fma] is
    multiplication and addition, [std::log] and [std::exp] are the real
    logarithm and exponential. *)

From Coq Require Import Reals List.
Import ListNotations.
Local Open Scope R_scope.

(** [ExpCurveFitter], exp_curve_fitter.h:45-52. *)
Record fitter := {
  fx_xxy : R; fx_ylogy : R; fx_xy : R; fx_xylogy : R; fx_sumy : R;
  fx_a : R; fx_b : R; fx_divisor : R
}.

(** The default constructor and [reset], exp_curve_fitter.h:45-52 and
    exp_curve_fitter.cpp:6-18. *)
Definition fx_new : fitter :=
  {| fx_xxy := 0; fx_ylogy := 0; fx_xy := 0; fx_xylogy := 0; fx_sumy := 0;
     fx_a := 0; fx_b := 0; fx_divisor := 0 |}.

(** [operator()], exp_curve_fitter.cpp:20-38: the new state. *)
Definition fx_add (f : fitter) (x y : R) : fitter :=
  let xy1 := x * y in
  let ylogy1 := y * ln y in
  let xxy := fx_xxy f + x * xy1 in
  let ylogy := fx_ylogy f + ylogy1 in
  let xy := fx_xy f + xy1 in
  let xylogy := fx_xylogy f + x * ylogy1 in
  let sumy := fx_sumy f + y in
  let divisor := sumy * xxy - xy * xy in
  if Req_EM_T divisor 0
  then {| fx_xxy := xxy; fx_ylogy := ylogy; fx_xy := xy; fx_xylogy := xylogy; fx_sumy := sumy;
          fx_a := fx_a f; fx_b := fx_b f; fx_divisor := divisor |}
  else {| fx_xxy := xxy; fx_ylogy := ylogy; fx_xy := xy; fx_xylogy := xylogy; fx_sumy := sumy;
          fx_a := (xxy * ylogy - xy * xylogy) / divisor;
          fx_b := (sumy * xylogy - xy * ylogy) / divisor;
          fx_divisor := divisor |}.

(** [at], exp_curve_fitter.cpp:40-44. *)
Definition fx_at (f : fitter) (x : R) : R :=
  if Req_EM_T (fx_divisor f) 0 then 0 else exp (fx_b f * x + fx_a f).

(** [operator()], exp_curve_fitter.cpp:20-38: the value returned.  It is
    computed from the new state exactly as in [at] (lines 34 and 37, 42
    and 43). *)
Definition fx_call (f : fitter) (x y : R) : R := fx_at (fx_add f x y) x.

(** A fitter that has been given some points, oldest first (no source counterpart). *)
Definition fx_fit (points : list (R * R)) : fitter :=
  fold_left (fun f p => fx_add f (fst p) (snd p)) points fx_new.
