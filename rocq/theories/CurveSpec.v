(** * Vocabulary of C35 and C37: the functions of the C library used by the
      curve fitter, and searches as the program runs them *)

From Coq Require Import List ZArith Bool.
From Flocq Require Import BinarySingleNaN.
From Verif Require Import Base F32 ProjectModel ScheduleModel TemperatureModel StunModel OptimizerModel.
Import ListNotations.

(** [std::exp] of a number (infinities included, NaN excluded) is not
    negative. *)
Definition exp_nonneg (o : oracles) : Prop :=
  forall x, is_nan x = false -> f_le f_zero (or_exp o x) = true.

(** [std::exp] of NaN is NaN. *)
Definition exp_of_nan (o : oracles) : Prop := or_exp o B754_nan = B754_nan.

(** [std::log] of a positive float is a number between -128 and 128 (in
    fact between -104 and 89). *)
Definition log_sane (o : oracles) : Prop :=
  forall y, f_lt f_zero y = true -> is_finite y = true ->
    f_le (f_of_Z (-128)) (or_log o y) = true /\ f_le (or_log o y) (f_of_Z 128) = true.

(** The optimizers that exist at some moment of a search: as
    [optimizer_reached], but [update] is called only while the optimizer has
    not converged, as predict.cpp does. *)
Inductive optimizer_searched (o : oracles) (p : params) (op : options) (threads : nat)
  : optimizer -> Prop :=
| os_new : forall z, optimizer_new o p op threads = Ok z -> optimizer_searched o p op threads z
| os_update : forall z ks z', optimizer_searched o p op threads z -> has_converged z = false ->
    optimizer_update o z ks = Ok z' -> optimizer_searched o p op threads z'
| os_reset : forall z z', optimizer_searched o p op threads z ->
    optimizer_reset o z = Ok z' -> optimizer_searched o p op threads z'
| os_copy : forall z z', optimizer_searched o p op threads z ->
    optimizer_copy z = Ok z' -> optimizer_searched o p op threads z'.

(** The numbers of iterations for which the counters do not overflow 32 bits
    and the sums of the curve fitter stay in the range of single precision:
    a batch is at most seven times the allowed idle time (by default it is
    a tenth of it). *)
Record iteration_range (op : options) : Prop := {
  ir_batch : (0 < op_batch op <= 7 * op_max_idle op)%Z;
  ir_sum : (op_batch op + op_max_idle op <= 2 ^ 31)%Z
}.

(** 2^-96, that is about 1.26e-29. *)
Definition tiny : f32 := @B754_finite 24 128 false 8388608 (-119) eq_refl.

(** The curve is flat and so low that the extrapolated epoch can overflow. *)
Definition flat_at_zero (o : oracles) (z : optimizer) : Prop :=
  f_eq (cv_b (oz_curve z)) f_zero = true /\
  f_lt (curve_at o (oz_curve z) (f_of_Z (oz_epochs z + 1))) tiny = true.
