(** * Model of the Temperature parameter, src/stun/temperature.cpp *)

From Coq Require Import List ZArith Bool.
From Flocq Require Import BinarySingleNaN.
From Verif Require Import Base F32.
Import ListNotations.

(** [Temperature], stun/temperature.h.  The accumulator is represented by
    the samples it has received, newest first; Boost's rolling mean is an
    arbitrary function of the window size and of these samples (see
    [oracles]). *)
Record temperature := {
  tp_value : f32;
  tp_window : Z;
  tp_acc : list f32;
  tp_scale : f32;
  tp_mask : N
}.

(** Library functions the optimizer calls: [std::exp], [std::log] (both
    stun/stochastic_tunneling.cpp:19-28, 93-115 and
    stun/exp_curve_fitter.cpp:20-44) and Boost's [rolling_mean]
    (stun/temperature.cpp:47-51).  They are arbitrary functions; theorems
    that need more say so. *)
Record oracles := {
  or_exp : f32 -> f32;
  or_log : f32 -> f32;
  or_mean : Z -> list f32 -> f32
}.

(** Unary minus on [float] (stun/stochastic_tunneling.cpp:24, 105). *)
Definition f_opp (x : f32) : f32 := Bopp x.

(** [std::has_single_bit] on a positive number
    (stun/temperature.cpp:44, stun/optimizer_job.cpp:39). *)
Definition has_single_bit (n : N) : bool :=
  negb (n =? 0)%N && (N.land n (n - 1) =? 0)%N.

(** [0.03F], stun/temperature.cpp:62: the nearest single precision number
    is 16106127 * 2^-29. *)
Definition f_003 : f32 :=
  binary_normalize 24 128 _ _ mode_NE 16106127 (-29) false.

(** [initial_beta], stun/temperature.cpp:17. *)
Definition initial_beta : f32 := f_one.

(** [Temperature::Temperature], stun/temperature.cpp:31-45.  The order of
    the member initializers and the checks does not matter: the checks have
    no effect other than failing. *)
Definition temperature_new (scale : f32) (window period : Z)
  : outcome temperature :=
  _ <- expects (f_lt f_zero scale) ;;
  _ <- expects (0 <? window)%Z ;;
  _ <- expects (0 <? period)%Z ;;
  _ <- expects (has_single_bit (Z.to_N period)) ;;
  Ok {| tp_value := initial_beta;
        tp_window := window;
        tp_acc := [];
        tp_scale := scale;
        tp_mask := Z.to_N (period - 1) |}.

(** [Temperature::average_stun], stun/temperature.cpp:47-51. *)
Definition average_stun (o : oracles) (t : temperature) : f32 :=
  or_mean o (tp_window t) (tp_acc t).

(** [dampening] of stun/temperature.cpp:59-61 for a count of samples. *)
Definition dampening (count mask : N) : f32 :=
  f_div (f_of_Z (Z.of_N (N.land count mask))) (f_of_Z (Z.of_N (mask + 1))).

(** [t] of stun/temperature.cpp:63. *)
Definition volatility (count mask : N) : f32 :=
  f_sub f_one (dampening count mask).

(** [Temperature::update], stun/temperature.cpp:53-67. *)
Definition temperature_update (o : oracles) (t : temperature) (stun : f32)
  : outcome temperature :=
  _ <- expects (f_le f_zero stun) ;;
  let acc := stun :: tp_acc t in
  let t1 := {| tp_value := tp_value t; tp_window := tp_window t; tp_acc := acc;
               tp_scale := tp_scale t; tp_mask := tp_mask t |} in
  let diff := f_sub (average_stun o t1) f_003 in
  let v := volatility (N.of_nat (length acc)) (tp_mask t) in
  let value :=
    f_mul (tp_value t)
      (f_add f_one (f_mul (f_mul (f_mul diff (tp_scale t)) v) v)) in
  _ <- expects (f_le f_zero value) ;;
  Ok {| tp_value := value; tp_window := tp_window t; tp_acc := acc;
        tp_scale := tp_scale t; tp_mask := tp_mask t |}.

(** [Temperature::reset], stun/temperature.cpp:69-78. *)
Definition temperature_reset (t : temperature) : outcome temperature :=
  _ <- expects (0 <? tp_window t)%Z ;;
  Ok {| tp_value := initial_beta; tp_window := tp_window t; tp_acc := [];
        tp_scale := tp_scale t; tp_mask := tp_mask t |}.

(** A sequence of updates (no source counterpart). *)
Fixpoint temperature_run (o : oracles) (t : temperature) (l : list f32)
  : outcome temperature :=
  match l with
  | [] => Ok t
  | s :: l' => t' <- temperature_update o t s ;; temperature_run o t' l'
  end.
