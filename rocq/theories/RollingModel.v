(** * Model of the rolling mean the temperature uses

    [Temperature::acc] (src/stun/temperature.h:102) is an accumulator of
    Boost.Accumulators with the features [rolling_mean] and [count].  This
    file models the first feature, Boost's [immediate_rolling_mean], which
    [tag::rolling_mean] stands for, from the Boost sources (not part of
    /repo).  The mean is not recomputed from the window: every new sample
    changes it by a rounded amount. *)

From Coq Require Import List ZArith Bool.
From Verif Require Import Base F32 TemperatureModel.
Import ListNotations.

(** How the mean [m] changes when a value [a] is replaced by [b], weighted
    by one part in [c] (the accumulator member of
    stun/temperature.h:102, called from stun/temperature.cpp:58). *)
Definition move_mean (m a b : f32) (c : Z) : f32 :=
  if f_lt b a then f_sub m (f_div (f_sub a b) (f_of_Z c))
  else if f_lt a b then f_add m (f_div (f_sub b a) (f_of_Z c))
  else m.

(** One sample, stun/temperature.cpp:58.  [l] are the earlier samples,
    newest first, and [m] is their rolling mean.  When the window is full
    the sample leaving it is replaced by the new one; otherwise the new
    sample is averaged in. *)
Definition rolling_step (w : Z) (l : list f32) (m s : f32) : f32 :=
  match nth_error l (Z.to_nat w - 1) with
  | Some old => move_mean m old s w
  | None => move_mean m m s (Z.of_nat (S (length l)))
  end.

(** The rolling mean of the samples [l], newest first, for a window of
    [w] samples: [rolling_mean(acc)] of stun/temperature.cpp:47-51.  A new
    accumulator (stun/temperature.cpp:37, 74-75) starts with 0. *)
Fixpoint rolling_mean (w : Z) (l : list f32) : f32 :=
  match l with
  | [] => f_zero
  | s :: l' => rolling_step w l' (rolling_mean w l') s
  end.

(** The library functions of the program with this rolling mean
    (stun/temperature.cpp:47-51). *)
Definition with_rolling (o : oracles) : oracles :=
  {| or_exp := or_exp o; or_log := or_log o; or_mean := rolling_mean |}.
