(** * Vocabulary of C73: when the simulation stops *)

From Coq Require Import List ZArith Bool Arith.
From Flocq Require Import BinarySingleNaN.
From Verif Require Import Base F32 SimulationModel.
Import ListNotations.

(** The mean of the relative changes of five estimates, in single
    precision. *)
Definition mean_change (before now : list f32) : f32 :=
  f_div (fold_left (fun e ab => f_add e (Babs (f_div (f_sub (fst ab) (snd ab)) (fst ab)))) (combine before now) f_zero)
    (f_of_Z 5).

(** Ten thousand runs are a batch. *)
Definition runs_of (batches : nat) : nat := batches * Z.to_nat 10000.

(** The estimates after so many batches of the runs [zs]; before the first
    batch they are 1. *)
Definition estimates (estimator : list Z -> list f32) (zs : list Z) (i : nat) : list f32 :=
  match i with O => repeat f_one 5 | S _ => estimator (firstn (runs_of i) zs) end.

(** The changes made by batches 1, ..., [n]. *)
Definition changes (estimator : list Z -> list f32) (zs : list Z) (n : nat) : list f32 :=
  map (fun i => mean_change (estimates estimator zs i) (estimates estimator zs (S i))) (seq 0 n).

(** One percent, rounded to single precision: 10737418 * 2^-30. *)
Definition one_percent : f32 := @B754_finite 24 128 false 10737418 (-30) eq_refl.
