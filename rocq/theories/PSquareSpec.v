(** * Vocabulary of C85 and C86: quantile estimates *)

From Coq Require Import List ZArith Bool Arith.
From Flocq Require Import BinarySingleNaN.
From Verif Require Import Base F32.
Import ListNotations.

(** Numbers in ascending order (none of them NaN). *)
Definition ascending (l : list f32) : Prop :=
  forall i j x y, i <= j -> nth_error l i = Some x -> nth_error l j = Some y -> f_le x y = true.

(** The smallest and the largest of some whole numbers. *)
Definition smallest (l : list Z) (z : Z) : Prop := In z l /\ Forall (fun y => (z <= y)%Z) l.
Definition largest (l : list Z) (z : Z) : Prop := In z l /\ Forall (fun y => (y <= z)%Z) l.

(** Numbers of seconds that fit in 64 bits. *)
Definition seconds_fit (l : list Z) : Prop := Forall (fun z => (- 2 ^ 63 <= z < 2 ^ 63)%Z) l.
