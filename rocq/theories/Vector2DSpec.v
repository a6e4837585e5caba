(** * Vocabulary of C22: tables as plain values

    A table is the list of its rows; copies are copies of the value.  There
    is no storage, no pointer and no sharing. *)

From Coq Require Import List Arith.
From Verif Require Import Vector2DModel.
Import ListNotations.

Definition table := list (list nat).

(** Cut a list into rows of the given sizes. *)
Fixpoint cut (data sizes : list nat) : table :=
  match sizes with
  | [] => []
  | n :: sizes' => firstn n data :: cut (skipn n data) sizes'
  end.

Definition total (sizes : list nat) : nat := fold_right Nat.add 0 sizes.

(** Replace element [i] of a list. *)
Fixpoint replace {A} (i : nat) (a : A) (l : list A) : list A :=
  match i, l with
  | _, [] => []
  | 0, _ :: l' => a :: l'
  | S i', x :: l' => x :: replace i' a l'
  end.

(** [value_step a o a']: what statement [o] does to the tables [a]. *)
Inductive value_step : list (option table) -> v_op -> list (option table) -> Prop :=
| vs_new : forall a, value_step a VNew (a ++ [Some []])
| vs_from : forall a data sizes, total sizes <= length data ->
    value_step a (VFrom data sizes) (a ++ [Some (cut data sizes)])
| vs_copy : forall a i t, nth_error a i = Some (Some t) ->
    value_step a (VCopy i) (a ++ [Some t])
| vs_move : forall a i t, nth_error a i = Some (Some t) ->
    value_step a (VMove i) (replace i (Some []) a ++ [Some t])
| vs_copy_assign : forall a i j t u, nth_error a i = Some (Some t) -> nth_error a j = Some (Some u) ->
    value_step a (VCopyAssign i j) (replace i (Some u) a)
| vs_move_self : forall a i t, nth_error a i = Some (Some t) ->
    value_step a (VMoveAssign i i) a
| vs_move_assign : forall a i j t u, i <> j ->
    nth_error a i = Some (Some t) -> nth_error a j = Some (Some u) ->
    value_step a (VMoveAssign i j) (replace j (Some []) (replace i (Some u) a))
| vs_clear : forall a i t, nth_error a i = Some (Some t) ->
    value_step a (VClear i) (replace i (Some []) a)
| vs_write : forall a i r c x t row, nth_error a i = Some (Some t) ->
    nth_error t r = Some row -> c < length row ->
    value_step a (VWrite i r c x) (replace i (Some (replace r (replace c x row) t)) a)
| vs_destroy : forall a i t, nth_error a i = Some (Some t) ->
    value_step a (VDestroy i) (replace i None a).

(** A sequence of statements. *)
Inductive value_run : list (option table) -> list v_op -> list (option table) -> Prop :=
| vr_nil : forall a, value_run a [] a
| vr_cons : forall a o b l c, value_step a o b -> value_run b l c -> value_run a (o :: l) c.

(** Statement [o] changes object [k] (as opposed to only reading it). *)
Definition changes (o : v_op) (k : nat) : Prop :=
  match o with
  | VNew | VFrom _ _ | VCopy _ => False
  | VMove i | VCopyAssign i _ | VClear i | VWrite i _ _ _ | VDestroy i => i = k
  | VMoveAssign i j => i <> j /\ (i = k \/ j = k)
  end.
