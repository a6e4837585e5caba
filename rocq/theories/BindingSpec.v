(** * Vocabulary of C34 and C70: which memory optimizers and jobs use *)

From Coq Require Import List ZArith Bool Arith.
From Verif Require Import Base F32 ScheduleModel TemperatureModel StunModel OptimizerModel BindingModel.
Import ListNotations.

(** The slot at an address, if there is one. *)
Definition cell {G} (m : memory G) (a : place) : option (slot G) :=
  match nth_error m (fst a) with
  | Some (Some l) => nth_error l (snd a)
  | _ => None
  end.

(** A job at address [a] uses its own mutator, makespan evaluator and
    temperature. *)
Definition own_parts (a : place) (p : pointers) : Prop :=
  pt_mutator p = a /\ pt_makespan p = a /\ pt_temp p = a.

(** A job at address [a] draws only from the random number source of its
    own slot. *)
Definition own_source (a : place) (p : pointers) : Prop :=
  pt_mutator_random p = a /\ pt_random p = a.

(** All jobs of the optimizer [x] draw from their own sources. *)
Definition owns_sources {G} (w : world G) (x : nat) : Prop :=
  forall ob i s, nth_error (w_objects w) x = Some (Some ob) ->
    cell (w_memory w) (ob_block ob, i) = Some s ->
    own_source (ob_block ob, i) (sl_pointers s).

(** The optimizer a command works on; those that create one work on the new
    one, which has the next number. *)
Definition target {G} (w : world G) (c : command (G := G)) : nat :=
  match c with
  | New _ _ _ | Copy _ => length (w_objects w)
  | Update x _ | Reset x | Rebind x _ | Destroy x | Move x => x
  end.
