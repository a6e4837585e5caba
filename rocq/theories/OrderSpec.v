(** * Vocabulary of C82: the same commands with other interleavings *)

From Coq Require Import List ZArith Bool Arith Permutation.
From Verif Require Import Base F32 ScheduleModel TemperatureModel StunModel OptimizerModel BindingModel.
Import ListNotations.

(** The same command, except that the iterations of an update may come in
    another order. *)
Inductive reordered {G : Type} : command (G := G) -> command (G := G) -> Prop :=
| reordered_update : forall x order order', Permutation order order' ->
    reordered (Update x order) (Update x order')
| reordered_same : forall c, reordered c c.

(** What one iteration is made of: the job and the random number source it
    starts with, and those it leaves. *)
Definition iteration (G : Type) := job -> G -> outcome (job * G).

(** The order without parallelism: all iterations of one job, then those of
    the next. *)
Fixpoint one_by_one (i : nat) (jobs : list job) : list nat :=
  match jobs with
  | [] => []
  | j :: jobs' => repeat i (Z.to_nat (jb_batch j)) ++ one_by_one (S i) jobs'
  end.
