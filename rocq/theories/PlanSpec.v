(** * Vocabulary of C90, C91: what a plan for a document is

    Only YAML trees and the objects of the array "tasks" of the written
    file; see DocumentSpec.v and LoadSpec.v. *)

From Coq Require Import String List ZArith Reals.
From Flocq Require Import Core BinarySingleNaN.
From Verif Require Import F32 ProjectModel YamlModel DocumentSpec LoadSpec JsonModel.
Import ListNotations.
Local Open Scope string_scope.
Local Open Scope nat_scope.

(** The documented rule, README.md: the agent [a] may do the task [e] if
    the task names it, or if the task names nobody and the agent has no
    groups or is in all groups of the task. *)
Definition may_do (a : yaml * yaml) (e : yaml * list nat) : Prop :=
  (exists s, text_field (fst e) "agent" s /\ fst a = Scalar s) \/
  (absent (fst e) "agent" /\
   exists ga gt, agent_groups (snd a) ga /\ task_groups (fst e) gt /\ (ga = [] \/ incl gt ga)).

(** The task [e] takes the agent [a] about [z] seconds: the average of the
    shortest and the longest duration, in whole seconds, divided by the
    average of the least and the greatest performance, gives [z] after
    rounding down, but for a relative error of [2 ^ -22]. *)
Definition takes_about (as_float : string -> option f32) (a : yaml * yaml) (e : yaml * list nat) (z : Z) : Prop :=
  exists lo hi least greatest q,
    duration_texts (fst e) lo hi /\ denotes lo least /\ denotes hi greatest /\
    performance_written as_float (snd a) q /\
    (let exact := IZR ((least + greatest) / 2) / ((B2R (perf_min q) + B2R (perf_max q)) / 2) in
     exact * (1 - bpow radix2 (-22)) < IZR z + 1 /\ IZR z * (1 - bpow radix2 (-22)) <= exact)%R.

(** [y] is over when [x] starts.  The times are written in whole seconds;
    up to [2 ^ 24] of them (194 days) the end of [y] is exact. *)
Definition over_before (y x : json_item) : Prop :=
  (ji_start y <= ji_start x)%Z /\
  (ji_start x < 2 ^ 24 -> ji_start y + ji_duration y <= ji_start x)%Z.

(** The list [l] of objects is a plan for the agents [ags] and the tasks
    [es] of a document: task number [i] is the object number [at_ i], each
    task has its own object, which has the name of the task and the name of
    an agent that may do it, and the time it takes; dependencies come first and are over; an agent
    does one task at a time. *)
Record plan (as_float : string -> option f32) (ags : list (yaml * yaml)) (es : list (yaml * list nat)) (l : list json_item) (at_ : nat -> nat) : Prop := {
  pl_size : length l = length es;
  pl_range : forall i, i < length es -> at_ i < length es;
  pl_once : forall i k, i < length es -> k < length es -> at_ i = at_ k -> i = k;
  pl_task : forall i e, nth_error es i = Some e ->
    exists x a, nth_error l (at_ i) = Some x /\ text_field (fst e) "name" (ji_task x) /\
      In a ags /\ fst a = Scalar (ji_agent x) /\ may_do a e /\
      takes_about as_float a e (ji_duration x);
  pl_deps : forall i k x y, document_depends es i k ->
    nth_error l (at_ i) = Some x -> nth_error l (at_ k) = Some y -> at_ k < at_ i /\ over_before y x;
  pl_agents : forall m n x y, m < n -> nth_error l m = Some y -> nth_error l n = Some x ->
    ji_agent y = ji_agent x -> over_before y x
}.
