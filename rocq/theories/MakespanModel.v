(** * Model of the Makespan evaluator, src/stun/utils.cpp:9-138 *)

From Coq Require Import List ZArith Bool Arith.
From Verif Require Import Base F32 ProjectModel ScheduleModel.
Import ListNotations.

(** [Makespan], stun/utils.h: the two spans into [sum_buffer].  The spans
    are separate lists here; that they are adjacent parts of one buffer is
    not modelled. *)
Record makespan_state := { mk_task : list f32; mk_work : list f32 }.

(** [Makespan::Makespan], stun/utils.cpp:66-84. *)
Definition makespan_new (p : params) : outcome makespan_state :=
  _ <- expects (negb (length (sp_perf p) =? 0)) ;;
  _ <- expects (negb (length (sp_dur p) =? 0)) ;;
  Ok {| mk_task := repeat f_zero (length (sp_dur p));
        mk_work := repeat f_zero (length (sp_perf p)) |}.

(** [Makespan::Impl::dependencies_done], stun/utils.cpp:22-36. *)
Definition dependencies_done (p : params) (task_done : list f32) (t : nat)
  : outcome f32 :=
  _ <- expects (t <? length (sp_dur p)) ;;
  deps <- row (sp_deps p) t ;;
  match deps with
  | [] => Ok f_zero
  | _ =>
      ends <- map_outcome (at_index task_done) deps ;;
      Ok (f_max_list f_zero ends)
  end.

(** [Makespan::Impl::task_duration], stun/utils.cpp:49-63. *)
Definition task_time (p : params) (t a : nat) : outcome f32 :=
  _ <- expects (t <? length (sp_dur p)) ;;
  _ <- expects (a <? length (sp_perf p)) ;;
  d <- at_index (sp_dur p) t ;;
  q <- at_index (sp_perf p) a ;;
  Ok (f_div d q).

(** One iteration of the loop of stun/utils.cpp:130-136. *)
Definition makespan_step (p : params) (st : makespan_state) (x : item)
  : outcome makespan_state :=
  dd <- dependencies_done p (mk_task st) (it_task x) ;;
  w <- at_index (mk_work st) (it_agent x) ;;
  d <- task_time p (it_task x) (it_agent x) ;;
  let done := f_add (f_max dd w) d in
  _ <- at_index (mk_task st) (it_task x) ;;
  Ok {| mk_task := set_nth (mk_task st) (it_task x) done;
        mk_work := set_nth (mk_work st) (it_agent x) done |}.

(** The loop of stun/utils.cpp:130-136. *)
Fixpoint makespan_loop (p : params) (st : makespan_state) (s : list item)
  : outcome makespan_state :=
  match s with
  | [] => Ok st
  | x :: s' => st' <- makespan_step p st x ;; makespan_loop p st' s'
  end.

(** [Makespan::operator()], stun/utils.cpp:122-138: result and the state
    of the buffers after the call. *)
Definition makespan_eval (p : params) (st : makespan_state) (s : list item)
  : outcome (f32 * makespan_state) :=
  _ <- expects (negb (length s =? 0)) ;;
  _ <- expects (length s =? length (mk_task st)) ;;
  let st0 := {| mk_task := repeat f_zero (length (mk_task st));
                mk_work := repeat f_zero (length (mk_work st)) |} in
  st1 <- makespan_loop p st0 s ;;
  _ <- expects (negb (length (mk_work st1) =? 0)) ;;
  Ok (f_max_list f_zero (mk_work st1), st1).

(** A fresh evaluator applied once, stun/utils.cpp:66-84 and 122-138 (used where the state of the buffers
    does not matter; see [makespan_history] in MakespanProps.v). *)
Definition makespan (p : params) (s : list item) : outcome f32 :=
  st <- makespan_new p ;;
  r <- makespan_eval p st s ;;
  Ok (fst r).

(** A sequence of evaluations with one evaluator (no source counterpart). *)
Fixpoint makespan_history (p : params) (st : makespan_state)
  (l : list (list item)) : outcome makespan_state :=
  match l with
  | [] => Ok st
  | s :: l' => r <- makespan_eval p st s ;; makespan_history p (snd r) l'
  end.
