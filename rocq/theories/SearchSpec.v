(** * Vocabulary of C30-C40: histories of optimization jobs *)

From Coq Require Import List ZArith Bool Reals.
From Flocq Require Import Core BinarySingleNaN.
From Verif Require Import Base F32 ProjectModel ScheduleModel ScheduleSpec
  MutatorModel MakespanModel TimelineSpec TemperatureModel TemperatureSpec StunModel.
Import ListNotations.

(** [m] is the length of the greedy timeline of schedule [s]. *)
Definition project_length (p : params) (s : list item) (m : f32) : Prop :=
  exists tl, greedy_timeline p s tl /\ last_finish s tl m.

(** [std::exp] of a number that is not positive is between 0 and 1. *)
Definition exp_sane (o : oracles) : Prop :=
  forall x, f_le x f_zero = true -> in_unit (or_exp o x).

(** Doing all the work in sequence takes a finite time. *)
Definition finite_work (p : params) : Prop :=
  forall s, valid_schedule p s -> is_finite (total_time p s) = true.

(** Options for which the optimizer is meant to work (the command line
    checks most of this, C64). *)
Record sane_options (op : options) : Prop := {
  so_batch : (0 < op_batch op)%Z;
  so_max_idle : (0 < op_max_idle op)%Z;
  so_scale : f_lt f_zero (op_scale op) = true;
  so_window : (0 < op_window op)%Z;
  so_gamma : f_le f_zero (op_gamma op) = true /\ is_finite (op_gamma op) = true;
  so_period : exists k, op_period op = (2 ^ Z.of_nat k)%Z /\ k <= 62
}.

(** The error of the rolling mean is small enough for the beta scale, see
    C41. *)
Definition mean_sane (o : oracles) (op : options) : Prop :=
  exists e, error_ok e /\ mean_within e o /\ scale_fits e (op_scale op) = true.

(** The jobs that exist at some moment of some history: new ones, and what
    becomes of them by iterations, resets and copies, in any order and
    with any random numbers. *)
Inductive job_reached (o : oracles) (p : params) (op : options) : job -> Prop :=
| jr_new : forall j, job_new o p op = Ok j -> job_reached o p op j
| jr_step : forall j k j', job_reached o p op j -> stun_update o j k = Ok j' ->
    job_reached o p op j'
| jr_reset : forall j j', job_reached o p op j -> job_reset o j = Ok j' ->
    job_reached o p op j'
| jr_copy : forall j j', job_reached o p op j -> job_copy j = Ok j' ->
    job_reached o p op j'.

(** The candidates evaluated by the iterations [ks], in order. *)
Fixpoint candidates (o : oracles) (j : job) (ks : list luck) : list (list item) :=
  match ks with
  | [] => []
  | k :: ks' =>
      match mutate (jb_mutator j) (lk_draws k) (st_current (jb_stun j)),
            stun_update o j k with
      | Ok c, Ok j' => c :: candidates o j' ks'
      | _, _ => []
      end
  end.

(** Two jobs that differ at most in memory that is written before it is
    read: the buffers of the evaluator, the target schedule and its
    energies. *)
Record same_job (j j' : job) : Prop := {
  sj_batch : jb_batch j = jb_batch j';
  sj_mutator : jb_mutator j = jb_mutator j';
  sj_params : jb_params j = jb_params j';
  sj_task : length (mk_task (jb_makespan j)) = length (mk_task (jb_makespan j'));
  sj_work : length (mk_work (jb_makespan j)) = length (mk_work (jb_makespan j'));
  sj_temp : jb_temp j = jb_temp j';
  sj_best : st_best (jb_stun j) = st_best (jb_stun j');
  sj_swapped : st_swapped (jb_stun j) = st_swapped (jb_stun j');
  sj_one : st_one (jb_stun j) = st_one (jb_stun j');
  sj_two : st_swapped (jb_stun j) = true -> st_two (jb_stun j) = st_two (jb_stun j');
  sj_two_len : length (st_two (jb_stun j)) = length (st_two (jb_stun j'));
  sj_current_e : st_current_e (jb_stun j) = st_current_e (jb_stun j');
  sj_lowest_e : st_lowest_e (jb_stun j) = st_lowest_e (jb_stun j');
  sj_gamma : st_gamma (jb_stun j) = st_gamma (jb_stun j');
  sj_current_s : st_current_s (jb_stun j) = st_current_s (jb_stun j')
}.

(** Two results agree: both fail in the same way, or both succeed with
    related values. *)
Definition agree {A} (R : A -> A -> Prop) (x y : outcome A) : Prop :=
  match x, y with
  | Ok a, Ok b => R a b
  | Broken, Broken => True
  | NoFuel, NoFuel => True
  | _, _ => False
  end.
