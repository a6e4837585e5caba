(** * Vocabulary of C51-C53: sampled values, simulated problems *)

From Coq Require Import List ZArith Bool Arith Reals.
From Flocq Require Import BinarySingleNaN.
From Verif Require Import Base F32 ProjectModel ScheduleModel ScheduleSpec SimulationModel.
Import ListNotations.

(** Random numbers are finite (not NaN). *)
Definition finite_draws (l : list f32) : Prop :=
  Forall (fun x : f32 => is_finite x = true) l.

(** How one value is obtained: the common bound if both bounds are equal;
    otherwise the first random number that is positive, all numbers before
    it being thrown away. *)
Definition drawn (lo hi : f32) (draws : list f32) (x : f32) (rest : list f32) : Prop :=
  (f_eq lo hi = true /\ x = lo /\ rest = draws) \/
  (f_eq lo hi = false /\ f_lt f_zero x = true /\
   exists bad, draws = bad ++ x :: rest /\ Forall (fun y => f_le y f_zero = true) bad).

(** How a list of values is obtained from a list of bounds. *)
Inductive all_drawn : list (f32 * f32) -> list f32 -> list f32 -> list f32 -> Prop :=
| ad_nil : forall draws, all_drawn [] draws [] draws
| ad_cons : forall lo hi bounds draws x mid xs rest,
    drawn lo hi draws x mid -> all_drawn bounds mid xs rest ->
    all_drawn ((lo, hi) :: bounds) draws (x :: xs) rest.

(** Bounds of a project in single precision. *)
Definition agent_bounds (p : project) : list (f32 * f32) :=
  map (fun a => (perf_min (ag_perf a), perf_max (ag_perf a))) (pr_agents p).

Definition task_bounds (p : project) : list (f32 * f32) :=
  map (fun t => (f_of_Z (tk_min t), f_of_Z (tk_max t))) (pr_tasks p).

(** Performance and duration bounds are positive and ordered. *)
Definition positive_bounds (p : project) : Prop :=
  Forall (fun a => f_lt f_zero (perf_min (ag_perf a)) = true /\
                   f_le (perf_min (ag_perf a)) (perf_max (ag_perf a)) = true) (pr_agents p) /\
  sane_durations (pr_tasks p).

(** No uncertainty: minimum and maximum are the same everywhere. *)
Definition certain (p : project) : Prop :=
  Forall (fun a => f_eq (perf_min (ag_perf a)) (perf_max (ag_perf a)) = true) (pr_agents p) /\
  Forall (fun t => tk_min t = tk_max t) (pr_tasks p).

(** The scheduling problem with given performances and durations. *)
Definition under (p : params) (perfs durs : list f32) : params :=
  {| sp_perf := perfs; sp_dur := durs; sp_agents := sp_agents p;
     sp_deps := sp_deps p; sp_mult := sp_mult p |}.

(** [z] is the whole-second part of the finite time [m]. *)
Definition whole_seconds (m : f32) (z : Z) : Prop :=
  is_finite m = true /\ (IZR z <= B2R m < IZR (z + 1))%R.

(** A simulation object for project [p] with any history. *)
Inductive sim_reached : project -> simulation -> Prop :=
| sr_new : forall p s, sim_new p = Ok s -> sim_reached p s
| sr_run : forall p s l draws r, sim_reached p s -> sim_run s l draws = Ok r ->
    sim_reached p (sr_state r)
| sr_copy : forall p s s', sim_reached p s -> sim_copy s = Ok s' -> sim_reached p s'
| sr_rebind : forall p p' s s', sim_reached p s -> sim_rebind s p' = Ok s' -> sim_reached p' s'.

(** Runs of the same schedule one after the other, each consuming random
    numbers where the one before stopped, each with any object for the
    project. *)
Inductive successive_runs (p : project) (l : list item) :
  list f32 -> list Z -> list f32 -> Prop :=
| su_nil : forall draws, successive_runs p l draws [] draws
| su_cons : forall s draws r zs rest, sim_reached p s ->
    sim_run s l draws = Ok r -> successive_runs p l (sr_draws r) zs rest ->
    successive_runs p l draws (sr_makespan r :: zs) rest.
