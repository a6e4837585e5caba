(** * Vocabulary of C83: simulations that draw from the generator *)

From Coq Require Import List ZArith Bool Reals.
From Flocq Require Import Core BinarySingleNaN.
From Verif Require Import Base F32 ProjectModel SimulationModel RandomModel NormalModel.
Import ListNotations.

(** Bounds of a size that occurs in practice: the larger one between 2^-96
    and 2^96. *)
Definition moderate_bound (hi : f32) : Prop :=
  is_finite hi = true /\ (bpow radix2 (-96) <= B2R hi <= bpow radix2 96)%R.

(** The performances of all agents without uncertainty, or of such a
    size. *)
Definition moderate_performances (p : project) : Prop :=
  Forall (fun a => f_eq (perf_min (ag_perf a)) (perf_max (ag_perf a)) = true \/
                   moderate_bound (perf_max (ag_perf a))) (pr_agents p).

(** A list of calls of [RandomUtils::normal], each with its bounds and its
    result, made one after the other with the same generator. *)
Inductive called (exp : f32 -> f32) : generator -> list ((f32 * f32) * f32) -> generator -> Prop :=
| ca_nil : forall g, called exp g [] g
| ca_cons : forall g lo hi x g1 log g',
    (exists fuel, draw_normal fuel exp lo hi g = Ok (x, g1)) ->
    called exp g1 log g' -> called exp g (((lo, hi), x) :: log) g'.

(** The values sampled for a list of bounds with these calls: none if both
    bounds are equal; otherwise calls with these bounds up to the first
    positive result. *)
Inductive logged : list (f32 * f32) -> list ((f32 * f32) * f32) -> list f32 -> Prop :=
| lg_nil : logged [] [] []
| lg_equal : forall lo hi bounds log xs, f_eq lo hi = true ->
    logged bounds log xs -> logged ((lo, hi) :: bounds) log (lo :: xs)
| lg_drawn : forall lo hi bounds bad x log xs, f_eq lo hi = false ->
    Forall (fun y => f_le y f_zero = true) bad -> f_lt f_zero x = true ->
    logged bounds log xs ->
    logged ((lo, hi) :: bounds) (map (fun y => ((lo, hi), y)) bad ++ ((lo, hi), x) :: log) (x :: xs).
