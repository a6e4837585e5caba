(** * What is said about random numbers *)

From Coq Require Import List ZArith Bool Reals.
From Flocq Require Import Core BinarySingleNaN.
From Verif Require Import Base F32 ProjectModel ScheduleModel MutatorModel
  MakespanModel TemperatureModel StunModel RandomModel.
Import ListNotations.
Local Open Scope Z_scope.

(** The generators the library constructs: 64 bits, and an odd
    increment. *)
Definition proper (g : generator) : Prop :=
  0 <= gn_state g < 2 ^ 64 /\ 0 <= gn_inc g < 2 ^ 64 /\ Z.odd (gn_inc g) = true.

(** The generator after [n] numbers. *)
Fixpoint steps (n : nat) (g : generator) : generator :=
  match n with O => g | S n' => steps n' (pcg_step g) end.

(** A state from its five highest bits, the next 32 and the last 27. *)
Definition compose (r m l : Z) : Z := r * 2 ^ 59 + m * 2 ^ 27 + l.

(** A number in the half-open unit interval. *)
Definition in_unit (u : f32) : Prop := is_finite u = true /\ (0 <= B2R u < 1)%R.

(** Fewer agents per task than the generator has numbers. *)
Definition small_rows (p : params) : Prop :=
  forall av, In av (sp_agents p) -> Z.of_nat (length av) < 2 ^ 32.

(** A computation with the generator has the outcome of one without it;
    when that succeeds, [R] holds of the result and of the generator
    left. *)
Definition agrees {A} (R : A -> generator -> Prop) (x : outcome (A * generator)) (y : outcome A) : Prop :=
  match y with
  | Ok a => exists g, x = Ok (a, g) /\ R a g
  | Broken => x = Broken
  | NoFuel => x = NoFuel
  end.

(** [v] is the integer that [g] gives for the range 0..max, and [g'] is
    left; the same for the unit interval. *)
Definition int_drawn (max : Z) (g : generator) (v : nat) (g' : generator) : Prop :=
  exists fuel, draw_int fuel max g = Ok (Z.of_nat v, g').
Definition unit_drawn (g : generator) (u : f32) (g' : generator) : Prop :=
  exists fuel, draw_01 fuel g = Ok (u, g').

(** The integers of a mutation of [n] items are drawn one after the
    other. *)
Definition drawn_in_order (p : params) (n : nat) (g : generator) (d : draws) (g' : generator) : Prop :=
  exists g1 g2 av,
    (if (n =? 1)%nat then g1 = g else int_drawn (Z.of_nat n - 2) g (dr_swap d) g1) /\
    int_drawn (Z.of_nat n - 1) g1 (dr_task d) g2 /\
    In av (sp_agents p) /\ int_drawn (Z.of_nat (length av) - 1) g2 (dr_agent d) g'.

(** A search from [j] to [j'] whose random numbers come from [g], one after
    the other, and leave [g'].  A number from the unit interval is drawn
    only if the candidate is not better. *)
Inductive plays (o : oracles) : job -> generator -> list luck -> job -> generator -> Prop :=
| plays_none : forall j g, plays o j g [] j g
| plays_more : forall j g k g1 c g2 j1 ks j' g',
    drawn_in_order (jb_mutator j) (length (st_current (jb_stun j))) g (lk_draws k) g1 ->
    get_new_neighbor j (lk_draws k) = Ok c ->
    (if f_lt (st_target_e (jb_stun c)) (st_current_e (jb_stun j)) then g2 = g1
     else unit_drawn g1 (lk_uniform k) g2) ->
    stun_update o j k = Ok j1 ->
    plays o j1 g2 ks j' g' ->
    plays o j g (k :: ks) j' g'.
