(** * Model of RandomUtils, src/stun/random_utils.cpp, with its generator

    The generator is [pcg32] of the PCG library (stun/random_utils.h:12:
    [using RandomEngine = pcg32]), the distributions are those of
    Boost.Random; both are transcribed from these libraries, which are not
    part of /repo.  [RandomUtils::normal] is not modelled. *)

From Coq Require Import List ZArith Bool Arith.
From Verif Require Import Base F32 ProjectModel ScheduleModel MutatorModel
  MakespanModel TemperatureModel StunModel.
Import ListNotations.
Local Open Scope Z_scope.

(** The state of [RandomUtils::generator] (stun/random_utils.h:62-63): the
    state and the increment of a linear congruential generator modulo
    [2 ^ 64].  The distributions (stun/random_utils.h:64-67) that are
    modelled have no state. *)
Record generator := { gn_state : Z; gn_inc : Z }.

(** The multiplier of [pcg32] (stun/random_utils.h:12). *)
Definition pcg_mult : Z := 6364136223846793005.

(** The next state of [pcg32] (stun/random_utils.h:12). *)
Definition pcg_step (g : generator) : generator :=
  {| gn_state := (gn_state g * pcg_mult + gn_inc g) mod 2 ^ 64; gn_inc := gn_inc g |}.

(** A generator from a seed and an odd increment, as the constructors of
    [pcg32] set it up (stun/random_utils.cpp:6-9 and, from
    [std::random_device], stun/random_utils.h:62-63).  The seed given at
    stun/random_utils.cpp:7 is used with the increment
    1442695040888963407 of the library. *)
Definition seeded (seed inc : Z) : generator :=
  pcg_step {| gn_state := (seed + inc) mod 2 ^ 64; gn_inc := inc |}.

(** Rotation of 32 bits to the right (used by [pcg32],
    stun/random_utils.h:12). *)
Definition rotate_right (x r : Z) : Z :=
  Z.lor (Z.shiftr x r) (Z.shiftl x ((- r) mod 32) mod 2 ^ 32).

(** The output function XSH-RR of [pcg32] (stun/random_utils.h:12): an
    xorshift, the low 32 bits of the upper part, and a rotation by the five
    highest bits. *)
Definition pcg_output (s : Z) : Z :=
  rotate_right (Z.shiftr (Z.lxor (Z.shiftr s 18) s) 27 mod 2 ^ 32) (Z.shiftr s 59).

(** [generator()] (stun/random_utils.cpp:13, 20): the output of the old
    state. *)
Definition draw (g : generator) : Z * generator := (pcg_output (gn_state g), pcg_step g).

(** [boost::random::uniform_int_distribution] for the range 0..max
    (stun/random_utils.cpp:20): the range of the generator is cut into
    buckets; a number beyond the last bucket is drawn again.  Ranges as
    large as that of the generator use other code, which is not modelled
    ([Broken]). *)
Fixpoint draw_bucket (fuel : nat) (max bucket : Z) (g : generator) : outcome (Z * generator) :=
  match fuel with
  | O => NoFuel
  | S fuel' =>
      let '(x, g') := draw g in
      if x / bucket <=? max then Ok (x / bucket, g') else draw_bucket fuel' max bucket g'
  end.

(** The size of a bucket (Boost, for stun/random_utils.cpp:20): the
    quotient is computed without overflow. *)
Definition bucket_size (max : Z) : Z :=
  let brange := 2 ^ 32 - 1 in
  brange / (max + 1) + (if brange mod (max + 1) =? max then 1 else 0).

(** [RandomUtils::uniform_int], stun/random_utils.cpp:16-21. *)
Definition draw_int (fuel : nat) (max : Z) (g : generator) : outcome (Z * generator) :=
  _ <- expects (0 <=? max) ;;
  if max =? 0 then Ok (0, g)
  else
    _ <- expects (max <? 2 ^ 32 - 1) ;;
    draw_bucket fuel max (bucket_size max) g.

(** The factor of [boost::random::uniform_01<float>]
    (stun/random_utils.cpp:13). *)
Definition unit_factor : f32 := f_div f_one (f_add (f_of_Z (2 ^ 32 - 1)) f_one).

(** [RandomUtils::uniform_01], stun/random_utils.cpp:11-14: a result that
    rounds to 1 is drawn again. *)
Fixpoint draw_01 (fuel : nat) (g : generator) : outcome (f32 * generator) :=
  match fuel with
  | O => NoFuel
  | S fuel' =>
      let '(x, g') := draw g in
      let r := f_mul (f_of_Z x) unit_factor in
      if f_lt r f_one then Ok (r, g') else draw_01 fuel' g'
  end.

(** [Mutator::Impl::try_swap] with the generator, stun/utils.cpp:179-191. *)
Definition try_swap_random (fuel : nat) (p : params) (g : generator) (s : list item)
  : outcome (list item * generator) :=
  _ <- expects (negb (length s =? 0)%nat) ;;
  if (length s =? 1)%nat then Ok (s, g)
  else
    r <- draw_int fuel (size_minus (length s) 2) g ;;
    let swap_index := (1 + Z.to_nat (fst r))%nat in
    a <- at_index s swap_index ;;
    b <- at_index s (swap_index - 1) ;;
    ok <- is_swappable p (it_task a) (it_task b) ;;
    if ok then Ok (set_nth (set_nth s swap_index b) (swap_index - 1) a, snd r)
    else Ok (s, snd r).

(** [Mutator::Impl::update_agent] with the generator,
    stun/utils.cpp:196-213. *)
Definition update_agent_random (fuel : nat) (p : params) (g : generator) (s : list item)
  : outcome (list item * generator) :=
  _ <- expects (negb (length s =? 0)%nat) ;;
  _ <- expects (length s =? length (sp_agents p))%nat ;;
  r <- draw_int fuel (size_minus (length s) 1) g ;;
  x <- at_index s (Z.to_nat (fst r)) ;;
  av <- row (sp_agents p) (it_task x) ;;
  r2 <- draw_int fuel (size_minus (length av) 1) (snd r) ;;
  a <- at_index av (Z.to_nat (fst r2)) ;;
  Ok (set_nth s (Z.to_nat (fst r)) (Item (it_task x) a), snd r2).

(** [Mutator::operator()] with the generator, stun/utils.cpp:240-245. *)
Definition mutate_random (fuel : nat) (p : params) (g : generator) (s : list item)
  : outcome (list item * generator) :=
  _ <- expects (negb (length s =? 0)%nat) ;;
  r <- try_swap_random fuel p g s ;;
  update_agent_random fuel p (snd r) (fst r).

(** [Impl::get_new_neighbor] with the generator,
    stun/stochastic_tunneling.cpp:41-53. *)
Definition get_new_neighbor_random (fuel : nat) (j : job) (g : generator) : outcome (job * generator) :=
  let s := jb_stun j in
  _ <- expects (negb (length (st_current s) =? 0)%nat) ;;
  _ <- expects (negb (length (st_target s) =? 0)%nat) ;;
  _ <- expects (length (st_current s) =? length (st_target s))%nat ;;
  t <- mutate_random fuel (jb_mutator j) g (st_current s) ;;
  r <- makespan_eval (jb_params j) (jb_makespan j) (fst t) ;;
  _ <- expects (f_le f_zero (fst r)) ;;
  Ok ({| jb_batch := jb_batch j; jb_mutator := jb_mutator j;
         jb_params := jb_params j; jb_makespan := snd r;
         jb_temp := jb_temp j; jb_stun := set_target s (fst t) (fst r) |}, snd t).

(** [StochasticTunneling::update] with the generator,
    stun/stochastic_tunneling.cpp:180-187: [uniform_01]
    (stun/stochastic_tunneling.cpp:106) is called only when the neighbour is
    not better.  The call stands before [perform_stun] here; if a contract
    of [perform_stun] fails the program ends either way. *)
Definition stun_update_random (fuel : nat) (o : oracles) (j : job) (g : generator) : outcome (job * generator) :=
  _ <- expects (negb (length (st_current (jb_stun j)) =? 0)%nat) ;;
  j1 <- get_new_neighbor_random fuel j g ;;
  r <- neighbor_is_better o (jb_stun (fst j1)) ;;
  let j2 := with_stun (fst j1) (snd r) in
  if fst r then Ok (j2, snd j1)
  else
    u <- draw_01 fuel (snd j1) ;;
    j3 <- perform_stun o (fst u) j2 ;;
    Ok (j3, snd u).

(** The iterations of one job (stun/optimizer_job.cpp:42-49 and the loop of
    stun/optimizer.cpp:175-177 for this job). *)
Fixpoint search_random (fuel : nat) (o : oracles) (n : nat) (j : job) (g : generator) : outcome (job * generator) :=
  match n with
  | O => Ok (j, g)
  | S n' => r <- stun_update_random fuel o j g ;; search_random fuel o n' (fst r) (snd r)
  end.
