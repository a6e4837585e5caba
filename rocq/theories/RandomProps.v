(** * Property theorems C81: random numbers *)

From Coq Require Import List ZArith Bool Arith Lia Reals.
From Flocq Require Import Core BinarySingleNaN.
From Verif Require Import Base F32 ProjectModel ScheduleModel ScheduleSpec TimelineSpec TemperatureSpec MutatorModel
  MakespanModel TemperatureModel StunModel SearchSpec StunProofs StunProps RandomModel RandomSpec RandomProofs.
Import ListNotations.
Local Open Scope Z_scope.

(** The first numbers of the generator, for the known answers below. *)
Fixpoint numbers (n : nat) (g : generator) : list Z :=
  match n with O => [] | S n' => fst (draw g) :: numbers n' (snd (draw g)) end.

(** The first six numbers that the demonstration program of the PCG library
    prints for the seed 42 and the stream 54. *)
Example ex_known_answers : numbers 6 (seeded 42 (2 * 54 + 1)) =
  [0xa15c02b7; 0x7b47f409; 0xba1d3330; 0x83d2f293; 0xbfa4784b; 0xcbed606e].
Proof. vm_compute. reflexivity. Qed.

Lemma seeded_proper : forall seed inc, 0 <= inc < 2 ^ 64 -> Z.odd inc = true -> proper (seeded seed inc).
Proof.
  intros seed inc B O. apply step_proper. split; [apply Z.mod_pos_bound; lia|]. split; assumption.
Qed.

(** C81: from every state the generator comes to every state, within
    [2 ^ 64] numbers. *)
Theorem generator_full_period : forall g t, proper g -> 0 <= t < 2 ^ 64 ->
  exists n, Z.of_nat n < 2 ^ 64 /\ gn_state (steps n g) = t.
Proof. exact full_period. Qed.
Print Assumptions generator_full_period.

Example ex_generator_full_period : proper (seeded 42 109) /\
  gn_state (steps 1 (seeded 42 109)) <> gn_state (seeded 42 109).
Proof. split; [apply seeded_proper; [lia|reflexivity]|]. vm_compute. discriminate. Qed.

(** C81: a random integer is drawn in finite time whatever the state of the
    generator, and is one of 0..max. *)
Theorem random_integer : forall max g, proper g -> 0 <= max < 2 ^ 32 - 1 ->
  exists v g', 0 <= v <= max /\ proper g' /\
    (forall fuel, 2 ^ 64 <= Z.of_nat fuel -> draw_int fuel max g = Ok (v, g')) /\
    forall fuel r, draw_int fuel max g = Ok r -> r = (v, g').
Proof.
  intros max g P M.
  destruct (int_ends (Z.to_nat (2 ^ 64)) max g P M) as (v & g' & A & B & C); [rewrite Z2Nat.id; lia|].
  exists v, g'. split; [exact B|]. split; [exact C|].
  assert (U : forall fuel r, draw_int fuel max g = Ok r -> r = (v, g')).
  { intros fuel r H. exact (int_fuel _ _ _ _ _ _ H A). }
  split; [|exact U]. intros fuel L. destruct (int_ends fuel max g P M L) as (v2 & g2 & A2 & _).
  rewrite A2. f_equal. apply (U fuel), A2.
Qed.
Print Assumptions random_integer.

(** Two numbers are refused here before one is taken: the range is a little
    more than half of that of the generator. *)
Example ex_random_integer :
  draw_int 2 (2 ^ 31) (seeded 3 1442695040888963407) = NoFuel /\
  match draw_int 5 (2 ^ 31) (seeded 3 1442695040888963407) with Ok (v, _) => 0 <= v <= 2 ^ 31 | _ => False end.
Proof. split; [vm_compute; reflexivity|]. vm_compute. split; discriminate. Qed.

(** C81: all integers 0..max are equally likely: each is the result for
    [2 ^ 32 / (max + 1)] of the numbers of the generator, and each number of
    the generator comes from the same number of states, one for any highest
    five and lowest 27 bits. *)
Theorem integers_equally_likely : forall max v, 0 < max < 2 ^ 32 - 1 -> 0 <= v <= max ->
  let b := 2 ^ 32 / (max + 1) in
  1 <= b /\
  (forall g, proper g ->
     (exists g', draw_int 1 max g = Ok (v, g')) <-> v * b <= fst (draw g) < v * b + b) /\
  (forall x, v * b <= x < v * b + b ->
     forall r l, 0 <= r < 2 ^ 5 -> 0 <= l < 2 ^ 27 ->
     exists m, 0 <= m < 2 ^ 32 /\
       forall m', 0 <= m' < 2 ^ 32 -> (forall inc, fst (draw {| gn_state := compose r m' l; gn_inc := inc |}) = x) <-> m' = m).
Proof.
  intros max v M V b. assert (M0 : 0 <= max < 2 ^ 32 - 1) by lia.
  pose proof (bucket_value max M0) as EB. pose proof (bucket_fits max M0) as [B1 B2]. rewrite EB in B1, B2.
  fold b in EB, B1, B2. clearbody b. split; [exact B1|]. split.
  - intros g P. unfold draw_int. rewrite (proj2 (Z.leb_le 0 max)), (proj2 (Z.eqb_neq max 0)),
      (proj2 (Z.ltb_lt max (2 ^ 32 - 1))) by lia. cbn [expects bind draw_bucket draw]. cbv zeta. rewrite EB.
    change (fst (draw g)) with (pcg_output (gn_state g)). set (x := pcg_output (gn_state g)).
    assert (X : 0 <= x < 2 ^ 32) by (apply output_range, P).
    pose proof (Z.div_mod x b) as DM. pose proof (Z.mod_pos_bound x b) as MB.
    split.
    + intros (g' & H). destruct (x / b <=? max); [|discriminate]. injection H as H _. rewrite H in DM. specialize (DM ltac:(lia)). specialize (MB ltac:(lia)). lia.
    + intro H. assert (E : x / b = v) by (symmetry; apply Z.div_unique_pos with (x - v * b); [lia|ring]).
      rewrite E, (proj2 (Z.leb_le v max)) by lia. eexists. reflexivity.
  - intros x X r l R L. destruct (output_unique r l x) as (m & HM & E & U); [lia|exact L| |].
    { assert (v * b + b <= (max + 1) * b) by nia. nia. }
    exists m. split; [exact HM|]. intros m' HM'. cbn [draw fst gn_state]. split.
    + intro H. apply U; [exact HM'|]. exact (H 1).
    + intros -> _. exact E.
Qed.
Print Assumptions integers_equally_likely.

Example ex_integers_equally_likely : proper (seeded 42 109) /\
  2 ^ 32 / (9 + 1) = 429496729 /\ fst (draw (seeded 42 109)) = 2707161783 /\
  6 * 429496729 <= 2707161783 < 6 * 429496729 + 429496729 /\
  match draw_int 1 9 (seeded 42 109) with Ok (v, _) => v = 6 | _ => False end.
Proof.
  split; [apply seeded_proper; [lia|reflexivity]|]. split; [reflexivity|].
  split; [vm_compute; reflexivity|]. split; [lia|]. vm_compute. reflexivity.
Qed.

(** C81: [uniform_01] ends whatever the state of the generator, and its
    result is a number from 0 to less than 1. *)
Theorem random_unit : forall g, proper g ->
  exists u g', in_unit u /\ proper g' /\
    (forall fuel, 2 ^ 64 <= Z.of_nat fuel -> draw_01 fuel g = Ok (u, g')) /\
    forall fuel r, draw_01 fuel g = Ok r -> r = (u, g').
Proof.
  intros g P.
  destruct (unit_total (Z.to_nat (2 ^ 64)) g P) as (u & g' & A & B & C); [rewrite Z2Nat.id; lia|].
  exists u, g'. split; [exact B|]. split; [exact C|].
  assert (U : forall fuel r, draw_01 fuel g = Ok r -> r = (u, g')).
  { intros fuel r H. exact (unit_fuel _ _ _ _ _ H A). }
  split; [|exact U]. intros fuel L. destruct (unit_total fuel g P L) as (u2 & g2 & A2 & _).
  rewrite A2. f_equal. apply (U fuel), A2.
Qed.
Print Assumptions random_unit.

(** The largest number of the generator would be rounded to 1: it is drawn
    again.  The state is one that gives that number. *)
Definition ex_refused : generator :=
  {| gn_state := compose 0 (2 ^ 32 - 1 - (2 ^ 14 - 1)) 5; gn_inc := 109 |}.

Example ex_random_unit : proper ex_refused /\ fst (draw ex_refused) = 2 ^ 32 - 1 /\
  is_ok (draw_01 1 ex_refused) = false /\ is_ok (draw_01 2 ex_refused) = true.
Proof. split; [split; [vm_compute; split; [discriminate|reflexivity]|split; [vm_compute; split; [discriminate|reflexivity]|reflexivity]]|].
  split; [vm_compute; reflexivity|]. split; vm_compute; reflexivity. Qed.

(** C81: iterations of a job with the generator end, and are iterations
    with some random integers and some numbers from the unit interval, of
    which the other theorems speak; these are drawn from the generator one
    after the other. *)
Theorem search_with_generator : forall o p op j n g,
  problem p -> Z.of_nat (task_count p) < 2 ^ 32 -> small_rows p ->
  job_reached o p op j -> proper g ->
  forall fuel, 2 ^ 64 <= Z.of_nat fuel ->
  exists ks, length ks = n /\ Forall (fun k => in_unit (lk_uniform k)) ks /\
             agrees (fun j' g' => proper g' /\ plays o j g ks j' g')
                    (search_random fuel o n j g) (stun_run o j ks).
Proof.
  intros o p op j n g HP HT HR R P fuel HF.
  exact (search_agree fuel HF p HP HT HR o n j g (reached_inv o p op j HP R) P).
Qed.
Print Assumptions search_with_generator.

Example ex_search_with_generator : proper (seeded 42 109) /\
  Z.of_nat (task_count ex2_params) < 2 ^ 32 /\ small_rows ex2_params /\
  bind (search_random 9 step_exp 5 ex_j0 (seeded 42 109)) (fun r => Ok (job_schedule (fst r))) =
    Ok [Item 0 0; Item 1 1].
Proof.
  split; [apply seeded_proper; [lia|reflexivity]|]. split; [reflexivity|]. split.
  - assert (E : sp_agents ex2_params = [[0; 1]; [0; 1]]%nat) by (vm_compute; reflexivity).
    intros av H. rewrite E in H. destruct H as [<-|[<-|[]]]; reflexivity.
  - vm_compute. reflexivity.
Qed.

(** C81: with the contracts of the search met, the iterations succeed, and
    their result is determined by the state of the generator. *)
Theorem search_with_generator_succeeds : forall o p op j n g,
  problem p -> sane_numbers p -> finite_work p -> exp_sane o -> mean_sane o op -> sane_options op ->
  Z.of_nat (task_count p) < 2 ^ 32 -> small_rows p -> job_reached o p op j -> proper g ->
  exists j' g', job_reached o p op j' /\ proper g' /\
    (forall fuel, 2 ^ 64 <= Z.of_nat fuel -> search_random fuel o n j g = Ok (j', g')) /\
    forall fuel r, search_random fuel o n j g = Ok r -> r = (j', g').
Proof.
  intros o p op j n g HP HN HFW HE HM HO HT HR R P.
  assert (run : forall ks j0, job_reached o p op j0 -> exists j', stun_run o j0 ks = Ok j' /\ job_reached o p op j').
  { induction ks as [|k ks IH]; intros j0 R0; cbn [stun_run]; [exists j0; auto|].
    destruct (proj1 (proj2 (job_never_fails o p op HP HN HFW HE HM HO) j0 R0) k) as (j1 & E).
    rewrite E. cbn [bind]. apply IH. exact (jr_step _ _ _ _ _ _ R0 E). }
  assert (each : forall fuel, 2 ^ 64 <= Z.of_nat fuel -> exists j' g',
            search_random fuel o n j g = Ok (j', g') /\ job_reached o p op j' /\ proper g').
  { intros fuel HF. destruct (search_with_generator o p op j n g HP HT HR R P fuel HF) as (ks & _ & _ & A).
    destruct (run ks j R) as (j' & E & R'). rewrite E in A. cbn in A. destruct A as (g' & A & P' & _).
    exists j', g'. auto. }
  assert (B : exists big, 2 ^ 64 <= Z.of_nat big) by (exists (Z.to_nat (2 ^ 64)); rewrite Z2Nat.id; lia).
  destruct B as (big & HB). destruct (each big HB) as (j' & g' & A & R' & P').
  exists j', g'. split; [exact R'|]. split; [exact P'|].
  assert (U : forall fuel r, search_random fuel o n j g = Ok r -> r = (j', g')).
  { intros fuel r H. apply (search_more _ big) in H. apply (search_more _ fuel) in A.
    rewrite Nat.add_comm in A. congruence. }
  split; [|exact U]. intros fuel HF. destruct (each fuel HF) as (j2 & g2 & A2 & _).
  rewrite A2. f_equal. apply (U fuel), A2.
Qed.
Print Assumptions search_with_generator_succeeds.

Example ex_search_with_generator_succeeds :
  problem ex2_params /\ sane_numbers ex2_params /\ finite_work ex2_params /\ exp_sane step_exp /\
  mean_sane step_exp ex_options /\ sane_options ex_options /\
  job_reached step_exp ex2_params ex_options ex_j0.
Proof.
  split; [exact ex2_problem|]. split; [exact ex2_numbers|]. split; [exact ex2_finite|]. split; [exact step_exp_sane|].
  split; [exact ex_mean_sane|]. split; [exact ex_options_sane|]. apply jr_new, ex_j0_new.
Qed.
