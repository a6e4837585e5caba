(** * Simulations that draw from the generator (C83) *)

From Coq Require Import List ZArith Bool Arith Lia Reals Lra.
From Flocq Require Import Core BinarySingleNaN.
From Verif Require Import Base F32 F32Facts F32Signed NormaliseProofs ProjectModel ScheduleModel ScheduleSpec
  ScheduleProofs ScheduleProps MakespanModel TimelineSpec MakespanProofs MutatorProps MakespanProps
  OptimizerProofs HistogramModel HistogramSpec HistogramProofs StatsProofs HistogramProps SimulationModel
  SimulationSpec SimulationProofs SimulationProps RandomModel RandomSpec RandomProofs RandomProps NormalModel
  NormalFloats NormalWindow NormalSpec NormalProofs.
Import ListNotations.
Local Open Scope Z_scope.

(** C83: [RandomUtils::normal] ends for every generator and every pair of
    bounds that meets its contract, whatever [std::exp] answers, after at
    most 2^64 + 5 numbers of the generator; the result does not depend on the
    fuel. *)
Theorem normal_draw_ends : forall exp lo hi g,
  proper g -> f_lt lo hi = true -> f_le f_zero lo = true ->
  exists x n, (0 < n)%nat /\ Z.of_nat n <= 2 ^ 64 + 5 /\
    forall fuel, 2 ^ 64 + 5 <= Z.of_nat fuel -> draw_normal fuel exp lo hi g = Ok (x, steps n g).
Proof. exact normal_total. Qed.
Print Assumptions normal_draw_ends.

(** A generator; bounds one half and one. *)
Definition ex_g : generator := seeded 42 109.
Definition ex_half : f32 := f_div f_one (f_of_Z 2).

Example ex_g_proper : proper ex_g.
Proof. apply seeded_proper; [lia|reflexivity]. Qed.

Example ex_normal_draw_ends : f_lt ex_half f_one = true /\ f_le f_zero ex_half = true /\
  (exists x n, forall fuel, 2 ^ 64 + 5 <= Z.of_nat fuel -> draw_normal fuel (fun x => x) ex_half f_one ex_g = Ok (x, steps n ex_g)).
Proof.
  assert (A : f_lt ex_half f_one = true) by (vm_compute; reflexivity). assert (B : f_le f_zero ex_half = true) by (vm_compute; reflexivity).
  split; [exact A|]. split; [exact B|].
  destruct (normal_draw_ends (fun x => x) ex_half f_one ex_g ex_g_proper A B) as (x & n & _ & _ & E). exists x, n. exact E.
Qed.

(** C83: the loop that draws until the number is positive
    (simulation.cpp:144-145 and 173-175) ends too, for bounds of a size that
    occurs in practice; the number is positive and finite. *)
Theorem positive_draw_ends : forall exp lo hi g,
  proper g -> f_lt lo hi = true -> f_le f_zero lo = true -> moderate_bound hi ->
  exists x n, (0 < n)%nat /\ Z.of_nat n <= 2 ^ 64 + 5 /\ f_lt f_zero x = true /\ is_finite x = true /\
    forall fuel, 2 ^ 64 + 5 <= Z.of_nat fuel -> positive_random fuel exp lo hi g = Ok (x, steps n g).
Proof.
  intros exp lo hi g P L1 L2 M. destruct (positive_total exp lo hi g P L1 L2 M) as (x & n & A & B & C).
  assert (BIG : 2 ^ 64 + 5 <= Z.of_nat (Z.to_nat (2 ^ 64 + 5))) by (rewrite Z2Nat.id; lia).
  destruct (positive_logged exp lo hi M _ _ _ _ P (C _ BIG)) as (bad & _ & _ & X & FX & _).
  exists x, n. auto 6.
Qed.
Print Assumptions positive_draw_ends.

Lemma moderate_Z : forall z, 1 <= z <= 2 ^ 24 -> moderate_bound (f_of_Z z).
Proof.
  intros z H. destruct (of_Z_exact z) as [F E]; [lia|]. split; [exact F|]. rewrite E.
  assert (bpow radix2 (-96) <= 1)%R by (change 1%R with (bpow radix2 0); apply bpow_le; lia).
  assert (IZR (2 ^ 24) <= bpow radix2 96)%R by (change (IZR (2 ^ 24)) with (bpow radix2 24); apply bpow_le; lia).
  assert (1 <= IZR z <= IZR (2 ^ 24))%R by (split; apply IZR_le; lia). lra.
Qed.

(** With a lower bound of 0. *)
Example ex_positive_draw_ends : f_lt f_zero (f_of_Z 3) = true /\ f_le f_zero f_zero = true /\
  (exists x n, f_lt f_zero x = true /\
    forall fuel, 2 ^ 64 + 5 <= Z.of_nat fuel -> positive_random fuel (fun x => x) f_zero (f_of_Z 3) ex_g = Ok (x, steps n ex_g)).
Proof.
  assert (A : f_lt f_zero (f_of_Z 3) = true) by (vm_compute; reflexivity). assert (B : f_le f_zero f_zero = true) by (vm_compute; reflexivity).
  split; [exact A|]. split; [exact B|].
  destruct (positive_draw_ends (fun x => x) f_zero (f_of_Z 3) ex_g ex_g_proper A B) as (x & n & _ & _ & X & _ & E); [apply moderate_Z; lia|].
  exists x, n. auto.
Qed.

(** Not for all bounds that meet the contract of [RandomUtils::normal]: with
    the bounds 0 and 2^-149, the smallest positive [float], the mean and the
    deviation are both rounded to 0, every number drawn is 0, and the loop
    never ends. *)
Definition least_float : f32 := binary_normalize 24 128 eq_refl eq_refl mode_NE 1 (-149) false.

Lemma zero_value : forall n : f32, is_finite n = true ->
  f_le (f_add (f_mul n (f_div (f_sub least_float f_zero) (f_of_Z 4))) (midpoint f_zero least_float)) f_zero = true.
Proof.
  intros n F.
  assert (S : f_div (f_sub least_float f_zero) (f_of_Z 4) = f_zero) by (apply B2SF_inj; vm_compute; reflexivity).
  assert (M : midpoint f_zero least_float = f_zero) by (apply B2SF_inj; vm_compute; reflexivity).
  rewrite S, M. destruct zero_fin as [FZ EZ].
  destruct (mul_fin n f_zero F FZ) as [A1 A2].
  { rewrite EZ, Rmult_0_r, Rabs_R0. apply bpow_ge_0. }
  rewrite EZ, Rmult_0_r, rnd_0 in A2.
  destruct (add_fin (f_mul n f_zero) f_zero A1 FZ) as [B1 B2].
  { rewrite A2, EZ, Rplus_0_r, Rabs_R0. apply bpow_ge_0. }
  apply fin_le; [exact B1|exact FZ|]. rewrite B2, A2, EZ, Rplus_0_r, rnd_0. lra.
Qed.

Theorem positive_draw_ends_refuted :
  f_lt f_zero least_float = true /\ f_le f_zero f_zero = true /\
  forall exp g fuel, proper g -> positive_random fuel exp f_zero least_float g = NoFuel.
Proof.
  assert (A : f_lt f_zero least_float = true) by (vm_compute; reflexivity).
  assert (B : f_le f_zero f_zero = true) by (vm_compute; reflexivity).
  split; [exact A|]. split; [exact B|]. intros exp g fuel. revert g.
  induction fuel as [|fuel IH]; intros g P; [reflexivity|]. cbn [positive_random]. set (fuel1 := S fuel). unfold draw_normal.
  rewrite A, B. cbn [expects bind]. cbv zeta.
  destruct (draw_unit_normal fuel1 exp g) as [[n g1]| |] eqn:D; cbn [bind fst snd].
  - destruct (unit_normal_finite _ _ _ _ _ P D) as [[FN _] P1]. rewrite (zero_value n FN). apply IH, P1.
  - exfalso. exact (unit_normal_never_breaks _ _ _ D).
  - reflexivity.
Qed.
Print Assumptions positive_draw_ends_refuted.

(** C83: a run of a simulation that draws from the generator is a run with
    the numbers drawn.  [log] are the calls of [RandomUtils::normal] in
    order; the values used are those sampled with these calls; the result,
    the object and the failure are those of the run that gets these numbers;
    the generator goes on after the last of them. *)
Theorem simulation_with_generator : forall exp p s l g,
  proper g -> positive_bounds p -> moderate_performances p -> sim_reached p s ->
  exists log perfs durs g',
    called exp g log g' /\ proper g' /\ finite_draws (map snd log) /\
    logged (agent_bounds p ++ task_bounds p) log (perfs ++ durs) /\
    length perfs = length (pr_agents p) /\ length durs = length (pr_tasks p) /\
    (forall fuel rest, 2 ^ 64 + 5 <= Z.of_nat fuel ->
      sim_run_random fuel exp s l g =
        (r <- sim_run s l (map snd log ++ rest) ;; Ok ((sr_makespan r, sr_state r), g'))) /\
    (forall rest r, sim_run s l (map snd log ++ rest) = Ok r ->
      si_perf (sr_state r) = perfs /\ si_dur (sr_state r) = durs /\ sr_draws r = rest).
Proof.
  intros exp p s l g P B M H.
  destruct (run_linked exp p s l g P B M H) as (log & perfs & durs & g' & A1 & A2 & A3 & A4 & A5 & A6 & _ & A8 & A9).
  exists log, perfs, durs, g'. auto 10.
Qed.
Print Assumptions simulation_with_generator.

Example ex_moderate_performances : moderate_performances ex_project.
Proof. apply Forall_forall. intros a [<-|[<-|[]]]; right; apply moderate_Z; lia. Qed.

Example ex_simulation_with_generator : exists log g', called (fun x => x) ex_g log g' /\
  forall fuel, 2 ^ 64 + 5 <= Z.of_nat fuel ->
    sim_run_random fuel (fun x => x) ex_sim [Item 2 0; Item 1 1; Item 0 1] ex_g =
      (r <- sim_run ex_sim [Item 2 0; Item 1 1; Item 0 1] (map snd log) ;; Ok ((sr_makespan r, sr_state r), g')).
Proof.
  destruct (simulation_with_generator (fun x => x) ex_project ex_sim [Item 2 0; Item 1 1; Item 0 1] ex_g
    ex_g_proper ex_positive_bounds ex_moderate_performances (sr_new _ _ ex_sim_ok)) as (log & _ & _ & g' & C & _ & _ & _ & _ & _ & R & _).
  exists log, g'. split; [exact C|]. intros fuel F. rewrite (R fuel [] F), app_nil_r. reflexivity.
Qed.

(** C83: such a run succeeds for every valid schedule, unless the makespan
    is too large for the 64 bit result. *)
Theorem simulation_with_generator_succeeds : forall exp p p0 s l g,
  proper g -> to_schedule_params p = Ok p0 -> problem p0 -> positive_bounds p -> moderate_performances p ->
  valid_schedule p0 l -> sim_reached p s ->
  exists perfs durs m, makespan (under p0 perfs durs) l = Ok m /\
    (forall z fuel, whole_seconds m z -> z < 2 ^ 63 -> 2 ^ 64 + 5 <= Z.of_nat fuel ->
     exists s' g', sim_run_random fuel exp s l g = Ok ((z, s'), g') /\ sim_reached p s' /\ proper g' /\
       si_perf s' = perfs /\ si_dur s' = durs).
Proof.
  intros exp p p0 s l g P HE HP HB M V H.
  destruct (run_linked exp p s l g P HB M H) as (log & perfs & durs & g' & _ & _ & _ & _ & P' & F & S & R & K).
  destruct (S []) as (mid & E1 & E2). rewrite app_nil_r in E1.
  destruct (params_shape p p0 HE HP) as (SD & SP & SL & ST).
  destruct (samples_drawn _ _ _ _ F E1) as [D1 F1]. destruct (samples_drawn _ _ _ _ F1 E2) as [D2 _].
  destruct (drawn_sane p _ perfs mid durs [] HB F1 D1 D2) as (L1 & L2 & P1 & P2).
  destruct (simulated p p0 HP SD SP SL perfs durs L1 L2 P1 P2 l V ST) as (m & s2 & EM & N & EL & EW).
  exists perfs, durs, m. split; [exact EM|]. intros z fuel W Z63 BIG.
  assert (LL : length l = length (pr_tasks p)).
  { destruct V as [V _ _]. apply Permutation.Permutation_length in V.
    rewrite map_length, seq_length in V. unfold task_count in V. congruence. }
  assert (Q : exists r, sim_run s l (map snd log ++ []) = Ok r /\ sr_makespan r = z).
  { rewrite app_nil_r, (run_fresh p s l _ (reached_shaped p s H)). unfold fresh_run.
    rewrite LL, Nat.eqb_refl. cbn [expects bind].
    change (map perf_bounds (pr_agents p)) with (agent_bounds p). rewrite E1. cbn [bind fst snd].
    change (map duration_bounds (pr_tasks p)) with (task_bounds p). rewrite E2. cbn [bind fst snd].
    rewrite EL. cbn [bind]. rewrite EW, (whole_to_rep m z N W Z63). cbn [bind]. eexists. split; reflexivity. }
  destruct Q as (r & Q & <-). destruct (K _ _ Q) as (K1 & K2 & _).
  exists (sr_state r), g'. split; [rewrite (R fuel [] BIG), Q; reflexivity|].
  split; [eapply sr_run; eassumption|]. auto.
Qed.
Print Assumptions simulation_with_generator_succeeds.

Example ex_simulation_with_generator_succeeds : exists m,
  forall z fuel, whole_seconds m z -> z < 2 ^ 63 -> 2 ^ 64 + 5 <= Z.of_nat fuel ->
    exists s' g', sim_run_random fuel (fun x => x) ex_sim [Item 2 0; Item 1 1; Item 0 1] ex_g = Ok ((z, s'), g').
Proof.
  destruct (simulation_with_generator_succeeds (fun x => x) ex_project ex_params ex_sim [Item 2 0; Item 1 1; Item 0 1] ex_g
    ex_g_proper ex_params_ok ex_problem ex_positive_bounds ex_moderate_performances (ex_valid 0 (or_introl eq_refl))
    (sr_new _ _ ex_sim_ok)) as (perfs & durs & m & _ & R).
  exists m. intros z fuel W Z63 F. destruct (R z fuel W Z63 F) as (s' & g' & E & _). exists s', g'. exact E.
Qed.

(** The run of the example, computed with little fuel: 2168 seconds. *)
Example ex_run_random : (r <- sim_run_random 20 (fun x => x) ex_sim [Item 2 0; Item 1 1; Item 0 1] ex_g ;; Ok (fst (fst r))) = Ok 2168.
Proof. vm_compute. reflexivity. Qed.

(** C83: runs one after the other with one generator and one object are
    runs with the numbers drawn, each going on where the one before
    stopped. *)
Theorem runs_with_generator : forall exp p l fuel n s g zs s' g',
  proper g -> positive_bounds p -> moderate_performances p -> sim_reached p s -> 2 ^ 64 + 5 <= Z.of_nat fuel ->
  sim_runs_random n fuel exp s l g = Ok ((zs, s'), g') ->
  exists log, called exp g log g' /\ proper g' /\ finite_draws (map snd log) /\ length zs = n /\ sim_reached p s' /\
    forall rest, successive_runs p l (map snd log ++ rest) zs rest.
Proof.
  intros exp p l fuel. induction n as [|n IH]; intros s g zs s' g' P B M H F E; cbn [sim_runs_random] in E.
  - injection E as <- <- <-. exists []. split; [constructor|]. split; [exact P|]. split; [constructor|]. split; [reflexivity|].
    split; [exact H|]. intro rest. constructor.
  - destruct (run_linked exp p s l g P B M H) as (log & perfs & durs & g1 & A1 & _ & _ & _ & P1 & F1 & _ & R & K).
    destruct (sim_run s l (map snd log ++ [])) as [r| |] eqn:Q.
    + rewrite (R fuel [] F), Q in E. cbn [bind fst snd] in E.
      assert (H1 : sim_reached p (sr_state r)) by (eapply sr_run; eassumption).
      destruct (sim_runs_random n fuel exp (sr_state r) l g1) as [[[zs1 s1] g2]| |] eqn:E1; try discriminate E. cbn [bind fst snd] in E.
      assert (Z : zs = sr_makespan r :: zs1 /\ s' = s1 /\ g' = g2) by (split; [|split]; congruence).
      destruct Z as (-> & -> & ->).
      destruct (IH _ _ _ _ _ P1 B M H1 F E1) as (log2 & C & P2 & F2 & L & H2 & U).
      exists (log ++ log2). split; [eapply called_app; eassumption|]. split; [exact P2|]. rewrite map_app.
      split; [apply Forall_app; split; assumption|]. split; [cbn [length]; congruence|]. split; [exact H2|].
      intro rest. rewrite <- app_assoc.
      pose proof (R fuel (map snd log2 ++ rest) F) as R2. rewrite (R fuel [] F), Q in R2. cbn [bind] in R2.
      destruct (sim_run s l (map snd log ++ map snd log2 ++ rest)) as [r2| |] eqn:Q2; try discriminate R2. cbn [bind] in R2.
      assert (Z : sr_makespan r = sr_makespan r2) by congruence. rewrite Z.
      econstructor; [exact H|exact Q2|]. destruct (K _ _ Q2) as (_ & _ & ->). apply U.
    + rewrite (R fuel [] F), Q in E. discriminate E.
    + rewrite (R fuel [] F), Q in E. discriminate E.
Qed.
Print Assumptions runs_with_generator.

(** Two runs, computed with little fuel; with more fuel the results are the
    same. *)
Example ex_runs_random : exists s' g', forall fuel, 2 ^ 64 + 5 <= Z.of_nat fuel ->
  sim_runs_random 2 fuel (fun x => x) ex_sim [Item 2 0; Item 1 1; Item 0 1] ex_g = Ok (([2168; 5380], s'), g').
Proof.
  assert (E : (r <- sim_runs_random 2 20 (fun x => x) ex_sim [Item 2 0; Item 1 1; Item 0 1] ex_g ;; Ok (fst (fst r))) = Ok [2168; 5380])
    by (vm_compute; reflexivity).
  destruct (sim_runs_random 2 20 (fun x => x) ex_sim [Item 2 0; Item 1 1; Item 0 1] ex_g) as [[[zs s'] g']| |] eqn:D; try discriminate E.
  cbn [bind fst] in E. assert (Z : zs = [2168; 5380]) by congruence. subst zs.
  exists s', g'. intros fuel F. replace fuel with (20 + (fuel - 20))%nat by lia. apply runs_random_more, D.
Qed.
