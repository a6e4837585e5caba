(** * Property theorems C17 and C18: how loading ends, and what the later
      stages need *)

From Coq Require Import String Ascii List Bool Arith ZArith Lia Sorted Relations Reals Lra.
From Flocq Require Import Core BinarySingleNaN Mult_error.
From Verif Require Import Base F32 F32Facts ProjectModel YamlModel ValidationModel ValidationProofs DurationSpec DocumentSpec
  ScheduleSpec ScheduleModel ScheduleProofs NormaliseProofs LoadModel LoadSpec LoadProofs LoadTaskProofs LoadCycleProofs
  LayoutProofs LoadFacts LoadTotal LoadProps.
Import ListNotations.
Local Open Scope string_scope.
Local Open Scope nat_scope.

(** ** C17 *)

(** The loader terminates on every tree. *)
Theorem load_terminates : forall as_float d, load as_float d <> Unfinished.
Proof. exact load_ends. Qed.
Print Assumptions load_terminates.

(** A document without the peculiarities listed in [ordinary] loads or is
    rejected with a validation error.  The condition only matters for
    documents of the documented shape; all others are rejected.  Missing:
    peculiar documents, see [load_total_refuted]. *)
Theorem load_total_partial : forall as_float d,
  (document_shape d -> forall ags es, document_agents d ags -> document_tasks d es -> ordinary ags es) ->
  (exists p, load as_float d = Loads p) \/ (exists e, load as_float d = Rejects e).
Proof.
  intros as_float d OR.
  assert (F : fine (load as_float d)).
  { destruct (schema_accepts d) as (m & V & MI). destruct m as [m|].
    - unfold load. rewrite V. exact I.
    - apply fine_load. apply OR, MI. reflexivity. }
  destruct (load as_float d) as [p|e| | |]; try contradiction; [left; exists p|right; exists e]; reflexivity.
Qed.
Print Assumptions load_total_partial.

Lemma decimal_digits : forall ds acc k, (0 <= acc < 10 ^ k)%Z -> (0 <= k)%Z -> forallb is_digit ds = true ->
  (0 <= fold_left (fun acc c => 10 * acc + (Z.of_nat (nat_of_ascii c) - 48)) ds acc < 10 ^ (k + Z.of_nat (length ds)))%Z.
Proof.
  induction ds as [|c ds IH]; intros acc k A K D; cbn [fold_left length].
  - rewrite Z.add_0_r. exact A.
  - cbn [forallb] in D. apply andb_true_iff in D. destruct D as [D1 D2].
    unfold is_digit in D1. apply andb_true_iff in D1. destruct D1 as [L1 L2]. apply Nat.leb_le in L1, L2.
    replace (k + Z.of_nat (S (length ds)))%Z with ((k + 1) + Z.of_nat (length ds))%Z by lia.
    apply IH; [|lia|exact D2]. rewrite Z.pow_add_r by lia. lia.
Qed.

Lemma short_fits : forall t, length t <= 9 -> numbers_fit t.
Proof.
  intros t L a ds b -> D. rewrite !app_length in L. unfold decimal.
  pose proof (decimal_digits ds 0 0 ltac:(cbn; lia) ltac:(lia) D) as [_ X].
  assert (Y : (10 ^ (0 + Z.of_nat (length ds)) <= 10 ^ 9)%Z) by (apply Z.pow_le_mono_r; lia). change (10 ^ 9)%Z with 1000000000%Z in Y. lia.
Qed.

Ltac here H := let l := fresh "l" in let E := fresh "E" in let I := fresh "I" in
  destruct H as (l & E & I); first [discriminate E | injection E as <-; cbn in I; decompose [or] I; clear I; try contradiction; try congruence].

Example ex_ordinary : forall ags es, document_agents ex_doc ags -> document_tasks ex_doc es -> ordinary ags es.
Proof.
  intros ags es DA DT. pose proof ex_loads as H. facts H ags' es' F. pose proof (fa_shape _ _ _ _ _ F) as SH.
  pose proof (document_tasks_fun _ _ _ SH DT ex_flat) as ->.
  assert (DA' : document_agents ex_doc [(Scalar "Bob", Null);
          (Scalar "Jack", Map [
             (Scalar "groups", Seq [Scalar "B"; Scalar "A"]);
             (Scalar "performance", Map [(Scalar "min", Scalar "0.5"); (Scalar "max", Scalar "2")])])]) by field_here.
  pose proof (document_agents_fun _ _ _ SH DA DA') as ->. clear F C SH ags' es' H. constructor.
  - intros k v I. cbn in I. decompose [or] I; try contradiction; match goal with X : _ = (k, v) |- _ => injection X as <- _ end;
      eexists; (split; [reflexivity|discriminate]).
  - cbn. lia.
  - cbn. lia.
  - intros names M. destruct (loaded_groups _ _ _ _ _ _ ex_loads DA ex_flat M) as [G _].
    rewrite (proj1 ex_contents) in G. rewrite <- G. split; [|cbn; lia].
    intro X. apply first_mentions_In in X. rewrite <- G in X. cbn in X. decompose [or] X; try contradiction; discriminate.
  - intros e I T. cbn [In] in I. decompose [or] I; try contradiction; subst e; cbn [fst] in T; here T.
  - intros e lo hi I T. cbn [In] in I. decompose [or] I; try contradiction; subst e; cbn [fst] in T; clear I.
    all: destruct T as [(T & ->)|(r & R & A & B)]; [here T|here R];
      try (match goal with X : _ = (Scalar "duration", r) |- _ => injection X as <- end; here A; here B);
      repeat match goal with X : (_, Scalar _) = (_, Scalar _) |- _ => injection X as <- end;
      split; apply short_fits; cbn; lia.
Qed.

(** C17 as stated is false.  Contracts are violated by an agent with an
    empty name or a name that is no text, by an empty name of a group, by
    an empty list of dependencies and by a number that does not fit an
    [int]; indices overflow for 128 tasks, 129 agents or 129 groups. *)
Definition ex_of (ags : list (yaml * yaml)) (ts : list yaml) : yaml :=
  Map [(Scalar "agents", Map ags); (Scalar "tasks", Seq ts)].

Definition ex_task (more : list (yaml * yaml)) : yaml :=
  Map ((Scalar "name", Scalar "t") :: (Scalar "duration", Scalar "1h") :: more).

Definition ex_name (i : nat) : string := string_of_list_ascii (repeat "x"%char (S i)).

Theorem load_total_refuted :
  load ex_float (ex_of [(Scalar "", Null)] [ex_task []]) = Violates /\
  load ex_float (ex_of [(Seq [], Null)] [ex_task []]) = Violates /\
  load ex_float (ex_of [(Scalar "Bob", Map [(Scalar "groups", Seq [Scalar ""])])] [ex_task []]) = Violates /\
  load ex_float (ex_of [(Scalar "Bob", Null)] [ex_task [(Scalar "group", Scalar "")]]) = Violates /\
  load ex_float (ex_of [(Scalar "Bob", Null)] [ex_task [(Scalar "depends_on", Seq [])]]) = Violates /\
  load ex_float (ex_of [(Scalar "Bob", Null)]
    [Map [(Scalar "name", Scalar "t"); (Scalar "duration", Scalar "2147483648s")]]) = Violates /\
  load ex_float (ex_of [(Scalar "Bob", Null)] (repeat (ex_task []) 128)) = Throws /\
  load ex_float (ex_of (map (fun i => (Scalar (ex_name i), Null)) (seq 0 129)) [ex_task []]) = Throws /\
  load ex_float (ex_of [(Scalar "Bob", Null)] [ex_task [(Scalar "groups", Seq (map (fun i => Scalar (ex_name i)) (seq 0 129)))]]) = Throws.
Proof. vm_compute. do 8 (split; [reflexivity|]). reflexivity. Qed.
Print Assumptions load_total_refuted.

(** The limits are sharp: one less of each is fine. *)
Example ex_limits :
  loads (load ex_float (ex_of [(Scalar "Bob", Null)] (repeat (ex_task []) 127))) = true /\
  loads (load ex_float (ex_of (map (fun i => (Scalar (ex_name i), Null)) (seq 0 128)) [ex_task []])) = true /\
  loads (load ex_float (ex_of [(Scalar "Bob", Null)] [ex_task [(Scalar "groups", Seq (map (fun i => Scalar (ex_name i)) (seq 0 128)))]]))
    = true.
Proof. vm_compute. auto. Qed.

(** ** C18 *)

(** The sizes of a loaded project. *)
Theorem loaded_sizes : forall as_float d p, load as_float d = Loads p ->
  0 < length (pr_tasks p) <= 127 /\ 0 < length (pr_agents p) <= 128 /\ length (pr_groups p) <= 128.
Proof.
  intros as_float d p H. destruct (load_small _ _ _ H) as [[SA SG] ST]. facts H ags es F.
  destruct (fa_some _ _ _ _ _ F) as [NA NT]. destruct (pr_agents p); [congruence|]. destruct (pr_tasks p); [congruence|].
  cbn [length] in *. lia.
Qed.
Print Assumptions loaded_sizes.

Example ex_sizes : length (pr_tasks ex_loaded) = 4 /\ length (pr_agents ex_loaded) = 2 /\ length (pr_groups ex_loaded) = 3.
Proof. vm_compute. auto. Qed.

Lemma average_positive : forall q, f_lt f_zero (perf_min q) = true -> f_le (perf_min q) (perf_max q) = true ->
  exists a, perf_average q = Ok a /\ f_lt f_zero a = true.
Proof.
  intros q H1 H2. unfold perf_average. rewrite H1, H2. cbn [expects bind]. eexists. split; [reflexivity|].
  assert (P1 : pos (perf_min q)) by (apply pos_iff, H1).
  destruct (le_num _ _ H2) as [_ N2].
  rewrite le_key in H2 by (assumption || apply P1). apply Z.leb_le in H2.
  assert (P2 : pos (perf_max q)) by (split; [exact N2|destruct P1; lia]).
  set (lo := perf_min q) in *. set (hi := perf_max q) in *.
  destruct (add_nn lo hi (pos_nn _ P1) (pos_nn _ P2)) as [Na Va].
  apply pos_iff. destruct (num_cases _ Na) as [Fa| ->]; [|vm_compute; auto].
  destruct two_pos as (P & F & V). destruct (div_finite _ _ Na Fa P F) as [Nd Vd]. rewrite V in Vd.
  apply val_pos_pos; [exact Nd|]. rewrite Vd.
  assert (FL : is_finite lo = true).
  { destruct (num_cases _ (pos_nn _ P1)) as [X|X]; [exact X|].
    assert (Y : (key lo <= key (f_add lo hi))%Z) by (apply add_ge_l; apply pos_nn; assumption).
    rewrite X in Y at 1. pose proof (key_finite_lt _ Fa) as [_ Z2]. change (key (B754_infinity false)) with inf_key in Y. lia. }
  pose proof (pos_val _ P1) as VP.
  assert (Dbl : rnd (2 * val lo) = (2 * val lo)%R).
  { rewrite val_finite by exact FL. rewrite Rmult_comm. apply round_generic; [apply valid_rnd_N|].
    change 2%R with (bpow radix2 1%Z). apply (mult_bpow_pos_exact_FLT radix2 (-149)%Z 24%Z); [|lia]. apply generic_format_B2R. }
  assert (LE : (val lo <= val hi)%R) by (apply val_le_key; exact H2).
  assert (B128 : (val (f_add lo hi) < bpow radix2 128%Z)%R).
  { pose proof (key_finite_lt _ Fa) as [_ X]. rewrite <- (val_inf false). apply val_lt_key. exact X. }
  assert (GE : (2 * val lo <= val (f_add lo hi))%R).
  { rewrite Va in B128 |- *. unfold clamp in *. apply Rmin_case_strong; intro C.
    - rewrite <- Dbl. apply rnd_le. lra.
    - rewrite Rmin_right in B128 by exact C. lra. }
  apply Rlt_le_trans with (val lo); [exact VP|]. unfold clamp. apply Rmin_glb.
  - rewrite <- (rnd_val lo). apply rnd_le. lra.
  - pose proof (val_abs_le lo) as X. pose proof (Rle_abs (val lo)). lra.
Qed.

(** A loaded project can be handed to the later stages if no performance
    is not a number, no duration is zero and durations fit 64 bits: there
    are agents and tasks, all averages are positive, the parameters are
    computed without violating a contract, and the duration that
    normalises them is positive and finite.  If moreover every task has an
    able agent, the parameters describe a scheduling problem (the
    hypothesis of C23-C53).  Missing: durations of zero seconds, which
    load, and performances that are not numbers, see
    [loaded_predictable_refuted] and [loaded_performance_refuted]. *)
Theorem loaded_predictable_partial : forall as_float d p,
  (forall s x, as_float s = Some x -> is_nan x = false) ->
  load as_float d = Loads p ->
  (forall t, In t (pr_tasks p) -> (0 < tk_min t /\ tk_max t <= 2 ^ 63)%Z) ->
  pr_agents p <> [] /\ pr_tasks p <> [] /\
  (forall t, In t (pr_tasks p) -> exists z, duration_average t = Ok z /\ (0 < z)%Z) /\
  (forall a, In a (pr_agents p) -> exists q, perf_average (ag_perf a) = Ok q /\ f_lt f_zero q = true) /\
  exists ps, to_schedule_params p = Ok ps /\ f_lt f_zero (sp_mult ps) = true /\ is_finite (sp_mult ps) = true /\
    ((forall t, In t (pr_tasks p) -> exists a, In a (pr_agents p) /\ can_work_on a t = true) -> problem ps).
Proof.
  intros as_float d p NAN H DUR. pose proof (loaded_sizes _ _ _ H) as (ST & SA & _). pose proof H as H0. facts H0 ags es F.
  destruct (fa_some _ _ _ _ _ F) as [NA NT].
  assert (SD : sane_durations (pr_tasks p)).
  { intros t I. destruct (DUR t I) as [D1 D2]. apply In_nth_error in I. destruct I as (i & N).
    destruct (Forall2_nth _ _ _ _ _ (fa_tasks _ _ _ _ _ F) i t N) as (e & _ & M). pose proof (tm_order _ _ _ _ M). lia. }
  assert (DA : forall t, In t (pr_tasks p) -> exists z, duration_average t = Ok z /\ (0 < z)%Z).
  { intros t I. destruct (SD t I) as [D1 D2]. unfold duration_average.
    destruct (Z.ltb_spec 0 (tk_min t)); [|lia]. destruct (Z.leb_spec (tk_min t) (tk_max t)); [|lia]. cbn [expects bind].
    eexists. split; [reflexivity|]. apply Z.quot_str_pos. lia. }
  assert (PA : forall a, In a (pr_agents p) -> exists q, perf_average (ag_perf a) = Ok q /\ f_lt f_zero q = true).
  { intros a I. apply In_nth_error in I. destruct I as (i & N). destruct (nth_error ags i) as [e|] eqn:E.
    - destruct (loaded_performance_partial _ _ _ _ _ _ _ NAN H (fa_ags _ _ _ _ _ F) N E) as (_ & P1 & P2).
      exact (average_positive _ P1 P2).
    - exfalso. apply nth_error_None in E. rewrite <- (proj1 (fa_agents _ _ _ _ _ F)) in E. apply nth_error_None in E. congruence. }
  split; [exact NA|]. split; [exact NT|]. split; [exact DA|]. split; [exact PA|].
  destruct (normalise_ok (pr_tasks p) (length (pr_agents p)) NT ltac:(lia) SD ltac:(lia) ltac:(lia))
    as (norm & mult & TD & MP & MF & NF & N2 & _).
  assert (AP : exists ap, agent_performance (pr_agents p) = Ok ap /\ length ap = length (pr_agents p)).
  { unfold agent_performance.
    replace (negb match pr_agents p with [] => true | _ => false end) with true by (destruct (pr_agents p); [congruence|reflexivity]).
    cbn [expects bind]. clear - PA. induction (pr_agents p) as [|a l IH]; [exists []; split; reflexivity|].
    destruct (PA a (or_introl eq_refl)) as (q & Q & _). destruct IH as (ap & A & L); [intros b I; apply PA; right; exact I|].
    exists (q :: ap). cbn [map_outcome]. rewrite Q. cbn [bind]. rewrite A. cbn [bind length]. rewrite L. auto. }
  destruct AP as (ap & AP & LA).
  exists {| sp_perf := ap; sp_dur := norm; sp_agents := map (fun t => agents_for t (pr_agents p) 0) (pr_tasks p);
            sp_deps := map tk_deps (pr_tasks p); sp_mult := mult |}.
  split.
  { unfold to_schedule_params, available_agents, dependencies. rewrite TD, AP.
    destruct (pr_agents p); [congruence|]. destruct (pr_tasks p); [congruence|]. reflexivity. }
  split; [apply pos_iff; exact MP|]. split; [exact MF|]. intro ABLE.
  assert (LN : length norm = length (pr_tasks p)) by exact (Forall2_same_length _ _ _ _ _ N2).
  destruct (fa_es _ _ _ _ _ F) as (l & kids & _ & LAY).
  pose proof (Forall2_same_length _ _ _ _ _ (fa_tasks _ _ _ _ _ F)) as LE.
  assert (DEP : forall i j, depends_in (map tk_deps (pr_tasks p)) i j ->
    exists t, nth_error (pr_tasks p) i = Some t /\ In j (tk_deps t)).
  { intros i j (r & N & I). rewrite nth_error_map in N. destruct (nth_error (pr_tasks p) i) as [t|]; [|discriminate N].
    cbn in N. injection N as <-. exists t. auto. }
  constructor; unfold task_count, depends, allowed; cbn [sp_dur sp_agents sp_deps sp_perf].
  - lia.
  - rewrite map_length. lia.
  - rewrite map_length. lia.
  - intros i j D. destruct (DEP i j D) as (t & N & I). apply (proj2 (fa_deps _ _ _ _ _ F i t N)) in I.
    pose proof (depends_range _ _ _ _ _ LAY I). lia.
  - apply Forall_forall. intros x I. apply in_map_iff in I. destruct I as (t & <- & I). apply In_nth_error in I.
    destruct I as (i & N). exact (proj1 (fa_deps _ _ _ _ _ F i t N)).
  - intros i L. rewrite LN in L. destruct (nth_error (pr_tasks p) i) as [t|] eqn:N; [|apply nth_error_None in N; lia].
    destruct (ABLE t (nth_error_In _ _ N)) as (a & IA & CW). apply In_nth_error in IA. destruct IA as (k & K).
    exists k, (agents_for t (pr_agents p) 0). split; [rewrite nth_error_map, N; reflexivity|].
    apply agents_for_In. exists k, a. auto.
  - intros i k (r & N & I). rewrite nth_error_map in N. destruct (nth_error (pr_tasks p) i) as [t|]; [|discriminate N].
    cbn in N. injection N as <-. apply agents_for_In in I. destruct I as (j & a & -> & A & _). rewrite LA.
    apply nth_error_Some. cbn. congruence.
  - pose proof (check_for_cycles_spec (pr_tasks p) NT) as S. rewrite C in S. exact S.
Qed.
Print Assumptions loaded_predictable_partial.

Example ex_predictable :
  forallb (fun t => (0 <? tk_min t)%Z && (tk_max t <=? 2 ^ 63)%Z) (pr_tasks ex_loaded) = true /\
  forallb (fun t => existsb (fun a => can_work_on a t) (pr_agents ex_loaded)) (pr_tasks ex_loaded) = true.
Proof. vm_compute. auto. Qed.

(** C18 as stated is false: a duration of zero seconds loads, and the
    computation of its average violates a contract. *)
Theorem loaded_predictable_refuted : exists p,
  load ex_float (ex_of [(Scalar "Bob", Null)] [Map [(Scalar "name", Scalar "t"); (Scalar "duration", Scalar "0s")]]) = Loads p /\
  map duration_average (pr_tasks p) = [Broken] /\ to_schedule_params p = Broken.
Proof. eexists. split; [apply loads_loaded; vm_compute; reflexivity|]. vm_compute. auto. Qed.
Print Assumptions loaded_predictable_refuted.
