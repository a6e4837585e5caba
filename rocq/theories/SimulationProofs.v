(** * Proofs about the simulation *)

From Coq Require Import String List ZArith Bool Arith Lia Reals Lra.
From Flocq Require Import Core BinarySingleNaN.
From Verif Require Import Base F32 F32Facts F32Signed NormaliseProofs ProjectModel ScheduleModel
  ScheduleSpec ScheduleProofs MakespanModel TimelineSpec MakespanProofs HistogramModel
  SimulationModel SimulationSpec.
Import ListNotations.

(** ** Sampling *)

Lemma not_le_pos : forall x : f32, is_finite x = true -> f_le x f_zero = false -> f_lt f_zero x = true.
Proof.
  intros x F H. apply fin_lt; [reflexivity|exact F|]. change (B2R f_zero) with 0%R.
  destruct (Rlt_le_dec 0 (B2R x)) as [L|L]; [exact L|].
  apply (fin_le x f_zero F eq_refl) in L. congruence.
Qed.

Lemma draw_positive_spec : forall lo hi draws x rest, finite_draws draws ->
  draw_positive lo hi draws = Ok (x, rest) ->
  f_lt f_zero x = true /\ is_finite x = true /\ finite_draws rest /\
  exists bad, draws = bad ++ x :: rest /\ Forall (fun y => f_le y f_zero = true) bad.
Proof.
  intros lo hi draws. induction draws as [|d draws IH]; intros x rest F E; cbn [draw_positive] in E.
  - unfold normal in E. destruct (f_lt lo hi); [|discriminate]. destruct (f_le f_zero lo); discriminate.
  - inversion F as [|? ? F1 F2]; subst. unfold normal in E.
    destruct (f_lt lo hi); [|discriminate]. destruct (f_le f_zero lo); [|discriminate].
    cbn [expects bind fst] in E. destruct (f_le d f_zero) eqn:D.
    + destruct (IH x rest F2 E) as (A & B & C & bad & G1 & G2). repeat split; auto.
      exists (d :: bad). subst draws. split; [reflexivity|]. constructor; assumption.
    + injection E as <- <-. repeat split; auto; [apply not_le_pos; assumption|].
      exists []. split; [reflexivity|constructor].
Qed.

Lemma sample_drawn : forall lo hi draws x rest, finite_draws draws ->
  sample lo hi draws = Ok (x, rest) -> drawn lo hi draws x rest /\ finite_draws rest.
Proof.
  intros lo hi draws x rest F E. unfold sample in E. destruct (f_eq lo hi) eqn:Q.
  - injection E as <- <-. split; [left; auto|exact F].
  - destruct (draw_positive_spec _ _ _ _ _ F E) as (A & _ & C & G). split; [right; auto|exact C].
Qed.

Lemma samples_drawn : forall bounds draws xs rest, finite_draws draws ->
  samples_for bounds draws = Ok (xs, rest) -> all_drawn bounds draws xs rest /\ finite_draws rest.
Proof.
  induction bounds as [|[lo hi] bounds IH]; intros draws xs rest F E; cbn [samples_for] in E.
  - injection E as <- <-. split; [constructor|exact F].
  - cbn [fst snd] in E. destruct (sample lo hi draws) as [[x mid]| |] eqn:S; try discriminate.
    cbn [bind fst snd] in E. destruct (samples_for bounds mid) as [[xs' rest']| |] eqn:Q; try discriminate.
    cbn [bind fst snd] in E. injection E as <- <-.
    destruct (sample_drawn _ _ _ _ _ F S) as [D1 F1]. destruct (IH _ _ _ F1 Q) as [D2 F2].
    split; [econstructor; eassumption|exact F2].
Qed.

(** With equal bounds nothing is drawn. *)
Lemma samples_certain : forall bounds draws, Forall (fun b => f_eq (fst b) (snd b) = true) bounds ->
  samples_for bounds draws = Ok (map fst bounds, draws).
Proof.
  induction bounds as [|[lo hi] bounds IH]; intros draws H; cbn [samples_for map]; [reflexivity|].
  inversion H as [|? ? H1 H2]; subst. cbn [fst snd] in *. unfold sample. rewrite H1. cbn [bind fst snd].
  rewrite IH by exact H2. reflexivity.
Qed.

(** Enough positive numbers are enough. *)
Lemma samples_total : forall bounds draws,
  Forall (fun b => f_le f_zero (fst b) = true /\ f_le (fst b) (snd b) = true) bounds ->
  Forall (fun x => f_lt f_zero x = true) draws -> length bounds <= length draws ->
  exists xs rest, samples_for bounds draws = Ok (xs, rest) /\
    Forall (fun x => f_lt f_zero x = true) rest /\ length draws <= length rest + length bounds.
Proof.
  induction bounds as [|[lo hi] bounds IH]; intros draws B D L; cbn [samples_for length] in *.
  - exists [], draws. repeat split; auto. lia.
  - inversion B as [|? ? [B1 B2] B3]; subst. cbn [fst snd] in *. unfold sample.
    destruct (f_eq lo hi) eqn:Q.
    + cbn [bind fst snd]. destruct (IH draws B3 D) as (xs & rest & E & A & C); [lia|].
      rewrite E. cbn [bind fst snd]. exists (lo :: xs), rest. repeat split; auto. lia.
    + destruct draws as [|d draws]; cbn [length] in L; [lia|].
      inversion D as [|? ? D1 D2]; subst. cbn [draw_positive]. unfold normal.
      assert (LT : f_lt lo hi = true).
      { destruct (le_num _ _ B2) as [N1 N2]. rewrite lt_key by assumption. rewrite le_key in B2 by assumption.
        rewrite eq_key in Q by assumption. apply Z.leb_le in B2. apply Z.eqb_neq in Q. apply Z.ltb_lt. lia. }
      rewrite LT, B1. cbn [expects bind fst].
      assert (ND : f_le d f_zero = false).
      { destruct (lt_num _ _ D1) as [N1 N2]. rewrite lt_key in D1 by assumption. rewrite le_key by assumption.
        apply Z.ltb_lt in D1. apply Z.leb_gt. exact D1. }
      rewrite ND. cbn [bind fst snd]. destruct (IH draws B3 D2) as (xs & rest & E & A & C); [lia|].
      rewrite E. cbn [bind fst snd]. exists (d :: xs), rest. repeat split; auto. cbn [length]. lia.
Qed.

Lemma all_drawn_length : forall bounds draws xs rest, all_drawn bounds draws xs rest ->
  length xs = length bounds.
Proof. induction 1; cbn [length]; congruence. Qed.

Lemma all_drawn_pos : forall bounds draws xs rest, all_drawn bounds draws xs rest ->
  Forall (fun b => f_lt f_zero (fst b) = true) bounds ->
  Forall2 (fun b x => f_lt f_zero x = true /\ (f_eq (fst b) (snd b) = true -> x = fst b)) bounds xs.
Proof.
  induction 1 as [|lo hi bounds draws x mid xs rest D A IH]; intro P; [constructor|].
  inversion P as [|? ? P1 P2]; subst. cbn [fst snd] in *. constructor; [|apply IH, P2].
  cbn [fst snd]. destruct D as [(D1 & -> & _)|(D1 & D2 & _)].
  - auto.
  - split; [exact D2|]. congruence.
Qed.

(** Values drawn from finite numbers with finite bounds are finite. *)
Lemma all_drawn_finite : forall bounds draws xs rest, all_drawn bounds draws xs rest ->
  finite_draws draws -> Forall (fun b : f32 * f32 => is_finite (fst b) = true) bounds ->
  Forall (fun x : f32 => is_finite x = true) xs.
Proof.
  induction 1 as [|lo hi bounds draws x mid xs rest D A IH]; intros F P; [constructor|].
  inversion P as [|? ? P1 P2]; subst. cbn [fst] in P1. destruct D as [(_ & -> & ->)|(_ & _ & bad & E & _)].
  - constructor; [exact P1|]. apply IH; assumption.
  - subst draws. apply Forall_app in F. destruct F as [_ F]. inversion F; subst.
    constructor; [assumption|]. apply IH; assumption.
Qed.

(** ** Shape of the buffers *)

Record shaped (p : project) (s : simulation) : Prop := {
  sh_config : si_config s = p;
  sh_agents : 0 < length (pr_agents p);
  sh_tasks : 0 < length (pr_tasks p);
  sh_perf : length (si_perf s) = length (pr_agents p);
  sh_dur : length (si_dur s) = length (pr_tasks p);
  sh_work : length (si_work s) = length (pr_agents p);
  sh_done : length (si_done s) = length (pr_tasks p)
}.

Lemma assign_shaped : forall p old s, assign_buffers p old = Ok s -> shaped p s.
Proof.
  intros p old s E. unfold assign_buffers in E.
  destruct (Nat.eqb_spec (length (pr_agents p)) 0) as [|A]; [discriminate|].
  destruct (Nat.eqb_spec (length (pr_tasks p)) 0) as [|B]; [discriminate|].
  cbn [negb expects bind] in E. injection E as <-.
  set (na := length (pr_agents p)) in *. set (nt := length (pr_tasks p)) in *.
  set (size := na * 2 + nt * 2) in *.
  assert (L : length (firstn size (old ++ repeat f_zero size)) = size).
  { apply firstn_length_le. rewrite app_length, repeat_length. lia. }
  set (buf := firstn size (old ++ repeat f_zero size)) in *. clearbody buf.
  split; cbn [si_config si_perf si_dur si_work si_done]; fold na nt; try lia; try reflexivity;
    rewrite firstn_length, ?skipn_length; unfold size in L; lia.
Qed.

Lemma set_nth_length : forall A (l : list A) i a, length (set_nth l i a) = length l.
Proof. induction l as [|x l IH]; intros [|i] a; cbn; auto. Qed.

Lemma step_shaped : forall p s x s', shaped p s -> sim_step s x = Ok s' ->
  shaped p s' /\ si_perf s' = si_perf s /\ si_dur s' = si_dur s.
Proof.
  intros p s x s' H E. unfold sim_step in E.
  destruct (at_index (pr_tasks (si_config s)) (it_task x)); try discriminate. cbn [bind] in E.
  destruct (sim_dependencies_done s _); try discriminate. cbn [bind] in E.
  destruct (at_index (si_work s) (it_agent x)); try discriminate. cbn [bind] in E.
  destruct (sim_task_duration s _ _); try discriminate. cbn [bind] in E.
  destruct (at_index (si_done s) (it_task x)); try discriminate. cbn [bind] in E.
  injection E as <-. split; [|auto].
  destruct H. split; cbn [si_config si_perf si_dur si_work si_done]; rewrite ?set_nth_length; auto.
Qed.

Lemma loop_shaped : forall p l s s', shaped p s -> sim_loop s l = Ok s' ->
  shaped p s' /\ si_perf s' = si_perf s /\ si_dur s' = si_dur s.
Proof.
  intros p. induction l as [|x l IH]; intros s s' H E; cbn [sim_loop] in E.
  - injection E as <-. auto.
  - destruct (sim_step s x) as [s1| |] eqn:Q; try discriminate. cbn [bind] in E.
    destruct (step_shaped p s x s1 H Q) as (A & B & C). destruct (IH s1 s' A E) as (A' & B' & C').
    repeat split; try congruence; apply A'.
Qed.

Lemma samples_length : forall bounds draws r, samples_for bounds draws = Ok r ->
  length (fst r) = length bounds.
Proof.
  induction bounds as [|b bounds IH]; intros draws r E; cbn [samples_for] in E.
  - injection E as <-. reflexivity.
  - destruct (sample (fst b) (snd b) draws) as [[x mid]| |]; try discriminate. cbn [bind snd fst] in E.
    destruct (samples_for bounds mid) as [[xs rest]| |] eqn:Q; try discriminate. cbn [bind fst snd] in E.
    injection E as <-. cbn [fst length]. f_equal. apply (IH _ _ Q).
Qed.

(** A run in terms of the project alone. *)
Definition fresh_run (p : project) (l : list item) (draws : list f32) : outcome sim_result :=
  _ <- expects (length l =? length (pr_tasks p)) ;;
  perfs <- samples_for (map perf_bounds (pr_agents p)) draws ;;
  durs <- samples_for (map duration_bounds (pr_tasks p)) (snd perfs) ;;
  s2 <- sim_loop {| si_config := p; si_perf := fst perfs; si_dur := fst durs;
                    si_work := repeat f_zero (length (pr_agents p));
                    si_done := repeat f_zero (length (pr_tasks p)) |} l ;;
  z <- to_rep (f_max_list f_zero (si_work s2)) ;;
  Ok {| sr_makespan := z; sr_state := s2; sr_draws := snd durs |}.

Lemma run_fresh : forall p s l draws, shaped p s -> sim_run s l draws = fresh_run p l draws.
Proof.
  intros p s l draws [C A T P D W N]. unfold sim_run, fresh_run, si_buffer.
  rewrite !app_length. rewrite P, D, W, N.
  unfold random_agent_performances, random_task_durations. cbn [si_config si_perf si_dur si_work si_done].
  rewrite !repeat_length, C, Nat.eqb_refl.
  destruct (Nat.eqb_spec (length (pr_agents p)) 0); [lia|].
  destruct (Nat.eqb_spec (length (pr_tasks p)) 0); [lia|].
  destruct (Nat.eqb_spec (length (pr_agents p) + (length (pr_tasks p) + (length (pr_agents p) + length (pr_tasks p)))) 0); [lia|].
  cbn [negb expects bind].
  destruct (length l =? length (pr_tasks p)); [|reflexivity]. cbn [expects bind].
  destruct (samples_for (map perf_bounds (pr_agents p)) draws) as [pf| |]; try reflexivity.
  cbn [bind]. rewrite Nat.eqb_refl. reflexivity.
Qed.

Lemma fresh_shaped : forall p l draws r, 0 < length (pr_agents p) -> 0 < length (pr_tasks p) ->
  fresh_run p l draws = Ok r -> shaped p (sr_state r).
Proof.
  intros p l draws r HA HT E. unfold fresh_run in E.
  destruct (length l =? length (pr_tasks p)); [|discriminate]. cbn [expects bind] in E.
  destruct (samples_for (map perf_bounds (pr_agents p)) draws) as [pf| |] eqn:Q1; try discriminate.
  cbn [bind] in E. destruct (samples_for (map duration_bounds (pr_tasks p)) (snd pf)) as [df| |] eqn:Q2; try discriminate.
  cbn [bind] in E. destruct (sim_loop _ l) as [s2| |] eqn:Q3; try discriminate. cbn [bind] in E.
  destruct (to_rep _) as [z| |]; try discriminate. cbn [bind] in E. injection E as <-. cbn [sr_state].
  apply samples_length in Q1, Q2. rewrite map_length in Q1, Q2.
  eapply loop_shaped; [|exact Q3].
  split; cbn [si_config si_perf si_dur si_work si_done]; rewrite ?repeat_length; auto.
Qed.

Lemma reached_shaped : forall p s, sim_reached p s -> shaped p s.
Proof.
  induction 1 as [p s E|p s l draws r H IH E|p s s' H IH E|p p' s s' H IH E].
  - apply (assign_shaped p [] s E).
  - rewrite (run_fresh p s l draws IH) in E. apply (fresh_shaped p l draws r); [apply IH|apply IH|exact E].
  - unfold sim_copy in E. destruct (negb _); [|discriminate]. cbn [expects bind] in E.
    rewrite (sh_config _ _ IH) in E. apply (assign_shaped p _ s' E).
  - unfold sim_rebind in E. destruct (negb _); [|discriminate]. cbn [expects bind] in E.
    destruct (negb _); [|discriminate]. cbn [expects bind] in E. apply (assign_shaped p' _ s' E).
Qed.

(** ** Refinement of the makespan evaluator *)

Section Refine.
Context (pr : project) (p0 : params) (HP : problem p0).
Context (HD : sp_deps p0 = map tk_deps (pr_tasks pr)).
Context (LA : length (sp_perf p0) = length (pr_agents pr)).
Context (LT : length (sp_dur p0) = length (pr_tasks pr)).
Context (perfs durs : list f32).
Context (LP : length perfs = length (pr_agents pr)) (LD : length durs = length (pr_tasks pr)).
Context (PP : Forall (fun x : f32 => f_lt f_zero x = true) perfs).
Context (PD : Forall (fun x : f32 => f_lt f_zero x = true /\ is_finite x = true) durs).

Let P := under p0 perfs durs.

Lemma under_problem : problem P.
Proof.
  destruct HP as [A B C D E F G H].
  split; unfold P, under, task_count, depends, allowed in *; cbn [sp_perf sp_dur sp_agents sp_deps];
    rewrite ?LD, ?LP; rewrite ?LT, ?LA in *; auto.
Qed.

Lemma under_sane : sane_numbers P.
Proof.
  split; cbn [P under sp_dur sp_perf].
  - eapply Forall_impl; [|exact PD]. cbn. intros d [X Y]. split; [exact Y|].
    apply nn_iff, pos_nn, pos_iff, X.
  - exact PP.
Qed.

Lemma under_valid : forall l, valid_schedule p0 l -> valid_schedule P l.
Proof.
  intros l [A B C]. split.
  - unfold task_count, P. cbn [under sp_dur]. unfold task_count in A. rewrite LD, <- LT. exact A.
  - exact B.
  - exact C.
Qed.

Definition related (s : simulation) (st : makespan_state) : Prop :=
  si_config s = pr /\ si_perf s = perfs /\ si_dur s = durs /\
  si_work s = mk_work st /\ si_done s = mk_task st /\
  length (si_work s) = length (pr_agents pr) /\ length (si_done s) = length (pr_tasks pr).

Lemma step_refines : forall s st x st', related s st -> 0 < length (pr_tasks pr) ->
  makespan_step P st x = Ok st' -> exists s', sim_step s x = Ok s' /\ related s' st'.
Proof.
  intros s st x st' (C & Q & D & W & N & LW & LN) T E. unfold makespan_step in E.
  unfold dependencies_done in E. cbn [P under sp_dur sp_deps] in E.
  destruct (Nat.ltb_spec (it_task x) (length durs)) as [X|X]; [|discriminate].
  cbn [expects bind] in E. unfold row in E. rewrite HD in E.
  unfold sim_step, sim_dependencies_done. rewrite C.
  destruct (at_index (pr_tasks pr) (it_task x)) as [t| |] eqn:AT.
  2:{ unfold at_index in AT. destruct (nth_error (pr_tasks pr) (it_task x)) eqn:NE; [discriminate|].
      apply nth_error_None in NE. rewrite LD in X. lia. }
  2:{ unfold at_index in AT. destruct (nth_error (pr_tasks pr) (it_task x)); discriminate. }
  assert (AD : at_index (map tk_deps (pr_tasks pr)) (it_task x) = Ok (tk_deps t)).
  { unfold at_index in *. rewrite nth_error_map. destruct (nth_error (pr_tasks pr) (it_task x)); [|discriminate].
    injection AT as ->. reflexivity. }
  rewrite AD in E. cbn [bind] in E |- *.
  destruct (Nat.eqb_spec (length (si_done s)) 0); [lia|]. cbn [negb expects bind].
  rewrite N.
  destruct (match tk_deps t with [] => Ok f_zero | _ :: _ => _ end) as [dd| |]; try discriminate.
  cbn [bind] in E |- *. rewrite W.
  destruct (at_index (mk_work st) (it_agent x)) as [w| |] eqn:AW; try discriminate. cbn [bind] in E |- *.
  unfold task_time in E. cbn [P under sp_dur sp_perf] in E.
  destruct (Nat.ltb_spec (it_task x) (length durs)); [|lia]. cbn [expects bind] in E.
  destruct (Nat.ltb_spec (it_agent x) (length perfs)) as [Y|Y]; [|discriminate]. cbn [expects bind] in E.
  unfold sim_task_duration. rewrite C, Q, D.
  destruct (Nat.ltb_spec (it_agent x) (length (pr_agents pr))); [|lia].
  destruct (Nat.ltb_spec (it_task x) (length (pr_tasks pr))); [|lia]. cbn [expects bind].
  rewrite (at_index_nth _ durs _ f_zero X) in E |- *. rewrite (at_index_nth _ perfs _ f_zero Y) in E |- *.
  cbn [bind] in E |- *.
  rewrite Forall_forall in PP, PD. rewrite (PP _ (nth_In perfs f_zero Y)).
  rewrite (proj1 (PD _ (nth_In durs f_zero X))). cbn [expects bind].
  destruct (at_index (mk_task st) (it_task x)) as [u| |]; try discriminate. cbn [bind] in E |- *.
  injection E as <-. eexists. split; [reflexivity|].
  unfold related. cbn [si_config si_perf si_dur si_work si_done mk_work mk_task].
  rewrite !set_nth_length. rewrite <- W, <- N. repeat split; auto.
Qed.

Lemma loop_refines : forall l s st st', related s st -> 0 < length (pr_tasks pr) ->
  makespan_loop P st l = Ok st' -> exists s', sim_loop s l = Ok s' /\ related s' st'.
Proof.
  induction l as [|x l IH]; intros s st st' R T E; cbn [makespan_loop sim_loop] in *.
  - injection E as <-. eauto.
  - destruct (makespan_step P st x) as [st1| |] eqn:Q; try discriminate. cbn [bind] in E.
    destruct (step_refines s st x st1 R T Q) as (s1 & E1 & R1). rewrite E1. cbn [bind].
    apply (IH s1 st1 st' R1 T E).
Qed.

Lemma simulated : forall l, valid_schedule p0 l -> 0 < length (pr_tasks pr) ->
  exists m s2, makespan P l = Ok m /\ nn m /\
    sim_loop {| si_config := pr; si_perf := perfs; si_dur := durs;
                si_work := repeat f_zero (length (pr_agents pr));
                si_done := repeat f_zero (length (pr_tasks pr)) |} l = Ok s2 /\
    f_max_list f_zero (si_work s2) = m.
Proof.
  intros l V T. pose proof (under_valid l V) as V'.
  destruct (makespan_ok P under_problem under_sane l V') as (m & tl & E & _ & N & _).
  exists m. pose proof E as E'. unfold makespan, makespan_new in E'. cbn [P under sp_perf sp_dur] in E'.
  destruct (length perfs =? 0); [discriminate|]. destruct (length durs =? 0); [discriminate|].
  cbn [negb expects bind] in E'. unfold makespan_eval in E'. cbn [mk_task mk_work] in E'.
  destruct (length l =? 0); [discriminate|]. cbn [negb expects bind] in E'.
  rewrite !repeat_length in E'. destruct (length l =? length durs); [|discriminate]. cbn [expects bind] in E'.
  fold P in E'.
  destruct (makespan_loop P _ l) as [st1| |] eqn:Q; try discriminate. cbn [bind] in E'.
  destruct (loop_refines l {| si_config := pr; si_perf := perfs; si_dur := durs;
                si_work := repeat f_zero (length (pr_agents pr));
                si_done := repeat f_zero (length (pr_tasks pr)) |}
     {| mk_task := repeat f_zero (length durs); mk_work := repeat f_zero (length perfs) |} st1) as (s2 & E2 & R2).
  - unfold related. cbn. rewrite !repeat_length, LD, LP. repeat split; auto.
  - exact T.
  - exact Q.
  - exists s2. split; [exact E|]. split; [exact N|]. split; [exact E2|].
    destruct R2 as (_ & _ & _ & W & _). rewrite W.
    destruct (length (mk_work st1) =? 0); [discriminate|]. cbn [negb expects bind fst] in E'.
    injection E' as <-. reflexivity.
Qed.
End Refine.

(** ** Truncation *)

Lemma to_rep_whole : forall m z, nn m -> to_rep m = Ok z -> whole_seconds m z /\ (0 <= z < 2 ^ 63)%Z.
Proof.
  intros m z N E. unfold to_rep, f_trunc in E. destruct (is_finite m) eqn:F; [|discriminate].
  destruct ((- 2 ^ 63 <=? Btrunc m)%Z && (Btrunc m <? 2 ^ 63)%Z) eqn:B; [|discriminate].
  cbn [expects bind] in E. injection E as <-. apply andb_true_iff in B. destruct B as [_ B].
  apply Z.ltb_lt in B.
  assert (T : Btrunc m = Zfloor (B2R m)).
  { apply eq_IZR. rewrite Btrunc_correct by exact f32_prec_lt_emax. rewrite round_FIX_IZR.
    f_equal. apply Ztrunc_floor. rewrite <- val_finite by exact F. apply nn_val, N. }
  assert (P : (0 <= B2R m)%R) by (rewrite <- val_finite by exact F; apply nn_val, N).
  split; [split; [exact F|]|split; [|exact B]].
  - rewrite T, plus_IZR. split; [apply Zfloor_lb|apply Zfloor_ub].
  - rewrite T. apply Zfloor_lub. exact P.
Qed.

Lemma whole_to_rep : forall m z, nn m -> whole_seconds m z -> (z < 2 ^ 63)%Z -> to_rep m = Ok z.
Proof.
  intros m z N [F W] H. unfold to_rep, f_trunc. rewrite F.
  assert (P : (0 <= B2R m)%R) by (rewrite <- val_finite by exact F; apply nn_val, N).
  assert (T : Btrunc m = z).
  { apply eq_IZR. rewrite Btrunc_correct by exact f32_prec_lt_emax. rewrite round_FIX_IZR.
    f_equal. rewrite Ztrunc_floor by exact P. apply Zfloor_imp. exact W. }
  rewrite T.
  assert (Z0 : (0 <= z)%Z).
  { destruct W as [_ W]. assert (L : (0 < IZR (z + 1))%R) by lra. apply lt_IZR in L. lia. }
  destruct (Z.leb_spec (- 2 ^ 63) z); [|lia]. destruct (Z.ltb_spec z (2 ^ 63)); [|lia]. reflexivity.
Qed.
