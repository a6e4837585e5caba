(** * Property theorems C80: the rolling mean of the temperature *)

From Coq Require Import List ZArith Bool Arith Reals Lia Lra.
From Flocq Require Import Core BinarySingleNaN.
From Verif Require Import Base F32 F32Facts F32Signed ProjectModel ScheduleModel ScheduleSpec TimelineSpec
  TemperatureModel TemperatureSpec TemperatureProofs TemperatureProps StunModel SearchSpec StunProps
  OptimizerModel OptimizerSpec CurveSpec OptimizerProps RollingModel RollingSpec RollingProofs RollingRuns.
Import ListNotations.

(** C80, full statement: the rolling mean of tunneling energies is within
    a fixed small distance of the mean of the window, however many energies
    there are.  False, see [rolling_mean_refuted]: rounding errors pile
    up.  Proved here: the distance is at most [2 ^ -23] per energy, for up
    to [2 ^ 21] energies. *)
Theorem rolling_mean_partial : forall w l,
  (0 < w)%Z -> Forall in_unit l -> (Z.of_nat (length l) <= 2 ^ 21)%Z ->
  is_finite (rolling_mean w l) = true /\
  (Rabs (B2R (rolling_mean w l) - window_mean w l) <= INR (length l) * bpow radix2 (-23))%R.
Proof. exact rolling_error. Qed.
Print Assumptions rolling_mean_partial.

Definition ex_energies : list f32 := [f_of_Z 1; f_half; f_zero].

Example ex_energies_unit : Forall in_unit ex_energies.
Proof. repeat constructor; vm_compute; reflexivity. Qed.

(** For instance the rolling mean of 0, 1/2, 1 in a window of two. *)
Example ex_rolling_mean :
  (Rabs (B2R (rolling_mean 2 ex_energies) - window_mean 2 ex_energies) <= INR 3 * bpow radix2 (-23))%R /\
  f_eq (rolling_mean 2 ex_energies) (f_div (f_of_Z 3) (f_of_Z 4)) = true.
Proof.
  split; [|vm_compute; reflexivity].
  apply (rolling_mean_partial 2 ex_energies); [lia|exact ex_energies_unit|vm_compute; discriminate].
Qed.

(** ** The drift *)

(** Four energies whose repetition lowers the mean of a window of one by
    [2 ^ -24] each time. *)
Definition drift_cycle : list f32 :=
  [f_one; binary_normalize 24 128 _ _ mode_NE 30374580 (-27) false;
   binary_normalize 24 128 _ _ mode_NE 23627938 (-29) false; f_zero].

Definition drift_times : nat := Z.to_nat 5120.

(** The energies of the counterexample, oldest first. *)
Definition drift_energies : list f32 := concat (repeat drift_cycle drift_times).

Lemma drift_cycle_unit : Forall in_unit drift_cycle.
Proof. repeat constructor; vm_compute; reflexivity. Qed.

Lemma drift_unit : Forall in_unit drift_energies.
Proof.
  unfold drift_energies. apply Forall_forall. intros x H. apply in_concat in H. destruct H as (c & Hc & Hx).
  apply repeat_spec in Hc. subst c. pose proof drift_cycle_unit as F. rewrite Forall_forall in F. apply F, Hx.
Qed.

(** A temperature with window one and period one, followed by its value,
    its mean and its last energy only. *)
Definition drift_step (scale : f32) (st : f32 * f32 * f32) (s : f32) : f32 * f32 * f32 :=
  let '(v, m, last) := st in
  let m' := move_mean m last s 1 in
  (f_mul v (f_add f_one (f_mul (f_mul (f_mul (f_sub m' f_003) scale) f_one) f_one)), m', s).

Definition drift_ok (st : f32 * f32 * f32) : bool := f_le f_zero (fst (fst st)).

Fixpoint drift_run (scale : f32) (st : f32 * f32 * f32) (l : list f32) : option (f32 * f32 * f32) :=
  match l with
  | [] => Some st
  | s :: l' => let st' := drift_step scale st s in if drift_ok st' then drift_run scale st' l' else None
  end.

Definition shows_temp (scale : f32) (t : temperature) (st : f32 * f32 * f32) : Prop :=
  tp_value t = fst (fst st) /\ tp_window t = 1%Z /\ tp_mask t = 0%N /\ tp_scale t = scale /\
  rolling_mean 1 (tp_acc t) = snd (fst st) /\ exists l, tp_acc t = snd st :: l.

Lemma volatility_one : forall n, volatility n 0 = f_one.
Proof. intro n. unfold volatility, dampening. rewrite N.land_0_r. apply B2SF_inj. vm_compute. reflexivity. Qed.

Lemma drift_tracks : forall o scale t st s, shows_temp scale t st -> f_le f_zero s = true ->
  if drift_ok (drift_step scale st s)
  then exists t', temperature_update (with_rolling o) t s = Ok t' /\ shows_temp scale t' (drift_step scale st s)
  else temperature_update (with_rolling o) t s = Broken.
Proof.
  intros o scale t [[v m] last] s (V & W & K & SC & M & l & A) P. cbn [fst snd] in V, M, A.
  assert (R : rolling_mean 1 (s :: tp_acc t) = move_mean m last s 1).
  { cbn [rolling_mean]. rewrite M. unfold rolling_step. rewrite A. reflexivity. }
  unfold temperature_update, average_stun. rewrite P. cbn [expects bind with_rolling or_mean tp_acc tp_window].
  rewrite W, K, SC, V, R, volatility_one. cbn [drift_step]. unfold drift_ok. cbn [fst].
  destruct (f_le f_zero (f_mul v _)); cbn [expects bind]; [|reflexivity].
  eexists. split; [reflexivity|]. repeat split; cbn [tp_value tp_window tp_mask tp_scale tp_acc fst snd]; eauto.
Qed.

Lemma drift_run_none : forall o scale l t st, shows_temp scale t st -> Forall in_unit l ->
  drift_run scale st l = None -> temperature_run (with_rolling o) t l = Broken.
Proof.
  intros o scale. induction l as [|s l IH]; intros t st H F E; [discriminate|]. inversion F as [|? ? U F']; subst.
  cbn [drift_run] in E. pose proof (drift_tracks o scale t st s H (proj1 U)) as D. cbn [temperature_run].
  destruct (drift_ok (drift_step scale st s)).
  - destruct D as (t' & E1 & S1). rewrite E1. cbn [bind]. apply (IH t' _ S1 F' E).
  - rewrite D. reflexivity.
Qed.

Lemma rolling_fold : forall l last r, rolling_mean 1 (rev l ++ last :: r) =
  fst (fold_left (fun st s => (move_mean (fst st) (snd st) s 1, s)) l (rolling_mean 1 (last :: r), last)).
Proof.
  induction l as [|s l IH]; intros last r; cbn [rev fold_left fst snd]; [reflexivity|].
  rewrite <- app_assoc. change ([s] ++ last :: r) with (s :: (last :: r)). rewrite IH. reflexivity.
Qed.

(** The rolling mean of numbers between 0 and 1 can be less than
    [- 2 ^ -12]: after 20480 energies of which the last is 0, in a window of
    one, so the distance is really in proportion to the number of
    energies. *)
Theorem rolling_mean_refuted : exists w l,
  (0 < w)%Z /\ Forall in_unit l /\ l <> [] /\ window_mean w l = 0%R /\
  f_lt (rolling_mean w l) (binary_normalize 24 128 _ _ mode_NE (-1) (-12) false) = true.
Proof.
  exists 1%Z, (rev drift_energies ++ [f_zero]).
  split; [lia|]. split.
  { apply Forall_app. split; [apply Forall_rev, drift_unit|repeat constructor; vm_compute; reflexivity]. }
  split; [intro X; apply app_eq_nil in X; destruct X; discriminate|]. split.
  - unfold window_mean, drift_energies.
    assert (E : exists r, rev (concat (repeat drift_cycle drift_times)) = f_zero :: r).
    { replace drift_times with (Z.to_nat 5119 + 1) by (vm_compute; reflexivity).
      rewrite repeat_app, concat_app, rev_app_distr. cbn [repeat concat app rev drift_cycle]. eauto. }
    destruct E as (r & ->). change (Z.to_nat 1) with 1. cbn [app firstn exact_sum fold_right length].
    change (B2R f_zero) with 0%R. unfold Rdiv. rewrite Rplus_0_r. apply Rmult_0_l.
  - rewrite rolling_fold. vm_compute. reflexivity.
Qed.
Print Assumptions rolling_mean_refuted.

(** So the limit of C41 for an exact mean, about 33.3, is not safe: with a
    beta scale of 33, an exact mean can never break the contract of the
    temperature, the rolling mean does. *)
Theorem temperature_drift_refuted : exists scale t l,
  temperature_new scale 1 1 = Ok t /\ Forall in_unit l /\ scale_fits f_zero scale = true /\
  (forall o, mean_within f_zero o -> exists t', temperature_run o t l = Ok t') /\
  forall o, temperature_run (with_rolling o) t l = Broken.
Proof.
  set (t := {| tp_value := f_one; tp_window := 1; tp_acc := []; tp_scale := f_of_Z 33; tp_mask := 0 |}).
  assert (E : temperature_new (f_of_Z 33) 1 1 = Ok t).
  { unfold temperature_new. replace (f_lt f_zero (f_of_Z 33)) with true by (vm_compute; reflexivity). reflexivity. }
  assert (SF : scale_fits f_zero (f_of_Z 33) = true) by (vm_compute; reflexivity).
  exists (f_of_Z 33), t, (f_one :: drift_energies).
  assert (U : Forall in_unit (f_one :: drift_energies)).
  { constructor; [split; vm_compute; reflexivity|exact drift_unit]. }
  split; [exact E|]. split; [exact U|]. split; [exact SF|]. split.
  - intros o W. destruct (temperature_nonnegative_partial f_zero o (f_of_Z 33) 1 1 t (f_one :: drift_energies))
      as (t' & R & _); auto; [|lia|eauto].
    split; [reflexivity|]. change (B2R f_zero) with 0%R. lra.
  - intro o.
    (* the first energy by hand, the others by computation *)
    set (v1 := f_mul f_one (f_add f_one (f_mul (f_mul (f_mul (f_sub (rolling_mean 1 [f_one]) f_003) (f_of_Z 33)) f_one) f_one))).
    set (t1 := {| tp_value := v1; tp_window := 1; tp_acc := [f_one]; tp_scale := f_of_Z 33; tp_mask := 0 |}).
    assert (E1 : temperature_update (with_rolling o) t f_one = Ok t1).
    { unfold temperature_update, average_stun. cbn [tp_acc t with_rolling or_mean tp_window tp_mask tp_scale tp_value].
      rewrite volatility_one.
      replace (f_le f_zero f_one) with true by (vm_compute; reflexivity). cbn [expects bind].
      replace (f_le f_zero _) with true by (vm_compute; reflexivity). reflexivity. }
    cbn [temperature_run]. rewrite E1. cbn [bind].
    apply (drift_run_none o (f_of_Z 33) drift_energies t1 (v1, rolling_mean 1 [f_one], f_one)).
    + repeat split. exists []. reflexivity.
    + exact drift_unit.
    + vm_compute. reflexivity.
Qed.
Print Assumptions temperature_drift_refuted.

(** ** What follows for the temperature and for searches *)

Lemma quarter_value : is_finite quarter = true /\ B2R quarter = (/ 4)%R.
Proof.
  split; [reflexivity|]. unfold quarter, B2R, F2R. cbn [Defs.Fnum Defs.Fexp cond_Zopp].
  change (IZR 8388608) with (bpow radix2 23). rewrite <- bpow_plus. reflexivity.
Qed.

Lemma quarter_ok : error_ok quarter.
Proof. split; [reflexivity|]. rewrite (proj2 quarter_value). lra. Qed.

(** C41 with Boost's mean: for as many energies as the error [e] that the
    scale tolerates allows, the temperature stays non-negative. *)
Theorem rolling_temperature_partial : forall e o scale window period t l,
  error_ok e -> (INR (length l) * bpow radix2 (-23) <= B2R e)%R ->
  temperature_new scale window period = Ok t ->
  scale_fits e scale = true -> (period <= 2 ^ 62)%Z -> Forall in_unit l ->
  exists t', temperature_run (with_rolling o) t l = Ok t' /\ f_le f_zero (tp_value t') = true.
Proof.
  intros e o scale w q t l HE HL HN HS HQ F.
  change (bpow radix2 (-23)) with (/ 8388608)%R in HL. rewrite INR_IZR_INZ in HL.
  assert (L : (Z.of_nat (length l) <= 2 ^ 21)%Z).
  { apply le_IZR. change (IZR (2 ^ 21)) with 2097152%R. destruct HE as [_ HE]. lra. }
  pose proof (cut_within (Z.of_nat (length l)) e o HE L HL) as W.
  rewrite <- (temperature_run_agree (Z.of_nat (length l)) o).
  - apply (temperature_nonnegative_partial e (cut (Z.of_nat (length l)) o) scale w q t l HE W HN HS HQ F).
  - unfold temperature_new in HN. do 4 StunProofs.ok_step HN. injection HN as <-. cbn [tp_acc length]. lia.
Qed.
Print Assumptions rolling_temperature_partial.

(** With the default options the error of 1/4, so 2097152 energies, is
    tolerated. *)
Example ex_rolling_temperature :
  exists t', temperature_run (with_rolling step_exp) ex_temp [f_one; f_zero; f_half] = Ok t' /\
             f_le f_zero (tp_value t') = true.
Proof.
  apply (rolling_temperature_partial quarter step_exp f_one 100 256).
  - exact quarter_ok.
  - rewrite (proj2 quarter_value). change (bpow radix2 (-23)) with (/ 8388608)%R. cbn. lra.
  - exact ex_temp_ok.
  - vm_compute. reflexivity.
  - lia.
  - repeat constructor; vm_compute; reflexivity.
Qed.

(** C30, C35 with Boost's mean: in a search of at most [2 ^ 21] iterations
    per thread no update violates a contract, until the search has
    converged.  The assumption [mean_sane] of C30 and C35 is gone; the
    scale must tolerate an error of 1/4. *)
Theorem rolling_search_partial : forall o p op threads z ks n,
  problem p -> sane_numbers p -> finite_work p -> exp_sane o -> exp_nonneg o -> log_sane o ->
  sane_options op -> iteration_range op -> scale_fits quarter (op_scale op) = true ->
  optimizer_new (with_rolling o) p op threads = Ok z -> (Z.of_nat n * op_batch op <= 2 ^ 21)%Z ->
  (exists m, m <= n /\ loop_stops (with_rolling o) z ks m) \/
  (exists z', optimizer_run (with_rolling o) z ks n = Ok z' /\ has_converged z' = false).
Proof.
  intros o p op threads z ks n HP HN HF HE HX HL HO HI HS NEW B.
  assert (W : mean_sane (cut (2 ^ 21) o) op).
  { exists quarter. split; [exact quarter_ok|]. split; [|exact HS].
    apply cut_within; [exact quarter_ok|lia|]. rewrite (proj2 quarter_value). change (IZR (2 ^ 21)) with 2097152%R. lra. }
  destruct (new_young _ _ _ _ _ NEW) as [BP Y].
  destruct (update_loop_ends_partial (cut (2 ^ 21) o) p op threads z ks HP HN HF HE W HO HX HL HI) as (m & (S1 & S2)).
  { apply os_new. rewrite new_agree. exact NEW. }
  assert (AG : forall i, i <= n -> optimizer_run (cut (2 ^ 21) o) z ks i = optimizer_run (with_rolling o) z ks i).
  { intros i Hi. apply (optimizer_run_agree (2 ^ 21) o (op_batch op) z ks); [lia|exact Y|nia]. }
  destruct (le_lt_dec m n) as [L|L].
  - left. exists m. split; [exact L|]. split.
    + rewrite <- AG by exact L. exact S1.
    + intros i Hi. rewrite <- AG by lia. apply S2, Hi.
  - right. rewrite <- AG by lia. apply S2, L.
Qed.
Print Assumptions rolling_search_partial.

(** The hypotheses hold for the example of two tasks, and 1000 updates. *)
Example ex_rolling_search : exists z,
  optimizer_new (with_rolling step_exp) ex2_params ex_options 2 = Ok z /\
  ((exists m, m <= 1000 /\ loop_stops (with_rolling step_exp) z (fun _ => ex_ks) m) \/
   (exists z', optimizer_run (with_rolling step_exp) z (fun _ => ex_ks) 1000 = Ok z' /\ has_converged z' = false)).
Proof.
  exists ex_z0. assert (E : optimizer_new (with_rolling step_exp) ex2_params ex_options 2 = Ok ex_z0) by exact ex_z0_new.
  split; [exact E|].
  apply (rolling_search_partial step_exp ex2_params ex_options 2);
    [exact ex2_problem|exact ex2_numbers|exact ex2_finite|exact step_exp_sane|exact step_exp_nonneg|exact step_log_sane
    |exact ex_options_sane|exact ex_iteration_range|vm_compute; reflexivity|exact E|vm_compute; discriminate].
Qed.
