(** * Property theorems C41, C42: the temperature *)

From Coq Require Import List ZArith Bool Reals Lia Lra.
From Flocq Require Import Core BinarySingleNaN.
From Verif Require Import Base F32 F32Facts F32Signed TemperatureModel
  TemperatureSpec TemperatureProofs.
Import ListNotations.

(** C41, full statement: for every positive beta scale and all tunneling
    energies in [0,1] every update succeeds and the temperature is a
    non-negative number.  False, see [temperature_refuted].  Proved here
    for the beta scales that [scale_fits], for a mean that may be up to
    [e] too small; [temperature_boundary] shows that this bound is
    exact. *)
Theorem temperature_nonnegative_partial : forall e o scale window period t l,
  error_ok e -> mean_within e o ->
  temperature_new scale window period = Ok t ->
  scale_fits e scale = true -> (period <= 2 ^ 62)%Z ->
  Forall in_unit l ->
  exists t', temperature_run o t l = Ok t' /\ f_le f_zero (tp_value t') = true.
Proof.
  intros e o s w q t l [Fe Be] HM HN L Q HL.
  destruct (temp_new_fits e s w q t HN L Q) as (HT & _).
  destruct (temp_run_fits e Fe Be o l t HM HT HL) as (t' & E & T' & _).
  exists t'. split; [exact E|]. apply nn_iff. apply T'.
Qed.
Print Assumptions temperature_nonnegative_partial.

(** The exact limit: if the mean is never below [- e], the temperature
    stays non-negative for all energies, windows and periods if and only if
    the scale times (0.03 + e) is below 1 in single precision. *)
Theorem temperature_boundary : forall e scale,
  error_ok e -> f_lt f_zero scale = true ->
  (forall o window period t l,
     mean_within e o -> temperature_new scale window period = Ok t -> (period <= 2 ^ 62)%Z ->
     Forall in_unit l ->
     exists t', temperature_run o t l = Ok t' /\ f_le f_zero (tp_value t') = true) <->
  f_lt (f_mul (f_add e f_003) scale) f_one = true.
Proof.
  intros e scale [Fe Be] P. split.
  - intro H. change (scale_fits e scale = true). destruct (scale_fits e scale) eqn:NF; [reflexivity|]. exfalso.
    assert (E : temperature_new scale 1 1 = Ok (plain_temp f_one scale [])).
    { unfold temperature_new. rewrite P. reflexivity. }
    pose proof (last_sample_within e Fe Be) as W.
    assert (U1 : in_unit f_one) by (split; vm_compute; reflexivity).
    assert (U0 : in_unit f_zero) by (split; vm_compute; reflexivity).
    destruct (too_large_fails e Fe Be scale _ P NF E) as [X|X].
    + destruct (H _ _ _ _ [f_zero] W E ltac:(lia)) as (t' & R & _); [repeat constructor; apply U0|congruence].
    + destruct (H _ _ _ _ cold_after_heat W E ltac:(lia)) as (t' & R & _); [|congruence].
      unfold cold_after_heat. apply Forall_app. split.
      * apply Forall_forall. intros x I. apply repeat_spec in I. subst x. exact U1.
      * constructor; [exact U0|constructor].
  - intros L o w q t l HM HN Q HL. destruct (temp_new_fits e scale w q t HN L Q) as (HT & _).
    destruct (temp_run_fits e Fe Be o l t HM HT HL) as (t' & E & T' & _).
    exists t'. split; [exact E|]. apply nn_iff. apply T'.
Qed.
Print Assumptions temperature_boundary.

(** With an exact mean the largest scale that works is 33.333332; with an
    error of 1/64 it is about 21.9. *)
Example ex_boundary :
  error_ok f_zero /\ error_ok slack /\
  let scale := fun m : Z => f_div (f_of_Z m) (f_of_Z (2 ^ 18)) in
  f_lt f_zero (scale 8738133%Z) = true /\ f_lt f_zero (scale 8738134%Z) = true /\
  f_lt (f_mul (f_add f_zero f_003) (scale 8738133%Z)) f_one = true /\
  f_lt (f_mul (f_add f_zero f_003) (scale 8738134%Z)) f_one = false /\
  f_lt (f_mul (f_add slack f_003) (f_of_Z 21)) f_one = true /\
  f_lt (f_mul (f_add slack f_003) (f_of_Z 22)) f_one = false.
Proof.
  split; [split; [reflexivity|]; change (B2R f_zero) with 0%R; lra|].
  split; [exact slack_ok|]. vm_compute. auto 10.
Qed.

(** Oracles of the examples: an average of zero, [exp] constantly one. *)
Definition zero_mean : oracles :=
  {| or_exp := fun _ => f_one; or_log := fun _ => f_zero; or_mean := fun _ _ => f_zero |}.

Lemma zero_mean_within : forall e, error_ok e -> mean_within e zero_mean.
Proof. intros e [_ E] w l _ _ _. cbn. split; [reflexivity|]. lra. Qed.

Lemma unit_zero : in_unit f_zero.
Proof. split; vm_compute; reflexivity. Qed.

Definition ex_temp : temperature :=
  result_or {| tp_value := f_zero; tp_window := 0; tp_acc := []; tp_scale := f_zero; tp_mask := 0 |}
    (temperature_new f_one 100 256).

Example ex_temp_ok : temperature_new f_one 100 256 = Ok ex_temp.
Proof. apply result_or_ok. vm_compute. reflexivity. Qed.

(** The hypotheses of [temperature_nonnegative_partial] hold for scale 1,
    window 100, period 256, and the run of the example really changes the
    temperature. *)
Example ex_temp_run :
  exists t', temperature_run zero_mean ex_temp [f_zero; f_zero] = Ok t' /\
             f_le f_zero (tp_value t') = true.
Proof.
  apply (temperature_nonnegative_partial slack zero_mean f_one 100 256).
  - exact slack_ok.
  - apply zero_mean_within, slack_ok.
  - exact ex_temp_ok.
  - vm_compute. reflexivity.
  - lia.
  - repeat constructor; vm_compute; reflexivity.
Qed.

Example ex_temp_moves :
  match temperature_run zero_mean ex_temp [f_zero; f_zero] with
  | Ok t' => f_lt (tp_value t') f_one
  | _ => false
  end = true.
Proof. vm_compute. reflexivity. Qed.

(** C41 is false for large scales: with a beta scale of 40 the first
    accepted candidate of energy 0 makes the temperature negative. *)
Theorem temperature_refuted : exists o scale window period t s,
  mean_within f_zero o /\ f_lt f_zero scale = true /\ is_finite scale = true /\
  temperature_new scale window period = Ok t /\ in_unit s /\
  temperature_update o t s = Broken /\
  f_lt (f_mul (tp_value t)
          (f_add f_one
             (f_mul (f_mul (f_mul (f_sub (or_mean o window [s]) f_003) scale)
                       (volatility 1 (tp_mask t))) (volatility 1 (tp_mask t)))))
       f_zero = true.
Proof.
  set (t := result_or ex_temp (temperature_new (f_of_Z 40) 100 256)).
  exists zero_mean, (f_of_Z 40), 100%Z, 256%Z, t, f_zero.
  split; [apply zero_mean_within; split; [reflexivity|]; change (B2R f_zero) with 0%R; lra|]. split; [vm_compute; reflexivity|].
  split; [vm_compute; reflexivity|].
  split; [apply result_or_ok; vm_compute; reflexivity|].
  split; [exact unit_zero|]. split.
  - vm_compute. reflexivity.
  - vm_compute. reflexivity.
Qed.
Print Assumptions temperature_refuted.

(** C42, full statement: for every power of two the damping factor after
    [n] samples is 1 - (n mod period) / period, which is in (0,1], goes down
    by 1/period per update and is 1 exactly at multiples of the period.
    False for periods above 2^24, see [volatility_refuted]; proved for all
    smaller ones. *)
Theorem volatility_follows_period_partial : forall k n, (k <= 24)%nat ->
  let v := fun n => volatility (N.of_nat n) (Z.to_N (2 ^ Z.of_nat k - 1)) in
  is_finite (v n) = true /\
  B2R (v n) = damping k n /\
  (0 < B2R (v n) <= 1)%R /\
  (B2R (v n) = 1%R <-> (n mod 2 ^ k = 0)%nat) /\
  ((S n mod 2 ^ k <> 0)%nat -> B2R (v (S n)) = (B2R (v n) - / INR (2 ^ k))%R).
Proof.
  intros k n Hk v.
  destruct (volatility_exact k n Hk) as [F E].
  destruct (volatility_exact k (S n) Hk) as [_ E'].
  fold (v n) in F, E. fold (v (S n)) in E'.
  split; [exact F|]. split; [exact E|]. rewrite E, E'.
  split; [apply damping_range|]. split; [apply damping_one|apply damping_step].
Qed.
Print Assumptions volatility_follows_period_partial.

(** The update uses that factor: from a new temperature, the update after
    the samples [l] multiplies the temperature by
    1 + (average - 0.03) * scale * v * v with [v] the factor for
    [length l + 1] samples. *)
Theorem temperature_update_rule : forall o scale window k t0 l t s t',
  temperature_new scale window (2 ^ Z.of_nat k) = Ok t0 ->
  temperature_run o t0 l = Ok t -> temperature_update o t s = Ok t' ->
  let v := volatility (N.of_nat (S (length l))) (Z.to_N (2 ^ Z.of_nat k - 1)) in
  let average := or_mean o window (s :: rev l) in
  tp_value t' =
    f_mul (tp_value t)
      (f_add f_one (f_mul (f_mul (f_mul (f_sub average f_003) scale) v) v)).
Proof.
  intros o scale window k t0 l t s t' HN HR HU v average.
  assert (N0 : tp_acc t0 = [] /\ tp_mask t0 = Z.to_N (2 ^ Z.of_nat k - 1) /\
               tp_scale t0 = scale /\ tp_window t0 = window).
  { unfold temperature_new in HN.
    repeat match type of HN with
           | bind (expects ?b) _ = _ => destruct b; [cbn [expects bind] in HN|discriminate]
           end.
    injection HN as <-. cbn. auto. }
  destruct N0 as (A0 & M0 & S0 & W0).
  assert (Step : forall u x u', temperature_update o u x = Ok u' ->
    tp_acc u' = x :: tp_acc u /\ tp_mask u' = tp_mask u /\ tp_scale u' = tp_scale u /\
    tp_window u' = tp_window u /\
    tp_value u' = f_mul (tp_value u)
      (f_add f_one
         (f_mul (f_mul (f_mul (f_sub (or_mean o (tp_window u) (x :: tp_acc u)) f_003) (tp_scale u))
                   (volatility (N.of_nat (S (length (tp_acc u)))) (tp_mask u)))
            (volatility (N.of_nat (S (length (tp_acc u)))) (tp_mask u))))).
  { intros u x u' H. unfold temperature_update in H.
    destruct (f_le f_zero x); [cbn [expects bind] in H|discriminate]. cbv zeta in H.
    match type of H with bind (expects ?b) _ = _ =>
      destruct b; [cbn [expects bind] in H|discriminate] end.
    injection H as <-. cbn [tp_acc tp_mask tp_scale tp_window tp_value length]. auto. }
  assert (Run : forall l u u', temperature_run o u l = Ok u' ->
    tp_acc u' = rev l ++ tp_acc u /\ tp_mask u' = tp_mask u /\ tp_scale u' = tp_scale u /\
    tp_window u' = tp_window u).
  { clear - Step. intro l. induction l as [|x l IH]; intros u u' H; cbn [temperature_run] in H.
    - injection H as <-. auto.
    - destruct (temperature_update o u x) as [u1| |] eqn:E; try discriminate. cbn [bind] in H.
      destruct (Step _ _ _ E) as (A & M & S & W & _). destruct (IH _ _ H) as (A' & M' & S' & W').
      rewrite A', A, M', M, S', S, W', W. cbn [rev]. rewrite <- app_assoc. auto. }
  destruct (Run _ _ _ HR) as (A & M & S & W). destruct (Step _ _ _ HU) as (_ & _ & _ & _ & V).
  rewrite V, A, M, S, W, A0, M0, S0, W0, app_nil_r, rev_length. reflexivity.
Qed.
Print Assumptions temperature_update_rule.

Example ex_volatility :
  B2R (volatility (N.of_nat 3) (Z.to_N (2 ^ Z.of_nat 2 - 1))) = (1 - 3 / 4)%R.
Proof.
  destruct (volatility_follows_period_partial 2 3) as (_ & E & _); [lia|].
  rewrite E. unfold damping. cbn. lra.
Qed.

(** C42 is false for periods above 2^24: with period 2^25 the factor is 0
    just before the restart, as 2^25 - 1 is rounded up to 2^25. *)
Theorem volatility_refuted : exists count k,
  has_single_bit (2 ^ k) = true /\ (2 ^ k <= 2 ^ 31)%N /\ (count mod 2 ^ k <> 0)%N /\
  f_eq (volatility count (2 ^ k - 1)) f_zero = true.
Proof.
  exists (2 ^ 25 - 1)%N, 25%N. split; [vm_compute; reflexivity|].
  split; [vm_compute; discriminate|]. split; [vm_compute; discriminate|].
  vm_compute. reflexivity.
Qed.
Print Assumptions volatility_refuted.
