(** * Property theorems C43, C44: the curve fitter in exact arithmetic *)

From Coq Require Import Reals List Lra Psatz.
From Verif Require Import FitterModel.
Import ListNotations.
Local Open Scope R_scope.

(** ** Vocabulary *)

(** The sum of some quantity over the points. *)
Fixpoint over (q : R -> R -> R) (l : list (R * R)) : R :=
  match l with
  | [] => 0
  | p :: l' => q (fst p) (snd p) + over q l'
  end.

(** Points with positive values. *)
Definition positive_points (l : list (R * R)) : Prop := Forall (fun p => 0 < snd p) l.

(** At least two of the points have different [x]. *)
Definition two_distinct (l : list (R * R)) : Prop :=
  exists p q, In p l /\ In q l /\ fst p <> fst q.

(** All points lie on the curve [exp (a + b x)]. *)
Definition on_curve (a b : R) (l : list (R * R)) : Prop :=
  Forall (fun p => snd p = exp (a + b * fst p)) l.

(** The weighted squared error of the curve [exp (a + b x)]. *)
Definition error (a b : R) (l : list (R * R)) : R :=
  over (fun x y => y * (ln y - a - b * x) * (ln y - a - b * x)) l.

(** ** Sums *)

Lemma over_app : forall q l p, over q (l ++ [p]) = over q l + q (fst p) (snd p).
Proof. intros q l p. induction l as [|r l IH]; cbn; [lra|]. rewrite IH. lra. Qed.

Lemma over_ext : forall q r l, (forall p, In p l -> q (fst p) (snd p) = r (fst p) (snd p)) -> over q l = over r l.
Proof.
  intros q r l H. induction l as [|p l IH]; cbn; [reflexivity|].
  rewrite (H p (or_introl eq_refl)), IH; [reflexivity|]. intros z Hz. apply H. right. exact Hz.
Qed.

Lemma over_lin : forall q r l c d, over (fun x y => c * q x y + d * r x y) l = c * over q l + d * over r l.
Proof. intros q r l c d. induction l as [|p l IH]; cbn; [lra|]. rewrite IH. lra. Qed.

Lemma over_nonneg : forall q l, (forall p, In p l -> 0 <= q (fst p) (snd p)) -> 0 <= over q l.
Proof.
  intros q l H. induction l as [|p l IH]; cbn; [lra|].
  pose proof (H p (or_introl eq_refl)). assert (0 <= over q l) by (apply IH; intros z Hz; apply H; right; exact Hz). lra.
Qed.

Lemma over_zero : forall q l, (forall p, In p l -> 0 <= q (fst p) (snd p)) -> over q l = 0 ->
  forall p, In p l -> q (fst p) (snd p) = 0.
Proof.
  intros q l. induction l as [|r l IH]; intros H Z p Hp; [destruct Hp|]. cbn in Z.
  pose proof (H r (or_introl eq_refl)) as H1.
  assert (H2 : 0 <= over q l) by (apply over_nonneg; intros z Hz; apply H; right; exact Hz).
  destruct Hp as [<-|Hp]; [lra|]. apply IH; [|lra|exact Hp]. intros z Hz. apply H. right. exact Hz.
Qed.

Definition S0 := over (fun x y => y).
Definition S1 := over (fun x y => x * y).
Definition S2 := over (fun x y => x * (x * y)).
Definition T0 := over (fun x y => y * ln y).
Definition T1 := over (fun x y => x * (y * ln y)).

(** ** The state of the fitter *)

Lemma fit_app : forall l p, fx_fit (l ++ [p]) = fx_add (fx_fit l) (fst p) (snd p).
Proof. intros l p. unfold fx_fit. rewrite fold_left_app. reflexivity. Qed.

Lemma fit_sums : forall l, fx_xxy (fx_fit l) = S2 l /\ fx_ylogy (fx_fit l) = T0 l /\
  fx_xy (fx_fit l) = S1 l /\ fx_xylogy (fx_fit l) = T1 l /\ fx_sumy (fx_fit l) = S0 l /\
  fx_divisor (fx_fit l) = S0 l * S2 l - S1 l * S1 l /\
  (S0 l * S2 l - S1 l * S1 l <> 0 ->
   fx_a (fx_fit l) = (S2 l * T0 l - S1 l * T1 l) / (S0 l * S2 l - S1 l * S1 l) /\
   fx_b (fx_fit l) = (S0 l * T1 l - S1 l * T0 l) / (S0 l * S2 l - S1 l * S1 l)).
Proof.
  intro l. induction l as [|p l IH] using rev_ind.
  - unfold fx_fit, S0, S1, S2, T0, T1; cbn. do 6 (split; [first [reflexivity|lra]|]). intro N. exfalso. apply N. ring.
  - destruct IH as (A & B & C & D & E & _). rewrite fit_app.
    assert (Q0 : S0 (l ++ [p]) = S0 l + snd p) by apply over_app.
    assert (Q1 : S1 (l ++ [p]) = S1 l + fst p * snd p) by apply (over_app (fun x y => x * y)).
    assert (Q2 : S2 (l ++ [p]) = S2 l + fst p * (fst p * snd p)) by apply (over_app (fun x y => x * (x * y))).
    assert (Q3 : T0 (l ++ [p]) = T0 l + snd p * ln (snd p)) by apply (over_app (fun x y => y * ln y)).
    assert (Q4 : T1 (l ++ [p]) = T1 l + fst p * (snd p * ln (snd p))) by apply (over_app (fun x y => x * (y * ln y))).
    unfold fx_add. rewrite A, B, C, D, E, <- Q0, <- Q1, <- Q2, <- Q3, <- Q4.
    destruct (Req_EM_T (S0 (l ++ [p]) * S2 (l ++ [p]) - S1 (l ++ [p]) * S1 (l ++ [p])) 0) as [Z|Z];
      cbn [fx_xxy fx_ylogy fx_xy fx_xylogy fx_sumy fx_a fx_b fx_divisor];
      repeat split; congruence.
Qed.

(** The spread of the points around a value. *)
Lemma spread : forall l c, over (fun x y => y * (x - c) * (x - c)) l = S2 l - 2 * c * S1 l + c * c * S0 l.
Proof. intros l c. unfold S0, S1, S2. induction l as [|p l IH]; cbn; [lra|]. rewrite IH. lra. Qed.

Lemma divisor_app : forall l p, S0 (l ++ [p]) * S2 (l ++ [p]) - S1 (l ++ [p]) * S1 (l ++ [p]) =
  (S0 l * S2 l - S1 l * S1 l) + snd p * over (fun x y => y * (x - fst p) * (x - fst p)) l.
Proof.
  intros l p. rewrite spread. unfold S0, S1, S2. rewrite !over_app. ring.
Qed.

Lemma spread_nonneg : forall l c, positive_points l -> 0 <= over (fun x y => y * (x - c) * (x - c)) l.
Proof.
  intros l c P. apply over_nonneg. intros p Hp. unfold positive_points in P. rewrite Forall_forall in P.
  specialize (P p Hp). rewrite Rmult_assoc. apply Rmult_le_pos; [lra|]. apply Rle_0_sqr.
Qed.

Lemma divisor_nonneg : forall l, positive_points l -> 0 <= S0 l * S2 l - S1 l * S1 l.
Proof.
  intro l. induction l as [|p l IH] using rev_ind; intro P; [cbn; lra|].
  rewrite divisor_app. apply Forall_app in P. destruct P as [P1 P2]. inversion P2; subst.
  pose proof (IH P1). pose proof (spread_nonneg l (fst p) P1).
  assert (0 <= snd p * over (fun x y => y * (x - fst p) * (x - fst p)) l) by (apply Rmult_le_pos; lra). lra.
Qed.

Lemma divisor_zero : forall l, positive_points l ->
  (S0 l * S2 l - S1 l * S1 l = 0 <-> ~ two_distinct l).
Proof.
  intro l. induction l as [|p l IH] using rev_ind; intro P.
  - split; [intros _ (q & r & [] & _)|cbn; lra].
  - rewrite divisor_app. apply Forall_app in P. destruct P as [P1 P2].
    assert (W : 0 < snd p) by (inversion P2; assumption).
    pose proof (divisor_nonneg l P1) as N1. pose proof (spread_nonneg l (fst p) P1) as N2.
    assert (N3 : 0 <= snd p * over (fun x y => y * (x - fst p) * (x - fst p)) l) by (apply Rmult_le_pos; lra).
    split.
    + intro Z. assert (Z1 : S0 l * S2 l - S1 l * S1 l = 0) by lra.
      assert (Z2 : over (fun x y => y * (x - fst p) * (x - fst p)) l = 0).
      { assert (Q : snd p * over (fun x y => y * (x - fst p) * (x - fst p)) l = 0) by lra.
        apply Rmult_integral in Q. lra. }
      assert (EQ : forall q, In q l -> fst q = fst p).
      { intros q Hq. unfold positive_points in P1. rewrite Forall_forall in P1. pose proof (P1 q Hq) as Wq.
        pose proof (over_zero (fun x y => y * (x - fst p) * (x - fst p)) l) as OZ. cbn beta in OZ.
        assert (Q : snd q * (fst q - fst p) * (fst q - fst p) = 0).
        { apply OZ; [|exact Z2|exact Hq]. intros r Hr. specialize (P1 r Hr). rewrite Rmult_assoc.
          apply Rmult_le_pos; [lra|]. apply Rle_0_sqr. }
        apply Rmult_integral in Q. destruct Q as [Q|Q]; [apply Rmult_integral in Q; lra|lra]. }
      intros (q & r & Hq & Hr & N). apply N.
      assert (E : forall z, In z (l ++ [p]) -> fst z = fst p).
      { intros z Hz. apply in_app_or in Hz. destruct Hz as [Hz|[<-|[]]]; auto. }
      rewrite (E q Hq), (E r Hr). reflexivity.
    + intro N.
      assert (Z1 : S0 l * S2 l - S1 l * S1 l = 0).
      { apply (IH P1). intros (q & r & Hq & Hr & D). apply N. exists q, r.
        repeat split; auto; apply in_or_app; auto. }
      assert (Z2 : over (fun x y => y * (x - fst p) * (x - fst p)) l = 0).
      { rewrite (over_ext _ (fun _ _ => 0)).
        - clear. induction l as [|z l IH]; cbn; lra.
        - intros q Hq. destruct (Req_EM_T (fst q) (fst p)) as [->|D]; [ring|]. exfalso. apply N.
          exists q, p. repeat split; [apply in_or_app; auto|apply in_or_app; right; left; reflexivity|exact D]. }
      rewrite Z1, Z2. ring.
Qed.

(** C43, second half: with positive values the fitter reports zero exactly
    if it has not seen two different [x]; this includes the value returned
    for the last point. *)
Theorem fitter_reports_zero : forall l, positive_points l ->
  (~ two_distinct l -> forall x, fx_at (fx_fit l) x = 0) /\
  (two_distinct l -> forall x, 0 < fx_at (fx_fit l) x) /\
  (forall p, fx_call (fx_fit l) (fst p) (snd p) = fx_at (fx_fit (l ++ [p])) (fst p)).
Proof.
  intros l P. destruct (fit_sums l) as (_ & _ & _ & _ & _ & D & _). unfold fx_at. rewrite D.
  split; [|split].
  - intros N x. apply (divisor_zero l P) in N. destruct (Req_EM_T _ 0); [reflexivity|congruence].
  - intros T x. destruct (Req_EM_T _ 0) as [Z|Z]; [apply (divisor_zero l P) in Z; tauto|apply exp_pos].
  - intro p. unfold fx_call. rewrite fit_app. reflexivity.
Qed.
Print Assumptions fitter_reports_zero.

(** C43: data on an exponential curve with two different [x] gives back the
    coefficients and therefore the curve. *)
Theorem fitter_recovers : forall a b l, on_curve a b l -> two_distinct l ->
  fx_a (fx_fit l) = a /\ fx_b (fx_fit l) = b /\
  forall x, fx_at (fx_fit l) x = exp (a + b * x).
Proof.
  intros a b l C T.
  assert (P : positive_points l).
  { eapply Forall_impl; [|exact C]. cbn. intros p ->. apply exp_pos. }
  destruct (fit_sums l) as (_ & _ & _ & _ & _ & D & AB).
  assert (NZ : S0 l * S2 l - S1 l * S1 l <> 0) by (intro Z; apply (divisor_zero l P) in Z; tauto).
  destruct (AB NZ) as [EA EB].
  assert (L : forall p, In p l -> ln (snd p) = a + b * fst p).
  { intros p Hp. unfold on_curve in C. rewrite Forall_forall in C. rewrite (C p Hp). apply ln_exp. }
  assert (E0 : T0 l = a * S0 l + b * S1 l).
  { unfold T0, S0, S1. rewrite <- over_lin. apply over_ext. intros p Hp. cbn. rewrite (L p Hp). ring. }
  assert (E1 : T1 l = a * S1 l + b * S2 l).
  { unfold T1, S1, S2. rewrite <- over_lin. apply over_ext. intros p Hp. cbn. rewrite (L p Hp). ring. }
  assert (QA : fx_a (fx_fit l) = a) by (rewrite EA, E0, E1; field; exact NZ).
  assert (QB : fx_b (fx_fit l) = b) by (rewrite EB, E0, E1; field; exact NZ).
  split; [exact QA|]. split; [exact QB|]. intro x. unfold fx_at. rewrite D, QA, QB.
  destruct (Req_EM_T _ 0); [contradiction|]. f_equal. ring.
Qed.
Print Assumptions fitter_recovers.

Definition ex_points : list (R * R) := [(0, exp (1 + 2 * 0)); (3, exp (1 + 2 * 3)); (1, exp (1 + 2 * 1))].

Example ex_recovers : fx_at (fx_fit ex_points) 5 = exp (1 + 2 * 5).
Proof.
  destruct (fitter_recovers 1 2 ex_points) as (_ & _ & H); [| |apply H].
  - repeat constructor.
  - exists (0, exp (1 + 2 * 0)), (3, exp (1 + 2 * 3)). cbn. repeat split; auto; lra.
Qed.

(** ** C44 *)

Lemma error_split : forall l a b a' b',
  over (fun x y => y * (ln y - a - b * x)) l = 0 ->
  over (fun x y => x * (y * (ln y - a - b * x))) l = 0 ->
  error a' b' l = error a b l +
    over (fun x y => y * ((a - a') + (b - b') * x) * ((a - a') + (b - b') * x)) l.
Proof.
  intros l a b a' b' N0 N1. unfold error.
  assert (E : forall m,
    over (fun x y => y * (ln y - a' - b' * x) * (ln y - a' - b' * x)) m =
    over (fun x y => y * (ln y - a - b * x) * (ln y - a - b * x)) m +
    over (fun x y => y * ((a - a') + (b - b') * x) * ((a - a') + (b - b') * x)) m +
    2 * (a - a') * over (fun x y => y * (ln y - a - b * x)) m +
    2 * (b - b') * over (fun x y => x * (y * (ln y - a - b * x))) m).
  { induction m as [|p m IH]; cbn; [ring|]. rewrite IH. ring. }
  rewrite E, N0, N1. ring.
Qed.

(** C44, with two different [x]: the coefficients have the smallest
    weighted squared error, and only they have it. *)
Theorem least_squares_partial : forall l a' b', positive_points l -> two_distinct l ->
  let a := fx_a (fx_fit l) in
  let b := fx_b (fx_fit l) in
  error a b l <= error a' b' l /\ (error a' b' l = error a b l -> a' = a /\ b' = b).
Proof.
  intros l a' b' P T a b.
  destruct (fit_sums l) as (_ & _ & _ & _ & _ & _ & AB).
  assert (NZ : S0 l * S2 l - S1 l * S1 l <> 0) by (intro Z; apply (divisor_zero l P) in Z; tauto).
  destruct (AB NZ) as [EA EB]. fold a in EA. fold b in EB.
  assert (N0 : over (fun x y => y * (ln y - a - b * x)) l = 0).
  { assert (Q : forall m, over (fun x y => y * (ln y - a - b * x)) m = T0 m - a * S0 m - b * S1 m).
    { unfold T0, S0, S1. induction m as [|p m IH]; cbn; [ring|]. rewrite IH. ring. }
    rewrite Q, EA, EB. field. exact NZ. }
  assert (N1 : over (fun x y => x * (y * (ln y - a - b * x))) l = 0).
  { assert (Q : forall m, over (fun x y => x * (y * (ln y - a - b * x))) m = T1 m - a * S1 m - b * S2 m).
    { unfold T1, S1, S2. induction m as [|p m IH]; cbn; [ring|]. rewrite IH. ring. }
    rewrite Q, EA, EB. field. exact NZ. }
  clearbody a b. rewrite (error_split l a b a' b' N0 N1).
  assert (Q : forall p, In p l -> 0 <= snd p * ((a - a') + (b - b') * fst p) * ((a - a') + (b - b') * fst p)).
  { intros p Hp. unfold positive_points in P. rewrite Forall_forall in P. specialize (P p Hp).
    rewrite Rmult_assoc. apply Rmult_le_pos; [lra|]. apply Rle_0_sqr. }
  pose proof (over_nonneg (fun x y => y * ((a - a') + (b - b') * x) * ((a - a') + (b - b') * x)) l Q) as NN. cbn beta in NN. split; [lra|].
  intro E. assert (Z : over (fun x y => y * ((a - a') + (b - b') * x) * ((a - a') + (b - b') * x)) l = 0) by lra.
  destruct T as (p & q & Hp & Hq & D).
  assert (F : forall r, In r l -> (a - a') + (b - b') * fst r = 0).
  { intros r Hr. pose proof (over_zero (fun x y => y * ((a - a') + (b - b') * x) * ((a - a') + (b - b') * x)) l Q Z r Hr) as O. cbn beta in O.
    unfold positive_points in P. rewrite Forall_forall in P. pose proof (P r Hr) as W.
    apply Rmult_integral in O. destruct O as [O|O]; [apply Rmult_integral in O; lra|exact O]. }
  pose proof (F p Hp) as Fp. pose proof (F q Hq) as Fq.
  assert (B : (b - b') * (fst p - fst q) = 0) by lra. apply Rmult_integral in B.
  destruct B as [B|B]; [|lra]. rewrite B in Fp. split; lra.
Qed.
Print Assumptions least_squares_partial.

Example ex_least_squares : error (fx_a (fx_fit [(0, 1); (1, 2); (2, 1)])) (fx_b (fx_fit [(0, 1); (1, 2); (2, 1)]))
  [(0, 1); (1, 2); (2, 1)] <= error 7 (-3) [(0, 1); (1, 2); (2, 1)].
Proof.
  apply least_squares_partial.
  - repeat constructor; cbn; lra.
  - exists (0, 1), (1, 2). cbn. repeat split; auto; lra.
Qed.

(** C44 as stated is false for one point: the coefficients stay zero. *)
Theorem least_squares_refuted : exists l a' b', positive_points l /\
  error a' b' l < error (fx_a (fx_fit l)) (fx_b (fx_fit l)) l.
Proof.
  exists [(0, exp 1)], 1, 0. split; [repeat constructor; cbn; apply exp_pos|].
  unfold fx_fit. cbn [fold_left fst snd]. unfold fx_add, fx_new.
  cbn [fx_xxy fx_ylogy fx_xy fx_xylogy fx_sumy fx_a fx_b fx_divisor].
  destruct (Req_EM_T _ 0) as [_|N]; [|exfalso; apply N; ring].
  cbn [fx_a fx_b]. unfold error. cbn [over fst snd]. rewrite ln_exp. pose proof (exp_pos 1).
  replace (exp 1 * (1 - 1 - 0 * 0) * (1 - 1 - 0 * 0) + 0) with 0 by ring.
  replace (exp 1 * (1 - 0 - 0 * 0) * (1 - 0 - 0 * 0) + 0) with (exp 1) by ring. exact H.
Qed.
Print Assumptions least_squares_refuted.
