(** * Lemmas about the numeric options *)

From Coq Require Import List ZArith Bool Ascii String Reals Lia Lra.
From Flocq Require Import Core BinarySingleNaN.
From Verif Require Import Base F32 F32Facts F32Signed OptionsModel OptionsProps OptionValuesModel OptionValuesSpec.
Import ListNotations.
Local Open Scope Z_scope.

#[local] Existing Instance prec64_gt_0.
#[local] Existing Instance prec64_lt_emax.
#[local] Existing Instance prec53_gt_0'.
#[local] Existing Instance prec53_lt_emax'.

(** ** Digits *)

Lemma digit_value_digit : forall base c d, base <= 16 -> digit_value base c = Some d -> digit base c d.
Proof.
  intros base c d B. unfold digit_value, digit.
  destruct c as [b0 b1 b2 b3 b4 b5 b6 b7]. destruct b0, b1, b2, b3, b4, b5, b6, b7; cbn -[Z.ltb Z.leb];
    repeat (match goal with |- context [(?a <=? ?b)%Z] => change (a <=? b)%Z with true || change (a <=? b)%Z with false end; cbn -[Z.ltb Z.leb]);
    match goal with |- context [(?v <? base)%Z] => destruct (Z.ltb_spec v base) as [L|L] end; try lia; try discriminate; intro E;
    injection E as <-; (split; [lia|]); solve [left; reflexivity|right; reflexivity].
Qed.

Lemma digit_digit_value : forall base c d, digit base c d -> base <= 16 -> digit_value base c = Some d.
Proof.
  intros base c d [R H] B.
  assert (C : d = 0 \/ d = 1 \/ d = 2 \/ d = 3 \/ d = 4 \/ d = 5 \/ d = 6 \/ d = 7 \/ d = 8 \/ d = 9 \/ d = 10 \/ d = 11 \/
              d = 12 \/ d = 13 \/ d = 14 \/ d = 15) by lia.
  repeat destruct C as [->|C]; try subst d; cbn in H;
    destruct H as [H|H]; injection H as <-;
    (lazymatch goal with |- digit_value base ?c = Some ?v => 
       let X := fresh in assert (X : digit_value base c = if (v <? base)%Z then Some v else None) by reflexivity; rewrite X end);
    (lazymatch goal with |- context [(?v <? base)%Z] => destruct (Z.ltb_spec v base); [reflexivity|lia] end).
Qed.

Lemma read_digits_in : forall base l pre acc z, base <= 16 -> (pre <> [] -> digits_in base pre acc) -> (pre = [] -> acc = 0) ->
  (pre <> [] \/ l <> []) -> read_digits base acc l = (z, []) -> digits_in base (pre ++ l) z.
Proof.
  intros base l. induction l as [|c l IH]; intros pre acc z B D N NE H; cbn [read_digits] in H.
  - injection H as <-. rewrite app_nil_r. destruct NE as [NE|NE]; [auto|congruence].
  - destruct (digit_value base c) as [v|] eqn:V; [|discriminate H].
    apply digit_value_digit in V; [|exact B].
    replace (pre ++ c :: l) with ((pre ++ [c]) ++ l) by (rewrite <- app_assoc; reflexivity).
    apply IH with (acc * base + v); try assumption.
    + intros _. destruct pre as [|p pre'].
      * rewrite (N eq_refl). cbn [app]. replace (0 * base + v) with v by lia. constructor. exact V.
      * replace (acc * base + v) with (base * acc + v) by lia. constructor; [|exact V]. apply D. discriminate.
    + intro E. destruct pre; discriminate E.
    + left. intro E. destruct pre; discriminate E.
Qed.

Lemma number_in : forall base r z, base <= 16 -> read_number base r = Some (z, []) -> digits_in base r z.
Proof.
  intros base r z B H. unfold read_number in H. destruct r as [|c r]; [discriminate H|].
  destruct (digit_value base c); [|discriminate H]. injection H as H.
  apply (read_digits_in base (c :: r) [] 0 z); [exact B|congruence|reflexivity|right; discriminate|exact H].
Qed.

Lemma in_read : forall base l z, digits_in base l z -> base <= 16 -> forall r,
  read_digits base 0 (l ++ r) = read_digits base z r.
Proof.
  intros base l z D B. induction D as [c d H|l z c d D IH H]; intro r.
  - cbn [app read_digits]. rewrite (digit_digit_value base c d H B). f_equal.
  - rewrite <- app_assoc, IH. cbn [app read_digits]. rewrite (digit_digit_value base c d H B). f_equal. lia.
Qed.

Lemma in_head : forall base l z, digits_in base l z -> exists c d r, digit base c d /\ l = c :: r.
Proof.
  intros base l z D. induction D as [c d H|l z c d D (e & f & r & E & ->) H]; [exists c, d, []; auto|].
  eexists e, f, _. split; [exact E|reflexivity].
Qed.

Lemma in_number : forall base l z, digits_in base l z -> base <= 16 -> read_number base l = Some (z, []).
Proof.
  intros base l z D B. pose proof (in_read base l z D B []) as H. rewrite app_nil_r in H.
  destruct (in_head base l z D) as (c & d & r & R & ->). unfold read_number. rewrite (digit_digit_value base c d R B).
  f_equal. exact H.
Qed.

Lemma in_nonneg : forall base l z, digits_in base l z -> 0 <= base -> 0 <= z.
Proof. intros base l z D B. induction D as [c d [H _]|l z c d D IH [H _]]; [lia|nia]. Qed.

(** Digits of a base are digits of a larger one, and stand for zero in both
    or in none. *)
Lemma digits_larger : forall base base' l z, digits_in base l z -> 0 < base -> base <= base' ->
  exists z', digits_in base' l z' /\ (z = 0 -> z' = 0) /\ 0 <= z'.
Proof.
  intros base base' l z D B L. pose proof D as D0. induction D as [c d [R H]|l z c d D IH [R H]].
  - exists d. split; [constructor; split; [lia|exact H]|]. split; [auto|lia].
  - destruct (IH D) as (z' & D' & Z0 & P). exists (base' * z' + d). split; [constructor; [exact D'|split; [lia|exact H]]|].
    pose proof (in_nonneg base l z D ltac:(lia)) as P0. split; [intro E|nia].
    assert (E0 : z = 0) by nia. rewrite (Z0 E0). nia.
Qed.

(** The characters of digits are neither spaces nor signs. *)
Lemma digit_char_in : forall base c d, digit base c d -> base <= 16 ->
  is_space c = false /\ c <> "-"%char /\ c <> "+"%char /\ c <> "x"%char /\ c <> "X"%char.
Proof.
  intros base c d [R H] B.
  assert (C : d = 0 \/ d = 1 \/ d = 2 \/ d = 3 \/ d = 4 \/ d = 5 \/ d = 6 \/ d = 7 \/ d = 8 \/ d = 9 \/ d = 10 \/ d = 11 \/
              d = 12 \/ d = 13 \/ d = 14 \/ d = 15) by lia.
  repeat destruct C as [->|C]; try subst d; cbn in H;
    destruct H as [H|H]; injection H as <-; repeat split; discriminate.
Qed.

(** ** Reading with a prefix *)

Lemma prefixed_cases : forall r z, read_prefixed r = Some (z, []) ->
  ((forall b, r <> "0"%char :: b) /\ digits_in 10 r z) \/
  ((exists b, r = "0"%char :: b) /\ digits_in 8 r z) \/
  (exists c r', r = "0"%char :: c :: r' /\ (c = "x" \/ c = "X")%char /\ digits_in 16 r' z).
Proof.
  intros r z H. destruct r as [|c r]; [discriminate H|].
  destruct (ascii_dec c "0") as [->|NE].
  - right. destruct r as [|c r].
    + left. split; [exists []; reflexivity|]. apply number_in; [lia|exact H].
    + cbn [read_prefixed] in H. destruct (Ascii.eqb c "x" || Ascii.eqb c "X")%bool eqn:X.
      * right. exists c, r. split; [reflexivity|]. apply orb_true_iff in X. rewrite !Ascii.eqb_eq in X. split; [exact X|].
        destruct (read_number 16 r) as [[v rest]|] eqn:N; [|discriminate H]. injection H as -> ->. apply number_in; [lia|exact N].
      * left. split; [exists (c :: r); reflexivity|]. apply number_in; [lia|exact H].
  - left. assert (N : forall b, c :: r <> "0"%char :: b) by (intros b E; congruence). split; [exact N|].
    rewrite prefixed_ten in H by exact N. apply number_in; [lia|exact H].
Qed.

(** What a text that is read in base 0 looks like. *)
Lemma strtoll_cases : forall l z, strtoll 0 l = Some (z, []) ->
  (~ leading_zero l /\ written 10 [] l z) \/ octal l z \/ hexadecimal l z.
Proof.
  intros l z H. destruct (spaces_split l) as (sp & E & F). unfold strtoll in H. cbn [Z.eqb] in H.
  set (r := skip_spaces l) in *. clearbody r. subst l.
  assert (F' : Forall (fun c => is_space c = true \/ c = "+"%char \/ c = "-"%char) sp)
    by (eapply Forall_impl; [|exact F]; cbn; auto).
  (* one sign or none *)
  assert (SIGN : forall (sign : list ascii) r' v, Forall (fun c => c = "+"%char \/ c = "-"%char) sign ->
    read_prefixed r' = Some (v, []) ->
    (forall base pre l', digits_in base l' v -> written base pre (sp ++ sign ++ pre ++ l') z) ->
    (~ leading_zero (sp ++ sign ++ r') /\ written 10 [] (sp ++ sign ++ r') z) \/
    octal (sp ++ sign ++ r') z \/ hexadecimal (sp ++ sign ++ r') z).
  { intros sign r' v SG P W. destruct (prefixed_cases r' v P) as [(N & D)|[((b & ->) & D)|(c & r'' & -> & X & D)]].
    - left. split; [|exact (W 10 [] r' D)]. intros (a & b & E & A).
      assert (SS : Forall (fun c => c <> "0"%char) (sp ++ sign)).
      { apply Forall_app. split.
        - eapply Forall_impl; [|exact F]. cbn. intros c Hc ->. discriminate Hc.
        - eapply Forall_impl; [|exact SG]. cbn. intros c [->| ->]; discriminate. }
      rewrite app_assoc in E. revert a E A SS. generalize (sp ++ sign). clear - N D.
      destruct (in_head _ _ _ D) as (c0 & d0 & r0 & DG & ->).
      induction l as [|x l IH]; intros a E A SS.
      + destruct a as [|y a]; [cbn [app] in E; exact (N _ E)|].
        cbn [app] in E. injection E as -> E. inversion A as [|? ? HY _]. subst.
        destruct (digit_char_in _ _ _ DG ltac:(lia)) as (S & M & P & _). destruct HY as [HY|[HY|HY]]; congruence.
      + inversion SS as [|? ? NX SS']. subst. destruct a as [|y a]; cbn [app] in E.
        * injection E as E _. congruence.
        * injection E as _ E. inversion A. subst. eauto.
    - right. left. split; [|exact (W 8 [] _ D)]. exists (sp ++ sign), b. split; [rewrite <- app_assoc; reflexivity|].
      apply Forall_app. split; [exact F'|]. eapply Forall_impl; [|exact SG]. cbn. tauto.
    - right. right. destruct X as [->| ->]; [left|right]; exact (W 16 ["0"; _]%char r'' D). }
  destruct r as [|c r]; [discriminate H|].
  destruct (ascii_dec c "-") as [->|N1].
  - cbn [read_signed] in H. destruct (read_prefixed r) as [[v rest]|] eqn:P; [|discriminate H]. injection H as <- ->.
    apply (SIGN ["-"%char] r v); [constructor; [auto|constructor]|exact P|].
    intros base pre l' D. cbn [app]. apply wr_minus; assumption.
  - destruct (ascii_dec c "+") as [->|N2].
    + cbn [read_signed] in H. apply (SIGN ["+"%char] r z); [constructor; [auto|constructor]|exact H|].
      intros base pre l' D. cbn [app]. apply wr_plus; assumption.
    + rewrite signed_plain in H by assumption. apply (SIGN [] (c :: r) z); [constructor|exact H|].
      intros base pre l' D. cbn [app]. apply wr_plain; assumption.
Qed.

(** An octal text is also a decimal one, for a number of the same sign. *)
Lemma octal_decimal : forall l z, octal l z -> exists z', written 10 [] l z' /\ (z <= 0 -> z' <= 0).
Proof.
  intros l z [_ W]. destruct W as [sp l z F D|sp l z F D|sp l z F D];
    destruct (digits_larger 8 10 l z D ltac:(lia) ltac:(lia)) as (z' & D' & Z0 & P); pose proof (in_nonneg _ _ _ D ltac:(lia)) as PZ.
  - exists z'. split; [apply wr_plain; assumption|]. intro. assert (z = 0) by lia. rewrite Z0 by assumption. lia.
  - exists z'. split; [apply wr_plus; assumption|]. intro. assert (z = 0) by lia. rewrite Z0 by assumption. lia.
  - exists (- z'). split; [apply wr_minus; assumption|]. lia.
Qed.

(** ** Casts *)

Lemma double_min_R : is_finite double_min = true /\ B2R double_min = bpow radix2 (-1022).
Proof.
  split; [reflexivity|]. unfold double_min.
  pose proof (binary_normalize_correct 53 1024 _ _ mode_NE 1 (-1022) false) as C. cbv zeta in C.
  assert (E : F2R (Float radix2 1 (-1022)) = bpow radix2 (-1022)) by (unfold F2R; cbn [Fnum Fexp]; ring).
  rewrite E, round_generic in C.
  - rewrite Rlt_bool_true in C; [exact (proj1 C)|]. rewrite Rabs_pos_eq by apply bpow_ge_0. apply bpow_lt. lia.
  - apply valid_rnd_N.
  - apply generic_format_bpow. unfold SpecFloat.fexp, SpecFloat.emin. lia.
Qed.

Lemma double_max_R : is_finite double_max = true /\ (bpow radix2 1023 <= B2R double_max)%R.
Proof.
  split; [vm_compute; reflexivity|]. unfold double_max.
  pose proof (binary_normalize_correct 53 1024 _ _ mode_NE (2 ^ 53 - 1) 971 false) as C. cbv zeta in C.
  assert (L : (F2R (Float radix2 (2 ^ 53 - 1) 971) < bpow radix2 1024)%R).
  { unfold F2R. cbn [Fnum Fexp]. change (bpow radix2 1024) with (bpow radix2 (53 + 971)). rewrite bpow_plus.
    apply Rmult_lt_compat_r; [apply bpow_gt_0|]. rewrite <- IZR_Zpower by lia. apply IZR_lt. reflexivity. }
  assert (G : (bpow radix2 1023 <= F2R (Float radix2 (2 ^ 53 - 1) 971))%R).
  { unfold F2R. cbn [Fnum Fexp]. change (bpow radix2 1023) with (bpow radix2 (52 + 971)). rewrite bpow_plus.
    apply Rmult_le_compat_r; [apply bpow_ge_0|]. rewrite <- IZR_Zpower by lia. apply IZR_le. vm_compute. discriminate. }
  rewrite round_generic in C.
  - rewrite Rlt_bool_true in C.
    + rewrite (proj1 C). exact G.
    + rewrite Rabs_pos_eq; [exact L|]. pose proof (bpow_ge_0 radix2 1023). lra.
  - apply valid_rnd_N.
  - apply generic_format_F2R. intros _. unfold cexp, SpecFloat.fexp, SpecFloat.emin.
    rewrite (mag_unique_pos radix2 _ 1024); [lia|]. split; [exact G|exact L].
Qed.

(** The cast of a finite number to [double]: rounded, or infinite. *)
Lemma to_double_finite : forall x, is_finite x = true ->
  let y := round radix2 (SpecFloat.fexp 53 1024) (round_mode mode_NE) (B2R x) in
  (Rabs y < bpow radix2 1024 -> is_finite (to_double x) = true /\ B2R (to_double x) = y)%R /\
  (bpow radix2 1024 <= Rabs y -> to_double x = B754_infinity (Bsign x))%R.
Proof.
  intros x F. destruct x as [s|s| |s m e H]; try discriminate F.
  - cbn [B2R to_double is_finite Bsign]. rewrite round_0 by apply valid_rnd_N. rewrite Rabs_R0. split; [auto|].
    intro L. pose proof (bpow_gt_0 radix2 1024). lra.
  - cbn [to_double Bsign]. set (b := binary_normalize 53 1024 _ _ mode_NE (cond_Zopp s (Zpos m)) e s).
    pose proof (binary_normalize_correct 53 1024 _ _ mode_NE (cond_Zopp s (Zpos m)) e s) as C. cbv zeta in C. fold b in C.
    cbn [B2R]. cbv zeta. split; intro L.
    + rewrite Rlt_bool_true in C by exact L. tauto.
    + rewrite Rlt_bool_false in C by exact L.
      assert (S : Rlt_bool (F2R (Float radix2 (cond_Zopp s (Zpos m)) e)) 0 = s).
      { destruct s; cbn [cond_Zopp].
        - apply Rlt_bool_true. apply F2R_lt_0. reflexivity.
        - apply Rlt_bool_false. apply F2R_ge_0. cbn. lia. }
      apply B2SF_inj. rewrite C. unfold binary_overflow. rewrite S. reflexivity.
Qed.

Lemma round_double_le : forall a b, (a <= b)%R ->
  (round radix2 (SpecFloat.fexp 53 1024) (round_mode mode_NE) a <= round radix2 (SpecFloat.fexp 53 1024) (round_mode mode_NE) b)%R.
Proof. intros a b H. apply round_le; [apply (fexp_correct 53 1024 eq_refl)|apply valid_rnd_N|exact H]. Qed.

Lemma round_double_bpow : forall k, -1074 <= k ->
  round radix2 (SpecFloat.fexp 53 1024) (round_mode mode_NE) (bpow radix2 k) = bpow radix2 k.
Proof.
  intros k K. apply round_generic; [apply valid_rnd_N|]. apply generic_format_bpow. unfold SpecFloat.fexp, SpecFloat.emin. lia.
Qed.

(** Numbers that are not positive are refused. *)
Lemma refused : forall x, is_nan x = false -> x <> B754_infinity false -> (B2R x <= 0)%R ->
  Bltb (to_double x) double_min = true.
Proof.
  intros x NN NI L. destruct double_min_R as [FM EM].
  destruct x as [s|s| |s m e H]; try discriminate NN.
  - destruct s; vm_compute; reflexivity.
  - destruct s; [vm_compute; reflexivity|congruence].
  - set (x := B754_finite s m e H) in *. destruct (to_double_finite x eq_refl) as [C1 C2].
    set (y := round radix2 _ _ (B2R x)) in *.
    assert (Y : (y <= 0)%R).
    { rewrite <- (round_0 radix2 (SpecFloat.fexp 53 1024) (round_mode mode_NE)) by apply valid_rnd_N. apply round_double_le, L. }
    destruct (Rlt_or_le (Rabs y) (bpow radix2 1024)) as [G|G].
    + destruct (C1 G) as [FD ED]. rewrite Bltb_correct by assumption. apply Rlt_bool_true. rewrite ED, EM.
      pose proof (bpow_gt_0 radix2 (-1022)). lra.
    + rewrite (C2 G). assert (S : Bsign x = true).
      { destruct s; [reflexivity|]. exfalso. cbn [x B2R cond_Zopp] in L.
        assert (P : (0 < F2R (Float radix2 (Zpos m) e))%R) by (apply F2R_gt_0; reflexivity). lra. }
      rewrite S. vm_compute. reflexivity.
Qed.

(** Numbers of ordinary size are accepted. *)
Lemma accepted : forall x, is_finite x = true -> (bpow radix2 (-1022) <= B2R x <= bpow radix2 1023)%R ->
  Bltb (to_double x) double_min || Bltb double_max (to_double x) = false.
Proof.
  intros x F [L U]. destruct double_min_R as [FM EM]. destruct double_max_R as [FX EX].
  destruct (to_double_finite x F) as [C1 _]. set (y := round radix2 _ _ (B2R x)) in *.
  assert (Y1 : (bpow radix2 (-1022) <= y)%R) by (rewrite <- round_double_bpow by lia; apply round_double_le, L).
  assert (Y2 : (y <= bpow radix2 1023)%R) by (rewrite <- round_double_bpow by lia; apply round_double_le, U).
  pose proof (bpow_gt_0 radix2 (-1022)) as P.
  destruct C1 as [FD ED].
  { rewrite Rabs_pos_eq by lra. apply Rle_lt_trans with (1 := Y2). apply bpow_lt. lia. }
  rewrite !Bltb_correct by assumption. apply orb_false_iff. split; apply Rlt_bool_false; rewrite ED; lra.
Qed.

(** Conversely, what is accepted is positive, or not a number. *)
Lemma accepted_positive : forall x, Bltb (to_double x) double_min || Bltb double_max (to_double x) = false ->
  is_nan x = true \/ (is_finite x = true /\ (0 < B2R x)%R).
Proof.
  intros x A. apply orb_false_iff in A. destruct A as [A1 A2].
  destruct (is_nan x) eqn:N; [auto|]. right.
  destruct (Rlt_or_le 0 (B2R x)) as [P|P].
  - split; [|exact P]. destruct x as [s|s| |s m e H]; try reflexivity; try discriminate N. cbn in P. lra.
  - exfalso. assert (I : x = B754_infinity false).
    { destruct x as [s|[]| |s m e H]; try reflexivity; exfalso;
        rewrite refused in A1; try discriminate A1; try exact N; try discriminate; try exact P. }
    subst x. vm_compute in A2. discriminate A2.
Qed.

(** The cast to [float]: rounded, or infinite. *)
Lemma to_float_finite : forall x, is_finite x = true ->
  (Rabs (rnd (B2R x)) < bpow radix2 128 -> is_finite (to_float x) = true /\ B2R (to_float x) = rnd (B2R x))%R.
Proof.
  intros x F L. destruct x as [s|s| |s m e H]; try discriminate F.
  - cbn [B2R to_float is_finite]. rewrite rnd_0. auto.
  - cbn [to_float]. pose proof (binary_normalize_correct 24 128 _ _ mode_NE (cond_Zopp s (Zpos m)) e s) as C. cbv zeta in C.
    cbn [B2R] in L |- *. rewrite Rlt_bool_true in C by exact L. tauto.
Qed.
