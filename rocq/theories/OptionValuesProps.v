(** * Property theorems C88 and C89: the numeric options *)

From Coq Require Import List ZArith Bool Ascii String Reals Lia Lra.
From Flocq Require Import Core BinarySingleNaN.
From Verif Require Import Base F32 F32Facts F32Signed NormaliseProofs ScheduleModel TemperatureModel StunModel OptionsModel OptionsProps OptionValuesModel
  OptionValuesSpec OptionValuesProofs.
Import ListNotations.
Local Open Scope Z_scope.

#[local] Existing Instance prec64_gt_0.
#[local] Existing Instance prec64_lt_emax.

(** ** Whole numbers *)

(** C88: a value that is accepted for one of the options --batch-size,
    --max-idle-iters, --stun-window and --histogram-bin-size is a positive
    [int], and it is the one written in the text: in base 16 after 0x, in
    base 8 after a leading zero, otherwise in base 10. *)
Theorem int_option_positive : forall strtold l z, reads_integers strtold -> int_option strtold l = Some z ->
  0 < z < 2 ^ 31 /\ ((~ leading_zero l /\ written 10 [] l z) \/ octal l z \/ hexadecimal l z).
Proof.
  intros strtold l z (RD & RH & RT) H. unfold int_option in H.
  destruct (positive_number strtold l) eqn:P; [|discriminate H].
  unfold integral_conversion in H.
  assert (NT : l <> list_ascii_of_string "true").
  { intros ->. unfold positive_number in P. rewrite RT in P. discriminate P. }
  assert (W : strtoll 0 l = Some (z, []) /\ fits_int z = true).
  { destruct (strtoll 0 l) as [[v [|c rest]]|].
    - destruct (fits_int v) eqn:FI; [|discriminate H]. injection H as ->. auto.
    - destruct (list_eq_dec ascii_dec l (list_ascii_of_string "true")); [congruence|discriminate H].
    - destruct (list_eq_dec ascii_dec l (list_ascii_of_string "true")); [congruence|discriminate H]. }
  destruct W as [W FI]. pose proof (strtoll_cases l z W) as C. split; [|exact C].
  assert (R : exists w, read_as (strtold l) w /\ (z <= 0 -> w <= 0)).
  { destruct C as [[_ C]|[C|C]].
    - exists z. split; [apply RD, C|auto].
    - destruct (octal_decimal l z C) as (w & D & S). exists w. split; [apply RD, D|exact S].
    - exists z. split; [apply RH, C|auto]. }
  destruct R as (w & (x & E & _ & N) & S). unfold positive_number in P. rewrite E in P. apply negb_true_iff in P.
  unfold fits_int in FI. apply andb_true_iff in FI. destruct FI as [_ FI]. apply Z.ltb_lt in FI. split; [|exact FI].
  destruct (Z.lt_ge_cases 0 z) as [L|L]; [exact L|]. exfalso.
  destruct (N (S L)) as (N1 & N2 & N3). rewrite (refused x N1 N2 N3) in P. discriminate P.
Qed.
Print Assumptions int_option_positive.

Lemma decimal_digits : forall l z, digits l z -> digits_in 10 l z.
Proof. intros l z D. apply number_in; [lia|]. apply digits_number, D. Qed.

(** C88: every positive [int], written in base 10 without leading zeros, is
    accepted and arrives unchanged. *)
Theorem int_option_accepts : forall strtold l z, reads_integers strtold ->
  digits_in 10 l z -> (forall r, l <> "0"%char :: r) -> 0 < z < 2 ^ 31 -> int_option strtold l = Some z.
Proof.
  intros strtold l z (RD & _ & _) D NZ R. unfold int_option, positive_number.
  destruct (RD l z (wr_plain 10 [] [] l z (Forall_nil _) D)) as (x & E & X & _). rewrite E.
  destruct X as [F V]; [lia|]. rewrite accepted; [|exact F|].
  - cbn [negb]. unfold integral_conversion, strtoll. cbn [Z.eqb].
    destruct (in_head 10 l z D) as (c & d & r & DG & EL). destruct (digit_char_in 10 c d DG ltac:(lia)) as (S & M & P & _).
    assert (SK : skip_spaces l = l) by (rewrite EL; cbn [skip_spaces]; rewrite S; reflexivity). rewrite SK.
    assert (SG : read_signed read_prefixed l = read_prefixed l) by (rewrite EL; apply signed_plain; assumption).
    rewrite SG, prefixed_ten by exact NZ. rewrite (in_number 10 l z D) by lia.
    replace (fits_int z) with true; [reflexivity|]. symmetry. unfold fits_int. apply andb_true_iff.
    split; [apply Z.leb_le|apply Z.ltb_lt]; lia.
  - rewrite V. split.
    + apply Rle_trans with (bpow radix2 0); [apply bpow_le; lia|]. cbn. apply IZR_le. lia.
    + apply Rle_trans with (bpow radix2 31); [|apply bpow_le; lia]. change (bpow radix2 31) with (IZR (2 ^ 31)). apply IZR_le. lia.
Qed.
Print Assumptions int_option_accepts.

(** ** A function that reads integers *)

(** An integer as [long double], rounded. *)
Definition long_of_Z (z : Z) : long_double := binary_normalize 64 16384 _ _ mode_NE z 0 false.

Definition ex_strtold (l : list ascii) : option long_double :=
  match strtoll 10 l with
  | Some (z, []) => Some (long_of_Z z)
  | _ => match strtoll 0 l with Some (z, []) => Some (long_of_Z z) | _ => None end
  end.

Lemma written_read : forall base pre l z number, base <= 16 ->
  (forall r v, digits_in base r v -> number (pre ++ r) = Some (v, [])) ->
  (forall r v, digits_in base r v -> exists c r', pre ++ r = c :: r' /\ is_space c = false /\ c <> "-"%char /\ c <> "+"%char) ->
  written base pre l z -> read_signed number (skip_spaces l) = Some (z, []).
Proof.
  intros base pre l z number B N HD W. destruct W as [sp l z F D|sp l z F D|sp l z F D]; rewrite skip_all by exact F.
  - destruct (HD l z D) as (c & r' & E & S & M & P). pose proof (N l z D) as H. rewrite E in *. cbn [skip_spaces].
    rewrite S, signed_plain by assumption. exact H.
  - cbn [skip_spaces]. change (is_space "+") with false. cbv iota. cbn [read_signed]. apply N, D.
  - cbn [skip_spaces]. change (is_space "-") with false. cbv iota. cbn [read_signed]. rewrite (N l z D). reflexivity.
Qed.

Lemma long_read : forall z, read_as (Some (long_of_Z z)) z.
Proof.
  intro z. exists (long_of_Z z). split; [reflexivity|].
  pose proof (binary_normalize_correct 64 16384 _ _ mode_NE z 0 false) as C. cbv zeta in C. fold (long_of_Z z) in C.
  assert (E : F2R (Float radix2 z 0) = IZR z) by (unfold F2R; cbn; ring). rewrite E in C. split.
  - intro A. assert (G : round radix2 (SpecFloat.fexp 64 16384) (round_mode mode_NE) (IZR z) = IZR z).
    { apply round_generic; [apply valid_rnd_N|]. rewrite <- E. apply generic_format_F2R. intros NZ. rewrite E.
      unfold cexp, SpecFloat.fexp, SpecFloat.emin.
      assert (M : (mag radix2 (IZR z) <= 63)%Z).
      { apply mag_le_bpow; [apply not_0_IZR; exact NZ|]. rewrite <- abs_IZR. change (bpow radix2 63) with (IZR (2 ^ 63)). apply IZR_lt. lia. }
      lia. }
    rewrite G, Rlt_bool_true in C; [tauto|]. rewrite <- abs_IZR. apply Rlt_trans with (bpow radix2 63).
    + change (bpow radix2 63) with (IZR (2 ^ 63)). apply IZR_lt. lia.
    + apply bpow_lt. lia.
  - intro L. set (y := round radix2 (SpecFloat.fexp 64 16384) (round_mode mode_NE) (IZR z)) in C.
    assert (Y : (y <= 0)%R).
    { unfold y. rewrite <- (round_0 radix2 (SpecFloat.fexp 64 16384) (round_mode mode_NE)) by apply valid_rnd_N.
      apply round_le; [apply (fexp_correct 64 16384 eq_refl)|apply valid_rnd_N|]. apply IZR_le. exact L. }
    destruct (Rlt_bool_spec (Rabs y) (bpow radix2 16384)) as [G|G].
    + destruct C as (B & F & _). rewrite B. split; [|split; [|exact Y]].
      * destruct (long_of_Z z); try discriminate F; reflexivity.
      * intro X. rewrite X in F. discriminate F.
    + assert (NZ : (IZR z < 0)%R).
      { destruct (Z.eq_dec z 0) as [->|NZ]; [|apply IZR_lt; lia]. exfalso. revert G. unfold y.
        rewrite round_0 by apply valid_rnd_N. rewrite Rabs_R0. pose proof (bpow_gt_0 radix2 16384). lra. }
      rewrite Rlt_bool_true in C by exact NZ. cbn in C. destruct (long_of_Z z) as [s|s| |s m e H]; try discriminate C.
      injection C as ->. split; [reflexivity|]. split; [discriminate|]. cbn. lra.
Qed.

(** Such a function exists. *)
Lemma ex_strtold_reads : reads_integers ex_strtold.
Proof.
  split; [|split; [|vm_compute; reflexivity]].
  - intros l z W. unfold ex_strtold, strtoll. change (10 =? 0) with false. cbv iota.
    rewrite (written_read 10 [] l z (read_number 10)); [apply long_read|lia| | |exact W].
    + intros r v D. apply in_number; [exact D|lia].
    + intros r v D. destruct (in_head _ _ _ D) as (c & d & r' & DG & ->). exists c, r'. split; [reflexivity|].
      pose proof (digit_char_in _ _ _ DG ltac:(lia)). tauto.
  - intros l z H.
    assert (X : exists c, (c = "x" \/ c = "X")%char /\ written 16 ["0"%char; c] l z) by (destruct H; eauto). clear H.
    destruct X as (c & X & W).
    assert (H0 : strtoll 0 l = Some (z, [])).
    { unfold strtoll. cbn [Z.eqb]. apply (written_read 16 ["0"%char; c] l z); [lia| | |exact W].
      - intros r v D. cbn [app read_prefixed].
        replace (Ascii.eqb c "x" || Ascii.eqb c "X")%bool with true by (destruct X as [->| ->]; reflexivity).
        rewrite (in_number 16 r v D) by lia. reflexivity.
      - intros r v D. exists "0"%char, (c :: r). repeat split; discriminate. }
    assert (H10 : exists v r, strtoll 10 l = Some (v, c :: r)).
    { unfold strtoll. change (10 =? 0) with false. cbv iota.
      assert (N : forall r, read_number 10 ("0"%char :: c :: r) = Some (0, c :: r)) by (intro r; destruct X as [->| ->]; reflexivity).
      destruct W as [sp l z F D|sp l z F D|sp l z F D]; rewrite skip_all by exact F; cbn [app skip_spaces];
        [change (is_space "0") with false|change (is_space "+") with false|change (is_space "-") with false]; cbv iota.
      - rewrite signed_plain by discriminate. rewrite N. eauto.
      - cbn [read_signed]. rewrite N. eauto.
      - cbn [read_signed]. rewrite N. eauto. }
    destruct H10 as (v & r & H10). unfold ex_strtold. rewrite H10, H0. apply long_read.
Qed.

(** For instance 2500, octal 0144 and hexadecimal 0x1F are accepted, -3, 0
    and 00 are not. *)
Example ex_int_options :
  map (fun s => int_option ex_strtold (list_ascii_of_string s)) ["2500"; "0144"; " +0x1F"; "-3"; "0"; "00"; "1e3"; "true"]%string
  = [Some 2500; Some 100; Some 31; None; None; None; None; None].
Proof. vm_compute. reflexivity. Qed.

(** C64 applies to the real check of the option --restart-period. *)
Theorem positive_number_checks_sign : forall strtold, reads_integers strtold -> checks_sign (positive_number strtold).
Proof.
  intros strtold (RD & _ & _) l z T R.
  assert (W : written 10 [] l z).
  { destruct T as [sp l z F D|sp l z F D|sp l z F D]; apply decimal_digits in D.
    - apply (wr_plain 10 [] sp l z F D).
    - apply (wr_plus 10 [] sp l z F D).
    - apply (wr_minus 10 [] sp l z F D). }
  destruct (RD l z W) as (x & E & X & N). unfold positive_number. rewrite E.
  destruct (Z.ltb_spec 0 z) as [L|L].
  - destruct X as [F V]; [lia|]. rewrite accepted; [reflexivity|exact F|]. rewrite V. split.
    + apply Rle_trans with (bpow radix2 0); [apply bpow_le; lia|]. cbn. apply IZR_le. lia.
    + apply Rle_trans with (bpow radix2 31); [|apply bpow_le; lia]. change (bpow radix2 31) with (IZR (2 ^ 31)). apply IZR_le. lia.
  - destruct (N L) as (N1 & N2 & N3). rewrite (refused x N1 N2 N3). reflexivity.
Qed.
Print Assumptions positive_number_checks_sign.

(** ** Other numbers *)

(** C89, full statement: what is accepted for --beta-scale or --gamma is a
    positive finite float.  False, see [float_option_refuted]; proved for
    numbers between [2 ^ -149] and [2 ^ 127], which are accepted and
    rounded once. *)
Theorem float_option_partial : forall strtold l x, strtold l = Some x -> is_finite x = true ->
  (bpow radix2 (-149) <= B2R x <= bpow radix2 127)%R ->
  exists v, float_option strtold l = Some v /\ f_lt f_zero v = true /\ is_finite v = true /\ B2R v = rnd (B2R x).
Proof.
  intros strtold l x E F [L U]. unfold float_option, positive_number. rewrite E. rewrite accepted.
  2: exact F.
  2:{ split; [apply Rle_trans with (2 := L)|apply Rle_trans with (1 := U)]; apply bpow_le; lia. }
  cbn [negb option_map].
  assert (R1 : (bpow radix2 (-149) <= rnd (B2R x))%R).
  { rewrite <- (rnd_bpow (-149)) by lia. apply rnd_le, L. }
  assert (R2 : (rnd (B2R x) <= bpow radix2 127)%R).
  { rewrite <- (rnd_bpow 127) by lia. apply rnd_le, U. }
  pose proof (bpow_gt_0 radix2 (-149)) as P.
  destruct (to_float_finite x F) as [FF V].
  { rewrite Rabs_pos_eq by lra. apply Rle_lt_trans with (1 := R2). apply bpow_lt. lia. }
  exists (to_float x). split; [reflexivity|]. split; [|split; [exact FF|exact V]].
  unfold f_lt. rewrite Bltb_correct; [|reflexivity|exact FF]. apply Rlt_bool_true. rewrite V. apply Rlt_le_trans with (1 := P). exact R1.
Qed.
Print Assumptions float_option_partial.

(** C89: numbers that are not positive are never accepted. *)
Theorem float_option_only_positive : forall strtold l v, float_option strtold l = Some v ->
  exists x, strtold l = Some x /\ v = to_float x /\ (is_nan x = true \/ (is_finite x = true /\ (0 < B2R x)%R)).
Proof.
  intros strtold l v H. unfold float_option, positive_number in H. destruct (strtold l) as [x|]; [|discriminate H].
  destruct (Bltb (to_double x) double_min || Bltb double_max (to_double x)) eqn:A; [discriminate H|].
  cbn in H. injection H as <-. exists x. split; [reflexivity|]. split; [reflexivity|]. apply accepted_positive, A.
Qed.
Print Assumptions float_option_only_positive.

(** For instance 0.001, the default of --beta-scale. *)
Definition ex_thousandth : long_double := Bdiv mode_NE (long_of_Z 1) (long_of_Z 1000).

Example ex_float_option : exists v,
  float_option (fun _ => Some ex_thousandth) (list_ascii_of_string "0.001") = Some v /\ f_lt f_zero v = true /\
  f_eq v (f_div f_one (f_of_Z 1000)) = true.
Proof.
  exists (to_float ex_thousandth). split; [|split; vm_compute; reflexivity].
  unfold float_option. replace (positive_number _ _) with true by (vm_compute; reflexivity). reflexivity.
Qed.

Lemma example_in_range : is_finite ex_thousandth = true /\ (bpow radix2 (-149) <= B2R ex_thousandth <= bpow radix2 127)%R.
Proof.
  split; [vm_compute; reflexivity|].
  assert (F : forall k, -16000 <= k <= 16000 -> is_finite (binary_normalize 64 16384 _ _ mode_NE 1 k false : long_double) = true /\
    B2R (binary_normalize 64 16384 _ _ mode_NE 1 k false : long_double) = bpow radix2 k).
  { intros k K. pose proof (binary_normalize_correct 64 16384 _ _ mode_NE 1 k false) as C. cbv zeta in C.
    assert (E : F2R (Float radix2 1 k) = bpow radix2 k) by (unfold F2R; cbn [Fnum Fexp]; ring). rewrite E, round_generic in C.
    - rewrite Rlt_bool_true in C; [tauto|]. rewrite Rabs_pos_eq by apply bpow_ge_0. apply bpow_lt. lia.
    - apply valid_rnd_N.
    - apply generic_format_bpow. unfold SpecFloat.fexp, SpecFloat.emin. lia. }
  destruct (F (-149) ltac:(lia)) as [F1 E1]. destruct (F 127 ltac:(lia)) as [F2 E2]. rewrite <- E1, <- E2.
  assert (FT : is_finite ex_thousandth = true) by (vm_compute; reflexivity).
  split.
  - assert (X : Bleb (binary_normalize 64 16384 _ _ mode_NE 1 (-149) false : long_double) ex_thousandth = true) by (vm_compute; reflexivity).
    rewrite Bleb_correct in X by assumption. revert X. case Rle_bool_spec; [auto|discriminate].
  - assert (X : Bleb ex_thousandth (binary_normalize 64 16384 _ _ mode_NE 1 127 false : long_double) = true) by (vm_compute; reflexivity).
    rewrite Bleb_correct in X by assumption. revert X. case Rle_bool_spec; [auto|discriminate].
Qed.

(** Without a positive scale no job can be constructed. *)
Lemma scale_needed : forall o p op, f_lt f_zero (op_scale op) = false -> job_new o p op = Broken.
Proof.
  intros o p op H. unfold job_new.
  destruct (negb (List.length (sp_deps p) =? 0)%nat); [|reflexivity]. destruct (negb (List.length (sp_agents p) =? 0)%nat); [|reflexivity].
  cbn [expects bind]. unfold MakespanModel.makespan_new.
  destruct (negb (List.length (sp_perf p) =? 0)%nat); [|reflexivity]. destruct (negb (List.length (sp_dur p) =? 0)%nat); [|reflexivity].
  cbn [expects bind]. unfold temperature_new. rewrite H. reflexivity.
Qed.

(** C89, refuted: 0x1p-200 is a positive [double] but becomes zero as
    [float], 0x1p200 becomes infinite, and nan is accepted because it is
    neither below nor above the range.  With --beta-scale 0x1p-200 or
    --beta-scale nan the construction of the optimizer violates a contract,
    for every problem. *)
Theorem float_option_refuted : exists small large,
  is_finite small = true /\ B2R small = bpow radix2 (-200) /\ is_finite large = true /\ B2R large = bpow radix2 200 /\
  forall strtold,
  strtold (list_ascii_of_string "0x1p-200") = Some small ->
  strtold (list_ascii_of_string "0x1p200") = Some large ->
  strtold (list_ascii_of_string "nan") = Some B754_nan ->
  float_option strtold (list_ascii_of_string "0x1p-200") = Some f_zero /\
  float_option strtold (list_ascii_of_string "0x1p200") = Some (B754_infinity false) /\
  float_option strtold (list_ascii_of_string "nan") = Some B754_nan /\
  forall o p op text, text = "0x1p-200"%string \/ text = "nan"%string ->
    float_option strtold (list_ascii_of_string text) = Some (op_scale op) -> job_new o p op = Broken.
Proof.
  set (at_ := fun k => binary_normalize 64 16384 _ _ mode_NE 1 k false : long_double).
  assert (F : forall k, -16000 <= k <= 16000 -> is_finite (at_ k) = true /\ B2R (at_ k) = bpow radix2 k).
  { intros k K. pose proof (binary_normalize_correct 64 16384 _ _ mode_NE 1 k false) as C. cbv zeta in C. fold (at_ k) in C.
    assert (E : F2R (Float radix2 1 k) = bpow radix2 k) by (unfold F2R; cbn [Fnum Fexp]; ring). rewrite E, round_generic in C.
    - rewrite Rlt_bool_true in C; [tauto|]. rewrite Rabs_pos_eq by apply bpow_ge_0. apply bpow_lt. lia.
    - apply valid_rnd_N.
    - apply generic_format_bpow. unfold SpecFloat.fexp, SpecFloat.emin. lia. }
  exists (at_ (-200)), (at_ 200).
  split; [apply F; lia|]. split; [apply F; lia|]. split; [apply F; lia|]. split; [apply F; lia|].
  intros strtold H1 H2 H3.
  assert (A1 : float_option strtold (list_ascii_of_string "0x1p-200") = Some f_zero).
  { unfold float_option, positive_number. rewrite H1. replace (negb _) with true by (vm_compute; reflexivity).
    cbn [option_map]. apply f_equal, B2SF_inj. vm_compute. reflexivity. }
  assert (A2 : float_option strtold (list_ascii_of_string "0x1p200") = Some (B754_infinity false)).
  { unfold float_option, positive_number. rewrite H2. replace (negb _) with true by (vm_compute; reflexivity).
    cbn [option_map]. apply f_equal, B2SF_inj. vm_compute. reflexivity. }
  assert (A3 : float_option strtold (list_ascii_of_string "nan") = Some B754_nan).
  { unfold float_option, positive_number. rewrite H3. replace (negb _) with true by (vm_compute; reflexivity). reflexivity. }
  split; [exact A1|]. split; [exact A2|]. split; [exact A3|].
  intros o p op text [->| ->] E; apply scale_needed; [rewrite A1 in E|rewrite A3 in E]; injection E as <-; reflexivity.
Qed.
Print Assumptions float_option_refuted.

(** C89: with ordinary numbers, and a restart period without a leading
    zero, the temperature can be constructed. *)
Theorem accepted_temperature_partial : forall strtold scale x window period s w r,
  reads_integers strtold ->
  strtold scale = Some x -> is_finite x = true -> (bpow radix2 (-149) <= B2R x <= bpow radix2 127)%R ->
  float_option strtold scale = Some s -> int_option strtold window = Some w ->
  ~ leading_zero period -> restart_period (positive_number strtold) period = Some r ->
  exists t, temperature_new s w r = Ok t.
Proof.
  intros strtold scale x window period s w r RI EX FX BX ES EW NZ ER.
  destruct (float_option_partial strtold scale x EX FX BX) as (v & EV & PV & _). rewrite ES in EV. injection EV as <-.
  destruct (int_option_positive strtold window w RI EW) as [PW _].
  destruct (restart_period_partial _ _ _ (positive_number_checks_sign strtold RI) NZ ER) as (PR & (k & EK) & _).
  unfold temperature_new. rewrite PV. cbn [expects bind].
  replace (0 <? w) with true by (symmetry; apply Z.ltb_lt; lia). cbn [expects bind].
  replace (0 <? r) with true by (symmetry; apply Z.ltb_lt; lia). cbn [expects bind].
  rewrite EK, power_single_bit. cbn [expects bind]. eexists. reflexivity.
Qed.
Print Assumptions accepted_temperature_partial.

(** For instance scale 1, window 10000 and period 256. *)
Example ex_accepted : exists t, temperature_new f_one 10000 256 = Ok t.
Proof.
  assert (R : read_as (ex_strtold (list_ascii_of_string "1")) 1).
  { apply (proj1 ex_strtold_reads). apply (wr_plain 10 [] [] ["1"%char] 1 (Forall_nil _)).
    apply number_in; [lia|]. reflexivity. }
  destruct R as (x & E & X & _). destruct (X ltac:(lia)) as [F V].
  apply (accepted_temperature_partial ex_strtold (list_ascii_of_string "1") x (list_ascii_of_string "10000")
    (list_ascii_of_string "256")).
  - exact ex_strtold_reads.
  - exact E.
  - exact F.
  - rewrite V. change 1%R with (bpow radix2 0). split; apply bpow_le; lia.
  - unfold float_option. replace (positive_number _ _) with true by (vm_compute; reflexivity).
    unfold ex_strtold. replace (strtoll 10 (list_ascii_of_string "1")) with (Some (1, [] : list ascii)) by (vm_compute; reflexivity).
    cbv beta iota.
    cbn [option_map]. apply f_equal, B2SF_inj. vm_compute. reflexivity.
  - vm_compute. reflexivity.
  - intros (a & b & H & A). destruct a as [|c a]; [discriminate H|]. injection H as <- H.
    inversion A as [|? ? [Y|[Y|Y]] _]; discriminate Y.
  - vm_compute. reflexivity.
Qed.
