(** * Property theorems C64: the command line options *)

From Coq Require Import String List ZArith NArith Bool Ascii Lia.
From Verif Require Import Base F32 ProjectModel StunModel StunProofs TemperatureModel PredictModel CliModel CliProps OptionsModel.
Import ListNotations.
Local Open Scope Z_scope.

(** ** Vocabulary *)

(** The number a sequence of decimal digits stands for. *)
Inductive digits : list ascii -> Z -> Prop :=
| dg_one : forall d, 0 <= d < 10 -> digits [ascii_of_nat (Z.to_nat (48 + d))] d
| dg_more : forall l z d, digits l z -> 0 <= d < 10 ->
    digits (l ++ [ascii_of_nat (Z.to_nat (48 + d))]) (10 * z + d).

(** A decimal integer: spaces, a sign or none, digits. *)
Inductive integer_text : list ascii -> Z -> Prop :=
| it_plain : forall spaces l z, Forall (fun c => is_space c = true) spaces -> digits l z ->
    integer_text (spaces ++ l) z
| it_plus : forall spaces l z, Forall (fun c => is_space c = true) spaces -> digits l z ->
    integer_text (spaces ++ "+"%char :: l) z
| it_minus : forall spaces l z, Forall (fun c => is_space c = true) spaces -> digits l z ->
    integer_text (spaces ++ "-"%char :: l) (- z).

(** What is assumed of [CLI::PositiveNumber]: on texts of decimal integers
    in the range of [int] it tells the positive ones. *)
Definition checks_sign (positive : list ascii -> bool) : Prop :=
  forall l z, integer_text l z -> - 2 ^ 31 <= z < 2 ^ 31 -> positive l = (0 <? z).

(** The digits of the text start with a zero. *)
Definition leading_zero (l : list ascii) : Prop :=
  exists a b, l = a ++ "0"%char :: b /\
    Forall (fun c => is_space c = true \/ c = "+"%char \/ c = "-"%char) a.

(** ** C64 *)

Lemma digit10 : forall c v, digit_value 10 c = Some v -> 0 <= v < 10 /\ c = ascii_of_nat (Z.to_nat (48 + v)).
Proof.
  intros c v. unfold digit_value. set (n := Z.of_nat (nat_of_ascii c)).
  assert (N : 0 <= n) by (unfold n; lia).
  intro H.
  destruct ((48 <=? n) && (n <=? 57)) eqn:A.
  - apply andb_true_iff in A. destruct A as [A1 A2]. apply Z.leb_le in A1. apply Z.leb_le in A2.
    destruct (n - 48 <? 10); [|discriminate H]. injection H as <-. split; [lia|].
    replace (48 + (n - 48)) with n by lia. unfold n. rewrite Nat2Z.id. symmetry. apply ascii_nat_embedding.
  - destruct ((97 <=? n) && (n <=? 122)) eqn:B.
    + apply andb_true_iff in B. destruct B as [B1 B2]. apply Z.leb_le in B1.
      destruct (Z.ltb_spec (n - 87) 10); [lia|discriminate H].
    + destruct ((65 <=? n) && (n <=? 90)) eqn:C.
      * apply andb_true_iff in C. destruct C as [C1 C2]. apply Z.leb_le in C1.
        destruct (Z.ltb_spec (n - 55) 10); [lia|discriminate H].
      * discriminate H.
Qed.

Lemma read_digits_value : forall l pre acc z, (pre <> [] -> digits pre acc) -> (pre = [] -> acc = 0) ->
  (pre <> [] \/ l <> []) -> read_digits 10 acc l = (z, []) -> digits (pre ++ l) z.
Proof.
  induction l as [|c l IH]; intros pre acc z D N NE H; cbn [read_digits] in H.
  - injection H as <-. rewrite app_nil_r. destruct NE as [NE|NE]; [auto|congruence].
  - destruct (digit_value 10 c) as [v|] eqn:V; [|discriminate H].
    destruct (digit10 c v V) as [R ->].
    replace (pre ++ ascii_of_nat (Z.to_nat (48 + v)) :: l)
      with ((pre ++ [ascii_of_nat (Z.to_nat (48 + v))]) ++ l) by (rewrite <- app_assoc; reflexivity).
    apply IH with (acc * 10 + v).
    + intros _. destruct pre as [|p pre'].
      * rewrite (N eq_refl). cbn [app]. replace (0 * 10 + v) with v by lia. constructor. exact R.
      * replace (acc * 10 + v) with (10 * acc + v) by lia. constructor; [|exact R]. apply D. discriminate.
    + intro E. destruct pre; discriminate E.
    + left. intro E. destruct pre; discriminate E.
    + exact H.
Qed.

Lemma spaces_split : forall l, exists sp, l = sp ++ skip_spaces l /\ Forall (fun c => is_space c = true) sp.
Proof.
  induction l as [|c l (sp & E & F)]; [exists []; auto|]. cbn [skip_spaces].
  destruct (is_space c) eqn:S.
  - exists (c :: sp). split; [cbn; congruence|auto].
  - exists []. auto.
Qed.

(** Without a leading zero, base 0 means base 10. *)
Lemma prefixed_ten : forall r, (forall b, r <> "0"%char :: b) -> read_prefixed r = read_number 10 r.
Proof.
  intros [|c r] N; [reflexivity|]. destruct (ascii_dec c "0") as [->|NE]; [destruct (N r eq_refl)|].
  destruct c as [b0 b1 b2 b3 b4 b5 b6 b7].
  destruct b0, b1, b2, b3, b4, b5, b6, b7; try reflexivity; congruence.
Qed.

Lemma number_digits : forall r z, read_number 10 r = Some (z, []) -> digits r z.
Proof.
  intros r z H. unfold read_number in H. destruct r as [|c r]; [discriminate H|].
  destruct (digit_value 10 c); [|discriminate H]. injection H as H.
  apply (read_digits_value (c :: r) [] 0 z); [congruence|reflexivity|right; discriminate|exact H].
Qed.

Lemma signed_plain : forall number c r, c <> "-"%char -> c <> "+"%char ->
  read_signed number (c :: r) = number (c :: r).
Proof.
  intros number c r N1 N2. destruct c as [b0 b1 b2 b3 b4 b5 b6 b7].
  destruct b0, b1, b2, b3, b4, b5, b6, b7; try reflexivity; congruence.
Qed.

(** Reading a whole text that has no leading zero. *)
Lemma strtoll_whole : forall l z, ~ leading_zero l -> strtoll 0 l = Some (z, []) ->
  strtoll 10 l = Some (z, []) /\ integer_text l z.
Proof.
  intros l z NZ H. destruct (spaces_split l) as (sp & E & F). unfold strtoll in *. cbn [Z.eqb] in *.
  change (10 =? 0) with false. cbv iota.
  assert (F' : Forall (fun c => is_space c = true \/ c = "+"%char \/ c = "-"%char) sp)
    by (eapply Forall_impl; [|exact F]; cbn; auto).
  set (r := skip_spaces l) in *. clearbody r. subst l.
  assert (Z1 : forall b, r <> "0"%char :: b).
  { intros b ->. apply NZ. exists sp, b. auto. }
  assert (Z2 : forall s b, r = s :: "0"%char :: b -> s = "+"%char \/ s = "-"%char -> False).
  { intros s b -> S. apply NZ. exists (sp ++ [s]), b. split; [rewrite <- app_assoc; reflexivity|].
    apply Forall_app. split; [exact F'|]. constructor; [right; exact S|constructor]. }
  assert (PLAIN : read_prefixed r = Some (z, []) -> read_number 10 r = Some (z, []) /\ integer_text (sp ++ r) z).
  { intro P. rewrite prefixed_ten in P by exact Z1. split; [exact P|]. apply it_plain; [exact F|].
    apply number_digits, P. }
  destruct r as [|c r]; [discriminate H|].
  destruct (ascii_dec c "-") as [->|N1].
  - assert (N : forall b, r <> "0"%char :: b).
    { intros b ->. apply (Z2 "-"%char b eq_refl). auto. }
    unfold read_signed in H |- *. rewrite prefixed_ten in H by exact N. destruct (read_number 10 r) as [[v rest]|] eqn:R; [|discriminate H].
    injection H as <- ->. split; [reflexivity|]. apply it_minus; [exact F|]. apply number_digits, R.
  - destruct (ascii_dec c "+") as [->|N2].
    + assert (N : forall b, r <> "0"%char :: b).
      { intros b ->. apply (Z2 "+"%char b eq_refl). auto. }
      unfold read_signed in H |- *. rewrite prefixed_ten in H by exact N. split; [exact H|]. apply it_plus; [exact F|]. apply number_digits, H.
    + rewrite signed_plain in H |- * by assumption. apply PLAIN, H.
Qed.

Lemma single_bit_power : forall n, has_single_bit n = true -> exists k, n = (2 ^ k)%N.
Proof.
  intros n H. unfold has_single_bit in H. apply andb_true_iff in H. destruct H as [H1 H2].
  apply N.eqb_eq in H2. assert (P : (0 < n)%N).
  { destruct n; [discriminate H1|reflexivity]. }
  clear H1. exists (N.log2 n). pose proof (N.log2_spec n P) as [L U].
  destruct (N.eq_dec n (2 ^ N.log2 n)) as [E|NE]; [exact E|]. exfalso.
  assert (B : N.log2 (n - 1) = N.log2 n).
  { apply N.log2_unique; lia. }
  assert (T : N.testbit (N.land n (n - 1)) (N.log2 n) = true).
  { rewrite N.land_spec. apply andb_true_iff. split; [apply N.bit_log2; lia|].
    rewrite <- B. apply N.bit_log2. pose proof (N.pow_nonzero 2 (N.log2 n)). lia. }
  rewrite H2, N.bits_0 in T. discriminate T.
Qed.

Lemma power_single_bit : forall k, has_single_bit (Z.to_N (2 ^ Z.of_nat k)) = true.
Proof. exact StunProofs.period_bit. Qed.

(** *** Texts of integers are read as such *)

Lemma digit_of : forall base d, 0 <= d < 10 -> d < base ->
  digit_value base (ascii_of_nat (Z.to_nat (48 + d))) = Some d.
Proof.
  intros base d R B. unfold digit_value. rewrite nat_ascii_embedding by lia.
  rewrite Z2Nat.id by lia.
  replace (48 <=? 48 + d) with true by (symmetry; apply Z.leb_le; lia).
  replace (48 + d <=? 57) with true by (symmetry; apply Z.leb_le; lia). cbn [andb].
  replace (48 + d - 48) with d by lia.
  replace (d <? base) with true by (symmetry; apply Z.ltb_lt; lia). reflexivity.
Qed.

Lemma digits_read : forall l z, digits l z -> forall r,
  read_digits 10 0 (l ++ r) = read_digits 10 z r.
Proof.
  intros l z D. induction D as [d R|l z d D IH R]; intro r.
  - cbn [app read_digits]. rewrite digit_of by lia. reflexivity.
  - rewrite <- app_assoc, IH. cbn [app read_digits]. rewrite digit_of by lia. f_equal. lia.
Qed.

Lemma digits_head : forall l z, digits l z -> exists d r, 0 <= d < 10 /\ l = ascii_of_nat (Z.to_nat (48 + d)) :: r.
Proof.
  intros l z D. induction D as [d R|l z d D (e & r & E & ->) R]; [exists d, []; auto|].
  eexists e, _. split; [exact E|reflexivity].
Qed.

Lemma digits_number : forall l z, digits l z -> read_number 10 l = Some (z, []).
Proof.
  intros l z D. pose proof (digits_read l z D []) as H. rewrite app_nil_r in H.
  destruct (digits_head l z D) as (d & r & R & ->). unfold read_number. rewrite digit_of by lia.
  f_equal. exact H.
Qed.

(** Characters that are digits are neither spaces nor signs. *)
Lemma digit_char : forall d, 0 <= d < 10 ->
  let c := ascii_of_nat (Z.to_nat (48 + d)) in
  is_space c = false /\ c <> "-"%char /\ c <> "+"%char /\ (d <> 0 -> c <> "0"%char).
Proof.
  intros d R.
  assert (C : d = 0 \/ d = 1 \/ d = 2 \/ d = 3 \/ d = 4 \/ d = 5 \/ d = 6 \/ d = 7 \/ d = 8 \/ d = 9) by lia.
  repeat destruct C as [->|C]; try subst d;
    (split; [reflexivity|]; split; [discriminate|]; split; [discriminate|]; intro; discriminate || congruence).
Qed.

Lemma skip_all : forall sp r, Forall (fun c => is_space c = true) sp -> skip_spaces (sp ++ r) = skip_spaces r.
Proof.
  induction sp as [|c sp IH]; intros r F; [reflexivity|]. inversion F as [|? ? Hc Hs]. subst.
  cbn [app skip_spaces]. rewrite Hc. auto.
Qed.

Lemma integer_read : forall l z, integer_text l z -> strtoll 10 l = Some (z, []).
Proof.
  intros l z T. unfold strtoll. change (10 =? 0) with false. cbv iota.
  destruct T as [sp l z F D|sp l z F D|sp l z F D]; rewrite skip_all by exact F.
  - pose proof (digits_number l z D) as H. destruct (digits_head l z D) as (d & r & R & ->).
    destruct (digit_char d R) as (S & N1 & N2 & _). cbn [skip_spaces]. rewrite S.
    rewrite signed_plain by assumption. exact H.
  - cbn [skip_spaces]. change (is_space "+") with false. cbv iota. apply digits_number, D.
  - cbn [skip_spaces]. change (is_space "-") with false. cbv iota. unfold read_signed. rewrite (digits_number l z D). reflexivity.
Qed.

(** [CLI::PositiveNumber] has a realisation. *)
Lemma checks_sign_meets : checks_sign (fun l => match strtoll 10 l with Some (z, _) => 0 <? z | None => false end).
Proof. intros l z T R. rewrite (integer_read l z T). reflexivity. Qed.

(** *** The theorems *)

(** The full claim, for all texts:
      [restart_period positive l = Some z -> 0 < z /\ exists k, z = 2 ^ Z.of_nat k].
    It is false for texts with a leading zero, see below; it is proved for
    all others, and then the value stored is the decimal value of the text. *)
Theorem restart_period_partial : forall positive l z,
  checks_sign positive -> ~ leading_zero l -> restart_period positive l = Some z ->
  0 < z < 2 ^ 31 /\ (exists k, z = 2 ^ Z.of_nat k) /\ integer_text l z.
Proof.
  intros positive l z C NZ H. unfold restart_period in H.
  destruct (positive l) eqn:P; [|discriminate H]. cbn [andb] in H.
  destruct (power_of_2_validator l) eqn:V; [|discriminate H].
  unfold integral_conversion in H. unfold power_of_2_validator, stoi in V.
  assert (TRUE : l = list_ascii_of_string "true" -> False).
  { intros ->. vm_compute in V. discriminate V. }
  assert (WHOLE : forall v, strtoll 0 l = Some (v, []) -> fits_int v = true -> Some v = Some z ->
    0 < z < 2 ^ 31 /\ (exists k, z = 2 ^ Z.of_nat k) /\ integer_text l z).
  { intros v S FI E. injection E as ->. destruct (strtoll_whole l z NZ S) as [T I].
    rewrite T, FI in V. unfold fits_int in FI. apply andb_true_iff in FI. destruct FI as [F1 F2].
    apply Z.leb_le in F1. apply Z.ltb_lt in F2.
    rewrite (C l z I (conj F1 F2)) in P. apply Z.ltb_lt in P.
    assert (B : 2 ^ 31 < 2 ^ 32) by reflexivity.
    rewrite Z.mod_small in V by lia. destruct (single_bit_power _ V) as [k K].
    split; [lia|]. split; [|exact I]. exists (N.to_nat k).
    rewrite N_nat_Z. apply (f_equal Z.of_N) in K. rewrite Z2N.id in K by lia.
    rewrite K. apply N2Z.inj_pow. }
  destruct (strtoll 0 l) as [[v [|c r]]|] eqn:S.
  - destruct (fits_int v) eqn:FI; [exact (WHOLE v eq_refl FI H)|discriminate H].
  - destruct (list_eq_dec ascii_dec l (list_ascii_of_string "true")) as [E|E]; [destruct (TRUE E)|discriminate H].
  - destruct (list_eq_dec ascii_dec l (list_ascii_of_string "true")) as [E|E]; [destruct (TRUE E)|discriminate H].
Qed.

(** Conversely, every power of two below 2^31 written in decimal is
    accepted and stored. *)
Theorem restart_period_accepts : forall positive l k,
  checks_sign positive -> (k < 31)%nat -> digits l (2 ^ Z.of_nat k) -> ~ leading_zero l ->
  restart_period positive l = Some (2 ^ Z.of_nat k).
Proof.
  intros positive l k C K D NZ. set (z := 2 ^ Z.of_nat k) in *.
  assert (R : 0 < z < 2 ^ 31).
  { unfold z. split; [apply Z.pow_pos_nonneg; lia|]. apply Z.pow_lt_mono_r; lia. }
  assert (T : integer_text l z) by (apply (it_plain [] l z); [constructor|exact D]).
  assert (FI : fits_int z = true).
  { unfold fits_int. apply andb_true_iff. split; [apply Z.leb_le|apply Z.ltb_lt]; lia. }
  unfold restart_period, power_of_2_validator, stoi. rewrite (C l z T) by lia.
  rewrite (integer_read l z T), FI.
  replace (0 <? z) with true by (symmetry; apply Z.ltb_lt; lia).
  assert (B : 2 ^ 31 < 2 ^ 32) by reflexivity.
  rewrite (Z.mod_small z) by lia. unfold z at 1. rewrite power_single_bit. cbn [andb].
  unfold integral_conversion.
  assert (S : strtoll 0 l = Some (z, [])).
  { unfold strtoll. change (0 =? 0) with true. cbv iota.
    pose proof (digits_number l z D) as H. destruct (digits_head l z D) as (d & r & Rd & ->).
    destruct (digit_char d Rd) as (S & N1 & N2 & N3). cbn [skip_spaces]. rewrite S.
    rewrite signed_plain by assumption. rewrite prefixed_ten; [exact H|].
    intros b E. apply NZ. exists [], b. split; [exact E|constructor]. }
  rewrite S, FI. reflexivity.
Qed.

(** The text 0256 passes both checks, which read 256, and is stored as the
    octal number 174, which is not a power of two. *)
Theorem restart_period_refuted : exists l z,
  (forall positive, checks_sign positive -> restart_period positive l = Some z) /\
  ~ exists k, z = 2 ^ Z.of_nat k.
Proof.
  exists (list_ascii_of_string "0256"), 174. split.
  - intros positive C. unfold restart_period. rewrite (C _ 256).
    + vm_compute. reflexivity.
    + apply (it_plain []); [constructor|].
      apply (dg_more (list_ascii_of_string "025") 25 6); [|lia].
      apply (dg_more (list_ascii_of_string "02") 2 5); [|lia].
      apply (dg_more (list_ascii_of_string "0") 0 2); [|lia].
      apply (dg_one 0). lia.
    + split; [discriminate|reflexivity].
  - intros [k K]. destruct (Nat.le_gt_cases k 7) as [L|L].
    + assert (E : 2 ^ Z.of_nat k <= 2 ^ 7) by (apply Z.pow_le_mono_r; lia).
      change (2 ^ 7) with 128 in E. lia.
    + assert (E : 2 ^ 8 <= 2 ^ Z.of_nat k) by (apply Z.pow_le_mono_r; lia).
      change (2 ^ 8) with 256 in E. lia.
Qed.

Lemma parsed_config : forall o load c, snd (parse_config o load) = Value c ->
  exists l, load (co_filename o) = Loaded l /\ cf_project c = cf_project l /\
    (forall z, co_bin_size o = Some z -> cf_bin_size c = Some z) /\
    (co_bin_size o = None -> cf_bin_size c = cf_bin_size l).
Proof.
  intros o load c H. unfold parse_config in H. apply seq_value in H. destruct H as (u & _ & H & _).
  destruct (load (co_filename o)) as [l| |line column msg|what|what].
  - exists l. split; [reflexivity|]. apply seq_value in H. destruct H as (u' & _ & H & _). cbn in H.
    injection H as <-. destruct (co_bin_size o) as [z|]; cbn [cf_project cf_bin_size];
      (split; [reflexivity|]); (split; [congruence|]); [discriminate|reflexivity].
  - apply seq_value in H. destruct H as (? & _ & H & _). discriminate H.
  - apply seq_value in H. destruct H as (? & _ & H & _). apply seq_value in H.
    destruct H as (? & _ & H & _). discriminate H.
  - apply seq_value in H. destruct H as (? & _ & H & _). discriminate H.
  - apply seq_value in H. destruct H as (? & _ & H & _). discriminate H.
Qed.

(** The worker only ever sees the loaded project, the parameters of the
    command line and the bin size of the command line (that of the project
    if none is given): what it would do with other ones makes no difference
    to the program. *)
Theorem options_unchanged : forall w predict' schedule',
  (forall o is_schedule c l, wd_arguments w = Run o is_schedule ->
    wd_load w (co_filename o) = Loaded l -> cf_project c = cf_project l ->
    cf_opt c = co_opt o ->
    (forall z, co_bin_size o = Some z -> cf_bin_size c = Some z) ->
    (co_bin_size o = None -> cf_bin_size c = cf_bin_size l) ->
    wd_predict w c = predict' c /\ wd_schedule w c = schedule' c) ->
  main {| wd_arguments := wd_arguments w; wd_load := wd_load w; wd_predict := predict';
          wd_schedule := schedule'; wd_display := wd_display w; wd_log_ok := wd_log_ok w;
          wd_dump := wd_dump w; wd_disk := wd_disk w; wd_terminate := wd_terminate w |} = main w.
Proof.
  intros w predict' schedule' H. unfold main. cbn [wd_arguments].
  destruct (wd_arguments w) as [t|t|t c|o b] eqn:A; try reflexivity. cbn [wd_terminate].
  assert (E : run_command {| wd_arguments := Run o b; wd_load := wd_load w; wd_predict := predict';
          wd_schedule := schedule'; wd_display := wd_display w; wd_log_ok := wd_log_ok w;
          wd_dump := wd_dump w; wd_disk := wd_disk w; wd_terminate := wd_terminate w |} o b = run_command w o b).
  { unfold run_command.
    cbn [wd_load wd_display wd_log_ok wd_schedule wd_dump wd_disk wd_predict].
    assert (EXT : forall (x : act config) (f g : config -> act unit),
      (forall c, snd x = Value c -> f c = g c) -> seq x f = seq x g).
    { intros [es [c|t|]] f g X; unfold seq; cbn [fst snd]; try rewrite (X c eq_refl); reflexivity. }
    apply EXT. intros c V. cbv zeta.
    assert (O : parse_opt_params (co_opt o) (cf_opt c) = co_opt o) by (destruct (co_opt o); reflexivity).
    destruct (parsed_config o (wd_load w) c V) as (l & L & P & B1 & B2).
    rewrite O. unfold json_schedule, run_prediction.
    match goal with |- context [predict' ?c'] => destruct (H o b c' l eq_refl L P eq_refl B1 B2) as [-> ->] end.
    reflexivity. }
  rewrite E. reflexivity.
Qed.

(** The text 256 meets the hypotheses of the first two theorems, and a
    world with a real worker those of the last. *)
Example ex_period :
  let positive := fun l => match strtoll 10 l with Some (z, _) => 0 <? z | None => false end in
  checks_sign positive /\
  ~ leading_zero (list_ascii_of_string "256") /\
  digits (list_ascii_of_string "256") (2 ^ Z.of_nat 8) /\
  restart_period positive (list_ascii_of_string "256") = Some 256 /\
  restart_period positive (list_ascii_of_string "-256") = None /\
  restart_period positive (list_ascii_of_string "255") = None /\
  restart_period positive (list_ascii_of_string "256x") = None /\
  restart_period positive (list_ascii_of_string "4294967296") = None.
Proof.
  cbv zeta. split; [exact checks_sign_meets|]. split.
  - intros (a & b & E & F). destruct a as [|c1 a]; [discriminate E|]. injection E as <- E.
    inversion F as [|? ? [X|[X|X]] F1]; [discriminate X|discriminate X|discriminate X].
  - split.
    + apply (dg_more (list_ascii_of_string "25") 25 6); [|lia].
      apply (dg_more (list_ascii_of_string "2") 2 5); [|lia]. apply (dg_one 2). lia.
    + do 4 (split; [vm_compute; reflexivity|]). vm_compute. reflexivity.
Qed.

(** A worker that fails on all other options changes nothing. *)
Example ex_unchanged : forall other,
  let w := ex_world true (Loaded ex_config) DiskOk in
  let picky := fun c => if op_batch (cf_opt c) =? op_batch (co_opt (ex_cli true)) then wd_schedule w c else other in
  main {| wd_arguments := wd_arguments w; wd_load := wd_load w; wd_predict := wd_predict w;
          wd_schedule := picky; wd_display := wd_display w; wd_log_ok := wd_log_ok w;
          wd_dump := wd_dump w; wd_disk := wd_disk w; wd_terminate := wd_terminate w |} = main w.
Proof.
  intros other w picky. apply options_unchanged. intros o b c l A _ _ O _ _. split; [reflexivity|].
  unfold picky. cbn in A. injection A as <- <-. rewrite O, Z.eqb_refl. reflexivity.
Qed.

Print Assumptions restart_period_partial.
Print Assumptions restart_period_accepts.
Print Assumptions restart_period_refuted.
Print Assumptions options_unchanged.
