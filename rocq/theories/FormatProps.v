(** * Property theorems C56-C58: durations as text *)

From Coq Require Import String List ZArith Ascii Bool Lia Psatz.
From Verif Require Import DurationSpec DurationModel DurationProps FormatModel.
Import ListNotations.
Open Scope Z_scope.

(** ** Vocabulary *)

(** A decimal numeral of [n] without superfluous zeros. *)
Definition numeral (n : Z) (t : list ascii) : Prop :=
  forallb is_digit t = true /\ decimal t = n /\
  (t = ["0"%char] \/ exists c r, t = c :: r /\ c <> "0"%char).

(** A count of 0 is left out; the others are a numeral and the unit, with
    one space between items. *)
Inductive listed : list (Z * string) -> list (list ascii) -> Prop :=
| li_nil : listed [] []
| li_skip : forall u l ts, listed l ts -> listed ((0, u) :: l) ts
| li_item : forall n u l t ts, n <> 0 -> numeral n t -> listed l ts ->
    listed ((n, u) :: l) ((t ++ list_ascii_of_string u) :: ts).

Fixpoint joined (ts : list (list ascii)) : list ascii :=
  match ts with
  | [] => []
  | [t] => t
  | t :: ts' => t ++ " "%char :: joined ts'
  end.

(** ** Numerals *)

Lemma digit_cases : forall d, 0 <= d < 10 ->
  In d [0; 1; 2; 3; 4; 5; 6; 7; 8; 9].
Proof.
  intros d H. assert (E : d = 0 \/ d = 1 \/ d = 2 \/ d = 3 \/ d = 4 \/ d = 5 \/ d = 6 \/ d = 7 \/ d = 8 \/ d = 9) by lia.
  cbn. intuition.
Qed.

Lemma digit_char_ok : forall d, 0 <= d < 10 ->
  is_digit (digit_char d) = true /\ Z.of_nat (nat_of_ascii (digit_char d)) - 48 = d /\
  (d <> 0 -> digit_char d <> "0"%char).
Proof.
  intros d H. apply digit_cases in H. cbn in H.
  repeat (destruct H as [<-|H]; [vm_compute; repeat split; congruence|]). destruct H.
Qed.

Definition decimal_from (a : Z) (ds : list ascii) : Z :=
  fold_left (fun acc c => 10 * acc + (Z.of_nat (nat_of_ascii c) - 48)) ds a.

Lemma decimal_from_app : forall a x y, decimal_from a (x ++ y) = decimal_from (decimal_from a x) y.
Proof. intros. unfold decimal_from. apply fold_left_app. Qed.

Lemma digits_split : forall fuel n acc, 0 <= n < 2 ^ Z.of_nat fuel -> (0 < fuel)%nat ->
  exists t, decimal_digits fuel n acc = t ++ acc /\ t <> [] /\ forallb is_digit t = true /\ decimal t = n /\
    (n = 0 -> t = ["0"%char]) /\ (n <> 0 -> exists c r, t = c :: r /\ c <> "0"%char).
Proof.
  induction fuel as [|fuel IH]; intros n acc H P; [lia|]. cbn [decimal_digits].
  assert (M : 0 <= n mod 10 < 10) by (apply Z.mod_pos_bound; lia).
  destruct (digit_char_ok (n mod 10) M) as (D1 & D2 & D3).
  pose proof (Z.div_mod n 10 ltac:(lia)) as DM.
  destruct (Z.eqb_spec (n / 10) 0) as [E|E].
  - exists [digit_char (n mod 10)]. split; [reflexivity|]. split; [discriminate|].
    split; [cbn [forallb]; rewrite D1; reflexivity|]. split; [unfold decimal; cbn [fold_left]; lia|].
    split; [intros ->; reflexivity|]. intro N. exists (digit_char (n mod 10)), []. split; [reflexivity|].
    apply D3. lia.
  - assert (NN : 0 <= n / 10) by (apply Z.div_pos; lia).
    assert (B : n / 10 < 2 ^ Z.of_nat fuel).
    { rewrite Nat2Z.inj_succ, Z.pow_succ_r in H by lia. apply Z.div_lt_upper_bound; lia. }
    assert (F : (0 < fuel)%nat) by (destruct fuel; [change (2 ^ Z.of_nat 0) with 1 in B; lia|lia]).
    destruct (IH (n / 10) (digit_char (n mod 10) :: acc) (conj NN B) F) as (t & T1 & T2 & T3 & T4 & T5 & T6).
    exists (t ++ [digit_char (n mod 10)]). rewrite T1, <- app_assoc. split; [reflexivity|].
    split; [destruct t; discriminate|]. split; [rewrite forallb_app, T3; cbn [forallb]; rewrite D1; reflexivity|].
    split.
    { unfold decimal in *. rewrite fold_left_app. rewrite T4. cbn [fold_left]. lia. }
    split; [intros ->; cbn in E; congruence|]. intros _. destruct (T6 E) as (c & r & -> & C).
    exists c, (r ++ [digit_char (n mod 10)]). split; [reflexivity|exact C].
Qed.

Lemma decimal_text_numeral : forall n, 0 <= n -> numeral n (decimal_text n) /\ decimal_text n <> [].
Proof.
  intros n H. unfold decimal_text. destruct (Z.ltb_spec n 0); [lia|].
  assert (B : 0 <= n < 2 ^ Z.of_nat (S (Z.to_nat (Z.log2 n)))).
  { split; [exact H|]. rewrite Nat2Z.inj_succ, Z2Nat.id by apply Z.log2_nonneg.
    destruct (Z.eq_dec n 0) as [->|N]; [vm_compute; reflexivity|]. apply Z.log2_spec. lia. }
  destruct (digits_split _ n [] B (Nat.lt_0_succ _)) as (t & T1 & T2 & T3 & T4 & T5 & T6).
  rewrite T1, app_nil_r. split; [|exact T2]. split; [exact T3|]. split; [exact T4|].
  destruct (Z.eq_dec n 0) as [Z|N]; [left; auto|right; auto].
Qed.

(** ** The verbose text *)

Definition parts (z : Z) : list (Z * string) :=
  let mo := z / 2629746 in let r1 := z mod 2629746 in
  let d := r1 / 86400 in let r2 := r1 mod 86400 in
  let h := r2 / 3600 in let r3 := r2 mod 3600 in
  [(mo, "mo"); (d, "d"); (h, "h"); (r3 / 60, "m"); (r3 mod 60, "s")]%string.

Lemma joined_snoc : forall ts t, joined (ts ++ [t]) = joined ts ++ (match ts with [] => [] | _ => [" "%char] end) ++ t.
Proof.
  induction ts as [|a ts IH]; intro t; [reflexivity|]. destruct ts as [|b ts]; [reflexivity|].
  change (joined ((a :: b :: ts) ++ [t])) with (a ++ " "%char :: joined ((b :: ts) ++ [t])).
  rewrite IH. cbn [joined]. rewrite <- app_assoc. reflexivity.
Qed.

(** The state of the loop after some units. *)
Definition vstate (rest : Z) (ts : list (list ascii)) : verbose_state :=
  {| vs_total := rest; vs_space := match ts with [] => false | _ => true end; vs_out := joined ts |}.

Lemma listed_app : forall l ts m us, listed l ts -> listed m us -> listed (l ++ m) (ts ++ us).
Proof. intros l ts m us A B. induction A; cbn; try constructor; auto. Qed.

Lemma verbose_step : forall rest ts u w l, 0 <= rest -> 0 < u -> listed l ts ->
  exists ts', verbose_duration (vstate rest ts) (u, w) = vstate (rest mod u) ts' /\
    listed (l ++ [(rest / u, w)]) ts'.
Proof.
  intros rest ts u w l R U L. unfold verbose_duration, vstate. cbn [vs_total vs_space vs_out fst snd].
  pose proof (Z.div_mod rest u ltac:(lia)) as DM.
  destruct (Z.eqb_spec (rest / u) 0) as [E|E].
  - exists ts. split; [f_equal; lia|]. rewrite E. rewrite <- (app_nil_r ts). apply listed_app; [exact L|].
    apply li_skip, li_nil.
  - exists (ts ++ [decimal_text (rest / u) ++ list_ascii_of_string w]). split.
    + f_equal; [lia|destruct ts; reflexivity|]. rewrite joined_snoc. f_equal. f_equal. destruct ts; reflexivity.
    + apply listed_app; [exact L|]. apply li_item; [exact E| |apply li_nil].
      apply decimal_text_numeral. apply Z.div_pos; lia.
Qed.

Lemma verbose_listed : forall z, 0 < z -> exists ts, verbose z = joined ts /\ listed (parts z) ts.
Proof.
  intros z H. unfold verbose. destruct (Z.eqb_spec z 0); [lia|].
  change {| vs_total := z; vs_space := false; vs_out := [] |} with (vstate z []).
  unfold verbose_units. cbn [fold_left].
  destruct (verbose_step z [] 2629746 "mo" [] ltac:(lia) ltac:(lia) li_nil) as (t1 & E1 & L1).
  pose proof (Z.mod_pos_bound z 2629746 ltac:(lia)) as M1.
  destruct (verbose_step (z mod 2629746) t1 86400 "d" _ ltac:(lia) ltac:(lia) L1) as (t2 & E2 & L2).
  pose proof (Z.mod_pos_bound (z mod 2629746) 86400 ltac:(lia)) as M2.
  destruct (verbose_step (z mod 2629746 mod 86400) t2 3600 "h" _ ltac:(lia) ltac:(lia) L2) as (t3 & E3 & L3).
  pose proof (Z.mod_pos_bound (z mod 2629746 mod 86400) 3600 ltac:(lia)) as M3.
  destruct (verbose_step (z mod 2629746 mod 86400 mod 3600) t3 60 "m" _ ltac:(lia) ltac:(lia) L3) as (t4 & E4 & L4).
  pose proof (Z.mod_pos_bound (z mod 2629746 mod 86400 mod 3600) 60 ltac:(lia)) as M4.
  destruct (verbose_step (z mod 2629746 mod 86400 mod 3600 mod 60) t4 1 "s" _ ltac:(lia) ltac:(lia) L4) as (t5 & E5 & L5).
  rewrite E1, E2, E3, E4, E5. exists t5. split; [reflexivity|]. unfold parts.
  rewrite Z.div_1_r in L5. exact L5.
Qed.

(** A reader of verbose texts, used to show that they can be told apart. *)
Fixpoint reread (sum n : Z) (t : list ascii) : Z :=
  match t with
  | [] => sum
  | c :: t' =>
      if is_digit c then reread sum (10 * n + (Z.of_nat (nat_of_ascii c) - 48)) t'
      else if Ascii.eqb c "o" then reread (sum + n * 2629746 - n * 60) 0 t'
      else if Ascii.eqb c "d" then reread (sum + n * 86400) 0 t'
      else if Ascii.eqb c "h" then reread (sum + n * 3600) 0 t'
      else if Ascii.eqb c "m" then reread (sum + n * 60) n t'
      else if Ascii.eqb c "s" then reread (sum + n) 0 t'
      else reread sum 0 t'
  end.

Lemma reread_digits : forall ds sum n t, forallb is_digit ds = true ->
  reread sum n (ds ++ t) = reread sum (decimal_from n ds) t.
Proof.
  induction ds as [|c ds IH]; intros sum n t H; [reflexivity|]. cbn in H. apply andb_true_iff in H. destruct H as [A B].
  cbn [app reread]. rewrite A. rewrite IH by exact B. reflexivity.
Qed.

Definition unit_of (w : string) : Z :=
  if String.eqb w "mo" then 2629746 else if String.eqb w "d" then 86400 else if String.eqb w "h" then 3600
  else if String.eqb w "m" then 60 else 1.

Definition known (w : string) : Prop := In w ["mo"; "d"; "h"; "m"; "s"]%string.

Definition worth (l : list (Z * string)) : Z := fold_right Z.add 0 (map (fun p => fst p * unit_of (snd p)) l).

Definition next_ok (t : list ascii) : Prop := t = [] \/ exists r, t = " "%char :: r.

Lemma reread_item : forall sum n ds w t, numeral n ds -> known w -> next_ok t ->
  reread sum 0 (ds ++ list_ascii_of_string w ++ t) =
  match t with [] => sum + n * unit_of w | _ :: r => reread (sum + n * unit_of w) 0 r end.
Proof.
  intros sum n ds w t (D & V & _) K N. rewrite reread_digits by exact D.
  change (decimal_from 0 ds) with (decimal ds). rewrite V.
  assert (X : forall k s r, reread s k (" "%char :: r) = reread s 0 r) by reflexivity.
  cbn in K. destruct N as [->|(r & ->)];
    (destruct K as [<-|[<-|[<-|[<-|[<-|[]]]]]]; cbn [list_ascii_of_string app]).
  all: cbn -[Z.mul Z.add Z.sub unit_of is_digit].
  all: change (is_digit "m") with false; change (is_digit "o") with false; change (is_digit "d") with false;
       change (is_digit "h") with false; change (is_digit "s") with false; change (is_digit " ") with false;
       cbv iota.
  all: change (unit_of "mo") with 2629746; change (unit_of "d") with 86400; change (unit_of "h") with 3600;
       change (unit_of "m") with 60; change (unit_of "s") with 1.
  all: try lia.
  all: f_equal; lia.
Qed.

Lemma joined_next : forall t ts, exists r, next_ok r /\ joined (t :: ts) = t ++ r /\
  (r = [] /\ ts = [] \/ exists x, r = " "%char :: x /\ x = joined ts).
Proof.
  intros t ts. destruct ts as [|a ts].
  - exists []. split; [left; reflexivity|]. split; [cbn; rewrite app_nil_r; reflexivity|]. left. auto.
  - exists (" "%char :: joined (a :: ts)). split; [right; eauto|]. split; [reflexivity|]. right. eauto.
Qed.

Lemma reread_listed : forall l ts, listed l ts -> (forall p, In p l -> known (snd p)) ->
  forall sum, reread sum 0 (joined ts) = sum + worth l.
Proof.
  intros l ts H. induction H as [|u l ts H IH|n u l t ts N NU H IH]; intros K sum.
  - unfold worth. cbn. lia.
  - rewrite IH by (intros p Hp; apply K; right; exact Hp). unfold worth. cbn. lia.
  - destruct (joined_next (t ++ list_ascii_of_string u) ts) as (r & NR & E & C). rewrite E.
    rewrite <- app_assoc. rewrite (reread_item sum n t u r NU (K (n, u) (or_introl eq_refl)) NR).
    assert (W : worth ((n, u) :: l) = n * unit_of u + worth l) by reflexivity. rewrite W.
    specialize (IH (fun p Hp => K p (or_intror Hp))).
    destruct C as [[-> ->]|(x & -> & ->)].
    + specialize (IH 0). cbn in IH. lia.
    + rewrite IH. lia.
Qed.

Lemma parts_known : forall z p, In p (parts z) -> known (snd p).
Proof. intros z p H. cbn in H. unfold known. repeat (destruct H as [<-|H]; [cbn; tauto|]). destruct H. Qed.

Lemma parts_worth : forall z, worth (parts z) = z.
Proof.
  intro z. unfold worth, parts. cbn -[Z.mul Z.add Z.div Z.modulo].
  pose proof (Z.div_mod z 2629746 ltac:(lia)). pose proof (Z.div_mod (z mod 2629746) 86400 ltac:(lia)).
  pose proof (Z.div_mod (z mod 2629746 mod 86400) 3600 ltac:(lia)).
  pose proof (Z.div_mod (z mod 2629746 mod 86400 mod 3600) 60 ltac:(lia)).
  change (unit_of "mo") with 2629746. change (unit_of "d") with 86400. change (unit_of "h") with 3600.
  change (unit_of "m") with 60. change (unit_of "s") with 1. lia.
Qed.

Lemma verbose_reread : forall z, 0 <= z -> reread 0 0 (verbose z) = z.
Proof.
  intros z H. destruct (Z.eq_dec z 0) as [->|N]; [reflexivity|].
  destruct (verbose_listed z ltac:(lia)) as (ts & E & L). rewrite E.
  rewrite (reread_listed _ _ L (parts_known z)). rewrite parts_worth. lia.
Qed.

(** C56: the text lists counts that are in range and add up to the
    duration; zero is "0s"; different durations have different texts. *)
Theorem verbose_exact : forall z, 0 <= z ->
  (z = 0 -> verbose z = list_ascii_of_string "0s") /\
  (0 < z -> exists mo d h m s ts,
     0 <= mo /\ 0 <= d /\ 0 <= h < 24 /\ 0 <= m < 60 /\ 0 <= s < 60 /\
     d * 86400 + h * 3600 + m * 60 + s < 2629746 /\
     mo * 2629746 + d * 86400 + h * 3600 + m * 60 + s = z /\
     listed [(mo, "mo"); (d, "d"); (h, "h"); (m, "m"); (s, "s")]%string ts /\
     verbose z = joined ts) /\
  (forall z', 0 <= z' -> verbose z' = verbose z -> z' = z).
Proof.
  intros z H. split; [intros ->; reflexivity|]. split.
  - intro P. destruct (verbose_listed z P) as (ts & E & L).
    pose proof (Z.mod_pos_bound z 2629746 ltac:(lia)) as M1.
    pose proof (Z.mod_pos_bound (z mod 2629746) 86400 ltac:(lia)) as M2.
    pose proof (Z.mod_pos_bound (z mod 2629746 mod 86400) 3600 ltac:(lia)) as M3.
    pose proof (Z.mod_pos_bound (z mod 2629746 mod 86400 mod 3600) 60 ltac:(lia)) as M4.
    pose proof (Z.div_mod z 2629746 ltac:(lia)). pose proof (Z.div_mod (z mod 2629746) 86400 ltac:(lia)).
    pose proof (Z.div_mod (z mod 2629746 mod 86400) 3600 ltac:(lia)).
    pose proof (Z.div_mod (z mod 2629746 mod 86400 mod 3600) 60 ltac:(lia)).
    eexists _, _, _, _, _, ts. split; [|split; [|split; [|split; [|split; [|split; [|split; [|split]]]]]]];
      [| | | | | | | exact L | exact E].
    + apply Z.div_pos; lia.
    + apply Z.div_pos; lia.
    + split; [apply Z.div_pos; lia|apply Z.div_lt_upper_bound; lia].
    + split; [apply Z.div_pos; lia|apply Z.div_lt_upper_bound; lia].
    + lia.
    + lia.
    + lia.
  - intros z' P E. rewrite <- (verbose_reread z H), <- (verbose_reread z' P), E. reflexivity.
Qed.
Print Assumptions verbose_exact.

Example ex_verbose : verbose 93784 = list_ascii_of_string "1d 2h 3m 4s" /\
  verbose 2629806 = list_ascii_of_string "1mo 1m".
Proof. split; vm_compute; reflexivity. Qed.

(** ** Reading back with the duration parser *)

Definition spell (w : string) : unit_name :=
  if String.eqb w "d" then Day else if String.eqb w "h" then Hour
  else if String.eqb w "m" then Minute else Second.

Definition short (w : string) : Prop := In w ["d"; "h"; "m"; "s"]%string.

Lemma listed_phrase : forall l ts, listed l ts ->
  (forall p, In p l -> short (snd p) \/ fst p = 0) -> (forall p, In p l -> 0 <= fst p <= 2147483647) ->
  exists is, Forall item_ok is /\ map item_text is = ts /\ Forall (fun i => decimal (digits i) <= 2147483647) is /\
    fold_right Z.add 0 (map item_seconds is) = worth l.
Proof.
  intros l ts H. induction H as [|u l ts H IH|n u l t ts N NU H IH]; intros K B.
  - exists []. repeat split; constructor.
  - destruct IH as (is & A & T & C & W); [intros p Hp; apply K; right; exact Hp|intros p Hp; apply B; right; exact Hp|].
    exists is. repeat split; auto.
  - destruct IH as (is & A & T & C & W); [intros p Hp; apply K; right; exact Hp|intros p Hp; apply B; right; exact Hp|].
    destruct (K (n, u) (or_introl eq_refl)) as [S|S]; [|cbn in S; lia]. cbn in S.
    destruct NU as (D & V & Z).
    assert (T0 : t <> []) by (destruct Z as [->|(c & r & -> & _)]; discriminate).
    exists (DurationSpec.Item t [] u (spell u) :: is). split; [|split; [|split]].
    + constructor; [|exact A]. split; [exact T0|]. split; [exact D|]. split; [reflexivity|]. left.
      cbn [word unit]. unfold short in S. cbn in S.
      repeat (destruct S as [<-|S]; [cbn; tauto|]). destruct S.
    + cbn. rewrite T. reflexivity.
    + constructor; [|exact C]. cbn [digits]. rewrite V. apply (B (n, u)). left. reflexivity.
    + cbn [map fold_right]. rewrite W. unfold item_seconds. cbn [digits unit]. rewrite V.
      assert (E : unit_seconds (spell u) = unit_of u).
      { unfold short in S. cbn in S. repeat (destruct S as [<-|S]; [reflexivity|]). destruct S. }
      rewrite E. reflexivity.
Qed.

Lemma joined_text : forall i is, joined (map item_text (i :: is)) =
  phrase_text (i, map (fun j => ([" "%char], j)) is).
Proof.
  intros i is. revert i. induction is as [|j is IH]; intro i.
  - cbn. unfold phrase_text. cbn. rewrite app_nil_r. reflexivity.
  - change (map item_text (i :: j :: is)) with (item_text i :: map item_text (j :: is)).
    assert (E : joined (item_text i :: map item_text (j :: is)) = item_text i ++ " "%char :: joined (map item_text (j :: is))) by reflexivity.
    rewrite E, IH. unfold phrase_text. cbn [fst snd]. f_equal.
Qed.

(** ** Months are rejected *)

Lemma scan_digits : exists S1, (forall c, is_digit c = true ->
    snd (step start_state c) = S1 /\ snd (step S1 c) = S1 /\
    (forall p s, s <> None -> run_actions p s (fst (step start_state c)) <> None) /\
    (forall p s, s <> None -> run_actions p s (fst (step S1 c)) <> None)) /\ S1 <> [] /\
  snd (step S1 "m") <> [] /\
  (forall p s, s <> None -> run_actions p s (fst (step S1 "m")) <> None) /\
  snd (step (snd (step S1 "m")) "o") = [].
Proof.
  exists (snd (step start_state "0")).
  assert (Q : forall c, is_digit c = true -> In c (list_ascii_of_string "0123456789")).
  { intros [[] [] [] [] [] [] [] []] H; try discriminate H; cbn; tauto. }
  split.
  - intros c H. apply Q in H. cbn [list_ascii_of_string In] in H.
    assert (R : forall acts, acts = [] \/ acts = [Num] ->
      forall p s, s <> None -> run_actions p s acts <> None).
    { intros acts [-> | ->] p s N; destruct s; cbn; congruence. }
    repeat (destruct H as [<-|H];
      [split; [vm_compute; reflexivity|split; [vm_compute; reflexivity|
         split; apply R; vm_compute; tauto]]|]). destruct H.
  - split; [vm_compute; discriminate|]. split; [vm_compute; discriminate|]. split; [|vm_compute; reflexivity].
    assert (E : fst (step (snd (step start_state "0")) "m") = []) by (vm_compute; reflexivity).
    rewrite E. intros p s N. exact N.
Qed.

Lemma months_rejected : forall ds t, forallb is_digit ds = true -> ds <> [] ->
  parse_duration (ds ++ "m"%char :: "o"%char :: t) = ParseError.
Proof.
  intros ds t D N. destruct ds as [|c ds]; [contradiction|]. cbn in D. apply andb_true_iff in D. destruct D as [C D].
  destruct scan_digits as (S1 & A & NE & M1 & M2 & M3).
  unfold parse_duration. cbn [app exec].
  assert (X : forall e s, forallb is_digit e = true -> s <> None ->
    exec S1 s (e ++ "m"%char :: "o"%char :: t) = ParseError).
  { induction e as [|x e IH]; intros s E NS.
    - cbn [app exec]. rewrite (surjective_pairing (step S1 "m")). destruct (snd (step S1 "m")) as [|r R] eqn:Q; [congruence|].
      cbn [exec]. rewrite (surjective_pairing (step (r :: R) "o")). rewrite <- Q in M3. rewrite Q in M3. rewrite M3.
      specialize (M2 ("m"%char :: "o"%char :: t) s NS). destruct (run_actions _ _ _); [reflexivity|congruence].
    - cbn in E. apply andb_true_iff in E. destruct E as [E1 E2]. destruct (A x E1) as (_ & B & _ & F).
      cbn [app exec]. rewrite (surjective_pairing (step S1 x)), B. destruct S1 as [|r R]; [congruence|].
      apply IH; [exact E2|]. apply F, NS. }
  destruct (A c C) as (B & _ & F & _). rewrite (surjective_pairing (step start_state c)), B.
  destruct S1 as [|r R]; [congruence|]. apply X; [exact D|]. apply F. discriminate.
Qed.

(** C57: below one month the parser reads back what was printed; from one
    month on it rejects the text. *)
Theorem verbose_round_trip : forall z, 0 <= z ->
  (z < 2629746 -> parse_duration (verbose z) = Parsed z) /\
  (2629746 <= z -> parse_duration (verbose z) = ParseError).
Proof.
  intros z H. split; intro B.
  - destruct (Z.eq_dec z 0) as [->|N]; [vm_compute; reflexivity|].
    destruct (verbose_listed z ltac:(lia)) as (ts & E & L). rewrite E.
    pose proof (Z.mod_pos_bound z 2629746 ltac:(lia)) as M1.
    pose proof (Z.mod_pos_bound (z mod 2629746) 86400 ltac:(lia)) as M2.
    pose proof (Z.mod_pos_bound (z mod 2629746 mod 86400) 3600 ltac:(lia)) as M3.
    pose proof (Z.mod_pos_bound (z mod 2629746 mod 86400 mod 3600) 60 ltac:(lia)) as M4.
    destruct (listed_phrase _ _ L) as (is & A & T & C & W).
    { intros p Hp. cbn in Hp. unfold short.
      destruct Hp as [<-|Hp]; [right; cbn; apply Z.div_small; lia|].
      left. repeat (destruct Hp as [<-|Hp]; [cbn; tauto|]). destruct Hp. }
    { intros p Hp. cbn in Hp.
      assert (Q : forall a b, 0 <= a < 2629746 -> 0 < b -> 0 <= a / b <= 2147483647).
      { intros a b Ha Hb. split; [apply Z.div_pos; lia|]. transitivity a; [|lia]. apply Z.div_le_upper_bound; nia. }
      repeat (destruct Hp as [<-|Hp]; [cbn [fst]; first [apply Q; lia|lia]|]). destruct Hp. }
    rewrite parts_worth in W. destruct is as [|i is]; [cbn in W; lia|].
    rewrite <- T, joined_text.
    assert (PI : phrase_items (i, map (fun j => ([" "%char], j)) is) = i :: is).
    { unfold phrase_items. cbn. f_equal. rewrite map_map. cbn. apply map_id. }
    rewrite duration_value_partial.
    + f_equal. unfold phrase_seconds. rewrite PI. exact W.
    + split; [rewrite PI; exact A|]. cbn. rewrite map_map. cbn. apply Forall_forall. intros s Hs.
      apply in_map_iff in Hs. destruct Hs as (j & <- & _). left. reflexivity.
    + unfold counts_fit. rewrite PI. exact C.
    + unfold separated. cbn. destruct is as [|j is]; [exact I|]. cbn. apply Forall_forall. intros s Hs.
      apply in_map_iff in Hs. destruct Hs as (k & <- & _). discriminate.
  - destruct (verbose_listed z ltac:(lia)) as (ts & E & L). rewrite E.
    assert (G : 1 <= z / 2629746) by (apply Z.div_le_lower_bound; lia).
    unfold parts in L. inversion L as [|u l ts' HL|n u l t ts' HN NU HL EQ1 EQ2]; subst; [lia|].
    destruct (joined_next (t ++ list_ascii_of_string "mo") ts') as (r & _ & J & _). rewrite J, <- app_assoc.
    destruct NU as (D & V & Z0). cbn [list_ascii_of_string app]. apply months_rejected; [exact D|].
    destruct Z0 as [->|(c & x & -> & _)]; discriminate.
Qed.
Print Assumptions verbose_round_trip.

Example ex_round_trip : parse_duration (verbose 93784) = Parsed 93784 /\ parse_duration (verbose 2629806) = ParseError.
Proof. split; [apply verbose_round_trip; lia|apply verbose_round_trip; lia]. Qed.

(** ** Humanized durations *)

(** [n] units of [u] seconds as text. *)
Definition amount (n : Z) (article name : string) (t : list ascii) : Prop :=
  (n = 1 /\ t = list_ascii_of_string ("about " ++ article ++ " " ++ name)%string) \/
  (1 < n /\ exists d, numeral n d /\ t = d ++ list_ascii_of_string (" " ++ name ++ "s")%string).

(** Units from the largest to the smallest. *)
Definition human_units : list (Z * (string * string)) :=
  [(2629746, ("a", "month")); (24 * (60 * 60), ("a", "day")); (60 * 60, ("an", "hour"));
   (60, ("a", "minute")); (1, ("a", "second"))]%string.

Lemma round_half : forall z u, 0 <= z -> 0 < u ->
  2 * Z.abs (z - chrono_round z u * u) <= u /\ 0 <= chrono_round z u /\
  (chrono_round z u = 0 <-> 2 * z <= u).
Proof.
  intros z u H U. unfold chrono_round.
  pose proof (Z.div_mod z u ltac:(lia)) as DM. pose proof (Z.mod_pos_bound z u U) as MB.
  pose proof (Z.div_pos z u H U) as DP.
  set (q := z / u) in *. set (r := z mod u) in *. clearbody q r.
  destruct (Z.eqb_spec (z - q * u) ((q + 1) * u - z)) as [E|E].
  - destruct (Z.odd q) eqn:O.
    + assert (Q : q <> 0) by (intros ->; discriminate O). assert (1 <= q) by lia.
      assert (u <= q * u) by nia. split; [lia|]. split; [lia|]. split; lia.
    + split; [lia|]. split; [lia|]. split; [intros ->; lia|]. intro.
      destruct (Z.eq_dec q 0) as [|N]; [assumption|]. assert (u <= q * u) by nia. lia.
  - destruct (Z.ltb_spec (z - q * u) ((q + 1) * u - z)).
    + split; [lia|]. split; [lia|]. split; [intros ->; lia|]. intro.
      destruct (Z.eq_dec q 0) as [|N]; [assumption|]. assert (u <= q * u) by nia. lia.
    + assert (0 <= q * u) by nia. split; [lia|]. split; [lia|]. split; lia.
Qed.

Lemma chars_app : forall a b, list_ascii_of_string (a ++ b)%string = list_ascii_of_string a ++ list_ascii_of_string b.
Proof. induction a as [|c a IH]; intro b; [reflexivity|]. cbn. rewrite IH. reflexivity. Qed.

Lemma humanize_found : forall z l, 0 <= z -> Forall (fun u => 0 < fst u) l -> Exists (fun u => u < 2 * z) (map fst l) ->
  exists big u small, l = big ++ u :: small /\ Forall (fun v => 2 * z <= fst v) big /\ fst u < 2 * z /\
    exists n, amount n (fst (snd u)) (snd (snd u)) (humanize_first z l) /\ 2 * Z.abs (z - n * fst u) <= fst u.
Proof.
  intros z l H. induction l as [|u l IH]; intros P E; [inversion E|].
  inversion P as [|x y P1 P2]; subst. destruct (round_half z (fst u) H P1) as (A & B & C).
  cbn [humanize_first]. unfold humanize_duration.
  destruct (Z.eqb_spec (chrono_round z (fst u)) 0) as [Z0|N].
  - apply C in Z0. cbn [map] in E. inversion E as [x y E1|x y E1]; subst; [lia|].
    destruct (IH P2 E1) as (big & v & small & -> & F & L & n & R). exists (u :: big), v, small.
    split; [reflexivity|]. split; [constructor; [exact Z0|exact F]|]. split; [exact L|]. exists n. exact R.
  - exists [], u, l. split; [reflexivity|]. split; [constructor|]. split; [lia|].
    exists (chrono_round z (fst u)). split; [|exact A]. destruct (Z.eqb_spec (chrono_round z (fst u)) 1) as [O|O].
    + left. split; [exact O|]. rewrite !chars_app. reflexivity.
    + right. split; [lia|]. exists (decimal_text (chrono_round z (fst u))).
      split; [apply decimal_text_numeral; lia|]. rewrite !chars_app. reflexivity.
Qed.

(** C58: above five seconds the text names [n] units of the first unit in
    the list for which more than half a unit has passed, and [n] units
    differ from the duration by at most half a unit.  The text is never
    empty. *)
Theorem humanize_half_unit : forall z,
  (z <= 5 -> humanize z = list_ascii_of_string "a few seconds") /\
  (5 < z -> exists big u small n, human_units = big ++ u :: small /\
     Forall (fun v => 2 * z <= fst v) big /\ fst u < 2 * z /\
     amount n (fst (snd u)) (snd (snd u)) (humanize z) /\
     2 * Z.abs (z - n * fst u) <= fst u) /\
  humanize z <> [].
Proof.
  intro z. unfold humanize. destruct (Z.leb_spec z 5) as [L|G].
  - split; [reflexivity|]. split; [lia|discriminate].
  - assert (F : exists big u small, human_units = big ++ u :: small /\ Forall (fun v => 2 * z <= fst v) big /\ fst u < 2 * z /\
      exists n, amount n (fst (snd u)) (snd (snd u)) (humanize_first z human_units) /\ 2 * Z.abs (z - n * fst u) <= fst u).
    { apply humanize_found; [lia| |].
      - repeat constructor.
      - apply Exists_exists. exists 1. split; [cbn; tauto|lia]. }
    change human_units with humanize_units in *.
    destruct F as (big & u & small & E & A & B & n & C & D).
    split; [lia|]. split; [intros _; exists big, u, small, n; auto|].
    destruct C as [[_ ->]|(_ & d & N & ->)]; [discriminate|]. destruct d; discriminate.
Qed.
Print Assumptions humanize_half_unit.

Example ex_humanize : humanize 5400 = list_ascii_of_string "2 hours" /\ humanize 1801 = list_ascii_of_string "about an hour" /\
  humanize 1800 = list_ascii_of_string "30 minutes" /\ humanize 3944619 = list_ascii_of_string "2 months".
Proof. repeat split; vm_compute; reflexivity. Qed.
