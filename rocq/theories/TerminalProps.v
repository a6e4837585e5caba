(** * Property theorems C65, C66: cursor and throttling *)

From Coq Require Import List ZArith Bool Arith Sorted Lia.
From Verif Require Import TerminalModel.
Import ListNotations.

(** ** Vocabulary *)

(** What texts do to the cursor: the last of the hide and show sequences
    counts. *)
Fixpoint cursor_after (visible : bool) (l : list text) : bool :=
  match l with
  | [] => visible
  | HideCursor :: l' => cursor_after false l'
  | ShowCursor :: l' => cursor_after true l'
  | Other _ :: l' => cursor_after visible l'
  end.

(** The cursor of a terminal is visible at the start. *)
Definition cursor_visible (s : tty) : Prop := cursor_after true (ty_screen s) = true.

(** The times of the printed lines, in order. *)
Fixpoint printed (readings : list Z) (shown : list bool) : list Z :=
  match readings, shown with
  | t :: readings', b :: shown' => if b then t :: printed readings' shown' else printed readings' shown'
  | _, _ => []
  end.

(** ** C65 *)

Lemma cursor_app : forall a b v, cursor_after v (a ++ b) = cursor_after (cursor_after v a) b.
Proof. induction a as [|[| |e] a IH]; intros b v; cbn; auto. Qed.

(** The screen has the cursor [c] and the buffer does not change it. *)
Definition settled (c : bool) (s : tty) : Prop :=
  cursor_after true (ty_screen s) = c /\ forall v, cursor_after v (ty_buffer s) = v.

Lemma settled_other : forall c s b, settled c s -> settled c (do_step s (Write (Other b))).
Proof.
  intros c s b [S B]. unfold settled. destruct b; cbn [do_step flush ty_screen ty_buffer].
  - split; [|reflexivity]. rewrite !cursor_app, S. cbn. apply B.
  - split; [exact S|]. intro v. rewrite cursor_app, B. reflexivity.
Qed.

Lemma settled_flush : forall c s, settled c s -> settled c (do_step s Flush).
Proof.
  intros c s [S B]. unfold settled. cbn [do_step flush ty_screen ty_buffer]. split; [|reflexivity].
  rewrite cursor_app, S. apply B.
Qed.

Definition plain (x : step) : Prop := x = Flush \/ exists b, x = Write (Other b).

Lemma settled_plain : forall l c s, Forall plain l -> settled c s -> settled c (do_steps s l).
Proof.
  induction l as [|x l IH]; intros c s F S; [exact S|]. inversion F as [|? ? P F']; subst.
  cbn [do_steps fold_left]. apply IH; [exact F'|]. destruct P as [->|(b & ->)].
  - apply settled_flush, S.
  - apply settled_other, S.
Qed.

Lemma flag_plain : forall l s, Forall plain l -> ty_flag (do_steps s l) = ty_flag s.
Proof.
  induction l as [|x l IH]; intros s F; [reflexivity|]. inversion F as [|? ? P F']; subst.
  unfold do_steps in *. cbn [fold_left]. rewrite IH by exact F'. destruct P as [->|(b & ->)]; [reflexivity|].
  destruct b; reflexivity.
Qed.

Lemma plain_firstn : forall l k, Forall plain l -> Forall plain (firstn k l).
Proof.
  induction l as [|x l IH]; intros [|k] F; cbn; try constructor; inversion F; auto.
Qed.

Lemma plain_texts : forall l, Forall plain (map (fun b => Write (Other b)) l).
Proof. induction l; cbn; constructor; [right; eauto|assumption]. Qed.

Lemma plain_updates : forall l, Forall plain (flat_map bar_update l).
Proof.
  induction l as [|b l IH]; cbn; [constructor|]. constructor; [right; eauto|]. constructor; [left; reflexivity|exact IH].
Qed.

(** With the flag set, the handler makes the cursor visible. *)
Lemma exit_flag : forall s, ty_flag s = true -> cursor_visible (at_exit s).
Proof.
  intros s F. unfold at_exit. rewrite F. unfold cursor_visible. cbn. rewrite !cursor_app. reflexivity.
Qed.

Lemma exit_settled : forall s, settled true s -> cursor_visible (at_exit s).
Proof.
  intros s [S B]. destruct (ty_flag s) eqn:F; [apply exit_flag, F|].
  unfold at_exit. rewrite F. exact S.
Qed.

Lemma do_steps_app : forall a b s, do_steps s (a ++ b) = do_steps (do_steps s a) b.
Proof. intros a b s. apply fold_left_app. Qed.

(** Where the window begins: the number of steps before [bar_stop]. *)
Definition stop_at (before updates : list bool) : nat := length before + 5 + 2 * length updates.

Lemma updates_length : forall l, length (flat_map bar_update l) = 2 * length l.
Proof. induction l; cbn; lia. Qed.

Ltac firstn_app_case k n :=
  rewrite firstn_app; destruct (le_lt_dec k n).

(** C65 on the drawing thread: the cursor is visible at the end of the
    process, and the status is 128 plus the signal, wherever the signal
    arrives, except in a window of three points: after the flag is cleared
    and before the next line ends.  There the text that shows the cursor is
    still in the buffer, and the cursor stays hidden.  What is missing: the
    full statement is false, see [cursor_restored_refuted]. *)
Theorem cursor_restored_partial : forall before first updates after k signal,
  let r := signal_after (drawing before first updates after) k signal in
  snd r = (128 + signal)%Z /\
  (cursor_visible (fst r) <->
   ~ (stop_at before updates + 2 <= k <= stop_at before updates + 4)).
Proof.
  intros before first updates after k signal. cbv zeta. split; [reflexivity|].
  unfold signal_after, fst, stop_at.
  assert (S0 : settled true tty_start) by (split; [reflexivity|intro; reflexivity]).
  unfold drawing.
  set (B := map (fun b => Write (Other b)) before). set (U := flat_map bar_update updates).
  set (A := map (fun b => Write (Other b)) (true :: after)).
  assert (PB : Forall plain B) by apply plain_texts. assert (PU : Forall plain U) by apply plain_updates.
  assert (PA : Forall plain A) by apply plain_texts.
  assert (LB : length B = length before) by apply map_length.
  assert (LU : length U = 2 * length updates) by apply updates_length.
  clearbody B U A.
  (* before the drawing *)
  destruct (le_lt_dec k (length B)) as [K|K].
  { split; [lia|]. intros _. apply exit_settled. rewrite firstn_app.
    replace (k - length B) with 0 by lia. rewrite firstn_O, app_nil_r. apply settled_plain; [|exact S0].
    apply plain_firstn, PB. }
  rewrite firstn_app, firstn_all2 by lia. rewrite do_steps_app.
  assert (S1 : settled true (do_steps tty_start B)) by (apply settled_plain; assumption).
  assert (F1 : ty_flag (do_steps tty_start B) = false) by (rewrite flag_plain by exact PB; reflexivity).
  set (s1 := do_steps tty_start B) in *. clearbody s1.
  assert (exists j, k = length B + S j) as (j & Ek) by (exists (k - length B - 1); lia).
  replace (k - length B) with (S j) by lia. cbn [app firstn bar_start hide_cursor set_progress do_steps fold_left].
  set (s2 := do_step s1 (Write (Other true))).
  assert (S2 : settled true s2) by (apply settled_other, S1).
  destruct j as [|j]; [split; [lia|]; intros _; apply exit_settled, S2|].
  cbn [firstn fold_left]. set (s3 := do_step s2 SetFlag).
  assert (S3 : settled true s3) by exact S2. assert (F3 : ty_flag s3 = true) by reflexivity.
  destruct j as [|j]; [split; [lia|]; intros _; apply exit_flag, F3|].
  cbn [firstn fold_left]. set (s4 := do_step s3 (Write HideCursor)).
  assert (F4 : ty_flag s4 = true) by reflexivity.
  destruct j as [|j]; [split; [lia|]; intros _; apply exit_flag, F4|].
  cbn [firstn fold_left]. set (s5 := do_step s4 (Write (Other first))).
  assert (F5 : ty_flag s5 = true) by (unfold s5; destruct first; reflexivity).
  destruct j as [|j]; [split; [lia|]; intros _; apply exit_flag, F5|].
  cbn [firstn fold_left]. set (s6 := do_step s5 Flush).
  assert (F6 : ty_flag s6 = true) by exact F5.
  assert (S6 : settled false s6).
  { destruct S3 as [X Y]. unfold s6, s5, s4, settled. destruct first; cbn [do_step flush ty_screen ty_buffer];
      (split; [|reflexivity]); rewrite !cursor_app; reflexivity. }
  clearbody s6. clear s2 s3 s4 s5 S2 S3 F3 F4 F5.
  (* the updates *)
  change (fold_left do_step (firstn j ?l) s6) with (do_steps s6 (firstn j l)).
  destruct (le_lt_dec j (length U)) as [J|J].
  { split; [lia|]. intros _. apply exit_flag. rewrite firstn_app.
    replace (j - length U) with 0 by lia. rewrite firstn_O, app_nil_r, flag_plain; [exact F6|].
    apply plain_firstn, PU. }
  rewrite firstn_app, firstn_all2 by lia. rewrite do_steps_app.
  assert (S7 : settled false (do_steps s6 U)) by (apply settled_plain; assumption).
  assert (F7 : ty_flag (do_steps s6 U) = true) by (rewrite flag_plain by exact PU; exact F6).
  set (s7 := do_steps s6 U) in *. clearbody s7.
  assert (exists i, j = length U + S i) as (i & Ej) by (exists (j - length U - 1); lia).
  replace (j - length U) with (S i) by lia.
  cbn [app firstn bar_stop show_cursor erase_line cursor_up do_steps fold_left].
  set (s8 := do_step s7 (Write ShowCursor)).
  assert (F8 : ty_flag s8 = true) by exact F7.
  assert (B8 : forall v, cursor_after v (ty_buffer s8) = true).
  { intro v. unfold s8. cbn [do_step ty_buffer]. rewrite cursor_app. reflexivity. }
  assert (C8 : cursor_after true (ty_screen s8) = false) by apply S7.
  destruct i as [|i]; [split; [lia|]; intros _; apply exit_flag, F8|].
  (* the window *)
  cbn [firstn fold_left]. set (s9 := do_step s8 ClearFlag).
  assert (F9 : ty_flag s9 = false) by reflexivity.
  assert (HID : forall s, ty_flag s = false -> cursor_after true (ty_screen s) = false -> ~ cursor_visible (at_exit s)).
  { intros s F C. unfold at_exit, cursor_visible. rewrite F, C. discriminate. }
  destruct i as [|i]; [split; [intro V; destruct (HID s9 F9 C8 V)|lia]|].
  cbn [firstn fold_left]. set (s10 := do_step s9 (Write (Other false))).
  destruct i as [|i]; [split; [intro V; destruct (HID s10 F9 C8 V)|lia]|].
  cbn [firstn fold_left]. set (s11 := do_step s10 (Write (Other false))).
  destruct i as [|i]; [split; [intro V; destruct (HID s11 F9 C8 V)|lia]|].
  cbn [firstn fold_left]. set (s12 := do_step s11 (Write (Other true))).
  assert (S12 : settled true s12).
  { unfold s12, s11, s10, s9, settled. cbn [do_step flush ty_screen ty_buffer]. split; [|reflexivity].
    rewrite !cursor_app, B8. reflexivity. }
  clearbody s12. split; [lia|]. intros _. apply exit_settled.
  change (fold_left do_step (firstn i ?l) s12) with (do_steps s12 (firstn i l)).
  apply settled_plain; [apply plain_firstn, PA|exact S12].
Qed.
Print Assumptions cursor_restored_partial.

(** The smallest case: the bar is drawn once and removed. *)
Example ex_cursor : map (fun k => cursor_after true (ty_screen (fst (signal_after (drawing [] false [false] []) k 2))))
  (seq 0 14) = [true; true; true; true; true; true; true; true; true; false; false; false; true; true].
Proof. reflexivity. Qed.

(** C65 fails: a signal after the flag is cleared leaves the cursor hidden;
    and so does a signal that another thread handles while this one starts
    to draw. *)
Theorem cursor_restored_refuted : exists before first updates after k signal,
  snd (signal_after (drawing before first updates after) k signal) = (128 + signal)%Z /\
  ~ cursor_visible (fst (signal_after (drawing before first updates after) k signal)) /\
  exists k' m, ~ cursor_visible (signal_elsewhere (drawing before first updates after) k' m) /\
    cursor_visible (fst (signal_after (drawing before first updates after) k' signal)).
Proof.
  exists [], false, [false], [], 9, 2%Z. split; [reflexivity|]. split; [discriminate|].
  exists 2, 3. split; [discriminate|reflexivity].
Qed.
Print Assumptions cursor_restored_refuted.

(** ** C66 *)

(** The last printed line before an update, if any. *)
Definition last_line (readings : list Z) (shown : list bool) : option Z :=
  match rev (printed readings shown) with t :: _ => Some t | [] => None end.

Lemma printed_app : forall a b x y, length a = length b -> printed (a ++ x) (b ++ y) = printed a b ++ printed x y.
Proof.
  induction a as [|t a IH]; intros [|s b] x y L; cbn in L; try discriminate; [reflexivity|].
  cbn. injection L as L. destruct s; cbn; rewrite IH by exact L; reflexivity.
Qed.

Lemma updates_count : forall l last, length (text_updates last l) = length l.
Proof. induction l as [|t l IH]; intro last; cbn [text_updates length]; auto. Qed.

(** The state of the throttle is the last printed line. *)
Definition since (o : option Z) (last : Z) : Z := match o with Some t => t | None => last end.

Lemma throttle : forall pre last now post,
  nth (length pre) (text_updates last (pre ++ now :: post)) false =
  (1000000000 <=? now - since (last_line pre (text_updates last pre)) last)%Z.
Proof.
  induction pre as [|t pre IH]; intros last now post.
  - cbn [app text_updates length nth]. unfold last_line, since, text_update. cbn [printed rev].
    destruct (Z.ltb_spec (now - last) 1000000000); cbn [snd]; symmetry; [apply Z.leb_gt|apply Z.leb_le]; lia.
  - cbn [app text_updates length nth]. rewrite IH. f_equal. f_equal. unfold text_update.
    destruct (t - last <? 1000000000)%Z; cbn [fst snd]; unfold last_line; cbn [printed]; [reflexivity|].
    cbn [rev]. destruct (rev (printed pre (text_updates t pre))) as [|x r]; reflexivity.
Qed.

(** C66: an update is printed exactly if the last printed line is at least
    a second old (or, for the first one, if the clock shows at least a
    second), for all clock readings. *)
Theorem printed_when_due : forall pre now post,
  let shown := text_updates 0 (pre ++ now :: post) in
  nth (length pre) shown false = true <->
  (1000000000 <= now - since (last_line pre (firstn (length pre) shown)) 0)%Z.
Proof.
  intros pre now post. cbv zeta.
  assert (F : forall last, firstn (length pre) (text_updates last (pre ++ now :: post)) = text_updates last pre).
  { induction pre as [|t pre IH]; intro last; [reflexivity|]. cbn [length app text_updates firstn].
    f_equal. apply IH. }
  rewrite F, throttle. apply Z.leb_le.
Qed.
Print Assumptions printed_when_due.

(** C66: with a clock that does not go back, any two printed lines are at
    least a second apart. *)
Theorem lines_apart : forall readings, Sorted Z.le readings ->
  StronglySorted (fun a b => (1000000000 <= b - a)%Z) (printed readings (text_updates 0 readings)).
Proof.
  assert (G : forall readings last, StronglySorted Z.le readings ->
    StronglySorted (fun a b => (1000000000 <= b - a)%Z) (printed readings (text_updates last readings)) /\
    Forall (fun t => (1000000000 <= t - last)%Z) (printed readings (text_updates last readings))).
  { induction readings as [|t l IH]; intros last S; [split; constructor|].
    inversion S as [|? ? S' F]; subst. cbn [text_updates printed].
    destruct (text_update last t) as [last' b] eqn:E. unfold text_update in E.
    destruct (Z.ltb_spec (t - last) 1000000000) as [L|L]; injection E as <- <-; cbn [fst snd].
    - apply IH, S'.
    - destruct (IH t S') as [A B]. split; [constructor; assumption|].
      constructor; [lia|]. eapply Forall_impl; [|exact B]. cbn. intros; lia. }
  intros readings S. apply G. apply Sorted_StronglySorted; [|exact S]. intros x y z; apply Z.le_trans.
Qed.
Print Assumptions lines_apart.

(** Readings in tenths of a second, from 5 s on. *)
Example ex_throttle :
  let readings := map (fun z => z * 100000000)%Z [50; 52; 59; 60; 61; 75; 84; 85]%Z in
  text_updates 0 readings = [true; false; false; true; false; true; false; true] /\ Sorted Z.le readings.
Proof. split; [reflexivity|]. cbn. repeat constructor; lia. Qed.
