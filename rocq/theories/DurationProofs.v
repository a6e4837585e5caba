(** * Proofs about the duration parser *)

From Coq Require Import List ZArith Ascii String Bool Arith Lia.
From Verif Require Import DurationModel DurationSpec.
Import ListNotations.

(** ** A hand written deterministic machine *)

Inductive st :=
| SStart
| SNum (k : bool)
| SPad (k : bool)
| SWord (k d : bool) (w : list ascii)
| SGap
| SA1 | SA2 | SA3 | SA4.

Definition act_of (u : unit_name) : action :=
  match u with
  | Second => AddSeconds | Minute => AddMinutes | Hour => AddHours
  | Day => AddDays | Week => AddWeeks | Month => AddMonths
  end.

Definition spell (tbl : list (string * unit_name)) (w : list ascii)
  : option unit_name :=
  match find (fun x => chars_eqb (list_ascii_of_string (fst x)) w) tbl with
  | Some x => Some (snd x)
  | None => None
  end.

Definition table (d : bool) :=
  if d then short_spellings else short_spellings ++ long_spellings.

Definition word_unit (d : bool) (w : list ascii) : option unit_name :=
  spell (table d) w.

Fixpoint prefixb (a b : list ascii) : bool :=
  match a, b with
  | [], _ => true
  | x :: a', y :: b' => Ascii.eqb x y && prefixb a' b'
  | _, _ => false
  end.

Definition extends (d : bool) (w : list ascii) : bool :=
  existsb (fun x => prefixb w (list_ascii_of_string (fst x))) (table d).

Definition ch (n : nat) := ascii_of_nat n.

Definition dstep (s : st) (c : ascii) : option (list action * st) :=
  match s with
  | SStart => if is_digit c then Some ([Num], SNum false) else None
  | SNum k =>
      if is_digit c then Some ([], SNum k)
      else if is_space c then Some ([], SPad k)
      else if extends true [c] then Some ([], SWord k true [c])
      else None
  | SPad k =>
      if is_space c then Some ([], SPad k)
      else if extends false [c] then Some ([], SWord k false [c])
      else None
  | SWord k d w =>
      if extends d (w ++ [c]) then Some ([], SWord k d (w ++ [c]))
      else
        match word_unit d w with
        | None => None
        | Some u =>
            if is_digit c then
              Some (if k then [Num; act_of u] else [act_of u; Num], SNum true)
            else if is_space c then Some ([act_of u], SGap)
            else None
        end
  | SGap =>
      if is_digit c then Some ([Num], SNum true)
      else if is_space c then Some ([], SGap)
      else if Ascii.eqb c "a" then Some ([], SA1)
      else None
  | SA1 => if Ascii.eqb c "n" then Some ([], SA2) else None
  | SA2 => if Ascii.eqb c "d" then Some ([], SA3) else None
  | SA3 => if is_space c then Some ([], SA4) else None
  | SA4 =>
      if is_digit c then Some ([Num], SNum true)
      else if is_space c then Some ([], SA4)
      else None
  end.

Definition dfinal (s : st) : option (list action) :=
  match s with
  | SWord _ d w =>
      match word_unit d w with Some u => Some [act_of u] | None => None end
  | _ => None
  end.

Definition access (s : st) : list ascii :=
  let base (k : bool) := list_ascii_of_string (if k then "1h 1" else "1")%string in
  match s with
  | SStart => []
  | SNum k => base k
  | SPad k => base k ++ list_ascii_of_string " "
  | SWord k d w => base k ++ list_ascii_of_string (if d then "" else " ") ++ w
  | SGap => list_ascii_of_string "1h "
  | SA1 => list_ascii_of_string "1h a"
  | SA2 => list_ascii_of_string "1h an"
  | SA3 => list_ascii_of_string "1h and"
  | SA4 => list_ascii_of_string "1h and "
  end.

Definition emb (s : st) : list rx :=
  fold_left (fun S c => snd (step S c)) (access s) start_state.

Fixpoint prefixes (w : list ascii) : list (list ascii) :=
  match w with
  | [] => []
  | c :: w' => [c] :: map (cons c) (prefixes w')
  end.

Definition both := [false; true].

Definition all_states : list st :=
  [SStart; SGap; SA1; SA2; SA3; SA4] ++ map SNum both ++ map SPad both ++
  flat_map (fun k => flat_map (fun d => map (SWord k d)
    (flat_map (fun x => prefixes (list_ascii_of_string (fst x))) (table d)))
    both) both.

Definition all_chars : list ascii := map ascii_of_nat (seq 0 256).

Lemma all_chars_spec : forall c, In c all_chars.
Proof.
  intro c. unfold all_chars. apply in_map_iff.
  exists (nat_of_ascii c). split; [apply ascii_nat_embedding|].
  apply in_seq. pose proof (nat_ascii_bounded c). lia.
Qed.

Definition st_eqb (a b : st) : bool :=
  match a, b with
  | SStart, SStart | SGap, SGap | SA1, SA1 | SA2, SA2 | SA3, SA3 | SA4, SA4 => true
  | SNum k, SNum l | SPad k, SPad l => Bool.eqb k l
  | SWord k d w, SWord l e v => Bool.eqb k l && Bool.eqb d e && chars_eqb w v
  | _, _ => false
  end.

Lemma chars_eqb_eq : forall a b, chars_eqb a b = true <-> a = b.
Proof.
  induction a as [|x a IH]; intros [|y b]; cbn; split; intro H;
    try discriminate; try reflexivity.
  - apply andb_true_iff in H. destruct H as [H1 H2].
    apply Ascii.eqb_eq in H1. apply IH in H2. congruence.
  - inversion H; subst. rewrite Ascii.eqb_refl. cbn. apply IH. reflexivity.
Qed.

Lemma action_eqb_eq : forall a b, action_eqb a b = true <-> a = b.
Proof. intros [] []; cbn; split; intro; congruence. Qed.

Lemma rx_eqb_eq : forall a b, rx_eqb a b = true <-> a = b.
Proof.
  induction a; intros []; cbn; split; intro H; try discriminate;
    try reflexivity;
    repeat match goal with
           | H : _ && _ = true |- _ => apply andb_true_iff in H; destruct H
           | H : Nat.eqb _ _ = true |- _ => apply Nat.eqb_eq in H
           | H : action_eqb _ _ = true |- _ => apply action_eqb_eq in H
           | H : chars_eqb _ _ = true |- _ => apply chars_eqb_eq in H
           | IH : forall b, rx_eqb ?r b = true <-> _, H : rx_eqb ?r _ = true |- _ =>
               apply IH in H
           end; subst; try reflexivity;
    inversion H; subst;
    repeat (rewrite Nat.eqb_refl);
    repeat (apply andb_true_iff; split); try reflexivity;
    try (apply chars_eqb_eq; reflexivity);
    try (apply action_eqb_eq; reflexivity);
    match goal with
    | IH : forall b, rx_eqb ?r b = true <-> _ |- rx_eqb ?r _ = true =>
        apply IH; reflexivity
    end.
Qed.

Fixpoint list_eqb {A} (e : A -> A -> bool) (a b : list A) : bool :=
  match a, b with
  | [], [] => true
  | x :: a', y :: b' => e x y && list_eqb e a' b'
  | _, _ => false
  end.

Lemma list_eqb_eq {A} (e : A -> A -> bool) :
  (forall x y, e x y = true <-> x = y) ->
  forall a b, list_eqb e a b = true <-> a = b.
Proof.
  intros He. induction a as [|x a IH]; intros [|y b]; cbn; split; intro H;
    try discriminate; try reflexivity.
  - apply andb_true_iff in H. destruct H as [H1 H2].
    apply He in H1. apply IH in H2. congruence.
  - inversion H; subst. apply andb_true_iff. split.
    + apply He. reflexivity.
    + apply IH. reflexivity.
Qed.

Lemma st_eqb_eq : forall a b, st_eqb a b = true <-> a = b.
Proof.
  intros [] []; cbn; split; intro H; try discriminate; try reflexivity;
    repeat match goal with
           | H : _ && _ = true |- _ => apply andb_true_iff in H; destruct H
           | H : Bool.eqb _ _ = true |- _ => apply eqb_prop in H
           | H : chars_eqb _ _ = true |- _ => apply chars_eqb_eq in H
           end; subst; try reflexivity;
    inversion H; subst; rewrite ?eqb_reflx; cbn;
    try reflexivity; apply chars_eqb_eq; reflexivity.
Qed.

Definition check1 (tab : list (st * list rx)) (s : st) (S : list rx)
  (c : ascii) : bool :=
  match dstep s c, step S c with
  | None, (_, []) => true
  | Some (acts, s'), (acts', S') =>
      list_eqb action_eqb acts' acts &&
      existsb (fun x => if st_eqb s' (fst x) then list_eqb rx_eqb S' (snd x) else false) tab
  | _, _ => false
  end.

Definition check_final (s : st) (S : list rx) : bool :=
  match dfinal s with
  | None => negb (is_final S)
  | Some acts => is_final S && list_eqb action_eqb (eof_actions S) acts
  end &&
  match S with [] => false | _ => true end.

Definition emb_table := map (fun s => (s, emb s)) all_states.

Definition check_all (tab : list (st * list rx)) : bool :=
  forallb (fun x => check_final (fst x) (snd x) &&
             forallb (check1 tab (fst x) (snd x)) all_chars) tab.

Lemma simulation_check : check_all emb_table = true.
Proof. vm_compute. reflexivity. Qed.

Lemma check_all_elim : forall tab, check_all tab = true ->
  forall s S, In (s, S) tab ->
  check_final s S = true /\ forall c, check1 tab s S c = true.
Proof.
  intros tab H s S Hin. unfold check_all in H. rewrite forallb_forall in H.
  specialize (H (s, S) Hin). apply andb_true_iff in H. destruct H as [H1 H2].
  split; [exact H1|]. intro c. rewrite forallb_forall in H2.
  apply H2. apply all_chars_spec.
Qed.

Lemma emb_table_in : forall s, In s all_states -> In (s, emb s) emb_table.
Proof.
  intros s Hs. unfold emb_table. apply in_map_iff.
  exists s. split; [reflexivity|exact Hs].
Qed.

Lemma sim_check_state : forall s, In s all_states ->
  check_final s (emb s) = true /\
  forall c, check1 emb_table s (emb s) c = true.
Proof.
  intros s Hs.
  exact (check_all_elim emb_table simulation_check s (emb s) (emb_table_in s Hs)).
Qed.

Lemma sim_step : forall s c, In s all_states ->
  match dstep s c with
  | None => snd (step (emb s) c) = []
  | Some (acts, s') => In s' all_states /\ step (emb s) c = (acts, emb s')
  end.
Proof.
  intros s c Hs.
  pose proof (proj2 (sim_check_state s Hs) c) as H.
  unfold check1 in H. destruct (dstep s c) as [[acts s']|].
  - destruct (step (emb s) c) as [acts' S'].
    apply andb_true_iff in H. destruct H as [H1 H2].
    apply (list_eqb_eq _ action_eqb_eq) in H1.
    apply existsb_exists in H2. destruct H2 as [[x X] [Hx E]].
    cbn [fst snd] in E. destruct (st_eqb s' x) eqn:E1; [|discriminate].
    rename E into E2. apply st_eqb_eq in E1. apply (list_eqb_eq _ rx_eqb_eq) in E2. subst.
    unfold emb_table in Hx. apply in_map_iff in Hx.
    destruct Hx as [y [Ey Hy]]. inversion Ey; subst. split; [exact Hy|reflexivity].
  - destruct (step (emb s) c) as [acts' [|? ?]]; [reflexivity|discriminate].
Qed.

Lemma sim_final : forall s, In s all_states ->
  match dfinal s with
  | None => is_final (emb s) = false
  | Some acts => is_final (emb s) = true /\ eof_actions (emb s) = acts
  end.
Proof.
  intros s Hs. pose proof (proj1 (sim_check_state s Hs)) as H.
  unfold check_final in H. apply andb_true_iff in H. destruct H as [H _].
  destruct (dfinal s).
  - apply andb_true_iff in H. destruct H as [H1 H2].
    apply (list_eqb_eq _ action_eqb_eq) in H2. tauto.
  - apply negb_true_iff in H. exact H.
Qed.

Lemma emb_nonempty : forall s, In s all_states -> emb s <> [].
Proof.
  intros s Hs. pose proof (proj1 (sim_check_state s Hs)) as H.
  unfold check_final in H. apply andb_true_iff in H. destruct H as [_ H].
  destruct (emb s); congruence.
Qed.

Fixpoint dexec (s : st) (v : option vars) (p : text) : parse_result :=
  match p with
  | [] =>
      match dfinal s with
      | Some acts =>
          match run_actions [] v acts with
          | Some v' => Parsed (v_sum v')
          | None => Undefined
          end
      | None => match v with Some _ => ParseError | None => Undefined end
      end
  | c :: p' =>
      match dstep s c with
      | None => match v with Some _ => ParseError | None => Undefined end
      | Some (acts, s') => dexec s' (run_actions p v acts) p'
      end
  end.

Lemma exec_dexec : forall p s v, In s all_states ->
  exec (emb s) v p = dexec s v p.
Proof.
  induction p as [|c p IH]; intros s v Hs.
  - cbn [exec dexec]. pose proof (sim_final s Hs) as H.
    destruct (dfinal s).
    + destruct H as [-> ->]. reflexivity.
    + rewrite H. reflexivity.
  - cbn [exec dexec]. pose proof (sim_step s c Hs) as H.
    destruct (dstep s c) as [[acts s']|].
    + destruct H as [Hs' E]. rewrite E.
      pose proof (emb_nonempty s' Hs') as Hne.
      rewrite <- IH by exact Hs'.
      destruct (emb s'); [congruence|reflexivity].
    + destruct (step (emb s) c) as [acts S']. cbn in H. subst. reflexivity.
Qed.

Lemma parse_dexec : forall t,
  parse_duration t = dexec SStart (Some {| v_n := []; v_sum := 0 |}) t.
Proof.
  intros [|c t].
  - reflexivity.
  - unfold parse_duration. change start_state with (emb SStart).
    apply exec_dexec. left. reflexivity.
Qed.

Global Opaque emb.

(** ** Characters *)

Lemma digit_value_spec : forall c,
  digit_value c =
  if is_digit c then Some (Z.of_nat (nat_of_ascii c) - 48)%Z else None.
Proof.
  intro c. unfold digit_value, is_digit.
  destruct (Nat.leb_spec 48 (nat_of_ascii c)) as [H1|H1]; [|reflexivity].
  destruct (Nat.leb_spec (nat_of_ascii c) 57); [|reflexivity].
  cbn [andb]. f_equal. rewrite Nat2Z.inj_sub by exact H1. reflexivity.
Qed.

Lemma chars_fact (P : ascii -> bool) :
  forallb P all_chars = true -> forall c, P c = true.
Proof.
  intros H c. rewrite forallb_forall in H. apply H. apply all_chars_spec.
Qed.

Lemma space_not_digit : forall c, is_space c = true -> is_digit c = false.
Proof.
  intros c H.
  assert (E : implb (is_space c) (negb (is_digit c)) = true).
  { apply (chars_fact (fun c => implb (is_space c) (negb (is_digit c)))).
    vm_compute. reflexivity. }
  rewrite H in E. cbn in E. apply negb_true_iff. exact E.
Qed.


Ltac by_chars := apply chars_fact; vm_compute; reflexivity.

Lemma implb_true (a b : bool) : implb a b = true -> a = true -> b = true.
Proof. destruct a, b; cbn; congruence. Qed.

(** Characters that start a word are neither digits nor blanks. *)
Lemma ext_first : forall d c, extends d [c] = true ->
  is_digit c = false /\ is_space c = false.
Proof.
  intros d c H.
  assert (E : implb (extends d [c]) (negb (is_digit c) && negb (is_space c)) = true).
  { destruct d; revert c H; intros c _; revert c; by_chars. }
  rewrite H in E. cbn [implb] in E. apply andb_true_iff in E. destruct E as [E1 E2].
  split; apply negb_true_iff; assumption.
Qed.

(** ** Words *)

Fixpoint ext_path (d : bool) (w1 w2 : list ascii) : bool :=
  match w2 with
  | [] => true
  | c :: w2' => extends d (w1 ++ [c]) && ext_path d (w1 ++ [c]) w2'
  end.

Lemma word_run : forall k d v w2 w1 p,
  ext_path d w1 w2 = true ->
  dexec (SWord k d w1) v (w2 ++ p) = dexec (SWord k d (w1 ++ w2)) v p.
Proof.
  intros k d v w2. induction w2 as [|c w2 IH]; intros w1 p H.
  - rewrite app_nil_r. reflexivity.
  - cbn [ext_path] in H. apply andb_true_iff in H. destruct H as [H1 H2].
    cbn [app dexec dstep]. rewrite H1. cbn [run_actions fold_left].
    rewrite IH by exact H2. rewrite <- app_assoc. reflexivity.
Qed.

Definition word_entry_ok (d : bool) (x : string * unit_name) : bool :=
  let w := list_ascii_of_string (fst x) in
  match w with
  | [] => false
  | c :: w' =>
      extends d [c] && ext_path d [c] w' &&
      match word_unit d w with
      | Some u => action_eqb (act_of u) (act_of (snd x))
      | None => false
      end &&
      forallb (fun c => implb (is_digit c || is_space c)
                         (negb (extends d (w ++ [c])))) all_chars
  end.

Lemma entries_ok : forallb (fun d => forallb (word_entry_ok d) (table d)) [false; true] = true.
Proof. vm_compute. reflexivity. Qed.

Lemma act_of_inj : forall a b, act_of a = act_of b -> a = b.
Proof. intros [] []; cbn; congruence. Qed.

Lemma entry_facts : forall d w u, In (w, u) (table d) ->
  let t := list_ascii_of_string w in
  (exists c t', t = c :: t' /\ extends d [c] = true /\ ext_path d [c] t' = true) /\
  word_unit d t = Some u /\
  (forall c, is_digit c = true \/ is_space c = true ->
             extends d (t ++ [c]) = false).
Proof.
  intros d w u H t.
  pose proof entries_ok as E. rewrite forallb_forall in E.
  assert (Hd : In d [false; true]) by (destruct d; cbn; tauto).
  specialize (E d Hd). rewrite forallb_forall in E. specialize (E _ H).
  unfold word_entry_ok in E. cbn [fst snd] in E. fold t in E.
  destruct t as [|c t'] eqn:Et; [discriminate|].
  apply andb_true_iff in E. destruct E as [E E4].
  apply andb_true_iff in E. destruct E as [E E3].
  apply andb_true_iff in E. destruct E as [E1 E2].
  split; [|split].
  - exists c, t'. auto.
  - destruct (word_unit d (c :: t')) as [u'|]; [|discriminate].
    apply action_eqb_eq in E3. apply act_of_inj in E3. congruence.
  - intros c0 Hc. rewrite forallb_forall in E4.
    specialize (E4 c0 (all_chars_spec c0)).
    assert (Ho : is_digit c0 || is_space c0 = true)
      by (apply orb_true_iff; exact Hc).
    apply negb_true_iff. exact (implb_true _ _ E4 Ho).
Qed.

(** Does the word follow the count directly? *)
Definition direct (i : item) : bool :=
  match pad i with [] => true | _ => false end.

Lemma item_entry : forall i, item_ok i -> In (word i, unit i) (table (direct i)).
Proof.
  intros i (Hne & Hd & Hp & H). unfold table, direct.
  destruct (pad i) as [|c pd].
  - destruct H as [H|[_ H]]; [exact H|congruence].
  - apply in_or_app. destruct H as [H|[H _]]; auto.
Qed.

Definition wtext (i : item) := list_ascii_of_string (word i).

(** ** Running over an item *)

Lemma run_digits : forall k v ds p, forallb is_digit ds = true ->
  dexec (SNum k) v (ds ++ p) = dexec (SNum k) v p.
Proof.
  intros k v ds p. induction ds as [|c ds IH]; intro H; [reflexivity|].
  cbn [forallb] in H. apply andb_true_iff in H. destruct H as [H1 H2].
  cbn [app dexec dstep]. rewrite H1. cbn [run_actions fold_left]. apply IH, H2.
Qed.

Lemma run_pad : forall k v sp p, forallb is_space sp = true ->
  dexec (SPad k) v (sp ++ p) = dexec (SPad k) v p.
Proof.
  intros k v ds p. induction ds as [|c ds IH]; intro H; [reflexivity|].
  cbn [forallb] in H. apply andb_true_iff in H. destruct H as [H1 H2].
  cbn [app dexec dstep]. rewrite H1. cbn [run_actions fold_left]. apply IH, H2.
Qed.

Lemma run_item_body : forall k v i p ds, item_ok i -> forallb is_digit ds = true ->
  dexec (SNum k) v (ds ++ pad i ++ wtext i ++ p) =
  dexec (SWord k (direct i) (wtext i)) v p.
Proof.
  intros k v i p ds Hi Hds. rewrite run_digits by exact Hds.
  pose proof (item_entry i Hi) as He.
  destruct (entry_facts _ _ _ He) as ((c & t' & Et & E1 & E2) & _ & _).
  destruct Hi as (_ & _ & Hp & _).
  unfold wtext, direct in *. destruct (ext_first _ _ E1) as [Dc Sc].
  destruct (pad i) as [|s pd].
  - cbn [app]. rewrite Et. cbn [app dexec dstep]. rewrite Dc, Sc, E1.
    cbn [run_actions fold_left]. rewrite word_run by exact E2. reflexivity.
  - cbn [forallb] in Hp. apply andb_true_iff in Hp. destruct Hp as [H1 H2].
    cbn [app dexec dstep]. rewrite (space_not_digit _ H1), H1.
    cbn [run_actions fold_left]. rewrite run_pad by exact H2.
    rewrite Et. cbn [app dexec dstep]. rewrite Sc, E1.
    cbn [run_actions fold_left]. rewrite word_run by exact E2. reflexivity.
Qed.

(** ** Reading a count *)

Lemma read_digits_app : forall ds acc p,
  forallb is_digit ds = true ->
  (match p with [] => True | c :: _ => is_digit c = false end) ->
  read_digits acc (ds ++ p) =
  fold_left (fun acc c => 10 * acc + (Z.of_nat (nat_of_ascii c) - 48))%Z ds acc.
Proof.
  induction ds as [|c ds IH]; intros acc p H Hp.
  - cbn [app fold_left]. destruct p as [|c p]; [reflexivity|].
    cbn [read_digits]. rewrite digit_value_spec, Hp. reflexivity.
  - cbn [forallb] in H. apply andb_true_iff in H. destruct H as [H1 H2].
    cbn [app fold_left read_digits]. rewrite digit_value_spec, H1.
    rewrite IH by assumption. f_equal. lia.
Qed.

Lemma atoi_item : forall i p, item_ok i ->
  (decimal (digits i) <= 2147483647)%Z ->
  atoi (item_text i ++ p) = Some (decimal (digits i)).
Proof.
  intros i p Hi Hfit. unfold atoi, item_text. rewrite <- app_assoc.
  pose proof (item_entry i Hi) as He.
  destruct (entry_facts _ _ _ He) as ((c & t' & Et & E1 & E2) & _ & _).
  destruct (ext_first _ _ E1) as [Dc Sc].
  destruct Hi as (_ & Hd & Hp & _).
  rewrite read_digits_app; [|exact Hd|].
  - fold (decimal (digits i)). unfold int_max.
    destruct (Z.leb_spec (decimal (digits i)) 2147483647); [reflexivity|lia].
  - destruct (pad i) as [|s pd].
    + cbn [app]. rewrite Et. exact Dc.
    + cbn [app]. cbn [forallb] in Hp. apply andb_true_iff in Hp.
      apply space_not_digit. tauto.
Qed.

Lemma action_unit_of : forall u, action_unit (act_of u) = Some (unit_seconds u).
Proof. intros []; reflexivity. Qed.

Lemma run_add : forall p u i q s, item_ok i ->
  (decimal (digits i) <= 2147483647)%Z ->
  run_action p (Some {| v_n := item_text i ++ q; v_sum := s |}) (act_of u) =
  Some {| v_n := item_text i ++ q;
          v_sum := s + decimal (digits i) * unit_seconds u |}.
Proof.
  intros p u i q s Hi Hf. unfold run_action. rewrite action_unit_of.
  cbn [v_n]. rewrite atoi_item by assumption. reflexivity.
Qed.

Lemma run_num : forall p s,
  run_action p (Some s) Num = Some {| v_n := p; v_sum := v_sum s |}.
Proof. reflexivity. Qed.

Lemma item_text_cons : forall i, item_ok i ->
  exists c ds, digits i = c :: ds /\ is_digit c = true /\
    forallb is_digit ds = true /\
    item_text i = c :: (ds ++ pad i ++ wtext i).
Proof.
  intros i (Hne & Hd & _). destruct (digits i) as [|c ds] eqn:E; [congruence|].
  cbn [forallb] in Hd. apply andb_true_iff in Hd. destruct Hd as [H1 H2].
  exists c, ds. unfold item_text. rewrite E. auto.
Qed.

(** From the states in which a count may start, an item is read up to the
    end of its word. *)
Definition opening (s : st) (k : bool) : Prop :=
  s = SStart /\ k = false \/ (s = SGap \/ s = SA4) /\ k = true.

Lemma run_item : forall s k i p v, opening s k -> item_ok i ->
  dexec s (Some v) (item_text i ++ p) =
  dexec (SWord k (direct i) (wtext i))
        (Some {| v_n := item_text i ++ p; v_sum := v_sum v |}) p.
Proof.
  intros s k i p v Ho Hi.
  destruct (item_text_cons i Hi) as (c & ds & Ed & Dc & Dds & Et).
  rewrite Et.
  assert (Hst : dstep s c = Some ([Num], SNum k)).
  { destruct Ho as [[-> ->]|[[-> | ->] ->]]; cbn [dstep]; rewrite Dc; reflexivity. }
  cbn [app dexec]. rewrite Hst. cbn [run_actions fold_left]. rewrite run_num.
  rewrite <- !app_assoc. apply run_item_body; assumption.
Qed.

(** ** Separators *)

Lemma run_gap : forall v sp p, forallb is_space sp = true ->
  dexec SGap v (sp ++ p) = dexec SGap v p.
Proof.
  intros v ds p. induction ds as [|c ds IH]; intro H; [reflexivity|].
  cbn [forallb] in H. apply andb_true_iff in H. destruct H as [H1 H2].
  cbn [app dexec dstep]. rewrite (space_not_digit _ H1), H1.
  cbn [run_actions fold_left]. apply IH, H2.
Qed.

Lemma run_gap4 : forall v sp p, forallb is_space sp = true ->
  dexec SA4 v (sp ++ p) = dexec SA4 v p.
Proof.
  intros v ds p. induction ds as [|c ds IH]; intro H; [reflexivity|].
  cbn [forallb] in H. apply andb_true_iff in H. destruct H as [H1 H2].
  cbn [app dexec dstep]. rewrite (space_not_digit _ H1), H1.
  cbn [run_actions fold_left]. apply IH, H2.
Qed.

Lemma run_and : forall v p, dexec SGap v (list_ascii_of_string "and" ++ p) =
  dexec SA3 v p.
Proof. reflexivity. Qed.

(** Leaving a finished word over a non-empty separator. *)
Lemma run_separator : forall k i sep p v, item_ok i -> separator_ok sep ->
  sep <> [] ->
  exists s q, opening s true /\
  dexec (SWord k (direct i) (wtext i)) v (sep ++ p) =
  dexec s (run_action q v (act_of (unit i))) p.
Proof.
  intros k i sep p v Hi Hs Hne.
  destruct (entry_facts _ _ _ (item_entry i Hi)) as (_ & Hu & Hx).
  assert (Hsp : forall c t, is_space c = true ->
    dexec (SWord k (direct i) (wtext i)) v (c :: t) =
    dexec SGap (run_action (c :: t) v (act_of (unit i))) t).
  { intros c t Hc. cbn [dexec dstep]. unfold wtext.
    rewrite Hx by auto. rewrite Hu, (space_not_digit _ Hc), Hc. reflexivity. }
  destruct Hs as [Hs|(a & b & -> & Ha & Hb & Sa & Sb)].
  - destruct sep as [|c sep]; [congruence|].
    cbn [forallb] in Hs. apply andb_true_iff in Hs. destruct Hs as [H1 H2].
    exists SGap, (c :: sep ++ p). split; [right; auto|].
    cbn [app]. rewrite Hsp by exact H1. apply run_gap, H2.
  - destruct a as [|c a]; [congruence|]. destruct b as [|c' b]; [congruence|].
    cbn [forallb] in Sa, Sb. apply andb_true_iff in Sa, Sb.
    destruct Sa as [A1 A2], Sb as [B1 B2].
    eexists SA4, _. split; [right; auto|].
    rewrite <- !app_assoc. cbn [app]. rewrite Hsp by exact A1.
    rewrite run_gap by exact A2.
    change ("a"%char :: "n"%char :: "d"%char :: c' :: b ++ p)
      with (list_ascii_of_string "and" ++ (c' :: b ++ p)).
    rewrite run_and. cbn [dexec dstep]. rewrite B1.
    cbn [run_actions fold_left]. rewrite run_gap4 by exact B2. reflexivity.
Qed.

(** Leaving a finished word directly into the next count. *)
Lemma run_glued : forall k i j p v, item_ok i -> item_ok j ->
  dexec (SWord k (direct i) (wtext i)) v (item_text j ++ p) =
  dexec (SWord true (direct j) (wtext j))
    (run_actions (item_text j ++ p) v
       (if k then [Num; act_of (unit i)] else [act_of (unit i); Num])) p.
Proof.
  intros k i j p v Hi Hj.
  destruct (entry_facts _ _ _ (item_entry i Hi)) as (_ & Hu & Hx).
  destruct (item_text_cons j Hj) as (c & ds & Ed & Dc & Dds & Et).
  rewrite Et. cbn [app dexec dstep]. fold (wtext i) in Hu, Hx.
  rewrite Hx by auto. rewrite Hu, Dc.
  rewrite <- !app_assoc. apply run_item_body; assumption.
Qed.

(** ** Running over a whole phrase *)

Lemma run_tail : forall l i k s,
  item_ok i -> Forall item_ok (map snd l) -> Forall separator_ok (map fst l) ->
  (decimal (digits i) <= 2147483647)%Z ->
  Forall (fun j => decimal (digits j) <= 2147483647)%Z (map snd l) ->
  dexec (SWord k (direct i) (wtext i))
    (Some {| v_n := item_text i ++ tail_text l; v_sum := s |}) (tail_text l) =
  Parsed (s + if k then rest_seconds i l else charged_seconds (i, l)).
Proof.
  induction l as [|[sep j] l IH]; intros i k s Hi Hl Hs Hf Hfl.
  - cbn [tail_text flat_map dexec dfinal].
    destruct (entry_facts _ _ _ (item_entry i Hi)) as (_ & Hu & _).
    unfold wtext. rewrite Hu. cbn [run_actions fold_left].
    rewrite run_add by assumption. cbn [v_sum].
    destruct k; reflexivity.
  - cbn [map fst snd] in Hl, Hs, Hfl. inversion Hl; inversion Hs; inversion Hfl; subst.
    unfold tail_text at 2. cbn [flat_map fst snd]. fold (tail_text l).
    rewrite <- app_assoc. destruct sep as [|c sep].
    + cbn [app]. rewrite run_glued by assumption.
      unfold tail_text at 1. cbn [flat_map fst snd app]. fold (tail_text l).
      destruct k; cbn [run_actions fold_left].
      * rewrite run_num. cbn [v_sum]. rewrite run_add by assumption.
        rewrite IH by assumption. f_equal. cbn [rest_seconds]. lia.
      * rewrite run_add by assumption. rewrite run_num. cbn [v_sum].
        rewrite IH by assumption. f_equal.
        unfold charged_seconds. cbn [snd fst]. unfold item_seconds at 1. lia.
    + destruct (run_separator k i (c :: sep) (item_text j ++ tail_text l)
        (Some {| v_n := item_text i ++ tail_text ((c :: sep, j) :: l); v_sum := s |}))
        as (st' & q & Ho & E); try assumption; [discriminate|].
      rewrite E. rewrite run_add by assumption.
      rewrite (run_item st' true) by assumption. cbn [v_sum].
      rewrite IH by assumption. f_equal.
      unfold charged_seconds. cbn [rest_seconds snd fst].
      fold (item_seconds i). destruct k; lia.
Qed.

Lemma parse_phrase : forall ph, phrase_ok ph -> counts_fit ph ->
  parse_duration (phrase_text ph) = Parsed (charged_seconds ph).
Proof.
  intros [i l] [Hi Hs] Hf. unfold phrase_items, counts_fit in *.
  cbn [phrase_items fst snd map] in *.
  inversion Hi; inversion Hf; subst.
  rewrite parse_dexec. unfold phrase_text. cbn [fst snd].
  rewrite (run_item SStart false) by (auto; left; auto).
  cbn [v_sum]. rewrite run_tail by assumption. f_equal.
Qed.

(** ** Soundness: accepted texts are phrases *)

Definition Tail (p : text) : Prop :=
  exists l, Forall item_ok (map snd l) /\ Forall separator_ok (map fst l) /\
            p = tail_text l.

Definition spelled (d : bool) (w : list ascii) : Prop :=
  exists x u, In (x, u) (table d) /\ w = list_ascii_of_string x.

(** The texts that may follow each state. *)
Definition Lang (s : st) (p : text) : Prop :=
  match s with
  | SStart => exists ph, phrase_ok ph /\ p = phrase_text ph
  | SNum _ =>
      exists ds sp w t, p = ds ++ sp ++ w ++ t /\
        forallb is_digit ds = true /\ forallb is_space sp = true /\
        spelled (match sp with [] => true | _ => false end) w /\ Tail t
  | SPad _ =>
      exists sp w t, p = sp ++ w ++ t /\ forallb is_space sp = true /\
        spelled false w /\ Tail t
  | SWord _ d w =>
      exists w2 t, p = w2 ++ t /\ spelled d (w ++ w2) /\ Tail t
  | SGap =>
      exists sp m i t, p = sp ++ m ++ item_text i ++ t /\
        forallb is_space sp = true /\ item_ok i /\ Tail t /\
        (m = [] \/ exists sp2, m = list_ascii_of_string "and" ++ sp2 /\
           sp2 <> [] /\ forallb is_space sp2 = true)
  | SA1 =>
      exists sp2 i t, p = list_ascii_of_string "nd" ++ sp2 ++ item_text i ++ t /\
        item_ok i /\ Tail t /\ sp2 <> [] /\ forallb is_space sp2 = true
  | SA2 =>
      exists sp2 i t, p = list_ascii_of_string "d" ++ sp2 ++ item_text i ++ t /\
        item_ok i /\ Tail t /\ sp2 <> [] /\ forallb is_space sp2 = true
  | SA3 =>
      exists sp2 i t, p = sp2 ++ item_text i ++ t /\
        item_ok i /\ Tail t /\ sp2 <> [] /\ forallb is_space sp2 = true
  | SA4 =>
      exists sp2 i t, p = sp2 ++ item_text i ++ t /\
        item_ok i /\ Tail t /\ forallb is_space sp2 = true
  end.

Lemma word_unit_spelled : forall d w u, word_unit d w = Some u -> spelled d w.
Proof.
  intros d w u H. unfold word_unit, spell in H.
  destruct (find _ (table d)) as [x|] eqn:E; [|discriminate].
  apply find_some in E. destruct E as [Hin E]. apply chars_eqb_eq in E.
  exists (fst x), (snd x). rewrite <- surjective_pairing. auto.
Qed.

Lemma Tail_nil : Tail [].
Proof. exists []. cbn. auto. Qed.

Lemma Tail_cons : forall sep i t, separator_ok sep -> item_ok i -> Tail t ->
  Tail (sep ++ item_text i ++ t).
Proof.
  intros sep i t Hs Hi (l & Hl & Hsl & ->).
  exists ((sep, i) :: l). cbn [map fst snd]. split; [|split].
  - constructor; assumption.
  - constructor; assumption.
  - unfold tail_text. cbn [flat_map fst snd]. rewrite <- app_assoc. reflexivity.
Qed.

Lemma item_of : forall c ds sp w, is_digit c = true ->
  forallb is_digit ds = true -> forallb is_space sp = true ->
  spelled (match sp with [] => true | _ => false end) w ->
  exists i, item_ok i /\ item_text i = c :: ds ++ sp ++ w.
Proof.
  intros c ds sp w Hc Hds Hsp (x & u & Hin & ->).
  exists (Item (c :: ds) sp x u). split.
  - split; [|split; [|split]]; cbn [digits pad word unit].
    + discriminate.
    + cbn [forallb]. rewrite Hc. exact Hds.
    + exact Hsp.
    + destruct sp as [|c' sp].
      * left. exact Hin.
      * cbn [table] in Hin. apply in_app_or in Hin. destruct Hin as [H|H].
        -- left. exact H.
        -- right. split; [exact H|discriminate].
  - reflexivity.
Qed.

Lemma sound : forall p s v x, dexec s v p = Parsed x -> Lang s p.
Proof.
  induction p as [|c p IH]; intros s v x H.
  - destruct s; cbn [dexec dfinal] in H;
      try (destruct v; discriminate H).
    cbn [Lang]. exists [], []. rewrite (app_nil_r w).
    destruct (word_unit d w) as [u|] eqn:E;
      [|destruct v; discriminate H].
    split; [reflexivity|]. split; [|apply Tail_nil].
    eapply word_unit_spelled. exact E.
  - cbn [dexec] in H.
    destruct (dstep s c) as [[acts s']|] eqn:E; [|destruct v; discriminate H].
    apply IH in H. clear IH.
    destruct s; cbn [dstep] in E.
    + (* SStart *)
      destruct (is_digit c) eqn:Dc; inversion E; subst; clear E.
      destruct H as (ds & sp & w & t & -> & Hds & Hsp & Hw & (l & Hl & Hs & ->)).
      destruct (item_of c ds sp w Dc Hds Hsp Hw) as (i & Hi & Ei).
      exists (i, l). split.
      * split; [|exact Hs]. unfold phrase_items. cbn [fst snd].
        constructor; assumption.
      * unfold phrase_text. cbn [fst snd]. rewrite Ei. cbn [app].
        rewrite <- !app_assoc. reflexivity.
    + (* SNum *)
      destruct (is_digit c) eqn:Dc; [|destruct (is_space c) eqn:Sc;
        [|destruct (extends true [c]) eqn:Ec]]; inversion E; subst; clear E.
      * destruct H as (ds & sp & w & t & -> & Hds & Hsp & Hw & Ht).
        exists (c :: ds), sp, w, t. cbn [forallb]. rewrite Dc. auto.
      * destruct H as (sp & w & t & -> & Hsp & Hw & Ht).
        exists [], (c :: sp), w, t. cbn [forallb]. rewrite Sc. auto.
      * destruct H as (w2 & t & -> & Hw & Ht).
        exists [], [], (c :: w2), t. auto.
    + (* SPad *)
      destruct (is_space c) eqn:Sc; [|destruct (extends false [c]) eqn:Ec];
        inversion E; subst; clear E.
      * destruct H as (sp & w & t & -> & Hsp & Hw & Ht).
        exists (c :: sp), w, t. cbn [forallb]. rewrite Sc. auto.
      * destruct H as (w2 & t & -> & Hw & Ht).
        exists [], (c :: w2), t. auto.
    + (* SWord *)
      destruct (extends d (w ++ [c])).
      * inversion E; subst; clear E.
        destruct H as (w2 & t & -> & Hw & Ht). rewrite <- app_assoc in Hw.
        exists (c :: w2), t. auto.
      * destruct (word_unit d w) as [u|] eqn:Eu; [|discriminate].
        apply word_unit_spelled in Eu.
        exists [], (c :: p). rewrite (app_nil_r w).
        split; [reflexivity|]. split; [exact Eu|].
        destruct (is_digit c) eqn:Dc; [|destruct (is_space c) eqn:Sc];
          inversion E; subst; clear E.
        -- destruct H as (ds & sp & w' & t & -> & Hds & Hsp & Hw & Ht).
           destruct (item_of c ds sp w' Dc Hds Hsp Hw) as (i & Hi & Ei).
           replace (c :: ds ++ sp ++ w' ++ t) with ([] ++ item_text i ++ t)
             by (rewrite Ei; cbn [app]; rewrite <- !app_assoc; reflexivity).
           apply Tail_cons; auto. left. reflexivity.
        -- destruct H as (sp & m & i & t & -> & Hsp & Hi & Ht & Hm).
           replace (c :: sp ++ m ++ item_text i ++ t)
             with ((c :: sp ++ m) ++ item_text i ++ t)
             by (cbn [app]; rewrite <- !app_assoc; reflexivity).
           apply Tail_cons; auto.
           destruct Hm as [->|(sp2 & -> & Hne & Hsp2)].
           ++ left. rewrite app_nil_r. cbn [forallb]. rewrite Sc. exact Hsp.
           ++ right. exists (c :: sp), sp2. cbn [forallb]. rewrite Sc.
              split; [reflexivity|]. repeat split; auto. discriminate.
    + (* SGap *)
      destruct (is_digit c) eqn:Dc; [|destruct (is_space c) eqn:Sc;
        [|destruct (Ascii.eqb_spec c "a") as [->|]]]; inversion E; subst; clear E.
      * destruct H as (ds & sp & w' & t & -> & Hds & Hsp & Hw & Ht).
        destruct (item_of c ds sp w' Dc Hds Hsp Hw) as (i & Hi & Ei).
        exists [], [], i, t. rewrite Ei. cbn [app forallb].
        rewrite <- !app_assoc. repeat split; auto; apply Hi.
      * destruct H as (sp & m & i & t & -> & Hsp & Hi & Ht & Hm).
        exists (c :: sp), m, i, t. cbn [forallb]. rewrite Sc. auto.
      * destruct H as (sp2 & i & t & -> & Hi & Ht & Hne & Hsp2).
        exists [], (list_ascii_of_string "and" ++ sp2), i, t.
        split; [reflexivity|]. split; [reflexivity|]. split; [exact Hi|].
        split; [exact Ht|]. right. exists sp2. auto.
    + destruct (Ascii.eqb_spec c "n") as [->|]; inversion E; subst; clear E.
      destruct H as (sp2 & i & t & -> & H). exists sp2, i, t.
      split; [reflexivity|exact H].
    + destruct (Ascii.eqb_spec c "d") as [->|]; inversion E; subst; clear E.
      destruct H as (sp2 & i & t & -> & H). exists sp2, i, t.
      split; [reflexivity|exact H].
    + destruct (is_space c) eqn:Sc; inversion E; subst; clear E.
      destruct H as (sp2 & i & t & -> & Hi & Ht & Hs). exists (c :: sp2), i, t.
      cbn [forallb]. rewrite Sc. repeat split; auto; try apply Hi. discriminate.
    + destruct (is_digit c) eqn:Dc; [|destruct (is_space c) eqn:Sc];
        inversion E; subst; clear E.
      * destruct H as (ds & sp & w' & t & -> & Hds & Hsp & Hw & Ht).
        destruct (item_of c ds sp w' Dc Hds Hsp Hw) as (i & Hi & Ei).
        exists [], i, t. rewrite Ei. cbn [app forallb].
        rewrite <- !app_assoc. repeat split; auto; apply Hi.
      * destruct H as (sp2 & i & t & -> & Hi & Ht & Hs).
        exists (c :: sp2), i, t. cbn [forallb]. rewrite Sc.
        repeat split; auto; apply Hi.
Qed.

Lemma parsed_is_phrase : forall t x, parse_duration t = Parsed x ->
  exists ph, phrase_ok ph /\ phrase_text ph = t.
Proof.
  intros t x H. rewrite parse_dexec in H. apply sound in H.
  destruct H as (ph & H & ->). exists ph. auto.
Qed.

(** ** No undefined behaviour when the numbers are small *)

Definition suffix_of (t p : text) : Prop := exists a, t = a ++ p.

Lemma read_digits_split : forall p acc, exists ds q,
  p = ds ++ q /\ forallb is_digit ds = true /\
  read_digits acc p =
  fold_left (fun acc c => 10 * acc + (Z.of_nat (nat_of_ascii c) - 48))%Z ds acc.
Proof.
  induction p as [|c p IH]; intro acc.
  - exists [], []. auto.
  - cbn [read_digits]. rewrite digit_value_spec.
    destruct (is_digit c) eqn:Dc.
    + destruct (IH (acc * 10 + (Z.of_nat (nat_of_ascii c) - 48))%Z)
        as (ds & q & -> & Hds & E).
      exists (c :: ds), q. split; [reflexivity|]. cbn [forallb]. rewrite Dc.
      split; [exact Hds|]. rewrite E. cbn [fold_left]. f_equal. lia.
    + exists [], (c :: p). auto.
Qed.

Lemma atoi_small : forall t p, numbers_fit t -> suffix_of t p ->
  exists k, atoi p = Some k.
Proof.
  intros t p Ht (a & ->). unfold atoi.
  destruct (read_digits_split p 0) as (ds & q & -> & Hds & E).
  rewrite E. fold (decimal ds).
  specialize (Ht a ds q eq_refl Hds). unfold int_max.
  destruct (Z.leb_spec (decimal ds) 2147483647); [eauto|lia].
Qed.

Lemma run_actions_small : forall t p l v, numbers_fit t -> suffix_of t p ->
  suffix_of t (v_n v) ->
  exists v', run_actions p (Some v) l = Some v' /\ suffix_of t (v_n v').
Proof.
  intros t p l. induction l as [|a l IH]; intros v Ht Hp Hv.
  - exists v. auto.
  - unfold run_actions. cbn [fold_left]. unfold run_action at 2.
    destruct (action_unit a) as [u|].
    + destruct (atoi_small t _ Ht Hv) as [k Ek]. rewrite Ek.
      apply IH; auto.
    + apply IH; auto.
Qed.

Lemma no_undefined_from : forall t p s v, numbers_fit t -> suffix_of t p ->
  suffix_of t (v_n v) -> dexec s (Some v) p <> Undefined.
Proof.
  intros t p. induction p as [|c p IH]; intros s v Ht Hp Hv.
  - cbn [dexec]. destruct (dfinal s) as [acts|]; [|discriminate].
    destruct (run_actions_small t [] acts v Ht Hp Hv) as (v' & -> & _).
    discriminate.
  - cbn [dexec]. destruct (dstep s c) as [[acts s']|]; [|discriminate].
    destruct (run_actions_small t (c :: p) acts v Ht Hp Hv) as (v' & -> & Hv').
    apply IH; auto. destruct Hp as [a ->]. exists (a ++ [c]).
    rewrite <- app_assoc. reflexivity.
Qed.

Lemma no_undefined : forall t, numbers_fit t -> parse_duration t <> Undefined.
Proof.
  intros t Ht. rewrite parse_dexec. apply (no_undefined_from t).
  - exact Ht.
  - exists []. reflexivity.
  - exists t. cbn. rewrite app_nil_r. reflexivity.
Qed.

Lemma fit_item : forall a i b, numbers_fit (a ++ item_text i ++ b) ->
  item_ok i -> (decimal (digits i) <= 2147483647)%Z.
Proof.
  intros a i b H Hi. apply (H a (digits i) (pad i ++ wtext i ++ b)).
  - unfold item_text, wtext. rewrite <- !app_assoc. reflexivity.
  - apply Hi.
Qed.

Lemma fit_tail : forall l a, numbers_fit (a ++ tail_text l) ->
  Forall item_ok (map snd l) ->
  Forall (fun i => decimal (digits i) <= 2147483647)%Z (map snd l).
Proof.
  induction l as [|[s i] l IH]; intros a H Hok; cbn [map snd] in *.
  - constructor.
  - inversion Hok; subst. unfold tail_text in H. cbn [flat_map fst snd] in H.
    fold (tail_text l) in H. constructor.
    + apply (fit_item (a ++ s) i (tail_text l)); [|assumption].
      rewrite <- !app_assoc in *. exact H.
    + apply (IH (a ++ s ++ item_text i)); [|assumption].
      rewrite <- !app_assoc in *. exact H.
Qed.

Lemma fit_phrase : forall ph, phrase_ok ph -> numbers_fit (phrase_text ph) ->
  counts_fit ph.
Proof.
  intros [i l] [Hi Hs] H. unfold phrase_items, counts_fit in *.
  cbn [phrase_items fst snd map] in *. inversion Hi; subst.
  unfold phrase_text in H. cbn [fst snd] in H. constructor.
  - apply (fit_item [] i (tail_text l)); assumption.
  - apply (fit_tail l (item_text i)); assumption.
Qed.

(** ** The property theorems *)

Lemma accepts_iff : forall t, numbers_fit t ->
  ((exists x, parse_duration t = Parsed x) <->
   (exists ph, phrase_ok ph /\ phrase_text ph = t)) /\
  ((forall ph, phrase_ok ph -> phrase_text ph <> t) ->
   parse_duration t = ParseError).
Proof.
  intros t Ht.
  assert (Hiff : (exists x, parse_duration t = Parsed x) <->
    (exists ph, phrase_ok ph /\ phrase_text ph = t)).
  { split.
    - intros [x Hx]. eapply parsed_is_phrase. exact Hx.
    - intros (ph & Hok & <-). exists (charged_seconds ph).
      apply parse_phrase; [exact Hok|]. apply fit_phrase; assumption. }
  split; [exact Hiff|].
  intro Hno. destruct (parse_duration t) as [x| |] eqn:E.
  - exfalso. destruct (proj1 Hiff (ex_intro _ x eq_refl)) as (ph & Hok & Et).
    exact (Hno ph Hok Et).
  - reflexivity.
  - exfalso. exact (no_undefined t Ht E).
Qed.

Lemma rest_seconds_separated : forall l i,
  Forall (fun x => fst x <> []) l ->
  rest_seconds i l = fold_right Z.add 0%Z (map item_seconds (i :: map snd l)).
Proof.
  induction l as [|[s j] l IH]; intros i H.
  - cbn [rest_seconds map fold_right]. lia.
  - inversion H; subst. cbn [rest_seconds map snd fst fold_right] in *.
    rewrite IH by assumption. cbn [map fold_right].
    destruct s; [congruence|reflexivity].
Qed.

Lemma charged_separated : forall ph, separated ph ->
  charged_seconds ph = phrase_seconds ph.
Proof.
  intros [i [|[s j] l]] H; unfold charged_seconds, phrase_seconds, phrase_items;
    cbn [fst snd map fold_right] in *.
  - lia.
  - rewrite rest_seconds_separated by exact H. reflexivity.
Qed.

Lemma value_separated : forall ph, phrase_ok ph -> counts_fit ph ->
  separated ph -> parse_duration (phrase_text ph) = Parsed (phrase_seconds ph).
Proof.
  intros ph Hok Hf Hs. rewrite parse_phrase by assumption.
  rewrite charged_separated by assumption. reflexivity.
Qed.

(** *** Concatenation *)

Definition append (p : phrase) (s : list ascii) (q : phrase) : phrase :=
  (fst p, snd p ++ (s, fst q) :: snd q).

Lemma tail_text_app : forall l m, tail_text (l ++ m) = tail_text l ++ tail_text m.
Proof. intros. unfold tail_text. apply flat_map_app. Qed.

Lemma append_text : forall p s q,
  phrase_text (append p s q) = phrase_text p ++ s ++ phrase_text q.
Proof.
  intros [i l] s [j m]. unfold phrase_text, append. cbn [fst snd].
  rewrite tail_text_app. unfold tail_text at 2. cbn [flat_map fst snd].
  fold (tail_text m). rewrite <- !app_assoc. reflexivity.
Qed.

Lemma append_ok : forall p s q, phrase_ok p -> separator_ok s -> phrase_ok q ->
  phrase_ok (append p s q).
Proof.
  intros [i l] s [j m] [Hp Hps] Hs [Hq Hqs].
  unfold phrase_ok, phrase_items, append in *. cbn [fst snd map] in *.
  inversion Hp; subst.
  rewrite !map_app. cbn [map fst snd]. split.
  - constructor; [assumption|]. apply Forall_app. split; assumption.
  - apply Forall_app. split; [assumption|]. constructor; assumption.
Qed.

Lemma append_fit : forall p s q, counts_fit p -> counts_fit q ->
  counts_fit (append p s q).
Proof.
  intros [i l] s [j m] Hp Hq. unfold counts_fit, phrase_items, append in *.
  cbn [fst snd map] in *. rewrite map_app. inversion Hp; subst.
  constructor; [assumption|]. apply Forall_app. split; assumption.
Qed.

Lemma append_seconds : forall p s q,
  phrase_seconds (append p s q) = (phrase_seconds p + phrase_seconds q)%Z.
Proof.
  intros [i l] s [j m]. unfold phrase_seconds, phrase_items, append.
  cbn [fst snd]. rewrite map_app. cbn [map snd fold_right].
  rewrite map_app. cbn [map]. 
  assert (E : forall a b, fold_right Z.add 0%Z (a ++ b) =
    (fold_right Z.add 0 a + fold_right Z.add 0 b)%Z).
  { induction a as [|x a IH]; intro b; cbn [app fold_right]; [lia|].
    rewrite IH. lia. }
  rewrite E. cbn [fold_right]. lia.
Qed.

Definition fully_separated (p : phrase) : Prop :=
  Forall (fun x => fst x <> []) (snd p).

Lemma append_separated : forall p s q, separated p -> fully_separated q ->
  s <> [] \/ snd p = [] -> separated (append p s q).
Proof.
  intros [i l] s [j m] Hp Hq Hs. unfold separated, fully_separated, append in *.
  cbn [fst snd] in *. destruct l as [|[s0 i0] l].
  - cbn [app]. exact Hq.
  - destruct Hs as [Hs|Hs]; [|discriminate].
    cbn [app]. apply Forall_app. split; [exact Hp|].
    constructor; [exact Hs|exact Hq].
Qed.

Lemma compose_separated : forall p s q,
  phrase_ok p -> phrase_ok q -> separator_ok s ->
  counts_fit p -> counts_fit q ->
  separated p -> fully_separated q -> (s <> [] \/ snd p = []) ->
  parse_duration (phrase_text p) = Parsed (phrase_seconds p) /\
  parse_duration (phrase_text q) = Parsed (phrase_seconds q) /\
  parse_duration (phrase_text p ++ s ++ phrase_text q) =
    Parsed (phrase_seconds p + phrase_seconds q)%Z.
Proof.
  intros p s q Hp Hq Hs Fp Fq Sp Sq Hsep.
  assert (Sq' : separated q).
  { destruct q as [j [|x m]]; unfold separated, fully_separated in *; cbn [snd] in *.
    - exact I.
    - inversion Sq; assumption. }
  split; [|split].
  - apply value_separated; assumption.
  - apply value_separated; assumption.
  - rewrite <- append_text, <- (append_seconds p s q).
    apply value_separated.
    + apply append_ok; assumption.
    + apply append_fit; assumption.
    + apply append_separated; assumption.
Qed.

Lemma compose_accepts : forall a b s x y,
  numbers_fit (a ++ s ++ b) -> separator_ok s ->
  parse_duration a = Parsed x -> parse_duration b = Parsed y ->
  exists z, parse_duration (a ++ s ++ b) = Parsed z.
Proof.
  intros a b s x y Hn Hs Ha Hb.
  apply parsed_is_phrase in Ha. apply parsed_is_phrase in Hb.
  destruct Ha as (p & Hp & <-), Hb as (q & Hq & <-).
  rewrite <- append_text in *. exists (charged_seconds (append p s q)).
  pose proof (append_ok p s q Hp Hs Hq).
  apply parse_phrase; [assumption|]. apply fit_phrase; assumption.
Qed.
