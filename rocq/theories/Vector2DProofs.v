(** * Proofs about packed tables *)

From Coq Require Import List Arith Bool Lia.
From Verif Require Import Base Vector2DModel Vector2DSpec.
Import ListNotations.

(** ** Lists *)

Lemma set_nth_replace : forall A (l : list A) i a, set_nth l i a = replace i a l.
Proof. induction l as [|x l IH]; intros [|i] a; cbn; try reflexivity. rewrite IH. reflexivity. Qed.

Lemma replace_length : forall A (l : list A) i a, length (replace i a l) = length l.
Proof. induction l as [|x l IH]; intros [|i] a; cbn; auto. Qed.

Lemma nth_replace : forall A (l : list A) i k a,
  nth_error (replace i a l) k = if (k =? i) && (i <? length l) then Some a else nth_error l k.
Proof.
  induction l as [|x l IH]; intros i k a.
  - destruct i; cbn; rewrite andb_false_r; reflexivity.
  - destruct i as [|i], k as [|k]; cbn [replace nth_error Nat.eqb andb length]; try reflexivity.
    rewrite IH. reflexivity.
Qed.

Lemma nth_replace_same : forall A (l : list A) i a, i < length l -> nth_error (replace i a l) i = Some a.
Proof.
  intros A l i a H. rewrite nth_replace, Nat.eqb_refl. destruct (Nat.ltb_spec i (length l)); [reflexivity|lia].
Qed.

Lemma nth_replace_other : forall A (l : list A) i k a, k <> i -> nth_error (replace i a l) k = nth_error l k.
Proof. intros A l i k a H. rewrite nth_replace. destruct (Nat.eqb_spec k i); [congruence|reflexivity]. Qed.

Lemma nth_error_lt : forall A (l : list A) i x, nth_error l i = Some x -> i < length l.
Proof. intros A l i x H. apply nth_error_Some. congruence. Qed.

Lemma replace_app : forall A (p q : list A) i a,
  replace (length p + i) a (p ++ q) = p ++ replace i a q.
Proof. induction p as [|x p IH]; intros q i a; cbn; [reflexivity|]. rewrite IH. reflexivity. Qed.

Lemma replace_app_l : forall A (p q : list A) i a, i < length p ->
  replace i a (p ++ q) = replace i a p ++ q.
Proof.
  induction p as [|x p IH]; intros q [|i] a H; cbn in *; try lia; [reflexivity|].
  rewrite IH by lia. reflexivity.
Qed.

Lemma split_nth : forall A (l : list A) i x, nth_error l i = Some x ->
  l = firstn i l ++ x :: skipn (S i) l.
Proof.
  induction l as [|y l IH]; intros [|i] x H; cbn in *; try discriminate.
  - injection H as <-. reflexivity.
  - rewrite (IH i x H) at 1. reflexivity.
Qed.

(** ** Layout: spans point to consecutive places of their own block *)

Fixpoint layout (d : option nat) (off : nat) (ss : list span) (t : table) : Prop :=
  match ss, t with
  | [], [] => True
  | s :: ss', row :: t' =>
      sp_len s = length row /\
      (row <> [] -> exists b, d = Some b /\ sp_ptr s = Some (b, off)) /\
      layout d (off + length row) ss' t'
  | _, _ => False
  end.

Definition good (h : heap) (v : v2d) (t : table) : Prop :=
  layout (v_data v) 0 (v_spans v) t /\ exists rest, elements h v = Ok (concat t ++ rest).

Lemma layout_length : forall d ss off t, layout d off ss t -> length ss = length t.
Proof.
  induction ss as [|s ss IH]; intros off [|row t] H; cbn in *; try tauto.
  f_equal. eapply IH. apply H.
Qed.

Lemma layout_nth : forall d ss off t r row, layout d off ss t -> nth_error t r = Some row ->
  exists s, nth_error ss r = Some s /\ sp_len s = length row /\
    (row <> [] -> exists b, d = Some b /\ sp_ptr s = Some (b, off + length (concat (firstn r t)))).
Proof.
  induction ss as [|s ss IH]; intros off [|row0 t] r row H E; cbn in H; try tauto.
  - destruct r; discriminate.
  - destruct H as (L & P & H). destruct r as [|r]; cbn in E.
    + injection E as ->. exists s. cbn. rewrite Nat.add_0_r. auto.
    + destruct (IH _ _ _ _ H E) as (s' & E' & L' & P'). exists s'. cbn [nth_error firstn concat].
      split; [exact E'|]. split; [exact L'|]. intro N. destruct (P' N) as (b & D & Q). exists b.
      split; [exact D|]. rewrite Q, app_length. f_equal. f_equal. lia.
Qed.

Lemma layout_replace : forall d ss off t r row row', layout d off ss t -> nth_error t r = Some row ->
  length row' = length row -> layout d off ss (replace r row' t).
Proof.
  induction ss as [|s ss IH]; intros off [|row0 t] r row row' H E L; cbn in H; try tauto.
  - destruct r; discriminate.
  - destruct H as (L0 & P & H). destruct r as [|r]; cbn in E |- *.
    + injection E as ->. rewrite L. split; [exact L0|]. split; [|exact H].
      intro N. apply P. destruct row; [destruct row'; [congruence|discriminate]|discriminate].
    + split; [exact L0|]. split; [exact P|]. eapply IH; eauto.
Qed.

Lemma layout_move : forall f t' ss off t, layout (Some f) off ss t ->
  exists ss', map_outcome (move_span (Some f) (Some t')) ss = Ok ss' /\ layout (Some t') off ss' t.
Proof.
  induction ss as [|s ss IH]; intros off [|row t] H; cbn in H; try tauto.
  - exists []. cbn. auto.
  - destruct H as (L & P & H). destruct (IH _ _ H) as (ss' & E & H'). cbn [map_outcome].
    unfold move_span at 1. rewrite L. destruct row as [|x row]; cbn [length Nat.eqb].
    + cbn [bind]. rewrite E. cbn [bind]. eexists. split; [reflexivity|]. cbn. repeat split; auto. congruence.
    + destruct (P ltac:(discriminate)) as (b & D & Q). injection D as ->. rewrite Q, Nat.eqb_refl.
      cbn [bind]. rewrite E. cbn [bind]. eexists. split; [reflexivity|]. cbn. repeat split; auto.
      intros _. exists t'. auto.
Qed.

Lemma layout_empty : forall d d' ss off t, layout d off ss t -> concat t = [] -> layout d' off ss t.
Proof.
  induction ss as [|s ss IH]; intros off [|row t] H C; cbn in H |- *; try tauto.
  destruct H as (L & P & H). cbn in C. apply app_eq_nil in C. destruct C as [-> C].
  split; [exact L|]. split; [congruence|]. apply IH; assumption.
Qed.

Lemma read_rows : forall h d ss off t pre rest, layout d off ss t -> length pre = off ->
  (forall b, d = Some b -> read_block h b = Ok (pre ++ concat t ++ rest)) ->
  map_outcome (read_span h) ss = Ok t.
Proof.
  induction ss as [|s ss IH]; intros off [|row t] pre rest H LP R; cbn in H; try tauto.
  destruct H as (L & P & H). cbn [map_outcome].
  rewrite (IH (off + length row) t (pre ++ row) rest H).
  - unfold read_span at 1. rewrite L. destruct row as [|x row].
    + cbn [length Nat.eqb bind]. reflexivity.
    + destruct (P ltac:(discriminate)) as (b & D & Q). rewrite Q. cbn [length Nat.eqb].
      rewrite (R b D). cbn [bind]. rewrite !app_length. cbn [concat]. rewrite app_length. cbn [length].
      destruct (Nat.leb_spec (off + S (length row)) (length pre + (S (length row) + length (concat t) + length rest))); [|lia].
      cbn [expects bind]. rewrite <- LP, skipn_app, skipn_all, Nat.sub_diag, app_nil_l.
      change (skipn 0 (((x :: row) ++ concat t) ++ rest)) with (((x :: row) ++ concat t) ++ rest).
      rewrite <- app_assoc. change (S (length row)) with (length (x :: row)).
      rewrite firstn_app, firstn_all, Nat.sub_diag. cbn [firstn]. rewrite app_nil_r. reflexivity.
  - rewrite app_length. lia.
  - intros b D. rewrite (R b D). cbn [concat]. rewrite <- !app_assoc. reflexivity.
Qed.

Lemma good_rows : forall h v t, good h v t -> v_rows h v = Ok t.
Proof.
  intros h v t [H (rest & E)]. unfold v_rows. apply (read_rows h (v_data v) _ 0 t [] rest H eq_refl).
  intros b D. unfold elements in E. rewrite D in E. exact E.
Qed.

Lemma good_frame : forall h h' v t, elements h' v = elements h v -> good h v t -> good h' v t.
Proof. intros h h' v t E [L (rest & R)]. split; [exact L|]. exists rest. congruence. Qed.

(** ** Heaps *)

Lemma read_block_app : forall h x b l, read_block h b = Ok l -> read_block (h ++ x) b = Ok l.
Proof.
  intros h x b l E. unfold read_block in *. destruct (nth_error h b) as [c|] eqn:Q; [|discriminate].
  rewrite nth_error_app1 by (eapply nth_error_lt; exact Q). rewrite Q. exact E.
Qed.

Lemma read_block_set : forall h b c x, b <> c -> read_block (set_nth h c x) b = read_block h b.
Proof.
  intros h b c x N. unfold read_block. rewrite set_nth_replace, nth_replace_other by exact N. reflexivity.
Qed.

Lemma read_block_lt : forall h b l, read_block h b = Ok l -> b < length h.
Proof.
  intros h b l E. unfold read_block in E. destruct (nth_error h b) eqn:Q; [|discriminate].
  eapply nth_error_lt. exact Q.
Qed.

Lemma read_block_same : forall h b x, b < length h ->
  read_block (set_nth h b (Some x)) b = Ok x.
Proof. intros h b x L. unfold read_block. rewrite set_nth_replace, nth_replace_same by exact L. reflexivity. Qed.

Lemma elements_app : forall h x v l, elements h v = Ok l -> elements (h ++ x) v = Ok l.
Proof. intros h x [[b|] ss] l E; cbn in *; [apply read_block_app, E|exact E]. Qed.

Lemma allocate_spec : forall h l h' d, allocate h l = (h', d) ->
  (exists x, h' = h ++ x) /\
  (forall ss, elements h' {| v_data := d; v_spans := ss |} = Ok l) /\
  (forall b, d = Some b -> b = length h /\ b < length h') /\ (l <> [] -> exists b, d = Some b).
Proof.
  intros h l h' d E. unfold allocate in E. destruct l as [|x l]; injection E as <- <-.
  - split; [exists []; symmetry; apply app_nil_r|]. split; [reflexivity|]. split; [discriminate|congruence].
  - split; [eauto|]. split.
    + intro ss. unfold elements, read_block. cbn [v_data]. rewrite nth_error_app2 by lia.
      rewrite Nat.sub_diag. reflexivity.
    + split; [|eauto]. intros b Q. injection Q as <-. split; [reflexivity|]. rewrite app_length. cbn. lia.
Qed.

(** ** The invariant *)

Definition rel (h : heap) (x : option v2d) (y : option table) : Prop :=
  match x, y with
  | None, None => True
  | Some v, Some t => good h v t
  | _, _ => False
  end.

Record inv (st : v_state) (a : list (option table)) : Prop := {
  in_length : length (vs_objs st) = length a;
  in_rel : forall i x y, nth_error (vs_objs st) i = Some x -> nth_error a i = Some y -> rel (vs_heap st) x y;
  in_apart : forall i j v w b, nth_error (vs_objs st) i = Some (Some v) ->
    nth_error (vs_objs st) j = Some (Some w) -> v_data v = Some b -> v_data w = Some b -> i = j
}.

Lemma inv_obj : forall st a i t, inv st a -> nth_error a i = Some (Some t) ->
  exists v, v_get st i = Ok v /\ nth_error (vs_objs st) i = Some (Some v) /\ good (vs_heap st) v t.
Proof.
  intros st a i t I E. destruct (nth_error (vs_objs st) i) as [x|] eqn:Q.
  2:{ apply nth_error_None in Q. rewrite (in_length _ _ I) in Q. apply nth_error_lt in E. lia. }
  pose proof (in_rel _ _ I i x (Some t) Q E) as R. destruct x as [v|]; [|destruct R].
  exists v. unfold v_get. rewrite Q. auto.
Qed.

Lemma inv_get : forall st a i v, inv st a -> v_get st i = Ok v ->
  exists t, nth_error a i = Some (Some t) /\ nth_error (vs_objs st) i = Some (Some v) /\ good (vs_heap st) v t.
Proof.
  intros st a i v I E. unfold v_get in E. destruct (nth_error (vs_objs st) i) as [[v'|]|] eqn:Q; try discriminate.
  injection E as ->. destruct (nth_error a i) as [y|] eqn:A.
  2:{ apply nth_error_None in A. rewrite <- (in_length _ _ I) in A. apply nth_error_lt in Q. lia. }
  pose proof (in_rel _ _ I i _ _ Q A) as R. destruct y as [t|]; [|destruct R]. exists t. auto.
Qed.

(** Blocks owned by objects exist. *)
Lemma owned_lt : forall st a i v b, inv st a -> nth_error (vs_objs st) i = Some (Some v) ->
  v_data v = Some b -> b < length (vs_heap st).
Proof.
  intros st a i v b I E D. destruct (inv_get st a i v I) as (t & _ & _ & _ & rest & R).
  { unfold v_get. rewrite E. reflexivity. }
  unfold elements in R. rewrite D in R. eapply read_block_lt, R.
Qed.

(** A new object. *)
Lemma inv_new : forall st a h v t, inv st a -> good h v t ->
  (forall i w, nth_error (vs_objs st) i = Some (Some w) -> elements h w = elements (vs_heap st) w) ->
  (forall i w b, nth_error (vs_objs st) i = Some (Some w) -> v_data w = Some b -> v_data v <> Some b) ->
  inv {| vs_heap := h; vs_objs := vs_objs st ++ [Some v] |} (a ++ [Some t]).
Proof.
  intros st a h v t I G F A. destruct I as [L R S]. split; cbn [vs_objs vs_heap].
  - rewrite !app_length. cbn. lia.
  - intros i x y Hx Hy. destruct (Nat.lt_ge_cases i (length (vs_objs st))) as [C|C].
    + rewrite nth_error_app1 in Hx by lia. rewrite nth_error_app1 in Hy by lia.
      pose proof (R i x y Hx Hy) as Q. destruct x as [w|], y as [u|]; try exact Q.
      eapply good_frame; [apply (F i w Hx)|exact Q].
    + rewrite nth_error_app2 in Hx by lia. rewrite nth_error_app2 in Hy by lia. rewrite <- L in Hy.
      destruct (i - length (vs_objs st)) as [|k]; [|destruct k; discriminate].
      cbn in Hx, Hy. injection Hx as <-. injection Hy as <-. exact G.
  - intros i j w u b Hi Hj Dw Du.
    assert (C : forall k z, nth_error (vs_objs st ++ [Some v]) k = Some (Some z) ->
      (nth_error (vs_objs st) k = Some (Some z) /\ k < length (vs_objs st)) \/
      (k = length (vs_objs st) /\ z = v)).
    { intros k z H. destruct (Nat.lt_ge_cases k (length (vs_objs st))) as [C|C].
      - left. rewrite nth_error_app1 in H by lia. auto.
      - right. rewrite nth_error_app2 in H by lia.
        destruct (k - length (vs_objs st)) as [|m] eqn:Q; [|destruct m; discriminate].
        cbn in H. injection H as <-. split; [lia|reflexivity]. }
    destruct (C i w Hi) as [[Hi' _]|[Hi' Ew]]; destruct (C j u Hj) as [[Hj' _]|[Hj' Eu]].
    + eapply S; eauto.
    + subst u. exfalso. eapply A; eauto.
    + subst w. exfalso. eapply A; eauto.
    + lia.
Qed.

(** A changed object. *)
Lemma inv_set : forall st a h i x y, inv st a -> i < length (vs_objs st) -> rel h x y ->
  (forall k w, k <> i -> nth_error (vs_objs st) k = Some (Some w) -> elements h w = elements (vs_heap st) w) ->
  (forall v b k w, x = Some v -> v_data v = Some b -> k <> i ->
     nth_error (vs_objs st) k = Some (Some w) -> v_data w <> Some b) ->
  inv {| vs_heap := h; vs_objs := set_nth (vs_objs st) i x |} (replace i y a).
Proof.
  intros st a h i x y I LI G F A. destruct I as [L R S]. rewrite set_nth_replace. split; cbn [vs_objs vs_heap].
  - rewrite !replace_length. exact L.
  - intros k p q Hp Hq. destruct (Nat.eq_dec k i) as [->|N].
    + rewrite nth_replace_same in Hp by exact LI. rewrite nth_replace_same in Hq by lia.
      injection Hp as <-. injection Hq as <-. exact G.
    + rewrite nth_replace_other in Hp by exact N. rewrite nth_replace_other in Hq by exact N.
      pose proof (R k p q Hp Hq) as Q. destruct p as [w|], q as [u|]; try exact Q.
      eapply good_frame; [apply (F k w N Hp)|exact Q].
  - intros p q v w b Hp Hq Dv Dw.
    destruct (Nat.eq_dec p i) as [Ep|Np]; destruct (Nat.eq_dec q i) as [Eq|Nq]; try lia.
    + subst p. rewrite nth_replace_same in Hp by exact LI. rewrite nth_replace_other in Hq by exact Nq.
      injection Hp as ->. exfalso. eapply A; eauto.
    + subst q. rewrite nth_replace_same in Hq by exact LI. rewrite nth_replace_other in Hp by exact Np.
      injection Hq as ->. exfalso. eapply A; eauto.
    + rewrite nth_replace_other in Hp by exact Np. rewrite nth_replace_other in Hq by exact Nq. eapply S; eauto.
Qed.

Lemma good_empty : forall h, good h v_empty [].
Proof. intro h. split; [exact I|]. exists []. reflexivity. Qed.

(** ** Pieces *)

Lemma make_spans_layout : forall d sizes data count head, head + length data = count ->
  (data <> [] -> exists b, d = Some b) -> total sizes <= length data ->
  exists ss, make_spans d count head sizes = Ok ss /\ layout d head ss (cut data sizes) /\
    exists rest, data = concat (cut data sizes) ++ rest.
Proof.
  intros d. induction sizes as [|n sizes IH]; intros data count head C D T; cbn [make_spans cut total fold_right] in *.
  - exists []. split; [reflexivity|]. split; [exact I|]. exists data. reflexivity.
  - fold (total sizes) in T. destruct (Nat.leb_spec (head + n) count); [|lia]. cbn [expects bind].
    destruct (IH (skipn n data) count (head + n)) as (ss & E & LY & rest & R).
    + rewrite skipn_length. lia.
    + intro N. apply D. intro Q. subst data. rewrite skipn_nil in N. congruence.
    + rewrite skipn_length. lia.
    + rewrite E. cbn [bind]. eexists. split; [reflexivity|]. split.
      * cbn [layout sp_len sp_ptr]. rewrite firstn_length_le by lia. split; [reflexivity|]. split; [|exact LY].
        intro N. destruct D as (b & ->). { intro Q. subst data. rewrite firstn_nil in N. congruence. }
        exists b. auto.
      * exists rest. cbn [concat]. rewrite <- app_assoc, <- R, firstn_skipn. reflexivity.
Qed.

Lemma make_spans_total : forall d sizes count head ss, make_spans d count head sizes = Ok ss ->
  head <= count -> head + total sizes <= count.
Proof.
  intros d. induction sizes as [|n sizes IH]; intros count head ss E L; cbn [make_spans total fold_right] in *; [lia|].
  fold (total sizes). destruct (Nat.leb_spec (head + n) count) as [H|]; [|discriminate]. cbn [expects bind] in E.
  destruct (make_spans d count (head + n) sizes) as [ss'| |] eqn:Q; try discriminate.
  specialize (IH _ _ _ Q H). lia.
Qed.

Lemma copy_good : forall h v t, good h v t ->
  exists h' v', v_copy h v = Ok (h', v') /\ good h' v' t /\ (exists x, h' = h ++ x) /\
    (forall b, v_data v' = Some b -> b = length h).
Proof.
  intros h v t [L (rest & E)]. unfold v_copy. destruct (v_spans v) as [|s ss] eqn:V.
  - destruct t; [|destruct L]. exists h, v_empty. split; [reflexivity|]. split; [apply good_empty|].
    split; [exists []; symmetry; apply app_nil_r|discriminate].
  - rewrite <- V in *. rewrite E. cbn [bind]. destruct (allocate h (concat t ++ rest)) as [h' d] eqn:AL.
    destruct (allocate_spec h _ h' d AL) as (X & EL & B & NE).
    destruct (concat t ++ rest) as [|y l] eqn:C.
    + apply app_eq_nil in C. destruct C as [C1 C2]. eexists. eexists. split; [reflexivity|]. split; [|split; [exact X|]].
      * split; [cbn [v_data v_spans]; eapply layout_empty; eassumption|]. exists []. rewrite C1. apply EL.
      * cbn [v_data]. intros b Q. apply B, Q.
    + destruct (NE ltac:(discriminate)) as (b & ->).
      assert (D : exists f, v_data v = Some f).
      { unfold elements in E. destruct (v_data v) as [f|]; [eauto|discriminate E]. }
      destruct D as (f & D). rewrite D in L |- *.
      destruct (layout_move f b (v_spans v) 0 t L) as (ss' & ES & LS). rewrite ES. cbn [bind].
      eexists. eexists. split; [reflexivity|]. split; [|split; [exact X|]].
      * split; [exact LS|]. exists rest. rewrite <- C in EL. rewrite C in EL |- *. apply EL.
      * cbn [v_data]. intros b' Q. apply B, Q.
Qed.

Lemma release_good : forall h v t, good h v t -> exists h', release h (v_data v) = Ok h' /\
  forall w, (forall b, v_data v = Some b -> v_data w <> Some b) -> elements h' w = elements h w.
Proof.
  intros h v t [_ (rest & E)]. unfold release, elements in *. destruct (v_data v) as [b|].
  - rewrite E. cbn [bind]. eexists. split; [reflexivity|]. intros w N. destruct (v_data w) as [c|]; [|reflexivity].
    apply read_block_set. intro Q. subst c. exact (N b eq_refl eq_refl).
  - eexists. split; [reflexivity|]. reflexivity.
Qed.

Lemma release_app : forall h x d h', release h d = Ok h' -> exists h'', release (h ++ x) d = Ok h''.
Proof.
  intros h x [b|] h' E; cbn in *; [|eauto].
  destruct (read_block h b) as [l| |] eqn:Q; try discriminate. rewrite (read_block_app h x b l Q). cbn. eauto.
Qed.

Lemma clear_good : forall h v t, good h v t -> exists h' v', v_clear h v = Ok (h', v') /\ good h' v' [] /\
  v_data v' = v_data v /\
  forall w, (forall b, v_data v = Some b -> v_data w <> Some b) -> elements h' w = elements h w.
Proof.
  intros h v t [_ (rest & E)]. unfold v_clear, elements in *. destruct (v_data v) as [b|] eqn:D.
  - rewrite E. cbn [bind]. eexists. eexists. split; [reflexivity|]. split; [|split; [reflexivity|]].
    + split; [exact I|]. exists []. cbn [v_data elements concat app]. apply read_block_same. eapply read_block_lt, E.
    + intros w N. destruct (v_data w) as [c|]; [|reflexivity].
      apply read_block_set. intro Q. subst c. exact (N b eq_refl eq_refl).
  - eexists. eexists. split; [reflexivity|]. split; [apply good_empty|]. split; [reflexivity|]. reflexivity.
Qed.

Lemma write_good : forall h v t r c x row, good h v t -> nth_error t r = Some row -> c < length row ->
  exists h', v_write h v r c x = Ok h' /\ good h' v (replace r (replace c x row) t) /\
  forall w, (forall b, v_data v = Some b -> v_data w <> Some b) -> elements h' w = elements h w.
Proof.
  intros h v t r c x row [L (rest & E)] R C.
  destruct (layout_nth _ _ _ _ _ _ L R) as (s & ES & LS & PS).
  destruct PS as (b & D & PS). { intro Q. subst row. cbn in C. lia. }
  unfold v_write, v_row. pose proof (nth_error_lt _ _ _ _ ES) as LT.
  destruct (Nat.eqb_spec (length (v_spans v)) 0); [lia|]. cbn [negb expects bind].
  unfold at_index. rewrite ES. cbn [bind]. rewrite LS. destruct (Nat.ltb_spec c (length row)); [|lia].
  cbn [expects bind]. rewrite PS. unfold elements in E. rewrite D in E. rewrite E. cbn [bind].
  cbn [Nat.add]. set (off := length (concat (firstn r t))).
  assert (S1 : concat t ++ rest = concat (firstn r t) ++ (row ++ concat (skipn (S r) t) ++ rest)).
  { rewrite (split_nth _ t r row R) at 1. rewrite concat_app. cbn [concat]. rewrite <- !app_assoc. reflexivity. }
  assert (LE : off + c < length (concat t ++ rest)).
  { rewrite S1, !app_length. fold off. lia. }
  destruct (Nat.ltb_spec (off + c) (length (concat t ++ rest))); [|lia]. cbn [expects bind].
  eexists. split; [reflexivity|]. split.
  - split.
    + eapply layout_replace; [exact L|exact R|apply replace_length].
    + exists rest. unfold elements. rewrite D. rewrite read_block_same by (eapply read_block_lt, E).
      f_equal. rewrite set_nth_replace, S1. unfold off. rewrite replace_app. rewrite replace_app_l by exact C.
      assert (S2 : replace r (replace c x row) t = firstn r t ++ replace c x row :: skipn (S r) t).
      { rewrite (split_nth _ t r row R) at 1.
        assert (FL : length (firstn r t) = r) by (apply firstn_length_le; apply nth_error_lt in R; lia).
        rewrite <- FL at 1. rewrite <- (Nat.add_0_r (length (firstn r t))) at 1. rewrite replace_app. reflexivity. }
      rewrite S2, concat_app. cbn [concat]. rewrite <- !app_assoc. reflexivity.
  - intros w N. unfold elements. destruct (v_data w) as [k|]; [|reflexivity].
    apply read_block_set. intro Q. subst k. exact (N b D eq_refl).
Qed.

(** ** Steps *)

Lemma fresh_apart : forall st a i w b, inv st a -> nth_error (vs_objs st) i = Some (Some w) ->
  v_data w = Some b -> b <> length (vs_heap st).
Proof. intros st a i w b I E D Q. pose proof (owned_lt _ _ _ _ _ I E D). lia. Qed.

Lemma elements_ok : forall st a i w, inv st a -> nth_error (vs_objs st) i = Some (Some w) ->
  exists l, elements (vs_heap st) w = Ok l.
Proof.
  intros st a i w I E. destruct (inv_get st a i w I) as (t & _ & _ & _ & rest & R); [unfold v_get; rewrite E; reflexivity|].
  eauto.
Qed.

Lemma step_value : forall st a o a', inv st a -> value_step a o a' ->
  exists st', v_step st o = Ok st' /\ inv st' a'.
Proof.
  intros st a o a' I V.
  destruct V as [a|a data sizes T|a i t Ei|a i t Ei|a i j t u Ei Ej|a i t Ei|a i j t u NE Ei Ej|a i t Ei
    |a i r c x t row Ei Er Ec|a i t Ei]; cbn [v_step].
  - eexists. split; [reflexivity|]. apply inv_new; auto; [apply good_empty|]. intros. discriminate.
  - unfold from_sizes. destruct (allocate (vs_heap st) data) as [h' d] eqn:AL.
    destruct (allocate_spec _ _ _ _ AL) as ((x & X) & EL & B & NE).
    destruct (make_spans_layout d sizes data (length data) 0 eq_refl NE T) as (ss & ES & LY & rest & R).
    rewrite ES. cbn [bind fst snd]. eexists. split; [reflexivity|]. apply inv_new; auto.
    + split; [exact LY|]. exists rest. rewrite EL. f_equal. exact R.
    + intros i w Hw. destruct (elements_ok _ _ _ _ I Hw) as (l & El). rewrite El, X. apply elements_app, El.
    + intros i w b Hw Dw Q. cbn [v_data] in Q. destruct (B b Q) as [Bb _].
      exact (fresh_apart _ _ _ _ _ I Hw Dw Bb).
  - destruct (inv_obj _ _ _ _ I Ei) as (v & Gv & Ov & Gd). rewrite Gv. cbn [bind].
    destruct (copy_good _ _ _ Gd) as (h' & v' & E & G' & (x & X) & B). rewrite E. cbn [bind fst snd].
    eexists. split; [reflexivity|]. apply inv_new; auto.
    + intros k w Hw. destruct (elements_ok _ _ _ _ I Hw) as (l & El). rewrite El, X. apply elements_app, El.
    + intros k w b Hw Dw Q. exact (fresh_apart _ _ _ _ _ I Hw Dw (B b Q)).
  - destruct (inv_obj _ _ _ _ I Ei) as (v & Gv & Ov & Gd). rewrite Gv. cbn [bind v_move fst snd].
    eexists. split; [reflexivity|].
    assert (I1 : inv {| vs_heap := vs_heap st; vs_objs := set_nth (vs_objs st) i (Some v_empty) |} (replace i (Some []) a)).
    { apply inv_set; auto; [eapply nth_error_lt; exact Ov|apply good_empty|]. intros v0 b k w Q D. injection Q as <-. discriminate. }
    apply (inv_new _ _ (vs_heap st) v t I1 Gd); cbn [vs_objs vs_heap]; [auto|].
    intros k w b Hk Dw Dv. rewrite set_nth_replace in Hk. destruct (Nat.eq_dec k i) as [->|N].
    + rewrite nth_replace_same in Hk by (eapply nth_error_lt; exact Ov). injection Hk as <-. discriminate.
    + rewrite nth_replace_other in Hk by exact N. apply N. eapply (in_apart _ _ I); eauto.
  - destruct (inv_obj _ _ _ _ I Ei) as (v & Gv & Ov & Gd). rewrite Gv. cbn [bind].
    destruct (inv_obj _ _ _ _ I Ej) as (w & Gw & Ow & Gdw). rewrite Gw. cbn [bind].
    unfold v_copy_assign. destruct (copy_good _ _ _ Gdw) as (h' & v' & E & G' & (x & X) & B). rewrite E. cbn [bind fst snd].
    assert (Gd' : good h' v t).
    { destruct Gd as [Ly (rest & El)]. split; [exact Ly|]. exists rest. rewrite X. apply elements_app, El. }
    destruct (release_good _ _ _ Gd') as (h'' & Er & F). rewrite Er. cbn [bind fst snd].
    eexists. split; [reflexivity|]. apply inv_set; auto.
    + eapply nth_error_lt; exact Ov.
    + eapply good_frame; [|exact G']. apply F. intros b Db Q. exact (fresh_apart _ _ _ _ _ I Ov Db (B b Q)).
    + intros k w0 N Hk. rewrite F.
      * destruct (elements_ok _ _ _ _ I Hk) as (l & El). rewrite El, X. apply elements_app, El.
      * intros b Db Q. apply N. eapply (in_apart _ _ I); eauto.
    + intros v0 b k w0 Q Db N Hk D0. injection Q as <-. exact (fresh_apart _ _ _ _ _ I Hk D0 (B b Db)).
  - destruct (inv_obj _ _ _ _ I Ei) as (v & Gv & Ov & Gd). rewrite Gv. cbn [bind]. rewrite Nat.eqb_refl. eauto.
  - destruct (inv_obj _ _ _ _ I Ei) as (v & Gv & Ov & Gd). rewrite Gv. cbn [bind].
    destruct (inv_obj _ _ _ _ I Ej) as (w & Gw & Ow & Gdw). rewrite Gw. cbn [bind].
    destruct (Nat.eqb_spec i j) as [|_]; [congruence|]. unfold v_move_assign.
    destruct (release_good _ _ _ Gd) as (h' & Er & F). rewrite Er. cbn [bind fst snd].
    eexists. split; [reflexivity|].
    (* first empty the source, then fill the target *)
    assert (I1 : inv {| vs_heap := vs_heap st; vs_objs := set_nth (vs_objs st) j (Some v_empty) |} (replace j (Some []) a)).
    { apply inv_set; auto; [eapply nth_error_lt; exact Ow|apply good_empty|]. intros v0 b k w0 Q D. injection Q as <-. discriminate. }
    assert (SW : forall A (l : list A) (p q : A), replace j p (replace i q l) = replace i q (replace j p l)).
    { clear - NE. intros A l p q. revert i j NE. induction l as [|z l IH]; intros [|i] [|j] N; cbn; try reflexivity; try congruence.
      rewrite IH by congruence. reflexivity. }
    assert (I2 : inv {| vs_heap := h'; vs_objs := set_nth (set_nth (vs_objs st) j (Some v_empty)) i (Some w) |}
      (replace i (Some u) (replace j (Some []) a))).
    { apply (inv_set _ _ h' i (Some w) (Some u) I1); cbn [vs_objs vs_heap].
      - rewrite set_nth_replace, replace_length. eapply nth_error_lt; exact Ov.
      - eapply good_frame; [|exact Gdw]. apply F. intros b Db Q. apply NE. eapply (in_apart _ _ I); eauto.
      - intros k w0 N Hk. apply F. intros b Db Q. rewrite set_nth_replace in Hk. destruct (Nat.eq_dec k j) as [->|Nj].
        + rewrite nth_replace_same in Hk by (eapply nth_error_lt; exact Ow). injection Hk as <-. discriminate.
        + rewrite nth_replace_other in Hk by exact Nj. apply N. eapply (in_apart _ _ I); eauto.
      - intros v0 b k w0 Q Db N Hk D0. injection Q as <-. rewrite set_nth_replace in Hk. destruct (Nat.eq_dec k j) as [->|Nj].
        + rewrite nth_replace_same in Hk by (eapply nth_error_lt; exact Ow). injection Hk as <-. discriminate.
        + rewrite nth_replace_other in Hk by exact Nj. apply Nj. eapply (in_apart _ _ I); eauto. }
    rewrite !set_nth_replace in I2 |- *. rewrite !SW. exact I2.
  - destruct (inv_obj _ _ _ _ I Ei) as (v & Gv & Ov & Gd). rewrite Gv. cbn [bind].
    destruct (clear_good _ _ _ Gd) as (h' & v' & E & G' & D & F). rewrite E. cbn [bind fst snd].
    eexists. split; [reflexivity|]. apply inv_set; auto.
    + eapply nth_error_lt; exact Ov.
    + intros k w N Hk. apply F. intros b Db Q. apply N. eapply (in_apart _ _ I); eauto.
    + intros v0 b k w Q Db N Hk D0. injection Q as <-. rewrite D in Db. apply N. eapply (in_apart _ _ I); eauto.
  - destruct (inv_obj _ _ _ _ I Ei) as (v & Gv & Ov & Gd). rewrite Gv. cbn [bind].
    destruct (write_good _ _ _ r c x row Gd Er Ec) as (h' & E & G' & F). rewrite E. cbn [bind].
    eexists. split; [reflexivity|].
    assert (Q : vs_objs st = set_nth (vs_objs st) i (Some v)).
    { rewrite set_nth_replace. clear - Ov. revert i Ov. induction (vs_objs st) as [|z l IH]; intros [|i] H; cbn in *; try discriminate.
      - injection H as ->. reflexivity.
      - rewrite <- IH by exact H. reflexivity. }
    rewrite Q. apply inv_set; auto.
    + eapply nth_error_lt; exact Ov.
    + intros k w N Hk. apply F. intros b Db Qb. apply N. eapply (in_apart _ _ I); eauto.
    + intros v0 b k w Q0 Db N Hk D0. injection Q0 as <-. apply N. eapply (in_apart _ _ I); eauto.
  - destruct (inv_obj _ _ _ _ I Ei) as (v & Gv & Ov & Gd). rewrite Gv. cbn [bind].
    destruct (release_good _ _ _ Gd) as (h' & E & F). rewrite E. cbn [bind].
    eexists. split; [reflexivity|]. apply inv_set; auto.
    + eapply nth_error_lt; exact Ov.
    + exact Logic.I.
    + intros k w N Hk. apply F. intros b Db Qb. apply N. eapply (in_apart _ _ I); eauto.
    + discriminate.
Qed.

Lemma value_exists : forall st a o st', inv st a -> v_step st o = Ok st' -> exists a', value_step a o a'.
Proof.
  intros st a o st' I E. destruct o as [|data sizes|i|i|i j|i j|i|i r c x|i]; cbn [v_step] in E.
  - eexists. constructor.
  - unfold from_sizes in E. destruct (allocate (vs_heap st) data) as [h' d].
    destruct (make_spans d (length data) 0 sizes) as [ss| |] eqn:Q; try discriminate.
    eexists. constructor. apply (make_spans_total _ _ _ _ _ Q). lia.
  - destruct (v_get st i) as [v| |] eqn:Q; try discriminate. destruct (inv_get _ _ _ _ I Q) as (t & A & _).
    eexists. econstructor; eassumption.
  - destruct (v_get st i) as [v| |] eqn:Q; try discriminate. destruct (inv_get _ _ _ _ I Q) as (t & A & _).
    eexists. econstructor; eassumption.
  - destruct (v_get st i) as [v| |] eqn:Q; try discriminate. destruct (inv_get _ _ _ _ I Q) as (t & A & _).
    cbn [bind] in E. destruct (v_get st j) as [w| |] eqn:Q'; try discriminate. destruct (inv_get _ _ _ _ I Q') as (u & B & _).
    eexists. econstructor; eassumption.
  - destruct (v_get st i) as [v| |] eqn:Q; try discriminate. destruct (inv_get _ _ _ _ I Q) as (t & A & _).
    cbn [bind] in E. destruct (v_get st j) as [w| |] eqn:Q'; try discriminate. destruct (inv_get _ _ _ _ I Q') as (u & B & _).
    destruct (Nat.eq_dec i j) as [->|N]; eexists; [eapply vs_move_self; eassumption|eapply vs_move_assign; eassumption].
  - destruct (v_get st i) as [v| |] eqn:Q; try discriminate. destruct (inv_get _ _ _ _ I Q) as (t & A & _).
    eexists. econstructor; eassumption.
  - destruct (v_get st i) as [v| |] eqn:Q; try discriminate. destruct (inv_get _ _ _ _ I Q) as (t & A & _ & L & _).
    cbn [bind] in E. unfold v_write, v_row in E. destruct (negb (length (v_spans v) =? 0)); [|discriminate].
    cbn [expects bind] in E. unfold at_index in E. destruct (nth_error (v_spans v) r) as [s|] eqn:S; [|discriminate].
    cbn [bind] in E. destruct (Nat.ltb_spec c (sp_len s)) as [C|]; [|discriminate].
    destruct (nth_error t r) as [row|] eqn:R.
    + destruct (layout_nth _ _ _ _ _ _ L R) as (s' & S' & LS & _). rewrite S in S'. injection S' as <-.
      eexists. econstructor; [exact A|exact R|lia].
    + apply nth_error_None in R. rewrite <- (layout_length _ _ _ _ L) in R. apply nth_error_lt in S. lia.
  - destruct (v_get st i) as [v| |] eqn:Q; try discriminate. destruct (inv_get _ _ _ _ I Q) as (t & A & _).
    eexists. econstructor; eassumption.
Qed.

Lemma start_inv : inv v_start [].
Proof.
  split; cbn.
  - reflexivity.
  - intros [|i]; discriminate.
  - intros [|i]; discriminate.
Qed.

Lemma run_value : forall l st a a', inv st a -> value_run a l a' ->
  exists st', v_run st l = Ok st' /\ inv st' a'.
Proof.
  induction l as [|o l IH]; intros st a a' I V; inversion V; subst; cbn [v_run].
  - eauto.
  - destruct (step_value st a o b I) as (st1 & E1 & I1); [assumption|]. rewrite E1. cbn [bind]. eapply IH; eauto.
Qed.

Lemma value_run_exists : forall l st a st', inv st a -> v_run st l = Ok st' -> exists a', value_run a l a'.
Proof.
  induction l as [|o l IH]; intros st a st' I E; cbn [v_run] in E.
  - eexists. constructor.
  - destruct (v_step st o) as [st1| |] eqn:S; try discriminate. cbn [bind] in E.
    destruct (value_exists st a o st1 I S) as (a1 & V). destruct (step_value st a o a1 I V) as (st1' & S' & I1).
    rewrite S in S'. injection S' as <-. destruct (IH _ _ _ I1 E) as (a' & R). exists a'. econstructor; eassumption.
Qed.

Lemma inv_table : forall st a i, inv st a ->
  (forall t, nth_error a i = Some (Some t) -> v_table st i = Ok t) /\
  (forall t, v_table st i = Ok t -> nth_error a i = Some (Some t)).
Proof.
  intros st a i I. split; intros t E.
  - destruct (inv_obj _ _ _ _ I E) as (v & G & _ & GD). unfold v_table. rewrite G. cbn [bind]. apply good_rows, GD.
  - unfold v_table in E. destruct (v_get st i) as [v| |] eqn:G; try discriminate. cbn [bind] in E.
    destruct (inv_get _ _ _ _ I G) as (t' & A & _ & GD). rewrite (good_rows _ _ _ GD) in E. injection E as <-. exact A.
Qed.
