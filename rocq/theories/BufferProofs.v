(** * Proofs about buffers with views *)

From Coq Require Import List Arith Bool Lia Permutation.
From Verif Require Import Base Vector2DSpec Vector2DProofs BufferModel BufferSpec.
Import ListNotations.

(** ** Lists *)

Lemma replace_same : forall A (l : list A) i a, nth_error l i = Some a -> replace i a l = l.
Proof.
  induction l as [|x l IH]; intros [|i] a H; cbn in *; try discriminate; [congruence|]. rewrite (IH _ _ H). reflexivity.
Qed.

Lemma replace_twice : forall A (l : list A) i a b, replace i a (replace i b l) = replace i a l.
Proof. induction l as [|x l IH]; intros [|i] a b; cbn; try reflexivity. rewrite IH. reflexivity. Qed.

Lemma at_index_ok : forall A (l : list A) i x, at_index l i = Ok x <-> nth_error l i = Some x.
Proof.
  intros A l i x. unfold at_index. destruct (nth_error l i); (split; intro H; [|]); try discriminate; congruence.
Qed.

Lemma at_index_not : forall A (l : list A) i, nth_error l i = None -> at_index l i = Broken.
Proof. intros A l i H. unfold at_index. rewrite H. reflexivity. Qed.

(** Where part [r] begins. *)
Definition offset {A} (p : list (list A)) (r : nat) : nat := length (concat (firstn r p)).

Lemma concat_split : forall A (p : list (list A)) r g, nth_error p r = Some g ->
  concat p = concat (firstn r p) ++ g ++ concat (skipn (S r) p).
Proof. intros A p r g H. rewrite (split_nth _ p r g H) at 1. rewrite concat_app. reflexivity. Qed.

Lemma replace_split : forall A (l : list A) i x y, nth_error l i = Some x ->
  replace i y l = firstn i l ++ y :: skipn (S i) l.
Proof.
  induction l as [|z l IH]; intros [|i] x y H; cbn in *; try discriminate; [reflexivity|]. rewrite (IH i x y H). reflexivity.
Qed.

Lemma part_in : forall A (p : list (list A)) r g, nth_error p r = Some g ->
  offset p r + length g <= length (concat p).
Proof.
  intros A p r g H. unfold offset. rewrite (concat_split _ p r g H), !app_length. lia.
Qed.

Lemma part_nth : forall A (p : list (list A)) r g k, nth_error p r = Some g -> k < length g ->
  nth_error (concat p) (offset p r + k) = nth_error g k.
Proof.
  intros A p r g k H K. rewrite (concat_split _ p r g H). unfold offset.
  rewrite nth_error_app2 by lia. replace (_ + k - _) with k by lia. rewrite nth_error_app1 by exact K. reflexivity.
Qed.

Lemma part_write : forall A (p : list (list A)) r g k x, nth_error p r = Some g -> k < length g ->
  replace (offset p r + k) x (concat p) = concat (replace r (replace k x g) p).
Proof.
  intros A p r g k x H K. rewrite (concat_split _ p r g H) at 1. unfold offset. rewrite replace_app.
  rewrite replace_app_l by exact K. rewrite (replace_split _ p r g _ H), concat_app. reflexivity.
Qed.

Lemma lengths_replace : forall A (p : list (list A)) r g g', nth_error p r = Some g -> length g' = length g ->
  map (@length A) (replace r g' p) = map (@length A) p.
Proof.
  induction p as [|x p IH]; intros [|r] g g' H E; cbn in *; try discriminate.
  - injection H as <-. rewrite E. reflexivity.
  - rewrite (IH r g g' H E). reflexivity.
Qed.

Lemma offset_sum : forall A (p : list (list A)) r, offset p r = list_sum (firstn r (map (@length A) p)).
Proof.
  intros A p r. unfold offset. rewrite firstn_map. induction (firstn r p) as [|g l IH]; cbn; [reflexivity|].
  rewrite app_length, IH. reflexivity.
Qed.

Lemma consecutive_nth : forall b sizes off r n, nth_error sizes r = Some n ->
  nth_error (consecutive b off sizes) r = Some (View b (off + list_sum (firstn r sizes)) n).
Proof.
  induction sizes as [|m sizes IH]; intros off [|r] n H; cbn in *; try discriminate.
  - injection H as <-. rewrite Nat.add_0_r. reflexivity.
  - rewrite (IH (off + m) r n H). rewrite Nat.add_assoc. reflexivity.
Qed.

Lemma consecutive_length : forall b sizes off, length (consecutive b off sizes) = length sizes.
Proof. induction sizes as [|n sizes IH]; intro off; cbn; auto. Qed.

(** The view of part [r]. *)
Definition part_view {A} (b : nat) (p : list (list A)) (r : nat) : view :=
  View b (offset p r) (length (nth r p [])).

Lemma part_view_replace : forall A b (p : list (list A)) r g g' k, nth_error p r = Some g -> length g' = length g ->
  part_view b (replace r g' p) k = part_view b p k.
Proof.
  intros A b p r g g' k H E. unfold part_view. rewrite !offset_sum, (lengths_replace _ p r g g' H E). f_equal.
  destruct (Nat.lt_ge_cases k (length p)) as [L|L].
  - assert (Q : nth_error (map (@length A) (replace r g' p)) k = nth_error (map (@length A) p) k)
      by (rewrite (lengths_replace _ p r g g' H E); reflexivity).
    rewrite !nth_error_map in Q.
    destruct (nth_error p k) as [u|] eqn:U; [|apply nth_error_None in U; lia].
    destruct (nth_error (replace r g' p) k) as [w|] eqn:W; cbn in Q; [|discriminate].
    rewrite (nth_error_nth _ k [] U), (nth_error_nth _ k [] W). congruence.
  - rewrite !nth_overflow; auto. rewrite replace_length. exact L.
Qed.

Lemma parts_sizes : forall A (sizes : list nat) (l : list A), list_sum sizes <= length l ->
  map (@length A) (parts_of sizes l) = sizes.
Proof.
  induction sizes as [|n sizes IH]; intros l H; cbn [parts_of map]; [reflexivity|].
  change (list_sum (n :: sizes)) with (n + list_sum sizes) in H.
  rewrite firstn_length, IH by (rewrite skipn_length; lia). f_equal. lia.
Qed.

Lemma parts_concat : forall A (sizes : list nat) (l : list A), list_sum sizes <= length l ->
  concat (parts_of sizes l) = firstn (list_sum sizes) l.
Proof.
  induction sizes as [|n sizes IH]; intros l H; cbn [parts_of concat]; [reflexivity|].
  change (list_sum (n :: sizes)) with (n + list_sum sizes) in *.
  rewrite IH by (rewrite skipn_length; lia).
  rewrite <- (firstn_skipn n l) at 3. rewrite firstn_app, firstn_firstn, firstn_length.
  replace (Nat.min (n + list_sum sizes) n) with n by lia. f_equal. f_equal. lia.
Qed.

Lemma parts_length : forall A (sizes : list nat) (l : list A), length (parts_of sizes l) = length sizes.
Proof. induction sizes as [|n sizes IH]; intro l; cbn; auto. Qed.

Lemma consecutive_parts : forall A b (p : list (list A)),
  consecutive b 0 (map (@length A) p) = map (part_view b p) (seq 0 (length p)).
Proof.
  intros A b p. apply nth_ext with (d := View 0 0 0) (d' := View 0 0 0).
  { rewrite consecutive_length, !map_length, seq_length. reflexivity. }
  intros r L. rewrite consecutive_length, map_length in L.
  destruct (nth_error p r) as [g|] eqn:G; [|apply nth_error_None in G; lia].
  erewrite (nth_error_nth (consecutive _ _ _)); [|apply consecutive_nth, map_nth_error, G].
  erewrite (nth_error_nth (map _ (seq _ _))); [|apply map_nth_error].
  2:{ rewrite (nth_error_nth' _ 0) by (rewrite seq_length; exact L). rewrite seq_nth by exact L. reflexivity. }
  unfold part_view. cbn [Nat.add]. rewrite offset_sum, (nth_error_nth _ r [] G). reflexivity.
Qed.

Section Buffers.
Context {T : Type} (zero : T).

Lemma resized_parts : forall sizes (l : list T),
  concat (parts_of sizes (l ++ repeat zero (list_sum sizes))) = resized zero (list_sum sizes) l.
Proof.
  intros sizes l. rewrite parts_concat by (rewrite app_length, repeat_length; lia).
  unfold resized. rewrite firstn_app. f_equal.
  generalize (list_sum sizes) as n. intro n.
  assert (E : forall a b, a <= b -> firstn a (repeat zero b) = repeat zero a).
  { induction a as [|a IH]; intros [|b] H; cbn; try reflexivity; [lia|]. rewrite IH by lia. reflexivity. }
  apply E. lia.
Qed.

(** ** The invariant *)

Definition obj_ok (h : store T) (o : holder) (s : shape T) : Prop :=
  match s with
  | Husk => ho_data o = None
  | Parts p ord => exists b, ho_data o = Some b /\ nth_error h b = Some (Some (concat p)) /\
      Permutation ord (seq 0 (length p)) /\ ho_views o = map (part_view b p) ord
  end.

Record inv (st : b_state T) (a : list (option (shape T))) : Prop := {
  iv_length : length (bs_objs st) = length a;
  iv_none : forall i, nth_error (bs_objs st) i = Some None <-> nth_error a i = Some None;
  iv_some : forall i o s, nth_error (bs_objs st) i = Some (Some o) -> nth_error a i = Some (Some s) ->
    obj_ok (bs_store st) o s;
  iv_own : forall i j o o' b, nth_error (bs_objs st) i = Some (Some o) -> nth_error (bs_objs st) j = Some (Some o') ->
    ho_data o = Some b -> ho_data o' = Some b -> i = j
}.

Lemma inv_start : inv b_start [].
Proof.
  split; cbn; [reflexivity| | |].
  - intro i. destruct i; cbn; split; discriminate.
  - intros i o s H. destruct i; discriminate.
  - intros i j o o' b H. destruct i; discriminate.
Qed.

Lemma inv_get : forall st a i o, inv st a -> nth_error (bs_objs st) i = Some (Some o) ->
  exists s, nth_error a i = Some (Some s) /\ obj_ok (bs_store st) o s.
Proof.
  intros st a i o I H. destruct (nth_error a i) as [[s|]|] eqn:A.
  - exists s. split; [reflexivity|]. eapply iv_some; eassumption.
  - apply (iv_none st a I) in A. congruence.
  - apply nth_error_None in A. apply nth_error_lt in H. rewrite (iv_length st a I) in H. lia.
Qed.

Lemma inv_put_back : forall st a i s, inv st a -> nth_error a i = Some (Some s) ->
  exists o, nth_error (bs_objs st) i = Some (Some o) /\ obj_ok (bs_store st) o s.
Proof.
  intros st a i s I A. destruct (nth_error (bs_objs st) i) as [[o|]|] eqn:H.
  - exists o. split; [reflexivity|]. eapply iv_some; eassumption.
  - apply (iv_none st a I) in H. congruence.
  - apply nth_error_None in H. apply nth_error_lt in A. rewrite (iv_length st a I) in H. lia.
Qed.

Lemma obj_frame : forall h h' o s, obj_ok h o s ->
  (forall b, ho_data o = Some b -> nth_error h' b = nth_error h b) -> obj_ok h' o s.
Proof.
  intros h h' o [p ord|] H F; cbn in *; [|exact H]. destruct H as (b & D & B & P & V).
  exists b. rewrite (F b D). auto.
Qed.

Lemma obj_block : forall h o s b, obj_ok h o s -> ho_data o = Some b ->
  nth_error h b = Some (Some (all_of s)) /\ exists p ord, s = Parts p ord.
Proof.
  intros h o [p ord|] b H D; cbn in *; [|congruence]. destruct H as (c & D' & B & _). rewrite D in D'. injection D' as <-.
  split; [exact B|]. exists p, ord. reflexivity.
Qed.

(** Change of the store and of object [i]. *)
Lemma inv_set : forall st a h i o s, inv st a -> i < length a -> obj_ok h o s ->
  (forall j o' b, j <> i -> nth_error (bs_objs st) j = Some (Some o') -> ho_data o' = Some b ->
     nth_error h b = nth_error (bs_store st) b /\ ho_data o <> Some b) ->
  inv {| bs_store := h; bs_objs := set_nth (bs_objs st) i (Some o) |} (replace i (Some s) a).
Proof.
  intros st a h i o s I L K F. rewrite set_nth_replace.
  assert (LO : i < length (bs_objs st)) by (rewrite (iv_length st a I); exact L).
  split; cbn [bs_store bs_objs].
  - rewrite !replace_length. apply (iv_length st a I).
  - intro j. destruct (Nat.eq_dec j i) as [->|N].
    + rewrite !nth_replace_same by assumption. split; discriminate.
    + rewrite !nth_replace_other by exact N. apply (iv_none st a I).
  - intros j o' s' H A. destruct (Nat.eq_dec j i) as [->|N].
    + rewrite nth_replace_same in H by exact LO. rewrite nth_replace_same in A by exact L. congruence.
    + rewrite nth_replace_other in H by exact N. rewrite nth_replace_other in A by exact N.
      apply (obj_frame (bs_store st)); [eapply iv_some; eassumption|]. intros b D. apply (F j o' b N H D).
  - intros j k o1 o2 b H1 H2 D1 D2.
    destruct (Nat.eq_dec j i) as [->|N1], (Nat.eq_dec k i) as [->|N2]; [reflexivity| | |].
    + rewrite nth_replace_same in H1 by exact LO. rewrite nth_replace_other in H2 by exact N2.
      injection H1 as <-. destruct (F k o2 b N2 H2 D2). contradiction.
    + rewrite nth_replace_same in H2 by exact LO. rewrite nth_replace_other in H1 by exact N1.
      injection H2 as <-. destruct (F j o1 b N1 H1 D1). contradiction.
    + rewrite nth_replace_other in H1 by exact N1. rewrite nth_replace_other in H2 by exact N2.
      eapply (iv_own st a I); eassumption.
Qed.

(** A new object. *)
Lemma inv_add : forall st a h o s, inv st a -> obj_ok h o s ->
  (forall j o' b, nth_error (bs_objs st) j = Some (Some o') -> ho_data o' = Some b ->
     nth_error h b = nth_error (bs_store st) b /\ ho_data o <> Some b) ->
  inv {| bs_store := h; bs_objs := bs_objs st ++ [Some o] |} (a ++ [Some s]).
Proof.
  intros st a h o s I K F. pose proof (iv_length st a I) as L.
  assert (C : forall A (l : list A) x j y, nth_error (l ++ [x]) j = Some y -> nth_error l j = Some y \/ j = length l /\ y = x).
  { intros A l x j y H. destruct (Nat.lt_ge_cases j (length l)) as [H1|H1].
    - rewrite nth_error_app1 in H by exact H1. auto.
    - rewrite nth_error_app2 in H by exact H1. destruct (j - length l) as [|d] eqn:E; cbn in H.
      + right. split; [lia|congruence].
      + destruct d; discriminate. }
  assert (C1 : forall A (l : list A) x j y, nth_error l j = Some y -> nth_error (l ++ [x]) j = Some y).
  { intros A l x j y H. rewrite nth_error_app1; [exact H|]. apply nth_error_lt in H. exact H. }
  split; cbn [bs_store bs_objs].
  - rewrite !app_length, L. reflexivity.
  - intro i. split; intro H; apply C in H; destruct H as [H|[_ H]]; try discriminate; apply C1, (iv_none st a I), H.
  - intros i o' s' H A. apply C in H. apply C in A. destruct H as [H|[-> H]], A as [A|[E A]].
    + apply (obj_frame (bs_store st)); [eapply iv_some; eassumption|]. intros b D. apply (F i o' b H D).
    + apply nth_error_lt in H. lia.
    + apply nth_error_lt in A. lia.
    + congruence.
  - intros j k o1 o2 b H1 H2 D1 D2. apply C in H1. apply C in H2. destruct H1 as [H1|[-> H1]], H2 as [H2|[-> H2]].
    + eapply (iv_own st a I); eassumption.
    + injection H2 as ->. destruct (F j o1 b H1 D1). contradiction.
    + injection H1 as ->. destruct (F k o2 b H2 D2). contradiction.
    + reflexivity.
Qed.

(** ** Operations on the store *)

Lemma block_some : forall (h : store T) b l, nth_error h b = Some (Some l) -> block h b = Ok l.
Proof. intros h b l H. unfold block. rewrite H. reflexivity. Qed.

Lemma store_set_other : forall (h : store T) b x c, c <> b -> nth_error (set_nth h b x) c = nth_error h c.
Proof. intros h b x c N. rewrite set_nth_replace, nth_replace_other by exact N. reflexivity. Qed.

Lemma store_set_same : forall (h : store T) b x y, nth_error h b = Some y -> nth_error (set_nth h b x) b = Some x.
Proof. intros h b x y H. rewrite set_nth_replace, nth_replace_same; [reflexivity|]. apply nth_error_lt in H. exact H. Qed.

Lemma put_ok : forall (h : store T) d l fresh, (forall b, d = Some b -> exists y, nth_error h b = Some (Some y)) ->
  exists h' c, put h d l fresh = Ok (h', c) /\ nth_error h' c = Some (Some l) /\
    (d = Some c \/ length h <= c) /\
    forall b, d <> Some b -> b < length h -> nth_error h' b = nth_error h b.
Proof.
  intros h d l fresh D. unfold put.
  assert (G : exists h' c, (h1 <- drop h d ;; Ok (h1 ++ [Some l], length h1)) = Ok (h', c) /\
    nth_error h' c = Some (Some l) /\ (d = Some c \/ length h <= c) /\
    forall b, d <> Some b -> b < length h -> nth_error h' b = nth_error h b).
  { destruct d as [c|]; cbn [drop].
    - destruct (D c eq_refl) as (y & Y). rewrite (block_some _ _ _ Y). cbn [bind].
      eexists _, _. split; [reflexivity|]. split; [rewrite nth_error_app2, Nat.sub_diag by lia; reflexivity|].
      split; [right; rewrite set_nth_replace, replace_length; lia|].
      intros b N L. rewrite nth_error_app1 by (rewrite set_nth_replace, replace_length; lia).
      apply store_set_other. congruence.
    - cbn [bind]. eexists _, _. split; [reflexivity|].
      split; [rewrite nth_error_app2, Nat.sub_diag by lia; reflexivity|]. split; [right; lia|].
      intros b _ L. rewrite nth_error_app1 by lia. reflexivity. }
  destruct d as [c|]; [|exact G]. destruct fresh; [exact G|].
  destruct (D c eq_refl) as (y & Y). rewrite (block_some _ _ _ Y). cbn [bind].
  eexists _, _. split; [reflexivity|]. split; [eapply store_set_same, Y|]. split; [left; reflexivity|].
  intros b N L. apply store_set_other. congruence.
Qed.

(** [assign_views] gives a buffer. *)
Lemma assign_ok : forall (h : store T) d l sizes fresh,
  (forall b, d = Some b -> exists y, nth_error h b = Some (Some y)) -> 0 < list_sum sizes ->
  exists h' o, assign_views zero h d l sizes fresh = Ok (h', o) /\ obj_ok h' o (buffer zero sizes l) /\
    (forall b, d <> Some b -> b < length h -> nth_error h' b = nth_error h b /\ ho_data o <> Some b).
Proof.
  intros h d l sizes fresh D S. unfold assign_views.
  destruct (Nat.ltb_spec 0 (list_sum sizes)); [|lia]. cbn [expects bind].
  destruct (put_ok h d (resized zero (list_sum sizes) l) fresh D) as (h' & c & E & N & O & F). rewrite E. cbn [bind fst snd].
  eexists _, _. split; [reflexivity|]. split.
  - unfold buffer. cbn [obj_ok ho_data ho_views]. exists c. split; [reflexivity|]. rewrite resized_parts. split; [exact N|].
    split; [rewrite parts_length; apply Permutation_refl|].
    replace (seq 0 (length sizes)) with (seq 0 (length (parts_of sizes (l ++ repeat zero (list_sum sizes)))))
      by (rewrite parts_length; reflexivity).
    rewrite <- consecutive_parts.
    rewrite parts_sizes by (rewrite app_length, repeat_length; lia). reflexivity.
  - intros b Nb L. split; [apply F; assumption|]. cbn [ho_data]. intro Q. injection Q as ->.
    destruct O as [O|O]; [contradiction|lia].
Qed.

Lemma assign_not : forall (h : store T) d l sizes fresh r, assign_views zero h d l sizes fresh = Ok r -> 0 < list_sum sizes.
Proof.
  intros h d l sizes fresh r E. unfold assign_views in E. destruct (Nat.ltb_spec 0 (list_sum sizes)); [assumption|discriminate].
Qed.

(** ** Views *)

Lemma view_of : forall h o p ord b v w, obj_ok h o (Parts p ord) -> ho_data o = Some b ->
  nth_error (ho_views o) v = Some w ->
  exists r g, nth_error ord v = Some r /\ nth_error p r = Some g /\ w = View b (offset p r) (length g).
Proof.
  intros h o p ord b v w (c & D & B & P & V) D' W. rewrite D in D'. injection D' as ->.
  rewrite V, nth_error_map in W. destruct (nth_error ord v) as [r|] eqn:O; cbn in W; [|discriminate]. injection W as <-.
  assert (R : In r (seq 0 (length p))) by (eapply Permutation_in; [exact P|]; eapply nth_error_In; exact O).
  apply in_seq in R. destruct (nth_error p r) as [g|] eqn:G; [|apply nth_error_None in G; lia].
  exists r, g. split; [reflexivity|]. split; [exact G|]. unfold part_view. rewrite (nth_error_nth _ r [] G). reflexivity.
Qed.

Lemma view_back : forall h o p ord b v r g, obj_ok h o (Parts p ord) -> ho_data o = Some b ->
  nth_error ord v = Some r -> nth_error p r = Some g ->
  nth_error (ho_views o) v = Some (View b (offset p r) (length g)).
Proof.
  intros h o p ord b v r g (c & D & B & P & V) D' O G. rewrite D in D'. injection D' as ->.
  rewrite V, (map_nth_error _ _ _ O). unfold part_view. rewrite (nth_error_nth _ r [] G). reflexivity.
Qed.

Lemma read_part : forall (h : store T) b p r g k, nth_error h b = Some (Some (concat p)) -> nth_error p r = Some g ->
  read_at h (View b (offset p r) (length g)) k = at_index g k.
Proof.
  intros h b p r g k B G. unfold read_at. cbn [vw_len vw_block vw_off].
  destruct (Nat.ltb_spec k (length g)); cbn [expects bind].
  - rewrite (block_some _ _ _ B). cbn [bind]. unfold at_index. rewrite (part_nth _ p r g k G H). reflexivity.
  - symmetry. apply at_index_not, nth_error_None, H.
Qed.

Lemma write_part : forall (h : store T) b p r g k x, nth_error h b = Some (Some (concat p)) -> nth_error p r = Some g ->
  k < length g ->
  write_at h (View b (offset p r) (length g)) k x = Ok (set_nth h b (Some (concat (replace r (replace k x g) p)))).
Proof.
  intros h b p r g k x B G K. unfold write_at. cbn [vw_len vw_block vw_off].
  destruct (Nat.ltb_spec k (length g)); [|lia]. cbn [expects bind]. rewrite (block_some _ _ _ B). cbn [bind].
  destruct (at_index (concat p) (offset p r + k)) as [y| |] eqn:Y.
  - cbn [bind]. rewrite set_nth_replace, (set_nth_replace _ (concat p)), (part_write _ p r g k x G K), set_nth_replace.
    reflexivity.
  - exfalso. unfold at_index in Y. rewrite (part_nth _ p r g k G K) in Y.
    destruct (nth_error g k) eqn:Q; [discriminate|]. apply nth_error_None in Q. lia.
  - exfalso. unfold at_index in Y. rewrite (part_nth _ p r g k G K) in Y. destruct (nth_error g k); discriminate.
Qed.

Lemma write_not : forall (h : store T) w k x h', write_at h w k x = Ok h' -> k < vw_len w.
Proof. intros h w k x h' E. unfold write_at in E. destruct (Nat.ltb_spec k (vw_len w)); [assumption|discriminate]. Qed.

(** The first [k] elements of [g'] replaced by those of [g]. *)
Definition partly (k : nat) (g g' : list T) : list T := firstn k g ++ skipn k g'.

Lemma partly_step : forall k g g' x, nth_error g k = Some x -> k < length g' ->
  replace k x (partly k g g') = partly (S k) g g'.
Proof.
  unfold partly. induction k as [|k IH]; intros g g' x X L; destruct g as [|y g], g' as [|z g']; cbn in *; try discriminate; try lia.
  - congruence.
  - f_equal. apply IH; [exact X|lia].
Qed.

Lemma partly_length : forall k g g', k <= length g -> k <= length g' -> length (partly k g g') = length g'.
Proof. intros k g g' L L'. unfold partly. rewrite app_length, firstn_length, skipn_length. lia. Qed.

Lemma partly_refl : forall k g, partly k g g = g.
Proof. intros k g. apply firstn_skipn. Qed.

Lemma copy_part : forall n k (h : store T) b p r g q g', length g <= length g' -> k + n = length g ->
  nth_error p r = Some g -> nth_error p q = Some g' -> (r = q -> g = g') ->
  nth_error h b = Some (Some (concat (replace q (partly k g g') p))) ->
  copy_from h (View b (offset p r) (length g)) (View b (offset p q) (length g')) k n =
  Ok (set_nth h b (Some (concat (replace q (partly (length g) g g') p)))).
Proof.
  induction n as [|n IH]; intros k h b p r g q g' L K G G' E B; cbn [copy_from].
  - replace k with (length g) in B by lia. rewrite set_nth_replace, replace_same by exact B. reflexivity.
  - assert (Q : q < length p) by (apply nth_error_lt in G'; exact G').
    set (p1 := replace q (partly k g g') p) in *.
    assert (LP : length (partly k g g') = length g') by (apply partly_length; lia).
    assert (OF : forall t, offset p1 t = offset p t).
    { intro t. unfold p1. rewrite !offset_sum, (lengths_replace _ p q g' _ G' LP). reflexivity. }
    assert (R : nth_error p1 r = Some g).
    { unfold p1. destruct (Nat.eq_dec r q) as [->|N].
      - rewrite nth_replace_same by exact Q. rewrite <- (E eq_refl), partly_refl. reflexivity.
      - rewrite nth_replace_other by exact N. exact G. }
    assert (W : nth_error p1 q = Some (partly k g g')) by (unfold p1; apply nth_replace_same, Q).
    destruct (nth_error g k) as [x|] eqn:X; [|apply nth_error_None in X; lia].
    rewrite <- (OF r), (read_part h b p1 r g k B R). unfold at_index. rewrite X. cbn [bind].
    rewrite <- (OF q), <- LP, (write_part h b p1 q _ k x B W) by (rewrite LP; lia). cbn [bind].
    rewrite (partly_step k g g' x X) by lia. unfold p1 at 1. rewrite replace_twice.
    rewrite LP, !OF. rewrite (IH (S k)); auto.
    + rewrite !set_nth_replace, replace_twice. reflexivity.
    + lia.
    + eapply store_set_same, B.
Qed.

Lemma copy_not : forall n k (h : store T) v w h', copy_from h v w k n = Ok h' -> n = 0 \/ k + n <= vw_len w.
Proof.
  induction n as [|n IH]; intros k h v w h' E; [left; reflexivity|]. right. cbn [copy_from] in E.
  destruct (read_at h v k) as [x| |]; try discriminate. cbn [bind] in E.
  destruct (write_at h w k x) as [h1| |] eqn:W; try discriminate. cbn [bind] in E.
  apply write_not in W. apply IH in E. lia.
Qed.

End Buffers.
