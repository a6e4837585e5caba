(** * C74: buffers with views *)

From Coq Require Import List Arith Bool Lia Permutation.
From Verif Require Import Base Vector2DSpec Vector2DProofs BufferModel BufferSpec BufferProofs.
Import ListNotations.

Section Buffers.
Context {T : Type} (zero : T).

Lemma get_some : forall (st : b_state T) i o, nth_error (bs_objs st) i = Some (Some o) -> b_get st i = Ok o.
Proof. intros st i o H. unfold b_get. rewrite H. reflexivity. Qed.

Lemma get_ok : forall (st : b_state T) i o, b_get st i = Ok o -> nth_error (bs_objs st) i = Some (Some o).
Proof. intros st i o H. unfold b_get in H. destruct (nth_error (bs_objs st) i) as [[x|]|]; congruence. Qed.

Lemma filled_ok : forall (st : b_state T) i o b, b_filled st i = Ok (o, b) <->
  nth_error (bs_objs st) i = Some (Some o) /\ ho_data o = Some b.
Proof.
  intros st i o b. unfold b_filled. split.
  - intro H. destruct (b_get st i) as [x| |] eqn:G; try discriminate. cbn [bind] in H.
    destruct (ho_data x) eqn:D; [|discriminate]. injection H as -> ->. split; [apply get_ok, G|exact D].
  - intros [H D]. rewrite (get_some _ _ _ H). cbn [bind]. rewrite D. reflexivity.
Qed.

Lemma owned_live : forall st a i (o : holder) b, inv st a -> nth_error (bs_objs st) i = Some (Some o) ->
  ho_data o = Some b -> exists l : list T, nth_error (bs_store st) b = Some (Some l).
Proof.
  intros st a i o b I H D. destruct (inv_get st a i o I H) as (s & _ & K).
  destruct (obj_block _ _ _ _ K D) as (B & _). eexists. exact B.
Qed.

Lemma owned_lt : forall st a i (o : holder) b, inv st a -> nth_error (bs_objs st) i = Some (Some o) ->
  ho_data o = Some b -> b < length (bs_store (T:=T) st).
Proof. intros st a i o b I H D. destruct (owned_live st a i o b I H D) as (l & L). apply nth_error_lt in L. exact L. Qed.

Lemma contents_ok : forall (h : store T) o s, obj_ok h o s -> contents h (ho_data o) = Ok (all_of s).
Proof.
  intros h o s K. destruct (ho_data o) as [b|] eqn:D; cbn [contents].
  - apply block_some. apply (obj_block _ _ _ _ K D).
  - destruct s as [p ord|]; [|reflexivity]. destruct K as (b & D' & _). congruence.
Qed.

Lemma drop_ok : forall st a i (o : holder), inv st a -> nth_error (bs_objs st) i = Some (Some o) ->
  exists h', drop (bs_store (T:=T) st) (ho_data o) = Ok h' /\
    forall b, ho_data o <> Some b -> nth_error h' b = nth_error (bs_store st) b.
Proof.
  intros st a i o I H. destruct (ho_data o) as [b|] eqn:D; cbn [drop].
  - destruct (owned_live st a i o b I H D) as (l & L). rewrite (block_some _ _ _ L). cbn [bind].
    eexists. split; [reflexivity|]. intros c N. apply store_set_other. congruence.
  - eexists. split; [reflexivity|]. reflexivity.
Qed.

(** A holder whose block does not change and which is only written inside
    block [b]. *)
Lemma inv_rewrite : forall st a i o b p ord p', inv st a -> nth_error (bs_objs st) i = Some (Some o) ->
  nth_error a i = Some (Some (Parts p ord)) -> ho_data o = Some b ->
  length p' = length p -> (forall k, part_view b p' k = part_view b p k) ->
  inv {| bs_store := set_nth (bs_store st) b (Some (concat p' : list T)); bs_objs := bs_objs st |}
      (replace i (Some (Parts p' ord)) a).
Proof.
  intros st a i o b p ord p' I H A D L V.
  assert (E : bs_objs st = set_nth (bs_objs st) i (Some o)) by (rewrite set_nth_replace, replace_same; auto).
  rewrite E. apply inv_set; auto.
  - apply nth_error_lt in A. exact A.
  - pose proof (iv_some st a I i o _ H A) as (c & D' & B & P & VV). rewrite D in D'. injection D' as <-.
    exists b. split; [exact D|]. split; [eapply store_set_same, B|]. rewrite L. split; [exact P|].
    rewrite VV. apply map_ext. intro k. symmetry. apply V.
  - intros j o' c N H' D'. split.
    + apply store_set_other. intros ->. apply N. eapply (iv_own st a I); eassumption.
    + rewrite D. intro Q. injection Q as ->. apply N. eapply (iv_own st a I); eassumption.
Qed.

Lemma replace_swap : forall A (l : list A) i j x y, i <> j -> replace j x (replace i y l) = replace i y (replace j x l).
Proof.
  induction l as [|z l IH]; intros [|i] [|j] x y N; cbn; try reflexivity; [congruence|].
  rewrite IH by congruence. reflexivity.
Qed.

Lemma put_permutes : forall (l : list nat) w r q, nth_error l w = Some q -> Permutation (q :: replace w r l) (r :: l).
Proof.
  induction l as [|u l IH]; intros [|w] r q H; cbn in *; try discriminate.
  - injection H as <-. apply perm_swap.
  - eapply Permutation_trans; [apply perm_swap|]. eapply Permutation_trans; [apply perm_skip, (IH w r q H)|]. apply perm_swap.
Qed.

Lemma swap_permutes : forall (l : list nat) v w r q, nth_error l v = Some r -> nth_error l w = Some q ->
  Permutation (replace w r (replace v q l)) l.
Proof.
  induction l as [|u l IH]; intros [|v] [|w] r q H H'; cbn in *; try discriminate.
  - injection H as <-. apply Permutation_refl.
  - injection H as <-. apply put_permutes, H'.
  - injection H' as <-. apply put_permutes, H.
  - apply perm_skip, IH; assumption.
Qed.

Lemma step_ok : forall st a op st', inv st a -> b_step zero st op = Ok st' ->
  exists a', shape_step zero a op a' /\ inv st' a'.
Proof.
  intros st a op st' I E. destruct op as [sizes|i sizes fresh|i sizes|i|i j sizes fresh|i j|i v k x|i x|i v w|i v w|i];
    cbn [b_step] in E.
  - (* BNew *)
    destruct (assign_views _ _ _ _ _ _) as [r| |] eqn:A; try discriminate. cbn [bind] in E. injection E as <-.
    pose proof (assign_not _ _ _ _ _ _ _ A) as S.
    destruct (assign_ok zero (bs_store st) None [] sizes true) as (h' & o & A' & K & F); [discriminate|exact S|].
    rewrite A in A'. injection A' as ->. cbn [fst snd].
    eexists. split; [apply ss_new, S|]. apply inv_add; auto.
    intros j o' b H D. apply F; [discriminate|]. eapply owned_lt; eassumption.
  - (* BReshape *)
    destruct (b_get st i) as [o| |] eqn:G; try discriminate. cbn [bind] in E. apply get_ok in G.
    destruct (inv_get st a i o I G) as (s & S & K). rewrite (contents_ok _ _ _ K) in E. cbn [bind] in E.
    destruct (assign_views _ _ _ _ _ _) as [r| |] eqn:A; try discriminate. cbn [bind] in E. injection E as <-.
    pose proof (assign_not _ _ _ _ _ _ _ A) as P.
    destruct (assign_ok zero (bs_store st) (ho_data o) (all_of s) sizes fresh) as (h' & o' & A' & K' & F);
      [intros b D; exact (owned_live st a i o b I G D)|exact P|].
    rewrite A in A'. injection A' as ->. cbn [fst snd].
    eexists. split; [eapply ss_reshape; [exact S|exact P]|]. apply inv_set; auto.
    + apply nth_error_lt in S. exact S.
    + intros j o2 b N H D. apply F; [|eapply owned_lt; eassumption]. intro Q. apply N. eapply (iv_own st a I); eassumption.
  - (* BCopy *)
    destruct (b_get st i) as [o| |] eqn:G; try discriminate. cbn [bind] in E. apply get_ok in G.
    destruct (inv_get st a i o I G) as (s & S & K). rewrite (contents_ok _ _ _ K) in E. cbn [bind] in E.
    destruct (assign_views _ _ _ _ _ _) as [r| |] eqn:A; try discriminate. cbn [bind] in E. injection E as <-.
    pose proof (assign_not _ _ _ _ _ _ _ A) as P.
    destruct (assign_ok zero (bs_store st) None (all_of s) sizes true) as (h' & o' & A' & K' & F); [discriminate|exact P|].
    rewrite A in A'. injection A' as ->. cbn [fst snd].
    eexists. split; [eapply ss_copy; [exact S|exact P]|]. apply inv_add; auto.
    intros j o2 b H D. apply F; [discriminate|]. eapply owned_lt; eassumption.
  - (* BMove *)
    destruct (b_get st i) as [o| |] eqn:G; try discriminate. cbn [bind] in E. injection E as <-. apply get_ok in G.
    destruct (inv_get st a i o I G) as (s & S & K). eexists. split; [eapply ss_move, S|].
    assert (I1 : inv {| bs_store := bs_store st; bs_objs := set_nth (bs_objs st) i (Some (moved_from o)) |}
                     (replace i (Some Husk) a)).
    { apply inv_set; auto; [apply nth_error_lt in S; exact S|reflexivity|]. intros. split; [reflexivity|discriminate]. }
    apply (inv_add _ _ (bs_store st) o s) in I1; [exact I1|exact K|]. cbn [bs_store bs_objs].
    intros j o2 b H D. split; [reflexivity|]. intro Q. rewrite set_nth_replace in H.
    destruct (Nat.eq_dec j i) as [->|N].
    + rewrite nth_replace_same in H by (apply nth_error_lt in G; exact G). injection H as <-. discriminate.
    + rewrite nth_replace_other in H by exact N. apply N. eapply (iv_own st a I); eassumption.
  - (* BCopyAssign *)
    destruct (b_get st i) as [o| |] eqn:G; try discriminate. cbn [bind] in E. apply get_ok in G.
    destruct (b_get st j) as [o'| |] eqn:G'; try discriminate. cbn [bind] in E. apply get_ok in G'.
    destruct (inv_get st a i o I G) as (s & S & K). destruct (inv_get st a j o' I G') as (s' & S' & K').
    rewrite (contents_ok _ _ _ K') in E. cbn [bind] in E.
    destruct (assign_views _ _ _ _ _ _) as [r| |] eqn:A; try discriminate. cbn [bind] in E. injection E as <-.
    pose proof (assign_not _ _ _ _ _ _ _ A) as P.
    destruct (assign_ok zero (bs_store st) (ho_data o) (all_of s') sizes fresh) as (h' & o2 & A' & K2 & F);
      [intros b D; exact (owned_live st a i o b I G D)|exact P|].
    rewrite A in A'. injection A' as ->. cbn [fst snd].
    eexists. split; [eapply ss_copy_assign; [exact S|exact S'|exact P]|]. apply inv_set; auto.
    + apply nth_error_lt in S. exact S.
    + intros k o3 b N H D. apply F; [|eapply owned_lt; eassumption]. intro Q. apply N. eapply (iv_own st a I); eassumption.
  - (* BMoveAssign *)
    destruct (b_get st i) as [o| |] eqn:G; try discriminate. cbn [bind] in E. apply get_ok in G.
    destruct (b_get st j) as [o'| |] eqn:G'; try discriminate. cbn [bind] in E. apply get_ok in G'.
    destruct (inv_get st a i o I G) as (s & S & K). destruct (inv_get st a j o' I G') as (s' & S' & K').
    destruct (Nat.eqb_spec i j) as [->|N].
    { injection E as <-. exists a. split; [eapply ss_move_self, S|exact I]. }
    destruct (drop_ok st a i o I G) as (h' & D & F). rewrite D in E. cbn [bind] in E. injection E as <-.
    eexists. split; [eapply ss_move_assign; [exact N|exact S|exact S']|].
    (* first the source becomes a husk, then the target takes its place *)
    assert (I1 : inv {| bs_store := bs_store st; bs_objs := set_nth (bs_objs st) j (Some (moved_from o')) |}
                     (replace j (Some Husk) a)).
    { apply inv_set; auto; [apply nth_error_lt in S'; exact S'|reflexivity|]. intros. split; [reflexivity|discriminate]. }
    assert (SW : forall A (l : list A) x y, replace j x (replace i y l) = replace i y (replace j x l)).
    { intros A l x y. apply replace_swap. exact N. }
    rewrite !set_nth_replace, !SW. rewrite <- (set_nth_replace _ _ i).
    apply (inv_set _ _ h' i o' s') in I1; [cbn [bs_objs] in I1; rewrite set_nth_replace in I1; rewrite set_nth_replace; rewrite set_nth_replace in I1; exact I1| | |].
    + rewrite replace_length. apply nth_error_lt in S. exact S.
    + apply (obj_frame (bs_store st)); [exact K'|]. intros b Db. apply F. intro Q. apply N. eapply (iv_own st a I); eassumption.
    + cbn [bs_objs bs_store]. intros k o2 b Nk H Db. rewrite set_nth_replace in H.
      destruct (Nat.eq_dec k j) as [->|Nj].
      * rewrite nth_replace_same in H by (apply nth_error_lt in G'; exact G'). injection H as <-. discriminate.
      * rewrite nth_replace_other in H by exact Nj. split.
        -- apply F. intro Q. apply Nk. eapply (iv_own st a I); eassumption.
        -- intro Q. apply Nj. eapply (iv_own st a I); eassumption.
  - (* BWrite *)
    destruct (b_filled st i) as [[o b]| |] eqn:G; try discriminate. cbn [bind fst] in E. apply filled_ok in G. destruct G as [G D].
    destruct (inv_get st a i o I G) as (s & S & K). destruct (obj_block _ _ _ _ K D) as (B & p & ord & ->). cbn [all_of] in B.
    destruct (at_index (ho_views o) v) as [w| |] eqn:V; try discriminate. cbn [bind] in E. apply at_index_ok in V.
    destruct (view_of _ _ _ _ _ _ _ K D V) as (r & g & O & Gr & ->).
    destruct (write_at _ _ _ _) as [h'| |] eqn:W; try discriminate. cbn [bind] in E. injection E as <-.
    pose proof (write_not _ _ _ _ _ W) as L. cbn [vw_len] in L. rewrite (write_part _ _ _ _ _ _ _ B Gr L) in W. injection W as <-.
    eexists. split; [eapply ss_write; eassumption|].
    eapply inv_rewrite; try eassumption; [apply replace_length|].
    intro t. eapply part_view_replace; [exact Gr|apply replace_length].
  - (* BFill *)
    destruct (b_filled st i) as [[o b]| |] eqn:G; try discriminate. cbn [bind fst snd] in E. apply filled_ok in G. destruct G as [G D].
    destruct (inv_get st a i o I G) as (s & S & K). destruct (obj_block _ _ _ _ K D) as (B & p & ord & ->). cbn [all_of] in B.
    rewrite (block_some _ _ _ B) in E. cbn [bind] in E. injection E as <-.
    eexists. split; [eapply ss_fill, S|].
    assert (Q : repeat x (length (concat p)) = concat (map (map (fun _ => x)) p)).
    { rewrite <- concat_map. clear. induction (concat p) as [|y l IH]; cbn; [reflexivity|]. rewrite IH. reflexivity. }
    rewrite Q. eapply inv_rewrite; try eassumption; [apply map_length|].
    intro t. unfold part_view.
    assert (LM : map (@length T) (map (map (fun _ => x)) p) = map (@length T) p).
    { rewrite map_map. apply map_ext. intro g. apply map_length. }
    rewrite !offset_sum, LM. f_equal. change (@nil T) with (map (fun _ : T => x) []) at 1. rewrite map_nth, map_length. reflexivity.
  - (* BCopyView *)
    destruct (b_filled st i) as [[o b]| |] eqn:G; try discriminate. cbn [bind fst] in E. apply filled_ok in G. destruct G as [G D].
    destruct (inv_get st a i o I G) as (s & S & K). destruct (obj_block _ _ _ _ K D) as (B & p & ord & ->). cbn [all_of] in B.
    destruct (at_index (ho_views o) v) as [x| |] eqn:V; try discriminate. cbn [bind] in E. apply at_index_ok in V.
    destruct (at_index (ho_views o) w) as [y| |] eqn:W; try discriminate. cbn [bind] in E. apply at_index_ok in W.
    destruct (view_of _ _ _ _ _ _ _ K D V) as (r & g & O & Gr & ->).
    destruct (view_of _ _ _ _ _ _ _ K D W) as (q & g' & O' & Gq & ->). cbn [vw_len] in E.
    destruct (copy_from _ _ _ _ _) as [h'| |] eqn:C; try discriminate. cbn [bind] in E. injection E as <-.
    assert (L : length g <= length g').
    { pose proof (copy_not _ _ _ _ _ _ C) as [Z|Z]; cbn [vw_len] in Z; lia. }
    rewrite (copy_part (length g) 0 (bs_store st) b p r g q g' L) in C; auto.
    2:{ intros ->. congruence. }
    2:{ cbn [partly firstn skipn app]. rewrite replace_same; auto. }
    injection C as <-. unfold partly. rewrite firstn_all.
    eexists. split; [eapply ss_copy_view; eassumption|].
    eapply inv_rewrite; try eassumption; [apply replace_length|].
    intro t. eapply part_view_replace; [exact Gq|]. rewrite app_length, skipn_length. lia.
  - (* BSwap *)
    destruct (b_filled st i) as [[o b]| |] eqn:G; try discriminate. cbn [bind fst] in E. apply filled_ok in G. destruct G as [G D].
    destruct (inv_get st a i o I G) as (s & S & K). destruct (obj_block _ _ _ _ K D) as (B & p & ord & ->).
    destruct (swap_views _ _ _) as [l| |] eqn:W; try discriminate. cbn [bind] in E. injection E as <-.
    unfold swap_views in W. destruct (at_index (ho_views o) v) as [x| |] eqn:X; try discriminate. cbn [bind] in W.
    destruct (at_index (ho_views o) w) as [y| |] eqn:Y; try discriminate. cbn [bind] in W. injection W as <-.
    apply at_index_ok in X. apply at_index_ok in Y.
    destruct (view_of _ _ _ _ _ _ _ K D X) as (r & g & O & Gr & ->).
    destruct (view_of _ _ _ _ _ _ _ K D Y) as (q & g' & O' & Gq & ->).
    eexists. split; [eapply ss_swap; eassumption|]. apply inv_set; auto.
    + apply nth_error_lt in S. exact S.
    + destruct K as (c & D' & _ & P & VV). rewrite D in D'. injection D' as <-. exists b. cbn [ho_data ho_views].
      split; [exact D|]. split; [exact B|].
      assert (MR : forall (l : list nat) k z, map (part_view b p) (replace k z l) = replace k (part_view b p z) (map (part_view b p) l)).
      { clear. induction l as [|u l IH]; intros [|k] z; cbn; try reflexivity. rewrite IH. reflexivity. }
      split.
      * eapply Permutation_trans; [|exact P]. apply swap_permutes; assumption.
      * rewrite !set_nth_replace, !MR, <- VV. unfold part_view.
        rewrite (nth_error_nth _ r [] Gr), (nth_error_nth _ q [] Gq). reflexivity.
    + cbn [ho_data]. intros j o' c N H' D'. split; [reflexivity|]. rewrite D. intro Q. injection Q as ->.
      apply N. eapply (iv_own st a I); eassumption.
  - (* BDestroy *)
    destruct (b_get st i) as [o| |] eqn:G; try discriminate. cbn [bind] in E. apply get_ok in G.
    destruct (inv_get st a i o I G) as (s & S & K).
    destruct (drop_ok st a i o I G) as (h' & D & F). rewrite D in E. cbn [bind] in E. injection E as <-.
    eexists. split; [eapply ss_destroy, S|].
    assert (LO : i < length (bs_objs st)) by (apply nth_error_lt in G; exact G).
    assert (LA : i < length a) by (apply nth_error_lt in S; exact S).
    rewrite set_nth_replace. split; cbn [bs_objs bs_store].
    + rewrite !replace_length. apply (iv_length st a I).
    + intro j. destruct (Nat.eq_dec j i) as [->|N].
      * rewrite !nth_replace_same by assumption. split; reflexivity.
      * rewrite !nth_replace_other by exact N. apply (iv_none st a I).
    + intros j o' s' H A. destruct (Nat.eq_dec j i) as [->|N].
      * rewrite nth_replace_same in H by exact LO. discriminate.
      * rewrite nth_replace_other in H by exact N. rewrite nth_replace_other in A by exact N.
        apply (obj_frame (bs_store st)); [eapply iv_some; eassumption|]. intros b Db. apply F. intro Q. apply N.
        eapply (iv_own st a I); eassumption.
    + intros j k o1 o2 b H1 H2 D1 D2.
      destruct (Nat.eq_dec j i) as [->|N1]; [rewrite nth_replace_same in H1 by exact LO; discriminate|].
      destruct (Nat.eq_dec k i) as [->|N2]; [rewrite nth_replace_same in H2 by exact LO; discriminate|].
      rewrite nth_replace_other in H1 by exact N1. rewrite nth_replace_other in H2 by exact N2.
      eapply (iv_own st a I); eassumption.
Qed.

Lemma step_total : forall st a op a', inv st a -> shape_step zero a op a' -> exists st', b_step zero st op = Ok st'.
Proof.
  intros st a op a' I H.
  destruct H as [a sizes S|a i s sizes fresh X S|a i s sizes X S|a i s X|a i j s s' sizes fresh X Y S|a i s X
    |a i j s s' N X Y|a i v k x p ord r g X O R L|a i x p ord X|a i v w p ord r q g g' X O O' R R' L
    |a i v w p ord r q X O O'|a i s X]; cbn [b_step];
    try (destruct (inv_put_back st a i _ I X) as (o & G & K)).
  - destruct (assign_ok zero (bs_store st) None [] sizes true) as (h' & o & A & _); [discriminate|assumption|].
    rewrite A. eexists. reflexivity.
  - rewrite (get_some st i o G). cbn [bind]. rewrite (contents_ok _ _ _ K). cbn [bind].
    destruct (assign_ok zero (bs_store st) (ho_data o) (all_of s) sizes fresh) as (h' & o' & A & _);
      [intros b D; exact (owned_live st a i o b I G D)|assumption|]. rewrite A. eexists. reflexivity.
  - rewrite (get_some st i o G). cbn [bind]. rewrite (contents_ok _ _ _ K). cbn [bind].
    destruct (assign_ok zero (bs_store st) None (all_of s) sizes true) as (h' & o' & A & _); [discriminate|assumption|].
    rewrite A. eexists. reflexivity.
  - rewrite (get_some st i o G). eexists. reflexivity.
  - destruct (inv_put_back st a j _ I Y) as (o' & G' & K').
    rewrite (get_some st i o G), (get_some st j o' G'). cbn [bind]. rewrite (contents_ok _ _ _ K'). cbn [bind].
    destruct (assign_ok zero (bs_store st) (ho_data o) (all_of s') sizes fresh) as (h' & o2 & A & _);
      [intros b D; exact (owned_live st a i o b I G D)|assumption|]. rewrite A. eexists. reflexivity.
  - rewrite (get_some st i o G). cbn [bind]. rewrite Nat.eqb_refl. eexists. reflexivity.
  - destruct (inv_put_back st a j _ I Y) as (o' & G' & K').
    rewrite (get_some st i o G), (get_some st j o' G'). cbn [bind].
    destruct (Nat.eqb_spec i j) as [|_]; [contradiction|].
    destruct (drop_ok st a i o I G) as (h' & D & _). rewrite D. eexists. reflexivity.
  - pose proof K as (b & D & B & _). rewrite (proj2 (filled_ok st i o b)) by auto. cbn [bind fst].
    rewrite (proj2 (at_index_ok _ _ _ _) (view_back _ _ _ _ _ _ _ _ K D O R)). cbn [bind].
    rewrite (write_part _ _ _ _ _ _ _ B R L). eexists. reflexivity.
  - destruct K as (b & D & B & _). rewrite (proj2 (filled_ok st i o b)) by auto. cbn [bind fst snd].
    rewrite (block_some _ _ _ B). eexists. reflexivity.
  - pose proof K as (b & D & B & _). rewrite (proj2 (filled_ok st i o b)) by auto. cbn [bind fst].
    rewrite (proj2 (at_index_ok _ _ _ _) (view_back _ _ _ _ _ _ _ _ K D O R)). cbn [bind].
    rewrite (proj2 (at_index_ok _ _ _ _) (view_back _ _ _ _ _ _ _ _ K D O' R')). cbn [bind vw_len].
    rewrite (copy_part (length g) 0 (bs_store st) b p r g q g'); auto.
    + eexists. reflexivity.
    + intros ->. congruence.
    + cbn [partly firstn skipn app]. rewrite replace_same; auto.
  - destruct K as (b & D & _ & _ & V). rewrite (proj2 (filled_ok st i o b)) by auto. cbn [bind fst].
    unfold swap_views. rewrite V.
    rewrite (proj2 (at_index_ok _ _ _ _) (map_nth_error _ _ _ O)).
    rewrite (proj2 (at_index_ok _ _ _ _) (map_nth_error _ _ _ O')). eexists. reflexivity.
  - rewrite (get_some st i o G). cbn [bind].
    destruct (drop_ok st a i o I G) as (h' & D & _). rewrite D. eexists. reflexivity.
Qed.

(** The specification is a function of the statement. *)
Lemma shape_step_fun : forall a op b c, shape_step zero a op b -> shape_step zero a op c -> b = c.
Proof. intros a op b c H K. inversion H; subst; inversion K; subst; congruence. Qed.

Lemma run_inv : forall l st a st', inv st a -> b_run zero st l = Ok st' ->
  exists a', shape_run zero a l a' /\ inv st' a'.
Proof.
  induction l as [|op l IH]; intros st a st' I E; cbn [b_run] in E.
  - injection E as <-. exists a. split; [constructor|exact I].
  - destruct (b_step zero st op) as [s1| |] eqn:S; try discriminate. cbn [bind] in E.
    destruct (step_ok st a op s1 I S) as (a1 & S1 & I1). destruct (IH s1 a1 st' I1 E) as (a' & R & I').
    exists a'. split; [econstructor; eassumption|exact I'].
Qed.

Lemma run_back : forall l st a a', inv st a -> shape_run zero a l a' ->
  exists st', b_run zero st l = Ok st' /\ inv st' a'.
Proof.
  intros l st a a' I R. revert st I. induction R as [a|a o b l c S R IH]; intros st I.
  - exists st. split; [reflexivity|exact I].
  - destruct (step_total st a o b I S) as (s1 & E). destruct (step_ok st a o s1 I E) as (b' & S' & I1).
    rewrite <- (shape_step_fun a o b b' S S') in I1. destruct (IH s1 I1) as (st' & E' & I').
    exists st'. split; [|exact I']. cbn [b_run]. rewrite E. exact E'.
Qed.

Lemma map_outcome_all : forall A B (f : A -> outcome B) (g : A -> B) l, (forall x, In x l -> f x = Ok (g x)) ->
  map_outcome f l = Ok (map g l).
Proof.
  induction l as [|x l IH]; intro H; cbn; [reflexivity|]. rewrite (H x) by (left; reflexivity). cbn [bind].
  rewrite IH by (intros y Y; apply H; right; exact Y). reflexivity.
Qed.

Lemma map_nth_seq : forall (d : T) g, map (fun k => nth k g d) (seq 0 (length g)) = g.
Proof.
  intros d g. apply nth_ext with (d := nth 0 g d) (d' := d); [rewrite map_length, seq_length; reflexivity|].
  intros n L. rewrite map_length, seq_length in L.
  rewrite (nth_indep _ _ (nth (length g) g d)) by (rewrite map_length, seq_length; exact L).
  rewrite (map_nth (fun k => nth k g d)), seq_nth by exact L. reflexivity.
Qed.

Lemma read_view_part : forall (h : store T) b p r g, nth_error h b = Some (Some (concat p)) -> nth_error p r = Some g ->
  read_view h (View b (offset p r) (length g)) = Ok g.
Proof.
  intros h b p r g B G. unfold read_view. cbn [vw_len]. destruct g as [|d g0] eqn:Q; [reflexivity|]. rewrite <- Q in *.
  rewrite (map_outcome_all _ _ _ (fun k => nth k g d)); [f_equal; apply map_nth_seq|].
  intros k K. apply in_seq in K. rewrite (read_part h b p r g k B G).
  apply at_index_ok. apply nth_error_nth'. lia.
Qed.

Lemma shown_ok : forall (st : b_state T) (a : list (option (shape T))) i t, inv st a ->
  (b_shown st i = Ok t <-> exists s, nth_error a i = Some (Some s) /\ shows_parts s t).
Proof.
  intros st a i t I.
  assert (Q : forall o b p ord, nth_error (bs_objs st) i = Some (Some o) -> ho_data o = Some b ->
    obj_ok (bs_store st) o (Parts p ord) -> b_shown st i = Ok (map (fun r => nth r p []) ord)).
  { intros o b p ord G D K. unfold b_shown. rewrite (proj2 (filled_ok st i o b)) by auto. cbn [bind fst].
    destruct K as (c & D' & B & P & V). rewrite D in D'. injection D' as <-. rewrite V. clear V.
    assert (R : forall r, In r ord -> r < length p).
    { intros r R. apply (Permutation_in _ P) in R. apply in_seq in R. lia. }
    clear P. induction ord as [|r ord IH]; [reflexivity|]. cbn [map map_outcome].
    unfold part_view at 1.
    assert (N : nth_error p r = Some (nth r p [])) by (apply nth_error_nth', R; left; reflexivity).
    rewrite (read_view_part _ b p r _ B N). cbn [bind]. rewrite IH by (intros z Z'; apply R; right; exact Z'). reflexivity. }
  split.
  - intro E. assert (F : exists ob, b_filled st i = Ok ob).
    { unfold b_shown in E. destruct (b_filled st i) as [ob| |]; try discriminate. exists ob. reflexivity. }
    destruct F as ([o b] & F).
    apply filled_ok in F. destruct F as [G D]. destruct (inv_get st a i o I G) as (s & S & K).
    destruct (obj_block _ _ _ _ K D) as (B & p & ord & ->). exists (Parts p ord). split; [exact S|].
    pose proof (Q o b p ord G D K) as E'. cbn [shows_parts]. congruence.
  - intros (s & S & H). destruct s as [p ord|]; [|destruct H]. cbn [shows_parts] in H. subst t.
    destruct (inv_put_back st a i _ I S) as (o & G & K). pose proof K as (b & D & _).
    exact (Q o b p ord G D K).
Qed.

Lemma inv_safe : forall (st : b_state T) a, inv st a -> safe_views st.
Proof.
  intros st a I i o b G D. destruct (inv_get st a i o I G) as (s & S & K).
  destruct (obj_block _ _ _ _ K D) as (B & p & ord & ->). cbn [all_of] in B. split; [|split].
  - exists (concat p). split; [exact B|]. apply Forall_forall. intros v V. apply In_nth_error in V. destruct V as (x & V).
    destruct (view_of _ _ _ _ _ _ _ K D V) as (r & g & O & R & ->). cbn [vw_block vw_off vw_len].
    split; [reflexivity|]. apply part_in, R.
  - intros x y v w V W N.
    destruct (view_of _ _ _ _ _ _ _ K D V) as (r & g & O & R & ->).
    destruct (view_of _ _ _ _ _ _ _ K D W) as (q & g' & O' & R' & ->).
    assert (NE : r <> q).
    { intros ->. apply N. destruct K as (c & _ & _ & P & _).
      assert (ND : NoDup ord) by (apply (Permutation_NoDup (Permutation_sym P)), seq_NoDup).
      apply (proj1 (NoDup_nth_error ord) ND); [apply nth_error_lt in O; exact O|congruence]. }
    unfold apart. cbn [vw_off vw_len]. rewrite !offset_sum.
    assert (Q : forall (p : list (list T)) r q g, r < q -> nth_error p r = Some g ->
      list_sum (firstn r (map (@length T) p)) + length g <= list_sum (firstn q (map (@length T) p))).
    { clear. induction p as [|x p IH]; intros [|r] [|q] g L R; cbn in R; try discriminate; try lia.
      - injection R as <-. cbn [map firstn]. change (list_sum (?a :: ?b)) with (a + list_sum b).
        change (length x <= list_sum (length x :: firstn q (map (@length T) p))).
        change (length x <= length x + list_sum (firstn q (map (@length T) p))). lia.
      - cbn [map firstn]. specialize (IH r q g ltac:(lia) R).
        change (length x + list_sum (firstn r (map (@length T) p)) + length g <=
          length x + list_sum (firstn q (map (@length T) p))). lia. }
    destruct (Nat.lt_total r q) as [L|[L|L]]; [left|contradiction|right]; eapply Q; eassumption.
  - intros j o' G' D'. exact (iv_own st a I j i o' o b G' G D' D).
Qed.

(** C74: after any statements that did not violate a contract, every view of
    an object that owns a buffer lies inside that buffer, the buffer has no
    other owner and has not been freed, and the views do not overlap. *)
Theorem views_stay_safe : forall l st, b_run zero b_start l = Ok st -> safe_views st.
Proof.
  intros l st E. destruct (run_inv l b_start [] st inv_start E) as (a & _ & I). exact (inv_safe st a I).
Qed.
(** C74: programs on buffers with views are programs on plain values: they
    fail in the same cases, leave as many objects, and their views show the
    same elements. *)
Theorem buffers_are_values : forall l,
  ((exists st, b_run zero b_start l = Ok st) <-> (exists a, shape_run zero [] l a)) /\
  forall st a, b_run zero b_start l = Ok st -> shape_run zero [] l a ->
    length (bs_objs st) = length a /\
    forall i t, b_shown st i = Ok t <-> exists s, nth_error a i = Some (Some s) /\ shows_parts s t.
Proof.
  intro l. split; [split|].
  - intros (st & E). destruct (run_inv l b_start [] st inv_start E) as (a & R & _). exists a. exact R.
  - intros (a & R). destruct (run_back l b_start [] a inv_start R) as (st & E & _). exists st. exact E.
  - intros st a E R. destruct (run_back l b_start [] a inv_start R) as (st' & E' & I).
    rewrite E in E'. injection E' as <-. split; [apply (iv_length st a I)|]. intros i t. apply shown_ok, I.
Qed.
End Buffers.
Print Assumptions views_stay_safe.
Print Assumptions buffers_are_values.

(** A search: three parts of two elements; a part is written, copied and
    swapped with another, the object is copied and moved, the copy gets
    another size, and an element of the original is written last.  The copy
    keeps its elements; the object moved from shows nothing. *)
Definition ex_program : list (b_op nat) :=
  [BNew [2; 2; 2]; BWrite 0 2 0 7; BWrite 0 2 1 8; BCopyView 0 2 0; BSwap 0 1 2; BCopy 0 [2; 2; 2];
   BMove 0; BReshape 1 [3; 3] true; BNew [1]; BMoveAssign 3 2; BWrite 3 1 0 9].

Example ex_buffers : exists st, b_run 0 b_start ex_program = Ok st /\
  b_shown st 0 = Broken /\ b_shown st 1 = Ok [[7; 8; 0]; [0; 7; 8]] /\ b_shown st 2 = Broken /\
  b_shown st 3 = Ok [[7; 8]; [9; 8]; [0; 0]] /\ exists a, shape_run 0 [] ex_program a.
Proof.
  eexists. split; [vm_compute; reflexivity|].
  split; [vm_compute; reflexivity|]. split; [vm_compute; reflexivity|]. split; [vm_compute; reflexivity|].
  split; [vm_compute; reflexivity|]. apply (proj1 (buffers_are_values 0 ex_program)).
  eexists. vm_compute. reflexivity.
Qed.

(** Reading an object that was moved from violates a contract; the program
    fails. *)
Example ex_moved_from : b_run 0 b_start [BNew [2]; BMove 0; BWrite 0 0 0 1] = Broken.
Proof. vm_compute. reflexivity. Qed.
