(** * Proofs about the histogram *)

From Coq Require Import List ZArith Bool Arith Lia Sorted Permutation.
From Verif Require Import Base F32 HistogramModel HistogramSpec.
Import ListNotations.
Local Open Scope Z_scope.

Definition make_bin (bs : Z) (v : Z * Z) : bin :=
  {| b_count := snd v; b_low := fst v * bs;
     b_middle := fst v * bs + Z.quot bs 2; b_high := fst v * bs + bs |}.

(** The contents of a histogram after adding [vs]. *)
Record holds (bs : Z) (vs : list Z) (l : list (Z * Z)) : Prop := {
  ho_sorted : StronglySorted Z.lt (map fst l);
  ho_count : Forall (fun v => 0 <= fst v /\ 0 < snd v /\
    snd v = how_many (fun x => Z.quot x bs =? fst v) vs) l;
  ho_keys : Forall (fun x => 0 <= x /\ In (Z.quot x bs) (map fst l)) vs;
  ho_sum : fold_right Z.add 0 (map snd l) = Z.of_nat (length vs)
}.

Lemma how_many_snoc : forall P vs v,
  how_many P (vs ++ [v]) = how_many P vs + (if P v then 1 else 0).
Proof.
  intros P vs v. unfold how_many. rewrite filter_app, app_length. cbn [filter].
  destruct (P v); cbn [length]; lia.
Qed.

Lemma how_many_none : forall P vs, (forall x, In x vs -> P x = false) -> how_many P vs = 0.
Proof.
  intros P vs. unfold how_many. induction vs as [|x vs IH]; intro H; [reflexivity|].
  cbn [filter]. rewrite (H x (or_introl eq_refl)). apply IH. intros y Hy. apply H. right. exact Hy.
Qed.

Lemma bump_keys : forall k l x, In x (map fst (bins_bump k l)) <-> x = k \/ In x (map fst l).
Proof.
  intros k l x. induction l as [|[k' n] l IH]; cbn [bins_bump map fst In]; [intuition auto|].
  destruct (Z.ltb_spec k k'); [cbn [map fst In]; intuition auto|].
  destruct (Z.ltb_spec k' k); cbn [map fst In].
  - rewrite IH. tauto.
  - assert (k' = k) by lia. subst. intuition auto.
Qed.

Lemma bump_sorted : forall k l, StronglySorted Z.lt (map fst l) ->
  StronglySorted Z.lt (map fst (bins_bump k l)).
Proof.
  intros k l. induction l as [|[k' n] l IH]; intro H; cbn [bins_bump map fst].
  - constructor; constructor.
  - cbn [map fst] in H. inversion H as [|? ? H1 H2]; subst.
    destruct (Z.ltb_spec k k') as [L|L].
    + cbn [map fst]. constructor; [exact H|]. constructor; [exact L|].
      eapply Forall_impl; [|exact H2]. cbn. lia.
    + destruct (Z.ltb_spec k' k) as [M|M]; cbn [map fst]; [|exact H].
      constructor; [apply IH, H1|]. apply Forall_forall. intros y Hy.
      apply bump_keys in Hy. destruct Hy as [->|Hy]; [exact M|].
      rewrite Forall_forall in H2. apply H2, Hy.
Qed.

Lemma bump_sum : forall k l,
  fold_right Z.add 0 (map snd (bins_bump k l)) = fold_right Z.add 0 (map snd l) + 1.
Proof.
  intros k l. induction l as [|[k' n] l IH]; cbn [bins_bump map snd fold_right]; [reflexivity|].
  destruct (k <? k'); [cbn [map snd fold_right]; lia|].
  destruct (k' <? k); cbn [map snd fold_right]; lia.
Qed.

(** Elements of the bumped list. *)
Lemma bump_elements : forall k l, StronglySorted Z.lt (map fst l) ->
  forall v, In v (bins_bump k l) ->
  (In v l /\ fst v <> k) \/
  (fst v = k /\ ((~ In k (map fst l) /\ snd v = 1) \/ exists n, In (k, n) l /\ snd v = n + 1)).
Proof.
  intros k l. induction l as [|[k' n] l IH]; intros H v Hv; cbn [bins_bump] in Hv.
  - destruct Hv as [<-|[]]. right. split; [reflexivity|]. left. split; [intros []|reflexivity].
  - cbn [map fst] in H. inversion H as [|? ? H1 H2]; subst.
    rewrite Forall_forall in H2.
    assert (IN : forall w, In w l -> k' < fst w) by (intros w Hw; apply H2, in_map, Hw).
    destruct (Z.ltb_spec k k') as [L|L].
    + destruct Hv as [<-|Hv].
      * right. split; [reflexivity|]. left. split; [|reflexivity].
        cbn [map fst In]. intros [E|E]; [lia|]. specialize (H2 _ E). lia.
      * left. split; [exact Hv|]. destruct Hv as [<-|Hv]; cbn [fst]; [lia|].
        specialize (IN _ Hv). lia.
    + destruct (Z.ltb_spec k' k) as [M|M].
      * destruct Hv as [<-|Hv].
        -- left. split; [left; reflexivity|cbn [fst]; lia].
        -- destruct (IH H1 v Hv) as [[A B]|[A [[B C]|(m & B & C)]]].
           ++ left. split; [right; exact A|exact B].
           ++ right. split; [exact A|]. left. split; [|exact C].
              cbn [map fst In]. intros [E|E]; [lia|contradiction].
           ++ right. split; [exact A|]. right. exists m. split; [right; exact B|exact C].
      * assert (k' = k) by lia. subst k'. destruct Hv as [<-|Hv].
        -- right. split; [reflexivity|]. right. exists n. split; [left; reflexivity|reflexivity].
        -- left. split; [right; exact Hv|]. specialize (IN _ Hv). lia.
Qed.

Lemma holds_nil : forall bs, holds bs [] [].
Proof.
  intro bs. split; cbn; constructor.
Qed.

Lemma holds_add : forall bs vs l v, 1 <= bs -> 0 <= v -> holds bs vs l ->
  holds bs (vs ++ [v]) (bins_bump (Z.quot v bs) l).
Proof.
  intros bs vs l v B V [S C K T]. set (k := Z.quot v bs).
  assert (K0 : 0 <= k) by (apply Z.quot_pos; lia).
  split.
  - apply bump_sorted, S.
  - apply Forall_forall. intros w Hw. rewrite how_many_snoc. fold k.
    rewrite Forall_forall in C, K.
    destruct (bump_elements k l S w Hw) as [[A N]|[A [[N E]|(n & N & E)]]].
    + destruct (C w A) as (C1 & C2 & C3). destruct (Z.eqb_spec k (fst w)); [congruence|].
      repeat split; lia.
    + rewrite A, Z.eqb_refl, how_many_none; [lia|].
      intros x Hx. apply Z.eqb_neq. intro Q. apply N. rewrite <- Q. apply K, Hx.
    + destruct (C _ N) as (C1 & C2 & C3). cbn [fst snd] in C1, C2, C3.
      rewrite A, Z.eqb_refl. lia.
  - apply Forall_app. split.
    + eapply Forall_impl; [|exact K]. cbn. intros x [X1 X2]. split; [exact X1|].
      apply bump_keys. right. exact X2.
    + constructor; [|constructor]. split; [exact V|]. apply bump_keys. left. reflexivity.
  - rewrite bump_sum, T, app_length. cbn. lia.
Qed.

Lemma run_holds : forall ops h vs bs, 1 <= bs -> natural_values ops ->
  h_bin_size h = bs -> holds bs vs (h_bins h) ->
  exists h', hist_run h ops = Ok h' /\ h_bin_size h' = bs /\
    holds bs (fold_left (fun vs x => match x with Add v => vs ++ [v] | Clear => [] end) ops vs)
      (h_bins h').
Proof.
  induction ops as [|x ops IH]; intros h vs bs B N E H; cbn [hist_run fold_left].
  - exists h. auto.
  - inversion N as [|? ? N1 N2]; subst. destruct x as [v|]; cbn [hist_step].
    + unfold hist_add. destruct (Z.leb_spec 1 (h_bin_size h)); [|lia].
      destruct (Z.leb_spec 0 v); [|lia]. cbn [expects bind].
      apply IH; auto. cbn [h_bins]. apply holds_add; assumption.
    + cbn [bind]. apply IH; auto. apply holds_nil.
Qed.

Lemma new_run_holds : forall bs h0 ops h, hist_new bs = Ok h0 -> natural_values ops ->
  hist_run h0 ops = Ok h ->
  1 <= bs /\ h_bin_size h = bs /\ holds bs (values_of ops) (h_bins h).
Proof.
  intros bs h0 ops h E N R. unfold hist_new in E.
  destruct (Z.leb_spec 1 bs) as [B|]; [|discriminate]. cbn [expects bind] in E.
  injection E as <-.
  destruct (run_holds ops {| h_bin_size := bs; h_bins := [] |} [] bs B N eq_refl (holds_nil bs))
    as (h' & R' & E' & H'). rewrite R in R'. injection R' as <-. auto.
Qed.

Lemma new_run_total : forall bs ops, 1 <= bs -> natural_values ops ->
  exists h0 h, hist_new bs = Ok h0 /\ hist_run h0 ops = Ok h.
Proof.
  intros bs ops B N. exists {| h_bin_size := bs; h_bins := [] |}.
  destruct (run_holds ops {| h_bin_size := bs; h_bins := [] |} [] bs B N eq_refl (holds_nil bs))
    as (h' & R' & _).
  exists h'. split; [|exact R']. unfold hist_new. destruct (Z.leb_spec 1 bs); [reflexivity|lia].
Qed.

(** ** Iteration *)

Definition readable (h : histogram) : Prop :=
  1 <= h_bin_size h /\ Forall (fun v => 0 <= fst v /\ 0 < snd v) (h_bins h).

Lemma holds_readable : forall bs vs h, 1 <= bs -> h_bin_size h = bs ->
  holds bs vs (h_bins h) -> readable h.
Proof.
  intros bs vs h B E [_ C _ _]. split; [lia|]. eapply Forall_impl; [|exact C]. cbn. lia.
Qed.

Lemma deref_at : forall h i, readable h ->
  iter_deref h i = at_index (map (make_bin (h_bin_size h)) (h_bins h)) i.
Proof.
  intros h i [B F]. unfold iter_deref, at_index.
  destruct (Z.leb_spec 1 (h_bin_size h)); [|lia]. cbn [expects bind].
  rewrite nth_error_map. destruct (nth_error (h_bins h) i) as [v|] eqn:E; [|reflexivity].
  cbn [option_map bind]. rewrite Forall_forall in F. destruct (F v (nth_error_In _ _ E)) as [F1 F2].
  unfold to_bin. destruct (Z.leb_spec 0 (fst v)); [|lia].
  destruct (Z.leb_spec 0 (snd v)); [|lia]. destruct (Z.leb_spec 1 (h_bin_size h)); [|lia].
  reflexivity.
Qed.

Lemma skipn_nth : forall A (l : list A) i b, nth_error l i = Some b ->
  skipn i l = b :: skipn (S i) l.
Proof.
  induction l as [|x l IH]; intros [|i] b E; cbn in E; try discriminate.
  - injection E as ->. reflexivity.
  - cbn [skipn]. rewrite (IH i b E). reflexivity.
Qed.

Lemma iterate_map : forall h, readable h ->
  hist_iterate h = Ok (map (make_bin (h_bin_size h)) (h_bins h)).
Proof.
  intros h R. unfold hist_iterate, hist_size.
  assert (G : forall n pos, (pos + n = length (h_bins h))%nat ->
    iterate_from h pos n = Ok (skipn pos (map (make_bin (h_bin_size h)) (h_bins h)))).
  { induction n as [|n IH]; intros pos E; cbn [iterate_from].
    - rewrite skipn_all2; [reflexivity|]. rewrite map_length. lia.
    - rewrite deref_at by exact R. unfold at_index.
      destruct (nth_error (map (make_bin (h_bin_size h)) (h_bins h)) pos) as [b|] eqn:Q.
      + cbn [bind]. rewrite IH by lia. cbn [bind]. f_equal.
        symmetry. apply skipn_nth, Q.
      + apply nth_error_None in Q. rewrite map_length in Q. lia. }
  rewrite G by lia. reflexivity.
Qed.

Lemma hist_at_map : forall h i, readable h -> h_bins h <> [] ->
  hist_at h i = at_index (map (make_bin (h_bin_size h)) (h_bins h)) i.
Proof.
  intros h i R NE. unfold hist_at, hist_empty. destruct (h_bins h) eqn:E; [congruence|].
  cbn [negb expects bind]. rewrite deref_at by exact R. rewrite E. reflexivity.
Qed.

(** ** Uniqueness *)

Lemma sorted_unique : forall a b : list Z, StronglySorted Z.lt a -> StronglySorted Z.lt b ->
  (forall x, In x a <-> In x b) -> a = b.
Proof.
  induction a as [|x a IH]; intros b Sa Sb E.
  - destruct b as [|y b]; [reflexivity|]. destruct (proj2 (E y) (or_introl eq_refl)).
  - destruct b as [|y b]; [destruct (proj1 (E x) (or_introl eq_refl))|].
    inversion Sa as [|? ? Sa1 Sa2]; subst. inversion Sb as [|? ? Sb1 Sb2]; subst.
    rewrite Forall_forall in Sa2, Sb2.
    assert (x = y).
    { destruct (proj1 (E x) (or_introl eq_refl)) as [->|Hx]; [reflexivity|].
      destruct (proj2 (E y) (or_introl eq_refl)) as [->|Hy]; [reflexivity|].
      specialize (Sa2 _ Hy). specialize (Sb2 _ Hx). lia. }
    subst y. f_equal. apply IH; auto. intro z. split; intro Hz.
    + destruct (proj1 (E z) (or_intror Hz)) as [<-|Q]; [|exact Q].
      specialize (Sa2 _ Hz). lia.
    + destruct (proj2 (E z) (or_intror Hz)) as [<-|Q]; [|exact Q].
      specialize (Sb2 _ Hz). lia.
Qed.

Lemma how_many_perm : forall P a b, Permutation a b -> how_many P a = how_many P b.
Proof.
  intros P a b H. unfold how_many. f_equal. induction H; cbn [filter].
  - reflexivity.
  - destruct (P x); cbn [length]; lia.
  - destruct (P x), (P y); cbn [length]; lia.
  - congruence.
Qed.

Lemma how_many_witness : forall P vs, 0 < how_many P vs -> exists x, In x vs /\ P x = true.
Proof.
  intros P vs H. unfold how_many in H. destruct (filter P vs) as [|x l] eqn:E; [cbn in H; lia|].
  exists x. apply filter_In. rewrite E. left. reflexivity.
Qed.

Lemma holds_unique : forall bs a b la lb, holds bs a la -> holds bs b lb -> Permutation a b ->
  la = lb.
Proof.
  intros bs a b la lb [Sa Ca Ka _] [Sb Cb Kb _] P.
  rewrite Forall_forall in Ca, Ka, Cb, Kb.
  assert (E : map fst la = map fst lb).
  { apply sorted_unique; auto. intro k. split; intro H; apply in_map_iff in H;
      destruct H as (w & <- & H).
    - destruct (Ca w H) as (_ & A & B). rewrite B in A.
      destruct (how_many_witness _ _ A) as (x & Hx & Q). apply Z.eqb_eq in Q. rewrite <- Q.
      apply Kb. eapply Permutation_in; eauto.
    - destruct (Cb w H) as (_ & A & B). rewrite B in A.
      destruct (how_many_witness _ _ A) as (x & Hx & Q). apply Z.eqb_eq in Q. rewrite <- Q.
      apply Ka. eapply Permutation_in; [|exact Hx]. apply Permutation_sym, P. }
  assert (F : forall vs l, (forall v, In v l -> 0 <= fst v /\ 0 < snd v /\
      snd v = how_many (fun x => Z.quot x bs =? fst v) vs) ->
      l = map (fun k => (k, how_many (fun x => Z.quot x bs =? k) vs)) (map fst l)).
  { intros vs l H. rewrite map_map. rewrite <- (map_id l) at 1. apply map_ext_in.
    intros [k n] Hv. destruct (H _ Hv) as (_ & _ & Q). cbn [fst snd] in *. rewrite Q. reflexivity. }
  rewrite (F a la Ca), (F b lb Cb), E. apply map_ext. intro k.
  rewrite (how_many_perm _ _ _ P). reflexivity.
Qed.

(** ** Bins in terms of values *)

Lemma quot_in_bin : forall bs k v, 1 <= bs -> 0 <= v ->
  Z.quot v bs = k <-> k * bs <= v < k * bs + bs.
Proof.
  intros bs k v B V. rewrite Z.quot_div_nonneg by lia. split.
  - intro E. subst k. pose proof (Z.div_mod v bs). pose proof (Z.mod_pos_bound v bs). lia.
  - intro H. symmetry. apply Z.div_unique with (r := v - k * bs); lia.
Qed.

Lemma how_many_ext : forall P Q vs, (forall x, In x vs -> P x = Q x) ->
  how_many P vs = how_many Q vs.
Proof.
  intros P Q vs H. unfold how_many. f_equal. f_equal. apply filter_ext_in, H.
Qed.
