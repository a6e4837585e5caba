(** * Property theorems C76, C77: iterators and checked arithmetic of the
      histogram *)

From Coq Require Import List ZArith Reals Bool Arith Lia Sorted.
From Flocq Require Import Core BinarySingleNaN.
From Verif Require Import Base F32 HistogramModel HistogramSpec HistogramProofs HistogramProps
  ScheduleModel SimulationModel SimulationSpec SimulationProps StoppingSpec StoppingProps IteratorModel IteratorSpec.
Import ListNotations.
Local Open Scope Z_scope.

(** ** C76 *)

Definition placed (h : histogram) (a : iter) : Prop :=
  0 <= it_pos a <= Z.of_nat (hist_size h) /\ it_bin a = h_bin_size h.

Lemma make_cases : forall h p s, 1 <= s ->
  (0 <= p <= Z.of_nat (hist_size h) -> iter_make h p s = Ok {| it_pos := p; it_bin := s |}) /\
  (~ 0 <= p <= Z.of_nat (hist_size h) -> iter_make h p s = Broken).
Proof.
  intros h p s S. unfold iter_make.
  destruct (Z.leb_spec 0 p), (Z.leb_spec p (Z.of_nat (hist_size h))), (Z.leb_spec 1 s); cbn; split; intro; auto; lia.
Qed.

Lemma move_cases : forall h a d,
  (0 <= it_pos a + d <= Z.of_nat (hist_size h) ->
     iter_move h a d = Ok {| it_pos := it_pos a + d; it_bin := it_bin a |}) /\
  (~ 0 <= it_pos a + d <= Z.of_nat (hist_size h) -> iter_move h a d = Broken).
Proof.
  intros h a d. unfold iter_move.
  destruct (Z.leb_spec 0 (it_pos a + d)), (Z.leb_spec (it_pos a + d) (Z.of_nat (hist_size h))); cbn; split; intro; auto; lia.
Qed.

Lemma make_placed : forall h p a, 1 <= h_bin_size h -> iter_make h p (h_bin_size h) = Ok a -> placed h a.
Proof.
  intros h p a S E. unfold iter_make in E. destruct (Z.leb_spec 0 p); [|discriminate E].
  destruct (Z.leb_spec p (Z.of_nat (hist_size h))); [|discriminate E]. cbn [andb expects bind] in E.
  destruct (1 <=? h_bin_size h); [|discriminate E]. cbn in E. injection E as <-. split; cbn; [lia|reflexivity].
Qed.

Lemma move_placed : forall h a d b, placed h a -> iter_move h a d = Ok b -> placed h b.
Proof.
  intros h a d b [_ B] E. unfold iter_move in E.
  destruct (Z.leb_spec 0 (it_pos a + d)); [|discriminate E].
  destruct (Z.leb_spec (it_pos a + d) (Z.of_nat (hist_size h))); [|discriminate E].
  cbn in E. injection E as <-. split; cbn; [lia|exact B].
Qed.

Lemma post_placed : forall h a d x, 1 <= h_bin_size h -> placed h a ->
  (it' <- iter_move h a d ;; old <- iter_make h (it_pos a) (it_bin a) ;; Ok (old, it')) = Ok x ->
  placed h (fst x) /\ placed h (snd x).
Proof.
  intros h a d x S P E. destruct (iter_move h a d) as [c| |] eqn:M; try discriminate E. cbn [bind] in E.
  destruct (iter_make h (it_pos a) (it_bin a)) as [b| |] eqn:K; try discriminate E. cbn in E. injection E as <-.
  split; cbn [fst snd]; [|exact (move_placed _ _ _ _ P M)]. destruct P as [_ B]. rewrite B in K.
  exact (make_placed _ _ _ S K).
Qed.

Lemma obtained_placed : forall h a, 1 <= h_bin_size h -> obtained h a -> placed h a.
Proof.
  intros h a S O. induction O as [a E|a E|a b O IH E|a b O IH E|a b c O IH E|a b c O IH E|a b c O IH E
    |a b c O IH E|a i b O IH E|a i b O IH E|a i b O IH E|a i b O IH E|a i b O IH E|a i b O IH E].
  - exact (make_placed _ _ _ S E).
  - exact (make_placed _ _ _ S E).
  - exact (move_placed _ _ _ _ IH E).
  - exact (move_placed _ _ _ _ IH E).
  - exact (proj1 (post_placed h a 1 (b, c) S IH E)).
  - exact (proj2 (post_placed h a 1 (b, c) S IH E)).
  - exact (proj1 (post_placed h a (-1) (b, c) S IH E)).
  - exact (proj2 (post_placed h a (-1) (b, c) S IH E)).
  - unfold iter_plus in E. rewrite (proj2 IH) in E. exact (make_placed _ _ _ S E).
  - unfold iter_plus_left, iter_plus in E. rewrite (proj2 IH) in E. exact (make_placed _ _ _ S E).
  - unfold iter_minus in E. rewrite (proj2 IH) in E. exact (make_placed _ _ _ S E).
  - unfold iter_minus_left, iter_minus in E. rewrite (proj2 IH) in E. exact (make_placed _ _ _ S E).
  - exact (move_placed _ _ _ _ IH E).
  - exact (move_placed _ _ _ _ IH E).
Qed.

Lemma get_bin : forall h p, readable h ->
  (_ <- expects (0 <=? p) ;; v <- at_index (h_bins h) (Z.to_nat p) ;; to_bin (h_bin_size h) v) =
  match bin_at (map (make_bin (h_bin_size h)) (h_bins h)) p with Some b => Ok b | None => Broken end.
Proof.
  intros h p R. unfold bin_at. destruct (Z.leb_spec 0 p), (Z.ltb_spec p 0); try lia; cbn [expects bind]; [|reflexivity].
  pose proof (deref_at h (Z.to_nat p) R) as D. unfold iter_deref in D.
  destruct R as [S _]. destruct (Z.leb_spec 1 (h_bin_size h)); [|lia]. cbn [expects bind] in D. rewrite D.
  unfold at_index. destruct (nth_error _ _); reflexivity.
Qed.

(** C76: the iterators that can be obtained from a histogram are positions
    in the list of its bins; every operation fails exactly if it would leave
    the range (for reading: if there is no bin), the comparison is the order
    of the positions and of the bins, and the postfix forms return the old
    value. *)
Theorem iterators_are_positions : forall bs ops h bins, used bs ops h -> hist_iterate h = Ok bins ->
  exists pos : iter -> Z,
    let n := Z.of_nat (length bins) in
    (exists a, iter_begin h = Ok a /\ pos a = 0) /\
    (exists a, iter_end h = Ok a /\ pos a = n) /\
    forall a, obtained h a ->
      0 <= pos a <= n /\
      moves pos n 1 a (iter_inc h a) /\ moves pos n (-1) a (iter_dec h a) /\
      (forall i, moves pos n i a (iter_plus h a i) /\ moves pos n i a (iter_plus_left h i a) /\
                 moves pos n i a (iter_add h a i) /\
                 moves pos n (- i) a (iter_minus h a i) /\ moves pos n (- i) a (iter_sub h a i)) /\
      (forall b, iter_inc h a = Ok b -> iter_post_inc h a = Ok (a, b)) /\
      (forall b, iter_dec h a = Ok b -> iter_post_dec h a = Ok (a, b)) /\
      (forall b, iter_get h a = Ok b <-> bin_at bins (pos a) = Some b) /\
      (forall i b, iter_at h a i = Ok b <-> bin_at bins (pos a + i) = Some b) /\
      forall b, obtained h b ->
        iter_diff a b = pos a - pos b /\ (iter_eqb a b = true <-> a = b) /\ (pos a = pos b -> a = b) /\
        iter_compare a b = (pos a ?= pos b) /\
        forall x y, iter_get h a = Ok x -> iter_get h b = Ok y ->
          (iter_compare a b = Lt <-> b_low x < b_low y).
Proof.
  intros bs ops h bins U I. destruct (used_holds bs ops h U) as (B & E & H & R).
  destruct (histogram_iteration bs ops h U) as (bins' & I' & SS & _). rewrite I in I'. injection I' as <-.
  rewrite iterate_map in I by exact R. injection I as I.
  assert (L : Z.of_nat (length bins) = Z.of_nat (hist_size h)).
  { rewrite <- I, map_length. reflexivity. }
  assert (S : 1 <= h_bin_size h) by lia.
  exists it_pos. cbv zeta. rewrite L. split; [|split].
  { eexists. split; [apply make_cases; lia|reflexivity]. }
  { eexists. split; [apply make_cases; lia|reflexivity]. }
  intros a O. destruct (obtained_placed h a S O) as [P BA].
  assert (MV : forall d, moves it_pos (Z.of_nat (hist_size h)) d a (iter_move h a d)).
  { intro d. destruct (move_cases h a d) as [M1 M2]. split; [|exact M2].
    intro X. eexists. split; [apply M1, X|reflexivity]. }
  assert (MK : forall d, moves it_pos (Z.of_nat (hist_size h)) d a (iter_make h (it_pos a + d) (it_bin a))).
  { intro d. rewrite BA. destruct (make_cases h (it_pos a + d) (h_bin_size h) S) as [M1 M2]. split; [|exact M2].
    intro X. eexists. split; [apply M1, X|reflexivity]. }
  assert (OLD : iter_make h (it_pos a) (it_bin a) = Ok a).
  { rewrite BA. destruct (make_cases h (it_pos a) (h_bin_size h) S) as [M1 _]. rewrite M1 by exact P.
    destruct a as [p s]. cbn in BA |- *. rewrite BA. reflexivity. }
  assert (GET : forall c, placed h c -> forall x, iter_get h c = Ok x <-> bin_at bins (it_pos c) = Some x).
  { intros c [_ BC] x. unfold iter_get. rewrite BC, (get_bin h (it_pos c) R), I.
    destruct (bin_at bins (it_pos c)); split; intro X; try discriminate X; injection X as ->; reflexivity. }
  split; [exact P|]. split; [apply MV|]. split; [apply MV|]. split.
  { intro i. split; [apply MK|]. split; [apply MK|]. split; [apply MV|]. split; [|apply MV].
    unfold iter_minus. rewrite <- Z.add_opp_r. apply MK. }
  split. { intros b X. unfold iter_post_inc. unfold iter_inc in X. rewrite X. cbn [bind]. rewrite OLD. reflexivity. }
  split. { intros b X. unfold iter_post_dec. unfold iter_dec in X. rewrite X. cbn [bind]. rewrite OLD. reflexivity. }
  split; [apply GET; split; assumption|]. split.
  { intros i b. unfold iter_at. rewrite BA, (get_bin h (it_pos a + i) R), I.
    destruct (bin_at bins (it_pos a + i)); split; intro X; try discriminate X; injection X as ->; reflexivity. }
  intros b OB. destruct (obtained_placed h b S OB) as [PB BB].
  assert (INJ : it_pos a = it_pos b -> a = b).
  { destruct a, b. cbn in *. intros ->. congruence. }
  assert (CMP : iter_compare a b = (it_pos a ?= it_pos b)).
  { unfold iter_compare. destruct (Z.eqb_spec (it_pos a) (it_pos b)) as [X|X].
    - symmetry. apply Z.compare_eq_iff, X.
    - destruct (Z.ltb_spec (it_pos a) (it_pos b)); symmetry.
      + apply Z.compare_lt_iff. assumption.
      + apply Z.compare_gt_iff. lia. }
  split; [reflexivity|]. split; [|split; [exact INJ|split; [exact CMP|]]].
  { unfold iter_eqb. rewrite andb_true_iff, !Z.eqb_eq. split; [intros [X _]; auto|intros ->; auto]. }
  intros x y GX GY. apply (GET a (conj P BA)) in GX. apply (GET b (conj PB BB)) in GY. rewrite CMP.
  unfold bin_at in GX, GY. destruct (Z.ltb_spec (it_pos a) 0); [lia|]. destruct (Z.ltb_spec (it_pos b) 0); [lia|].
  assert (ORD : forall i j u v, (i < j)%nat -> nth_error bins i = Some u -> nth_error bins j = Some v -> b_low u < b_low v).
  { clear - SS. induction SS as [|w l SS IH F]; intros i j u v LT X Y; [destruct i; discriminate X|].
    destruct j as [|j]; [lia|]. cbn in Y. destruct i as [|i].
    - cbn in X. injection X as <-. rewrite Forall_forall in F. apply F, (nth_error_In _ _ Y).
    - cbn in X. apply (IH i j); auto. lia. }
  split.
  - intro X. change (it_pos a < it_pos b) in X. apply (ORD (Z.to_nat (it_pos a)) (Z.to_nat (it_pos b)) x y); [apply Z2Nat.inj_lt; lia|exact GX|exact GY].
  - intro X. change (it_pos a < it_pos b). destruct (Z.lt_trichotomy (it_pos a) (it_pos b)) as [T|[T|T]]; [exact T|..].
    + rewrite T in GX. rewrite GX in GY. injection GY as ->. lia.
    + assert (b_low y < b_low x) by (apply (ORD (Z.to_nat (it_pos b)) (Z.to_nat (it_pos a)) y x); [apply Z2Nat.inj_lt; lia|exact GY|exact GX]). lia.
Qed.
Print Assumptions iterators_are_positions.

(** C76: loops from begin to end see every bin once, in order; loops from
    end to begin see them in the opposite order.  Fuel for one round per
    bin suffices. *)
Theorem loops_see_all_bins : forall bs ops h bins, used bs ops h -> hist_iterate h = Ok bins ->
  exists first last, iter_begin h = Ok first /\ iter_end h = Ok last /\
    walk (length bins) h first last = Ok bins /\ walk_back (length bins) h last first = Ok (rev bins).
Proof.
  intros bs ops h bins U I. destruct (used_holds bs ops h U) as (B & E & _ & R).
  rewrite iterate_map in I by exact R. injection I as I.
  assert (L : length bins = hist_size h) by (rewrite <- I, map_length; reflexivity).
  assert (S : 1 <= h_bin_size h) by lia.
  set (it p := {| it_pos := Z.of_nat p; it_bin := h_bin_size h |}).
  assert (GET : forall p, iter_get h (it p) = match nth_error bins p with Some b => Ok b | None => Broken end).
  { intro p. unfold iter_get, it. cbn [it_pos it_bin]. rewrite (get_bin h (Z.of_nat p) R), I. unfold bin_at.
    destruct (Z.ltb_spec (Z.of_nat p) 0); [lia|]. rewrite Nat2Z.id. reflexivity. }
  assert (EQ : forall p q, iter_eqb (it p) (it q) = (p =? q)%nat).
  { intros p q. unfold iter_eqb, it. cbn [it_pos it_bin]. rewrite Z.eqb_refl, andb_true_r.
    destruct (Nat.eqb_spec p q) as [->|X]; [apply Z.eqb_refl|]. apply Z.eqb_neq. lia. }
  exists (it 0%nat), (it (hist_size h)). split; [apply make_cases; lia|]. split; [apply make_cases; lia|]. split.
  - assert (G : forall n p, (p + n = hist_size h)%nat -> walk n h (it p) (it (hist_size h)) = Ok (skipn p bins)).
    { induction n as [|n IH]; intros p X; cbn [walk]; rewrite EQ.
      - replace p with (hist_size h) by lia. rewrite Nat.eqb_refl, skipn_all2 by lia. reflexivity.
      - destruct (Nat.eqb_spec p (hist_size h)) as [Y|Y]; [lia|]. rewrite GET.
        destruct (nth_error bins p) as [b|] eqn:N; [|apply nth_error_None in N; lia]. cbn [bind].
        unfold iter_inc. rewrite (proj1 (move_cases h (it p) 1)) by (cbn [it it_pos]; lia). cbn [bind it it_pos it_bin].
        replace {| it_pos := Z.of_nat p + 1; it_bin := h_bin_size h |} with (it (Datatypes.S p))
          by (unfold it; f_equal; lia).
        rewrite IH by lia. cbn [bind]. rewrite <- (skipn_nth _ _ _ _ N). reflexivity. }
    rewrite L. rewrite (G (hist_size h) 0%nat) by lia. reflexivity.
  - assert (G : forall n, (n <= hist_size h)%nat -> walk_back n h (it n) (it 0%nat) = Ok (rev (firstn n bins))).
    { induction n as [|n IH]; intro X; cbn [walk_back]; rewrite EQ; [reflexivity|]. cbn [Nat.eqb].
      unfold iter_dec. rewrite (proj1 (move_cases h (it (Datatypes.S n)) (-1))) by (cbn [it it_pos]; lia).
      cbn [bind it it_pos it_bin].
      replace {| it_pos := Z.of_nat (Datatypes.S n) + -1; it_bin := h_bin_size h |} with (it n)
        by (unfold it; f_equal; lia).
      rewrite GET. destruct (nth_error bins n) as [b|] eqn:N; [|apply nth_error_None in N; lia]. cbn [bind].
      rewrite IH by lia. cbn [bind].
      assert (F : firstn (Datatypes.S n) bins = firstn n bins ++ [b]).
      { clear - N. revert bins N. induction n as [|n IH]; intros [|c l] N; try discriminate N.
        - cbn in N. injection N as ->. reflexivity.
        - cbn in N. cbn [firstn app]. f_equal. apply (IH l N). }
      rewrite F, rev_app_distr. reflexivity. }
    rewrite L. rewrite (G (hist_size h)) by lia. rewrite <- L, firstn_all. reflexivity.
Qed.
Print Assumptions loops_see_all_bins.

(** The odd one out, [i - it]: it means [it - i]. *)
Theorem minus_left_is_minus : forall h i a, iter_minus_left h i a = iter_minus h a i.
Proof. reflexivity. Qed.
Print Assumptions minus_left_is_minus.

Example ex_iterators : exists h, used 40 [Add 200; Add 80; Add 45; Add 1; Add 80; Add 43; Add 45; Add 44] h /\
  hist_size h = 4%nat /\ exists a b, iter_end h = Ok a /\ iter_minus h a 2 = Ok b /\
  iter_at h b 1 = Ok {| b_count := 1; b_low := 200; b_middle := 220; b_high := 240 |} /\
  iter_at h b 2 = Broken.
Proof.
  eexists. split; [eexists; split; reflexivity|]. split; [reflexivity|]. eexists. eexists.
  split; [reflexivity|]. split; [reflexivity|]. split; reflexivity.
Qed.

(** ** C77 *)

Lemma safe_ok : forall z, - 2 ^ 63 <= z < 2 ^ 63 -> safe z = Ok z.
Proof.
  intros z H. unfold safe. destruct (Z.leb_spec (- 2 ^ 63) z); [|lia]. destruct (Z.ltb_spec z (2 ^ 63)); [|lia]. reflexivity.
Qed.

Lemma quot_small : forall v bs, 1 <= bs -> 0 <= v -> 0 <= Z.quot v bs <= v.
Proof.
  intros v bs B V. rewrite Z.quot_div_nonneg by lia. split; [apply Z.div_pos; lia|].
  apply Z.div_le_upper_bound; nia.
Qed.

Lemma bump_safe : forall k l, Forall (fun p => snd p < 2 ^ 63 - 1 /\ 0 <= snd p) l ->
  bins_bump_safe k l = Ok (bins_bump k l).
Proof.
  intros k l. induction 1 as [|[k' n] l [F F0] _ IH]; [reflexivity|]. cbn [bins_bump_safe bins_bump].
  destruct (k <? k'); [reflexivity|]. destruct (k' <? k); [rewrite IH; reflexivity|].
  cbn [snd] in F, F0. rewrite safe_ok by lia. reflexivity.
Qed.

Lemma holds_counts : forall bs vs l, holds bs vs l ->
  Forall (fun p => 0 <= snd p <= Z.of_nat (length vs)) l.
Proof.
  intros bs vs l H. destruct H as [S C K T]. rewrite Forall_forall in *. intros [k n] I. destruct (C _ I) as (_ & _ & E).
  cbn in *. rewrite E. unfold how_many. split; [lia|]. apply inj_le.
  clear. induction vs as [|v vs IH]; cbn; [lia|]. destruct (_ =? _); cbn; lia.
Qed.

Lemma add_safe : forall h v vs, 1 <= h_bin_size h -> holds (h_bin_size h) vs (h_bins h) ->
  0 <= v < 2 ^ 63 -> Z.of_nat (length vs) < 2 ^ 63 - 1 -> hist_add_safe h v = hist_add h v.
Proof.
  intros h v vs B H V N. unfold hist_add_safe, hist_add.
  destruct (Z.leb_spec 1 (h_bin_size h)); [|lia]. destruct (Z.leb_spec 0 v); [|lia]. cbn [expects bind].
  pose proof (quot_small v (h_bin_size h) B ltac:(lia)) as Q. rewrite safe_ok by lia. cbn [bind].
  rewrite bump_safe; [reflexivity|]. pose proof (holds_counts _ _ _ H) as C. rewrite Forall_forall in *.
  intros p I. specialize (C p I). cbn beta in C. lia.
Qed.

Lemma run_safe : forall ops h vs, 1 <= h_bin_size h -> holds (h_bin_size h) vs (h_bins h) ->
  fitting_values (h_bin_size h) ops -> Z.of_nat (length vs + length ops) < 2 ^ 63 -> hist_run_safe h ops = hist_run h ops.
Proof.
  induction ops as [|x ops IH]; intros h vs B H M N; [reflexivity|]. inversion M as [|x' l M1 M2]; subst.
  cbn [hist_run hist_run_safe length] in *. destruct x as [v|]; cbn [hist_step].
  - destruct M1 as [V0 V1].
    assert (v < 2 ^ 63) by (pose proof (Z.mod_pos_bound v (h_bin_size h)); pose proof (Z.div_mod v (h_bin_size h)); nia).
    rewrite (add_safe h v vs B H) by lia.
    unfold hist_add. destruct (Z.leb_spec 1 (h_bin_size h)); [|lia]. destruct (Z.leb_spec 0 v); [|lia]. cbn [expects bind].
    apply (IH _ (vs ++ [v])); cbn [h_bin_size h_bins]; auto.
    + apply holds_add; auto; lia.
    + rewrite app_length. cbn [length]. lia.
  - cbn [bind]. apply (IH _ []); auto; [apply holds_nil|cbn [length]; lia].
Qed.

Lemma bin_safe : forall bs k n, 1 <= bs -> 0 <= k -> 0 <= n -> (k + 1) * bs < 2 ^ 63 ->
  to_bin_safe bs (k, n) = Ok (make_bin bs (k, n)).
Proof.
  intros bs k n B K N F. unfold to_bin_safe, make_bin. cbn [fst snd].
  destruct (Z.leb_spec 0 k); [|lia]. destruct (Z.leb_spec 0 n); [|lia]. destruct (Z.leb_spec 1 bs); [|lia].
  cbn [expects bind]. assert (0 <= k * bs) by nia. rewrite safe_ok by lia. cbn [bind].
  assert (Q : 0 <= Z.quot bs 2 <= bs). { rewrite Z.quot_div_nonneg by lia. split; [apply Z.div_pos; lia|apply Z.div_le_upper_bound; lia]. }
  rewrite safe_ok by lia. cbn [bind]. rewrite safe_ok by lia. cbn [bind]. rewrite safe_ok by lia. reflexivity.
Qed.

(** C77, for any use of a histogram: with fewer than 2^63 values whose bins
    end below 2^63 no operation overflows, and the results are those of the
    exact arithmetic. *)
Theorem histogram_operations_fit : forall bs ops h bins, used bs ops h -> hist_iterate h = Ok bins ->
  fitting_values bs ops -> Z.of_nat (length ops) < 2 ^ 63 ->
  (exists h0, hist_new bs = Ok h0 /\ hist_run_safe h0 ops = Ok h) /\
  read_bins_safe bs (h_bins h) = Ok bins.
Proof.
  intros bs ops h bins U I M N. destruct (used_holds bs ops h U) as (B & E & H & R).
  rewrite iterate_map in I by exact R. injection I as <-. split.
  - destruct U as (h0 & N0 & RUN). exists h0. split; [exact N0|]. rewrite <- RUN.
    unfold hist_new in N0. destruct (Z.leb_spec 1 bs); [|discriminate N0]. cbn in N0. injection N0 as <-.
    apply (run_safe ops _ []); cbn [h_bin_size h_bins length]; [lia|apply holds_nil|exact M|exact N].
  - rewrite E. destruct H as [S C K T].
    assert (V : Forall (fun v => 0 <= v /\ (v / bs + 1) * bs < 2 ^ 63) (values_of ops)).
    { unfold values_of. assert (G : forall l acc, fitting_values bs l -> Forall (fun v => 0 <= v /\ (v / bs + 1) * bs < 2 ^ 63) acc ->
        Forall (fun v => 0 <= v /\ (v / bs + 1) * bs < 2 ^ 63)
          (fold_left (fun vs x => match x with Add v => vs ++ [v] | Clear => [] end) l acc)).
      { induction l as [|x l IH]; intros acc ML A; [exact A|]. inversion ML as [|x' l' M1 M2]; subst. cbn [fold_left].
        apply IH; [exact M2|]. destruct x; [|constructor]. apply Forall_app. split; [exact A|]. constructor; auto. }
      apply G; [exact M|constructor]. }
    assert (F : Forall (fun p => 0 <= fst p /\ 0 <= snd p /\ (fst p + 1) * bs < 2 ^ 63) (h_bins h)).
    { rewrite Forall_forall in *. intros [k n] P. destruct (C _ P) as (C1 & C2 & C3). cbn [fst snd] in *.
      split; [exact C1|]. split; [lia|].
      destruct (how_many_witness (fun x => Z.quot x bs =? k) (values_of ops)) as (x & IX & QX); [lia|].
      apply Z.eqb_eq in QX. destruct (V x IX) as [V1 V2]. rewrite Z.quot_div_nonneg in QX by lia.
      rewrite QX in V2. exact V2. }
    clear - F B. induction F as [|[k n] l (F1 & F2 & F3) _ IH]; [reflexivity|]. cbn [fst snd] in *.
    cbn [read_bins_safe]. rewrite bin_safe by lia. cbn [bind]. rewrite IH. reflexivity.
Qed.
Print Assumptions histogram_operations_fit.

Example ex_fits : exists h bins, used 40 [Add 200; Clear; Add 80; Add 45] h /\ hist_iterate h = Ok bins /\
  fitting_values 40 [Add 200; Clear; Add 80; Add 45] /\ length bins = 2%nat.
Proof.
  eexists. eexists. split; [eexists; split; reflexivity|]. split; [reflexivity|]. split; [|reflexivity].
  constructor; [split; [lia|reflexivity]|]. constructor; [exact I|]. constructor; [split; [lia|reflexivity]|].
  constructor; [split; [lia|reflexivity]|]. constructor.
Qed.

(** The condition matters: the bin of this value ends above 2^63, and
    reading it throws. *)
Theorem large_value_overflows : exists bs v h, 1 <= bs /\ 0 <= v < 2 ^ 63 /\
  (exists h0, hist_new bs = Ok h0 /\ hist_run_safe h0 [Add v] = Ok h) /\ used bs [Add v] h /\
  read_bins_safe bs (h_bins h) = Broken.
Proof.
  exists 86400, (2 ^ 63 - 1024). eexists. split; [lia|]. split; [lia|].
  split; [eexists; split; [reflexivity|vm_compute; reflexivity]|].
  split; [eexists; split; [reflexivity|vm_compute; reflexivity]|]. vm_compute. reflexivity.
Qed.
Print Assumptions large_value_overflows.

(** A float below 2^63 is at most 2^63 - 2^39. *)
Lemma to_rep_gap : forall m z, to_rep m = Ok z -> z <= 2 ^ 63 - 2 ^ 39.
Proof.
  intros m z E. unfold to_rep, f_trunc in E. destruct (is_finite m) eqn:F; [|discriminate E].
  destruct ((- 2 ^ 63 <=? Btrunc m) && (Btrunc m <? 2 ^ 63)) eqn:B; [|discriminate E].
  cbn [expects bind] in E. injection E as <-. apply andb_true_iff in B. destruct B as [_ B]. apply Z.ltb_lt in B.
  destruct m as [s|s| |s mant e P]; try discriminate F; [cbn; lia|].
  assert (MB : Z.pos mant < 2 ^ 24).
  { pose proof P as P1. unfold SpecFloat.bounded in P1. apply andb_true_iff in P1. destruct P1 as [P1 _]. unfold SpecFloat.canonical_mantissa in P1.
    apply Zeq_bool_eq in P1. unfold SpecFloat.fexp in P1.
    pose proof (Digits.Zdigits_correct radix2 (Z.pos mant)) as [_ D]. rewrite <- Digits.Zpos_digits2_pos in D.
    cbn [Z.abs] in D. eapply Z.lt_le_trans; [exact D|].
    change (2 ^ 24) with (Zpower radix2 24). apply (Zpower_le radix2). lia. }
  set (m := B754_finite s mant e P) in *.
  assert (T : Btrunc m = Ztrunc (B2R m)).
  { apply eq_IZR. rewrite Btrunc_correct by exact f32_prec_lt_emax. rewrite round_FIX_IZR. reflexivity. }
  assert (V : B2R m = F2R (Float radix2 (cond_Zopp s (Z.pos mant)) e)) by reflexivity.
  destruct s.
  { assert (X : Btrunc m <= 0).
    { rewrite T, <- (Ztrunc_IZR 0). apply Ztrunc_le. rewrite V.
      apply F2R_le_0. cbn. lia. }
    lia. }
  cbn [cond_Zopp] in V. destruct (Z_lt_le_dec e 0) as [NE|PE].
  - assert (X : Btrunc m <= 2 ^ 24).
    { rewrite T, <- (Ztrunc_IZR (2 ^ 24)). apply Ztrunc_le. rewrite V. unfold F2R. cbn [Fnum Fexp].
      apply Rle_trans with (IZR (Z.pos mant) * 1)%R.
      - apply Rmult_le_compat_l; [apply IZR_le; lia|]. change 1%R with (bpow radix2 0). apply bpow_le. lia.
      - rewrite Rmult_1_r. apply IZR_le. lia. }
    lia.
  - assert (X : Btrunc m = Z.pos mant * 2 ^ e).
    { rewrite T, V. unfold F2R. cbn [Fnum Fexp]. rewrite <- (IZR_Zpower radix2 e PE), <- mult_IZR. apply Ztrunc_IZR. }
    rewrite X in *. destruct (Z_le_gt_dec e 39) as [L|L].
    + assert (2 ^ e <= 2 ^ 39) by (apply Z.pow_le_mono_r; lia). nia.
    + assert (W : 2 ^ e = 2 ^ 40 * 2 ^ (e - 40)) by (rewrite <- Z.pow_add_r by lia; f_equal; lia).
      set (y := Z.pos mant * 2 ^ (e - 40)).
      assert (Y : Z.pos mant * 2 ^ e = 2 ^ 40 * y) by (unfold y; rewrite W; ring). rewrite Y in *. lia.
Qed.

Lemma runs_values : forall p l draws zs rest, successive_runs p l draws zs rest ->
  Forall (fun z => z <= 2 ^ 63 - 2 ^ 39) zs.
Proof.
  intros p l draws zs rest R. induction R as [draws|draws s r zs rest S E R IH]; constructor; [|exact IH].
  unfold sim_run in E.
  repeat match type of E with
  | (bind (expects ?c) _) = _ => destruct c; [cbn [expects bind] in E|discriminate E]
  end.
  destruct (random_agent_performances _ _) as [a| |]; try discriminate E. cbn [bind] in E.
  destruct (random_task_durations _ _) as [b| |]; try discriminate E. cbn [bind] in E.
  destruct (sim_loop _ _) as [c| |]; try discriminate E. cbn [bind] in E.
  destruct (to_rep _) as [z| |] eqn:T; try discriminate E. cbn [bind] in E. injection E as <-.
  exact (to_rep_gap _ _ T).
Qed.

(** C77: in the program nothing overflows: the histogram that the
    simulation builds, with a bin size of the command line (an [int],
    cli/options.h:62) or a computed one, is the same with checked
    arithmetic, and so are its bins, as long as it holds fewer than 2^63
    runs. *)
Theorem histogram_fits : forall fuel ac p bs mk l draws h bins,
  make_histogram fuel ac p bs mk l draws = Ok h -> hist_iterate h = Ok bins ->
  (forall b, bs = Some b -> b < 2 ^ 31) -> fold_right Z.add 0 (map b_count bins) < 2 ^ 63 ->
  exists w zs rest h0, used w (map Add zs) h /\ successive_runs p l draws zs rest /\
    hist_new w = Ok h0 /\ hist_run_safe h0 (map Add zs) = Ok h /\ read_bins_safe w (h_bins h) = Ok bins.
Proof.
  intros fuel ac p bs mk l draws h bins M I BS N.
  destruct (histogram_of_runs fuel ac p bs mk l draws h M) as (w & zs & rest & k & U & R & _ & W1 & W2).
  pose proof (values_of_adds zs) as VZ.
  destruct (used_holds w (map Add zs) h U) as (B & _ & H & _).
  destruct (histogram_counts w (map Add zs) h U) as (bins' & I' & _ & _ & SUM). rewrite I in I'. injection I' as <-.
  rewrite VZ in SUM.
  assert (W : w < 2 ^ 31).
  { destruct bs as [b|]; [rewrite (W1 b eq_refl); apply (BS b eq_refl)|]. specialize (W2 eq_refl).
    unfold granularity in W2. destruct (1 <=? mk); [|discriminate W2]. cbn [expects bind] in W2.
    destruct (mk <? 5 * 3600); [injection W2 as <-; reflexivity|].
    destruct (mk <? 13 * 86400); injection W2 as <-; reflexivity. }
  assert (F : fitting_values w (map Add zs)).
  { unfold fitting_values. apply Forall_map. pose proof (runs_values _ _ _ _ _ R) as V.
    pose proof (ho_keys _ _ _ H) as K. rewrite VZ in K. rewrite Forall_forall in *. intros z Z0.
    specialize (V z Z0). destruct (K z Z0) as [K0 _]. split; [exact K0|].
    pose proof (Z.mul_div_le z w ltac:(lia)). lia. }
  destruct (histogram_operations_fit w (map Add zs) h bins U I F) as ((h0 & N0 & RS) & RB); [rewrite map_length; lia|].
  exists w, zs, rest, h0. auto.
Qed.
Print Assumptions histogram_fits.

(** The two batches of StoppingProps.v. *)
Example ex_histogram_fits : exists h bins, make_histogram 5 ex_last ex_certain None 45 [Item 0 0] [] = Ok h /\
  hist_iterate h = Ok bins /\ fold_right Z.add 0 (map b_count bins) = 20000.
Proof.
  destruct ex_stops as (h & E & _ & zs & U & L). exists h.
  destruct (histogram_counts 60 (map Add zs) h U) as (bins & I & _ & _ & S). exists bins.
  split; [exact E|]. split; [exact I|]. rewrite S, values_of_adds, L. unfold runs_of. lia.
Qed.
