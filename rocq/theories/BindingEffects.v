(** * Proofs about what commands do to optimizers in memory *)

From Coq Require Import List ZArith Bool Arith Lia.
From Verif Require Import Base F32 ProjectModel ScheduleModel MutatorModel MakespanModel TemperatureModel
  StunModel SearchSpec StunProofs OptimizerModel OptimizerSpec OptimizerProofs OptimizerSame
  BindingModel BindingSpec BindingProofs.
Import ListNotations.

Section Effects.
Context {G : Type} (gs : source G) (o : oracles).
Notation memory := (memory G).
Notation slot := (slot G).
Notation world := (world G).
Notation command := (@command G).

(** What holds after every successful command. *)
Record kept (w w' : world) (x : nat) : Prop := {
  kp_good : good w';
  kp_pointers : pointers_kept (w_memory w) (w_memory w');
  kp_objects : objects_kept w w';
  kp_others : others_kept w w' x
}.

Lemma own_new : forall a, own_parts a (new_pointers a a) /\ pt_random (new_pointers a a) = pt_mutator_random (new_pointers a a).
Proof. intro a. repeat split. Qed.

Lemma good_block_own : forall (w : world) b, good w -> block_own (w_memory w) b.
Proof. intros w b Gd i s C. apply (gd_parts w Gd (b, i) s C). Qed.

(** *** Update *)

Lemma update_effect : forall w x order w', good w -> execute gs o w (Update x order) = Ok w' ->
  kept w w' x /\ exists z ks z', value_of w x = Ok z /\ optimizer_update o z ks = Ok z' /\ value_of w' x = Ok z'.
Proof.
  intros w x order w' Gd H. cbn [execute] in H.
  apply bind_ok in H. destruct H as (ob & OB & H). apply object_ok in OB. ok_step H.
  apply bind_ok in H. destruct H as (l & B & H). apply block_ok in B. ok_step H. ok_step H.
  apply bind_ok in H. destruct H as (m1 & I & H). apply bind_ok in H. destruct H as (m2 & R & H).
  apply bind_ok in H. destruct H as (l2 & B2 & H). apply block_ok in B2.
  apply bind_ok in H. destruct H as (z' & F & H). injection H as <-.
  set (b := ob_block ob) in *.
  destruct (gd_live w Gd x ob OB) as (l0 & bt & B0 & FB). fold b in B0. rewrite B in B0. injection B0 as <-.
  assert (NE : l <> []) by (intros ->; discriminate).
  destruct (fair_spec l order bt X1 FB NE) as (BP & HI & HC).
  destruct (iterate_all_spec gs o order _ b m1 l (repeat 0 (length l)) I B (good_block_own w b Gd))
    as (ks & l1 & IL & B1 & S1 & P1 & O1); [apply repeat_length|].
  destruct (replicate_refines m1 b m2 l1 R B1) as (l2' & RR & M2 & L2 & N2).
  assert (Lb1 : b < length m1) by (apply nth_error_Some; congruence).
  assert (Lb : b < length (w_memory w)) by (apply nth_error_Some; congruence).
  assert (Lx : x < length (w_objects w)) by (apply nth_error_Some; congruence).
  rewrite M2, nth_set_same in B2 by exact Lb1. injection B2 as <-.
  pose proof (proj1 (interleaved_update o (map sl_job l) ks order (map sl_job l1) bt
    (proj2 (forall_map_batch bt l) FB) BP
    ltac:(rewrite map_length; exact HI) ltac:(rewrite map_length; exact HC)) ltac:(rewrite map_length; exact IL)) as U.
  assert (Z : optimizer_update o (with_jobs (ob_head ob) (map sl_job l)) ks = Ok z').
  { apply update_unfold with (map sl_job l1) (map sl_job l2'); auto.
    intro E. apply NE. destruct l; [reflexivity|discriminate]. }
  assert (JZ : oz_jobs z' = map sl_job l2') by (apply finish_jobs in F; exact F).
  set (w' := World m2 _).
  assert (PK : pointers_kept (w_memory w) m2).
  { intros a s' La C. destruct (Nat.eq_dec (fst a) b) as [E|E].
    - destruct a as [b' i]. cbn in E. subst b'.
      assert (B2 : nth_error m2 b = Some (Some l2')) by (rewrite M2; apply nth_set_same, Lb1).
      rewrite (cell_block _ _ _ _ B2) in C. destruct (N2 i s' C) as (s & Cs & _ & [->|E]); [left|right; exact E].
      specialize (P1 (b, i)). rewrite (cell_block _ _ _ _ B1), Cs in P1.
      destruct (cell (w_memory w) (b, i)) as [s0|]; [|discriminate]. cbn in P1. exists s0. split; congruence.
    - left. unfold cell in C. rewrite M2, nth_set_other in C by auto. fold (cell m1 a) in C.
      specialize (P1 a). rewrite C in P1.
      destruct (cell (w_memory w) a) as [s0|]; [|discriminate]. cbn in P1. exists s0. split; congruence. }
  assert (LM : length m2 = length (w_memory w)).
  { rewrite M2, set_nth_length. symmetry. apply same_sizes_length, S1. }
  assert (OK : objects_kept w w').
  { intros y ob' Ly E. cbn [w' w_objects] in E. destruct (Nat.eq_dec x y) as [<-|N].
    - rewrite nth_set_same in E by exact Lx. injection E as <-. exists ob. auto.
    - rewrite nth_set_other in E by exact N. exists ob'. auto. }
  assert (BLK : forall c lc, c <> b -> nth_error (w_memory w) c = Some (Some lc) ->
            exists lc', nth_error m2 c = Some (Some lc') /\ map sl_job lc' = map sl_job lc).
  { intros c lc N E. destruct (same_sizes_block _ _ _ _ S1 E) as (lc' & E' & _). exists lc'. split.
    - rewrite M2, nth_set_other by auto. exact E'.
    - apply (bones_jobs _ _ _ _ _ E E'). intro i. apply O1. cbn. exact N. }
  split; [split|].
  - split.
    + intros a s C. cbn [w' w_memory] in C.
      assert (La : fst a < length (w_memory w)).
      { rewrite <- LM. apply nth_error_Some. intro E. unfold cell in C. rewrite E in C. discriminate. }
      destruct (PK a s La C) as [(s0 & C0 & ->)| ->]; [apply (gd_parts w Gd a s0 C0)|apply own_new].
    + intros y oy E. cbn [w' w_objects w_memory] in *. destruct (Nat.eq_dec x y) as [<-|N].
      * rewrite nth_set_same in E by exact Lx. injection E as <-. cbn [ob_block]. exists l2', bt. split.
        -- rewrite M2. apply nth_set_same, Lb1.
        -- apply forall_map_batch. apply replicate_batch with (map sl_job l1); [|exact RR].
           apply update_jobs_batch with (3 := U) || eapply update_jobs_batch; [|exact U]. apply forall_map_batch, FB.
      * rewrite nth_set_other in E by exact N. destruct (gd_live w Gd y oy E) as (ly & by_ & E1 & E2).
        assert (NB : ob_block oy <> b).
        { intro EQ. apply N. apply (gd_distinct w Gd x y ob oy OB E). symmetry. exact EQ. }
        destruct (BLK _ _ NB E1) as (ly' & E3 & E4). exists ly', by_. split; [exact E3|].
        apply forall_map_batch. rewrite E4. apply forall_map_batch, E2.
    + intros y1 y2 o1 o2 E1 E2 EB.
      assert (L1 : y1 < length (w_objects w)).
      { rewrite <- (set_nth_length _ (w_objects w) x (Some {| ob_head := z'; ob_block := b |})). apply nth_error_Some. cbn in E1. congruence. }
      assert (L2' : y2 < length (w_objects w)).
      { rewrite <- (set_nth_length _ (w_objects w) x (Some {| ob_head := z'; ob_block := b |})). apply nth_error_Some. cbn in E2. congruence. }
      destruct (OK y1 o1 L1 E1) as (p1 & F1 & G1). destruct (OK y2 o2 L2' E2) as (p2 & F2 & G2).
      apply (gd_distinct w Gd y1 y2 p1 p2 F1 F2). congruence.
  - exact PK.
  - exact OK.
  - intros y Ly N. unfold value_of, object_at. cbn [w' w_objects w_memory].
    unfold at_index at 1. rewrite nth_set_other by auto. fold (at_index (w_objects w) y).
    destruct (at_index (w_objects w) y) as [[oy|]| |] eqn:E; try reflexivity. cbn [bind].
    apply at_index_ok in E. destruct (gd_live w Gd y oy E) as (ly & by_ & E1 & E2).
    assert (NB : ob_block oy <> b).
    { intro EQ. apply N. symmetry. apply (gd_distinct w Gd x y ob oy OB E). symmetry. exact EQ. }
    destruct (BLK _ _ NB E1) as (ly' & E3 & E4).
    apply block_ok in E1, E3. rewrite E1, E3. cbn [bind]. rewrite E4. reflexivity.
  - exists (with_jobs (ob_head ob) (map sl_job l)), ks, z'. split; [|split; [exact Z|]].
    + apply value_ok. exists ob, l. auto.
    + apply value_ok. exists {| ob_head := z'; ob_block := b |}, l2'. cbn [w' w_objects w_memory ob_block ob_head].
      split; [apply nth_set_same, Lx|]. split; [rewrite M2; apply nth_set_same, Lb1|].
      rewrite <- JZ. symmetry. apply with_jobs_id.
Qed.

(** *** Commands that change one vector in place *)

Lemma in_place : forall w x ob l l' h bt, good w -> nth_error (w_objects w) x = Some (Some ob) ->
  nth_error (w_memory w) (ob_block ob) = Some (Some l) -> length l' = length l ->
  (forall i s', nth_error l' i = Some s' ->
     (exists s, nth_error l i = Some s /\ sl_pointers s' = sl_pointers s) \/
     sl_pointers s' = new_pointers (ob_block ob, i) (ob_block ob, i)) ->
  Forall (fun s => jb_batch (sl_job s) = bt) l' ->
  let w' := World (set_nth (w_memory w) (ob_block ob) (Some l'))
              (set_nth (w_objects w) x (Some {| ob_head := h; ob_block := ob_block ob |})) in
  kept w w' x /\ value_of w' x = Ok (with_jobs h (map sl_job l')).
Proof.
  intros w x ob l l' h bt Gd OB B L P FB w'. set (b := ob_block ob) in *.
  assert (Lb : b < length (w_memory w)) by (apply nth_error_Some; congruence).
  assert (Lx : x < length (w_objects w)) by (apply nth_error_Some; congruence).
  assert (B' : nth_error (w_memory w') b = Some (Some l')) by (apply nth_set_same, Lb).
  assert (PK : pointers_kept (w_memory w) (w_memory w')).
  { intros [c i] s' La C. destruct (Nat.eq_dec c b) as [->|E].
    - rewrite (cell_block _ _ _ _ B') in C. rewrite (cell_block _ _ _ _ B). apply P, C.
    - left. unfold cell in C. cbn [w' w_memory fst snd] in C. rewrite nth_set_other in C by auto.
      exists s'. split; [exact C|reflexivity]. }
  assert (OK : objects_kept w w').
  { intros y ob' Ly E. cbn [w' w_objects] in E. destruct (Nat.eq_dec x y) as [<-|N].
    - rewrite nth_set_same in E by exact Lx. injection E as <-. exists ob. auto.
    - rewrite nth_set_other in E by exact N. exists ob'. auto. }
  assert (LO : length (w_objects w') = length (w_objects w)) by apply set_nth_length.
  assert (LM : length (w_memory w') = length (w_memory w)) by apply set_nth_length.
  split; [split|].
  - split.
    + intros a s C.
      assert (La : fst a < length (w_memory w)).
      { rewrite <- LM. apply nth_error_Some. intro E. unfold cell in C. rewrite E in C. discriminate. }
      destruct (PK a s La C) as [(s0 & C0 & ->)| ->]; [apply (gd_parts w Gd a s0 C0)|apply own_new].
    + intros y oy E. destruct (Nat.eq_dec x y) as [<-|N].
      * cbn [w' w_objects] in E. rewrite nth_set_same in E by exact Lx. injection E as <-. exists l', bt. auto.
      * cbn [w' w_objects] in E. rewrite nth_set_other in E by exact N.
        destruct (gd_live w Gd y oy E) as (ly & by_ & E1 & E2). exists ly, by_. split; [|exact E2].
        cbn [w' w_memory]. rewrite nth_set_other; [exact E1|].
        intro EQ. apply N. apply (gd_distinct w Gd x y ob oy OB E EQ).
    + intros y1 y2 o1 o2 E1 E2 EB.
      assert (L1 : y1 < length (w_objects w)) by (rewrite <- LO; apply nth_error_Some; congruence).
      assert (L2 : y2 < length (w_objects w)) by (rewrite <- LO; apply nth_error_Some; congruence).
      destruct (OK y1 o1 L1 E1) as (p1 & F1 & G1). destruct (OK y2 o2 L2 E2) as (p2 & F2 & G2).
      apply (gd_distinct w Gd y1 y2 p1 p2 F1 F2). congruence.
  - exact PK.
  - exact OK.
  - intros y Ly N. unfold value_of, object_at. cbn [w' w_objects w_memory].
    unfold at_index at 1. rewrite nth_set_other by auto. fold (at_index (w_objects w) y).
    destruct (at_index (w_objects w) y) as [[oy|]| |] eqn:E; try reflexivity. cbn [bind].
    apply at_index_ok in E. unfold block at 1. unfold at_index at 1. rewrite nth_set_other; [reflexivity|].
    intro EQ. apply N. symmetry. apply (gd_distinct w Gd x y ob oy OB E EQ).
  - apply value_ok. exists {| ob_head := h; ob_block := b |}, l'. split; [apply nth_set_same, Lx|]. auto.
Qed.

Lemma reset_effect : forall w x w', good w -> execute gs o w (Reset x) = Ok w' ->
  kept w w' x /\ exists z z', value_of w x = Ok z /\ optimizer_reset o z = Ok z' /\ value_of w' x = Ok z'.
Proof.
  intros w x w' Gd H. cbn [execute] in H.
  apply bind_ok in H. destruct H as (ob & OB & H). apply object_ok in OB. ok_step H. ok_step H.
  apply bind_ok in H. destruct H as (l & B & H). apply block_ok in B. ok_step H.
  apply bind_ok in H. destruct H as (m1 & R & H). injection H as <-.
  destruct (reset_all_spec o l [] (w_memory w) (ob_block ob) m1 B (good_block_own w _ Gd) R) as (l' & M1 & J & P).
  cbn [app] in M1.
  destruct (gd_live w Gd x ob OB) as (l0 & bt & B0 & FB). rewrite B in B0. injection B0 as <-.
  assert (L : length l' = length l) by (rewrite <- (map_length sl_pointers l'), P, map_length; reflexivity).
  rewrite M1.
  destruct (in_place w x ob l l' {| oz_batch := oz_batch (ob_head ob); oz_max_idle := oz_max_idle (ob_head ob);
       oz_idle := 0; oz_epochs := 0; oz_progress := f_zero; oz_last := f_zero; oz_curve := curve_new;
       oz_jobs := oz_jobs (ob_head ob) |} bt Gd OB B L) as (K & V).
  - intros i s' E. left. pose proof (f_equal (fun q => nth_error q i) P) as Q. cbn beta in Q.
    rewrite !nth_error_map, E in Q. cbn in Q. destruct (nth_error l i) as [s|]; [|discriminate].
    exists s. split; [reflexivity|]. cbn in Q. congruence.
  - apply forall_map_batch. apply forall_map_batch in FB. apply map_outcome_forall2 in J. clear - J FB.
    induction J as [|a c u v E J IH]; [constructor|]. inversion FB as [|? ? F1 F2]; subst. constructor; [|apply IH; assumption].
    apply job_reset_links in E. apply E.
  - split; [exact K|]. exists (with_jobs (ob_head ob) (map sl_job l)). eexists. split; [|split; [|exact V]].
    + apply value_ok. exists ob, l. auto.
    + unfold optimizer_reset. cbn [oz_max_idle oz_batch oz_jobs with_jobs]. rewrite X, X0, map_length, X1.
      cbn [expects bind]. rewrite J. reflexivity.
Qed.

Lemma rebind_effect : forall w x p w', good w -> execute gs o w (Rebind x p) = Ok w' ->
  kept w w' x /\ owns_sources w' x /\
  exists z z', value_of w x = Ok z /\ optimizer_set_params z p = Ok z' /\ value_of w' x = Ok z'.
Proof.
  intros w x p w' Gd H. cbn [execute] in H.
  apply bind_ok in H. destruct H as (ob & OB & H). apply object_ok in OB.
  apply bind_ok in H. destruct H as (l & B & H). apply block_ok in B. ok_step H.
  apply bind_ok in H. destruct H as (l' & M & H). injection H as <-.
  destruct (map_slots_nth _ _ _ _ _ M) as (L & N).
  destruct (gd_live w Gd x ob OB) as (l0 & bt & B0 & FB). rewrite B in B0. injection B0 as <-.
  assert (Lb : ob_block ob < length (w_memory w)) by (apply nth_error_Some; congruence).
  assert (J : map sl_job l' = map (fun j => job_set_params j p) (map sl_job l)).
  { assert (E : map_outcome (fun j => Ok (job_set_params j p)) (map sl_job l) = Ok (map sl_job l')).
    { eapply map_slots_jobs; [|exact M]. cbn beta. intros a s s' E. injection E as <-. reflexivity. }
    apply map_outcome_forall2 in E. clear - E. induction E as [|u v us vs E F IH]; [reflexivity|].
    cbn [map]. injection E as <-. rewrite IH. reflexivity. }
  assert (Own : forall i s', nth_error l' i = Some s' -> sl_pointers s' = new_pointers (ob_block ob, i) (ob_block ob, i)).
  { intros i s' E. destruct (N i s' E) as (s & _ & F). injection F as <-. reflexivity. }
  assert (OBJ : w_objects w = set_nth (w_objects w) x (Some {| ob_head := ob_head ob; ob_block := ob_block ob |})).
  { symmetry. apply set_nth_id. rewrite OB. destruct ob; reflexivity. }
  rewrite OBJ.
  destruct (in_place w x ob l l' (ob_head ob) bt Gd OB B L) as (K & V).
  - intros i s' E. right. apply Own, E.
  - apply forall_map_batch. rewrite J, Forall_map. apply forall_map_batch in FB. eapply Forall_impl; [|exact FB].
    intros j E. exact E.
  - split; [exact K|]. split.
    + intros oy i s E C. cbn [w_objects w_memory] in *. rewrite nth_set_same in E by (apply nth_error_Some; congruence).
      injection E as <-. cbn [ob_block] in *.
      assert (B' : nth_error (set_nth (w_memory w) (ob_block ob) (Some l')) (ob_block ob) = Some (Some l'))
        by (apply nth_set_same, Lb).
      rewrite (cell_block _ _ _ _ B') in C. rewrite (Own i s C). split; reflexivity.
    + exists (with_jobs (ob_head ob) (map sl_job l)). eexists. split; [|split; [|exact V]].
      * apply value_ok. exists ob, l. auto.
      * unfold optimizer_set_params. cbn [oz_jobs with_jobs]. rewrite map_length, X. cbn [expects bind]. rewrite <- J. reflexivity.
Qed.

(** *** Commands that add an optimizer *)

Lemma add_object : forall w l h bt, good w ->
  (forall i s, nth_error l i = Some s -> own_parts (length (w_memory w), i) (sl_pointers s) /\
     pt_random (sl_pointers s) = pt_mutator_random (sl_pointers s)) ->
  Forall (fun s => jb_batch (sl_job s) = bt) l ->
  let w' := World (w_memory w ++ [Some l])
              (w_objects w ++ [Some {| ob_head := h; ob_block := length (w_memory w) |}]) in
  kept w w' (length (w_objects w)) /\ value_of w' (length (w_objects w)) = Ok (with_jobs h (map sl_job l)).
Proof.
  intros w l h bt Gd P FB w'.
  assert (NB : nth_error (w_memory w') (length (w_memory w)) = Some (Some l)).
  { cbn [w' w_memory]. rewrite nth_error_app2 by lia. rewrite Nat.sub_diag. reflexivity. }
  assert (NO : nth_error (w_objects w') (length (w_objects w)) = Some (Some {| ob_head := h; ob_block := length (w_memory w) |})).
  { cbn [w' w_objects]. rewrite nth_error_app2 by lia. rewrite Nat.sub_diag. reflexivity. }
  assert (OB : forall b, b < length (w_memory w) -> nth_error (w_memory w') b = nth_error (w_memory w) b).
  { intros b L. apply nth_error_app1, L. }
  assert (OO : forall b, b < length (w_objects w) -> nth_error (w_objects w') b = nth_error (w_objects w) b).
  { intros b L. apply nth_error_app1, L. }
  assert (LO : length (w_objects w') = S (length (w_objects w))) by (cbn [w' w_objects]; rewrite app_length; cbn; lia).
  assert (LM : length (w_memory w') = S (length (w_memory w))) by (cbn [w' w_memory]; rewrite app_length; cbn; lia).
  assert (LV : forall y oy, nth_error (w_objects w) y = Some (Some oy) -> ob_block oy < length (w_memory w)).
  { intros y oy E. destruct (gd_live w Gd y oy E) as (ly & by_ & E1 & _). apply nth_error_Some. congruence. }
  assert (PK : pointers_kept (w_memory w) (w_memory w')).
  { intros a s' La C. left. exists s'. split; [|reflexivity]. unfold cell in *. rewrite OB in C by exact La. exact C. }
  split; [split|].
  - split.
    + intros a s C. destruct (Nat.lt_ge_cases (fst a) (length (w_memory w))) as [La|La].
      * unfold cell in C. rewrite OB in C by exact La. apply (gd_parts w Gd a s C).
      * assert (Ea : fst a = length (w_memory w)).
        { assert (fst a < length (w_memory w')).
          { apply nth_error_Some. intro E. unfold cell in C. rewrite E in C. discriminate. }
          lia. }
        destruct a as [c i]. cbn in Ea. subst c. rewrite (cell_block _ _ _ _ NB) in C. apply P, C.
    + intros y oy E. destruct (Nat.lt_ge_cases y (length (w_objects w))) as [Ly|Ly].
      * rewrite OO in E by exact Ly. destruct (gd_live w Gd y oy E) as (ly & by_ & E1 & E2). exists ly, by_.
        split; [|exact E2]. rewrite OB; [exact E1|]. apply (LV y oy E).
      * assert (y = length (w_objects w)) as ->.
        { assert (y < length (w_objects w')) by (apply nth_error_Some; congruence). lia. }
        rewrite NO in E. injection E as <-. exists l, bt. auto.
    + intros y1 y2 o1 o2 E1 E2 EB.
      assert (L1 : y1 < S (length (w_objects w))) by (rewrite <- LO; apply nth_error_Some; congruence).
      assert (L2 : y2 < S (length (w_objects w))) by (rewrite <- LO; apply nth_error_Some; congruence).
      destruct (Nat.eq_dec y1 (length (w_objects w))) as [->|N1]; destruct (Nat.eq_dec y2 (length (w_objects w))) as [->|N2]; auto.
      * rewrite NO in E1. injection E1 as <-. rewrite OO in E2 by lia. apply LV in E2. cbn in EB. lia.
      * rewrite NO in E2. injection E2 as <-. rewrite OO in E1 by lia. apply LV in E1. cbn in EB. lia.
      * rewrite OO in E1, E2 by lia. apply (gd_distinct w Gd y1 y2 o1 o2 E1 E2 EB).
  - exact PK.
  - intros y ob' Ly E. rewrite OO in E by exact Ly. exists ob'. auto.
  - intros y Ly N. unfold value_of, object_at. unfold at_index at 1. rewrite OO by exact Ly. fold (at_index (w_objects w) y).
    destruct (at_index (w_objects w) y) as [[oy|]| |] eqn:E; try reflexivity. cbn [bind]. apply at_index_ok in E.
    unfold block at 1. unfold at_index at 1. rewrite OB by (apply (LV y oy E)). reflexivity.
  - apply value_ok. eexists. exists l. split; [exact NO|]. auto.
Qed.

Lemma new_slots_nth : forall b jobs (seeds : list G) i s, length jobs = length seeds ->
  nth_error (new_slots b jobs seeds) i = Some s ->
  nth_error jobs i = Some (sl_job s) /\ sl_pointers s = new_pointers (b, i) (b, i).
Proof.
  intros b jobs seeds i s L H. unfold new_slots in H. rewrite nth_error_map in H.
  destruct (nth_error (combine (seq 0 (length jobs)) (combine jobs seeds)) i) as [[k [j g]]|] eqn:E; [|discriminate].
  cbn in H. injection H as <-. cbn [sl_job sl_pointers].
  assert (E1 : nth_error (seq 0 (length jobs)) i = Some k /\ nth_error (combine jobs seeds) i = Some (j, g)).
  { clear - E. revert E. generalize (seq 0 (length jobs)), (combine jobs seeds). intro u. revert i.
    induction u as [|a u IH]; intros [|i] [|c v] E; cbn in *; try discriminate; auto. injection E as <- <-. auto. }
  destruct E1 as (E1 & E2).
  assert (E3 : nth_error jobs i = Some j).
  { clear - E2. revert E2. revert i jobs. induction seeds as [|a u IH]; intros [|i] [|c v] E; cbn in *; try discriminate; auto. congruence. }
  split; [exact E3|].
  assert (Li : i < length jobs) by (apply nth_error_Some; congruence).
  assert (k = i) as ->.
  { apply nth_error_nth with (d := 0) in E1. rewrite seq_nth in E1 by exact Li. cbn in E1. congruence. }
  reflexivity.
Qed.

Lemma new_slots_jobs : forall b jobs (seeds : list G), length jobs = length seeds ->
  map sl_job (new_slots b jobs seeds) = jobs.
Proof.
  intros b jobs seeds L. unfold new_slots. rewrite map_map. cbn [sl_job].
  generalize 0 as k. revert seeds L. induction jobs as [|j jobs IH]; intros [|g seeds] L k; try discriminate; [reflexivity|].
  cbn [length seq combine map fst snd]. f_equal. apply IH. cbn in L. congruence.
Qed.

Lemma job_new_batch : forall p op j, job_new o p op = Ok j -> jb_batch j = op_batch op.
Proof.
  intros p op j H. unfold job_new in H. ok_step H. ok_step H.
  apply bind_ok in H. destruct H as (mk & _ & H). apply bind_ok in H. destruct H as (t & _ & H).
  apply bind_ok in H. destruct H as (src & _ & H). ok_step H.
  apply bind_ok in H. destruct H as (j1 & E & H). ok_step H. injection H as <-.
  apply stun_reset_links in E. apply E.
Qed.

Lemma new_effect : forall w p op seeds w', good w -> execute gs o w (New p op seeds) = Ok w' ->
  let x := length (w_objects w) in
  kept w w' x /\ owns_sources w' x /\
  exists z, optimizer_new o p op (length seeds) = Ok z /\ value_of w' x = Ok z.
Proof.
  intros w p op seeds w' Gd H x. cbn [execute] in H.
  apply bind_ok in H. destruct H as (z & Z & H). injection H as <-.
  assert (JZ : length (oz_jobs z) = length seeds /\ Forall (fun j => jb_batch j = op_batch op) (oz_jobs z)).
  { unfold optimizer_new in Z. ok_step Z. ok_step Z. apply bind_ok in Z. destruct Z as (jobs & J & Z). ok_step Z.
    injection Z as <-. cbn [oz_jobs]. apply map_outcome_forall2 in J. split.
    - apply Forall2_length in J. rewrite seq_length in J. auto.
    - clear - J. induction J as [|a c u v E J IH]; constructor; [|exact IH]. apply job_new_batch in E. exact E. }
  destruct JZ as (LJ & FJ).
  set (l := new_slots _ _ _).
  assert (Own : forall i s, nth_error l i = Some s -> sl_pointers s = new_pointers (length (w_memory w), i) (length (w_memory w), i)).
  { intros i s E. apply (new_slots_nth _ _ _ _ _ LJ E). }
  destruct (add_object w l z (op_batch op) Gd) as (K & V).
  - intros i s E. rewrite (Own i s E). apply own_new.
  - apply forall_map_batch. unfold l. rewrite new_slots_jobs by exact LJ. exact FJ.
  - split; [exact K|]. split.
    + intros oy i s E C. cbn [w_objects w_memory] in *. unfold x in E. rewrite nth_error_app2 in E by lia.
      rewrite Nat.sub_diag in E. injection E as <-. cbn [ob_block] in *.
      unfold cell in C. cbn [fst snd] in C. rewrite nth_error_app2 in C by lia. rewrite Nat.sub_diag in C. cbn in C.
      rewrite (Own i s C). split; reflexivity.
    + exists z. split; [exact Z|]. unfold x. rewrite V. unfold l. rewrite new_slots_jobs by exact LJ. f_equal. apply with_jobs_id.
Qed.

Lemma copy_effect : forall w x w', good w -> execute gs o w (Copy x) = Ok w' ->
  kept w w' (length (w_objects w)) /\
  exists z z', value_of w x = Ok z /\ optimizer_copy z = Ok z' /\ value_of w' (length (w_objects w)) = Ok z'.
Proof.
  intros w x w' Gd H. cbn [execute] in H.
  apply bind_ok in H. destruct H as (ob & OB & H). apply object_ok in OB.
  apply bind_ok in H. destruct H as (l & B & H). apply block_ok in B.
  apply bind_ok in H. destruct H as (l' & M & H). injection H as <-.
  destruct (map_slots_nth _ _ _ _ _ M) as (L & N).
  destruct (gd_live w Gd x ob OB) as (l0 & bt & B0 & FB). rewrite B in B0. injection B0 as <-.
  assert (J : map_outcome job_copy (map sl_job l) = Ok (map sl_job l')).
  { eapply map_slots_jobs; [|exact M]. intros a s s' E. unfold copy_slot in E. apply bind_ok in E.
    destruct E as (j & E & F). injection F as <-. exact E. }
  destruct (add_object w l' (ob_head ob) bt Gd) as (K & V).
  - intros i s' E. destruct (N i s' E) as (s & _ & F). unfold copy_slot in F. apply bind_ok in F.
    destruct F as (j & _ & F). injection F as <-. cbn [sl_pointers]. repeat split.
  - apply forall_map_batch. apply forall_map_batch in FB. apply map_outcome_forall2 in J. clear - J FB.
    induction J as [|a c u v E J IH]; [constructor|]. inversion FB as [|? ? F1 F2]; subst. constructor; [|apply IH; assumption].
    apply copy_links in E. apply E.
  - split; [exact K|]. exists (with_jobs (ob_head ob) (map sl_job l)). eexists. split; [|split; [|exact V]].
    + apply value_ok. exists ob, l. auto.
    + unfold optimizer_copy. cbn [oz_jobs with_jobs]. rewrite J. reflexivity.
Qed.

(** *** Move and destruction *)

Lemma move_effect : forall w x w', good w -> execute gs o w (Move x) = Ok w' ->
  kept w w' x /\ (owns_sources w x -> owns_sources w' (length (w_objects w))) /\
  exists z, value_of w x = Ok z /\ value_of w' (length (w_objects w)) = Ok z.
Proof.
  intros w x w' Gd H. cbn [execute] in H.
  apply bind_ok in H. destruct H as (ob & OB & H). apply object_ok in OB. injection H as <-.
  set (w' := World _ _). set (n := length (w_objects w)).
  assert (Lx : x < n) by (apply nth_error_Some; congruence).
  destruct (gd_live w Gd x ob OB) as (l & bt & B & FB).
  assert (NO : nth_error (w_objects w') n = Some (Some ob)).
  { cbn [w' w_objects]. rewrite nth_error_app2; rewrite set_nth_length; fold n; [rewrite Nat.sub_diag; reflexivity|lia]. }
  assert (OO : forall y, y < n -> nth_error (w_objects w') y = if x =? y then Some None else nth_error (w_objects w) y).
  { intros y L. cbn [w' w_objects]. rewrite nth_error_app1 by (rewrite set_nth_length; exact L).
    rewrite nth_error_set_nth. fold n. apply Nat.ltb_lt in Lx. rewrite Lx, andb_true_r. reflexivity. }
  assert (LO : length (w_objects w') = S n) by (cbn [w' w_objects]; rewrite app_length, set_nth_length; cbn; fold n; lia).
  split; [split|].
  - split.
    + exact (gd_parts w Gd).
    + intros y oy E. destruct (Nat.lt_ge_cases y n) as [Ly|Ly].
      * rewrite OO in E by exact Ly. destruct (x =? y); [discriminate|]. apply (gd_live w Gd y oy E).
      * assert (y = n) as -> by (assert (y < S n) by (rewrite <- LO; apply nth_error_Some; congruence); lia).
        rewrite NO in E. injection E as <-. exists l, bt. auto.
    + intros y1 y2 o1 o2 E1 E2 EB.
      assert (L1 : y1 < S n) by (rewrite <- LO; apply nth_error_Some; congruence).
      assert (L2 : y2 < S n) by (rewrite <- LO; apply nth_error_Some; congruence).
      destruct (Nat.eq_dec y1 n) as [->|N1]; destruct (Nat.eq_dec y2 n) as [->|N2]; auto.
      * rewrite NO in E1. injection E1 as <-. rewrite OO in E2 by lia.
        destruct (Nat.eqb_spec x y2) as [->|N]; [discriminate|]. exfalso. apply N. apply (gd_distinct w Gd x y2 ob o2 OB E2 EB).
      * rewrite NO in E2. injection E2 as <-. rewrite OO in E1 by lia.
        destruct (Nat.eqb_spec x y1) as [->|N]; [discriminate|]. exfalso. apply N. symmetry. apply (gd_distinct w Gd y1 x o1 ob E1 OB EB).
      * rewrite OO in E1, E2 by lia. destruct (x =? y1); [discriminate|]. destruct (x =? y2); [discriminate|].
        apply (gd_distinct w Gd y1 y2 o1 o2 E1 E2 EB).
  - intros a s' La C. left. exists s'. split; [exact C|reflexivity].
  - intros y ob' Ly E. fold n in Ly. rewrite OO in E by exact Ly. destruct (x =? y); [discriminate|]. exists ob'. auto.
  - intros y Ly N. unfold value_of, object_at. unfold at_index at 1. rewrite OO by exact Ly.
    destruct (Nat.eqb_spec x y) as [->|_]; [congruence|]. reflexivity.
  - split.
    + intros OW oy i s E C. rewrite NO in E. injection E as <-. apply (OW ob i s OB C).
    + exists (with_jobs (ob_head ob) (map sl_job l)). split; apply value_ok; exists ob, l; auto.
Qed.

Lemma destroy_effect : forall w x w', good w -> execute gs o w (Destroy x) = Ok w' -> kept w w' x.
Proof.
  intros w x w' Gd H. cbn [execute] in H.
  apply bind_ok in H. destruct H as (ob & OB & H). apply object_ok in OB. injection H as <-.
  set (w' := World _ _). set (n := length (w_objects w)).
  assert (Lx : x < n) by (apply nth_error_Some; congruence).
  destruct (gd_live w Gd x ob OB) as (l & bt & B & FB).
  assert (Lb : ob_block ob < length (w_memory w)) by (apply nth_error_Some; congruence).
  assert (OO : forall y, nth_error (w_objects w') y = if x =? y then Some None else nth_error (w_objects w) y).
  { intros y. cbn [w' w_objects].
    rewrite nth_error_set_nth. fold n. apply Nat.ltb_lt in Lx. rewrite Lx, andb_true_r. reflexivity. }
  assert (MM : forall b, nth_error (w_memory w') b = if ob_block ob =? b then Some None else nth_error (w_memory w) b).
  { intros b. cbn [w' w_memory].
    rewrite nth_error_set_nth. apply Nat.ltb_lt in Lb. rewrite Lb, andb_true_r. reflexivity. }
  assert (CC : forall a s, cell (w_memory w') a = Some s -> cell (w_memory w) a = Some s).
  { intros a s C. unfold cell in C. rewrite MM in C. destruct (ob_block ob =? fst a); [discriminate|]. exact C. }
  assert (ND : forall y oy, x <> y -> nth_error (w_objects w) y = Some (Some oy) -> ob_block ob =? ob_block oy = false).
  { intros y oy N E. apply Nat.eqb_neq. intro EQ. apply N. apply (gd_distinct w Gd x y ob oy OB E EQ). }
  split.
  - split.
    + intros a s C. apply (gd_parts w Gd), CC, C.
    + intros y oy E. rewrite OO in E. destruct (Nat.eqb_spec x y) as [->|N]; [discriminate|].
      destruct (gd_live w Gd y oy E) as (ly & by_ & E1 & E2). exists ly, by_. split; [|exact E2].
      rewrite MM, (ND y oy N E). exact E1.
    + intros y1 y2 o1 o2 E1 E2 EB. rewrite OO in E1, E2. destruct (x =? y1); [discriminate|]. destruct (x =? y2); [discriminate|].
      apply (gd_distinct w Gd y1 y2 o1 o2 E1 E2 EB).
  - intros a s' La C. left. exists s'. split; [apply CC, C|reflexivity].
  - intros y ob' Ly E. rewrite OO in E. destruct (x =? y); [discriminate|]. exists ob'. auto.
  - intros y Ly N. unfold value_of, object_at. unfold at_index at 1. rewrite OO.
    destruct (Nat.eqb_spec x y) as [->|N']; [congruence|].
    change (match nth_error (w_objects w) y with Some a => Ok a | None => Broken end) with (at_index (w_objects w) y).
    destruct (at_index (w_objects w) y) as [[oy|]| |] eqn:E; try reflexivity. cbn [bind]. apply at_index_ok in E.
    unfold block at 1. unfold at_index at 1. rewrite MM, (ND y oy N' E). reflexivity.
Qed.

Lemma execute_kept : forall w c w', good w -> execute gs o w c = Ok w' -> kept w w' (target w c).
Proof.
  intros w c w' Gd H. destruct c; cbn [target].
  - apply (new_effect w p op seeds w' Gd H).
  - apply (update_effect w x order w' Gd H).
  - apply (reset_effect w x w' Gd H).
  - apply (rebind_effect w x p w' Gd H).
  - apply (copy_effect w x w' Gd H).
  - apply (move_effect w x w' Gd H).
  - apply (destroy_effect w x w' Gd H).
Qed.

Lemma execute_all_good : forall cs w w', good w -> execute_all gs o w cs = Ok w' -> good w'.
Proof.
  induction cs as [|c cs IH]; intros w w' Gd H; cbn [execute_all] in H; [congruence|].
  apply bind_ok in H. destruct H as (w1 & E & H). apply (IH w1 w'); [|exact H].
  apply (kp_good _ _ _ (execute_kept w c w1 Gd E)).
Qed.

Lemma kept_owns : forall w w' x y, good w -> kept w w' x -> y < length (w_objects w) -> owns_sources w y -> owns_sources w' y.
Proof.
  intros w w' x y Gd K Ly OW ob' i s' E C.
  destruct (kp_objects _ _ _ K y ob' Ly E) as (ob & E0 & EB).
  destruct (gd_live w Gd y ob E0) as (l & bt & B & _).
  assert (Lb : fst (ob_block ob', i) < length (w_memory w)).
  { cbn. rewrite EB. apply nth_error_Some. congruence. }
  destruct (kp_pointers _ _ _ K _ _ Lb C) as [(s & C0 & ->)| ->].
  - rewrite EB in *. apply (OW ob i s E0 C0).
  - split; reflexivity.
Qed.

(** An update of an optimizer that uses its own sources changes no other
    vector at all. *)
Lemma iterate_all_local : forall order m b m' l, iterate_all gs o m b order = Ok m' ->
  nth_error m b = Some (Some l) -> block_own m b ->
  (forall i s, cell m (b, i) = Some s -> own_source (b, i) (sl_pointers s)) ->
  forall c, c <> b -> nth_error m' c = nth_error m c.
Proof.
  induction order as [|i order IH]; intros m b m' l H B OW SW c N; cbn [iterate_all] in H; [congruence|].
  apply bind_ok in H. destruct H as (m1 & I & H).
  assert (C : exists s, cell m (b, i) = Some s).
  { unfold iterate in I. apply bind_ok in I. destruct I as (s & R & _). apply read_ok in R. eauto. }
  destruct C as (s & C).
  rewrite (iterate_own gs o _ _ _ C (OW _ _ C) (SW _ _ C)) in I.
  apply bind_ok in I. destruct I as (s' & E & W).
  assert (PS : sl_pointers s' = sl_pointers s).
  { unfold own_step in E. ok_step E. apply bind_ok in E. destruct E as (j1 & _ & E). apply bind_ok in E.
    destruct E as (r & _ & E). destruct (fst r); [injection E as <-; reflexivity|].
    apply bind_ok in E. destruct E as (j3 & _ & E). injection E as <-. reflexivity. }
  destruct (write_spec _ _ _ _ W) as (S1 & C1 & O1 & N1 & _).
  destruct (same_sizes_block _ _ _ _ S1 B) as (l1 & B1 & _).
  assert (PP : forall k, option_map sl_pointers (cell m1 (b, k)) = option_map sl_pointers (cell m (b, k))).
  { intro k. destruct (place_dec (b, k) (b, i)) as [E1|E1]; [rewrite E1, C1, C; cbn; rewrite PS; reflexivity|rewrite O1 by exact E1; reflexivity]. }
  rewrite (IH m1 b m' l1 H B1); [|apply bones_own with m; assumption| |exact N].
  - apply N1. exact N.
  - intros k t Ct. specialize (PP k). rewrite Ct in PP. destruct (cell m (b, k)) as [t0|] eqn:C0; [|discriminate].
    cbn in PP. injection PP as ->. apply SW, C0.
Qed.

Lemma update_local : forall w x order w' ob, good w -> owns_sources w x ->
  nth_error (w_objects w) x = Some (Some ob) -> execute gs o w (Update x order) = Ok w' ->
  forall c, c <> ob_block ob -> nth_error (w_memory w') c = nth_error (w_memory w) c.
Proof.
  intros w x order w' ob Gd OW OB H c N. cbn [execute] in H.
  apply bind_ok in H. destruct H as (ob' & OB' & H). apply object_ok in OB'. rewrite OB in OB'. injection OB' as <-. ok_step H.
  apply bind_ok in H. destruct H as (l & B & H). apply block_ok in B. ok_step H. ok_step H.
  apply bind_ok in H. destruct H as (m1 & I & H). apply bind_ok in H. destruct H as (m2 & R & H).
  apply bind_ok in H. destruct H as (l2 & B2 & H).
  apply bind_ok in H. destruct H as (z' & F & H). injection H as <-. cbn [w_memory].
  destruct (iterate_all_spec gs o order _ _ m1 l (repeat 0 (length l)) I B (good_block_own w _ Gd))
    as (ks & l1 & _ & B1 & _); [apply repeat_length|].
  destruct (replicate_refines m1 _ m2 l1 R B1) as (l2' & _ & -> & _).
  rewrite nth_set_other by auto.
  apply (iterate_all_local order _ _ _ l I B (good_block_own w _ Gd)); [|exact N].
  intros i s C. apply (OW ob i s OB C).
Qed.

End Effects.
