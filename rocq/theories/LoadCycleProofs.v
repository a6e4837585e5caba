(** * Proofs about the loader: dependencies and cycles *)

From Coq Require Import String List Bool Arith ZArith Lia Sorted Relations.
From Verif Require Import Base ProjectModel YamlModel DocumentSpec ScheduleSpec LoadModel LoadSpec LoadProofs LoadTaskProofs.
Import ListNotations.
Local Open Scope string_scope.
Local Open Scope nat_scope.

(** ** Resolving names *)

Lemma resolve_task_spec : forall tasks deps t t', resolve_task tasks t deps = Loads t' -> index_set (tk_deps t) ->
  exists d, t' = with_deps t d /\ index_set d /\
    (forall j, In j d <-> In j (tk_deps t) \/ exists s, In s deps /\ position s (map tk_id tasks) = Some j) /\
    (forall s, In s deps -> exists j, position s (map tk_id tasks) = Some j).
Proof.
  intros tasks deps. induction deps as [|s deps IH]; intros t t' H SD; unfold resolve_task in H; cbn [each] in H.
  - injection H as <-. exists (tk_deps t). split; [destruct t; reflexivity|]. split; [exact SD|]. split; [|intros s []].
    intro j. split; [auto|]. intros [X|(s & [] & _)]. exact X.
  - step H t1. step E i. injection E as <-. unfold find_task_index in E0. skip E0.
    destruct (position s (map tk_id tasks)) as [k|] eqn:P; [|discriminate E0].
    apply to_int8_Loads in E0. destruct E0 as [-> _]. fold (resolve_task tasks (with_deps t (set_insert k (tk_deps t))) deps) in H.
    apply IH in H; [|cbn; apply set_insert_sorted, SD]. destruct H as (d & -> & Sd & D & X). exists d.
    split; [reflexivity|]. split; [exact Sd|]. split.
    + intro j. rewrite D. cbn [with_deps tk_deps]. rewrite set_insert_In. split.
      * intros [[->|H]|(s' & I & P')]; [right; exists s; cbn; auto|auto|right; exists s'; cbn; auto].
      * intros [H|(s' & [<-|I] & P')]; [auto| |right; exists s'; auto]. rewrite P in P'. injection P' as <-. auto.
    + intros s' [<-|I]; eauto.
Qed.

Lemma resolve_all_spec : forall tasks l deps l', resolve_all tasks l deps = Loads l' -> length l = length deps ->
  Forall (fun t => index_set (tk_deps t)) l ->
  length l' = length l /\
  forall i t, nth_error l i = Some t -> exists ds d,
    nth_error deps i = Some ds /\ nth_error l' i = Some (with_deps t d) /\ index_set d /\
    (forall j, In j d <-> In j (tk_deps t) \/ exists s, In s ds /\ position s (map tk_id tasks) = Some j) /\
    (forall s, In s ds -> exists j, position s (map tk_id tasks) = Some j).
Proof.
  intros tasks l. induction l as [|t l IH]; intros [|ds deps] l' H L F; try discriminate L; cbn [resolve_all] in H.
  - injection H as <-. split; [reflexivity|]. intros [|i] t X; discriminate X.
  - step H t'. step H r. injection H as <-. apply resolve_task_spec in E; [|inversion F; assumption].
    destruct (IH deps r E0 ltac:(cbn in L; lia) ltac:(inversion F; assumption)) as [L' N].
    split; [cbn; congruence|]. intros [|i] u X.
    + cbn in X. injection X as <-. destruct E as (d & -> & Sd & D & P). exists ds, d. cbn. auto.
    + cbn in X |- *. exact (N i u X).
Qed.

(** ** Depth-first search *)

Definition is_white (v : vertex) : bool := match v with NotVisited => true | _ => false end.

Definition whites (s : list vertex) : nat := length (filter is_white s).

Definition later (s s' : list vertex) : Prop :=
  Forall2 (fun a b => (b = NotVisited -> a = NotVisited) /\ (a = Complete -> b = Complete)) s s'.

Lemma later_refl : forall s, later s s.
Proof. induction s; constructor; auto. Qed.

Lemma later_trans : forall a b c, later a b -> later b c -> later a c.
Proof.
  intros a b c H. revert c. induction H as [|x y a b [P1 P2] H IH]; intros c K; [exact K|].
  inversion K as [|y' z b' c' [Q1 Q2] K']; subst. constructor; [|apply IH, K']. auto.
Qed.

Lemma later_whites : forall a b, later a b -> whites b <= whites a.
Proof.
  intros a b H. unfold whites. induction H as [|x y a b [P1 P2] H IH]; [auto|]. cbn.
  destruct y; cbn; destruct x; cbn; try lia; specialize (P1 eq_refl); discriminate P1.
Qed.

Lemma later_length : forall a b, later a b -> length b = length a.
Proof. intros a b H. induction H; cbn; congruence. Qed.

Lemma later_complete : forall a b v, later a b -> nth_error a v = Some Complete -> nth_error b v = Some Complete.
Proof.
  intros a b v H. revert v. induction H as [|x y a b [P1 P2] H IH]; intros [|v] N; try discriminate N.
  - cbn in *. injection N as ->. rewrite (P2 eq_refl). reflexivity.
  - exact (IH v N).
Qed.

Lemma set_nth_same : forall A (l : list A) i x y, nth_error l i = Some y -> nth_error (set_nth l i x) i = Some x.
Proof. intros A l. induction l as [|a l IH]; intros [|i] x y H; try discriminate H; [reflexivity|]. exact (IH i x y H). Qed.

Lemma set_nth_other : forall A (l : list A) i j x, i <> j -> nth_error (set_nth l i x) j = nth_error l j.
Proof.
  intros A l. induction l as [|a l IH]; intros [|i] [|j] x H; try reflexivity; [congruence|].
  cbn. apply IH. congruence.
Qed.

Lemma set_nth_len : forall A (l : list A) i x, length (set_nth l i x) = length l.
Proof. intros A l. induction l as [|a l IH]; intros [|i] x; cbn; auto. Qed.

Lemma later_set : forall s i x y, nth_error s i = Some x ->
  (y = NotVisited -> x = NotVisited) -> (x = Complete -> y = Complete) -> later s (set_nth s i y).
Proof.
  intros s. induction s as [|a s IH]; intros [|i] x y N P Q; try discriminate N.
  - cbn in N. injection N as ->. constructor; [auto|apply later_refl].
  - constructor; [auto|]. exact (IH i x y N P Q).
Qed.

Lemma whites_mark : forall s i, nth_error s i = Some NotVisited -> S (whites (set_nth s i Visited)) = whites s.
Proof.
  unfold whites. induction s as [|a s IH]; intros [|i] N; try discriminate N.
  - cbn in N. injection N as ->. reflexivity.
  - cbn in N |- *. specialize (IH i N). destruct (is_white a); cbn; lia.
Qed.

Section search.
  Context (tasks : list task).

  Definition edge : nat -> nat -> Prop := depends_in (map tk_deps tasks).

  Definition out_of_range : Prop := exists i j, edge i j /\ length tasks <= j.

  Definition grounded (v : nat) : Prop := Acc (fun d t => edge t d) v.

  Definition blacks_ok (s : list vertex) : Prop := forall v, nth_error s v = Some Complete -> grounded v.

  Lemma grounded_not_cyclic : forall v, grounded v -> ~ clos_trans nat edge v v.
  Proof.
    intros v A. induction A as [v _ IH]. intro C.
    apply clos_trans_t1n in C. inversion C as [y E|y z E R]; subst.
    - exact (IH v E (t_step _ _ _ _ E)).
    - apply (IH y E). apply t_trans with v; [apply clos_t1n_trans, R|apply t_step, E].
  Qed.

  Lemma dfs_spec : forall fuel s id,
    length s = length tasks -> nth_error s id = Some NotVisited -> whites s <= fuel -> blacks_ok s ->
    (forall v, nth_error s v = Some Visited -> clos_trans nat edge v id) ->
    match depth_first_search fuel tasks s id with
    | Loads s' => later s s' /\ nth_error s' id = Some Complete /\
        (forall v, nth_error s' v = Some Visited <-> nth_error s v = Some Visited) /\ blacks_ok s'
    | Rejects e => e = DependencyCycle /\ cyclic edge
    | Violates => out_of_range
    | _ => False
    end.
  Proof.
    induction fuel as [|fuel IH]; intros s id L N W B G.
    { pose proof (whites_mark s id N). lia. }
    assert (LT : id < length tasks) by (rewrite <- L; apply nth_error_Some; congruence).
    cbn [depth_first_search].
    replace (match tasks with [] => false | _ => true end) with true by (destruct tasks; [cbn in LT; lia|reflexivity]).
    cbn [demand next]. rewrite L, Nat.eqb_refl. cbn [demand next]. rewrite N. cbn [demand next].
    destruct (Nat.ltb_spec id (length tasks)) as [_|X]; [|lia]. cbn [demand next].
    destruct (nth_error tasks id) as [t|] eqn:T; [|apply nth_error_None in T; lia].
    assert (ED : forall d, In d (tk_deps t) -> edge id d).
    { intros d I. exists (tk_deps t). rewrite nth_error_map, T. auto. }
    set (s0 := set_nth s id Visited).
    assert (L0 : later s s0) by (apply later_set with NotVisited; [exact N|discriminate|discriminate]).
    set (visit := fun (s : list vertex) dep => match nth_error s dep with
      | None => Violates | Some Visited => Rejects DependencyCycle
      | Some NotVisited => depth_first_search fuel tasks s dep | Some Complete => Loads s end).
    assert (LOOP : forall ds s1, (forall d, In d ds -> In d (tk_deps t)) ->
      later s0 s1 ->
      (forall v, nth_error s1 v = Some Visited <-> v = id \/ nth_error s v = Some Visited) -> blacks_ok s1 ->
      match each visit s1 ds with
      | Loads s' => later s1 s' /\
          (forall v, nth_error s' v = Some Visited <-> v = id \/ nth_error s v = Some Visited) /\ blacks_ok s' /\
          (forall d, In d ds -> nth_error s' d = Some Complete)
      | Rejects e => e = DependencyCycle /\ cyclic edge
      | Violates => out_of_range
      | _ => False
      end).
    { induction ds as [|d ds IHd]; intros s1 SUB LA GR BL; cbn [each].
      - split; [apply later_refl|]. split; [exact GR|]. split; [exact BL|]. intros d [].
      - pose proof (ED d (SUB d (or_introl eq_refl))) as E.
        assert (LEN : length s1 = length tasks).
        { rewrite (later_length _ _ LA). unfold s0. rewrite set_nth_len. exact L. }
        assert (SUB' : forall d0, In d0 ds -> In d0 (tk_deps t)) by (intros; apply SUB; right; assumption).
        unfold visit at 1. destruct (nth_error s1 d) as [[| |]|] eqn:D.
        + assert (W1 : whites s1 <= fuel).
          { pose proof (later_whites _ _ LA). pose proof (whites_mark s id N). unfold s0 in *. lia. }
          assert (G1 : forall v, nth_error s1 v = Some Visited -> clos_trans nat edge v d).
          { intros v H. apply GR in H. destruct H as [->|H'].
            - apply t_step, E.
            - apply t_trans with id; [apply G, H'|apply t_step, E]. }
          pose proof (IH s1 d LEN D W1 BL G1) as CALL.
          destruct (depth_first_search fuel tasks s1 d) as [s2|e| | |]; cbn [next]; try exact CALL.
          destruct CALL as (LA2 & D2 & GR2 & BL2).
          specialize (IHd s2 SUB' (later_trans _ _ _ LA LA2) (fun v => iff_trans (GR2 v) (GR v)) BL2).
          destruct (each visit s2 ds) as [s3|e| | |]; try exact IHd.
          destruct IHd as (LA3 & GR3 & BL3 & C3). split; [exact (later_trans _ _ _ LA2 LA3)|]. split; [exact GR3|].
          split; [exact BL3|]. intros x [<-|I]; [exact (later_complete _ _ _ LA3 D2)|exact (C3 x I)].
        + cbn [next]. split; [reflexivity|]. apply GR in D. destruct D as [->|D].
          * exists id. apply t_step, E.
          * exists id. apply t_trans with d; [apply t_step, E|apply G, D].
        + cbn [next]. specialize (IHd s1 SUB' LA GR BL). destruct (each visit s1 ds) as [s3|e| | |]; try exact IHd.
          destruct IHd as (LA3 & GR3 & BL3 & C3). split; [exact LA3|]. split; [exact GR3|].
          split; [exact BL3|]. intros x [<-|I]; [exact (later_complete _ _ _ LA3 D)|exact (C3 x I)].
        + apply nth_error_None in D. cbn [next]. exists id, d. split; [exact E|lia]. }
    assert (GR0 : forall v, nth_error s0 v = Some Visited <-> v = id \/ nth_error s v = Some Visited).
    { intro v. unfold s0. destruct (Nat.eq_dec id v) as [<-|NE].
      - rewrite (set_nth_same _ _ _ _ _ N). tauto.
      - rewrite (set_nth_other _ _ _ _ _ NE). split; [tauto|]. intros [->|H]; [congruence|exact H]. }
    assert (BL0 : blacks_ok s0).
    { intros v H. apply B. unfold s0 in H. destruct (Nat.eq_dec id v) as [<-|NE].
      - rewrite (set_nth_same _ _ _ _ _ N) in H. discriminate H.
      - rewrite (set_nth_other _ _ _ _ _ NE) in H. exact H. }
    specialize (LOOP (tk_deps t) s0 (fun d I => I) (later_refl s0) GR0 BL0).
    destruct (each visit s0 (tk_deps t)) as [s'|e| | |]; cbn [next]; try exact LOOP.
    destruct LOOP as (LA & GR & BL & C).
    assert (V : nth_error s' id = Some Visited) by (apply GR; auto).
    split.
    { apply (later_trans _ s'); [exact (later_trans _ _ _ L0 LA)|]. apply later_set with Visited; [exact V|discriminate|auto]. }
    split; [apply set_nth_same with Visited, V|]. split.
    - intro v. destruct (Nat.eq_dec id v) as [<-|NE].
      + rewrite (set_nth_same _ _ _ _ _ V), N. split; discriminate.
      + rewrite (set_nth_other _ _ _ _ _ NE), GR. split; [|auto]. intros [->|H]; [congruence|exact H].
    - intros v H. destruct (Nat.eq_dec id v) as [<-|NE].
      + constructor. intros d (r & R1 & R2). rewrite nth_error_map, T in R1. cbn in R1. injection R1 as <-.
        apply BL, C, R2.
      + rewrite (set_nth_other _ _ _ _ _ NE) in H. apply BL, H.
  Qed.

  Lemma whites_le : forall s, whites s <= length s.
  Proof. intro s. unfold whites. induction s as [|a s IH]; cbn; [auto|]. destruct (is_white a); cbn; lia. Qed.

  Lemma loop_spec : forall left id s,
    id + left = length tasks -> length s = length tasks -> blacks_ok s ->
    (forall v, nth_error s v <> Some Visited) -> (forall v, v < id -> nth_error s v = Some Complete) ->
    match cycles_loop tasks left id s with
    | Loads _ => acyclic edge
    | Rejects e => e = DependencyCycle /\ cyclic edge
    | Throws => 127 < length tasks
    | Violates => out_of_range
    | _ => False
    end.
  Proof.
    induction left as [|left IH]; intros id s I L B G C; cbn [cycles_loop].
    - intros v CY. assert (LT : v < length tasks).
      { rewrite <- (map_length tk_deps tasks). apply nth_error_Some.
        assert (OUT : exists y, edge v y) by (apply clos_trans_t1n in CY; inversion CY; eauto).
        destruct OUT as (y & r & N & _). congruence. }
      apply (grounded_not_cyclic v); [|exact CY]. apply B, C. lia.
    - assert (AFTER : forall s', length s' = length tasks -> blacks_ok s' -> (forall v, nth_error s' v <> Some Visited) ->
        (forall v, v < S id -> nth_error s' v = Some Complete) ->
        match next (to_int8 (S id)) (fun id' => cycles_loop tasks left id' s') with
        | Loads _ => acyclic edge
        | Rejects e => e = DependencyCycle /\ cyclic edge
        | Throws => 127 < length tasks
        | Violates => out_of_range
        | _ => False
        end).
      { intros s' L' B' G' C'. unfold to_int8. destruct (Nat.leb_spec (S id) 127) as [X|X]; cbn [next]; [|lia].
        apply IH; [lia|assumption..]. }
      destruct (nth_error s id) as [[| |]|] eqn:N.
      + assert (W : whites s <= length tasks) by (rewrite <- L; apply whites_le).
        pose proof (dfs_spec (length tasks) s id L N W B (fun v H => False_ind _ (G v H))) as D.
        destruct (depth_first_search (length tasks) tasks s id) as [s'|e| | |]; cbn [next]; try exact D; try contradiction.
        destruct D as (LA & DN & GR & BL). apply AFTER.
        * rewrite (later_length _ _ LA). exact L.
        * exact BL.
        * intros v H. apply GR in H. exact (G v H).
        * intros v H. destruct (Nat.eq_dec v id) as [->|NE]; [exact DN|].
          apply (later_complete _ _ _ LA), C. lia.
      + destruct (G id N).
      + cbn [next]. apply AFTER; try assumption. intros v H. destruct (Nat.eq_dec v id) as [->|NE]; [exact N|]. apply C. lia.
      + apply nth_error_None in N. lia.
  Qed.

  Lemma check_for_cycles_spec : tasks <> [] ->
    match check_for_cycles tasks with
    | Loads _ => acyclic edge
    | Rejects e => e = DependencyCycle /\ cyclic edge
    | Throws => 127 < length tasks
    | Violates => out_of_range
    | _ => False
    end.
  Proof.
    intro NE. unfold check_for_cycles.
    replace (match tasks with [] => false | _ => true end) with true by (destruct tasks; [congruence|reflexivity]).
    cbn [demand next]. apply loop_spec.
    - reflexivity.
    - apply repeat_length.
    - intros v H. apply nth_error_In, repeat_spec in H. discriminate H.
    - intros v H. apply nth_error_In, repeat_spec in H. discriminate H.
    - intros v H. lia.
  Qed.
End search.
