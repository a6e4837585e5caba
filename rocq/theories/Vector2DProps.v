(** * Property theorems C22: packed tables behave as values *)

From Coq Require Import List Arith Bool Lia.
From Verif Require Import Base Vector2DModel Vector2DSpec Vector2DProofs.
Import ListNotations.

(** C22: a program that creates, copies, moves, assigns, clears, writes and
    destroys tables runs without touching storage that is not its own
    exactly if it makes sense for plain values, and then every live table
    has the rows it has as a value. *)
Theorem tables_are_values : forall l,
  (forall a, value_run [] l a -> exists st, v_run v_start l = Ok st /\
     forall i t, v_table st i = Ok t <-> nth_error a i = Some (Some t)) /\
  (forall st, v_run v_start l = Ok st -> exists a, value_run [] l a /\
     forall i t, v_table st i = Ok t <-> nth_error a i = Some (Some t)).
Proof.
  intro l. split.
  - intros a V. destruct (run_value l v_start [] a start_inv V) as (st & E & I). exists st. split; [exact E|].
    intros i t. split; apply (inv_table st a i I).
  - intros st E. destruct (value_run_exists l v_start [] st start_inv E) as (a & V).
    destruct (run_value l v_start [] a start_inv V) as (st' & E' & I). rewrite E in E'. injection E' as <-.
    exists a. split; [exact V|]. intros i t. split; apply (inv_table st a i I).
Qed.
Print Assumptions tables_are_values.

Lemma reach_inv : forall l st, v_run v_start l = Ok st -> exists a, inv st a.
Proof.
  intros l st E. destruct (value_run_exists l v_start [] st start_inv E) as (a & V).
  destruct (run_value l v_start [] a start_inv V) as (st' & E' & I). rewrite E in E'. injection E' as <-. eauto.
Qed.

(** C22: a copy has the same rows as the original, which keeps its rows. *)
Theorem copy_faithful : forall l st i t, v_run v_start l = Ok st -> v_table st i = Ok t ->
  exists st', v_step st (VCopy i) = Ok st' /\
    v_table st' (length (vs_objs st)) = Ok t /\ v_table st' i = Ok t.
Proof.
  intros l st i t E T. destruct (reach_inv l st E) as (a & I).
  pose proof (proj2 (inv_table st a i I) t T) as A.
  destruct (step_value st a (VCopy i) (a ++ [Some t]) I) as (st' & S & I'); [constructor; exact A|].
  exists st'. split; [exact S|]. rewrite (in_length _ _ I). split.
  - apply (inv_table st' _ _ I'). rewrite nth_error_app2, Nat.sub_diag by lia. reflexivity.
  - apply (inv_table st' _ _ I'). rewrite nth_error_app1 by (eapply nth_error_lt; exact A). exact A.
Qed.
Print Assumptions copy_faithful.

Lemma value_step_keeps : forall a o a' k t, value_step a o a' -> ~ changes o k ->
  nth_error a k = Some (Some t) -> nth_error a' k = Some (Some t).
Proof.
  intros a o a' k t V N A. pose proof (nth_error_lt _ _ _ _ A) as L.
  destruct V; cbn [changes] in N;
    rewrite ?nth_error_app1 by (rewrite ?replace_length; exact L);
    rewrite ?nth_replace_other by (intro Q; subst; tauto); auto.
Qed.

(** C22: whatever happens later to other tables, including destruction of
    the table it was copied from, the rows of a table stay as they are. *)
Theorem table_independent : forall l st k t l' st', v_run v_start l = Ok st -> v_table st k = Ok t ->
  v_run st l' = Ok st' -> Forall (fun o => ~ changes o k) l' -> v_table st' k = Ok t.
Proof.
  intros l st k t l' st' E T E' F. destruct (reach_inv l st E) as (a & I). clear E.
  pose proof (proj2 (inv_table st a k I) t T) as A. clear T. revert st a I A E'.
  induction F as [|o l' N F IH]; intros st a I A E'; cbn [v_run] in E'.
  - injection E' as <-. apply (inv_table st a k I), A.
  - destruct (v_step st o) as [st1| |] eqn:S; try discriminate. cbn [bind] in E'.
    destruct (value_exists st a o st1 I S) as (a1 & V). destruct (step_value st a o a1 I V) as (st1' & S' & I1).
    rewrite S in S'. injection S' as <-. apply (IH st1 a1 I1); [|exact E'].
    exact (value_step_keeps _ _ _ _ _ V N A).
Qed.
Print Assumptions table_independent.

(** C22: assignment gives the target the rows of the source, which keeps
    them; assigning a table to itself changes nothing. *)
Theorem assign_faithful : forall l st i j t u, v_run v_start l = Ok st ->
  v_table st i = Ok t -> v_table st j = Ok u ->
  exists st', v_step st (VCopyAssign i j) = Ok st' /\ v_table st' i = Ok u /\ v_table st' j = Ok u.
Proof.
  intros l st i j t u E T U. destruct (reach_inv l st E) as (a & I).
  pose proof (proj2 (inv_table st a i I) t T) as A. pose proof (proj2 (inv_table st a j I) u U) as B.
  destruct (step_value st a (VCopyAssign i j) (replace i (Some u) a) I) as (st' & S & I'); [econstructor; eassumption|].
  exists st'. split; [exact S|]. pose proof (nth_error_lt _ _ _ _ A) as L.
  split; apply (inv_table st' _ _ I').
  - apply nth_replace_same, L.
  - destruct (Nat.eq_dec j i) as [->|N]; [apply nth_replace_same, L|].
    rewrite nth_replace_other by exact N. exact B.
Qed.
Print Assumptions assign_faithful.

Theorem move_self : forall l st i t, v_run v_start l = Ok st -> v_table st i = Ok t ->
  v_step st (VMoveAssign i i) = Ok st.
Proof.
  intros l st i t E T. unfold v_table in T. cbn [v_step].
  destruct (v_get st i) as [v| |]; try discriminate. cbn [bind]. rewrite Nat.eqb_refl. reflexivity.
Qed.
Print Assumptions move_self.

Lemma cut_concat : forall t, cut (concat t) (map (@length nat) t) = t.
Proof.
  induction t as [|r t IH]; cbn [concat map cut]; [reflexivity|].
  rewrite firstn_app, firstn_all, Nat.sub_diag, skipn_app, skipn_all, Nat.sub_diag. cbn [firstn skipn app].
  rewrite app_nil_r, IH. reflexivity.
Qed.

(** Packing: the table built from the concatenation of some rows and their
    lengths (as the tables of available agents and of dependencies are)
    has these rows. *)
Theorem packing : forall l st t, v_run v_start l = Ok st ->
  exists st', v_step st (VFrom (concat t) (map (@length nat) t)) = Ok st' /\
    v_table st' (length (vs_objs st)) = Ok t.
Proof.
  intros l st t E. destruct (reach_inv l st E) as (a & I).
  destruct (step_value st a (VFrom (concat t) (map (@length nat) t)) (a ++ [Some t]) I) as (st' & S & I').
  - rewrite <- (cut_concat t) at 3. constructor. clear. induction t as [|r t IH]; cbn; [lia|].
    rewrite app_length. unfold total in IH. lia.
  - exists st'. split; [exact S|]. rewrite (in_length _ _ I). apply (inv_table st' _ _ I').
    rewrite nth_error_app2, Nat.sub_diag by lia. reflexivity.
Qed.
Print Assumptions packing.

(** Concrete program: rows [[1; 2]; []; [3]], a copy, the original is
    overwritten, cleared and destroyed, the copy is assigned to itself and
    written. *)
Definition ex_program : list v_op :=
  [VFrom [1; 2; 3; 9] [2; 0; 1]; VCopy 0; VWrite 0 2 0 7; VCopyAssign 1 1; VNew; VCopyAssign 2 0;
   VClear 0; VDestroy 0; VWrite 1 0 1 5; VMove 2].

Definition ex_state : v_state := result_or v_start (v_run v_start ex_program).

Example ex_program_runs : v_run v_start ex_program = Ok ex_state /\
  v_table ex_state 1 = Ok [[1; 5]; []; [3]] /\ v_table ex_state 2 = Ok [] /\
  v_table ex_state 3 = Ok [[1; 2]; []; [7]] /\ v_table ex_state 0 = Broken.
Proof. vm_compute. repeat (split; [reflexivity|]). reflexivity. Qed.

Example ex_unchanged : Forall (fun o => ~ changes o 1) [VWrite 0 2 0 7; VClear 0; VDestroy 0].
Proof.
  apply Forall_forall. intros o [<-|[<-|[<-|[]]]]; cbn; discriminate.
Qed.

Example ex_wrong : v_run v_start [VFrom [1] [1]; VCopy 0; VDestroy 0; VWrite 0 0 0 1] = Broken.
Proof. reflexivity. Qed.
