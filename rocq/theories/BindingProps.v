(** * Property theorems C34 (independence) and C70: memory shared by
      optimizers and jobs *)

From Coq Require Import List ZArith Bool Arith Lia.
From Flocq Require Import BinarySingleNaN.
From Verif Require Import Base F32 ProjectModel ScheduleModel ScheduleSpec MutatorModel MakespanModel
  TemperatureModel StunModel SearchSpec StunProofs StunProps OptimizerModel OptimizerSpec OptimizerProofs
  OptimizerProps BindingModel BindingSpec BindingProofs BindingEffects.
Import ListNotations.

(** ** Examples: a source that counts how often it was used; from the third
    mutation on it yields the numbers of [ex_improve] *)

Definition ex_source : source nat :=
  {| so_draws := fun _ _ g => (if g <? 3 then Draws 0 0 0 else lk_draws ex_improve, S g);
     so_uniform := fun g => (f_half, g) |}.

Definition no_world : world nat := empty_world nat.
Definition ex_order : list nat := [0; 0; 0].

(** One optimizer with one job, and a copy of it. *)
Definition ex_history : list (@command nat) := [New ex2_params ex_options [0]; Copy 0].
Definition ex_w : world nat := result_or no_world (execute_all ex_source step_exp no_world ex_history).

Example ex_w_reached : execute_all ex_source step_exp no_world ex_history = Ok ex_w.
Proof. apply result_or_ok. vm_compute. reflexivity. Qed.

(** The makespan an optimizer in memory reports. *)
Definition reported {G} (w : world G) (x : nat) : outcome f32 := z <- value_of w x ;; optimizer_best z.

Definition less (x y : outcome f32) : bool :=
  match x, y with Ok a, Ok b => f_lt a b | _, _ => false end.

(** ** C70 *)

(** C70: in every history of constructions, updates, resets, rebindings,
    copies, moves and destructions, with any interleaving of the jobs, the
    pointers of a job to its mutator, makespan evaluator and temperature
    lead to that job itself. *)
Theorem jobs_use_own_parts : forall G (gs : source G) o cs w a s,
  execute_all gs o (empty_world G) cs = Ok w -> cell (w_memory w) a = Some s ->
  own_parts a (sl_pointers s).
Proof.
  intros G gs o cs w a s H C. apply (gd_parts w (execute_all_good gs o cs _ w good_empty H) a s C).
Qed.
Print Assumptions jobs_use_own_parts.

Example ex_jobs_use_own_parts :
  option_map (fun s => sl_pointers s) (cell (w_memory ex_w) (1, 0)) =
  Some {| pt_mutator_random := (0, 0); pt_mutator := (1, 0); pt_random := (0, 0);
          pt_makespan := (1, 0); pt_temp := (1, 0) |}.
Proof. vm_compute. reflexivity. Qed.

(** C70: the jobs of a new optimizer draw from their own sources, and so it
    stays: whatever is done afterwards with this and other optimizers, the
    jobs of [x] never use another source.  The moved-to optimizer takes this
    over, and [params] restores it. *)
Theorem sources_stay_own : forall G (gs : source G) o cs w c w' x,
  execute_all gs o (empty_world G) cs = Ok w -> execute gs o w c = Ok w' ->
  (x < length (w_objects w) -> owns_sources w x -> owns_sources w' x) /\
  match c with
  | New _ _ _ => owns_sources w' (length (w_objects w))
  | Move y => owns_sources w y -> owns_sources w' (length (w_objects w))
  | Rebind y _ => owns_sources w' y
  | _ => True
  end.
Proof.
  intros G gs o cs w c w' x H E. pose proof (execute_all_good gs o cs _ w good_empty H) as Gd.
  split.
  - intros L OW. apply (kept_owns w w' (target w c) x Gd (execute_kept gs o w c w' Gd E) L OW).
  - destruct c; auto.
    + apply (new_effect gs o w p op seeds w' Gd E).
    + apply (rebind_effect gs o w x0 p w' Gd E).
    + apply (move_effect gs o w x0 w' Gd E).
Qed.
Print Assumptions sources_stay_own.

(** C70: an iteration of a job that uses its own parts and its own source
    reads and writes nothing but its own slot: what it does is a function of
    this slot alone.  Hence the parallel jobs of an optimizer that owns its
    sources share no memory that is written. *)
Theorem iterations_are_local : forall G (gs : source G) o,
  exists step : slot G -> outcome (slot G), forall m a s,
    cell m a = Some s -> own_parts a (sl_pointers s) -> own_source a (sl_pointers s) ->
    iterate gs o m a = bind (step s) (write m a).
Proof. intros G gs o. exists (own_step gs o). intros m a s. apply iterate_own. Qed.
Print Assumptions iterations_are_local.

Example ex_iteration : is_ok (iterate ex_source step_exp (w_memory ex_w) (0, 0)) = true /\
  owns_sources ex_w 0 /\
  (forall s, cell (w_memory ex_w) (0, 0) = Some s -> own_parts (0, 0) (sl_pointers s)).
Proof.
  split; [vm_compute; reflexivity|]. split.
  - apply (proj1 (sources_stay_own nat ex_source step_exp [New ex2_params ex_options [0]]
      (result_or no_world (execute_all ex_source step_exp no_world [New ex2_params ex_options [0]])) (Copy 0) ex_w 0
      ltac:(apply result_or_ok; vm_compute; reflexivity) ltac:(apply result_or_ok; vm_compute; reflexivity))).
    + vm_compute. lia.
    + apply (proj2 (sources_stay_own nat ex_source step_exp [] no_world (New ex2_params ex_options [0]) _ 0
        ltac:(reflexivity) ltac:(apply result_or_ok; vm_compute; reflexivity))).
  - intros s C. apply (jobs_use_own_parts _ _ _ _ _ _ _ ex_w_reached C).
Qed.

(** C70: what a command does to the optimizer it is applied to is what
    OptimizerModel.v says about values, with some random numbers, and every
    other optimizer keeps its value. *)
Theorem commands_act_on_values : forall G (gs : source G) o cs w c w',
  execute_all gs o (empty_world G) cs = Ok w -> execute gs o w c = Ok w' ->
  let n := length (w_objects w) in
  match c with
  | New p op seeds => exists z, optimizer_new o p op (length seeds) = Ok z /\ value_of w' n = Ok z
  | Update x _ => exists z ks z', value_of w x = Ok z /\ optimizer_update o z ks = Ok z' /\ value_of w' x = Ok z'
  | Reset x => exists z z', value_of w x = Ok z /\ optimizer_reset o z = Ok z' /\ value_of w' x = Ok z'
  | Rebind x p => exists z z', value_of w x = Ok z /\ optimizer_set_params z p = Ok z' /\ value_of w' x = Ok z'
  | Copy x => exists z z', value_of w x = Ok z /\ optimizer_copy z = Ok z' /\ value_of w' n = Ok z'
  | Move x => exists z, value_of w x = Ok z /\ value_of w' n = Ok z
  | Destroy _ => True
  end /\
  forall y, y < n -> y <> target w c -> value_of w' y = value_of w y.
Proof.
  intros G gs o cs w c w' H E n. pose proof (execute_all_good gs o cs _ w good_empty H) as Gd.
  split; [|exact (kp_others _ _ _ (execute_kept gs o w c w' Gd E))].
  destruct c; auto.
  - apply (new_effect gs o w p op seeds w' Gd E).
  - apply (update_effect gs o w x order w' Gd E).
  - apply (reset_effect gs o w x w' Gd E).
  - apply (rebind_effect gs o w x p w' Gd E).
  - apply (copy_effect gs o w x w' Gd E).
  - apply (move_effect gs o w x w' Gd E).
Qed.
Print Assumptions commands_act_on_values.

Example ex_commands : is_ok (execute ex_source step_exp ex_w (Update 1 ex_order)) = true /\
  is_ok (execute ex_source step_exp ex_w (Reset 0)) = true /\
  is_ok (execute ex_source step_exp ex_w (Rebind 1 ex2_params)) = true /\
  is_ok (execute ex_source step_exp ex_w (Move 0)) = true /\
  is_ok (execute ex_source step_exp ex_w (New ex2_params ex_options [4; 5])) = true.
Proof. repeat split; vm_compute; reflexivity. Qed.

(** C70: hence every optimizer in memory is one of those the theorems
    C30-C38 are about. *)
Lemma objects_count : forall G (gs : source G) o w c w', execute gs o w c = Ok w' ->
  length (w_objects w') = match c with
                          | New _ _ _ | Copy _ | Move _ => S (length (w_objects w))
                          | _ => length (w_objects w)
                          end.
Proof.
  intros G gs o w c w' H. destruct c; cbn [execute] in H.
  - apply bind_ok in H. destruct H as (z & _ & H). injection H as <-. cbn [w_objects]. rewrite app_length. cbn. lia.
  - apply bind_ok in H. destruct H as (ob & _ & H). ok_step H. apply bind_ok in H. destruct H as (l & _ & H).
    ok_step H. ok_step H. apply bind_ok in H. destruct H as (m1 & _ & H). apply bind_ok in H. destruct H as (m2 & _ & H).
    apply bind_ok in H. destruct H as (l2 & _ & H). apply bind_ok in H. destruct H as (z & _ & H). injection H as <-.
    apply set_nth_length.
  - apply bind_ok in H. destruct H as (ob & _ & H). ok_step H. ok_step H. apply bind_ok in H. destruct H as (l & _ & H).
    ok_step H. apply bind_ok in H. destruct H as (m1 & _ & H). injection H as <-. apply set_nth_length.
  - apply bind_ok in H. destruct H as (ob & _ & H). apply bind_ok in H. destruct H as (l & _ & H). ok_step H.
    apply bind_ok in H. destruct H as (l' & _ & H). injection H as <-. reflexivity.
  - apply bind_ok in H. destruct H as (ob & _ & H). apply bind_ok in H. destruct H as (l & _ & H).
    apply bind_ok in H. destruct H as (l' & _ & H). injection H as <-. cbn [w_objects]. rewrite app_length. cbn. lia.
  - apply bind_ok in H. destruct H as (ob & _ & H). injection H as <-. cbn [w_objects].
    rewrite app_length, set_nth_length. cbn. lia.
  - apply bind_ok in H. destruct H as (ob & _ & H). injection H as <-. apply set_nth_length.
Qed.

Definition rebinds {G} (c : @command G) : bool := match c with Rebind _ _ => true | _ => false end.

Lemma reached_values : forall G (gs : source G) o cs w w',
  (forall c, In c cs -> rebinds c = false) -> execute_all gs o w cs = Ok w' -> good w ->
  (forall x z, value_of w x = Ok z -> exists p op threads, optimizer_reached o p op threads z) ->
  (forall x z, value_of w' x = Ok z -> exists p op threads, optimizer_reached o p op threads z).
Proof.
  intros G gs o. induction cs as [|c cs IH]; intros w w' NR H Gd R; cbn [execute_all] in H; [injection H as <-; exact R|].
  apply bind_ok in H. destruct H as (w1 & E & H).
  pose proof (execute_kept gs o w c w1 Gd E) as K.
  apply (IH w1 w'); [intros d Hd; apply NR; right; exact Hd|exact H|apply (kp_good _ _ _ K)|].
  intros x z V.
  assert (Lx : x < length (w_objects w1)).
  { apply value_ok in V. destruct V as (ob & l & A & _). apply nth_error_Some. congruence. }
  destruct (Nat.eq_dec x (target w c)) as [->|N].
  - pose proof (NR c (or_introl eq_refl)) as NB. destruct c; cbn [target] in *.
    + destruct (new_effect gs o w p op seeds w1 Gd E) as (_ & _ & z0 & Z & V'). rewrite V' in V. injection V as <-.
      exists p, op, (length seeds). apply or_new, Z.
    + destruct (update_effect gs o w x order w1 Gd E) as (_ & z0 & ks & z1 & V0 & Z & V'). rewrite V' in V. injection V as <-.
      destruct (R _ _ V0) as (p & op & t & RR). exists p, op, t. apply or_update with z0 ks; assumption.
    + destruct (reset_effect gs o w x w1 Gd E) as (_ & z0 & z1 & V0 & Z & V'). rewrite V' in V. injection V as <-.
      destruct (R _ _ V0) as (p & op & t & RR). exists p, op, t. apply or_reset with z0; assumption.
    + discriminate.
    + destruct (copy_effect gs o w x w1 Gd E) as (_ & z0 & z1 & V0 & Z & V'). rewrite V' in V. injection V as <-.
      destruct (R _ _ V0) as (p & op & t & RR). exists p, op, t. apply or_copy with z0; assumption.
    + exfalso. apply value_ok in V. destruct V as (ob & l & A & _). cbn [execute] in E. apply bind_ok in E.
      destruct E as (ob' & OB & E). injection E as <-. cbn [w_objects] in A. apply object_ok in OB.
      assert (L0 : x < length (w_objects w)) by (apply nth_error_Some; congruence).
      rewrite nth_error_app1 in A by (rewrite set_nth_length; exact L0). rewrite nth_set_same in A by exact L0. discriminate.
    + exfalso. apply value_ok in V. destruct V as (ob & l & A & _). cbn [execute] in E. apply bind_ok in E.
      destruct E as (ob' & OB & E). injection E as <-. cbn [w_objects] in A. apply object_ok in OB.
      assert (L0 : x < length (w_objects w)) by (apply nth_error_Some; congruence).
      rewrite nth_set_same in A by exact L0. discriminate.
  - destruct (Nat.lt_ge_cases x (length (w_objects w))) as [L|L].
    + rewrite (kp_others _ _ _ K x L N) in V. apply (R x z V).
    + rewrite (objects_count _ _ _ _ _ _ E) in Lx. destruct c; cbn [target] in N; try lia.
      assert (x = length (w_objects w)) as -> by lia.
      destruct (move_effect gs o w x0 w1 Gd E) as (_ & _ & z0 & V0 & V'). rewrite V' in V. injection V as <-. apply (R _ _ V0).
Qed.

Theorem optimizers_in_memory : forall G (gs : source G) o cs w x z,
  (forall c, In c cs -> rebinds c = false) -> execute_all gs o (empty_world G) cs = Ok w ->
  value_of w x = Ok z -> exists p op threads, optimizer_reached o p op threads z.
Proof.
  intros G gs o cs w x z NR H. apply (reached_values G gs o cs _ w NR H good_empty).
  intros y u V. apply value_ok in V. destruct V as (ob & l & A & _). destruct y; discriminate.
Qed.
Print Assumptions optimizers_in_memory.

Example ex_optimizers_in_memory : (forall c, In c ex_history -> rebinds c = false) /\
  is_ok (value_of ex_w 0) = true /\ is_ok (value_of ex_w 1) = true.
Proof.
  split; [|split; vm_compute; reflexivity].
  intros c [<-|[<-|[]]]; reflexivity.
Qed.

(** ** C34, independence *)

(** C34, proved part: an update of an optimizer whose jobs draw from their
    own sources changes no other optimizer: neither values nor sources.
    Missing: copies, whose jobs draw from the sources of the original (see
    below); after [params] they are independent too ([sources_stay_own]). *)
Theorem optimizers_independent_partial : forall G (gs : source G) o cs w x order w' ob,
  execute_all gs o (empty_world G) cs = Ok w -> owns_sources w x ->
  nth_error (w_objects w) x = Some (Some ob) -> execute gs o w (Update x order) = Ok w' ->
  forall b, b <> ob_block ob -> nth_error (w_memory w') b = nth_error (w_memory w) b.
Proof.
  intros G gs o cs w x order w' ob H OW OB E.
  apply (update_local gs o w x order w' ob (execute_all_good gs o cs _ w good_empty H) OW OB E).
Qed.
Print Assumptions optimizers_independent_partial.

Example ex_independent : owns_sources ex_w 0 /\ is_ok (execute ex_source step_exp ex_w (Update 0 ex_order)) = true /\
  exists ob, nth_error (w_objects ex_w) 0 = Some (Some ob).
Proof.
  split; [apply ex_iteration|]. split; [vm_compute; reflexivity|].
  destruct (nth_error (w_objects ex_w) 0) as [[ob|]|] eqn:E.
  - exists ob. reflexivity.
  - exfalso. assert (X : match nth_error (w_objects ex_w) 0 with Some (Some _) => true | _ => false end = true) by (vm_compute; reflexivity).
    rewrite E in X. discriminate.
  - exfalso. assert (X : match nth_error (w_objects ex_w) 0 with Some (Some _) => true | _ => false end = true) by (vm_compute; reflexivity).
    rewrite E in X. discriminate.
Qed.

(** C34 is false for copies: an update of the copy uses up random numbers
    of the original, so that the next update of the original gives another
    result than it would have given without. *)
Theorem copy_independent_refuted : exists G (gs : source G) o cs w wa wb w1 order,
  execute_all gs o (empty_world G) (cs ++ [Copy 0]) = Ok w /\
  execute gs o w (Update 0 order) = Ok wa /\
  execute gs o w (Update 1 order) = Ok w1 /\ execute gs o w1 (Update 0 order) = Ok wb /\
  less (reported wb 0) (reported wa 0) = true.
Proof.
  set (wa := result_or no_world (execute ex_source step_exp ex_w (Update 0 ex_order))).
  set (w1 := result_or no_world (execute ex_source step_exp ex_w (Update 1 ex_order))).
  set (wb := result_or no_world (execute ex_source step_exp w1 (Update 0 ex_order))).
  exists nat, ex_source, step_exp, [New ex2_params ex_options [0]], ex_w, wa, wb, w1, ex_order.
  split; [exact ex_w_reached|].
  split; [apply result_or_ok; vm_compute; reflexivity|].
  split; [apply result_or_ok; vm_compute; reflexivity|].
  split; [apply result_or_ok; vm_compute; reflexivity|].
  vm_compute. reflexivity.
Qed.
Print Assumptions copy_independent_refuted.

(** And a copy that outlives the original uses released memory. *)
Theorem copy_outlives_refuted : exists G (gs : source G) o cs w order,
  execute_all gs o (empty_world G) (cs ++ [Copy 0; Destroy 0]) = Ok w /\
  is_ok (value_of w 1) = true /\ execute gs o w (Update 1 order) = Broken /\
  exists w0, execute_all gs o (empty_world G) (cs ++ [Copy 0; Update 1 order]) = Ok w0.
Proof.
  exists nat, ex_source, step_exp, [New ex2_params ex_options [0]],
    (result_or no_world (execute_all ex_source step_exp no_world (ex_history ++ [Destroy 0]))), ex_order.
  split; [apply result_or_ok; vm_compute; reflexivity|].
  split; [vm_compute; reflexivity|]. split; [vm_compute; reflexivity|].
  eexists. apply (result_or_ok _ no_world). vm_compute. reflexivity.
Qed.
Print Assumptions copy_outlives_refuted.
