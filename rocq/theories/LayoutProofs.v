(** * Proofs about the flattening of nested tasks *)

From Coq Require Import String List Bool Arith Lia.
From Verif Require Import Base ProjectModel YamlModel DocumentSpec ValidationProofs LoadSpec.
Import ListNotations.
Local Open Scope string_scope.
Local Open Scope nat_scope.

Scheme layout_mut := Minimality for layout Sort Prop
  with layouts_mut := Minimality for layouts Sort Prop.
Combined Scheme layout_layouts_ind from layout_mut, layouts_mut.

Lemma field_unique : forall ns y n v w, has_keys ns y -> field y n v -> field y n w -> v = w.
Proof.
  intros ns y n v w K V W. pose proof (has_keys_unique _ _ _ _ K V). pose proof (has_keys_unique _ _ _ _ K W). congruence.
Qed.

Lemma field_absent : forall y n v, field y n v -> absent y n -> False.
Proof. intros y n v F A. exact (A v F). Qed.

(** Direct subtasks come after their task and exist. *)
Lemma layout_range :
  (forall pos t es, layout pos t es ->
     0 < length es /\ forall e k, In e es -> In k (snd e) -> pos < k < pos + length es) /\
  (forall pos ts kids es, layouts pos ts kids es ->
     (forall k, In k kids -> pos <= k < pos + length es) /\
     forall e k, In e es -> In k (snd e) -> pos < k < pos + length es).
Proof.
  apply layout_layouts_ind.
  - intros pos t A. split; [cbn; lia|]. intros e k [<-|[]] [].
  - intros pos t subs kids es F L [IH1 IH2]. split; [cbn; lia|]. cbn [length]. intros e k [<-|I] K.
    + cbn [snd] in K. specialize (IH1 k K). lia.
    + specialize (IH2 e k I K). lia.
  - intro pos. split; [intros k []|intros e k []].
  - intros pos t ts es kids es' L [P IH1] LS [IH2 IH3]. rewrite app_length. split.
    + intros k [<-|I]; [lia|]. specialize (IH2 k I). lia.
    + intros e k I K. apply in_app_or in I. destruct I as [I|I].
      * specialize (IH1 e k I K). lia.
      * specialize (IH3 e k I K). lia.
Qed.

(** Every entry has the shape of a task. *)
Lemma layout_shape :
  (forall pos t es, layout pos t es -> own_shape t -> (forall v, field t "subtasks" v -> tasks_shape v) ->
     Forall (fun e => own_shape (fst e)) es) /\
  (forall pos ts kids es, layouts pos ts kids es -> tasks_shape (Seq ts) -> Forall (fun e => own_shape (fst e)) es).
Proof.
  apply layout_layouts_ind.
  - intros pos t A S _. constructor; [exact S|constructor].
  - intros pos t subs kids es F L IH S SUB. constructor; [exact S|]. apply IH, SUB, F.
  - constructor.
  - intros pos t ts es kids es' L IH LS IHs S. inversion S as [l A B]; subst.
    apply Forall_app. split.
    + apply IH; [apply A; left; reflexivity|]. intros v F. apply (B t v (or_introl eq_refl) F).
    + apply IHs. constructor.
      * intros x I. apply A. right. exact I.
      * intros x v I F. exact (B x v (or_intror I) F).
Qed.

Lemma shape_keys : forall t, own_shape t ->
  has_keys ["group"; "groups"; "agent"; "name"; "id"; "depends_on"; "duration"; "subtasks"] t.
Proof. intros t S. exact (proj1 S). Qed.

(** There is only one flattening. *)
Lemma layout_fun :
  (forall pos t es, layout pos t es -> own_shape t -> (forall v, field t "subtasks" v -> tasks_shape v) ->
     forall es', layout pos t es' -> es' = es) /\
  (forall pos ts kids es, layouts pos ts kids es -> tasks_shape (Seq ts) ->
     forall kids' es', layouts pos ts kids' es' -> kids' = kids /\ es' = es).
Proof.
  apply layout_layouts_ind.
  - intros pos t A S _ es' L. inversion L as [|p u subs kids es F L']; subst; [reflexivity|]. destruct (A _ F).
  - intros pos t subs kids es F L IH S SUB es' L'. inversion L' as [p u A|p u subs' kids' es2 F' L2]; subst.
    + destruct (A _ F).
    + pose proof (field_unique _ _ _ _ _ (shape_keys t S) F F') as E. injection E as <-.
      destruct (IH (SUB _ F) _ _ L2) as [-> ->]. reflexivity.
  - intros pos S kids' es' L. inversion L. auto.
  - intros pos t ts es kids es1 L IH LS IHs S kids' es' L'. inversion S as [l A B]; subst.
    inversion L' as [|p u us es2 kids2 es3 L2 LS2]; subst.
    assert (E : es2 = es).
    { apply IH; [apply A; left; reflexivity| |exact L2]. intros v F. exact (B t v (or_introl eq_refl) F). }
    subst es2.
    assert (S' : tasks_shape (Seq ts)).
    { constructor; [intros x I; apply A; right; exact I|intros x v I F; exact (B x v (or_intror I) F)]. }
    destruct (IHs S' _ _ LS2) as [-> ->]. auto.
Qed.

(** There is a flattening. *)
Lemma layout_exists : forall v, tasks_shape v -> forall ts pos, v = Seq ts -> exists kids es, layouts pos ts kids es.
Proof.
  intros v S. induction S as [l A SUB IH]. intros ts pos E. injection E as <-. revert pos.
  assert (G : forall l', incl l' l -> forall pos, exists kids es, layouts pos l' kids es).
  { induction l' as [|t l' IHl]; intros I pos; [exists [], []; constructor|].
    assert (T : In t l) by (apply I; left; reflexivity).
    assert (ONE : exists es, layout pos t es).
    { destruct (has_keys_total _ _ "subtasks" (shape_keys t (A t T))) as [[v|] E].
      - apply subscript_field in E. pose proof (SUB t v T E) as X. pose proof (IH t v T E) as Y.
        inversion X as [subs A2 B2]; subst. destruct (Y subs (S pos) eq_refl) as (kids & es & L).
        exists ((t, kids) :: es). econstructor; eassumption.
      - exists [(t, [])]. constructor. exact (subscript_none _ _ E). }
    destruct ONE as (es & L). destruct (IHl ltac:(intros x Hx; apply I; right; exact Hx) (pos + length es)) as (kids & es' & LS).
    exists (pos :: kids), (es ++ es')%list. constructor; assumption. }
  apply G. apply incl_refl.
Qed.
