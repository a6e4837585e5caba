(** * Proofs about the schema check *)

From Coq Require Import String List Bool Arith Lia.
From Verif Require Import Base YamlModel ValidationModel DocumentSpec.
Import ListNotations.
Local Open Scope string_scope.
Local Open Scope nat_scope.

(** ** Trees *)

Lemma height_item : forall l x, In x l -> height x < height (Seq l).
Proof.
  intros l x H. cbn [height]. apply Nat.lt_succ_r. induction l as [|y l IH]; [destruct H|].
  destruct H as [->|H]; [lia|]. specialize (IH H). cbn in *. lia.
Qed.

Lemma height_value : forall l k x, In (k, x) l -> height x < height (Map l).
Proof.
  intros l k x H. cbn [height]. apply Nat.lt_succ_r. induction l as [|[k' y] l IH]; [destruct H|].
  destruct H as [E|H]; [injection E as -> ->; lia|]. specialize (IH H). cbn in *. lia.
Qed.

Lemma height_field : forall y n v, field y n v -> height v < height y.
Proof. intros y n v (l & -> & H). eapply height_value, H. Qed.

Lemma find_entry_In : forall n l v, find_entry n l = Some v -> In (Scalar n, v) l.
Proof.
  induction l as [|[k x] l IH]; intros v H; [discriminate H|]. cbn in H.
  destruct k as [|s|s|s]; try (right; apply IH, H).
  destruct (String.eqb_spec s n) as [->|_]; [injection H as ->; left; reflexivity|right; apply IH, H].
Qed.

Lemma find_entry_None : forall n l, find_entry n l = None -> forall v, ~ In (Scalar n, v) l.
Proof.
  induction l as [|[k x] l IH]; intros H v I; [destruct I|]. cbn in H.
  destruct I as [E|I].
  - injection E as -> ->. rewrite String.eqb_refl in H. discriminate H.
  - destruct k as [|s|s|s]; try (exact (IH H v I)).
    destruct (String.eqb_spec s n); [discriminate H|exact (IH H v I)].
Qed.

Lemma find_entry_unique : forall n l v, NoDup (map fst l) -> In (Scalar n, v) l -> find_entry n l = Some v.
Proof.
  induction l as [|[k x] l IH]; intros v ND I; [destruct I|]. cbn in ND. inversion ND as [|? ? N1 N2]. subst.
  destruct I as [E|I].
  - injection E as -> ->. cbn. rewrite String.eqb_refl. reflexivity.
  - cbn. destruct k as [|s|s|s]; try (apply IH; assumption).
    destruct (String.eqb_spec s n) as [->|_]; [|apply IH; assumption].
    destruct N1. apply in_map_iff. exists (Scalar n, v). auto.
Qed.

(** A subscript, in terms of fields. *)
Lemma subscript_field : forall y n v, subscript y n = Ok (Some v) -> field y n v.
Proof.
  intros [|s|l|l] n v H; try discriminate H. injection H as H. exists l. split; [reflexivity|].
  apply find_entry_In, H.
Qed.

Lemma subscript_none : forall y n, subscript y n = Ok None -> forall v, ~ field y n v.
Proof.
  intros y n H v (l & -> & I). injection H as H. exact (find_entry_None n l H v I).
Qed.

Lemma has_keys_unique : forall ns y n v, has_keys ns y -> field y n v -> subscript y n = Ok (Some v).
Proof.
  intros ns y n v [->|(l & -> & ND & _)] (l' & E & I); [discriminate E|]. injection E as <-.
  cbn. f_equal. apply find_entry_unique; assumption.
Qed.

Lemma has_keys_total : forall ns y n, has_keys ns y -> exists o, subscript y n = Ok o.
Proof. intros ns y n [->|(l & -> & _)]; eexists; reflexivity. Qed.

(** ** What a check accepts *)

(** [accepts c P y]: on [y] the check gives a verdict, and it is success
    exactly when [P] holds. *)
Definition accepts (c : check) (P : yaml -> Prop) (y : yaml) : Prop :=
  forall scope, exists m, c y scope = Ok m /\ (m = None <-> P y).

Lemma accepts_iff : forall c P Q y, (P y <-> Q y) -> accepts c P y -> accepts c Q y.
Proof. intros c P Q y H A scope. destruct (A scope) as (m & E & I). exists m. split; [exact E|]. tauto. Qed.

Lemma try_verdict : forall r k (P Q : Prop),
  (exists m, r = Ok m /\ (m = None <-> P)) -> (P -> exists m, k = Ok m /\ (m = None <-> Q)) ->
  exists m, try r k = Ok m /\ (m = None <-> P /\ Q).
Proof.
  intros r k P Q (m & -> & I) K. unfold try. cbn [bind]. destruct m as [e|].
  - exists (Some e). split; [reflexivity|]. split; [discriminate|]. intros [p _]. apply I in p. discriminate p.
  - destruct K as (m & -> & J); [apply I; reflexivity|]. exists m. split; [reflexivity|]. tauto.
Qed.

Lemma scalar_accepts : forall y, accepts scalar is_text y.
Proof.
  intros [|s|l|l] scope; cbn; unfold error, success.
  - eexists. split; [reflexivity|]. split; [discriminate|intros [s E]; discriminate E].
  - exists None. split; [reflexivity|]. split; [intros _; exists s; reflexivity|reflexivity].
  - eexists. split; [reflexivity|]. split; [discriminate|intros [s E]; discriminate E].
  - eexists. split; [reflexivity|]. split; [discriminate|intros [s E]; discriminate E].
Qed.

Lemma items_accept : forall c (P : yaml -> Prop) l, (forall x, In x l -> accepts c P x) -> forall scope i,
  exists m, check_items c scope i l = Ok m /\ (m = None <-> Forall P l).
Proof.
  induction l as [|x l IH]; intros A scope i; cbn [check_items].
  - exists None. split; [reflexivity|]. split; auto.
  - destruct (try_verdict (c x (scope ++ "[" ++ index_text i ++ "]")) (check_items c scope (S i) l) (P x) (Forall P l))
      as (m & E & I).
    + apply A. left. reflexivity.
    + intros _. apply IH. intros y H. apply A. right. exact H.
    + exists m. split; [exact E|]. rewrite I. split; [intros []; auto|]. intro F. inversion F. auto.
Qed.

Lemma sequence_accepts : forall c (P : yaml -> Prop) y,
  (forall l x, y = Seq l -> In x l -> accepts c P x) ->
  accepts (sequence c) (fun y => exists l, y = Seq l /\ Forall P l) y.
Proof.
  intros c P y A scope. unfold sequence, error.
  destruct y as [|s|l|l];
    try (eexists; split; [reflexivity|]; split; [discriminate|intros (l' & E & _); discriminate E]).
  destruct (items_accept c P l (fun x => A l x eq_refl) scope 0) as (m & E & I).
  exists m. split; [exact E|]. rewrite I. split; [eauto|]. intros (l' & E' & F). injection E' as <-. exact F.
Qed.

Lemma values_accept : forall c (P : yaml -> Prop) l, (forall k x, In (k, x) l -> accepts c P x) -> forall scope,
  exists m, check_values c scope l = Ok m /\ (m = None <-> forall k x, In (k, x) l -> P x).
Proof.
  induction l as [|[k x] l IH]; intros A scope; cbn [check_values].
  - exists None. split; [reflexivity|]. split; [intros _ k x []|auto].
  - destruct (try_verdict (c x (join scope (scalar_of k))) (check_values c scope l) (P x)
        (forall k x, In (k, x) l -> P x)) as (m & E & I).
    + apply (A k). left. reflexivity.
    + intros _. apply IH. intros k' y H. apply (A k'). right. exact H.
    + exists m. split; [exact E|]. rewrite I. split.
      * intros [p q] k' x' [e|i]; [injection e as <- <-; exact p|eapply q, i].
      * intro F. split; [apply (F k); left; reflexivity|]. intros k' x' i. apply (F k'). right. exact i.
Qed.

Lemma any_of_accepts : forall c1 c2 (P Q : yaml -> Prop) y, accepts c1 P y -> accepts c2 Q y ->
  accepts (any_of c1 c2) (fun y => P y \/ Q y) y.
Proof.
  intros c1 c2 P Q y A B scope. destruct (A scope) as (m & E & I). unfold any_of. rewrite E. cbn [bind].
  destruct m as [e|].
  - destruct (B scope) as (m & E' & J). exists m. split; [exact E'|]. split; [tauto|].
    intros [p|q]; [apply I in p; discriminate p|tauto].
  - exists None. split; [reflexivity|]. tauto.
Qed.

(** *** Maps with given attributes *)

Lemma existsb_In : forall n l, existsb (String.eqb n) l = true <-> In n l.
Proof.
  intros n l. rewrite existsb_exists. split.
  - intros (x & I & E). apply String.eqb_eq in E. subst. exact I.
  - intro I. exists n. split; [exact I|apply String.eqb_refl].
Qed.

Lemma existsb_attr : forall n l, existsb (fun a => String.eqb n (attr_name a)) l = true <-> In n (map attr_name l).
Proof.
  intros n l. rewrite existsb_exists, in_map_iff. split.
  - intros (x & I & E). apply String.eqb_eq in E. exists x. auto.
  - intros (x & E & I). exists x. split; [exact I|]. apply String.eqb_eq. auto.
Qed.

Lemma names_accept : forall attrs scope l seen, ~ In "" (map attr_name attrs) ->
  exists m, check_names attrs scope seen l = Ok m /\
    (m = None <->
     NoDup (map fst l) /\
     Forall (fun e => exists n, fst e = Scalar n /\ In n (map attr_name attrs)) l /\
     forall n v, In (Scalar n, v) l -> ~ In n seen).
Proof.
  intros attrs scope l. induction l as [|[k v] l IH]; intros seen NE; cbn [check_names].
  - exists None. split; [reflexivity|]. split; [|reflexivity]. intros _. split; [constructor|]. split; [constructor|].
    intros n v [].
  - set (good := NoDup (map fst ((k, v) :: l)) /\
       Forall (fun e => exists n, fst e = Scalar n /\ In n (map attr_name attrs)) ((k, v) :: l) /\
       forall n v0, In (Scalar n, v0) ((k, v) :: l) -> ~ In n seen).
    assert (STOP : (forall s, k = Scalar s -> In s seen \/ ~ In s (map attr_name attrs)) -> forall c,
      exists m, error c scope = Ok m /\ (m = None <-> good)).
    { intros B c. eexists. split; [reflexivity|]. split; [discriminate|].
      intros (_ & F & N). inversion F as [|? ? (n & E & I) _]. subst. cbn in E.
      destruct (B n E) as [S|S]; [|contradiction]. subst k. destruct (N n v (or_introl eq_refl) S). }
    destruct k as [|s|ks|ks]; cbn [scalar_of]; try (apply STOP; intros s E; discriminate E).
    assert (NS0 : forall A (a b : A), s <> "" -> match s with "" => a | String _ _ => b end = b)
      by (intros A a b H; destruct s; [congruence|reflexivity]).
    destruct (string_dec s "") as [->|SN]; [apply STOP; intros s' E; injection E as <-; right; exact NE|].
    rewrite NS0 by exact SN. clear NS0. destruct (existsb (String.eqb s) seen) eqn:SE.
    { apply STOP. intros s' E. injection E as <-. left. apply existsb_In, SE. }
    destruct (existsb (fun a => String.eqb s (attr_name a)) attrs) eqn:AE.
    2:{ apply STOP. intros s' E. injection E as <-. right. intro I. apply existsb_attr in I. congruence. }
    destruct (IH (s :: seen) NE) as (m & E & I). exists m. split; [exact E|]. rewrite I.
    apply existsb_attr in AE.
    assert (NS : ~ In s seen) by (intro H; apply existsb_In in H; congruence).
    unfold good. split.
    + intros (ND & F & N). split; [|split].
      * cbn. constructor; [|exact ND]. intro H. apply in_map_iff in H. destruct H as ([k' v'] & E' & H).
        cbn in E'. subst k'. apply (N s v' H). left. reflexivity.
      * constructor; [exists s; auto|exact F].
      * intros n v0 [E'|H] S; [injection E' as -> ->; contradiction|]. apply (N n v0 H). right. exact S.
    + intros (ND & F & N). cbn in ND. inversion ND as [|? ? N1 N2]. subst x l0. inversion F. subst x l0.
      split; [exact N2|]. split; [assumption|]. intros n v0 H [S|S].
      * subst n. apply N1. apply in_map_iff. exists (Scalar s, v0). auto.
      * apply (N n v0); [right; exact H|exact S].
Qed.

(** What the fields must satisfy. *)
Inductive demand := Must (name : string) (P : yaml -> Prop) | May (name : string) (P : yaml -> Prop).

Definition met (d : demand) (y : yaml) : Prop :=
  match d with Must n P => DocumentSpec.required y n P | May n P => DocumentSpec.optional y n P end.

Definition answers (a : attribute) (d : demand) (y : yaml) : Prop :=
  match a, d with
  | Required n c, Must n' P | Optional n c, May n' P =>
      n = n' /\ forall v, field y n v -> accepts c P v
  | _, _ => False
  end.

Lemma attr_accepts : forall ns a d y, has_keys ns y -> answers a d y -> accepts (attr_check a) (met d) y.
Proof.
  intros ns a d y K A scope. destruct a as [n c|n c], d as [n' P|n' P]; cbn in A; try contradiction;
    destruct A as [<- A]; cbn [attr_check met]; destruct (has_keys_total ns y n K) as [[v|] E]; rewrite E; cbn [bind].
  - pose proof (subscript_field y n v E) as F. destruct (A v F (join scope n)) as (m & -> & I).
    exists m. split; [reflexivity|]. rewrite I. split; [exists v; auto|].
    intros (v' & F' & H). pose proof (has_keys_unique ns y n v' K F') as E'. congruence.
  - eexists. split; [reflexivity|]. split; [discriminate|]. intros (v & F & _).
    destruct (subscript_none y n E v F).
  - pose proof (subscript_field y n v E) as F. destruct (A v F (join scope n)) as (m & -> & I).
    exists m. split; [reflexivity|]. rewrite I. split; [|auto].
    intros H v' F'. pose proof (has_keys_unique ns y n v' K F') as E'. congruence.
  - exists None. split; [reflexivity|]. split; [|reflexivity]. intros _ v F. destruct (subscript_none y n E v F).
Qed.

Lemma attrs_accept : forall ns y scope attrs ds, has_keys ns y -> Forall2 (fun a d => answers a d y) attrs ds ->
  exists m, check_attrs attrs y scope = Ok m /\ (m = None <-> Forall (fun d => met d y) ds).
Proof.
  intros ns y scope attrs ds K A. induction A as [|a d attrs ds H A IH]; cbn [check_attrs].
  - exists None. split; [reflexivity|]. split; auto.
  - destruct (try_verdict (attr_check a y scope) (check_attrs attrs y scope) (met d y) (Forall (fun d => met d y) ds))
      as (m & E & I).
    + exact (attr_accepts ns a d y K H scope).
    + intros _. exact IH.
    + exists m. split; [exact E|]. rewrite I. split; [intros []; auto|]. intro F. inversion F. auto.
Qed.

Lemma attributes_accept : forall attrs ds y, ~ In "" (map attr_name attrs) ->
  Forall2 (fun a d => answers a d y) attrs ds ->
  accepts (attributes attrs) (fun y => has_keys (map attr_name attrs) y /\ Forall (fun d => met d y) ds) y.
Proof.
  intros attrs ds y NE A scope. unfold attributes.
  assert (B : (forall s, y <> Scalar s) -> (forall l, y <> Seq l) ->
    exists m, try (check_names attrs scope [] (entries_of y)) (check_attrs attrs y scope) = Ok m /\
      (m = None <-> has_keys (map attr_name attrs) y /\ Forall (fun d => met d y) ds)).
  { intros N1 N2. apply try_verdict.
    - destruct (names_accept attrs scope (entries_of y) [] NE) as (m & E & I). exists m. split; [exact E|].
      rewrite I. clear - N1 N2. destruct y as [|s|l|l]; [|destruct (N1 s eq_refl)|destruct (N2 l eq_refl)|].
      + split; [left; reflexivity|]. intros _. cbn. split; [constructor|]. split; [constructor|]. intros n v [].
      + cbn [entries_of]. split.
        * intros (ND & F & _). right. exists l. auto.
        * intros [E|(l' & E & ND & F)]; [discriminate E|]. injection E as <-. split; [exact ND|]. split; [exact F|].
          intros n v _ [].
    - intro K. exact (attrs_accept _ y scope attrs ds K A). }
  destruct y as [|s|l|l].
  - apply B; discriminate.
  - eexists. split; [reflexivity|]. split; [discriminate|]. intros [[E|(l & E & _)] _]; discriminate E.
  - eexists. split; [reflexivity|]. split; [discriminate|]. intros [[E|(l' & E & _)] _]; discriminate E.
  - apply B; discriminate.
Qed.

(** ** The schema *)

Lemma min_max_accepts : forall y, accepts min_max
  (fun y => has_keys ["min"; "max"] y /\ DocumentSpec.required y "min" is_text /\ DocumentSpec.required y "max" is_text) y.
Proof.
  intro y. apply (accepts_iff _ (fun y => has_keys (map attr_name [Required "min" scalar; Required "max" scalar]) y /\
    Forall (fun d => met d y) [Must "min" is_text; Must "max" is_text])).
  - split.
    + intros [K F]. split; [exact K|]. inversion F as [|? ? M1 F1]. inversion F1 as [|? ? M2 _]. subst. auto.
    + intros (K & M1 & M2). split; [exact K|]. auto.
  - apply attributes_accept; [intros [E|[E|[]]]; discriminate E|].
    constructor; [|constructor; [|constructor]]; (split; [reflexivity|]); intros v _; apply scalar_accepts.
Qed.

Lemma range_accepts : forall y, accepts (any_of min_max scalar) is_range y.
Proof.
  intro y. eapply accepts_iff; [|apply any_of_accepts; [apply min_max_accepts|apply scalar_accepts]].
  unfold is_range. cbv beta. tauto.
Qed.

Lemma texts_accepts : forall y, accepts (sequence scalar) is_texts y.
Proof. intro y. apply sequence_accepts. intros l x _ _. apply scalar_accepts. Qed.

Definition agent_attrs : list attribute :=
  [Optional "performance" (any_of min_max scalar); Optional "groups" (sequence scalar)].

Lemma agent_accepts : forall y, accepts (attributes agent_attrs) agent_shape y.
Proof.
  intro y. apply (accepts_iff _ (fun y => has_keys (map attr_name agent_attrs) y /\
    Forall (fun d => met d y) [May "performance" is_range; May "groups" is_texts])).
  - split.
    + intros [K F]. split; [exact K|]. inversion F as [|? ? M1 F1]. inversion F1 as [|? ? M2 _]. subst. auto.
    + intros (K & M1 & M2). split; [exact K|]. auto.
  - apply attributes_accept; [intros [E|[E|[]]]; discriminate E|].
    constructor; [|constructor; [|constructor]]; (split; [reflexivity|]); intros v _;
      [apply range_accepts|apply texts_accepts].
Qed.

Lemma agents_accepts : forall y, accepts (values (attributes agent_attrs)) agents_shape y.
Proof.
  intros y scope. unfold values. destruct y as [|s|l|l];
    try (eexists; split; [reflexivity|]; split; [discriminate|intros (l' & E & _); discriminate E]).
  destruct (values_accept (attributes agent_attrs) agent_shape l (fun _ x _ => agent_accepts x) scope) as (m & E & I).
  exists m. split; [exact E|]. rewrite I. split.
  - intro H. exists l. auto.
  - intros (l' & E' & H). injection E' as <-. exact H.
Qed.

Definition task_attrs (subtasks : check) : list attribute := [
  Optional "group" scalar;
  Optional "groups" (sequence scalar);
  Optional "agent" scalar;
  Required "name" scalar;
  Optional "id" scalar;
  Optional "depends_on" (any_of scalar (sequence scalar));
  Required "duration" (any_of min_max scalar);
  Optional "subtasks" subtasks].

Lemma task_accepts : forall sub y, (forall v, field y "subtasks" v -> accepts sub tasks_shape v) ->
  accepts (attributes (task_attrs sub)) (fun y => own_shape y /\ forall v, field y "subtasks" v -> tasks_shape v) y.
Proof.
  intros sub y S.
  apply (accepts_iff _ (fun y => has_keys (map attr_name (task_attrs sub)) y /\
    Forall (fun d => met d y)
      [May "group" is_text; May "groups" is_texts; May "agent" is_text; Must "name" is_text; May "id" is_text;
       May "depends_on" (fun v => is_text v \/ is_texts v); Must "duration" is_range; May "subtasks" tasks_shape])).
  - unfold own_shape. split.
    + intros [K F]. inversion F as [|? ? M1 F1]. inversion F1 as [|? ? M2 F2]. inversion F2 as [|? ? M3 F3].
      inversion F3 as [|? ? M4 F4]. inversion F4 as [|? ? M5 F5]. inversion F5 as [|? ? M6 F6].
      inversion F6 as [|? ? M7 F7]. inversion F7 as [|? ? M8 _]. subst.
      split; [|exact M8]. split; [exact K|]. auto 10.
    + intros [(K & M1 & M2 & M3 & M4 & M5 & M6 & M7) M8]. split; [exact K|].
      do 8 (constructor; [assumption|]). constructor.
  - apply attributes_accept; [cbn; intuition discriminate|].
    unfold task_attrs.
    do 8 (constructor; [split; [reflexivity|]; intros v Fv;
      first [exact (S v Fv) | apply scalar_accepts | apply texts_accepts | apply range_accepts
            | apply any_of_accepts; [apply scalar_accepts | apply texts_accepts]]|]).
    constructor.
Qed.

Lemma tasks_accepts : forall fuel y, height y <= fuel -> accepts (validate_task_list fuel) tasks_shape y.
Proof.
  induction fuel as [|fuel IH]; intros y H.
  - destruct y; cbn in H; lia.
  - change (accepts (sequence (attributes (task_attrs (validate_task_list fuel)))) tasks_shape y).
    eapply accepts_iff; [|apply (sequence_accepts _ (fun y => own_shape y /\ forall v, field y "subtasks" v -> tasks_shape v))].
    + split.
      * intros (l & -> & F). rewrite Forall_forall in F. constructor; [intros t I; apply F, I|].
        intros t v I. apply (F t I).
      * intro T. destruct T as [l T1 T2]. exists l. split; [reflexivity|]. apply Forall_forall. intros t I.
        split; [exact (T1 t I)|]. intros v Fv. exact (T2 t v I Fv).
    + intros l x -> I. apply task_accepts. intros v Fv. apply IH.
      pose proof (height_item l x I). pose proof (height_field x _ v Fv). lia.
Qed.

Lemma schema_accepts : forall d, exists m, validate_configuration d = Ok m /\ (m = None <-> document_shape d).
Proof.
  intro d. unfold validate_configuration. fold agent_attrs.
  pose (attrs := [Required "agents" (values (attributes agent_attrs)); Required "tasks" (validate_task_list (height d))]).
  assert (A : accepts (attributes attrs) document_shape d).
  { apply (accepts_iff _ (fun y => has_keys (map attr_name attrs) y /\
      Forall (fun d => met d y) [Must "agents" agents_shape; Must "tasks" tasks_shape])).
    - split.
      + intros [K F]. split; [exact K|]. inversion F as [|? ? M1 F1]. inversion F1 as [|? ? M2 _]. subst. auto.
      + intros (K & M1 & M2). split; [exact K|]. auto.
    - apply attributes_accept; [intros [E|[E|[]]]; discriminate E|].
      constructor; [|constructor; [|constructor]]; (split; [reflexivity|]); intros v Fv; [apply agents_accepts|].
      apply tasks_accepts. pose proof (height_field d _ v Fv). lia. }
  exact (A ""%string).
Qed.
