(** * Vocabulary of C74: buffers as plain values

    A buffer is a list of parts; the views of an object are the numbers of
    the parts they show.  There is no storage and no pointer. *)

From Coq Require Import List Arith.
From Verif Require Import Vector2DSpec BufferModel.
Import ListNotations.

Section Values.
Context {T : Type} (zero : T).

(** An object: parts in the order of memory and, for every view, the part
    it shows; or an object that has been moved from. *)
Inductive shape := Parts (parts : list (list T)) (order : list nat) | Husk.

Definition all_of (s : shape) : list T := match s with Parts p _ => concat p | Husk => [] end.

(** Cut a list into parts. *)
Fixpoint parts_of (sizes : list nat) (l : list T) : list (list T) :=
  match sizes with
  | [] => []
  | n :: sizes' => firstn n l :: parts_of sizes' (skipn n l)
  end.

(** A buffer of the given sizes with the elements of [l], as far as they
    reach, and zeros; every view shows its own part. *)
Definition buffer (sizes : list nat) (l : list T) : shape :=
  Parts (parts_of sizes (l ++ repeat zero (list_sum sizes))) (seq 0 (length sizes)).

(** What a statement does to the objects. *)
Inductive shape_step : list (option shape) -> b_op T -> list (option shape) -> Prop :=
| ss_new : forall a sizes, 0 < list_sum sizes ->
    shape_step a (BNew sizes) (a ++ [Some (buffer sizes [])])
| ss_reshape : forall a i s sizes fresh, nth_error a i = Some (Some s) -> 0 < list_sum sizes ->
    shape_step a (BReshape i sizes fresh) (replace i (Some (buffer sizes (all_of s))) a)
| ss_copy : forall a i s sizes, nth_error a i = Some (Some s) -> 0 < list_sum sizes ->
    shape_step a (BCopy i sizes) (a ++ [Some (buffer sizes (all_of s))])
| ss_move : forall a i s, nth_error a i = Some (Some s) ->
    shape_step a (BMove i) (replace i (Some Husk) a ++ [Some s])
| ss_copy_assign : forall a i j s s' sizes fresh, nth_error a i = Some (Some s) -> nth_error a j = Some (Some s') ->
    0 < list_sum sizes ->
    shape_step a (BCopyAssign i j sizes fresh) (replace i (Some (buffer sizes (all_of s'))) a)
| ss_move_self : forall a i s, nth_error a i = Some (Some s) -> shape_step a (BMoveAssign i i) a
| ss_move_assign : forall a i j s s', i <> j -> nth_error a i = Some (Some s) -> nth_error a j = Some (Some s') ->
    shape_step a (BMoveAssign i j) (replace j (Some Husk) (replace i (Some s') a))
| ss_write : forall a i v k x p o r g, nth_error a i = Some (Some (Parts p o)) ->
    nth_error o v = Some r -> nth_error p r = Some g -> k < length g ->
    shape_step a (BWrite i v k x) (replace i (Some (Parts (replace r (replace k x g) p) o)) a)
| ss_fill : forall a i x p o, nth_error a i = Some (Some (Parts p o)) ->
    shape_step a (BFill i x) (replace i (Some (Parts (map (map (fun _ => x)) p) o)) a)
| ss_copy_view : forall a i v w p o r q g g', nth_error a i = Some (Some (Parts p o)) ->
    nth_error o v = Some r -> nth_error o w = Some q -> nth_error p r = Some g -> nth_error p q = Some g' ->
    length g <= length g' ->
    shape_step a (BCopyView i v w) (replace i (Some (Parts (replace q (g ++ skipn (length g) g') p) o)) a)
| ss_swap : forall a i v w p o r q, nth_error a i = Some (Some (Parts p o)) ->
    nth_error o v = Some r -> nth_error o w = Some q ->
    shape_step a (BSwap i v w) (replace i (Some (Parts p (replace w r (replace v q o)))) a)
| ss_destroy : forall a i s, nth_error a i = Some (Some s) ->
    shape_step a (BDestroy i) (replace i None a).

(** A sequence of statements. *)
Inductive shape_run : list (option shape) -> list (b_op T) -> list (option shape) -> Prop :=
| sn_nil : forall a, shape_run a [] a
| sn_cons : forall a o b l c, shape_step a o b -> shape_run b l c -> shape_run a (o :: l) c.

(** [t] is what the views of [s] show. *)
Definition shows_parts (s : shape) (t : list (list T)) : Prop :=
  match s with
  | Parts p o => t = map (fun r => nth r p []) o
  | Husk => False
  end.

(** Views of one block that do not overlap and lie inside its [n]
    elements. *)
Definition apart (v w : view) : Prop :=
  vw_off v + vw_len v <= vw_off w \/ vw_off w + vw_len w <= vw_off v.

(** Every view of an object lies inside the object's own block, which is
    alive and has no other owner; different views do not overlap. *)
Definition safe_views (st : b_state T) : Prop := forall i o b,
  nth_error (bs_objs st) i = Some (Some o) -> ho_data o = Some b ->
  (exists l, nth_error (bs_store st) b = Some (Some l) /\
     Forall (fun v => vw_block v = b /\ vw_off v + vw_len v <= length l) (ho_views o)) /\
  (forall x y v w, nth_error (ho_views o) x = Some v -> nth_error (ho_views o) y = Some w -> x <> y -> apart v w) /\
  (forall j o', nth_error (bs_objs st) j = Some (Some o') -> ho_data o' = Some b -> j = i).

End Values.
Arguments shape : clear implicits.
