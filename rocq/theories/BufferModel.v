(** * Model of the buffers with views: [Makespan], [Simulation] and
      [StochasticTunneling]

    Each of these classes owns one [std::vector] and keeps spans that are
    raw pointers into it:
    - [Makespan], stun/utils.h:61-63: [task_done], [work_done];
    - [Simulation], simulation.h:75-79: [agent_performance], [task_duration],
      [agent_work_end], [task_done];
    - [StochasticTunneling], stun/stochastic_tunneling.h:122-125:
      [best_schedule], [current_schedule], [target_schedule].
    The other models hold the parts of a buffer as separate lists.  Here the
    storage is explicit, so that it can be proved that this is right: a store
    of blocks, a vector that names its block, and views that name a block, an
    offset and a length.  A freed block cannot be read or written any more
    ([Broken]).  The objects of the three classes differ in the number of
    views and in when they call what, so one model serves all three; the
    element type is arbitrary.  Allocation never fails. *)

From Coq Require Import List Arith Bool.
From Verif Require Import Base.
Import ListNotations.

Section Buffers.
Context {T : Type} (zero : T).

(** The blocks; [None] is a freed block (no source counterpart). *)
Definition store := list (option (list T)).

(** [ranges::span], e.g. stun/utils.h:62-63. *)
Record view := View { vw_block : nat; vw_off : nat; vw_len : nat }.

(** An object: the block of its vector ([None] if the vector is empty, as
    after a move) and its views (stun/utils.h:61-63, simulation.h:75-79,
    stun/stochastic_tunneling.h:122-125). *)
Record holder := { ho_data : option nat; ho_views : list view }.

(** The elements of a block (no source counterpart). *)
Definition block (h : store) (b : nat) : outcome (list T) :=
  match nth_error h b with
  | Some (Some l) => Ok l
  | _ => Broken
  end.

(** The elements of a vector (no source counterpart). *)
Definition contents (h : store) (d : option nat) : outcome (list T) :=
  match d with
  | None => Ok []
  | Some b => block h b
  end.

(** Release of the storage of a vector (no source counterpart). *)
Definition drop (h : store) (d : option nat) : outcome store :=
  match d with
  | None => Ok h
  | Some b => _ <- block h b ;; Ok (set_nth h b None)
  end.

(** A vector gets new elements: in place if its capacity suffices, else in
    new storage; [fresh] says which (no source counterpart). *)
Definition put (h : store) (d : option nat) (l : list T) (fresh : bool) : outcome (store * nat) :=
  match d, fresh with
  | Some b, false => _ <- block h b ;; Ok (set_nth h b (Some l), b)
  | _, _ => h' <- drop h d ;; Ok (h' ++ [Some l], length h')
  end.

(** [std::vector::resize], simulation.cpp:100 and
    stun/stochastic_tunneling.cpp:144-145. *)
Definition resized (n : nat) (l : list T) : list T := firstn n l ++ repeat zero (n - length l).

(** One view behind the other: stun/utils.cpp:70-73, simulation.cpp:103-112,
    stun/stochastic_tunneling.cpp:146-154. *)
Fixpoint consecutive (b off : nat) (sizes : list nat) : list view :=
  match sizes with
  | [] => []
  | n :: sizes' => View b off n :: consecutive b (off + n) sizes'
  end.

(** [Impl::assign_buffers], simulation.cpp:91-122, and
    [Impl::prepare_schedules], stun/stochastic_tunneling.cpp:139-159, on a
    vector that holds [l]; the initialisers of [Makespan],
    stun/utils.cpp:66-73. *)
Definition assign_views (h : store) (d : option nat) (l : list T) (sizes : list nat) (fresh : bool)
  : outcome (store * holder) :=
  _ <- expects (0 <? list_sum sizes) ;;
  r <- put h d (resized (list_sum sizes) l) fresh ;;
  Ok (fst r, {| ho_data := Some (snd r); ho_views := consecutive (snd r) 0 sizes |}).

(** Element [k] of a view, e.g. stun/utils.cpp:34 and 133. *)
Definition read_at (h : store) (v : view) (k : nat) : outcome T :=
  _ <- expects (k <? vw_len v) ;;
  l <- block h (vw_block v) ;;
  at_index l (vw_off v + k).

(** Assignment to element [k] of a view, e.g. stun/utils.cpp:135. *)
Definition write_at (h : store) (v : view) (k : nat) (x : T) : outcome store :=
  _ <- expects (k <? vw_len v) ;;
  l <- block h (vw_block v) ;;
  _ <- at_index l (vw_off v + k) ;;
  Ok (set_nth h (vw_block v) (Some (set_nth l (vw_off v + k) x))).

(** [ranges::copy] between views, element by element, from element [k] on,
    stun/stochastic_tunneling.cpp:46-48, 75-77. *)
Fixpoint copy_from (h : store) (v w : view) (k n : nat) : outcome store :=
  match n with
  | O => Ok h
  | S n' =>
      x <- read_at h v k ;;
      h' <- write_at h w k x ;;
      copy_from h' v w (S k) n'
  end.

(** ** Programs

    Objects are numbered in order of creation; a destroyed object stays
    [None]. *)

(** The operations:
    - [BNew]: [Makespan{params}] (stun/utils.cpp:66-84), also as part of its
      copy constructor (93-97); [Simulation{params}]
      (simulation.cpp:233-250); [StochasticTunneling{options, schedule}]
      (stun/stochastic_tunneling.cpp:219-226);
    - [BReshape]: [Simulation::params] (simulation.cpp:257-274),
      [StochasticTunneling::reset] (stun/stochastic_tunneling.cpp:189-195);
    - [BCopy]: the copy constructors of [Simulation] (simulation.cpp:305-316)
      and [StochasticTunneling] (stun/stochastic_tunneling.cpp:228-244);
    - [BMove]: the move constructors (simulation.cpp:318, stun/utils.cpp:106,
      stun/stochastic_tunneling.cpp:254-255);
    - [BCopyAssign]: simulation.cpp:320-334, stun/utils.cpp:99-104,
      stun/stochastic_tunneling.cpp:246-251;
    - [BMoveAssign]: simulation.cpp:336-337, stun/utils.cpp:107-118,
      stun/stochastic_tunneling.cpp:256-277;
    - [BWrite]: assignments to elements (stun/utils.cpp:135,
      simulation.cpp:140-176 and 298, the mutation of
      [target_schedule]);
    - [BFill]: stun/utils.cpp:129, simulation.cpp:287;
    - [BCopyView]: stun/stochastic_tunneling.cpp:46-48, 75-77;
    - [BSwap]: stun/stochastic_tunneling.cpp:83, 107;
    - [BDestroy]: the destructors. *)
Inductive b_op :=
| BNew (sizes : list nat)
| BReshape (i : nat) (sizes : list nat) (fresh : bool)
| BCopy (i : nat) (sizes : list nat)
| BMove (i : nat)
| BCopyAssign (i j : nat) (sizes : list nat) (fresh : bool)
| BMoveAssign (i j : nat)
| BWrite (i v k : nat) (x : T)
| BFill (i : nat) (x : T)
| BCopyView (i v w : nat)
| BSwap (i v w : nat)
| BDestroy (i : nat).

(** The store and the objects (no source counterpart). *)
Record b_state := { bs_store : store; bs_objs : list (option holder) }.

(** An object that is alive (no source counterpart). *)
Definition b_get (st : b_state) (i : nat) : outcome holder :=
  match nth_error (bs_objs st) i with
  | Some (Some o) => Ok o
  | _ => Broken
  end.

(** An object whose vector is not empty: [Expects(!buffer.empty())],
    simulation.cpp:279, stun/utils.cpp:126,
    stun/stochastic_tunneling.cpp:182, 199. *)
Definition b_filled (st : b_state) (i : nat) : outcome (holder * nat) :=
  o <- b_get st i ;;
  match ho_data o with
  | Some b => Ok (o, b)
  | None => Broken
  end.

(** What a move leaves behind: an empty vector and the old views
    (stun/utils.cpp:106-118, stun/stochastic_tunneling.cpp:254-277, the
    defaulted functions of simulation.cpp:318, 336). *)
Definition moved_from (o : holder) : holder := {| ho_data := None; ho_views := ho_views o |}.

(** [std::swap] of two views, stun/stochastic_tunneling.cpp:83, 107. *)
Definition swap_views (l : list view) (v w : nat) : outcome (list view) :=
  x <- at_index l v ;;
  y <- at_index l w ;;
  Ok (set_nth (set_nth l v y) w x).

(** One statement; the source lines are at [b_op].  A copy of
    a [Simulation] demands a filled vector, a copy of a
    [StochasticTunneling] does not; the latter is modelled.  Move assignment
    of an object to itself does nothing (stun/utils.cpp:109,
    stun/stochastic_tunneling.cpp:259); for [Simulation], where it is the
    defaulted one, the result is unspecified, which is not modelled. *)
Definition b_step (st : b_state) (op : b_op) : outcome b_state :=
  let h := bs_store st in
  let objs := bs_objs st in
  match op with
  | BNew sizes =>
      r <- assign_views h None [] sizes true ;;
      Ok {| bs_store := fst r; bs_objs := objs ++ [Some (snd r)] |}
  | BReshape i sizes fresh =>
      o <- b_get st i ;;
      l <- contents h (ho_data o) ;;
      r <- assign_views h (ho_data o) l sizes fresh ;;
      Ok {| bs_store := fst r; bs_objs := set_nth objs i (Some (snd r)) |}
  | BCopy i sizes =>
      o <- b_get st i ;;
      l <- contents h (ho_data o) ;;
      r <- assign_views h None l sizes true ;;
      Ok {| bs_store := fst r; bs_objs := objs ++ [Some (snd r)] |}
  | BMove i =>
      o <- b_get st i ;;
      Ok {| bs_store := h; bs_objs := set_nth objs i (Some (moved_from o)) ++ [Some o] |}
  | BCopyAssign i j sizes fresh =>
      o <- b_get st i ;;
      o' <- b_get st j ;;
      l <- contents h (ho_data o') ;;
      r <- assign_views h (ho_data o) l sizes fresh ;;
      Ok {| bs_store := fst r; bs_objs := set_nth objs i (Some (snd r)) |}
  | BMoveAssign i j =>
      o <- b_get st i ;;
      o' <- b_get st j ;;
      if i =? j then Ok st
      else
        h' <- drop h (ho_data o) ;;
        Ok {| bs_store := h'; bs_objs := set_nth (set_nth objs i (Some o')) j (Some (moved_from o')) |}
  | BWrite i v k x =>
      ob <- b_filled st i ;;
      w <- at_index (ho_views (fst ob)) v ;;
      h' <- write_at h w k x ;;
      Ok {| bs_store := h'; bs_objs := objs |}
  | BFill i x =>
      ob <- b_filled st i ;;
      l <- block h (snd ob) ;;
      Ok {| bs_store := set_nth h (snd ob) (Some (repeat x (length l))); bs_objs := objs |}
  | BCopyView i v w =>
      ob <- b_filled st i ;;
      x <- at_index (ho_views (fst ob)) v ;;
      y <- at_index (ho_views (fst ob)) w ;;
      h' <- copy_from h x y 0 (vw_len x) ;;
      Ok {| bs_store := h'; bs_objs := objs |}
  | BSwap i v w =>
      ob <- b_filled st i ;;
      l <- swap_views (ho_views (fst ob)) v w ;;
      Ok {| bs_store := h; bs_objs := set_nth objs i (Some {| ho_data := ho_data (fst ob); ho_views := l |}) |}
  | BDestroy i =>
      o <- b_get st i ;;
      h' <- drop h (ho_data o) ;;
      Ok {| bs_store := h'; bs_objs := set_nth objs i None |}
  end.

(** A whole program (no source counterpart). *)
Fixpoint b_run (st : b_state) (l : list b_op) : outcome b_state :=
  match l with
  | [] => Ok st
  | op :: l' => st' <- b_step st op ;; b_run st' l'
  end.

(** The state before anything was created (no source counterpart). *)
Definition b_start : b_state := {| bs_store := []; bs_objs := [] |}.

(** The elements of a view (no source counterpart). *)
Definition read_view (h : store) (v : view) : outcome (list T) :=
  map_outcome (read_at h v) (seq 0 (vw_len v)).

(** What the views of object [i] show (no source counterpart). *)
Definition b_shown (st : b_state) (i : nat) : outcome (list (list T)) :=
  ob <- b_filled st i ;; map_outcome (read_view (bs_store st)) (ho_views (fst ob)).

End Buffers.
Arguments store : clear implicits.
Arguments b_state : clear implicits.
Arguments b_op : clear implicits.
