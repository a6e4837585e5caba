(** * Model of [Vector2D], src/stun/schedule_params.{h,cpp}

    Storage is explicit: a heap of blocks, an owning vector that names its
    block, and spans that are raw pointers into a block.  A block that has
    been freed cannot be read or written any more ([Broken]).  Elements are
    natural numbers ([int16] indices).  Allocation never fails. *)

From Coq Require Import List Arith Bool.
From Verif Require Import Base.
Import ListNotations.

(** The heap: block number [b] is the [b]th element; [None] is a freed
    block (no source counterpart). *)
Definition heap := list (option (list nat)).

(** [span<int16>], range-v3: a pointer ([None] is null) and a length,
    schedule_params.h:86. *)
Record span := { sp_ptr : option (nat * nat); sp_len : nat }.

(** [Vector2D], schedule_params.h:85-86: the storage of [data] ([None] if
    nothing was ever allocated) and the spans. *)
Record v2d := { v_data : option nat; v_spans : list span }.

(** The elements of a block (no source counterpart). *)
Definition read_block (h : heap) (b : nat) : outcome (list nat) :=
  match nth_error h b with
  | Some (Some l) => Ok l
  | _ => Broken
  end.

(** The elements of [data], schedule_params.h:85. *)
Definition elements (h : heap) (v : v2d) : outcome (list nat) :=
  match v_data v with
  | None => Ok []
  | Some b => read_block h b
  end.

(** Allocation of a block holding [l]; a vector without elements owns no
    block (the copy of [data], schedule_params.cpp:161). *)
Definition allocate (h : heap) (l : list nat) : heap * option nat :=
  match l with
  | [] => (h, None)
  | _ => (h ++ [Some l], Some (length h))
  end.

(** Release of the storage of a vector (schedule_params.cpp:212 and 216). *)
Definition release (h : heap) (d : option nat) : outcome heap :=
  match d with
  | None => Ok h
  | Some b => _ <- read_block h b ;; Ok (set_nth h b None)
  end.

(** [Vector2D()], schedule_params.cpp:157. *)
Definition v_empty : v2d := {| v_data := None; v_spans := [] |}.

(** The loop of schedule_params.cpp:183-187 from offset [head] on; moving
    [head] past the end of the elements is undefined. *)
Fixpoint make_spans (d : option nat) (count head : nat) (sizes : list nat) : outcome (list span) :=
  match sizes with
  | [] => Ok []
  | n :: sizes' =>
      _ <- expects (head + n <=? count) ;;
      ss <- make_spans d count (head + n) sizes' ;;
      Ok ({| sp_ptr := match d with None => None | Some b => Some (b, head) end; sp_len := n |} :: ss)
  end.

(** Construction from sizes, schedule_params.cpp:176-190; [data] is moved,
    that is its block becomes the block of the new object. *)
Definition from_sizes (h : heap) (data sizes : list nat) : outcome (heap * v2d) :=
  let (h', d) := allocate h data in
  ss <- make_spans d (length data) 0 sizes ;;
  Ok (h', {| v_data := d; v_spans := ss |}).

(** The body of the loop of schedule_params.cpp:165-170: [std::distance]
    of pointers into different blocks is undefined. *)
Definition move_span (from to : option nat) (s : span) : outcome span :=
  if sp_len s =? 0 then Ok s
  else
    match sp_ptr s, from, to with
    | Some (b, off), Some f, Some t =>
        if b =? f then Ok {| sp_ptr := Some (t, off); sp_len := sp_len s |} else Broken
    | _, _, _ => Broken
    end.

(** Copy construction, schedule_params.cpp:158-173. *)
Definition v_copy (h : heap) (other : v2d) : outcome (heap * v2d) :=
  match v_spans other with
  | [] => Ok (h, v_empty)
  | _ =>
      l <- elements h other ;;
      let (h', d) := allocate h l in
      match l with
      | [] => Ok (h', {| v_data := d; v_spans := v_spans other |})
      | _ =>
          ss <- map_outcome (move_span (v_data other) d) (v_spans other) ;;
          Ok (h', {| v_data := d; v_spans := ss |})
      end
  end.

(** Move construction, schedule_params.cpp:208: the new object and what
    remains of the source (moved-from vectors are empty). *)
Definition v_move (other : v2d) : v2d * v2d := (other, v_empty).

(** Move assignment between different objects, schedule_params.cpp:209-215:
    the storage of the target is released. *)
Definition v_move_assign (h : heap) (this other : v2d) : outcome (heap * v2d * v2d) :=
  h' <- release h (v_data this) ;;
  Ok (h', other, v_empty).

(** Copy assignment, schedule_params.cpp:202-206: a temporary copy is moved
    into the target; the empty temporary is destroyed. *)
Definition v_copy_assign (h : heap) (this other : v2d) : outcome (heap * v2d) :=
  c <- v_copy h other ;;
  h' <- release (fst c) (v_data this) ;;
  Ok (h', snd c).

(** [clear], schedule_params.cpp:151-155: the block stays, without
    elements. *)
Definition v_clear (h : heap) (v : v2d) : outcome (heap * v2d) :=
  match v_data v with
  | None => Ok (h, v_empty)
  | Some b =>
      _ <- read_block h b ;;
      Ok (set_nth h b (Some []), {| v_data := Some b; v_spans := [] |})
  end.

(** [v[r]], schedule_params.h:59-63. *)
Definition v_row (v : v2d) (r : nat) : outcome span :=
  _ <- expects (negb (length (v_spans v) =? 0)) ;;
  at_index (v_spans v) r.

(** Reading the elements of a span, e.g. stun/utils.cpp:26-35. *)
Definition read_span (h : heap) (s : span) : outcome (list nat) :=
  if sp_len s =? 0 then Ok []
  else
    match sp_ptr s with
    | None => Broken
    | Some (b, off) =>
        l <- read_block h b ;;
        _ <- expects (off + sp_len s <=? length l) ;;
        Ok (firstn (sp_len s) (skipn off l))
    end.

(** All rows of a table (no source counterpart). *)
Definition v_rows (h : heap) (v : v2d) : outcome (list (list nat)) :=
  map_outcome (read_span h) (v_spans v).

(** [v[r][c] = x], schedule_params.h:59-63. *)
Definition v_write (h : heap) (v : v2d) (r c x : nat) : outcome heap :=
  s <- v_row v r ;;
  _ <- expects (c <? sp_len s) ;;
  match sp_ptr s with
  | None => Broken
  | Some (b, off) =>
      l <- read_block h b ;;
      _ <- expects (off + c <? length l) ;;
      Ok (set_nth h b (Some (set_nth l (off + c) x)))
  end.

(** ** Programs that use tables

    Objects are numbered in order of creation; a destroyed object stays
    [None]. *)

(** The operations of schedule_params.h:24-86. *)
Inductive v_op :=
| VNew                                     (* Vector2D() *)
| VFrom (data sizes : list nat)            (* Vector2D{data, sizes} *)
| VCopy (i : nat)                          (* Vector2D{obj i} *)
| VMove (i : nat)                          (* Vector2D{std::move(obj i)} *)
| VCopyAssign (i j : nat)                  (* obj i = obj j *)
| VMoveAssign (i j : nat)                  (* obj i = std::move(obj j) *)
| VClear (i : nat)
| VWrite (i r c x : nat)                   (* obj i[r][c] = x *)
| VDestroy (i : nat).

(** The heap and the objects (no source counterpart). *)
Record v_state := { vs_heap : heap; vs_objs : list (option v2d) }.

(** An object that is alive (no source counterpart). *)
Definition v_get (st : v_state) (i : nat) : outcome v2d :=
  match nth_error (vs_objs st) i with
  | Some (Some v) => Ok v
  | _ => Broken
  end.

(** One statement of such a program: schedule_params.cpp:143-216. *)
Definition v_step (st : v_state) (o : v_op) : outcome v_state :=
  let h := vs_heap st in
  let objs := vs_objs st in
  match o with
  | VNew => Ok {| vs_heap := h; vs_objs := objs ++ [Some v_empty] |}
  | VFrom data sizes =>
      r <- from_sizes h data sizes ;;
      Ok {| vs_heap := fst r; vs_objs := objs ++ [Some (snd r)] |}
  | VCopy i =>
      v <- v_get st i ;;
      r <- v_copy h v ;;
      Ok {| vs_heap := fst r; vs_objs := objs ++ [Some (snd r)] |}
  | VMove i =>
      v <- v_get st i ;;
      Ok {| vs_heap := h;
            vs_objs := set_nth objs i (Some (snd (v_move v))) ++ [Some (fst (v_move v))] |}
  | VCopyAssign i j =>
      v <- v_get st i ;;
      w <- v_get st j ;;
      r <- v_copy_assign h v w ;;
      Ok {| vs_heap := fst r; vs_objs := set_nth objs i (Some (snd r)) |}
  | VMoveAssign i j =>
      v <- v_get st i ;;
      w <- v_get st j ;;
      if i =? j then Ok st
      else
        r <- v_move_assign h v w ;;
        Ok {| vs_heap := fst (fst r);
              vs_objs := set_nth (set_nth objs i (Some (snd (fst r)))) j (Some (snd r)) |}
  | VClear i =>
      v <- v_get st i ;;
      r <- v_clear h v ;;
      Ok {| vs_heap := fst r; vs_objs := set_nth objs i (Some (snd r)) |}
  | VWrite i r c x =>
      v <- v_get st i ;;
      h' <- v_write h v r c x ;;
      Ok {| vs_heap := h'; vs_objs := objs |}
  | VDestroy i =>
      v <- v_get st i ;;
      h' <- release h (v_data v) ;;
      Ok {| vs_heap := h'; vs_objs := set_nth objs i None |}
  end.

(** A whole program (no source counterpart). *)
Fixpoint v_run (st : v_state) (l : list v_op) : outcome v_state :=
  match l with
  | [] => Ok st
  | o :: l' => st' <- v_step st o ;; v_run st' l'
  end.

(** The state before anything was created (no source counterpart). *)
Definition v_start : v_state := {| vs_heap := []; vs_objs := [] |}.

(** The rows of object [i]; [Broken] if it is not alive or points to freed
    storage (no source counterpart). *)
Definition v_table (st : v_state) (i : nat) : outcome (list (list nat)) :=
  v <- v_get st i ;; v_rows (vs_heap st) v.
