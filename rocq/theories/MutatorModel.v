(** * Model of the Mutator, src/stun/utils.cpp:140-245 *)

From Coq Require Import List ZArith Bool Arith.
From Verif Require Import Base F32 ProjectModel ScheduleModel.
Import ListNotations.

(** [RandomUtils::uniform_int], stun/random_utils.cpp:16-21.  A draw is an
    arbitrary natural number reduced to the range 0..max, so that every
    result the C++ distribution can give is given by some draw.  The
    probabilities are not modelled. *)
Definition uniform_int (max : Z) (raw : nat) : outcome nat :=
  _ <- expects (0 <=? max)%Z ;;
  Ok (raw mod S (Z.to_nat max)).

(** [size - k] of an [int] size (stun/utils.cpp:185, 206, 210). *)
Definition size_minus (n : nat) (k : Z) : Z := (Z.of_nat n - k)%Z.

(** [ranges::lower_bound] on a random access range, used by
    [ranges::binary_search] at stun/utils.cpp:170-172: [first] is the start
    of the searched part and [len] its length.  Fuel bounds the number of
    halvings. *)
Fixpoint lower_bound (fuel : nat) (l : list nat) (v first len : nat)
  : outcome nat :=
  match fuel with
  | O => NoFuel
  | S fuel' =>
      if len =? 0 then Ok first
      else
        let half := Nat.div2 len in
        m <- at_index l (first + half) ;;
        if m <? v then lower_bound fuel' l v (S (first + half)) (len - S half)
        else lower_bound fuel' l v first half
  end.

(** [ranges::binary_search], used at stun/utils.cpp:170-172. *)
Definition binary_search (l : list nat) (v : nat) : outcome bool :=
  i <- lower_bound (S (length l)) l v 0 (length l) ;;
  if i =? length l then Ok false
  else m <- at_index l i ;; Ok (negb (v <? m)).

(** [Mutator::Impl::is_swappable], stun/utils.cpp:156-173. *)
Definition is_swappable (p : params) (t pred : nat) : outcome bool :=
  _ <- expects (t <? length (sp_deps p)) ;;
  _ <- expects (pred <? length (sp_deps p)) ;;
  _ <- expects (negb (t =? pred)) ;;
  deps <- row (sp_deps p) t ;;
  b <- binary_search deps pred ;;
  Ok (negb b).

(** [Mutator::Impl::try_swap], stun/utils.cpp:179-191. *)
Definition try_swap (p : params) (raw : nat) (s : list item)
  : outcome (list item) :=
  _ <- expects (negb (length s =? 0)) ;;
  if length s =? 1 then Ok s
  else
    k <- uniform_int (size_minus (length s) 2) raw ;;
    let swap_index := 1 + k in
    a <- at_index s swap_index ;;
    b <- at_index s (swap_index - 1) ;;
    ok <- is_swappable p (it_task a) (it_task b) ;;
    if ok then Ok (set_nth (set_nth s swap_index b) (swap_index - 1) a)
    else Ok s.

(** [Mutator::Impl::update_agent], stun/utils.cpp:196-213. *)
Definition update_agent (p : params) (raw1 raw2 : nat) (s : list item)
  : outcome (list item) :=
  _ <- expects (negb (length s =? 0)) ;;
  _ <- expects (length s =? length (sp_agents p)) ;;
  task_index <- uniform_int (size_minus (length s) 1) raw1 ;;
  x <- at_index s task_index ;;
  av <- row (sp_agents p) (it_task x) ;;
  k <- uniform_int (size_minus (length av) 1) raw2 ;;
  a <- at_index av k ;;
  Ok (set_nth s task_index (Item (it_task x) a)).

(** The random draws of one mutation, stun/utils.cpp:185, 206, 210. *)
Record draws := Draws { dr_swap : nat; dr_task : nat; dr_agent : nat }.

(** [Mutator::operator()], stun/utils.cpp:240-245. *)
Definition mutate (p : params) (d : draws) (s : list item)
  : outcome (list item) :=
  _ <- expects (negb (length s =? 0)) ;;
  s1 <- try_swap p (dr_swap d) s ;;
  update_agent p (dr_task d) (dr_agent d) s1.

(** Repeated mutation, as in stun/stochastic_tunneling.cpp:41-53 when every
    neighbour is accepted. *)
Fixpoint mutate_many (p : params) (ds : list draws) (s : list item)
  : outcome (list item) :=
  match ds with
  | [] => Ok s
  | d :: ds' => s' <- mutate p d s ;; mutate_many p ds' s'
  end.
