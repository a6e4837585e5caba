(** * Model of the pointers between optimizers, jobs and random number
      sources, src/stun/optimizer.h, src/stun/optimizer.cpp,
      src/stun/optimizer_job.cpp, src/stun/stochastic_tunneling.cpp

    StunModel.v treats a job as one value.  In the program the
    [StochasticTunneling] of a job reaches the mutator, the makespan
    evaluator, the temperature and the random number source through
    pointers, and the mutator has its own pointer to a random number
    source.  Here the job slots lie in memory and every access goes through
    these pointers.

    Simplifications: pointers to [ScheduleParams] are the values they point
    to (nothing writes to them); a random number source is an arbitrary
    state with arbitrary functions; one iteration of a job is one step. *)

From Coq Require Import List ZArith Bool Arith.
From Flocq Require Import BinarySingleNaN.
From Verif Require Import Base F32 ProjectModel ScheduleModel MutatorModel
  MakespanModel TemperatureModel StunModel OptimizerModel.
Import ListNotations.

(** The address of a [JobSlot]: the storage of a vector of slots and an
    index (stun/optimizer.h:137).  The job, its mutator, its makespan
    evaluator, its temperature and the random number source of a slot have
    addresses that are determined by that of the slot. *)
Definition place := (nat * nat)%type.

(** The pointers inside a job: [Mutator::random] (stun/utils.h:119-120) and
    those of [StochasticTunneling] (stun/stochastic_tunneling.h:115-119). *)
Record pointers := {
  pt_mutator_random : place;
  pt_mutator : place;
  pt_random : place;
  pt_makespan : place;
  pt_temp : place
}.

(** [RandomUtils] (stun/random_utils.h) as seen by a job: what the mutation
    of a schedule draws (stun/utils.cpp:185, 206, 210; how much it takes
    from the generator depends on the sizes) and [uniform_01]
    (stun/random_utils.cpp:13-16). *)
Record source (G : Type) := {
  so_draws : params -> list item -> G -> draws * G;
  so_uniform : G -> f32 * G
}.
Arguments so_draws {G}.
Arguments so_uniform {G}.

(** [Optimizer::JobSlot], stun/optimizer.h:126-136. *)
Record slot (G : Type) := Slot {
  sl_random : G;
  sl_job : job;
  sl_pointers : pointers
}.
Arguments Slot {G}.
Arguments sl_random {G}.
Arguments sl_job {G}.
Arguments sl_pointers {G}.

(** The storage of all vectors of slots (stun/optimizer.h:137); [None] has
    been released. *)
Definition memory (G : Type) := list (option (list (slot G))).

(** An [Optimizer] (stun/optimizer.h:112-138): the members other than the
    jobs, and the storage of its vector of slots.  The list of jobs in
    [ob_head] is not used. *)
Record object := { ob_head : optimizer; ob_block : nat }.

(** Everything: memory and the optimizers; [None] are those without jobs
    (moved from) or out of scope (no source counterpart). *)
Record world (G : Type) := World {
  w_memory : memory G;
  w_objects : list (option object)
}.
Arguments World {G}.
Arguments w_memory {G}.
Arguments w_objects {G}.

Section Memory.
Context {G : Type} (gs : source G) (o : oracles).

(** The slots of a vector; released storage must not be used (no source
    counterpart). *)
Definition block (m : memory G) (b : nat) : outcome (list (slot G)) :=
  x <- at_index m b ;;
  match x with Some l => Ok l | None => Broken end.

(** Follow a pointer (no source counterpart). *)
Definition read (m : memory G) (a : place) : outcome (slot G) :=
  l <- block m (fst a) ;; at_index l (snd a).

(** Store a slot (no source counterpart). *)
Definition write (m : memory G) (a : place) (s : slot G)
  : outcome (memory G) :=
  l <- block m (fst a) ;;
  _ <- at_index l (snd a) ;;
  Ok (set_nth m (fst a) (Some (set_nth l (snd a) s))).

(** Store one part of a slot through a pointer: the random number source,
    the makespan evaluator, the temperature, the [StochasticTunneling] (no
    source counterpart). *)
Definition write_random (m : memory G) (a : place) (g : G) :=
  s <- read m a ;; write m a (Slot g (sl_job s) (sl_pointers s)).
(** See [write_random] (no source counterpart). *)
Definition write_job (m : memory G) (a : place) (f : job -> job) :=
  s <- read m a ;; write m a (Slot (sl_random s) (f (sl_job s)) (sl_pointers s)).

(** What a [StochasticTunneling] at address [a] works with: its own state
    and the objects its pointers refer to
    (stun/stochastic_tunneling.h:115-134). *)
Definition reach (m : memory G) (a : place) : outcome job :=
  s <- read m a ;;
  mu <- read m (pt_mutator (sl_pointers s)) ;;
  mk <- read m (pt_makespan (sl_pointers s)) ;;
  tp <- read m (pt_temp (sl_pointers s)) ;;
  Ok {| jb_batch := jb_batch (sl_job s);
        jb_mutator := jb_mutator (sl_job mu);
        jb_params := jb_params (sl_job mk);
        jb_makespan := jb_makespan (sl_job mk);
        jb_temp := jb_temp (sl_job tp);
        jb_stun := jb_stun (sl_job s) |}.

(** Where its writes go: the evaluation of a schedule, [temp->update(...)] and its
    own members (stun/stochastic_tunneling.cpp:50, 110, and passim). *)
Definition store (m : memory G) (a : place) (j : job) : outcome (memory G) :=
  s <- read m a ;;
  m1 <- write_job m (pt_makespan (sl_pointers s))
          (fun k => {| jb_batch := jb_batch k; jb_mutator := jb_mutator k;
                       jb_params := jb_params k;
                       jb_makespan := jb_makespan j;
                       jb_temp := jb_temp k; jb_stun := jb_stun k |}) ;;
  m2 <- write_job m1 (pt_temp (sl_pointers s))
          (fun k => {| jb_batch := jb_batch k; jb_mutator := jb_mutator k;
                       jb_params := jb_params k;
                       jb_makespan := jb_makespan k;
                       jb_temp := jb_temp j; jb_stun := jb_stun k |}) ;;
  write_job m2 a (fun k => with_stun k (jb_stun j)).

(** [StochasticTunneling::update] of the job at address [a],
    stun/stochastic_tunneling.cpp:180-187: the mutation draws from the
    source of the mutator (stun/utils.cpp:179-213), [perform_stun] from
    that of the [StochasticTunneling]
    (stun/stochastic_tunneling.cpp:106). *)
Definition iterate (m : memory G) (a : place) : outcome (memory G) :=
  s <- read m a ;;
  j <- reach m a ;;
  _ <- expects (negb (length (st_current (jb_stun j)) =? 0)) ;;
  mu <- read m (pt_mutator (sl_pointers s)) ;;
  let ra := pt_mutator_random (sl_pointers mu) in
  rs <- read m ra ;;
  let dg := so_draws gs (jb_mutator j) (st_current (jb_stun j)) (sl_random rs) in
  j1 <- get_new_neighbor j (fst dg) ;;
  m1 <- write_random m ra (snd dg) ;;
  r <- neighbor_is_better o (jb_stun j1) ;;
  let j2 := with_stun j1 (snd r) in
  if fst r then store m1 a j2
  else
    us <- read m1 (pt_random (sl_pointers s)) ;;
    let ug := so_uniform gs (sl_random us) in
    j3 <- perform_stun o (fst ug) j2 ;;
    m2 <- write_random m1 (pt_random (sl_pointers s)) (snd ug) ;;
    store m2 a j3.

(** The loop of stun/optimizer.cpp:175-177 with the loop of
    stun/optimizer_job.cpp:46 inside, as threads may execute it: [order]
    says whose iteration comes next. *)
Fixpoint iterate_all (m : memory G) (b : nat) (order : list nat)
  : outcome (memory G) :=
  match order with
  | [] => Ok m
  | i :: order' => m' <- iterate m (b, i) ;; iterate_all m' b order'
  end.

(** The pointers of a copy of a job at address [a]: the copy constructor of
    [OptimizerJob], stun/optimizer_job.cpp:67-81, and its move assignment,
    stun/optimizer_job.cpp:106-122.  The mutator keeps its source. *)
Definition copied_pointers (a : place) (p : pointers) : pointers :=
  {| pt_mutator_random := pt_mutator_random p; pt_mutator := a;
     pt_random := pt_mutator_random p; pt_makespan := a; pt_temp := a |}.

(** The pointers after [OptimizerJob::params] with the source at [r],
    stun/optimizer_job.cpp:124-135. *)
Definition rebound_pointers (a r : place) : pointers :=
  {| pt_mutator_random := r; pt_mutator := a; pt_random := r;
     pt_makespan := a; pt_temp := a |}.

(** The pointers of a new job with the source at [r],
    stun/optimizer_job.cpp:20-40. *)
Definition new_pointers (a r : place) : pointers :=
  {| pt_mutator_random := r; pt_mutator := a; pt_random := r;
     pt_makespan := a; pt_temp := a |}.

(** [Impl::replicate_best_job], stun/optimizer.cpp:113-130, see
    [OptimizerModel.replicate_best_job].  First [ranges::min]. *)
Definition min_slot (s : slot G) (l : list (slot G)) : slot G :=
  fold_left (fun r k => if f_lt (job_best (sl_job k)) (job_best (sl_job r))
                        then k else r) l s.

(** stun/optimizer.cpp:125-129, for the slot at [a]. *)
Definition replicate_slot (a : place) (target : job) (tp : pointers)
  (p : params) (s : slot G) : outcome (slot G) :=
  if f_eq (job_best (sl_job s)) (job_best target) then Ok s
  else
    c <- job_copy target ;;
    let cp := copied_pointers a tp in
    Ok (Slot (sl_random s) (job_set_params c p) (rebound_pointers (pt_mutator cp) a)).

(** Apply a function to the slots of a vector with their addresses (a
    range-for loop; no source counterpart). *)
Fixpoint map_slots (f : place -> slot G -> outcome (slot G)) (b i : nat)
  (l : list (slot G)) : outcome (list (slot G)) :=
  match l with
  | [] => Ok []
  | s :: l' =>
      s' <- f (b, i) s ;;
      r <- map_slots f b (S i) l' ;;
      Ok (s' :: r)
  end.

(** stun/optimizer.cpp:113-130; [tmp] is the address of the temporary slot
    that [ranges::min] returns. *)
Definition replicate (m : memory G) (b : nat) : outcome (memory G) :=
  l <- block m b ;;
  match l with
  | [] => Broken
  | s0 :: rest =>
      let best := min_slot s0 rest in
      target <- job_copy (sl_job best) ;;
      let tmp := (length m, 0) in
      let tp := copied_pointers tmp (sl_pointers best) in
      l' <- map_slots (fun a => replicate_slot a target tp
                                  (jb_mutator (sl_job s0))) b 0 l ;;
      Ok (set_nth m b (Some l'))
  end.

(** The optimizer as a value: its members and the jobs of its slots (no
    source counterpart). *)
Definition with_jobs (z : optimizer) (jobs : list job) : optimizer :=
  {| oz_batch := oz_batch z; oz_max_idle := oz_max_idle z;
     oz_idle := oz_idle z; oz_epochs := oz_epochs z;
     oz_progress := oz_progress z; oz_last := oz_last z;
     oz_curve := oz_curve z; oz_jobs := jobs |}.

(** The rest of [Optimizer::update], stun/optimizer.cpp:182-189. *)
Definition finish_update (z : optimizer) : outcome optimizer :=
  let z1 := {| oz_batch := oz_batch z; oz_max_idle := oz_max_idle z;
               oz_idle := (oz_idle z + oz_batch z)%Z; oz_epochs := oz_epochs z;
               oz_progress := oz_progress z; oz_last := oz_last z;
               oz_curve := oz_curve z; oz_jobs := oz_jobs z |} in
  m <- optimizer_best z1 ;;
  if f_eq m (oz_last z1) then interpolate_progress o z1
  else estimate_progress o z1.

(** The object a variable denotes (no source counterpart). *)
Definition object_at (w : world G) (x : nat) : outcome object :=
  y <- at_index (w_objects w) x ;;
  match y with Some ob => Ok ob | None => Broken end.

(** An optimizer as the value that OptimizerModel.v works with (no source
    counterpart). *)
Definition value_of (w : world G) (x : nat) : outcome optimizer :=
  ob <- object_at w x ;;
  l <- block (w_memory w) (ob_block ob) ;;
  Ok (with_jobs (ob_head ob) (map sl_job l)).

(** Whether every job does its iterations, [batch_size] each
    (stun/optimizer_job.cpp:42-47, the loop of stun/optimizer.cpp:175-177
    over all slots). *)
Definition fair (l : list (slot G)) (order : list nat) : bool :=
  forallb (fun i => i <? length l) order
  && forallb (fun i => match nth_error l i with
                       | Some s => Z.of_nat (count_occ Nat.eq_dec order i)
                                   =? jb_batch (sl_job s)
                       | None => true
                       end)%Z (seq 0 (length l))
  && forallb (fun s => 0 <? jb_batch (sl_job s))%Z l.

(** What can be done with optimizers (stun/optimizer.h:44-110 and the
    implicit copy, move and destruction); [x] numbers the variables in the
    order of their creation. *)
Inductive command :=
| New (p : params) (op : options) (seeds : list G)
| Update (x : nat) (order : list nat)
| Reset (x : nat)
| Rebind (x : nat) (p : params)
| Copy (x : nat)
| Move (x : nat)
| Destroy (x : nat).

(** The slots of a new vector, stun/optimizer.cpp:134-168. *)
Definition new_slots (b : nat) (jobs : list job) (seeds : list G)
  : list (slot G) :=
  map (fun x => Slot (snd (snd x)) (fst (snd x))
                  (new_pointers (b, fst x) (b, fst x)))
    (combine (seq 0 (length jobs)) (combine jobs seeds)).

(** [OptimizerJob::reset] of the job at [a], stun/optimizer_job.cpp:59-65:
    [stun.reset] evaluates the initial schedule through [makespan]
    (stun/stochastic_tunneling.cpp:124); the temperature is the job's
    own. *)
Definition reset_at (m : memory G) (a : place) : outcome (memory G) :=
  s <- read m a ;;
  _ <- expects (0 <? jb_batch (sl_job s))%Z ;;
  src <- initial_schedule (jb_mutator (sl_job s)) ;;
  j <- reach m a ;;
  j1 <- stun_reset o j src ;;
  m1 <- store m a j1 ;;
  s1 <- read m1 a ;;
  temp <- temperature_reset (jb_temp (sl_job s1)) ;;
  write_job m1 a
    (fun k => {| jb_batch := jb_batch k; jb_mutator := jb_mutator k;
                 jb_params := jb_params k; jb_makespan := jb_makespan k;
                 jb_temp := temp; jb_stun := jb_stun k |}).

(** stun/optimizer.cpp:236. *)
Fixpoint reset_all (m : memory G) (b i n : nat) : outcome (memory G) :=
  match n with
  | O => Ok m
  | S n' => m' <- reset_at m (b, i) ;; reset_all m' b (S i) n'
  end.

(** The implicit copy constructor of [JobSlot] (stun/optimizer.h:126-136):
    the source is copied, and the job is copied by
    stun/optimizer_job.cpp:67-81. *)
Definition copy_slot (a : place) (s : slot G) : outcome (slot G) :=
  j <- job_copy (sl_job s) ;;
  Ok (Slot (sl_random s) j (copied_pointers a (sl_pointers s))).

(** One command: the constructor (stun/optimizer.cpp:152-168), [update]
    (170-190), [reset] (224-237), [params] (239-246), the implicit copy
    constructor, move constructor (the vector keeps its storage) and
    destructor of [Optimizer] (stun/optimizer.h:112-138). *)
Definition execute (w : world G) (c : command) : outcome (world G) :=
  let m := w_memory w in
  match c with
  | New p op seeds =>
      z <- optimizer_new o p op (length seeds) ;;
      Ok (World (m ++ [Some (new_slots (length m) (oz_jobs z) seeds)])
            (w_objects w ++ [Some {| ob_head := z; ob_block := length m |}]))
  | Update x order =>
      ob <- object_at w x ;;
      let b := ob_block ob in
      _ <- expects (0 <? oz_batch (ob_head ob))%Z ;;
      l <- block m b ;;
      _ <- expects (negb (length l =? 0)) ;;
      _ <- expects (fair l order) ;;
      m1 <- iterate_all m b order ;;
      m2 <- replicate m1 b ;;
      l2 <- block m2 b ;;
      z <- finish_update (with_jobs (ob_head ob) (map sl_job l2)) ;;
      Ok (World m2 (set_nth (w_objects w) x
                      (Some {| ob_head := z; ob_block := b |})))
  | Reset x =>
      ob <- object_at w x ;;
      let z := ob_head ob in
      _ <- expects (0 <? oz_max_idle z)%Z ;;
      _ <- expects (0 <? oz_batch z)%Z ;;
      l <- block m (ob_block ob) ;;
      _ <- expects (negb (length l =? 0)) ;;
      m1 <- reset_all m (ob_block ob) 0 (length l) ;;
      Ok (World m1
            (set_nth (w_objects w) x
               (Some {| ob_head :=
                          {| oz_batch := oz_batch z; oz_max_idle := oz_max_idle z;
                             oz_idle := 0; oz_epochs := 0; oz_progress := f_zero;
                             oz_last := f_zero; oz_curve := curve_new;
                             oz_jobs := oz_jobs z |};
                        ob_block := ob_block ob |})))
  | Rebind x p =>
      ob <- object_at w x ;;
      l <- block m (ob_block ob) ;;
      _ <- expects (negb (length l =? 0)) ;;
      l' <- map_slots
              (fun a s => Ok (Slot (sl_random s) (job_set_params (sl_job s) p)
                                (rebound_pointers a a))) (ob_block ob) 0 l ;;
      Ok (World (set_nth m (ob_block ob) (Some l')) (w_objects w))
  | Copy x =>
      ob <- object_at w x ;;
      l <- block m (ob_block ob) ;;
      l' <- map_slots copy_slot (length m) 0 l ;;
      Ok (World (m ++ [Some l'])
            (w_objects w ++ [Some {| ob_head := ob_head ob;
                                     ob_block := length m |}]))
  | Move x =>
      ob <- object_at w x ;;
      Ok (World m (set_nth (w_objects w) x None ++ [Some ob]))
  | Destroy x =>
      ob <- object_at w x ;;
      Ok (World (set_nth m (ob_block ob) None) (set_nth (w_objects w) x None))
  end.

(** A program: commands one after the other (no source counterpart). *)
Fixpoint execute_all (w : world G) (cs : list command) : outcome (world G) :=
  match cs with
  | [] => Ok w
  | c :: cs' => w' <- execute w c ;; execute_all w' cs'
  end.

End Memory.
Arguments New {G}.
Arguments Update {G}.
Arguments Reset {G}.
Arguments Rebind {G}.
Arguments Copy {G}.
Arguments Move {G}.
Arguments Destroy {G}.

(** No optimizers yet (no source counterpart). *)
Definition empty_world (G : Type) : world G := World [] [].
