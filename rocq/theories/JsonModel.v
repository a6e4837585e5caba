(** * Model of the JSON results, src/cli/schedule.cpp and src/cli/cli.cpp

    A JSON value is the record of its fields; the text that nlohmann::json
    writes for it is not modelled. *)

From Coq Require Import String List ZArith Bool Arith.
From Verif Require Import Base F32 ProjectModel ScheduleModel HistogramModel.
Import ListNotations.

(** ** The schedule *)

(** [task_duration], cli/schedule.cpp:25-33. *)
Definition json_task_duration (t : task) (a : agent) : outcome f32 :=
  d <- duration_average t ;;
  _ <- expects (0 <? d)%Z ;;
  q <- perf_average (ag_perf a) ;;
  _ <- expects (f_lt f_zero q) ;;
  Ok (f_div (f_of_Z d) q).

(** [dependencies_done], cli/schedule.cpp:43-55. *)
Definition json_dependencies_done (task_done : list f32) (deps : list nat) : outcome f32 :=
  _ <- expects (negb (length task_done =? 0)) ;;
  match deps with
  | [] => Ok f_zero
  | _ =>
      ends <- map_outcome (at_index task_done) deps ;;
      Ok (f_max_list f_zero ends)
  end.

(** [static_cast<int>(x)] of a float, cli/schedule.cpp:122-124: undefined
    unless the truncated value fits 32 bits. *)
Definition to_int (x : f32) : outcome Z :=
  match f_trunc x with
  | Some z => _ <- expects ((- 2 ^ 31 <=? z) && (z <? 2 ^ 31))%Z ;; Ok z
  | None => Broken
  end.

(** [TaskDurations], cli/schedule.cpp:127-130, and the local variable
    [agent_priority] of cli/schedule.cpp:144. *)
Record json_state := {
  jn_work : list f32;
  jn_done : list f32;
  jn_priority : list nat
}.

(** [TaskDurations::TaskDurations], cli/schedule.cpp:82-89, and
    cli/schedule.cpp:144. *)
Definition json_start (p : project) : outcome json_state :=
  _ <- expects (negb (length (pr_tasks p) =? 0)) ;;
  _ <- expects (negb (length (pr_agents p) =? 0)) ;;
  Ok {| jn_work := repeat f_zero (length (pr_agents p));
        jn_done := repeat f_zero (length (pr_tasks p));
        jn_priority := repeat 0 (length (pr_agents p)) |}.

(** One object of the array "tasks", cli/schedule.cpp:153-158.  The
    priority is an [int]; its overflow is not modelled. *)
Record json_item := {
  ji_task : string;
  ji_agent : string;
  ji_priority : nat;
  ji_duration : Z;
  ji_start : Z
}.

(** One iteration of the loop of cli/schedule.cpp:147-159, with
    [TaskDurations::operator()], cli/schedule.cpp:101-125. *)
Definition json_step (p : project) (st : json_state) (x : item)
  : outcome (json_state * json_item) :=
  old <- at_index (jn_done st) (it_task x) ;;
  _ <- expects (f_eq old f_zero) ;;
  _ <- expects (it_agent x <? length (pr_agents p)) ;;
  _ <- expects (it_task x <? length (pr_tasks p)) ;;
  t <- at_index (pr_tasks p) (it_task x) ;;
  a <- at_index (pr_agents p) (it_agent x) ;;
  duration <- json_task_duration t a ;;
  w <- at_index (jn_work st) (it_agent x) ;;
  dd <- json_dependencies_done (jn_done st) (tk_deps t) ;;
  let start := f_max w dd in
  let finish := f_add start duration in
  _ <- expects (f_lt f_zero finish) ;;
  d <- to_int duration ;;
  s <- to_int start ;;
  n <- at_index (jn_priority st) (it_agent x) ;;
  Ok ({| jn_work := set_nth (jn_work st) (it_agent x) finish;
         jn_done := set_nth (jn_done st) (it_task x) finish;
         jn_priority := set_nth (jn_priority st) (it_agent x) (S n) |},
      {| ji_task := tk_name t; ji_agent := ag_name a; ji_priority := n;
         ji_duration := d; ji_start := s |}).

(** The loop of cli/schedule.cpp:147-159. *)
Fixpoint json_loop (p : project) (st : json_state) (s : list item)
  : outcome (list json_item) :=
  match s with
  | [] => Ok []
  | x :: s' =>
      r <- json_step p st x ;;
      items <- json_loop p (fst r) s' ;;
      Ok (snd r :: items)
  end.

(** The JSON object of cli/schedule.cpp:164-166. *)
Record json_result := { jr_makespan : Z; jr_tasks : list json_item }.

(** [to_json(config, schedule)], cli/schedule.cpp:136-167. *)
Definition schedule_json (p : project) (s : list item) (makespan : Z) : outcome json_result :=
  st <- json_start p ;;
  items <- json_loop p st s ;;
  _ <- expects (negb (length items =? 0)) ;;
  _ <- expects (0 <? makespan)%Z ;;
  Ok {| jr_makespan := makespan; jr_tasks := items |}.

(** ** The histogram *)

(** [static_cast<int>] of a checked 64 bit number, cli.cpp:79 and 82: it
    throws when the value does not fit 32 bits, which is [Broken] here. *)
Definition int_cast (z : Z) : outcome Z :=
  _ <- expects ((- 2 ^ 31 <=? z) && (z <? 2 ^ 31))%Z ;; Ok z.

(** The loop of cli.cpp:76-80. *)
Fixpoint json_bins (l : list bin) : outcome (list (Z * Z)) :=
  match l with
  | [] => Ok []
  | b :: l' =>
      if (b_count b =? 0)%Z then json_bins l'
      else
        low <- int_cast (b_low b) ;;
        count <- int_cast (b_count b) ;;
        rest <- json_bins l' ;;
        Ok ((low, count) :: rest)
  end.

(** The JSON object of cli.cpp:81-83. *)
Record json_histogram := { jh_bin_size : Z; jh_bins : list (Z * Z) }.

(** [to_json(histogram)], cli.cpp:71-84. *)
Definition histogram_json (h : histogram) : outcome json_histogram :=
  _ <- expects (1 <=? hist_size h) ;;
  l <- hist_iterate h ;;
  bins <- json_bins l ;;
  size <- int_cast (h_bin_size h) ;;
  Ok {| jh_bin_size := size; jh_bins := bins |}.

(** The JSON object of cli.cpp:63-68. *)
Record json_stats := { jt_p25 : Z; jt_p50 : Z; jt_p75 : Z; jt_p95 : Z; jt_p99 : Z }.

(** [to_json(stats)], cli.cpp:61-69. *)
Definition stats_json (s : hist_stats) : json_stats :=
  {| jt_p25 := p25 s; jt_p50 := p50 s; jt_p75 := p75 s; jt_p95 := p95 s; jt_p99 := p99 s |}.
