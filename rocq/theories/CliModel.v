(** * Model of src/main.cpp, src/cli/cli.cpp, src/cli/schedule.cpp and
      src/cli/events.cpp: what the command prints, writes and returns

    The parts that do the work are arguments: reading the project, the
    worker (see PredictModel.v), the file system.  Texts are kept where the
    source has them; numbers inside progress texts are not modelled. *)

From Coq Require Import String List ZArith Bool Ascii.
From Verif Require Import Base F32 ProjectModel ScheduleModel StunModel HistogramModel JsonModel
  FormatModel PredictModel.
Import ListNotations.
Local Open Scope string_scope.

(** Standard output and standard error: [stdout] and [stderr] of
    cli/utils.h:22, 36, 68-69. *)
Inductive channel := Stdout | Stderr.

(** What the outside world sees of the command, in order: the texts
    printed (cli/utils.h:15-49, cli/events.cpp:17-62), the result file
    (cli/cli.cpp:159-185, cli/schedule.cpp:190-216) and the log
    (cli/events.cpp:24-44). *)
Inductive effect :=
| Printed (c : channel) (text : string)
| Saved (file content : string)
| Logged (file text : string).

(** Exceptions: [UserError] (cli/options.h:14) and all others. *)
Inductive thrown := UserError | OtherError.

(** How a function ends: with a value, with an exception, or not at all
    (no source counterpart). *)
Inductive ended (A : Type) := Value (a : A) | Throws (t : thrown) | Never.
Arguments Value {A} a.
Arguments Throws {A} t.
Arguments Never {A}.

(** A piece of the command: its effects and how it ends (no source
    counterpart). *)
Definition act (A : Type) : Type := (list effect * ended A)%type.

(** Sequencing (no source counterpart). *)
Definition seq {A B} (x : act A) (f : A -> act B) : act B :=
  match snd x with
  | Value a => let (effects, e) := f a in ((fst x ++ effects)%list, e)
  | Throws t => (fst x, Throws t)
  | Never => (fst x, Never)
  end.

(** Ending with a value, ending with an exception, and effects only (no
    source counterpart). *)
Definition done {A} (a : A) : act A := ([], Value a).
(** [throw], e.g. cli/cli.cpp:103, 107, 110, 113. *)
Definition throw {A} (t : thrown) : act A := ([], Throws t).
(** Effects only (no source counterpart). *)
Definition does (l : list effect) : act unit := (l, Value tt).

(** A violated contract or an exception of a library in the main thread
    (no source counterpart). *)
Definition attempt {A} (x : outcome A) : act A :=
  match x with
  | Ok a => done a
  | Broken => throw OtherError
  | NoFuel => ([], Never)
  end.

(** [Options], cli/options.h:54-63, after the command line was read. *)
Record cli_options := {
  co_filename : string;
  co_verbose : bool;
  co_color : bool;
  co_quiet : bool;
  co_output : string;
  co_opt : options;
  co_log : bool;
  co_bin_size : option Z
}.

(** [print], cli/utils.h:15-23. *)
Definition print (o : cli_options) (text : string) : act unit :=
  if co_quiet o then done tt else does [Printed Stdout text].

(** The escape sequences around red text (fmt), cli/utils.h:41-45. *)
Definition red (text : string) : string :=
  String (ascii_of_nat 27) ("[31m" ++ text ++ String (ascii_of_nat 27) "[0m").

(** [print_error], cli/utils.h:33-49. *)
Definition print_error (o : cli_options) (c : channel) (text : string) : act unit :=
  does [Printed c (if co_color o then red text else text)].

(** The line break of the format strings, e.g. cli/cli.cpp:96, 102. *)
Definition eol : string := String (ascii_of_nat 10) EmptyString.
(** The quotation mark of the format strings, e.g. cli/cli.cpp:101. *)
Definition quote : string := String (ascii_of_nat 34) EmptyString.

(** [die], cli/utils.h:61-70. *)
Definition die (o : cli_options) (text : string) : act unit :=
  seq (if co_quiet o then done tt else print_error o Stdout ("Error" ++ eol)) (fun _ =>
  print_error o Stderr text).

(** [Project] with the parts used by the command line: [bin_size] and
    [opt_params] (project.h:133-178). *)
Record config := { cf_project : project; cf_bin_size : option Z; cf_opt : options }.

(** How [load_file] ends (config/load.cpp:107-112): with a project or with
    one of the exceptions that cli/cli.cpp:98-113 tells apart. *)
Inductive loaded :=
| Loaded (c : config)
| BadFile
| ParserException (line column : Z) (msg : string)
| ValidationError (what : string)
| UnexpectedException (what : string).

(** A number in a format string, e.g. cli/cli.cpp:27-30. *)
Definition text_of (z : Z) : string := string_of_list_ascii (decimal_text z).

(** [print_yaml_error], cli/cli.cpp:21-32. *)
Definition print_yaml_error (o : cli_options) (line column : Z) (msg : string) : act unit :=
  print_error o Stderr ("Error at line " ++ text_of (line + 1) ++ ", column " ++
    text_of (column + 1) ++ ": " ++ msg ++ eol).

(** [parse_config], cli/cli.cpp:88-114. *)
Definition parse_config (o : cli_options) (load : string -> loaded) : act config :=
  seq (print o "Parsing configuration... ") (fun _ =>
  match load (co_filename o) with
  | Loaded c =>
      let c' := match co_bin_size o with
                | Some z => {| cf_project := cf_project c; cf_bin_size := Some z; cf_opt := cf_opt c |}
                | None => c
                end in
      seq (print o ("OK" ++ eol)) (fun _ => done c')
  | BadFile =>
      seq (die o ("Error reading tasks and agents from file " ++ quote ++ co_filename o ++ quote ++
                  "." ++ eol)) (fun _ => throw UserError)
  | ParserException line column msg =>
      seq (die o "Error parsing YAML: ") (fun _ =>
      seq (print_yaml_error o line column msg) (fun _ => throw UserError))
  | ValidationError what =>
      seq (die o ("Validation error: " ++ what ++ eol)) (fun _ => throw UserError)
  | UnexpectedException what =>
      seq (die o ("Unexpected error: " ++ what ++ eol)) (fun _ => throw OtherError)
  end).

(** [parse_opt_params], cli/cli.cpp:147-157: [from] are the values of the
    command line, [to_] those of the project. *)
Definition parse_opt_params (from to_ : options) : options :=
  {| op_batch := op_batch from; op_max_idle := op_max_idle from; op_scale := op_scale from;
     op_window := op_window from; op_gamma := op_gamma from; op_period := op_period from |}.

(** ** The events *)

(** What the progress display writes, cli/progress.cpp:7-67 (see
    TerminalModel.v): for the start, for an update, for the end; and the
    text that fmt makes of a float, cli/events.cpp:39. *)
Record display := {
  ds_start : list string;
  ds_update : f32 -> list string;
  ds_stop : list string;
  ds_number : f32 -> string
}.

(** The texts of the progress display go to standard output,
    cli/progress.cpp:7-67. *)
Definition show (l : list string) : list effect := map (Printed Stdout) l.

(** The name of the log, cli/events.cpp:24. *)
Definition log_file : string := "optimization_log.csv".

(** [EventHandler::operator()].  The log can be created, or not (then
    [fmt::output_file] throws), cli/events.cpp:24. *)
Definition handle (o : cli_options) (d : display) (log_ok : bool) (e : event) : act unit :=
  match e with
  | ScheduleOptimizationStart =>
      (* cli/events.cpp:17-30 *)
      seq (does (Printed Stdout ("Optimizing the schedule..." ++ eol) :: show (ds_start d))) (fun _ =>
      if co_log o then
        if log_ok then does [Logged log_file ("progress,makespan,current_epoch" ++ eol)] else throw OtherError
      else done tt)
  | SimulationStart | Finished => done tt
  | ScheduleOptimization q m k =>
      (* cli/events.cpp:32-44 *)
      seq (attempt (expects (f_le f_zero q && f_le q f_one))) (fun _ =>
      seq (does (show (ds_update d q))) (fun _ =>
      if co_log o then does [Logged log_file (ds_number d q ++ "," ++ text_of m ++ "," ++ text_of k ++ eol)]
      else done tt))
  | ScheduleOptimizationComplete m =>
      (* cli/events.cpp:46-62 *)
      seq (does (show (ds_stop d))) (fun _ =>
      seq (does [Printed Stdout
        (if co_color o then
           String (ascii_of_nat 27) ("[A" ++ String (ascii_of_nat 13) ("Optimizing the schedule... OK" ++ eol))
         else "Schedule optimization complete." ++ eol)]) (fun _ =>
      does [Printed Stdout ("Optimal makespan: " ++
              string_of_list_ascii (if co_verbose o then verbose m else humanize m) ++ "." ++ eol)]))
  end.

(** [consume_events], cli/events.h:66-87, on the events of a worker.  All
    of them are handled, in order, whatever the interleaving is, and the
    loop ends exactly if the last one is final (C54, C55). *)
Fixpoint consume_events (o : cli_options) (d : display) (log_ok : bool) (l : list event) : act unit :=
  match l with
  | [] => ([], Never)
  | e :: l' =>
      seq (handle o d log_ok e) (fun _ =>
      if is_final_event e then done tt else consume_events o d log_ok l')
  end.

(** Showing the progress, and [future.get()], cli/cli.cpp:124-132 and
    cli/schedule.cpp:178-186.  A worker that ends with [Broken] has thrown
    an exception; one that ends with [NoFuel] has not ended. *)
Definition await {R} (o : cli_options) (d : display) (log_ok : bool) (w : work R) : act R :=
  seq (if co_quiet o then done tt else consume_events o d log_ok (fst w)) (fun _ => attempt (snd w)).

(** [print_histogram_stats], cli/cli.cpp:40-58. *)
Definition print_histogram_stats (o : cli_options) (s : hist_stats) : act unit :=
  let line (n : string) (z : Z) :=
    ("  " ++ n ++ "% chance to complete the project in under " ++
     string_of_list_ascii (verbose z) ++ "." ++ eol)%string in
  print o ("Estimation:" ++ eol ++ line "25" (p25 s) ++ line "50" (p50 s) ++
           line "75" (p75 s) ++ line "95" (p95 s) ++ line "99" (p99 s)).

(** The two kinds of results: cli/schedule.cpp:187 and
    cli/cli.cpp:136-144. *)
Inductive json :=
| ScheduleJson (r : json_result)
| PredictionJson (r : json_result) (st : json_stats) (h : json_histogram).

(** [run_prediction], cli/cli.cpp:116-145. *)
Definition run_prediction (c : config) (o : cli_options) (d : display) (log_ok : bool)
  (predict : config -> work prediction) : act json :=
  seq (attempt (expects (negb (length (pr_tasks (cf_project c)) =? 0)%nat))) (fun _ =>
  seq (attempt (expects (negb (length (pr_agents (cf_project c)) =? 0)%nat))) (fun _ =>
  seq (await o d log_ok (predict c)) (fun r =>
  seq (print_histogram_stats o (pd_stats r)) (fun _ =>
  seq (attempt (schedule_json (cf_project c) (pd_schedule r) (pd_makespan r))) (fun j =>
  seq (attempt (histogram_json (pd_histogram r))) (fun h =>
  done (PredictionJson j (stats_json (pd_stats r)) h))))))).

(** [json_schedule], cli/schedule.cpp:170-188. *)
Definition json_schedule (c : config) (o : cli_options) (d : display) (log_ok : bool)
  (schedule : config -> work optimized) : act json :=
  seq (attempt (expects (negb (length (pr_tasks (cf_project c)) =? 0)%nat))) (fun _ =>
  seq (attempt (expects (negb (length (pr_agents (cf_project c)) =? 0)%nat))) (fun _ =>
  seq (await o d log_ok (schedule c)) (fun r =>
  seq (attempt (schedule_json (cf_project c) (os_schedule r) (os_makespan r))) (fun j =>
  done (ScheduleJson j))))).

(** ** The output *)

(** What the file system does with the output file: it takes everything;
    it cannot be opened, and the constructor of the stream throws a
    [std::runtime_error]; or writing to it fails, which only sets an error
    bit of the stream ([std::ostream] without an exception mask),
    cli/cli.cpp:165-168 and cli/schedule.cpp:196-199. *)
Inductive disk := DiskOk | CannotOpen (what : string) | WriteFails.

(** [save_prediction_json], cli/cli.cpp:159-185, and [save_schedule_json],
    cli/schedule.cpp:190-216. *)
Definition save_json (error success_a success_b : string) (o : cli_options) (dump : json -> string)
  (fs : string -> disk) (j : json) : act unit :=
  seq (attempt (expects (negb (length (list_ascii_of_string (co_output o)) =? 0)%nat))) (fun _ =>
  seq (match fs (co_output o) with
       | DiskOk => does [Saved (co_output o) (dump j)]
       | CannotOpen what =>
           seq (print_error o Stderr (error ++ eol ++ what)) (fun _ => throw UserError)
       | WriteFails => done tt
       end) (fun _ =>
  print o (success_a ++ quote ++ co_output o ++ quote ++ success_b ++ eol))).

(** cli/cli.cpp:159-185. *)
Definition save_prediction_json :=
  save_json "Error saving the prediction results:" "Time estimation written to " "".
(** cli/schedule.cpp:190-216. *)
Definition save_schedule_json :=
  save_json "Error saving the schedule:" "Saving the optimized schedule to " ".".

(** ** main *)

(** What CLI11 makes of the arguments (main.cpp:163-176): the help or the
    version was asked for, the arguments are wrong, or the command runs,
    with or without the subcommand [schedule]. *)
Inductive arguments :=
| Help (text : string)
| Version (text : string)
| Rejected (text : string) (code : Z)
| Run (o : cli_options) (is_schedule : bool).

(** Everything outside the command (no source counterpart). *)
Record world := {
  wd_arguments : arguments;
  wd_load : string -> loaded;
  wd_predict : config -> work prediction;
  wd_schedule : config -> work optimized;
  wd_display : display;
  wd_log_ok : bool;
  wd_dump : json -> string;
  wd_disk : string -> disk;
  wd_terminate : string
}.

(** [EXIT_FAILURE], main.cpp:194. *)
Definition exit_failure : Z := 1.

(** How the process ends: with a status; by [std::terminate], after an
    exception that main does not catch (main.cpp:193-195); or not at all. *)
Inductive ending := Exited (status : Z) | Aborted | Running.

(** The body of the try block, main.cpp:177-192. *)
Definition run_command (w : world) (o : cli_options) (is_schedule : bool) : act unit :=
  seq (parse_config o (wd_load w)) (fun c =>
  let c' := {| cf_project := cf_project c; cf_bin_size := cf_bin_size c;
               cf_opt := parse_opt_params (co_opt o) (cf_opt c) |} in
  if is_schedule then
    seq (json_schedule c' o (wd_display w) (wd_log_ok w) (wd_schedule w)) (fun j =>
    save_schedule_json o (wd_dump w) (wd_disk w) j)
  else
    seq (run_prediction c' o (wd_display w) (wd_log_ok w) (wd_predict w)) (fun j =>
    save_prediction_json o (wd_dump w) (wd_disk w) j)).

(** [main], main.cpp:155-196.  CLI11 prints help and version on standard
    output and errors on standard error (CLI11_PARSE); [std::terminate]
    prints the exception on standard error. *)
Definition main (w : world) : list effect * ending :=
  match wd_arguments w with
  | Help text | Version text => ([Printed Stdout text], Exited 0)
  | Rejected text code => ([Printed Stderr text], Exited code)
  | Run o is_schedule =>
      match run_command w o is_schedule with
      | (effects, Value _) => (effects, Exited 0)
      | (effects, Throws UserError) => (effects, Exited exit_failure)
      | (effects, Throws OtherError) => ((effects ++ [Printed Stderr (wd_terminate w)])%list, Aborted)
      | (effects, Never) => (effects, Running)
      end
  end.
