(** * Model of src/cli/terminal.cpp and src/cli/progress.cpp: cursor,
      signals, throttled progress lines *)

From Coq Require Import List ZArith Bool Arith.
Import ListNotations.

(** ** The cursor

    Texts for standard output go through the buffer of the C library
    (stdio), which a terminal makes line buffered: it is written to the
    terminal when a text ends a line and when it is flushed.  [quick_exit]
    does not flush it. *)

(** Texts: the escape sequences of [indicators::show_console_cursor]
    (terminal.cpp:73, 78), and other texts, which end a line or not. *)
Inductive text := HideCursor | ShowCursor | Other (ends_line : bool).

(** The steps of the thread that draws the progress: terminal.cpp:66-80,
    progress.cpp:26-44. *)
Inductive step := SetFlag | ClearFlag | Write (t : text) | Flush.

(** The flag [cursor_suppressed] (terminal.cpp:30), the buffer, and what
    the terminal has received. *)
Record tty := { ty_flag : bool; ty_buffer : list text; ty_screen : list text }.

(** The start of the process: terminal.cpp:30. *)
Definition tty_start : tty := {| ty_flag := false; ty_buffer := []; ty_screen := [] |}.

(** [fflush(stdout)], terminal.cpp:47. *)
Definition flush (s : tty) : tty :=
  {| ty_flag := ty_flag s; ty_buffer := []; ty_screen := ty_screen s ++ ty_buffer s |}.

(** What a step does: the flag of terminal.cpp:72 and 79, the buffering
    of the C library (no source counterpart). *)
Definition do_step (s : tty) (x : step) : tty :=
  match x with
  | SetFlag => {| ty_flag := true; ty_buffer := ty_buffer s; ty_screen := ty_screen s |}
  | ClearFlag => {| ty_flag := false; ty_buffer := ty_buffer s; ty_screen := ty_screen s |}
  | Flush => flush s
  | Write t =>
      let s' := {| ty_flag := ty_flag s; ty_buffer := ty_buffer s ++ [t]; ty_screen := ty_screen s |} in
      match t with Other true => flush s' | _ => s' end
  end.

(** Several steps (no source counterpart). *)
Definition do_steps (s : tty) (l : list step) : tty := fold_left do_step l s.

(** [hide_cursor], terminal.cpp:70-74. *)
Definition hide_cursor : list step := [SetFlag; Write HideCursor].
(** [show_cursor], terminal.cpp:76-80. *)
Definition show_cursor : list step := [Write ShowCursor; ClearFlag].

(** [erase_line], terminal.cpp:66. *)
Definition erase_line : list step := [Write (Other false)].
(** [cursor_up], terminal.cpp:68. *)
Definition cursor_up : list step := [Write (Other false)].

(** [bar.set_progress], progress.cpp:29, 37 (the indicators library): it
    writes the bar, which ends the line or not, and flushes. *)
Definition set_progress (ends_line : bool) : list step := [Write (Other ends_line); Flush].

(** [ProgressBar::start], progress.cpp:26-30. *)
Definition bar_start (ends_line : bool) : list step := hide_cursor ++ set_progress ends_line.
(** [ProgressBar::update], progress.cpp:32-38. *)
Definition bar_update (ends_line : bool) : list step := set_progress ends_line.
(** [ProgressBar::stop], progress.cpp:40-44. *)
Definition bar_stop : list step := show_cursor ++ erase_line.

(** The handlers of cli/events.cpp:17-62 with a progress bar: the start,
    the updates, the completion; the texts before and after are arbitrary.
    ([Other true]: the texts of lines 21, 51 and 58/60 end their line.) *)
Definition drawing (before : list bool) (first : bool) (updates : list bool) (after : list bool)
  : list step :=
  map (fun b => Write (Other b)) before
  ++ (Write (Other true) :: bar_start first)
  ++ flat_map bar_update updates
  ++ (bar_stop ++ cursor_up ++ [Write (Other true)])
  ++ map (fun b => Write (Other b)) (true :: after).

(** [at_exit], terminal.cpp:43-52. *)
Definition at_exit (s : tty) : tty :=
  if ty_flag s then flush (do_steps s show_cursor) else s.

(** A signal after [k] steps, handled by the drawing thread:
    [abort_handler], terminal.cpp:14-18; [quick_exit] calls [at_exit] and
    drops the buffer. *)
Definition signal_after (l : list step) (k : nat) (signal : Z) : tty * Z :=
  (at_exit (do_steps tty_start (firstn k l)), (128 + signal)%Z).

(** A signal handled by another thread: the drawing thread makes [m] more
    steps between the test of the flag, or the end of [at_exit], and the
    end of the process (terminal.cpp:14-18 and 43-52). *)
Definition signal_elsewhere (l : list step) (k m : nat) : tty :=
  do_steps (at_exit (do_steps tty_start (firstn k l))) (firstn m (skipn k l)).

(** ** Throttled progress lines *)

(** [ProgressText::update], progress.cpp:7-15: the clock reading [now] in
    nanoseconds; the new [last_update] and whether a line is printed.  (The
    contract on the progress is that of the events.) *)
Definition text_update (last now : Z) : Z * bool :=
  if (now - last <? 1000000000)%Z then (last, false) else (now, true).

(** A sequence of updates; [last_update] starts as the epoch of the clock
    (progress.h:30). *)
Fixpoint text_updates (last : Z) (readings : list Z) : list bool :=
  match readings with
  | [] => []
  | now :: rest => snd (text_update last now) :: text_updates (fst (text_update last now)) rest
  end.
