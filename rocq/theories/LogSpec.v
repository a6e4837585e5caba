(** * Vocabulary of C75: the optimization log *)

From Coq Require Import String List ZArith.
From Verif Require Import Base F32 PredictModel FormatModel CliModel.
Import ListNotations.
Local Open Scope string_scope.

(** What is written to the log of the given name. *)
Fixpoint logged (file : string) (l : list effect) : string :=
  match l with
  | [] => ""
  | Logged f x :: l' => if String.eqb f file then x ++ logged file l' else logged file l'
  | _ :: l' => logged file l'
  end.

(** A line of three columns; [decimal_text] is the decimal notation, [C60]. *)
Definition row (number : f32 -> string) (q : f32) (m k : Z) : string :=
  number q ++ "," ++ string_of_list_ascii (decimal_text m) ++ "," ++
  string_of_list_ascii (decimal_text k) ++ String (Ascii.ascii_of_nat 10) "".

(** The rows of the updates, in order. *)
Fixpoint rows (number : f32 -> string) (l : list (f32 * Z * Z)) : string :=
  match l with
  | [] => ""
  | (q, m, k) :: l' => row number q m k ++ rows number l'
  end.

(** The updates that the optimizer has reported. *)
Fixpoint updates (l : list event) : list (f32 * Z * Z) :=
  match l with
  | [] => []
  | ScheduleOptimization q m k :: l' => (q, m, k) :: updates l'
  | _ :: l' => updates l'
  end.

(** The whole log. *)
Definition whole_log (number : f32 -> string) (l : list event) : string :=
  "progress,makespan,current_epoch" ++ String (Ascii.ascii_of_nat 10) "" ++ rows number (updates l).

(** The name that the help text promises, main.cpp:98-101. *)
Definition promised_file : string := "optimization.csv".
