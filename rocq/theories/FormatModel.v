(** * Model of src/cli/verbose.h and src/cli/humanize.h: durations as text

    Durations are whole seconds ([std::chrono::seconds]), the only type the
    program formats.  64 bit overflow is not modelled.  Texts are lists of
    characters. *)

From Coq Require Import List ZArith Ascii String Bool.
Import ListNotations.
Open Scope Z_scope.

(** A digit, part of the ["{}"] of verbose.h:36 and humanize.h:58. *)
Definition digit_char (d : Z) : ascii := ascii_of_nat (Z.to_nat (48 + d)).

(** The decimal digits of a non-negative number in front of [acc], by
    repeated division, for the ["{}"] of verbose.h:36.  The fuel is the
    number of binary digits, so it suffices. *)
Fixpoint decimal_digits (fuel : nat) (n : Z) (acc : list ascii) : list ascii :=
  match fuel with
  | O => acc
  | S fuel' =>
      let acc' := digit_char (n mod 10) :: acc in
      if n / 10 =? 0 then acc' else decimal_digits fuel' (n / 10) acc'
  end.

(** [fmt::format_to(out, "{}", n)] for an integer (the fmt library, used at
    verbose.h:36 and humanize.h:58). *)
Definition decimal_text (n : Z) : list ascii :=
  if n <? 0
  then "-"%char :: decimal_digits (S (Z.to_nat (Z.log2 (- n)))) (- n) []
  else decimal_digits (S (Z.to_nat (Z.log2 n))) n [].

(** Seconds per [std::chrono::months], [days], [hours], [minutes],
    [seconds], with the names of verbose.h:67-71. *)
Definition verbose_units : list (Z * string) :=
  [(2629746, "mo"); (86400, "d"); (3600, "h"); (60, "m"); (1, "s")]%string.

(** What [verbose_duration] changes: [total], [needs_space] and the text
    written (verbose.h:29). *)
Record verbose_state := { vs_total : Z; vs_space : bool; vs_out : list ascii }.

(** The function made by [verbose_duration<T>(name)], verbose.h:27-38;
    [std::chrono::floor] rounds towards minus infinity. *)
Definition verbose_duration (st : verbose_state) (u : Z * string) : verbose_state :=
  let ticks := vs_total st / fst u in
  if ticks =? 0 then st
  else
    {| vs_total := vs_total st - ticks * fst u;
       vs_space := true;
       vs_out := vs_out st ++ (if vs_space st then [" "%char] else [])
                 ++ decimal_text ticks ++ list_ascii_of_string (snd u) |}.

(** [formatter<verbose<...>>::format], verbose.h:57-73. *)
Definition verbose (z : Z) : list ascii :=
  if z =? 0 then list_ascii_of_string "0s"
  else vs_out (fold_left verbose_duration verbose_units
                 {| vs_total := z; vs_space := false; vs_out := [] |}).

(** Seconds per unit, the article and the name, humanize.h:90-94. *)
Definition humanize_units : list (Z * (string * string)) :=
  [(2629746, ("a", "month")); (86400, ("a", "day")); (3600, ("an", "hour"));
   (60, ("a", "minute")); (1, ("a", "second"))]%string.

(** [std::chrono::round<T>] (used at humanize.h:48): nearest, ties to the
    even count. *)
Definition chrono_round (z unit : Z) : Z :=
  let t0 := z / unit in
  let diff0 := z - t0 * unit in
  let diff1 := (t0 + 1) * unit - z in
  if diff0 =? diff1 then (if Z.odd t0 then t0 + 1 else t0)
  else if diff0 <? diff1 then t0 else t0 + 1.

(** The function made by [humanize_duration<T>(article, name)],
    humanize.h:43-62; [None] is [continue_]. *)
Definition humanize_duration (z : Z) (u : Z * (string * string)) : option (list ascii) :=
  let ticks := chrono_round z (fst u) in
  if ticks =? 0 then None
  else if ticks =? 1
  then Some (list_ascii_of_string "about " ++ list_ascii_of_string (fst (snd u)) ++
             " "%char :: list_ascii_of_string (snd (snd u)))
  else Some (decimal_text ticks ++ " "%char :: list_ascii_of_string (snd (snd u)) ++ ["s"%char]).

(** The fold over [||] of humanize.h:88-94. *)
Fixpoint humanize_first (z : Z) (l : list (Z * (string * string))) : list ascii :=
  match l with
  | [] => []
  | u :: l' =>
      match humanize_duration z u with
      | Some t => t
      | None => humanize_first z l'
      end
  end.

(** [formatter<humanize<...>>::format], humanize.h:80-96. *)
Definition humanize (z : Z) : list ascii :=
  if z <=? 5 then list_ascii_of_string "a few seconds"
  else humanize_first z humanize_units.
