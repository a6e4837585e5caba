(** * How numbers are written on the command line *)

From Coq Require Import List ZArith Bool Ascii String Reals.
From Flocq Require Import Core BinarySingleNaN.
From Verif Require Import OptionsModel OptionsProps OptionValuesModel.
Import ListNotations.
Local Open Scope Z_scope.

(** A digit of a base up to 16. *)
Definition digit (base : Z) (c : ascii) (d : Z) : Prop :=
  0 <= d < base /\
  (nth_error (list_ascii_of_string "0123456789abcdef") (Z.to_nat d) = Some c \/
   nth_error (list_ascii_of_string "0123456789ABCDEF") (Z.to_nat d) = Some c).

(** The number a sequence of digits stands for. *)
Inductive digits_in (base : Z) : list ascii -> Z -> Prop :=
| di_one : forall c d, digit base c d -> digits_in base [c] d
| di_more : forall l z c d, digits_in base l z -> digit base c d -> digits_in base (l ++ [c]) (base * z + d).

(** Spaces, a sign or none, a prefix, digits. *)
Inductive written (base : Z) (prefix : list ascii) : list ascii -> Z -> Prop :=
| wr_plain : forall spaces l z, Forall (fun c => is_space c = true) spaces -> digits_in base l z ->
    written base prefix (spaces ++ prefix ++ l) z
| wr_plus : forall spaces l z, Forall (fun c => is_space c = true) spaces -> digits_in base l z ->
    written base prefix (spaces ++ "+"%char :: prefix ++ l) z
| wr_minus : forall spaces l z, Forall (fun c => is_space c = true) spaces -> digits_in base l z ->
    written base prefix (spaces ++ "-"%char :: prefix ++ l) (- z).

(** Hexadecimal numbers. *)
Definition hexadecimal (l : list ascii) (z : Z) : Prop :=
  written 16 ["0"; "x"]%char l z \/ written 16 ["0"; "X"]%char l z.

(** Octal numbers start with a zero. *)
Definition octal (l : list ascii) (z : Z) : Prop := leading_zero l /\ written 8 [] l z.

(** The result for a text that stands for the integer [z]: exact if 63 bits
    are enough, and never above zero if [z] is not. *)
Definition read_as (r : option long_double) (z : Z) : Prop :=
  exists x, r = Some x /\
    (Z.abs z < 2 ^ 63 -> is_finite x = true /\ B2R x = IZR z) /\
    (z <= 0 -> is_nan x = false /\ x <> B754_infinity false /\ (B2R x <= 0)%R).

(** What is assumed of [strtold]: it reads decimal integers, with or
    without leading zeros, and hexadecimal integers, and "true" is not a
    number. *)
Definition reads_integers (strtold : list ascii -> option long_double) : Prop :=
  (forall l z, written 10 [] l z -> read_as (strtold l) z) /\
  (forall l z, hexadecimal l z -> read_as (strtold l) z) /\
  strtold (list_ascii_of_string "true") = None.
