(** * Model of the conversion of the other numeric options,
      src/main.cpp:37-78 and 144-149

    CLI11 2.1.1 (conanfile.txt:13) first hands the text of an option to the
    checks and then converts it to the type of the variable.
    [CLI::PositiveNumber] is the range from the smallest normal to the
    largest [double].  Texts are read by [strtold], which is an argument
    here: [None] if the text as a whole is not a number.  [long double] is
    the 80 bit format of x86-64. *)

From Coq Require Import List ZArith Bool Ascii String.
From Flocq Require Import Core BinarySingleNaN.
From Verif Require Import F32 OptionsModel.
Import ListNotations.

(** Side conditions of the formats (no source counterpart). *)
#[local] Instance prec64_gt_0 : Prec_gt_0 64 := eq_refl.
(** The same for the exponent (no source counterpart). *)
#[local] Instance prec64_lt_emax : Prec_lt_emax 64 16384 := eq_refl.
(** The same for [double] (no source counterpart). *)
#[local] Instance prec53_gt_0' : Prec_gt_0 53 := eq_refl.
(** The same for its exponent (no source counterpart). *)
#[local] Instance prec53_lt_emax' : Prec_lt_emax 53 1024 := eq_refl.

(** [long double] (CLI11's [lexical_cast], used for main.cpp:53-70). *)
Definition long_double := binary_float 64 16384.

(** [double] ([CLI::PositiveNumber], main.cpp:46, 52, 58, 64, 70, 76,
    149). *)
Definition double := binary_float 53 1024.

(** [static_cast<double>] (CLI11's [lexical_cast], used for main.cpp:46). *)
Definition to_double (x : long_double) : double :=
  match x with
  | B754_zero s => B754_zero s
  | B754_infinity s => B754_infinity s
  | B754_nan => B754_nan
  | B754_finite s m e _ => binary_normalize 53 1024 _ _ mode_NE (cond_Zopp s (Zpos m)) e s
  end.

(** [static_cast<float>] (CLI11's [lexical_cast], used for main.cpp:55 and
    67).  Numbers beyond the range become infinite, as on x86-64. *)
Definition to_float (x : long_double) : f32 :=
  match x with
  | B754_zero s => B754_zero s
  | B754_infinity s => B754_infinity s
  | B754_nan => B754_nan
  | B754_finite s m e _ => binary_normalize 24 128 _ _ mode_NE (cond_Zopp s (Zpos m)) e s
  end.

(** [std::numeric_limits<double>::min()], the lower end of
    [CLI::PositiveNumber] (main.cpp:46). *)
Definition double_min : double := binary_normalize 53 1024 _ _ mode_NE 1 (-1022) false.

(** [std::numeric_limits<double>::max()], its upper end (main.cpp:46). *)
Definition double_max : double := binary_normalize 53 1024 _ _ mode_NE (2 ^ 53 - 1) 971 false.

(** [CLI::PositiveNumber] (main.cpp:46, 52, 58, 64, 70, 76, 149): no
    message unless the text is not a number, or the number is below or
    above the range. *)
Definition positive_number (strtold : list ascii -> option long_double) (l : list ascii) : bool :=
  match strtold l with
  | Some x => negb (Bltb (to_double x) double_min || Bltb double_max (to_double x))
  | None => false
  end.

(** The options --batch-size, --max-idle-iters, --stun-window and
    --histogram-bin-size: main.cpp:41-52, 59-64 and 144-149. *)
Definition int_option (strtold : list ascii -> option long_double) (l : list ascii) : option Z :=
  if positive_number strtold l then integral_conversion l else None.

(** The options --beta-scale and --gamma: main.cpp:53-58 and 65-70. *)
Definition float_option (strtold : list ascii -> option long_double) (l : list ascii) : option f32 :=
  if positive_number strtold l then option_map to_float (strtold l) else None.
