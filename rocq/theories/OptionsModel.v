(** * Model of the checks of the option --restart-period, src/main.cpp:20-29
      and 71-77, on argument strings

    The conversions are those of the C and C++ standard libraries and of
    CLI11 2.1.1 (conanfile.txt:13).  Strings are lists of characters
    without a NUL character. *)

From Coq Require Import List ZArith NArith Bool Ascii String.
From Verif Require Import TemperatureModel.
Import ListNotations.

(** [isspace] in the C locale (used by [std::stoi], main.cpp:23). *)
Definition is_space (c : ascii) : bool :=
  let n := nat_of_ascii c in (n =? 32)%nat || ((9 <=? n)%nat && (n <=? 13)%nat).

(** The value of a digit in bases up to 16 (used by [std::stoi],
    main.cpp:23). *)
Definition digit_value (base : Z) (c : ascii) : option Z :=
  let n := Z.of_nat (nat_of_ascii c) in
  let v :=
    if ((48 <=? n) && (n <=? 57))%Z then (n - 48)%Z
    else if ((97 <=? n) && (n <=? 122))%Z then (n - 87)%Z
    else if ((65 <=? n) && (n <=? 90))%Z then (n - 55)%Z
    else 36%Z in
  if (v <? base)%Z then Some v else None.

(** The blanks before a number (used by [std::stoi], main.cpp:23). *)
Fixpoint skip_spaces (l : list ascii) : list ascii :=
  match l with
  | c :: l' => if is_space c then skip_spaces l' else l
  | [] => []
  end.

(** The longest sequence of digits and what follows it (used by
    [std::stoi], main.cpp:23). *)
Fixpoint read_digits (base acc : Z) (l : list ascii) : Z * list ascii :=
  match l with
  | c :: l' =>
      match digit_value base c with
      | Some v => read_digits base (acc * base + v)%Z l'
      | None => (acc, l)
      end
  | [] => (acc, [])
  end.

(** At least one digit is needed (used by [std::stoi], main.cpp:23). *)
Definition read_number (base : Z) (l : list ascii) : option (Z * list ascii) :=
  match l with
  | c :: _ => match digit_value base c with Some _ => Some (read_digits base 0 l) | None => None end
  | [] => None
  end.

(** The prefix of base 0: 0x and a hexadecimal digit, or 0, or nothing
    (used by CLI11 for main.cpp:71-73). *)
Definition read_prefixed (l : list ascii) : option (Z * list ascii) :=
  match l with
  | "0"%char :: c :: r =>
      if (Ascii.eqb c "x" || Ascii.eqb c "X")%bool then
        match read_number 16 r with
        | Some v => Some v
        | None => Some (0%Z, c :: r)
        end
      else read_number 8 l
  | "0"%char :: [] => read_number 8 l
  | _ => read_number 10 l
  end.

(** An optional sign before a number (used by [std::stoi], main.cpp:23). *)
Definition read_signed (number : list ascii -> option (Z * list ascii)) (l : list ascii)
  : option (Z * list ascii) :=
  match l with
  | "-"%char :: r => match number r with Some (z, rest) => Some ((- z)%Z, rest) | None => None end
  | "+"%char :: r => number r
  | _ => number l
  end.

(** [strtoll] without the limits: [None] if there is no number, else the
    number and the characters after it (used by [std::stoi], main.cpp:23,
    and by CLI11 for main.cpp:71-73). *)
Definition strtoll (base : Z) (l : list ascii) : option (Z * list ascii) :=
  read_signed (if (base =? 0)%Z then read_prefixed else read_number base) (skip_spaces l).

(** A 32 bit [int] (main.cpp:23; cli/options.h). *)
Definition fits_int (z : Z) : bool := ((- 2 ^ 31 <=? z) && (z <? 2 ^ 31))%Z.

(** [std::stoi], main.cpp:23: it throws without a number and out of
    range. *)
Definition stoi (l : list ascii) : option Z :=
  match strtoll 10 l with
  | Some (z, _) => if fits_int z then Some z else None
  | None => None
  end.

(** [power_of_2_validator], main.cpp:20-29: true if there is no message. *)
Definition power_of_2_validator (l : list ascii) : bool :=
  match stoi l with
  | Some z => has_single_bit (Z.to_N (z mod 2 ^ 32))
  | None => false
  end.

(** The conversion of the argument to [int] ([integral_conversion] of
    CLI11, used for main.cpp:71-73): the whole text must be a number in
    base 0 and fit. *)
Definition integral_conversion (l : list ascii) : option Z :=
  match strtoll 0 l with
  | Some (z, []) => if fits_int z then Some z else None
  | _ => if list_eq_dec ascii_dec l (list_ascii_of_string "true") then Some 1%Z else None
  end.

(** The checks of main.cpp:76-77 and the conversion for main.cpp:73.
    [positive] is [CLI::PositiveNumber], which converts the text to a
    floating point number. *)
Definition restart_period (positive : list ascii -> bool) (l : list ascii) : option Z :=
  if positive l && power_of_2_validator l then integral_conversion l else None.
