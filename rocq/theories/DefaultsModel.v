(** * Model of the default options, src/project.h:132-150

    [default_val] (main.cpp:45-75) makes a text of the default and parses it
    like an argument.  How the text is made is not modelled; that the texts
    give the same numbers is in DefaultsProps.v. *)

From Coq Require Import ZArith.
From Verif Require Import Base F32 StunModel.

(** [OptimizationParameters], project.h:132-150.  [1e-3F] is the float
    nearest to 1/1000. *)
Definition default_options : options :=
  {| op_batch := 10000; op_max_idle := 100000; op_scale := f_div f_one (f_of_Z 1000); op_window := 100;
     op_gamma := f_of_Z 2; op_period := 256 |}.
