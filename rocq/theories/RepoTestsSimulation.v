(** * The tests of the simulation, replayed in the model

    Tests of the model, not proofs about the program: with the generator and
    the distributions of the libraries, the model gives the numbers of
    seconds that /repo/test/simulation.cpp demands. *)

From Coq Require Import String List Bool Arith ZArith.
From Flocq Require Import BinarySingleNaN.
From Verif Require Import Base F32 ProjectModel ScheduleModel HistogramModel SimulationModel YamlModel LoadModel
  RandomModel NormalModel RepoTests.
Import ListNotations.
Local Open Scope string_scope.
Local Open Scope nat_scope.

(** The project of test/simulation.cpp:11-29. *)
Definition simulated_project : yaml :=
  Map [(Scalar "agents", Map [(Scalar "Bob", Map [(Scalar "performance", Map [(Scalar "min", Scalar
    "0.5"); (Scalar "max", Scalar "1.5")])]); (Scalar "Jack", Map [(Scalar "performance", Map
    [(Scalar "min", Scalar "0.5"); (Scalar "max", Scalar "1.5")])])]); (Scalar "tasks", Seq [Map
    [(Scalar "name", Scalar "Task 1"); (Scalar "duration", Map [(Scalar "min", Scalar "1h"); (Scalar
    "max", Scalar "3h")])]; Map [(Scalar "name", Scalar "Task 2"); (Scalar "duration", Map [(Scalar
    "min", Scalar "1h"); (Scalar "max", Scalar "3h")])]])].

(** The project of test/simulation.cpp:164-174. *)
Definition negative_project : yaml :=
  Map [(Scalar "agents", Map [(Scalar "Bob", Map [(Scalar "performance", Map [(Scalar "min", Scalar
    "0.001"); (Scalar "max", Scalar "2.0")])])]); (Scalar "tasks", Seq [Map [(Scalar "name", Scalar
    "Task 1"); (Scalar "duration", Map [(Scalar "min", Scalar "1s"); (Scalar "max", Scalar
    "1d")])]])].

(** The numbers of these texts (config/agents.cpp:89). *)
Definition sim_numbers (s : string) : option f32 :=
  if String.eqb s "0.001" then Some (flt (8589935) (-33))
  else if String.eqb s "2.0" then Some (f_of_Z 2)
  else halves s.

(** The results of the first [n] runs with a generator made from a seed
    (test/simulation.cpp:50-54). *)
Definition first_runs (exp : f32 -> f32) (n : nat) (seed : Z) (y : yaml) (l : list item) : outcome (list Z) :=
  match load sim_numbers y with
  | Loads p =>
      s <- sim_new p ;;
      r <- sim_runs_random n 20 exp s l (seeded seed 1442695040888963407) ;;
      Ok (fst (fst r))
  | _ => Broken
  end.

(** [std::exp] decides only between numbers that lie between the two lines
    that bound the curve.  The tests give the same results when it always
    answers 0 and when it always answers 2, which are never and always above
    the number compared with it; they do not depend on it. *)
Definition exp_low (_ : f32) : f32 := f_zero.
Definition exp_high (_ : f32) : f32 := f_of_Z 2.

(** "running simulation" and the copies, test/simulation.cpp:45-84. *)
Example sim_running :
  first_runs exp_low 2 0 simulated_project [Item 0 0; Item 1 1] = Ok [7397; 6474]%Z /\
  first_runs exp_high 2 0 simulated_project [Item 0 0; Item 1 1] = Ok [7397; 6474]%Z.
Proof. vm_compute. split; reflexivity. Qed.

(** "params", test/simulation.cpp:106-129: with the seed 42. *)
Example sim_other_seed :
  first_runs exp_low 1 42 simulated_project [Item 0 0; Item 1 1] = Ok [10043]%Z /\
  first_runs exp_high 1 42 simulated_project [Item 0 0; Item 1 1] = Ok [10043]%Z.
Proof. vm_compute. split; reflexivity. Qed.

(** The running average of test/simulation.cpp:141-146. *)
Fixpoint running_average (avg : f32) (count : Z) (l : list Z) : f32 :=
  match l with
  | [] => avg
  | z :: l' =>
      let c := f_of_Z count in
      running_average
        (f_add (f_mul avg (f_div c (f_add c f_one))) (f_mul (f_of_Z z) (f_div f_one (f_add c f_one))))
        (count + 1) l'
  end.

(** "average", test/simulation.cpp:131-149: [Approx(9546.38F)], within a
    tenth. *)
Definition average_ok (l : outcome (list Z)) : bool :=
  match l with
  | Ok (z :: l') =>
      let avg := running_average (f_of_Z z) 1 l' in
      f_lt (f_div (f_of_Z 95463) (f_of_Z 10)) avg && f_lt avg (f_div (f_of_Z 95465) (f_of_Z 10))
  | _ => false
  end.

Example sim_average :
  average_ok (first_runs exp_low 101 0 simulated_project [Item 0 0; Item 1 1]) = true /\
  average_ok (first_runs exp_high 101 0 simulated_project [Item 0 0; Item 1 1]) = true.
Proof. vm_compute. split; reflexivity. Qed.

(** "negative values", test/simulation.cpp:151-192: the least of 100
    runs. *)
Example sim_negative_values :
  value (first_runs exp_low 100 0 negative_project [Item 0 0]) (fun l => fold_left Z.min l 9999%Z) = Some 1517%Z /\
  value (first_runs exp_high 100 0 negative_project [Item 0 0]) (fun l => fold_left Z.min l 9999%Z) = Some 1517%Z.
Proof. vm_compute. split; reflexivity. Qed.
