(** * C44: the fitter that the optimizer runs and the exact fitter are the
      same computation *)

From Coq Require Import List Reals Bool Lra.
From Flocq Require Import BinarySingleNaN.
From Verif Require Import Base F32 TemperatureModel StunModel OptimizerModel FitterModel FitterScheme StunProps.
Import ListNotations.

(** Both start from zero sums, add a point and evaluate the curve by one
    and the same scheme: the single precision fitter is the exact one, of
    which [fitter_recovers] and [least_squares_partial] speak, with every
    operation replaced by its rounded counterpart. *)
Theorem fitter_same_scheme :
  (forall o, single_sums curve_new = no_points (single o)) /\
  (forall o c x, curve_at o c x = curve_value (single o) (single_sums c) x) /\
  (forall o c x y r, curve_add o c x y = Ok r <->
     f_le f_zero x = true /\ f_le f_zero y = true /\
     single_sums (snd r) = with_point (single o) (single_sums c) x y /\
     fst r = curve_value (single o) (single_sums (snd r)) x) /\
  exact_sums fx_new = no_points exact /\
  (forall f x, fx_at f x = curve_value exact (exact_sums f) x) /\
  (forall f x y, exact_sums (fx_add f x y) = with_point exact (exact_sums f) x y) /\
  (forall f x y, fx_call f x y = curve_value exact (exact_sums (fx_add f x y)) x).
Proof.
  assert (SI : forall c d, single_sums c = single_sums d -> c = d).
  { intros c d E. destruct c, d. unfold single_sums in E. cbn in E. injection E. intros. subst. reflexivity. }
  assert (XA : forall f x, fx_at f x = curve_value exact (exact_sums f) x).
  { intros f x. unfold fx_at, curve_value. cbn. destruct (Req_EM_T (fx_divisor f) 0); reflexivity. }
  split; [reflexivity|]. split; [reflexivity|]. split; [|split; [reflexivity|split; [exact XA|split]]].
  - intros o c x y r. unfold curve_add.
    assert (N : forall (b : bool) X Y (P : f32 * curve), (if b then Ok X else Ok Y) = Ok P <-> (if b then X else Y) = P).
    { intros b X Y P. destruct b; (split; [intro H; injection H; auto|intros ->; reflexivity]). }
    destruct (f_le f_zero x); [|split; [discriminate|intros (H & _); discriminate]].
    destruct (f_le f_zero y); [|split; [discriminate|intros (_ & H & _); discriminate]].
    cbn [expects bind]. rewrite N. clear N. split.
    + intros <-. split; [reflexivity|]. split; [reflexivity|].
      unfold with_point, curve_value, single, single_sums. cbn.
      destruct (f_eq (f_fma _ _ _) f_zero) eqn:E; cbn; rewrite E; split; reflexivity.
    + intros (_ & _ & S & V). destruct r as [v d]. cbn [fst snd] in S, V. rewrite V. clear V v.
      unfold with_point, curve_value, single, single_sums in *. cbn in S |- *.
      destruct (f_eq (f_fma _ _ _) f_zero) eqn:E.
      * assert (D : cv_divisor d = f_fma (f_add (cv_sumy c) y) (f_add (cv_xxy c) (f_mul x (f_mul x y)))
                      (f_mul (f_opp (f_add (cv_xy c) (f_mul x y))) (f_add (cv_xy c) (f_mul x y)))) by congruence.
        rewrite D, E. apply f_equal. apply SI. symmetry. exact S.
      * assert (D : cv_divisor d = f_fma (f_add (cv_sumy c) y) (f_add (cv_xxy c) (f_mul x (f_mul x y)))
                      (f_mul (f_opp (f_add (cv_xy c) (f_mul x y))) (f_add (cv_xy c) (f_mul x y)))) by congruence.
        rewrite D, E. destruct d. cbn in *. congruence.
  - intros f x y. unfold fx_add, with_point. cbn.
    replace ((fx_sumy f + y) * (fx_xxy f + x * (x * y)) - (fx_xy f + x * y) * (fx_xy f + x * y))%R
      with ((fx_sumy f + y) * (fx_xxy f + x * (x * y)) + - (fx_xy f + x * y) * (fx_xy f + x * y))%R by lra.
    destruct (Req_EM_T _ 0); reflexivity.
  - intros f x y. unfold fx_call. apply XA.
Qed.
Print Assumptions fitter_same_scheme.

(** Two points given to the single precision fitter. *)
Example ex_two_points : exists r s,
  curve_add step_exp curve_new f_one f_one = Ok r /\
  curve_add step_exp (snd r) (f_of_Z 2) f_one = Ok s /\
  f_eq (cv_divisor (snd s)) f_zero = false /\
  single_sums (snd s) = with_point (single step_exp) (single_sums (snd r)) (f_of_Z 2) f_one.
Proof.
  destruct fitter_same_scheme as (_ & _ & H & _).
  set (r := result_or (f_zero, curve_new) (curve_add step_exp curve_new f_one f_one)).
  set (s := result_or (f_zero, curve_new) (curve_add step_exp (snd r) (f_of_Z 2) f_one)).
  assert (E : curve_add step_exp (snd r) (f_of_Z 2) f_one = Ok s) by (apply result_or_ok; vm_compute; reflexivity).
  exists r, s. split; [apply result_or_ok; vm_compute; reflexivity|]. split; [exact E|].
  split; [vm_compute; reflexivity|]. apply H in E. apply E.
Qed.
