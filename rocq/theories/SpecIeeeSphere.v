(** * SpecIeeeSphere: what is asked of the sine of the platform *)
From Coq Require Import Reals.
From Flocq Require Import Core IEEE754.BinarySingleNaN.
From Verif Require Import Ieee.
Local Open Scope R_scope.

(** The sine of a number of at most two radians (in absolute value) has an error of at most 2^-50, and a relative error
    of at most 2^-50 unless the number is so small that its sine may underflow. *)
Definition accurate_sin (sin64 : f64 -> f64) : Prop :=
  forall x, is_finite x = true -> Rabs (B2R x) <= 2 ->
  is_finite (sin64 x) = true /\ Rabs (B2R (sin64 x) - sin (B2R x)) <= / 2 ^ 50 /\
  (B2R x = 0 \/ / 2 ^ 1000 <= Rabs (B2R x) -> Rabs (B2R (sin64 x) - sin (B2R x)) <= / 2 ^ 50 * Rabs (sin (B2R x))).
