(** * SpecIeeeTurner: what is asked of the inverse tangent of the platform *)
From Coq Require Import Reals.
From Flocq Require Import Core IEEE754.BinarySingleNaN.
From Verif Require Import Ieee.
Local Open Scope R_scope.

(** An error of at most 2^-50. *)
Definition accurate_atan (atan64 : f64 -> f64) : Prop :=
  (forall x, is_finite x = true -> is_finite (atan64 x) = true /\ Rabs (B2R (atan64 x) - atan (B2R x)) <= / 2 ^ 50) /\
  is_finite (atan64 (B754_infinity false)) = true /\ Rabs (B2R (atan64 (B754_infinity false)) - PI / 2) <= / 2 ^ 50.

(** Not decreasing, and correctly rounded at 1 and -1: the binary64 number nearest to pi/4 is 7074237752028440 / 2^53. *)
Definition ordered_atan (atan64 : f64 -> f64) : Prop :=
  (forall x y, is_finite x = true -> is_finite y = true -> B2R x <= B2R y -> B2R (atan64 x) <= B2R (atan64 y)) /\
  (forall x, is_finite x = true -> B2R x = 1 -> B2R (atan64 x) = 7074237752028440 / 2 ^ 53) /\
  (forall x, is_finite x = true -> B2R x = -1 -> B2R (atan64 x) = - (7074237752028440 / 2 ^ 53)).

(** Zero, or between 2^-200 and 2^200 in absolute value. *)
Definition ordinary (x : f64) : Prop := is_finite x = true /\ (B2R x = 0 \/ / 2 ^ 200 <= Rabs (B2R x)) /\ Rabs (B2R x) <= 2 ^ 200.
