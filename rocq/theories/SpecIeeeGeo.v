(** * SpecIeeeGeo: what is asked of the trigonometric functions of the platform *)
From Coq Require Import Reals.
From Flocq Require Import Core IEEE754.BinarySingleNaN.
From Verif Require Import Ieee IeeeGeo.
Local Open Scope R_scope.

(** Errors of at most 2^-50, up to seven radians; the cosine is not negative between -pi/2 and pi/2; the inverse sine is asked for up to 3/4. *)
Definition accurate_trig (sin64 cos64 asin64 : f64 -> f64) : Prop :=
  (forall x, is_finite x = true -> Rabs (B2R x) <= 7 -> is_finite (sin64 x) = true /\ Rabs (B2R (sin64 x) - sin (B2R x)) <= / 2 ^ 50) /\
  (forall x, is_finite x = true -> Rabs (B2R x) <= 7 -> is_finite (cos64 x) = true /\ Rabs (B2R (cos64 x) - cos (B2R x)) <= / 2 ^ 50) /\
  (forall x, is_finite x = true -> Rabs (B2R x) <= PI / 2 -> 0 <= B2R (cos64 x)) /\
  (forall x, is_finite x = true -> Rabs (B2R x) <= 3 / 4 -> is_finite (asin64 x) = true /\ Rabs (B2R (asin64 x) - asin (B2R x)) <= / 2 ^ 50).

(** A latitude and a longitude. *)
Definition on_earth (p : place64) : Prop :=
  is_finite (fst p) = true /\ Rabs (B2R (fst p)) <= 90 /\ is_finite (snd p) = true /\ Rabs (B2R (snd p)) <= 360.
Definition place_R (p : place64) : R * R := (B2R (fst p), B2R (snd p)).
