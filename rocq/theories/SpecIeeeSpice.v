(** * SpecIeeeSpice: what is asked of the power function of the platform; the size of the terms of Flament's polynomial *)
From Coq Require Import Reals.
From Flocq Require Import Core IEEE754.BinarySingleNaN.
From Verif Require Import Ieee.
Local Open Scope R_scope.

(** Third to fifth powers of numbers up to 1000 have a relative error of at most 2^-50, unless they underflow;
    powers of zero are zero. *)
Definition accurate_pow (pow64 : f64 -> nat -> f64) : Prop := forall x n, (3 <= n <= 5)%nat ->
  is_finite x = true -> Rabs (B2R x) <= 1000 ->
  is_finite (pow64 x n) = true /\ Rabs (B2R (pow64 x n) - B2R x ^ n) <= / 2 ^ 50 * Rabs (B2R x ^ n) + / 2 ^ 1000 /\
  (B2R x = 0 -> B2R (pow64 x n) = 0).

(** The sum of the absolute values of the terms of Flament's polynomial. *)
Definition flament_size (T S : R) : R :=
  let t := Rabs T in let s := Rabs (S - 35) in
    t^0 * (0.0 + 7.7442e-1 * s^1 + 5.85e-3 * s^2 + 9.84e-4 * s^3 + 2.06e-4 * s^4)
  + t^1 * (5.1655e-2 + 2.034e-3 * s^1 + 2.742e-4 * s^2 + 8.5e-6 * s^3 + 1.36e-5 * s^4)
  + t^2 * (6.64783e-3 + 2.4681e-4 * s^1 + 1.428e-5 * s^2 + 3.337e-5 * s^3 + 7.894e-6 * s^4)
  + t^3 * (5.4023e-5 + 7.326e-6 * s^1 + 7.0036e-6 * s^2 + 3.0412e-6 * s^3 + 1.0853e-6 * s^4)
  + t^4 * (3.949e-7 + 3.029e-8 * s^1 + 3.8209e-7 * s^2 + 1.0012e-7 * s^3 + 4.7133e-8 * s^4)
  + t^5 * (6.36e-10 + 1.309e-9 * s^1 + 6.048e-9 * s^2 + 1.1409e-9 * s^3 + 6.676e-10 * s^4).
