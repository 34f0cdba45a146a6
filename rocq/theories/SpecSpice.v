(** * SpecSpice: Flament (2002) spiciness polynomial, written out *)
From Coq Require Import Reals.
Local Open Scope R_scope.

(** Coefficients of Flament (2002), Table B1; s is salinity minus 35. *)
Definition flament_pi (T S : R) : R :=
  let s := S - 35 in
    T^0 * ((0.0) + (7.7442e-1) * s^1 + (-5.85e-3) * s^2 + (-9.84e-4) * s^3 + (-2.06e-4) * s^4)
  + T^1 * ((5.1655e-2) + (2.034e-3) * s^1 + (-2.742e-4) * s^2 + (-8.5e-6) * s^3 + (1.36e-5) * s^4)
  + T^2 * ((6.64783e-3) + (-2.4681e-4) * s^1 + (-1.428e-5) * s^2 + (3.337e-5) * s^3 + (7.894e-6) * s^4)
  + T^3 * ((-5.4023e-5) + (7.326e-6) * s^1 + (7.0036e-6) * s^2 + (-3.0412e-6) * s^3 + (-1.0853e-6) * s^4)
  + T^4 * ((3.949e-7) + (-3.029e-8) * s^1 + (-3.8209e-7) * s^2 + (1.0012e-7) * s^3 + (4.7133e-8) * s^4)
  + T^5 * ((-6.36e-10) + (-1.309e-9) * s^1 + (6.048e-9) * s^2 + (-1.1409e-9) * s^3 + (-6.676e-10) * s^4).
