(** * IeeeSpice: spiciness in IEEE 754 binary64 arithmetic (src/momlevel/spice/flament.py) *)
From Coq Require Import ZArith QArith List Bool.
From Flocq Require Import Core IEEE754.BinarySingleNaN.
From Verif Require Import Ieee.
Import ListNotations.

(** flament.py:7-40, row-major. *)
Local Open Scope Q_scope.
Definition coeff_q : list Q :=
  [ 0.0; 7.7442e-1; -5.85e-3; -9.84e-4; -2.06e-4;
    5.1655e-2; 2.034e-3; -2.742e-4; -8.5e-6; 1.36e-5;
    6.64783e-3; -2.4681e-4; -1.428e-5; 3.337e-5; 7.894e-6;
    -5.4023e-5; 7.326e-6; 7.0036e-6; -3.0412e-6; -1.0853e-6;
    3.949e-7; -3.029e-8; -3.8209e-7; 1.0012e-7; 4.7133e-8;
    -6.36e-10; -1.309e-9; 6.048e-9; -1.1409e-9; -6.676e-10 ].
Local Close Scope Q_scope.
Definition coeff64 (i j : nat) : f64 := lit (nth (i * 5 + j) coeff_q 0%Q).

Local Open Scope f64_scope.

(** numpy's [x**n] for a binary64 array and a Python integer: ones, the array itself, its square, and [pow64 x n]
    (the power function of the platform) from the third power on. *)
Definition npow64 (pow64 : f64 -> nat -> f64) (x : f64) (n : nat) : f64 :=
  match n with O => of_Z 1 | 1%nat => x | 2%nat => x * x | _ => pow64 x n end.

(** flament.py:82-90 for one element: the 6x5 products and their sum; [sum] is numpy's. *)
Definition term64 (pow64 : f64 -> nat -> f64) (t s : f64) (i j : nat) : f64 :=
  npow64 pow64 (s - of_Z 35) j * npow64 pow64 t i * coeff64 i j.
Definition terms64 (pow64 : f64 -> nat -> f64) (t s : f64) : list f64 :=
  map (fun p => term64 pow64 t s (fst p) (snd p)) (list_prod (seq 0 6) (seq 0 5)).
Definition spice64 (pow64 : f64 -> nat -> f64) (sum : list f64 -> f64) (t s : f64) : f64 := sum (terms64 pow64 t s).
