(** * IeeeTurner: the stability angle in IEEE 754 binary64 arithmetic (src/momlevel/derived.py) *)
From Coq Require Import ZArith QArith List Bool.
From Flocq Require Import Core IEEE754.BinarySingleNaN.
From Verif Require Import Ieee IeeeDerived IeeeWave.
Local Open Scope f64_scope.

(** derived.py:755, [(beta * dsdz) / (alpha * dtdz)] *)
Definition ratio64 (alpha dtdz beta dsdz : f64) : f64 := (beta * dsdz) / (alpha * dtdz).

(** derived.py:757; [np.degrees] multiplies by the binary64 number [180.0 / np.pi]; [atan64] is numpy's inverse tangent. *)
Definition degrees64 (x : f64) : f64 := x * (of_Z 180 / pi64).
Definition turner64 (atan64 : f64 -> f64) (r : f64) : f64 := degrees64 (atan64 ((of_Z 1 + r) / (of_Z 1 - r))).
Definition angle64 (atan64 : f64 -> f64) (alpha dtdz beta dsdz : f64) : f64 := turner64 atan64 (ratio64 alpha dtdz beta dsdz).

(** derived.py:746-757, level [k] of a column of [n] levels with the equation of state Wright *)
Definition stability64 (atan64 : f64 -> f64) (n : nat) (z T S p : nat -> f64) (k : nat) : f64 :=
  angle64 atan64 (alpha64 (T k) (S k) (p k)) (gradient64 n z T k) (beta64 (T k) (S k) (p k)) (gradient64 n z S k).
