(** * IeeeSphere: the Coriolis parameter and cell areas in IEEE 754 binary64 arithmetic *)
From Coq Require Import ZArith QArith List Bool.
From Flocq Require Import Core IEEE754.BinarySingleNaN.
From Verif Require Import Ieee IeeeWave.
Local Open Scope f64_scope.

(** derived.py:177 (calc_coriolis).  [sin64] is numpy's sine. *)
Definition omega64 : f64 := of_Z 2 * pi64 / (of_Z 60 * of_Z 60 * of_Z 24).
Definition coriolis64 (sin64 : f64 -> f64) (lat : f64) : f64 := of_Z 2 * omega64 * sin64 (lat * pi64 / of_Z 180).

(** util.py:583-600 (standard_grid_cell_area): the cell of row [j] and column [i] of a grid with centres [lat] and [lon];
    [np.radians] multiplies by the binary64 number [np.pi / 180]. *)
Definition radians64 (x : f64) : f64 := x * (pi64 / of_Z 180).
Definition half_step64 (c : nat -> f64) : f64 := (c 1%nat - c 0%nat) / of_Z 2.
Definition lower64 (c : nat -> f64) (k : nat) : f64 := c k - half_step64 c.
Definition upper64 (c : nat -> f64) (k : nat) : f64 := c k + half_step64 c.
Definition area64 (sin64 : f64 -> f64) (lat lon : nat -> f64) (r_earth : f64) (j i : nat) : f64 :=
  pi64 / of_Z 180 * r_earth * r_earth
  * abs64 (sin64 (radians64 (lower64 lat j)) - sin64 (radians64 (upper64 lat j)))
  * abs64 (lower64 lon i - upper64 lon i).
