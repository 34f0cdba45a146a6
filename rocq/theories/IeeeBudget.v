(** * IeeeBudget: volume, mass and mean density of the ocean in IEEE 754 binary64 arithmetic *)
From Coq Require Import ZArith QArith List Bool.
From Flocq Require Import Core IEEE754.BinarySingleNaN.
From Verif Require Import Ieee.
Import ListNotations.
Local Open Scope f64_scope.

(** A cell: density and volume; either may be missing (NaN). *)
Definition wcell := (f64 * f64)%type.
(** derived.py:435-438 (calc_masso): one term of the sum; [sum] skips NaN. *)
Definition cell_mass64 (c : wcell) : f64 := skipna (fst c * snd c).
(** derived.py:789 (calc_volo): one term of the sum. *)
Definition cell_vol64 (c : wcell) : f64 := skipna (snd c).
(** derived.py:661 (calc_rhoga). *)
Definition rhoga64 (masso volo : f64) : f64 := masso / volo.
(** The three in sequence for one time level.  [sum] is numpy's (or dask's) sum of the numbers in memory order. *)
Definition mean_density64 (sum : list f64 -> f64) (cells : list wcell) : f64 :=
  rhoga64 (sum (map cell_mass64 cells)) (sum (map cell_vol64 cells)).
