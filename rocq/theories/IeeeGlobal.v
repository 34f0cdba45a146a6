(** * IeeeGlobal: the global steric height in IEEE 754 binary64 arithmetic *)
From Coq Require Import ZArith QArith List Permutation Bool.
From Flocq Require Import Core IEEE754.BinarySingleNaN.
From Verif Require Import Ieee.
Import ListNotations.
Local Open Scope f64_scope.

(** [tree64 k l s]: [s] is the sum of [l] computed in some order and association in which no
    number passes through more than [k] additions (numpy adds long arrays pairwise; dask adds
    the sums of its chunks). *)
Inductive tree64 : nat -> list f64 -> f64 -> Prop :=
| tree_one k x : tree64 k [x] x
| tree_add k l1 l2 s1 s2 : tree64 k l1 s1 -> tree64 k l2 s2 -> tree64 (S k) (l1 ++ l2) (s1 + s2)
| tree_perm k l l' s : Permutation l l' -> tree64 k l s -> tree64 k l' s.

(** A cell of the model grid: volume (missing on land), depth of its centre, temperature and
    salinity now and in the reference state. *)
Record gcell := mkGcell { g_vol : f64; g_z : f64; g_T : f64; g_S : f64; g_Tref : f64; g_Sref : f64 }.

(** derived.py:435-438 (calc_masso), one term of the sum, which skips NaN *)
Definition mass64 (patm : f64) (c : gcell) : f64 := skipna (rho_at (g_T c) (g_S c) (g_z c) patm * g_vol c).
Definition mass_ref64 (patm : f64) (c : gcell) : f64 := skipna (rho_at (g_Tref c) (g_Sref c) (g_z c) patm * g_vol c).
(** derived.py:789 (calc_volo) *)
Definition vol64 (c : gcell) : f64 := skipna (g_vol c).

(** steric.py:136-142 with derived.py:661 (rhoga), for one time level.  [log64] is numpy's logarithm. *)
Definition height64 (log64 : f64 -> f64) (volo masso masso_ref area : f64) : f64 :=
  let rhoga := masso_ref / volo in
  let expansion_coeff := log64 (rhoga / (masso / volo)) in
  let reference_height := volo / area in
  reference_height * expansion_coeff.
(** steric.py:135-142 with reference.py:71-80.  [sum] is numpy's (or dask's) sum of the numbers in memory order. *)
Definition global64 (log64 : f64 -> f64) (sum : list f64 -> f64) (patm : f64) (cells : list gcell) (areas : list f64) : f64 :=
  height64 log64 (sum (map vol64 cells)) (sum (map (mass64 patm) cells)) (sum (map (mass_ref64 patm) cells))
    (sum (map skipna areas)).
