(** * SpecIeeeGlobal: the exact global steric height of binary64 data *)
From Coq Require Import Reals List.
From Flocq Require Import IEEE754.BinarySingleNaN.
From Verif Require Import Ieee IeeeGlobal SpecEos SpecIeee.
Import ListNotations.
Local Open Scope R_scope.

(** A logarithm accurate to one unit in the last place around 1. *)
Definition accurate_log (log64 : f64 -> f64) : Prop :=
  forall x, is_finite x = true -> 1/2 <= B2R x <= 2 ->
    is_finite (log64 x) = true /\ Rabs (B2R (log64 x) - ln (B2R x)) <= / 2 ^ 52 * Rabs (ln (B2R x)).

(** The four sums of the calculation are sums of their numbers, in whatever order, and no number
    passes through more than [k] additions. *)
Definition sums_within (k : nat) (sum : list f64 -> f64) (patm : f64) (cells : list gcell) (areas : list f64) : Prop :=
  tree64 k (map vol64 cells) (sum (map vol64 cells)) /\
  tree64 k (map (mass64 patm) cells) (sum (map (mass64 patm) cells)) /\
  tree64 k (map (mass_ref64 patm) cells) (sum (map (mass_ref64 patm) cells)) /\
  tree64 k (map skipna areas) (sum (map skipna areas)).

(** A size (volume or area) is missing, zero or of reasonable magnitude. *)
Definition size_ok (v : f64) : Prop :=
  v = B754_nan \/ (is_finite v = true /\ (B2R v = 0 \/ / 10 ^ 100 <= B2R v)).
(** Where the volume is not missing, the other fields are finite and in the range of ocean states. *)
Definition gcell_ok (c : gcell) : Prop :=
  size_ok (g_vol c) /\
  (is_finite (g_vol c) = true ->
   is_finite (g_z c) = true /\ is_finite (g_T c) = true /\ is_finite (g_S c) = true
   /\ is_finite (g_Tref c) = true /\ is_finite (g_Sref c) = true
   /\ 0 <= B2R (g_z c) <= 11900 /\ -2 <= B2R (g_T c) <= 40 /\ 0 <= B2R (g_S c) <= 42
   /\ -2 <= B2R (g_Tref c) <= 40 /\ 0 <= B2R (g_Sref c) <= 42).
(** [B2R] of a missing number is 0. *)
Definition total_volume (cells : list gcell) : R := rsum (map (fun c => B2R (g_vol c)) cells).
Definition total_mass64 (patm : R) (cells : list gcell) : R :=
  rsum (map (fun c => B2R (g_vol c) * wr_rho (B2R (g_T c)) (B2R (g_S c)) (B2R (g_z c) * 10000 + patm)) cells).
Definition reference_mass64 (patm : R) (cells : list gcell) : R :=
  rsum (map (fun c => B2R (g_vol c) * wr_rho (B2R (g_Tref c)) (B2R (g_Sref c)) (B2R (g_z c) * 10000 + patm)) cells).
Definition total_area64 (areas : list f64) : R := rsum (map (fun a : f64 => B2R a) areas).
