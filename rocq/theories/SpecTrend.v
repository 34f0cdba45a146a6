(** * SpecTrend: vocabulary of the trend statements *)
From Coq Require Import Reals ZArith List String Bool Arith.
From Verif Require Import Num NumFacts Py Arr Trend SpecTime.
Import ListNotations.
Local Open Scope string_scope.

(** Length of each recognised unit in nanoseconds. *)
Definition unit_length (days_per_month days_per_year : R) (u : string) : option R :=
  let s := 1000000000%R in
  if String.eqb u "ns" then Some 1%R
  else if String.eqb u "s" then Some s
  else if String.eqb u "min" then Some (60 * s)%R
  else if String.eqb u "hr" then Some (3600 * s)%R
  else if String.eqb u "day" then Some (86400 * s)%R
  else if String.eqb u "mon" then Some (days_per_month * (86400 * s))%R
  else if String.eqb u "yr" then Some (days_per_year * (86400 * s))%R
  else None.

(** The string contains "-1". *)
Definition contains_inverse (u : string) : Prop := exists p q, u = p ++ "-1" ++ q.

(** Sum of squared residuals of the line [m x + b] over the valid samples. *)
Definition ssr (n : nat) (x : nat -> R) (y : nat -> fval) (m b : R) : R :=
  Sum_if n (fun i => notnull (y i)) (fun i => (val (y i) - (m * x i + b)) ^ 2)%R.

(** Two valid samples at different times. *)
Definition two_times (n : nat) (x : nat -> R) (y : nat -> fval) : Prop :=
  exists i j, (i < n)%nat /\ (j < n)%nat /\ notnull (y i) = true /\ notnull (y j) = true /\ x i <> x j.

Definition no_infinity (ix : taxis1) (a : arr) : Prop := forall e, not_inf (at_ a e).

(** An input on which [linear_detrend] works: the axis is strictly increasing, has a
    non-zero value, and fits the array; the units, if any, have no inverse part. *)
Record detrendable (ix : taxis1) (x : darr) : Prop := {
  dt_wf : wf_arr (da_data x);
  dt_dim : In (ix_dim ix, ix_n ix) (adims (da_data x));
  dt_inc : forall i, (S i < ix_n ix)%nat -> (ix_val ix i < ix_val ix (S i))%R;
  dt_zero : exists i, (i < ix_n ix)%nat /\ ix_val ix i <> 0%R;
  dt_units : ix_cf ix = true -> forall u, dget "units" (da_attrs x) = Some u -> ~ contains_inverse u }.

Definition mean_of (n : nat) (p : nat -> bool) (f : nat -> R) : R := (Sum_if n p f / INR (count_if n p))%R.
