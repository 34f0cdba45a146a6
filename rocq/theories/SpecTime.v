(** * SpecTime: vocabulary of the calendar and averaging statements *)
From Coq Require Import Reals ZArith List String Bool Arith.
From Verif Require Import Num Arr Calendar NumFacts.
Import ListNotations.

(** A date that exists in the calendar. *)
Definition valid_date (c : cal) (d : date) : Prop :=
  (1 <= d_month d <= 12)%nat /\
  (0 <= d_pos d < IZR (days_in_month c (d_year d) (d_month d)))%R.

(** Not the year of the Gregorian reform in the mixed calendar. *)
Definition regular (c : cal) (y : Z) : Prop := c = Standard -> y <> 1582%Z.

(** The [i]-th sample time. *)
Definition time_of (ts : list date) (i : nat) : date := nth i ts (mkDate 0 1 0).

(** Sum over the samples [0..n-1] satisfying [p]. *)
Definition Sum_if (n : nat) (p : nat -> bool) (f : nat -> R) : R :=
  Rsum n (fun i => if p i then f i else 0%R).

(** How many of the samples satisfy [p]. *)
Definition count_if (n : nat) (p : nat -> bool) : nat := List.length (filter p (seq 0 n)).

Definition same_year (ts : list date) (y : Z) (i : nat) : bool := (d_year (time_of ts i) =? y)%Z.
Definition same_month (ts : list date) (m : nat) (i : nat) : bool := Nat.eqb (d_month (time_of ts i)) m.

Definition not_inf (v : fval) : Prop := match v with Inf _ => False | _ => True end.

(** The years sampled, ascending. *)
Definition ascending (l : list Z) : Prop :=
  forall i j, (i < j < List.length l)%nat -> (nth i l 0 < nth j l 0)%Z.
Definition years_of (ts : list date) (ys : list Z) : Prop :=
  ascending ys /\ forall y, In y ys <-> exists i, (i < List.length ts)%nat /\ d_year (time_of ts i) = y.

(** Every month of every year that is sampled occurs. *)
Definition month_present (ts : list date) (y : Z) (m : nat) : Prop :=
  exists i, (i < List.length ts)%nat /\ d_year (time_of ts i) = y /\ d_month (time_of ts i) = m.
