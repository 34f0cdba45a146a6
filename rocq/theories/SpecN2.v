(** * SpecN2: what removing unstable stratification means *)
From Coq Require Import Reals Arith.
From Verif Require Import Num.
Local Open Scope R_scope.

Definition positive (v : fval) : Prop :=
  match v with Fin x => 0 < x | Inf s => s = false | NaN => False end.
Definition small : fval := Fin (1 / 10^8).

(** [v] is the closest positive value above level [k] in the column [f], or the small
    positive number when there is none. *)
Definition nearest_above (f : nat -> fval) (k : nat) (v : fval) : Prop :=
  (exists j, (j < k)%nat /\ positive (f j) /\ (forall i, (j < i < k)%nat -> ~ positive (f i)) /\ v = f j) \/
  ((forall j, (j < k)%nat -> ~ positive (f j)) /\ v = small).

(** [v] is the stabilised value of level [k] of the column [f] (level 0 = surface). *)
Definition stabilised (f : nat -> fval) (k : nat) (v : fval) : Prop :=
  (f k = NaN -> v = NaN) /\
  (positive (f k) -> v = f k) /\
  (f k <> NaN -> ~ positive (f k) -> nearest_above f k v).

(** Contribution of one level to the vertical integral of N; missing data contribute nothing. *)
Definition n_times_dz (n2 dz : fval) : R :=
  match n2, dz with Fin a, Fin h => sqrt a * h | _, _ => 0 end.

(** [y] is the value at [v] of the piecewise linear function through the points
    [(x 0, f 0) .. (x (n-1), f (n-1))], missing beyond the end points and next to a missing
    value. *)
Definition piecewise_linear (n : nat) (x : nat -> R) (f : nat -> fval) (v : R) (y : fval) : Prop :=
  (forall j, (j < n)%nat -> v = x j -> y = f j) /\
  (forall j w a b, (S j < n)%nat -> f j = Fin a -> f (S j) = Fin b -> 0 <= w <= 1 ->
     v = (1 - w) * x j + w * x (S j) -> y = Fin ((1 - w) * a + w * b)) /\
  (forall j, (S j < n)%nat -> x j < v < x (S j) \/ x (S j) < v < x j ->
     f j = NaN \/ f (S j) = NaN -> y = NaN) /\
  ((forall j, (j < n)%nat -> v < x j) \/ (forall j, (j < n)%nat -> x j < v) -> y = NaN).
