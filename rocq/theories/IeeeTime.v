(** * IeeeTime: the averages over time of util.py in IEEE 754 binary64 arithmetic *)
From Coq Require Import ZArith Reals List Permutation Bool.
From Flocq Require Import Core IEEE754.BinarySingleNaN.
From Verif Require Import Num Arr Calendar TimeAvg Ieee IeeeGlobal.
Import ListNotations.
Local Open Scope f64_scope.

(** Fused multiply-add: [w * x + s] with one rounding. *)
Definition fma64 (w x s : f64) : f64 := Bfma mode_NE w x s.

(** [dot64 k l s]: [s] is the sum of the products of the pairs in [l] computed in some order and
    association, with or without fused multiply-adds, in which no number passes through more than
    [k] roundings ([xarray.dot] calls numpy.einsum or tensordot, which leave the order open).
    The weights are integers; numpy converts them to binary64 before it multiplies. *)
Inductive dot64 : nat -> list (Z * f64) -> f64 -> Prop :=
| dot_zero k : dot64 k [] zero
| dot_one k w x : dot64 (S k) [(w, x)] (of_Z w * x)
| dot_add k l1 l2 s1 s2 : dot64 k l1 s1 -> dot64 k l2 s2 -> dot64 (S k) (l1 ++ l2) (s1 + s2)
| dot_fma k l w x s : dot64 k l s -> dot64 (S k) ((w, x) :: l) (fma64 (of_Z w) x s)
| dot_perm k l l' s : Permutation l l' -> dot64 k l s -> dot64 k l' s.

(** [obj.weighted(w).mean(d)] (xarray/core/weighted.py): the sum of [w * x.fillna(0)] over the
    (integer) sum of the weights of the valid points, NaN when that is zero. *)
Definition valid_weight (l : list (Z * f64)) : Z :=
  fold_right (fun (p : Z * f64) acc => if is_nan (snd p) then acc else (fst p + acc)%Z) 0%Z l.
Definition wmean64 (k : nat) (l : list (Z * f64)) (a : f64) : Prop :=
  exists s, dot64 k (map (fun p : Z * f64 => (fst p, skipna (snd p))) l) s /\
    a = if (valid_weight l =? 0)%Z then B754_nan else s / of_Z (valid_weight l).

(** util.py:86-88, one year of one series: the mean weighted by the number of days of the months.
    Twelve products, twelve additions at most. *)
Definition annual64 (c : cal) (ds : list date) (y : Z) (x : nat -> f64) (a : f64) : Prop :=
  wmean64 13 (map (fun i => (days_in_month c (d_year (nth_date ds i)) (d_month (nth_date ds i)), x i)) (of_year ds y)) a.

(** util.py:183, 490: the mean of a group of samples; the sum skips NaN, the divisor is the number
    of valid samples (0/0 is NaN).  SIMPLIFICATION: binary64 data; float32 data are added in
    binary32 or binary64, depending on the version of the libraries. *)
Definition mean64 (k : nat) (l : list f64) (a : f64) : Prop :=
  exists s, tree64 k (map skipna l) s /\
    a = s / of_Z (Z.of_nat (List.length (filter (fun x => negb (is_nan x)) l))).

(** util.py:180-183, one calendar month of one series *)
Definition cycle64 (k : nat) (ds : list date) (m : nat) (x : nat -> f64) (a : f64) : Prop :=
  mean64 k (map x (of_month ds m (positions ds))) a.

(** util.py:485-490, one month of one year of one series *)
Definition month64 (k : nat) (ds : list date) (y : Z) (m : nat) (x : nat -> f64) (a : f64) : Prop :=
  mean64 k (map x (of_month ds m (of_year ds y))) a.

(** The number of the exact model that a binary64 datum stands for. *)
Definition of_f64 (x : f64) : fval :=
  match x with
  | B754_nan => NaN
  | B754_infinity s => Inf s
  | _ => Fin (B2R x)
  end.
