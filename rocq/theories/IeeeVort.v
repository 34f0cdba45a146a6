(** * IeeeVort: relative and potential vorticity in IEEE 754 binary64 arithmetic *)
From Coq Require Import ZArith QArith List Bool.
From Flocq Require Import Core IEEE754.BinarySingleNaN.
From Verif Require Import Ieee IeeeDerived IeeeWave.
Local Open Scope Q_scope.
Local Open Scope f64_scope.

(** The neighbours of corner [k] along an axis of [n] centres (xgcm, boundary="fill"): see
    [xg_left] and [xg_right] of Derived. *)
Definition center64 (n : nat) (f : nat -> f64) (k : nat) : f64 := if Nat.ltb k n then f k else zero.
Definition left64 (symmetric : bool) (n : nat) (f : nat -> f64) (k : nat) : f64 :=
  if symmetric then (match k with O => zero | S m => center64 n f m end) else center64 n f k.
Definition right64 (symmetric : bool) (n : nat) (f : nat -> f64) (k : nat) : f64 :=
  if symmetric then center64 n f k else center64 n f (S k).

(** derived.py:232-239, the corner ([j], [i]): [u], [dx] along the y axis ([ny] centres) and [v], [dy]
    along the x axis ([nx] centres) through this corner. *)
Definition rel_vort64 (symmetric : bool) (ny nx : nat) (u dx v dy : nat -> f64) (area : f64) (j i : nat) : f64 :=
  let U := fun k => u k * dx k in
  let V := fun k => v k * dy k in
  (opp64 (right64 symmetric ny U j - left64 symmetric ny U j) + (right64 symmetric nx V i - left64 symmetric nx V i)) / area.

(** derived.py:547, one point, and 556 *)
Definition pv64 (zeta f n2 g : f64) : f64 := (zeta + f) * (n2 / g).
Definition pv_cm64 (zeta f n2 g : f64) : f64 := abs64 (pv64 zeta f n2 g / of_Z 100 * of_Z 100000000000000).
(** derived.py:544: interpolation to corners, first along x, then along y; xgcm computes
    [0.5 * (left + right)]. *)
Definition half64 (l r : f64) : f64 := lit (1 # 2) * (l + r).
Definition corner_n2_64 (symmetric : bool) (ny nx : nat) (N : nat -> nat -> f64) (j i : nat) : f64 :=
  let a := fun k => half64 (left64 symmetric nx (N k) i) (right64 symmetric nx (N k) i) in
  half64 (left64 symmetric ny a j) (right64 symmetric ny a j).
