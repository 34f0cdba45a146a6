(** * IeeeDerived: fields of derived.py and dynamic.py in IEEE 754 binary64 arithmetic *)
From Coq Require Import ZArith QArith List Bool.
From Flocq Require Import Core IEEE754.BinarySingleNaN.
From Verif Require Import Ieee.
Local Open Scope Q_scope.

(** dynamic.py:34-36, one point: [pso * (-1.0 / (rho_conv * gravity))], with the equation of
    state Wright (wright.py, above) or Linear. *)
Definition barometer64 (rho p gravity : f64) : f64 := (p * (lit (-1) / (rho * gravity)))%f64.
Definition inverse_barometer64 (T S p gravity : f64) : f64 := barometer64 (density64 T S p) p gravity.
Definition inverse_barometer_linear64 (T S p gravity : f64) : f64 := barometer64 (linear_density64 T S) p gravity.

(** ** [DataArray.differentiate(d, edge_order=2)]: numpy.gradient (numpy/lib/function_base.py) with
    binary64 data and coordinate.  numpy looks whether the computed differences of the coordinate
    are all equal and then uses the formulas for a constant step. *)
Definition opp64 (x : f64) : f64 := Bopp x.
Local Open Scope f64_scope.
Definition comb64 (a b c f0 f1 f2 : f64) : f64 := a * f0 + b * f1 + c * f2.
Definition interior64 (dx1 dx2 f0 f1 f2 : f64) : f64 :=
  comb64 (opp64 dx2 / (dx1 * (dx1 + dx2))) ((dx2 - dx1) / (dx1 * dx2)) (dx1 / (dx2 * (dx1 + dx2))) f0 f1 f2.
Definition first64 (dx1 dx2 f0 f1 f2 : f64) : f64 :=
  comb64 (opp64 (lit 2 * dx1 + dx2) / (dx1 * (dx1 + dx2))) ((dx1 + dx2) / (dx1 * dx2)) (opp64 dx1 / (dx2 * (dx1 + dx2))) f0 f1 f2.
Definition last64 (dx1 dx2 f0 f1 f2 : f64) : f64 :=
  comb64 (dx2 / (dx1 * (dx1 + dx2))) (opp64 (dx2 + dx1) / (dx1 * dx2)) ((lit 2 * dx2 + dx1) / (dx2 * (dx1 + dx2))) f0 f1 f2.
Definition uniform_first64 (d f0 f1 f2 : f64) : f64 :=
  comb64 (lit (-3 # 2) / d) (lit 2 / d) (lit (-1 # 2) / d) f0 f1 f2.
Definition uniform_last64 (d f0 f1 f2 : f64) : f64 :=
  comb64 (lit (1 # 2) / d) (lit (-2) / d) (lit (3 # 2) / d) f0 f1 f2.
Definition uniform_interior64 (d f0 f2 : f64) : f64 := (f2 - f0) / (lit 2 * d).
Definition diff64 (x : nat -> f64) (i : nat) : f64 := x (i + 1)%nat - x i.
Definition uniform64 (n : nat) (x : nat -> f64) : bool :=
  forallb (fun i => Beqb (diff64 x i) (diff64 x 0)) (seq 0 (n - 1)).
Definition gradient64 (n : nat) (x f : nat -> f64) (k : nat) : f64 :=
  if Nat.eqb k 0 then
    if uniform64 n x then uniform_first64 (diff64 x 0) (f 0%nat) (f 1%nat) (f 2%nat)
    else first64 (diff64 x 0) (diff64 x 1) (f 0%nat) (f 1%nat) (f 2%nat)
  else if Nat.eqb k (n - 1) then
    if uniform64 n x then uniform_last64 (diff64 x 0) (f (n - 3)%nat) (f (n - 2)%nat) (f (n - 1)%nat)
    else last64 (diff64 x (n - 3)) (diff64 x (n - 2)) (f (n - 3)%nat) (f (n - 2)%nat) (f (n - 1)%nat)
  else if uniform64 n x then uniform_interior64 (diff64 x 0) (f (k - 1)%nat) (f (k + 1)%nat)
  else interior64 (diff64 x (k - 1)) (diff64 x k) (f (k - 1)%nat) (f k) (f (k + 1)%nat).

(** derived.py:397-402, one level of a column: [pres = z * 1.0e4 + patm] and
    [gravity * ((alpha * dtdz) - (beta * dsdz))] with the equation of state Wright *)
Definition n2_64 (n : nat) (z T S : nat -> f64) (patm gravity : f64) (k : nat) : f64 :=
  let p := pressure64 (z k) patm in
  gravity * (alpha64 (T k) (S k) p * gradient64 n z T k - beta64 (T k) (S k) p * gradient64 n z S k).
