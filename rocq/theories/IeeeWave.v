(** * IeeeWave: wave speed and Rossby radius in IEEE 754 binary64 arithmetic *)
From Coq Require Import ZArith QArith List Bool.
From Flocq Require Import Core IEEE754.BinarySingleNaN.
From Verif Require Import Ieee IeeeGlobal.
Import ListNotations.
Local Open Scope Q_scope.

Definition sqrt64 (x : f64) : f64 := Bsqrt mode_NE x.
Definition abs64 (x : f64) : f64 := Babs x.

(** ** derived.py:30-71 adjust_negative_n2, one column [f] (level 0 first) *)
(** 59: [xr.where(n2 <= 0.0, np.nan, n2)]; comparisons with NaN are false *)
Definition drop64 (x : f64) : f64 := if Bleb x zero then B754_nan else x.
(** 62: [adjusted[0].fillna(1.0e-8)] *)
Definition small64 : f64 := lit (1 # 100000000).
Definition level64 (f : nat -> f64) (k : nat) : f64 :=
  let a := drop64 (f k) in if Nat.eqb k 0 && is_nan a then small64 else a.
(** 65: [adjusted.ffill(zcoord)] *)
Fixpoint filled64 (f : nat -> f64) (k : nat) : f64 :=
  if is_nan (level64 f k) then match k with O => B754_nan | S j => filled64 f j end else level64 f k.
(** 55 and 68: [adjusted * mask] *)
Definition adjust64 (f : nat -> f64) (k : nat) : f64 :=
  (filled64 f k * (if is_nan (f k) then B754_nan else of_Z 1))%f64.

(** [np.pi] *)
Definition pi64 : f64 := binary_normalize 53 1024 prec53 emax1024 mode_NE 884279719003555 (-48) false.

(** derived.py:820-821 calc_wave_speed, one column of [n] levels with buoyancy frequency [f] and
    layer thickness [h]; the sum skips NaN and is carried out in any order in which no number
    passes through more than [k] additions. *)
Definition layer64 (f h : nat -> f64) (j : nat) : f64 := skipna (sqrt64 (adjust64 f j) * h j)%f64.
Definition wave64 (k n : nat) (f h : nat -> f64) (c : f64) : Prop :=
  exists s, tree64 k (map (layer64 f h) (seq 0 n)) s /\ c = if is_nan (f 0%nat) then B754_nan else (s / pi64)%f64.

(** derived.py:588 calc_rossby_rd, one point *)
Definition rossby64 (c f : f64) : f64 := (c / abs64 f)%f64.
