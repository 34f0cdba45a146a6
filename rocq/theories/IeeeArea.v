(** * IeeeArea: validate_areacello in IEEE 754 binary64 arithmetic (src/momlevel/util.py) *)
From Coq Require Import ZArith QArith List Bool.
From Flocq Require Import Core IEEE754.BinarySingleNaN.
From Verif Require Import Ieee.
Local Open Scope f64_scope.

(** util.py:692-694; [sum] is numpy's sum, which skips missing values here.  [reference] and [tolerance] are Python floats. *)
Definition validate_areacello64 (sum : list f64 -> f64) (areas : list f64) (reference tolerance : f64) : bool :=
  Bltb (Babs ((sum (map skipna areas) - reference) / reference)) tolerance.
(** util.py:669, the default arguments 3.6111092e14 and 0.02 *)
Definition default_reference64 : f64 := of_Z 361110920000000.
Definition default_tolerance64 : f64 := lit (2 # 100).
