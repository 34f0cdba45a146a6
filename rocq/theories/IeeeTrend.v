(** * IeeeTrend: time_conversion_factor (src/momlevel/trend.py) in IEEE 754 binary64 arithmetic *)
From Coq Require Import ZArith QArith List String Bool.
From Flocq Require Import Core IEEE754.BinarySingleNaN.
From Verif Require Import Py Ieee.
Import ListNotations.
Local Open Scope string_scope.
Local Open Scope f64_scope.

(** trend.py:146-155 *)
Definition ns_table64 (days_per_month days_per_year : f64) : dict f64 :=
  [("ns", lit 1); ("s", lit (1000000000 # 1)); ("min", lit (1000000000 # 1) * lit (60 # 1));
   ("hr", lit (1000000000 # 1) * lit (60 # 1) * lit (60 # 1));
   ("day", lit (1000000000 # 1) * lit (60 # 1) * lit (60 # 1) * lit (24 # 1));
   ("mon", lit (1000000000 # 1) * lit (60 # 1) * lit (60 # 1) * lit (24 # 1) * days_per_month);
   ("yr", lit (1000000000 # 1) * lit (60 # 1) * lit (60 # 1) * lit (24 # 1) * days_per_year)].

(** trend.py:115-164.  Division of Python floats by zero raises. *)
Definition time_conversion_factor64 (src dst : string) (days_per_month days_per_year : f64) : res f64 :=
  let ns_from := ns_table64 days_per_month days_per_year in
  let* ns_to := mapM (fun kv : string * f64 => if Beqb (snd kv) zero then Err ZeroDivisionError else Ok (fst kv, lit 1 / snd kv)) ns_from in
  let* _ := assert_ (dmem src ns_from) in
  let* _ := assert_ (dmem dst ns_to) in
  let* a := dlookup src ns_from in
  let* b := dlookup dst ns_to in
  Ok (a * b).

(** trend.py:115 the default arguments *)
Definition default_month64 : f64 := lit (30417 # 1000).
Definition default_year64 : f64 := lit (365 # 1).
