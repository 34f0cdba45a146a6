(** * SpecFloat64: rounding to the nearest binary64 or binary32 number *)
From Coq Require Import Reals.
From Flocq Require Import Core.
Local Open Scope R_scope.

(** Nearest even, 53 bits of precision, gradual underflow at 2^-1074. *)
Definition fl (x : R) : R := round radix2 (FLT_exp (-1074) 53) ZnearestE x.
(** Nearest even, 24 bits of precision, gradual underflow at 2^-149. *)
Definition fl32 (x : R) : R := round radix2 (FLT_exp (-149) 24) ZnearestE x.
