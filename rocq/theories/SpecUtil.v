(** * SpecUtil: vocabulary for the properties of util.py's small functions *)
From Coq Require Import Reals List String Ascii Bool Arith.
From Verif Require Import Num Py Arr.
Import ListNotations.
Local Open Scope string_scope.

(** Dictionary order of strings, by character code. *)
Inductive lex : string -> string -> Prop :=
| lex_nil c s : lex EmptyString (String c s)
| lex_head a b s t : (nat_of_ascii a < nat_of_ascii b)%nat -> lex (String a s) (String b t)
| lex_tail a s t : lex s t -> lex (String a s) (String a t).

(** What is left of a dictionary without some keys. *)
Definition without {A} (ks : list string) (d : dict A) : dict A :=
  filter (fun p => if in_dec string_dec (fst p) ks then false else true) d.

(** Cell centres of [n] cells of width [w] starting at the edge [a]
    (a negative width describes a descending axis). *)
Definition centres (a w : R) (k : nat) : R := (a + (INR k + / 2) * w)%R.

(** A 1-D coordinate holding those centres. *)
Definition axis (c : arr) (d : string) (n : nat) (a w : R) : Prop :=
  adims c = [(d, n)] /\ forall e, at_ c e = Fin (centres a w (e d)).
