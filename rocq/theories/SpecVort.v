(** * SpecVort: discrete circulation *)
From Coq Require Import Reals Arith.
From Verif Require Import NumFacts.
Local Open Scope R_scope.

(** Value of a face quantity [f] on the [k]-th face line of an axis with [n] cell centres,
    counted so that corner [k] lies between lines [k] and [k+1].  On a symmetric (outer)
    grid there is a line outside the domain before the first centre.  Outside the domain
    the value is 0. *)
Definition line (symmetric : bool) (n : nat) (f : nat -> R) (k : nat) : R :=
  let inside j := if Nat.ltb j n then f j else 0 in
  if symmetric then match k with O => 0 | S j => inside j end else inside k.

(** Counter-clockwise circulation around the block of corners
    [j0 .. j0+nj-1] x [i0 .. i0+ni-1]: along the lower side, up the right side, back along
    the upper side and down the left side.  [U j i]: u*dx on line j; [V j i]: v*dy on line i. *)
Definition circulation (U V : nat -> nat -> R) (j0 nj i0 ni : nat) : R :=
  Rsum ni (fun a => U j0 (i0 + a)%nat) + Rsum nj (fun b => V (j0 + b)%nat (i0 + ni)%nat)
  - Rsum ni (fun a => U (j0 + nj)%nat (i0 + a)%nat) - Rsum nj (fun b => V (j0 + b)%nat i0).

(** The cell centre just before corner [c]; interior corners have a centre on both sides. *)
Definition before (symmetric : bool) (c : nat) : nat := if symmetric then (c - 1)%nat else c.
Definition interior (symmetric : bool) (n c : nat) : Prop :=
  if symmetric then (1 <= c < n)%nat else (S c < n)%nat.
