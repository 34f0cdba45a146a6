(** * SpecPieces: selecting positions along a dimension ([isel({d: [f 0, ..., f (n-1)]})]) *)
From Coq Require Import List String Bool Arith.
From Verif Require Import Num Py Arr.
Import ListNotations.

Definition resize (d : string) (n : nat) (l : list (string * nat)) : list (string * nat) :=
  map (fun p => if String.eqb d (fst p) then (fst p, n) else p) l.

(** An array without the dimension does not depend on the position along it, so it stays as it is
    ([select_without] in ProofsPieces). *)
Definition select (d : string) (n : nat) (f : nat -> nat) (a : arr) : arr :=
  mkArr (resize d n (adims a)) (fun e => at_ a (upd e d (f (e d)))).
Definition select_all (d : string) (n : nat) (f : nat -> nat) (ds : dict arr) : dict arr :=
  map (fun p => (fst p, select d n f (snd p))) ds.

(** The size of the dimension, in the arrays that have it. *)
Definition sized (d : string) (N : nat) (a : arr) : Prop := forall m, In (d, m) (adims a) -> m = N.

(** The positions exist. *)
Definition positions_in (N n : nat) (f : nat -> nat) : Prop := forall k, (k < n)%nat -> (f k < N)%nat.
