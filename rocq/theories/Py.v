(** * Py: Python exceptions, dictionaries and strings used by the model *)
From Coq Require Import List String Ascii Bool Arith.
Import ListNotations.
Local Open Scope string_scope.

(** Exceptions are values. *)
Inductive exn : Type :=
| AssertionError | ValueError | KeyError | TypeError | IndexError | AttributeError
| ZeroDivisionError | RuntimeError.

Inductive res (A : Type) : Type :=
| Ok (a : A)
| Err (e : exn).
Arguments Ok {A} a.
Arguments Err {A} e.

Definition bind {A B} (r : res A) (f : A -> res B) : res B :=
  match r with Ok a => f a | Err e => Err e end.

Notation "'let*' x ':=' r 'in' k" := (bind r (fun x => k))
  (at level 200, x pattern, r at level 100, k at level 200, right associativity).

(** Python [assert cond]. *)
Definition assert_ (b : bool) : res unit := if b then Ok tt else Err AssertionError.

Definition is_ok {A} (r : res A) : bool := match r with Ok _ => true | Err _ => false end.

(** [for x in l: ...] collecting results, stopping at the first exception. *)
Fixpoint mapM {A B} (f : A -> res B) (l : list A) : res (list B) :=
  match l with
  | [] => Ok []
  | x :: xs => let* y := f x in let* ys := mapM f xs in Ok (y :: ys)
  end.

(** Insertion-ordered dictionaries with string keys, as association lists. *)
Definition dict (A : Type) := list (string * A).

Fixpoint dget {A} (k : string) (d : dict A) : option A :=
  match d with
  | [] => None
  | (k', v) :: d' => if String.eqb k k' then Some v else dget k d'
  end.

Definition dmem {A} (k : string) (d : dict A) : bool :=
  match dget k d with Some _ => true | None => false end.

Definition dkeys {A} (d : dict A) : list string := map fst d.

(** [d[k] = v]: overwrite in place or append. *)
Fixpoint dset {A} (k : string) (v : A) (d : dict A) : dict A :=
  match d with
  | [] => [(k, v)]
  | (k', v') :: d' => if String.eqb k k' then (k', v) :: d' else (k', v') :: dset k v d'
  end.

(** [d.pop(k, None)] (effect only). *)
Definition dpop {A} (k : string) (d : dict A) : dict A :=
  filter (fun p => negb (String.eqb k (fst p))) d.

(** [d[k]] raising KeyError. *)
Definition dlookup {A} (k : string) (d : dict A) : res A :=
  match dget k d with Some v => Ok v | None => Err KeyError end.

Definition smem (x : string) (l : list string) : bool := existsb (String.eqb x) l.

(** Python [str.lower] restricted to ASCII letters.
    SIMPLIFICATION: non-ASCII letters are left unchanged. *)
Definition lower_ascii (c : ascii) : ascii :=
  let n := nat_of_ascii c in
  if (65 <=? n)%nat && (n <=? 90)%nat then ascii_of_nat (n + 32) else c.

Fixpoint lower (s : string) : string :=
  match s with
  | EmptyString => EmptyString
  | String c s' => String (lower_ascii c) (lower s')
  end.
