(** * Num: the model of a float64 value

    numpy float64 scalars as used everywhere in /repo/src/momlevel.
    SIMPLIFICATION: exact real arithmetic (no rounding, no overflow, no signed
    zero).  NaN and the infinities follow IEEE-754.  A zero denominator counts
    as +0. *)
From Coq Require Import Reals Bool.
Local Open Scope R_scope.

(** Boolean comparisons on R (decidable by the standard library's [total_order_T]). *)
Definition Rleb (x y : R) : bool := if Rle_dec x y then true else false.
Definition Rltb (x y : R) : bool := if Rlt_dec x y then true else false.
Definition Reqb (x y : R) : bool := if Req_EM_T x y then true else false.

(** A float64: missing / infinite (true = negative) / finite. *)
Inductive fval : Type :=
| NaN
| Inf (neg : bool)
| Fin (x : R).

Definition isnull (a : fval) : bool := match a with NaN => true | _ => false end.
Definition notnull (a : fval) : bool := negb (isnull a).
Definition fillna (a d : fval) : fval := if isnull a then d else a.

Definition fopp (a : fval) : fval :=
  match a with NaN => NaN | Inf s => Inf (negb s) | Fin x => Fin (- x) end.

Definition fadd (a b : fval) : fval :=
  match a, b with
  | NaN, _ | _, NaN => NaN
  | Inf s, Inf t => if Bool.eqb s t then Inf s else NaN
  | Inf s, Fin _ => Inf s
  | Fin _, Inf t => Inf t
  | Fin x, Fin y => Fin (x + y)
  end.

Definition fsub (a b : fval) : fval := fadd a (fopp b).

Definition fmul (a b : fval) : fval :=
  match a, b with
  | NaN, _ | _, NaN => NaN
  | Inf s, Inf t => Inf (xorb s t)
  | Inf s, Fin y => if Reqb y 0 then NaN else Inf (xorb s (Rltb y 0))
  | Fin x, Inf t => if Reqb x 0 then NaN else Inf (xorb t (Rltb x 0))
  | Fin x, Fin y => Fin (x * y)
  end.

Definition fdiv (a b : fval) : fval :=
  match a, b with
  | NaN, _ | _, NaN => NaN
  | Inf _, Inf _ => NaN
  | Inf s, Fin y => Inf (xorb s (Rltb y 0))
  | Fin _, Inf _ => Fin 0
  | Fin x, Fin y =>
      if Reqb y 0 then (if Reqb x 0 then NaN else Inf (Rltb x 0)) else Fin (x / y)
  end.

(** Comparisons: false whenever an operand is NaN. *)
Definition fltb (a b : fval) : bool :=
  match a, b with
  | NaN, _ | _, NaN => false
  | Inf true, Inf true => false
  | Inf true, _ => true
  | Inf false, _ => false
  | Fin _, Inf s => negb s
  | Fin x, Fin y => Rltb x y
  end.

Definition feqb (a b : fval) : bool :=
  match a, b with
  | Inf s, Inf t => Bool.eqb s t
  | Fin x, Fin y => Reqb x y
  | _, _ => false
  end.

Definition fleb (a b : fval) : bool := fltb a b || feqb a b.

(** [np.minimum]: propagates NaN. *)
Definition fmin (a b : fval) : fval :=
  match a, b with
  | NaN, _ | _, NaN => NaN
  | _, _ => if fleb a b then a else b
  end.

Definition fabs (a : fval) : fval :=
  match a with NaN => NaN | Inf _ => Inf false | Fin x => Fin (Rabs x) end.

(** [np.sqrt] *)
Definition fsqrt (a : fval) : fval :=
  match a with
  | NaN => NaN
  | Inf s => if s then NaN else Inf false
  | Fin x => if Rltb x 0 then NaN else Fin (sqrt x)
  end.

(** [np.log] *)
Definition fln (a : fval) : fval :=
  match a with
  | NaN => NaN
  | Inf s => if s then NaN else Inf false
  | Fin x => if Rltb x 0 then NaN else if Reqb x 0 then Inf true else Fin (ln x)
  end.

(** [np.sin] *)
Definition fsin (a : fval) : fval :=
  match a with Fin x => Fin (sin x) | _ => NaN end.

(** [np.arctan] *)
Definition fatan (a : fval) : fval :=
  match a with
  | NaN => NaN
  | Inf s => Fin (if s then - (PI / 2) else PI / 2)
  | Fin x => Fin (atan x)
  end.

(** Plain float summation of [f 0 + ... + f (n-1)] starting from 0. *)
Fixpoint fsum (n : nat) (f : nat -> fval) : fval :=
  match n with O => Fin 0 | S m => fadd (fsum m f) (f m) end.

(** xarray's skipna sum: missing entries count as zero. *)
Definition nan0 (a : fval) : fval := fillna a (Fin 0).
Definition fnansum (n : nat) (f : nat -> fval) : fval := fsum n (fun i => nan0 (f i)).

(** Is the value an ordinary finite number? *)
Definition is_fin (a : fval) : bool := match a with Fin _ => true | _ => false end.
