(** * N2Edges: calc_n2 on cell edges (the [interfaces] argument) *)
From Coq Require Import Reals List String Bool Arith.
From Verif Require Import Num Py Arr Eos Derived.
Import ListNotations.
Local Open Scope R_scope.

(** The largest [j < n] with [x j <= v]: the result of the binary search of [np.interp] on
    increasing nodes. *)
Fixpoint locate (n : nat) (x : nat -> fval) (v : fval) : option nat :=
  match n with
  | O => None
  | S k => if fleb (x k) v then Some k else locate k x v
  end.

(** [np.interp(v, x, f)] for increasing nodes [x] followed by the edge mask of
    xgcm ([mask_edges=True]): missing below the first and above the last node, the value of
    the node at a node, and [slope * (v - x_j) + f_j] in between. *)
Definition interp1 (n : nat) (x f : nat -> fval) (v : fval) : fval :=
  match locate n x v with
  | None => NaN
  | Some j =>
      if feqb (x j) v then f j
      else if Nat.eqb (S j) n then NaN
      else fadd (fmul (fdiv (fsub (f (S j)) (f j)) (fsub (x (S j)) (x j))) (fsub v (x j))) (f j)
  end.

(** xgcm reverses decreasing nodes first ([bypass_checks=False]). *)
Definition flip (n : nat) (x : nat -> fval) : nat -> fval := fun k => x (n - 1 - k)%nat.
Definition interp_levels (n : nat) (x f : nat -> fval) (v : fval) : fval :=
  if fltb (x (n - 1)%nat) (x O) then interp1 n (flip n x) (flip n f) v else interp1 n x f v.

(** derived.py:393-394 [grid.transform(a, "Z", interfaces, method="linear")].
    [levels] is the coordinate [a[zcoord]], [iname], [ni] and [ivals] the name, size and
    values of [interfaces] (a one-dimensional coordinate variable, so that its name is the
    name of its dimension).  The new dimension comes last.
    SIMPLIFICATION: the installed xgcm is assumed to accept the grid of line 392 (releases
    in which [Grid] defaults to periodic axes refuse to transform along one). *)
Definition transform_z (zcoord : string) (levels : nat -> fval) (iname : string) (ni : nat)
           (ivals : nat -> fval) (a : arr) : res arr :=
  match dget zcoord (adims a) with
  | None => Err ValueError
  | Some n =>
      if has_dim iname a then Err ValueError
      else Ok (mkArr (drop_dim zcoord (adims a) ++ [(iname, ni)])
                 (fun e => interp_levels n levels (fun k => at_ a (upd e zcoord k)) (ivals (e iname))))
  end.

(** derived.py:328-411 calc_n2 with [interfaces] given: 391-395, then the common part with
    [zcoord = interfaces.name].  The regridded temperature is a floating-point array whatever
    the type of the input, hence [false]. *)
Definition calc_n2_edges (thetao so : arr) (levels : nat -> fval) (eos : string)
           (gravity : fval) (patm : arr) (zcoord iname : string) (ni : nat) (ivals : nat -> fval)
           (adjust_negative : bool) : res arr :=
  let* thetao := transform_z zcoord levels iname ni ivals thetao in
  let* so := transform_z zcoord levels iname ni ivals so in
  calc_n2 false thetao so ivals eos gravity patm iname adjust_negative.
