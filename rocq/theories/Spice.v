(** * Spice: model of src/momlevel/spice/flament.py *)
From Coq Require Import Reals List String Bool Arith.
From Verif Require Import Num Py.
Import ListNotations.
Local Open Scope R_scope.

(** flament.py:7-40, the 6x5 coefficient table in row-major order. *)
Definition B_flat : list R :=
  [ 0;                     77442 / 10^5;          - (585 / 10^5);        - (984 / 10^6);        - (206 / 10^6);
    51655 / 10^6;          2034 / 10^6;           - (2742 / 10^7);       - (85 / 10^7);         136 / 10^7;
    664783 / 10^8;         - (24681 / 10^8);      - (1428 / 10^8);       3337 / 10^8;           7894 / 10^9;
    - (54023 / 10^9);      7326 / 10^9;           70036 / 10^10;         - (30412 / 10^10);     - (10853 / 10^10);
    3949 / 10^10;          - (3029 / 10^11);      - (38209 / 10^11);     10012 / 10^11;         47133 / 10^12;
    - (636 / 10^12);       - (1309 / 10^12);      6048 / 10^12;          - (11409 / 10^13);     - (6676 / 10^13) ].

(** [.reshape(6, 5)] *)
Definition B_IJ (i j : nat) : R := nth (i * 5 + j)%nat B_flat 0.

(** numpy integer power [x**n] on floats ([x**0 = 1] even for NaN). *)
Fixpoint fpow (x : fval) (n : nat) : fval :=
  match n with O => Fin 1 | S O => x | S m => fmul x (fpow x m) end.

(** flament.py:82-90 for one element: products over the tiled (6,5) table, summed. *)
Definition spice_point (t s : fval) : fval :=
  fsum 6 (fun i => fsum 5 (fun j =>
    fmul (fmul (fpow (fsub s (Fin 35)) j) (fpow t i)) (Fin (B_IJ i j)))).

(** A numpy array: shape and row-major data.  *)
Record nparr := mkNp { shape : list nat; data : list fval }.
Definition prod_shape (s : list nat) : nat := fold_right Nat.mul 1%nat s.
Definition wf_np (a : nparr) : Prop := List.length (data a) = prod_shape (shape a).

(** Row-major position of a multi-index. *)
Fixpoint flat_pos (s idx : list nat) : nat :=
  match s, idx with
  | n :: s', i :: idx' => (i * prod_shape s' + flat_pos s' idx')%nat
  | _, _ => O
  end.
Definition np_get (a : nparr) (idx : list nat) : option fval := nth_error (data a) (flat_pos (shape a) idx).

(** Arguments: a Python float/int or a numpy array. *)
Inductive npval := NpScalar (v : fval) | NpArray (a : nparr).

(** flament.py:68-70 *)
Definition to_np (x : npval) : nparr :=
  match x with NpScalar v => mkNp [1%nat] [v] | NpArray a => a end.

(** flament.py:43-95 spice.  [flatten], the expansion to (N,6) and (N,5), the product with
    the table, the sum over the last two axes and the final reshape. *)
Definition spice (thetao so : npval) : res nparr :=
  let t := to_np thetao in
  let s := to_np so in
  if list_eq_dec Nat.eq_dec (shape t) (shape s) then
    (* 82: rows of powers thetao**x, x = 0..5;  83: (so-35)**x, x = 0..4 *)
    let tpow := map (fun v => map (fpow v) (seq 0 6)) (data t) in
    let spow := map (fun v => map (fpow (fsub v (Fin 35))) (seq 0 5)) (data s) in
    (* 86-90 *)
    let pi := map (fun '(tr, sr) =>
                     fsum 6 (fun i => fsum 5 (fun j =>
                        fmul (fmul (nth j sr NaN) (nth i tr NaN)) (Fin (B_IJ i j)))))
                  (combine tpow spow) in
    Ok (mkNp (shape t) pi)
  else Err AssertionError.
