(** * Arr: labelled arrays (xarray.DataArray) *)
From Coq Require Import Reals List String Bool Arith.
From Verif Require Import Num Py.
Import ListNotations.
Local Open Scope string_scope.

(** An index assignment: the position along every dimension name. *)
Definition index := string -> nat.

Definition upd (e : index) (d : string) (k : nat) : index :=
  fun d' => if String.eqb d d' then k else e d'.

(** A DataArray: ordered named dimensions with sizes, and values.
    SIMPLIFICATION: coordinate labels are not stored here (operands are assumed
    to carry equal labels along shared dimensions, so alignment is trivial). *)
Record arr : Type := mkArr { adims : list (string * nat); at_ : index -> fval }.

Definition names (a : arr) : list string := map fst (adims a).
Definition ndim (a : arr) : nat := List.length (adims a).
Definition has_dim (d : string) (a : arr) : bool := dmem d (adims a).
Definition size_of (d : string) (a : arr) : nat :=
  match dget d (adims a) with Some n => n | None => 1 end.

Definition scalar (v : fval) : arr := mkArr [] (fun _ => v).

(** Elementwise numpy function of one array. *)
Definition amap (f : fval -> fval) (a : arr) : arr :=
  mkArr (adims a) (fun e => f (at_ a e)).

(** Dimensions of an arithmetic result / [apply_ufunc] result: order of first appearance. *)
Definition union_dims (d1 d2 : list (string * nat)) : list (string * nat) :=
  d1 ++ filter (fun p => negb (dmem (fst p) d1)) d2.

(** xarray raises ValueError when a shared dimension has two different sizes. *)
Definition compatible (d1 d2 : list (string * nat)) : bool :=
  forallb (fun p => match dget (fst p) d1 with
                    | Some n => Nat.eqb n (snd p)
                    | None => true
                    end) d2.

Definition amap2 (f : fval -> fval -> fval) (a b : arr) : res arr :=
  if compatible (adims a) (adims b)
  then Ok (mkArr (union_dims (adims a) (adims b)) (fun e => f (at_ a e) (at_ b e)))
  else Err ValueError.

Definition amap3 (f : fval -> fval -> fval -> fval) (a b c : arr) : res arr :=
  if compatible (adims a) (adims b)
     && compatible (union_dims (adims a) (adims b)) (adims c)
  then Ok (mkArr (union_dims (union_dims (adims a) (adims b)) (adims c))
                 (fun e => f (at_ a e) (at_ b e) (at_ c e)))
  else Err ValueError.

Definition aadd := amap2 fadd.
Definition asub := amap2 fsub.
Definition amul := amap2 fmul.
Definition adiv := amap2 fdiv.
Definition amin := amap2 fmin.

(** [xr.where(cond, x, y)]; the condition is an array of 0/1 values. *)
Definition fbool (b : bool) : fval := Fin (if b then 1 else 0)%R.
Definition truth (v : fval) : bool :=
  match v with Fin x => negb (Reqb x 0) | _ => true end.
Definition awhere (cond x y : arr) : res arr :=
  amap3 (fun c u v => if truth c then u else v) cond x y.

(** [a.isnull()], [a.notnull()]. *)
Definition aisnull (a : arr) : arr := amap (fun v => fbool (isnull v)) a.
Definition anotnull (a : arr) : arr := amap (fun v => fbool (notnull v)) a.

Definition drop_dim (d : string) (l : list (string * nat)) : list (string * nat) :=
  filter (fun p => negb (String.eqb d (fst p))) l.

(** [a.isel({d: k})] for a non-negative [k] (ValueError: no such dimension;
    IndexError: out of range).  SIMPLIFICATION: negative positions not modelled. *)
Definition isel (d : string) (k : nat) (a : arr) : res arr :=
  match dget d (adims a) with
  | None => Err ValueError
  | Some n => if Nat.ltb k n
              then Ok (mkArr (drop_dim d (adims a)) (fun e => at_ a (upd e d k)))
              else Err IndexError
  end.

(** [a.squeeze()]: drop every dimension of size one. *)
Definition squeeze (a : arr) : arr :=
  mkArr (filter (fun p => negb (Nat.eqb (snd p) 1)) (adims a))
        (fun e => at_ a (fun d => if Nat.eqb (size_of d a) 1 && has_dim d a then O else e d)).

(** [a[k]]: position [k] along the FIRST dimension, whatever its name. *)
Definition getitem (k : nat) (a : arr) : res arr :=
  match adims a with
  | [] => Err IndexError
  | (d, _) :: _ => isel d k a
  end.

(** [a[0] = v]: overwrite position 0 along the FIRST dimension. *)
Definition setitem0 (a v : arr) : res arr :=
  match adims a with
  | [] => Err IndexError
  | (d, _) :: _ => Ok (mkArr (adims a) (fun e => if Nat.eqb (e d) 0 then at_ v e else at_ a e))
  end.

(** Plain sum along one dimension (positions 0..n-1). *)
Definition sum1 (d : string) (a : arr) : arr :=
  mkArr (drop_dim d (adims a))
        (fun e => fsum (size_of d a) (fun i => at_ a (upd e d i))).

(** [a.sum(dims)] with skipna; ValueError when a dimension is missing. *)
Definition asum (ds : list string) (a : arr) : res arr :=
  if forallb (fun d => has_dim d a) ds
  then Ok (fold_left (fun acc d => sum1 d acc) ds (amap nan0 a))
  else Err ValueError.

(** [a.sum()] over every dimension. *)
Definition asum_all (a : arr) : arr :=
  fold_left (fun acc d => sum1 d acc) (names a) (amap nan0 a).

(** [a.transpose(d, ...)]: move [d] to the front. *)
Definition transpose_first (d : string) (a : arr) : res arr :=
  match dget d (adims a) with
  | None => Err ValueError
  | Some n => Ok (mkArr ((d, n) :: drop_dim d (adims a)) (at_ a))
  end.

(** [a.ffill(d)]: each missing value takes the last non-missing one before it along [d]. *)
Fixpoint ffill_col (f : nat -> fval) (k : nat) : fval :=
  match k with
  | O => f O
  | S m => if isnull (f (S m)) then ffill_col f m else f (S m)
  end.
Definition ffill (d : string) (a : arr) : res arr :=
  if has_dim d a
  then Ok (mkArr (adims a) (fun e => ffill_col (fun k => at_ a (upd e d k)) (e d)))
  else Err ValueError.

(** [np.gradient(f, x, edge_order=2)] along one coordinate, as used by
    [DataArray.differentiate(d, edge_order=2)] (numpy/lib/function_base.py).
    Interior: non-uniform centred difference; ends: non-uniform one-sided
    second-order difference.  Needs at least 3 points (else ValueError). *)
Definition grad_interior (x f : nat -> fval) (k : nat) : fval :=
  let dx1 := fsub (x k) (x (k - 1)%nat) in
  let dx2 := fsub (x (k + 1)%nat) (x k) in
  let a := fdiv (fopp dx2) (fmul dx1 (fadd dx1 dx2)) in
  let b := fdiv (fsub dx2 dx1) (fmul dx1 dx2) in
  let c := fdiv dx1 (fmul dx2 (fadd dx1 dx2)) in
  fadd (fadd (fmul a (f (k - 1)%nat)) (fmul b (f k))) (fmul c (f (k + 1)%nat)).

(** Equal spacing is detected by numpy, which then ignores the central value. *)
Definition grad_uniform (x f : nat -> fval) (k : nat) : fval :=
  fdiv (fsub (f (k + 1)%nat) (f (k - 1)%nat)) (fmul (Fin 2) (fsub (x 1%nat) (x 0%nat))).

Definition uniform_spacing (n : nat) (x : nat -> fval) : bool :=
  forallb (fun k => feqb (fsub (x (k + 1)%nat) (x k)) (fsub (x 1%nat) (x 0%nat)))
          (seq 0 (n - 1)).

Definition grad_first (x f : nat -> fval) : fval :=
  let dx1 := fsub (x 1%nat) (x 0%nat) in
  let dx2 := fsub (x 2%nat) (x 1%nat) in
  let a := fdiv (fopp (fadd (fmul (Fin 2) dx1) dx2)) (fmul dx1 (fadd dx1 dx2)) in
  let b := fdiv (fadd dx1 dx2) (fmul dx1 dx2) in
  let c := fdiv (fopp dx1) (fmul dx2 (fadd dx1 dx2)) in
  fadd (fadd (fmul a (f 0%nat)) (fmul b (f 1%nat))) (fmul c (f 2%nat)).

Definition grad_last (n : nat) (x f : nat -> fval) : fval :=
  let dx1 := fsub (x (n - 2)%nat) (x (n - 3)%nat) in
  let dx2 := fsub (x (n - 1)%nat) (x (n - 2)%nat) in
  let a := fdiv dx2 (fmul dx1 (fadd dx1 dx2)) in
  let b := fdiv (fopp (fadd dx2 dx1)) (fmul dx1 dx2) in
  let c := fdiv (fadd (fmul (Fin 2) dx2) dx1) (fmul dx2 (fadd dx1 dx2)) in
  fadd (fadd (fmul a (f (n - 3)%nat)) (fmul b (f (n - 2)%nat))) (fmul c (f (n - 1)%nat)).

Definition grad_col (n : nat) (x f : nat -> fval) (k : nat) : fval :=
  if Nat.eqb k 0 then grad_first x f
  else if Nat.eqb k (n - 1) then grad_last n x f
  else if uniform_spacing n x then grad_uniform x f k
  else grad_interior x f k.

(** [a.differentiate(d, edge_order=2)]; [x] is the coordinate [a[d]]. *)
Definition differentiate (d : string) (x : nat -> fval) (a : arr) : res arr :=
  match dget d (adims a) with
  | None => Err ValueError
  | Some n =>
      if Nat.ltb n 3 then Err ValueError
      else Ok (mkArr (adims a)
                 (fun e => grad_col n x (fun k => at_ a (upd e d k)) (e d)))
  end.

(** Every in-range index assignment of a list of dimensions (others at [e]). *)
Fixpoint all_over (ds : list (string * nat)) (P : index -> bool) (e : index) : bool :=
  match ds with
  | [] => P e
  | (d, n) :: ds' => forallb (fun k => all_over ds' P (upd e d k)) (seq 0 n)
  end.

(** [bool(np.all(pred(a)))] *)
Definition aall (P : fval -> bool) (a : arr) : bool :=
  all_over (adims a) (fun e => P (at_ a e)) (fun _ => O).

(** An index assignment that stays inside the array. *)
Definition inrange (ds : list (string * nat)) (e : index) : Prop :=
  forall d n, In (d, n) ds -> (e d < n)%nat.

(** An array's values depend only on the positions along its own dimensions, and
    its dimension names are distinct. *)
Definition wf_arr (a : arr) : Prop :=
  NoDup (names a) /\
  forall e e', (forall d, In d (names a) -> e d = e' d) -> at_ a e = at_ a e'.

(** [a.broadcast_like(b)]: dimensions of [b] first, then the remaining ones of [a]. *)
Definition broadcast_like (a b : arr) : res arr :=
  if compatible (adims b) (adims a)
  then Ok (mkArr (union_dims (adims b) (adims a)) (at_ a))
  else Err ValueError.

(** [_, b' = xr.broadcast(a, b)] *)
Definition broadcast_second (a b : arr) : res arr :=
  if compatible (adims a) (adims b)
  then Ok (mkArr (union_dims (adims a) (adims b)) (at_ b))
  else Err ValueError.

(** Rename one dimension, keeping the values (used by xgcm when moving between
    grid positions and by [Dataset.rename]). *)
Definition rename_dim (old new : string) (n' : nat) (a : arr) (v : index -> fval) : arr :=
  mkArr (map (fun p => if String.eqb (fst p) old then (new, n') else p) (adims a)) v.
