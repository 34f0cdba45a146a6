(** * Util: model of small functions of src/momlevel/util.py *)
From Coq Require Import Reals List String Bool Arith.
From Verif Require Import Num Py Arr.
Import ListNotations.
Local Open Scope string_scope.

(** Python [sorted] on strings (code point order). *)
Fixpoint sinsert (x : string) (l : list string) : list string :=
  match l with
  | [] => [x]
  | y :: l' => if String.leb x y then x :: l else y :: sinsert x l'
  end.
Definition sorted (l : list string) : list string := fold_right sinsert [] l.

(** util.py:32-46 alphabetize_dataset: [ds[sorted(ds.variables.keys())]].  The contents
    of a variable are of any type. *)
Definition alphabetize_dataset {A} (ds : dict A) : dict A :=
  flat_map (fun k => match dget k ds with Some v => [(k, v)] | None => [] end) (sorted (dkeys ds)).

(** ** Encodings *)
(** An object handed to reset_encoding: a DataArray (its encoding, its data), a Dataset
    (its encoding and, for each variable, encoding and data) or anything else. *)
Inductive xobj (A : Type) : Type :=
| XArray (enc : dict string) (data : A)
| XDataset (enc : dict string) (vars : dict (dict string * A))
| XOther.
Arguments XArray {A} enc data.
Arguments XDataset {A} enc vars.
Arguments XOther {A}.

(** util.py:514-545 reset_encoding.  The object is modified in place and returned; the
    result is its new state. *)
Definition reset_encoding {A} (x : xobj A) (attrs : option (list string)) : res (xobj A) :=
  let attrs := match attrs with None => ["chunks"; "preferred_chunks"] | Some l => l end in
  match x with
  | XArray enc data => Ok (XArray (fold_left (fun d k => dpop k d) attrs enc) data)
  | XDataset enc vars =>
      Ok (fold_left
            (fun x k => match x with
                        | XDataset enc vars =>
                            XDataset (dpop k enc) (map (fun v => (fst v, (dpop k (fst (snd v)), snd (snd v)))) vars)
                        | x => x
                        end) attrs (XDataset enc vars))
  | XOther => Err ValueError
  end.

(** ** Grids *)
(** [v[k]] of a 1-D array *)
Definition vget (a : arr) (k : nat) : res fval :=
  match adims a with
  | [(d, n)] => if Nat.ltb k n then Ok (at_ a (upd (fun _ => O) d k)) else Err IndexError
  | _ => Err ValueError
  end.

(** util.py:548-617 standard_grid_cell_area for DataArray arguments (the NumPy case
    computes the same numbers without labels).
    SIMPLIFICATION: the two dimensions have different names. *)
Definition standard_grid_cell_area (lat lon : arr) (r_earth : fval) : res arr :=
  match adims lat, adims lon with
  | [(dlat, nlat)], [(dlon, nlon)] =>
      (* 588-589 *)
      let* lat1 := vget lat 1 in let* lat0 := vget lat 0 in
      let d_lat := fsub lat1 lat0 in
      let* lon1 := vget lon 1 in let* lon0 := vget lon 0 in
      let d_lon := fsub lon1 lon0 in
      (* 592-595, 598-604 *)
      let radians v := fmul v (Fin (PI / 180)%R) in
      let half v := fdiv v (Fin 2) in
      Ok (mkArr [(dlat, nlat); (dlon, nlon)]
            (fun e =>
               let la := at_ lat e in let lo := at_ lon e in
               let la0 := fsub la (half d_lat) in let la1 := fadd la (half d_lat) in
               let lo0 := fsub lo (half d_lon) in let lo1 := fadd lo (half d_lon) in
               fmul (fmul (fmul (fmul (fdiv (Fin PI) (Fin 180)) r_earth) r_earth)
                          (fabs (fsub (fsin (radians la0)) (fsin (radians la1)))))
                    (fabs (fsub lo0 lo1))))
  | _, _ => Err ValueError
  end.

(** util.py:620-666 tile_nominal_coords.  A 1-D coordinate with its name; DataArray
    requires the coordinate [name] to live on the dimension [name].
    SIMPLIFICATION: 1-D coordinates only. *)
Definition tile_nominal_coords (xname : string) (xcoord : arr) (yname : string) (ycoord : arr)
  : res (arr * arr) :=
  match adims xcoord, adims ycoord with
  | [(dx, nx)], [(dy, ny)] =>
      if String.eqb xname yname then Err ValueError
      else if String.eqb dx xname && String.eqb dy yname then
        (* np.meshgrid: xgrp[j, i] = x[i], ygrp[j, i] = y[j] *)
        let dims := [(yname, ny); (xname, nx)] in
        let xgrp := mkArr dims (fun e => at_ xcoord (upd (fun _ => O) dx (e xname))) in
        let ygrp := mkArr dims (fun e => at_ ycoord (upd (fun _ => O) dy (e yname))) in
        Ok (xgrp, ygrp)
      else Err ValueError
  | _, _ => Err ValueError
  end.
