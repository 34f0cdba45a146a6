(** * TideAux: coordinates attached to the arrays given to extract_tidegauge
    (src/momlevel/tidegauge.py:88-142, src/momlevel/util.py:330) *)
From Coq Require Import Reals List String Bool Arith.
From Verif Require Import Num Py Arr Util Geo.
Import ListNotations.
Local Open Scope string_scope.

(** A DataArray with its name and the coordinates attached to it, in order. *)
Record carr : Type := mkCarr { c_name : string; c_arr : arr; c_aux : dict arr }.

(** The coordinates of an array that xarray attaches to a variable taken from it by name: those
    whose dimensions are among the variable's. *)
Definition attached (coords : dict arr) (a : arr) : dict arr :=
  filter (fun p => forallb (fun d => smem d (names a)) (names (snd p))) coords.

(** A coordinate argument, as [carg] in Geo.v. *)
Inductive xarg : Type :=
| XName (s : string)
| XArr (c : carr)
| XBad.

(** tidegauge.py:88-92 on one coordinate *)
Definition get_carr (coords : dict arr) (c : xarg) : res carr :=
  match c with
  | XName s => match dget s coords with Some a => Ok (mkCarr s a (attached coords a)) | None => Err AssertionError end
  | XArr c => Ok c
  | XBad => Err AssertionError
  end.

(** Columns of [c.to_dataframe()]: the attached coordinates that are not dimensions, broadcast to
    the dimensions of [c], then [c] itself under its name. *)
Definition column (lab : labels) (ds : list (string * nat)) (b : arr) : list (list nat * fval) :=
  map (fun p => (label_of lab ds p, at_ b (place ds p (fun _ => O)))) (positions ds).

Definition to_columns (lab : labels) (c : carr) : dict (list (list nat * fval)) :=
  (map (fun p => (fst p, column lab (adims (c_arr c)) (snd p)))
       (filter (fun p => negb (smem (fst p) (names (c_arr c)))) (c_aux c))
   ++ [(c_name c, to_dataframe lab (c_arr c))])%list.

(** tidegauge.py:114-121: the frames side by side, rows matched by label tuple.  Columns with the
    same name are all present; [colv] reads the first (util.py:330).
    SIMPLIFICATION: several columns called [mask] (which util.py:327 reads before the duplicates
    are removed) are not modelled; the theorems assume that there is one. *)
Definition concat_columns (lab : labels) (x y m : carr) : frame (list nat) :=
  let cols := (to_columns lab x ++ to_columns lab y ++ to_columns lab m)%list in
  let keys := index_union (index_union (map fst (to_dataframe lab (c_arr x))) (map fst (to_dataframe lab (c_arr y))))
                          (map fst (to_dataframe lab (c_arr m))) in
  mkFrame (map fst cols) (map (fun k => (k, map (fun c => (fst c, lkget k (snd c))) cols)) keys).

(** tidegauge.py:88-145 as [tidegauge_rows] in Geo.v, with the attached coordinates *)
Definition tidegauge_rows_aux (nearest : list point -> point -> nat) (lab : labels)
    (coords : dict arr) (xcoord ycoord : xarg) (csv : option (frame string))
    (mask : option carr) (threshold : option fval) (disable_warning : bool)
    : res (list string * list (orow (list nat))) :=
  (* 88-92 *)
  let* xc := get_carr coords xcoord in
  let* yc := get_carr coords ycoord in
  (* 95-97 *)
  let* _ := assert_ (Nat.eqb (ndim (c_arr xc)) (ndim (c_arr yc))) in
  (* 100-101; the new arrays carry their dimension coordinates only *)
  let* xy := if Nat.eqb (ndim (c_arr xc)) 1
             then let* g := tile_nominal_coords (c_name xc) (c_arr xc) (c_name yc) (c_arr yc) in
                  Ok (mkCarr "geolon" (fst g) [], mkCarr "geolat" (snd g) [])
             else Ok (xc, yc) in
  let (xc, yc) := (xy : carr * carr) in
  (* 104-106 *)
  let xdims := names (c_arr xc) in
  let ydims := names (c_arr xc) in
  let* _ := assert_ (if list_eq_dec string_dec xdims ydims then true else false) in
  (* 109-111; fillna and ones_like keep the attached coordinates *)
  let mask := match mask with
              | Some m => mkCarr "mask" (amap (fun v => fillna v (Fin 0)) (c_arr m)) (c_aux m)
              | None => mkCarr "mask" (amap (fun _ => Fin 1) (c_arr xc)) (c_aux xc)
              end in
  (* 114-121 *)
  let df_model := concat_columns lab xc yc mask in
  (* 125-133 *)
  let* df_loc := match csv with Some d => Ok d | None => Err AssertionError end in
  (* 136-142 *)
  let* mapped := geolocate_points nearest df_model df_loc threshold (c_name yc, c_name xc) (Fin 6378)
                                  ("lat", "lon") true disable_warning in
  Ok (xdims, fst mapped).

(** tidegauge.py:40-152 *)
Definition extract_tidegauge_aux (nearest : list point -> point -> nat) (lab : labels)
    (a : arr) (coords : dict arr) (xcoord ycoord : xarg) (csv : option (frame string))
    (mask : option carr) (threshold : option fval) (disable_warning : bool) : res (dict arr) :=
  let* rows := tidegauge_rows_aux nearest lab coords xcoord ycoord csv mask threshold disable_warning in
  (* 148-150 *)
  let* pts := mapM (fun row => let* v := extract_point lab a (fst rows) row in Ok (o_name row, v)) (snd rows) in
  Ok (fold_left (fun d p => dset (fst p) (snd p) d) pts []).
