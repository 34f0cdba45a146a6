(** * Geo: model of util.geolocate_points, tidegauge.extract_point and
    tidegauge.extract_tidegauge *)
From Coq Require Import Reals List String Bool Arith.
From Verif Require Import Num Py Arr Util.
Import ListNotations.
Local Open Scope string_scope.

(** ** Data frames *)
(** A frame of numbers indexed by labels.  A row carries one value per column; of two
    columns with the same name the first is kept (util.py:330).
    SIMPLIFICATION: numeric columns only. *)
Record frame (L : Type) : Type := mkFrame { fcols : list string; frows : list (L * dict fval) }.
Arguments mkFrame {L} fcols frows.
Arguments fcols {L} f.
Arguments frows {L} f.

Definition colv {L} (c : string) (r : L * dict fval) : fval :=
  match dget c (snd r) with Some v => v | None => NaN end.

(** [df[c]] on a missing column *)
Definition need_cols (cs cols : list string) : res unit :=
  if forallb (fun c => smem c cols) cs then Ok tt else Err KeyError.

(** ** Distances *)
Definition point := (R * R)%type. (* latitude, longitude in radians *)

(** sklearn's HaversineDistance (first coordinate is the latitude). *)
Definition haversine (p q : point) : R :=
  let s1 := sin ((fst p - fst q) / 2) in
  let s2 := sin ((snd p - snd q) / 2) in
  (2 * asin (sqrt (s1 * s1 + cos (fst p) * cos (fst q) * (s2 * s2))))%R.

Definition deg2rad (v : fval) : fval := fmul v (Fin (PI / 180)%R).

(** sklearn rejects missing and infinite coordinates. *)
Definition radians_of (lat lon : fval) : res point :=
  match deg2rad lat, deg2rad lon with
  | Fin y, Fin x => Ok (y, x)
  | _, _ => Err ValueError
  end.

Definition nonempty {A} (l : list A) : res unit :=
  match l with [] => Err ValueError | _ => Ok tt end.

(** A located site: a row of the returned frame. *)
Record orow (L : Type) : Type := mkORow {
  o_name : string;
  o_distance : fval;
  o_mod_index : nat;
  o_model_coords : fval * fval;
  o_dim_vals : L;
  o_real_coords : fval * fval }.
Arguments mkORow {L}.
Arguments o_name {L} o.
Arguments o_distance {L} o.
Arguments o_mod_index {L} o.
Arguments o_model_coords {L} o.
Arguments o_dim_vals {L} o.
Arguments o_real_coords {L} o.

(** util.py:252-367 geolocate_points.  The ball tree is represented by [nearest pts q], the
    position of the neighbour it returns for the query [q]; see [nearest_spec] in SpecGeo.
    The result is the returned frame and the names of the sites warned about.
    [L] is the type of the index labels of the model frame; the index of [df_locs] is the
    site name. *)
Definition geolocate_points {L} (nearest : list point -> point -> nat)
    (df_model : frame L) (df_locs : frame string) (threshold : option fval)
    (model_coords : string * string) (rad_earth : fval) (loc_coords : string * string)
    (apply_mask disable_warning : bool) : res (list (orow L) * list string) :=
  let (ycoord1, xcoord1) := model_coords in
  let (ycoord2, xcoord2) := loc_coords in
  (* 326-327 *)
  let df1 := if apply_mask && smem "mask" (fcols df_model)
             then filter (fun r => feqb (colv "mask" r) (Fin 1)) (frows df_model)
             else frows df_model in
  let df2 := frows df_locs in
  (* 333-336 *)
  let* _ := need_cols [xcoord1; ycoord1] (fcols df_model) in
  let* _ := need_cols [xcoord2; ycoord2] (fcols df_locs) in
  (* 339 *)
  let* pts := mapM (fun r => radians_of (colv ycoord1 r) (colv xcoord1 r)) df1 in
  let* _ := nonempty pts in
  (* 342-343 *)
  let* qs := mapM (fun r => let* q := radians_of (colv ycoord2 r) (colv xcoord2 r) in Ok (r, q)) df2 in
  let* _ := nonempty qs in
  let found := map (fun rq => let k := nearest pts (snd rq) in
                              (fst rq, fmul (Fin (haversine (nth k pts (0, 0)%R) (snd rq))) rad_earth, k)) qs in
  (* 345-353 *)
  let* warned := if disable_warning then Ok []
                 else match threshold with
                      | None => Err TypeError
                      | Some t => Ok (map (fun x => fst (fst (fst x))) (filter (fun x => fleb t (snd (fst x))) found))
                      end in
  (* 356 *)
  let kept := match threshold with
              | None => found
              | Some t => filter (fun x => fleb (snd (fst x)) t) found
              end in
  (* 359-365 *)
  let* _ := need_cols ["lat"; "lon"] (fcols df_locs) in
  let* out := mapM (fun x =>
                let '(r, d, k) := x in
                match nth_error df1 k with
                | None => Err IndexError
                | Some r1 => Ok (mkORow (fst r) d k (colv ycoord1 r1, colv xcoord1 r1) (fst r1)
                                        (colv "lat" r, colv "lon" r))
                end) kept in
  Ok (out, warned).

(** ** Tide gauges *)
(** Labels along each dimension, shared by all arrays: [lab d i] is a code of the label at
    position [i] (equal codes, equal labels).  A dimension without coordinate is labelled by
    position. *)
Definition labels := string -> nat -> nat.

(** Rows of [a.to_dataframe()]: every position in the order of the dimensions, with its
    label tuple. *)
Fixpoint positions (ds : list (string * nat)) : list (list nat) :=
  match ds with
  | [] => [[]]
  | (_, n) :: ds' => flat_map (fun i => map (cons i) (positions ds')) (seq 0 n)
  end.

Fixpoint place (ds : list (string * nat)) (p : list nat) (e : index) : index :=
  match ds, p with
  | (d, _) :: ds', i :: p' => place ds' p' (upd e d i)
  | _, _ => e
  end.

Fixpoint label_of (lab : labels) (ds : list (string * nat)) (p : list nat) : list nat :=
  match ds, p with
  | (d, _) :: ds', i :: p' => lab d i :: label_of lab ds' p'
  | _, _ => []
  end.

Definition to_dataframe (lab : labels) (a : arr) : list (list nat * fval) :=
  map (fun p => (label_of lab (adims a) p, at_ a (place (adims a) p (fun _ => O)))) (positions (adims a)).

Definition lkey_eqb (a b : list nat) : bool := if list_eq_dec Nat.eq_dec a b then true else false.

Fixpoint lkget (k : list nat) (l : list (list nat * fval)) : fval :=
  match l with
  | [] => NaN
  | (k', v) :: l' => if lkey_eqb k k' then v else lkget k l'
  end.

(** Union of the indexes in order of first appearance. *)
Definition index_union (a b : list (list nat)) : list (list nat) :=
  (a ++ filter (fun k => negb (existsb (lkey_eqb k) a)) b)%list.

(** [pd.concat([...], axis=1)]: rows matched by label tuple, missing entries NaN.
    SIMPLIFICATION: label tuples are unique within a frame; auxiliary coordinates that
    to_dataframe would add as further columns are in TideAux.v. *)
Definition concat3 (xn yn mn : string) (fx fy fm : list (list nat * fval)) : frame (list nat) :=
  let keys := index_union (index_union (map fst fx) (map fst fy)) (map fst fm) in
  mkFrame [xn; yn; mn]
          (map (fun k => (k, [(xn, lkget k fx); (yn, lkget k fy); (mn, lkget k fm)])) keys).

(** [arr.sel(d=label)]; KeyError when the dimension or the label is absent. *)
Definition sel1 (lab : labels) (d : string) (l : nat) (a : arr) : res arr :=
  match dget d (adims a) with
  | None => Err KeyError
  | Some n =>
      match find (fun i => Nat.eqb (lab d i) l) (seq 0 n) with
      | None => Err KeyError
      | Some i => Ok (mkArr (drop_dim d (adims a)) (fun e => at_ a (upd e d i)))
      end
  end.

Fixpoint sel (lab : labels) (dl : list (string * nat)) (a : arr) : res arr :=
  match dl with
  | [] => Ok a
  | (d, l) :: dl' => let* b := sel1 lab d l a in sel lab dl' b
  end.

(** tidegauge.py:14-37 extract_point; [dims] is the row's "dims" entry.
    The attributes are in TideMeta.v. *)
Definition extract_point (lab : labels) (a : arr) (dims : list string) (row : orow (list nat)) : res arr :=
  sel lab (combine dims (o_dim_vals row)) a.

(** A coordinate argument: the name of a coordinate of the array, a named DataArray, or
    something else. *)
Inductive carg : Type :=
| CName (s : string)
| CArr (name : string) (a : arr)
| CBad.

(** util.py:817-860 validate_tidegauge_data on one coordinate, with tidegauge.py:91-92 *)
Definition get_coord (coords : dict arr) (c : carg) : res (string * arr) :=
  match c with
  | CName s => match dget s coords with Some a => Ok (s, a) | None => Err AssertionError end
  | CArr n a => Ok (n, a)
  | CBad => Err AssertionError
  end.

(** tidegauge.py:88-145, the first part of extract_tidegauge: the grid dimensions and the located
    sites.  [csv] is the content of the selected file with the site name as index ([None]: no such
    file).
    SIMPLIFICATION: the bundled csv files are an arbitrary [csv]. *)
Definition tidegauge_rows (nearest : list point -> point -> nat) (lab : labels)
    (coords : dict arr) (xcoord ycoord : carg) (csv : option (frame string))
    (mask : option arr) (threshold : option fval) (disable_warning : bool)
    : res (list string * list (orow (list nat))) :=
  (* 88-92 *)
  let* xc := get_coord coords xcoord in
  let* yc := get_coord coords ycoord in
  (* 95-97 *)
  let* _ := assert_ (Nat.eqb (ndim (snd xc)) (ndim (snd yc))) in
  (* 100-101 *)
  let* xy := if Nat.eqb (ndim (snd xc)) 1
             then let* g := tile_nominal_coords (fst xc) (snd xc) (fst yc) (snd yc) in
                  Ok (("geolon", fst g), ("geolat", snd g))
             else Ok (xc, yc) in
  let (xc, yc) := (xy : (string * arr) * (string * arr)) in
  (* 104-106 *)
  let xdims := names (snd xc) in
  let ydims := names (snd xc) in
  let* _ := assert_ (if list_eq_dec string_dec xdims ydims then true else false) in
  (* 109-111 *)
  let mask := match mask with
              | Some m => amap (fun v => fillna v (Fin 0)) m
              | None => amap (fun _ => Fin 1) (snd xc)
              end in
  (* 114-121 *)
  let df_model := concat3 (fst xc) (fst yc) "mask" (to_dataframe lab (snd xc)) (to_dataframe lab (snd yc))
                          (to_dataframe lab mask) in
  (* 125-133 *)
  let* df_loc := match csv with Some d => Ok d | None => Err AssertionError end in
  (* 136-142 *)
  let* mapped := geolocate_points nearest df_model df_loc threshold (fst yc, fst xc) (Fin 6378)
                                  ("lat", "lon") true disable_warning in
  Ok (xdims, fst mapped).

(** tidegauge.py:40-152 extract_tidegauge *)
Definition extract_tidegauge (nearest : list point -> point -> nat) (lab : labels)
    (a : arr) (coords : dict arr) (xcoord ycoord : carg) (csv : option (frame string))
    (mask : option arr) (threshold : option fval) (disable_warning : bool) : res (dict arr) :=
  let* rows := tidegauge_rows nearest lab coords xcoord ycoord csv mask threshold disable_warning in
  (* 148-150 *)
  let* pts := mapM (fun row => let* v := extract_point lab a (fst rows) row in Ok (o_name row, v)) (snd rows) in
  Ok (fold_left (fun d p => dset (fst p) (snd p) d) pts []).
