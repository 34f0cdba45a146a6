(** * TideMeta: names and attributes of the extracted series (src/momlevel/tidegauge.py) *)
From Coq Require Import Reals List String Bool Arith.
From Verif Require Import Num Py Arr Util Geo.
Import ListNotations.
Local Open Scope string_scope.

(** Attribute values. *)
Inductive aval : Type :=
| AStr (s : string)
| ANum (v : fval)
| AInt (n : nat)
| ACoords (c : fval * fval)
| ALabels (l : list nat)
| ADims (l : list string).

(** [{**d, **d'}] *)
Definition merge {A} (d d' : dict A) : dict A := fold_left (fun d p => dset (fst p) (snd p) d) d' d.

(** [dict(row)] of a row of the located sites: the columns of the csv file without those that
    util.py:364-365 drops, the columns added in util.py:342-363, and tidegauge.py:145.
    [columns] are the entries of the site in the csv file.
    SIMPLIFICATION: the column [name] comes last of the file's columns. *)
Definition row_entries (columns : dict aval) (dims : list string) (row : orow (list nat)) : dict aval :=
  merge (dset "name" (AStr (o_name row)) (filter (fun p => negb (smem (fst p) ["yrad"; "xrad"; "lat"; "lon"])) columns))
    [("distance", ANum (o_distance row)); ("mod_index", AInt (o_mod_index row));
     ("model_coords", ACoords (o_model_coords row)); ("dim_vals", ALabels (o_dim_vals row));
     ("real_coords", ACoords (o_real_coords row)); ("dims", ADims dims)].

(** tidegauge.py:33-37: the selected values and the attributes *)
Definition extract_point_meta (lab : labels) (a : arr) (attrs columns : dict aval) (dims : list string) (row : orow (list nat))
  : res (arr * dict aval) :=
  let* v := extract_point lab a dims row in Ok (v, merge attrs (row_entries columns dims row)).

(** tidegauge.py:40-152; [columns s] are the entries of site [s] in the csv file *)
Definition extract_tidegauge_meta (nearest : list point -> point -> nat) (lab : labels)
    (a : arr) (attrs : dict aval) (columns : string -> dict aval) (coords : dict arr) (xcoord ycoord : carg) (csv : option (frame string))
    (mask : option arr) (threshold : option fval) (disable_warning : bool) : res (dict (arr * dict aval)) :=
  let* rows := tidegauge_rows nearest lab coords xcoord ycoord csv mask threshold disable_warning in
  let* pts := mapM (fun row => let* v := extract_point_meta lab a attrs (columns (o_name row)) (fst rows) row in Ok (o_name row, v))
                   (snd rows) in
  Ok (merge [] pts).
