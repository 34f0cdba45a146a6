(** * Grid: model of get_xgcm_grid and get_pv_colormap (src/momlevel/util.py), and of
    calc_rel_vort and calc_pv with the coord_dict argument (src/momlevel/derived.py) *)
From Coq Require Import Reals List String Bool Arith ZArith.
From Verif Require Import Num Py Arr Derived Dataset.
Import ListNotations.
Local Open Scope string_scope.

(** util.py:424-430, 436-437, 445-446: the names, looked up in this order *)
Definition default_coord_dict : dict string :=
  [("xcenter", "xh"); ("ycenter", "yh"); ("xcorner", "xq"); ("ycorner", "yq")].
Definition grid_names (coord_dict : option (dict string)) : res grid_coords :=
  let cd := match coord_dict with None => default_coord_dict | Some m => m end in
  let* xc := dlookup "xcenter" cd in
  let* xq := dlookup "xcorner" cd in
  let* yc := dlookup "ycenter" cd in
  let* yq := dlookup "ycorner" cd in
  Ok {| xcenter := xc; ycenter := yc; xcorner := xq; ycorner := yq |}.

(** util.py:399-451 get_xgcm_grid: the Grid object is its coordinate names.  TRUSTED: xgcm
    raises ValueError for a dimension that is not in the dataset. *)
Definition get_xgcm_grid (dims : list string) (coord_dict : option (dict string)) : res grid_coords :=
  let* cs := grid_names coord_dict in
  if forallb (fun d => smem d dims) [xcenter cs; xcorner cs; ycenter cs; ycorner cs] then Ok cs else Err ValueError.

(** derived.py:187-246 *)
Definition rel_vort (vars : dict arr) (varname_map coord_dict : option (dict string)) (symmetric : bool) : res arr :=
  let vmap := match varname_map with None => default_vmap | Some m => m end in
  (* 222-227 *)
  if negb (forallb (fun p => dmem (snd p) vars) vmap) then Err ValueError else
  (* 230 *)
  let* cs := get_xgcm_grid (ds_dims vars) coord_dict in
  calc_rel_vort vars varname_map cs symmetric.

(** derived.py:489-565 *)
Definition pot_vort (zeta coriolis n2 : arr) (gravity : fval) (coord_dict : option (dict string))
           (symmetric : bool) (units : string) (interp_n2 : bool) : res arr :=
  if interp_n2 then
    (* 540-541 *)
    let* cs := get_xgcm_grid (names zeta ++ names coriolis ++ names n2)%list coord_dict in
    calc_pv zeta coriolis n2 gravity cs symmetric units true
  else calc_pv zeta coriolis n2 gravity default_grid symmetric units false.

(** util.py:370-397 get_pv_colormap *)
Definition arange (start step : R) (n : nat) : list R := map (fun i => (start + INR i * step)%R) (seq 0 n).
Definition pv_colors : list string :=
  (["#ffffff"] ++ repeat "#66ff00" 5 ++ repeat "#99ff00" 7 ++ repeat "#ccff00" 4 ++ repeat "#ffccff" 2
   ++ repeat "#ff99ff" 2 ++ repeat "#ff4cff" 5 ++ repeat "#ff00ff" 4)%list.
Definition pv_levels : list R :=
  ([0; 1 / 10000] ++ arange 1 1 9 ++ [10; 15] ++ arange 20 10 8 ++ arange 100 20 5 ++ arange 200 100 3 ++ [2000])%R%list.
