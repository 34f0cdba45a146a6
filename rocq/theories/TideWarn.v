(** * TideWarn: the warnings of extract_tidegauge (src/momlevel/tidegauge.py, util.py) *)
From Coq Require Import Reals List String Bool Arith.
From Verif Require Import Num Py Arr Util Geo.
Import ListNotations.
Local Open Scope string_scope.

Inductive twarning : Type :=
| NominalCoords              (* util.py:646-650 *)
| Unmapped (site : string).  (* util.py:349-353 *)

(** util.py:645-650 tile_nominal_coords: the warning precedes everything that can fail on two DataArrays *)
Definition tile_warnings (warn : bool) : list twarning := if warn then [NominalCoords] else [].

(** tidegauge.py:88-145, the warnings of extract_tidegauge in order.  tile_nominal_coords is called with its default [warn=True] (line 101).
    SIMPLIFICATION: if geolocate_points raises, the sites that it warned about before are left out (it can only do so if the ball tree returns a
    position outside the grid). *)
Definition tidegauge_warnings (nearest : list point -> point -> nat) (lab : labels)
    (coords : dict arr) (xcoord ycoord : carg) (csv : option (frame string))
    (mask : option arr) (threshold : option fval) (disable_warning : bool) : list twarning :=
  match (let* xc := get_coord coords xcoord in
         let* yc := get_coord coords ycoord in
         let* _ := assert_ (Nat.eqb (ndim (snd xc)) (ndim (snd yc))) in Ok (xc, yc)) with
  | Err _ => []
  | Ok (xc, yc) =>
      (if Nat.eqb (ndim (snd xc)) 1 then tile_warnings true else []) ++
      match (let* xy := if Nat.eqb (ndim (snd xc)) 1
                        then let* g := tile_nominal_coords (fst xc) (snd xc) (fst yc) (snd yc) in
                             Ok (("geolon", fst g), ("geolat", snd g))
                        else Ok (xc, yc) in
             let (xc, yc) := (xy : (string * arr) * (string * arr)) in
             let mask := match mask with
                         | Some m => amap (fun v => fillna v (Fin 0)) m
                         | None => amap (fun _ => Fin 1) (snd xc)
                         end in
             let df_model := concat3 (fst xc) (fst yc) "mask" (to_dataframe lab (snd xc)) (to_dataframe lab (snd yc)) (to_dataframe lab mask) in
             let* df_loc := match csv with Some d => Ok d | None => Err AssertionError end in
             geolocate_points nearest df_model df_loc threshold (fst yc, fst xc) (Fin 6378) ("lat", "lon") true disable_warning) with
      | Ok mapped => map Unmapped (snd mapped)
      | Err _ => []
      end
  end%list.
