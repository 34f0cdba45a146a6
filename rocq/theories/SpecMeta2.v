(** * SpecMeta2: units of quantities, axes and cell methods (CF conventions) *)
From Coq Require Import List String Ascii Bool.
From Verif Require Import Py SpecMeta.
Import ListNotations.
Local Open Scope string_scope.

(** The units in which a quantity with a standard name is given. *)
Definition cf_units : dict string :=
  [("cell_area", "m2"); ("ocean_volume", "m3"); ("sea_water_potential_temperature", "degC"); ("sea_water_salinity", "psu");
   ("sea_water_x_velocity", "m s-1"); ("sea_water_y_velocity", "m s-1"); ("sea_floor_depth_below_geoid", "m")].
(** The units of horizontal and vertical axes. *)
Definition axis_units : dict string := [("X", "degrees_east"); ("Y", "degrees_north"); ("Z", "meters")].
(** Quantities without a standard name. *)
Definition quantity_units : dict string :=
  [("geolon", "degrees_east"); ("geolat", "degrees_north"); ("dxCu", "m"); ("dyCv", "m"); ("Coriolis", "s-1")].

(** "name:method name: method ...": the names, each in front of a colon. *)
Definition method_names (value : string) : list string :=
  flat_map (fun w => match pieces ":" w with n :: _ :: _ => [n] | _ => [] end) (pieces " " value).
