(** * Attrs: the attributes set by the functions of derived.py and dynamic.py *)
From Coq Require Import List String.
From Verif Require Import Py.
Import ListNotations.
Local Open Scope string_scope.

Definition eos_comment (eos : string) : string := "calculated with the " ++ eos ++ " equation of state".

(** derived.py:69 [{**attrs, "comment": ...}] *)
Definition adjust_negative_n2_attrs (attrs : dict string) : dict string :=
  dset "comment" "adjustment applied for negative values" attrs.
(** derived.py:109-113 *)
Definition calc_alpha_attrs (eos : string) : dict string :=
  [("long_name", "Thermal expansion coefficient"); ("comment", eos_comment eos); ("units", "degC-1")].
(** derived.py:153-157 *)
Definition calc_beta_attrs (eos : string) : dict string :=
  [("long_name", "Haline contraction coefficient"); ("comment", eos_comment eos); ("units", "PSU-1")].
(** derived.py:178-182 *)
Definition calc_coriolis_attrs : dict string :=
  [("standard_name", "coriolis_parameter"); ("long_name", "Coriolis parameter"); ("units", "s-1")].
(** derived.py:241-245 *)
Definition calc_rel_vort_attrs : dict string :=
  [("standard_name", "ocean_relative_vorticity"); ("long_name", "Ocean relative vorticity"); ("units", "s-1")].
(** derived.py:403-409 *)
Definition calc_n2_attrs (adjust_negative : bool) : dict string :=
  let attrs := [("standard_name", "square_of_brunt_vaisala_frequency_in_sea_water");
                ("long_name", "Square of seawater buoyancy frequency"); ("units", "s-2")] in
  if adjust_negative then adjust_negative_n2_attrs attrs else attrs.
(** derived.py:439-443 *)
Definition calc_masso_attrs : dict string :=
  [("standard_name", "sea_water_mass"); ("long_name", "Sea Water Mass"); ("units", "kg")].
(** derived.py:479-484; [level] is the number as formatted by Python. *)
Definition calc_pdens_attrs (eos level : string) : dict string :=
  [("standard_name", "sea_water_potential_density");
   ("long_name", "Sea water potential density referenced to " ++ level ++ " m");
   ("comment", eos_comment eos); ("units", "kg m-3")].
(** derived.py:549-563 *)
Definition calc_pv_attrs (units : string) : res (dict string) :=
  if String.eqb units "m" then Ok [("long_name", "Ocean potential vorticity"); ("units", "m-1 s-1")]
  else if String.eqb units "cm" then Ok [("long_name", "Ocean potential vorticity"); ("units", "10^14 cm-1 s-1")]
  else Err ValueError.
(** derived.py:589-592 *)
Definition calc_rossby_rd_attrs : dict string :=
  [("long name", "Rossby radius of deformation"); ("units", "m")].
(** derived.py:632-637 *)
Definition calc_rho_attrs (eos : string) : dict string :=
  [("standard_name", "sea_water_density"); ("long_name", "In situ sea water density");
   ("comment", eos_comment eos); ("units", "kg m-3")].
(** derived.py:662-665 *)
Definition calc_rhoga_attrs : dict string :=
  [("long_name", "Global Average Sea Water Density"); ("units", "kg m-3")].
(** derived.py:705-709 *)
Definition calc_spice_attrs : dict string :=
  [("long_name", "Sea water spiciness"); ("comment", "calculated based on Flament 2002 methodology"); ("units", "1")].
(** derived.py:761-764 *)
Definition calc_stability_angle_attrs : dict string :=
  [("long_name", "Stability angle"); ("units", "degrees")].
(** derived.py:790-794 *)
Definition calc_volo_attrs : dict string :=
  [("standard_name", "sea_water_volume"); ("long_name", "Sea Water Volume"); ("units", "m3")].
(** derived.py:823-826 *)
Definition calc_wave_speed_attrs : dict string :=
  [("long name", "Ocean gravity wave speed of the first baroclinic mode"); ("units", "m s-1")].
(** dynamic.py:39 *)
Definition inverse_barometer_attrs : dict string :=
  [("long_name", "Inverse Barometer Height"); ("units", "m")].
