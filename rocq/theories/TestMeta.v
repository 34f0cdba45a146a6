(** * TestMeta: attributes of the generated test data (src/momlevel/test_data) and of the reference
    state (src/momlevel/reference.py)

    The values are modelled in TestData and Dataset; this file follows the metadata of the same
    statements.  A variable named like its only dimension is a coordinate. *)
From Coq Require Import List String Ascii Bool Arith.
From Verif Require Import Py Attrs Meta TestData.
Import ListNotations.
Local Open Scope string_scope.

(** [dset[name] = xr.DataArray(..., attrs=a)] *)
Definition put (name : string) (a : attrs) (v : dict meta) : dict meta := dset name (mkMeta a []) v.

(** ** test_data/time.py:95-120 and test_data/__init__.py:49-59 *)
Definition time_attrs (calendar : string) : attrs :=
  [("long_name", "time"); ("cartesian_axis", "T"); ("calendar_type", calendar); ("bounds", "time_bnds")].
Definition stub_meta (calendar : string) : dict meta :=
  [("time", mkMeta (time_attrs calendar) []); ("bnds", computed); ("time_bnds", computed);
   ("average_T1", computed); ("average_T2", computed); ("average_DT", computed)].
(** __init__.py:44-59 and 222-237 *)
Definition time_meta (nyears : nat) (calendar : string) : dict meta :=
  if Nat.leb 1 nyears then stub_meta calendar else put "time" (time_attrs calendar) [].

(** ** tripolar/horizontal.py:16-122; [last1 d] is [d[-1]] *)
Definition last1 (d : string) : string := String.substring (String.length d - 1) 1 d.
Definition point_name : dict string :=
  [("h", "tracer (T)"); ("u", "zonal velocity (Cu)"); ("v", "meridional velocity (Cv)"); ("c", "corner (Bu)")].
Definition xy_meta (v : dict meta) (point : string) : res (dict meta) :=
  let* p := dlookup point point_dict in
  let* pn := dlookup point point_name in
  let '(dx, dy, glon, glat, area) := p in
  let v := put dx [("long_name", last1 dx ++ " point nominal longitude"); ("units", "degrees_east"); ("axis", "X"); ("cartesian_axis", "X")] v in
  let v := put dy [("long_name", last1 dy ++ " point nominal latitude"); ("units", "degrees_north"); ("axis", "Y"); ("cartesian_axis", "Y")] v in
  let v := put glon [("long_name", "Longitude of " ++ pn ++ " points"); ("units", "degrees_east"); ("cell_methods", "time: point")] v in
  let v := put glat [("long_name", "Latitude of " ++ pn ++ " points"); ("units", "degrees_north"); ("cell_methods", "time: point")] v in
  Ok (put area [("long_name", "Ocean Grid-Cell Area"); ("units", "m2");
                ("cell_methods", "area:sum " ++ dy ++ ":sum " ++ dx ++ ":sum time: point"); ("standard_name", "cell_area")] v).

(** ** tripolar/vertical.py:36-87 with include_deptho, after xy_fields *)
Definition zlevel_meta (v : dict meta) : dict meta :=
  let v := put "z_i" [("long_name", "Depth at interface"); ("units", "meters"); ("axis", "Z"); ("positive", "down")] v in
  let v := put "z_l" [("long_name", "Depth at cell center"); ("units", "meters"); ("axis", "Z"); ("positive", "down"); ("edges", "z_i")] v in
  put "deptho" [("long_name", "Sea Floor Depth"); ("units", "m"); ("cell_methods", "area:mean yh:mean xh:mean time: point");
                ("cell_measures", "area: areacello"); ("standard_name", "sea_floor_depth_below_geoid")] v.

Definition avg_info : string * string := ("time_avg_info", "average_T1,average_T2,average_DT").

(** ** test_data/__init__.py:16-105 generate_test_data *)
Definition generate_test_data_meta (nyears : nat) (calendar : string) : res (dict meta) :=
  let* v := xy_meta (time_meta nyears calendar) "h" in
  let v := zlevel_meta v in
  let v := put "thetao" [("long_name", "Sea Water Potential Temperature"); ("units", "degC");
                         ("cell_measures", "volume: volcello area: areacello"); ("standard_name", "sea_water_potential_temperature");
                         ("cell_methods", "area:mean z_l:mean yh:mean xh:mean time: mean"); avg_info] v in
  let v := put "so" [("long_name", "Sea Water Salinity"); ("units", "psu");
                     ("cell_measures", "volume: volcello area: areacello"); ("standard_name", "sea_water_salinity");
                     ("cell_methods", "area:mean z_l:mean yh:mean xh:mean time: mean"); avg_info] v in
  Ok (put "volcello" [("long_name", "Ocean grid-cell volume"); ("units", "m3"); ("cell_measures", "area: areacello");
                      ("standard_name", "ocean_volume"); ("cell_methods", "area:sum z_l:sum yh:sum xh:sum time: mean"); avg_info] v).

(** ** test_data/__init__.py:194-315 generate_test_data_uv *)
Definition generate_test_data_uv_meta (nyears : nat) (calendar : string) : res (dict meta) :=
  let* v := xy_meta (time_meta nyears calendar) "h" in
  let v := zlevel_meta v in
  let v := put "yq" [] (put "xq" [] v) in
  let v := put "uo" [("long_name", "Sea Water X Velocity"); ("units", "m s-1"); ("standard_name", "sea_water_x_velocity");
                     ("interp_method", "none"); ("cell_methods", "z_l:mean yh:mean xq:point time: mean"); avg_info] v in
  let v := put "vo" [("long_name", "Sea Water Y Velocity"); ("units", "m s-1"); ("standard_name", "sea_water_y_velocity");
                     ("interp_method", "none"); ("cell_methods", "z_l:mean yq:point xh:mean time: mean"); avg_info] v in
  let v := put "dxCu" [("long_name", "Delta(x) at u points (meter)"); ("units", "m"); ("cell_methods", "time: point"); ("interp_method", "none")] v in
  let v := put "dyCv" [("long_name", "Delta(y) at v points (meter)"); ("units", "m"); ("cell_methods", "time: point"); ("interp_method", "none")] v in
  let v := put "Coriolis" [("long_name", "Coriolis parameter at corner (Bu) points"); ("units", "s-1"); ("cell_methods", "time: point"); ("interp_method", "none")] v in
  Ok (put "areacello_bu" [("long_name", "Ocean Grid-Cell Area"); ("units", "m2");
                          ("cell_methods", "area:sum yq:sum xq:sum time: point"); ("standard_name", "cell_area")] v).

(** ** reference.py:55-84.  [d]: the variables of the dataset.  [isel], [squeeze] and [reset_coords] keep the
    attributes of a variable; [crd] are the coordinate variables (attributes unchanged) that remain. *)
Definition reference_meta (d : dict meta) (crd : list string) (eos : string) : res (dict meta) :=
  let kept := filter (fun p => smem (fst p) crd) d in
  let* T := dlookup "thetao" d in
  let* Sa := dlookup "so" d in
  let* V := dlookup "volcello" d in
  let* A := dlookup "areacello" d in
  Ok (kept ++ [("thetao", T); ("so", Sa); ("volcello", V);
               ("rho", mkMeta (calc_rho_attrs eos) []); ("volo", mkMeta calc_volo_attrs []);
               ("masso", mkMeta calc_masso_attrs []); ("rhoga", mkMeta calc_rhoga_attrs []); ("areacello", A)])%list.
