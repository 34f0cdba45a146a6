(** * TestData: model of src/momlevel/test_data *)
From Coq Require Import Reals ZArith List String Bool Arith.
From Verif Require Import Num Py Arr Calendar Dataset TimeAvg YearText.
Import ListNotations.
Local Open Scope string_scope.

(** ** time.py *)
(** time.py:15-39 generate_daily_timeaxis.  [x < endtime] compares positions on the axis. *)
Definition generate_daily_timeaxis (start_year : Z) (nyears : nat) (c : cal) : list date :=
  let init := mkDate start_year 1 0%R in
  let endtime := mkDate (start_year + Z.of_nat nyears) 1 0%R in
  let days := map (fun x => add_days c init (INR x)) (seq 0 (366 * nyears)) in
  filter (fun x => Rltb (abs_day c x) (abs_day c endtime)) days.

(** time.py:42-120: the stub dataset; [average_T1] and [average_T2] are the two columns of
    the bounds. *)
Record stub : Type := mkStub
  { st_time : list date; st_bnds : list (date * date);
    st_T1 : list date; st_T2 : list date; st_DT : list R }.

(** 66-89: the start date is written without padding the year *)
Definition stub_bounds (start_year : Z) (nyears : nat) (c : cal) (frequency : string) : res (list date) :=
  if String.eqb frequency "MS" then
    let* y := range_start (str_int start_year ++ "-01-01") in Ok (range_MS y (nyears * 12 + 1))
  else if String.eqb frequency "D" then
    let* y := range_start (str_int start_year ++ "-01-01") in
    let endtime := mkDate (start_year + Z.of_nat nyears) 1 0%R in
    Ok (filter (fun x => Rleb (abs_day c x) (abs_day c endtime)) (range_D c y (nyears * 366 + 1)))
  else Err ValueError.

Definition generate_time_stub (start_year : Z) (nyears : nat) (c : cal) (frequency : string) : res stub :=
  let* bounds := stub_bounds start_year nyears c frequency in
  (* 91: zip(bounds[0:-1], bounds[1::]) *)
  let bnds := combine (removelast bounds) (tl bounds) in
  let time := map (fun x => midpoint c (fst x) (snd x)) bnds in
  Ok (mkStub time bnds (map fst bnds) (map snd bnds) (map (fun x => dsub c (snd x) (fst x)) bnds)).

(** ** tripolar/horizontal.py *)
(** 37-56 point_dict: x dimension, y dimension, longitude, latitude, area *)
Definition point_dict : dict (string * string * string * string * string) :=
  [("h", ("xh", "yh", "geolon", "geolat", "areacello")); ("u", ("xq", "yh", "geolon_u", "geolat_u", "areacello_cu"));
   ("v", ("xh", "yq", "geolon_v", "geolat_v", "areacello_cv")); ("c", ("xq", "yq", "geolon_c", "geolat_c", "areacello_bu"))].

Definition axis5 (d : string) : arr := mkArr [(d, 5%nat)] (fun e => Fin (1 + INR (e d))).
Definition field5 (dy dx : string) (f : nat -> nat -> R) : arr :=
  mkArr [(dy, 5%nat); (dx, 5%nat)] (fun e => Fin (f (e dy) (e dx))).

(** 109-114 (and test_data/__init__.py:301-306): a random field normalised to the ocean
    area.  [f] is the random field. *)
Definition normalised_area (dy dx : string) (f : nat -> nat -> R) : res arr :=
  let a := field5 dy dx f in
  let* r := adiv a (asum_all a) in
  Ok (amap (fun v => fmul v (Fin 361110920000000)) r).

(** 83-84 np.arange(0.0, 361.0, 72.0) and np.arange(-90.0, 91.0, 36.0); 86-87 their midpoints *)
Definition lon_edges : list R := map (fun k => 0 + INR k * 72)%R (seq 0 6).
Definition lat_edges : list R := map (fun k => -90 + INR k * 36)%R (seq 0 6).
Definition midpoints (l : list R) : list R :=
  map (fun x => (nth x l 0 + nth (x + 1) l 0) / 2)%R (seq 0 (List.length l - 1)).

(** 16-122 xy_fields.  SIMPLIFICATION: the random number generator is the argument [f]. *)
Definition xy_fields (ds : dataset) (point : string) (f : nat -> nat -> R) : res dataset :=
  let* p := dlookup point point_dict in
  let '(dx, dy, glon, glat, name) := p in
  let ds := dset dy (axis5 dy) (dset dx (axis5 dx) ds) in
  (* 88: np.meshgrid(lon, lat) *)
  let ds := dset glon (field5 dy dx (fun j i => nth i (midpoints lon_edges) 0%R)) ds in
  let ds := dset glat (field5 dy dx (fun j i => nth j (midpoints lat_edges) 0%R)) ds in
  let* area := normalised_area dy dx f in
  Ok (dset name area ds).

(** ** tripolar/vertical.py *)
(** 16-87 zlevel_fields with include_deptho; [g j i] in [0, 1) is the uniform random
    number, scaled by the row's maximum depth (63-71). *)
Definition z_interfaces : list R := [0; 5; 15; 185; 1815; 6185]%R.
Definition z_centres : list R := [5 / 2; 10; 100; 1000; 4000]%R.
Definition vec (d : string) (l : list R) : arr := mkArr [(d, List.length l)] (fun e => Fin (nth (e d) l 0%R)).
Definition deptho_field (g : nat -> nat -> R) : arr :=
  field5 "yh" "xh" (fun j i => (g j i * nth (S j) z_interfaces 0)%R).
Definition zlevel_fields (ds : dataset) (f g : nat -> nat -> R) : res dataset :=
  let ds := dset "z_l" (vec "z_l" z_centres) (dset "z_i" (vec "z_i" z_interfaces) ds) in
  let* ds := match ds_dim "yh" ds, ds_dim "xh" ds with
             | Some _, Some _ => Ok ds
             | _, _ => xy_fields ds "h" f
             end in
  Ok (dset "deptho" (deptho_field g) ds).

(** ** test_data/__init__.py:16-105 generate_test_data *)
(** A random field over (time, z_l, yh, xh). *)
Definition field4 (nt : nat) (f : nat -> nat -> nat -> nat -> R) : arr :=
  mkArr [("time", nt); ("z_l", 5%nat); ("yh", 5%nat); ("xh", 5%nat)]
    (fun e => Fin (f (e "time") (e "z_l") (e "yh") (e "xh"))).

(** [nt] is the number of times (5 for nyears = 0, otherwise 12 per year).
    SIMPLIFICATION: the time variables are not part of the numeric dataset. *)
Definition generate_test_data (nt : nat) (area depth : nat -> nat -> R) (T S V : nat -> nat -> nat -> nat -> R)
  : res dataset :=
  let* ds := xy_fields [] "h" area in
  let* ds := zlevel_fields ds area depth in
  Ok (dset "volcello" (field4 nt V) (dset "so" (field4 nt S) (dset "thetao" (field4 nt T) ds))).

(** ** test_data/__init__.py:143-191 generate_test_data_time *)
(** The variables with their dtype: dates are objects and average_DT is a timedelta, so
    only var_a and var_b are numeric.  Dates are represented by their position on the axis
    in days.  [A] and [B] are the random fields. *)
Definition generate_test_data_time (start_year : Z) (nyears : nat) (c : cal) (frequency : string)
    (A B : nat -> nat -> nat -> R) : res (taxis * tvars) :=
  let* st := generate_time_stub start_year nyears c frequency in
  let nt := List.length (st_time st) in
  let dates l := mkArr [("time", nt)] (fun e => Fin (abs_day c (nth_date l (e "time")))) in
  let field f := mkArr [("time", nt); ("lat", 5%nat); ("lon", 5%nat)] (fun e => Fin (f (e "time") (e "lat") (e "lon"))) in
  Ok (mkAxis "time" (Some c) (st_time st),
      [("time_bnds", (false, mkArr [("time", nt); ("bnds", 2%nat)]
          (fun e => Fin (abs_day c (nth_date (if Nat.eqb (e "bnds") 0 then st_T1 st else st_T2 st) (e "time"))))));
       ("average_T1", (false, dates (st_T1 st))); ("average_T2", (false, dates (st_T2 st)));
       ("average_DT", (false, mkArr [("time", nt)] (fun e => Fin (nth (e "time") (st_DT st) 0%R))));
       ("var_a", (true, field A)); ("var_b", (true, field B))]).

(** ** test_data/__init__.py:194-315 generate_test_data_uv *)
(** A random field over (time, z_l, dy, dx). *)
Definition field4_on (nt : nat) (dy dx : string) (f : nat -> nat -> nat -> nat -> R) : arr :=
  mkArr [("time", nt); ("z_l", 5%nat); (dy, 5%nat); (dx, 5%nat)]
    (fun e => Fin (f (e "time") (e "z_l") (e dy) (e dx))).
Definition half_axis (d : string) : arr := vec d [3 / 2; 5 / 2; 7 / 2; 9 / 2; 11 / 2]%R.

(** [area], [depth], [U], [V], [F] and [A] are the random fields. *)
Definition generate_test_data_uv (nt : nat) (area depth : nat -> nat -> R) (U V : nat -> nat -> nat -> nat -> R)
    (F A : nat -> nat -> R) : res dataset :=
  let* ds := xy_fields [] "h" area in
  let* ds := zlevel_fields ds area depth in
  let ds := dset "yq" (half_axis "yq") (dset "xq" (half_axis "xq") ds) in
  let ds := dset "vo" (field4_on nt "yq" "xh" V) (dset "uo" (field4_on nt "yh" "xq" U) ds) in
  let ds := dset "dyCv" (field5 "yq" "xh" (fun _ _ => 1%R)) (dset "dxCu" (field5 "yh" "xq" (fun _ _ => 1%R)) ds) in
  let ds := dset "Coriolis" (field5 "yq" "xq" F) ds in
  let* a := normalised_area "yq" "xq" A in
  Ok (dset "areacello_bu" a ds).

(** ** test_data/__init__.py:108-140 generate_test_data_dz *)
Definition dz_interfaces : list R := [0; 5; 10; 20; 50; 100]%R.
Definition generate_test_data_dz (u : nat -> nat -> R) : dataset :=
  let depth := mkArr [("yh", 5%nat); ("xh", 5%nat)]
                 (fun e => if Nat.eqb (e "yh") 2 && (Nat.eqb (e "xh") 2 || Nat.eqb (e "xh") 3)
                           then NaN else Fin (100 * u (e "yh") (e "xh"))%R) in
  let z_l := map (fun k => ((nth (k + 1) dz_interfaces 0 + nth k dz_interfaces 0) / 2)%R) (seq 0 5) in
  [("deptho", depth); ("z_l", vec "z_l" z_l); ("z_i", vec "z_i" dz_interfaces)].
