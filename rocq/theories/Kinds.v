(** * Kinds: arguments of a wrong kind (src/momlevel/steric.py, trend.py, util.py) *)
From Coq Require Import Reals List String Bool Arith ZArith.
From Verif Require Import Num Py Arr Eos Derived Dataset Trend.
Import ListNotations.
Local Open Scope string_scope.

(** An argument that should be None or an [A]: [Wrong] is anything else. *)
Inductive arg (A : Type) : Type := ANone | AGiven (a : A) | AWrong.
Arguments ANone {A}. Arguments AGiven {A} a. Arguments AWrong {A}.
Definition arg_of {A} (o : option A) : arg A := match o with None => ANone | Some a => AGiven a end.

(** util.py:219-220: coord_names is None or a dict *)
Definition coords_any (coord_names : arg (dict string)) : res (option (dict string)) :=
  match coord_names with ANone => Ok None | AGiven c => Ok (Some c) | AWrong => Err AssertionError end.

(** util.py:243: eos_str is a str ([None]: it is not); derived.py:621-639 looks the function up first *)
Definition calc_rho_any (thetao so pres : arr) (eos : option string) : res arr :=
  match eos with Some s => calc_rho thetao so pres s | None => Err AssertionError end.

(** reference.py:15-85 with any coord_names and eos *)
Definition setup_reference_state_any (ds : dataset) (patm : arr) (eos : option string) (coord_names : arg (dict string)) (time_index : Z) : res dataset :=
  let* cn := coords_any coord_names in
  let '(tcoord, zcoord, _) := default_coords cn in
  let* z := ds_get zcoord ds in
  let* pres := aadd (const_r fmul z (Fin 10000%R)) patm in
  let level v := let* a := ds_get v ds in let* b := isel_z tcoord time_index a in Ok (squeeze b) in
  let* thetao := level "thetao" in
  let* so := level "so" in
  let* volcello := level "volcello" in
  let* rho := calc_rho_any thetao so pres eos in
  let* volo := calc_volo volcello in
  let* masso := calc_masso rho volcello tcoord in
  let* rhoga := calc_rhoga masso volo in
  let* areacello := match dget "areacello" ds with Some a => Ok a | None => Err AttributeError end in
  Ok [("thetao", thetao); ("so", so); ("volcello", volcello); ("rho", rho); ("volo", volo);
      ("masso", masso); ("rhoga", rhoga); ("areacello", areacello)].

(** steric.py:84-184 (annual=False) with any reference, coord_names and equation_of_state *)
Definition steric_any (dset : dataset) (reference : arg dataset) (coord_names : arg (dict string)) (varname_map : option (dict string))
    (rhozero : R) (patm : arr) (eos : option string) (variant domain : string) (strict : bool) : res (dict arr * dataset) :=
  let* ds := ds_rename varname_map dset in
  let* cn := coords_any coord_names in
  let '(tcoord, zcoord, zbounds) := default_coords cn in
  let* _ := validate_dataset ds false strict (if String.eqb domain "global" then [] else [zbounds; "deptho"]) in
  let* z := ds_get zcoord ds in
  let* pres := aadd (const_r fmul z (Fin 10000%R)) patm in
  (* 98-107 *)
  let* ref := match reference with
              | AGiven r => Ok r
              | AWrong => Err AssertionError
              | ANone => setup_reference_state_any ds patm eos coord_names 0
              end in
  let* _ := validate_dataset ref true strict [] in
  let* ts := select_fields ds ref variant in
  let* rho := calc_rho_any (fst ts) (snd ts) pres eos in
  let* result := if String.eqb domain "global"
                 then steric_global ref rho variant tcoord
                 else steric_local ds ref rho rhozero variant tcoord zcoord zbounds in
  Ok (result, ref).

(** trend.py:243-249, calc_linear_trend of any object: the name is read before the kind is checked.  [names]: the attributes of a Dataset or of
    another object that Python can read with a dot (for a Dataset, its variables and attrs besides its methods). *)
Definition calc_linear_trend_any (ix : taxis1) (x : xobj) (names : list string) (time_units : option string) : res (darr * darr) :=
  match x with
  | XArray a => calc_linear_trend ix a time_units
  | XDataset vs => if smem "name" (dkeys vs ++ names)%list then Err AssertionError else Err AttributeError
  | XOther => if smem "name" names then Err AssertionError else Err AttributeError
  end.
