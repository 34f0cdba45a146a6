(** * Dataset: model of xarray.Dataset, validate_dataset, setup_reference_state and steric
    (src/momlevel/util.py, reference.py, steric.py) *)
From Coq Require Import Reals List String Bool Arith ZArith.
From Verif Require Import Num Py Arr Eos Derived.
Import ListNotations.
Local Open Scope string_scope.

(** A Dataset: its variables (data variables and coordinate variables) by name.
    SIMPLIFICATION: attributes and encodings are not modelled. *)
Definition dataset := dict arr.

(** Size of a dimension of the dataset (taken from the first variable that has it). *)
Fixpoint ds_dim (d : string) (ds : dataset) : option nat :=
  match ds with
  | [] => None
  | (_, a) :: ds' => match dget d (adims a) with Some n => Some n | None => ds_dim d ds' end
  end.

(** [dset[name]]: a variable, or the default range coordinate of a dimension without
    coordinate variable; KeyError otherwise. *)
Definition ds_get (name : string) (ds : dataset) : res arr :=
  match dget name ds with
  | Some a => Ok a
  | None => match ds_dim name ds with
            | Some n => Ok (mkArr [(name, n)] (fun e => Fin (INR (e name))))
            | None => Err KeyError
            end
  end.

(** [dset.rename(varname_map)]: renames variables and dimensions (steric.py:84).
    A key which is neither a variable nor a dimension raises ValueError, and so do two
    variables with the same new name.  [rename(None)] changes nothing.
    SIMPLIFICATION: two dimensions with the same new name also raise ValueError here
    (xarray merges them and fails later or not, depending on their sizes). *)
Definition ren (m : dict string) (x : string) : string :=
  match dget x m with Some y => y | None => x end.
Definition ren_arr (m : dict string) (a : arr) : arr :=
  mkArr (map (fun p => (ren m (fst p), snd p)) (adims a)) (fun e => at_ a (fun d => e (ren m d))).
Definition ds_dims (ds : dataset) : list string := flat_map (fun p => names (snd p)) ds.
Definition ds_names (ds : dataset) : list string := (dkeys ds ++ ds_dims ds)%list.
Fixpoint nodupb (l : list string) : bool :=
  match l with [] => true | x :: l' => negb (smem x l') && nodupb l' end.
Definition ds_rename (varname_map : option (dict string)) (ds : dataset) : res dataset :=
  match varname_map with
  | None => Ok ds
  | Some m =>
      if forallb (fun p => smem (fst p) (ds_names ds)) m then
        if nodupb (map (fun p => ren m (fst p)) ds) && nodupb (map (ren m) (nodup string_dec (ds_dims ds)))
        then Ok (map (fun p => (ren m (fst p), ren_arr m (snd p))) ds)
        else Err ValueError
      else Err ValueError
  end.

(** util.py:199-224 default_coords: (tcoord, zcoord, zbounds) *)
Definition default_coords (coord_names : option (dict string)) : string * string * string :=
  let m := match coord_names with None => [] | Some m => m end in
  let get k d := match dget k m with Some v => v | None => d end in
  (get "t" "time", get "z" "z_l", get "zbounds" "z_i").

(** util.py:669-694 validate_areacello *)
Definition validate_areacello (areacello : arr) (reference tolerance : fval) : bool :=
  let s := at_ (asum_all areacello) (fun _ => O) in
  fltb (fabs (fdiv (fsub s reference) reference)) tolerance.
Definition ocean_area : fval := Fin (361110920000000)%R.
Definition area_tolerance : fval := Fin (2 / 100)%R.

(** util.py:697-814 validate_dataset.  [errors] collects the messages appended to
    [exceptions]; a non-empty list raises ValueError. *)
Inductive verr : Type :=
| HasTime | Missing (l : list string) | BadRank (var : string) | BadArea.

Definition rank_error (ds : dataset) (rank : nat) (var : string) : list verr :=
  match dget var ds with
  | Some a => if Nat.eqb (ndim a) rank then [] else [BadRank var]
  | None => []
  end.

Definition validate_errors (ds : dataset) (reference strict : bool) (additional_vars : list string)
  : list verr :=
  (* 727-733: [x.lower for x in coords] is a list of bound methods (lower is not
     called), so "time" is never found in it. *)
  let time_found := existsb (fun _ : string => false) (dkeys ds) in
  let e1 := if reference && time_found then [HasTime] else [] in
  (* 736-758 *)
  let expected := (["thetao"; "so"; "volcello"; "areacello"] ++ additional_vars
                  ++ (if reference then ["rho"; "volo"; "masso"; "rhoga"] else []))%list in
  let missing := filter (fun x => negb (dmem x ds)) expected in
  let e2 := match missing with [] => [] | _ => [Missing missing] end in
  (* 761-769 *)
  let e3 := flat_map (rank_error ds (if reference then 3 else 4)) ["thetao"; "so"; "volcello"] in
  (* 772-779 *)
  let e4 := flat_map (rank_error ds 2) ["areacello"; "deptho"] in
  (* 782-792: not strict only warns *)
  let e5 := match dget "areacello" ds with
            | Some a => if validate_areacello a ocean_area area_tolerance then []
                        else if strict then [BadArea] else []
            | None => []
            end in
  (* 795-809 *)
  let e6 := if reference
            then (rank_error ds 3 "rho" ++ flat_map (rank_error ds 0) ["masso"; "volo"; "rhoga"])%list
            else [] in
  (e1 ++ e2 ++ e3 ++ e4 ++ e5 ++ e6)%list.

Definition validate_dataset (ds : dataset) (reference strict : bool) (additional_vars : list string)
  : res unit :=
  match validate_errors ds reference strict additional_vars with
  | [] => Ok tt
  | _ => Err ValueError
  end.

(** Position selected by [isel({d: k})] with a Python integer [k]. *)
Definition py_index (k : Z) (n : nat) : option nat :=
  let i := if (k <? 0)%Z then (k + Z.of_nat n)%Z else k in
  if ((0 <=? i) && (i <? Z.of_nat n))%Z then Some (Z.to_nat i) else None.
Definition isel_z (d : string) (k : Z) (a : arr) : res arr :=
  match dget d (adims a) with
  | None => Err ValueError
  | Some n => match py_index k n with
              | Some i => isel d i a
              | None => Err IndexError
              end
  end.

(** reference.py:15-85 setup_reference_state *)
Definition setup_reference_state (ds : dataset) (patm : arr) (eos : string)
           (coord_names : option (dict string)) (time_index : Z) : res dataset :=
  let '(tcoord, zcoord, _) := default_coords coord_names in
  (* 54 *)
  let* z := ds_get zcoord ds in
  let* pres := aadd (const_r fmul z (Fin 10000%R)) patm in
  (* 60-68 *)
  let level v := let* a := ds_get v ds in let* b := isel_z tcoord time_index a in Ok (squeeze b) in
  let* thetao := level "thetao" in
  let* so := level "so" in
  let* volcello := level "volcello" in
  (* 71-80 *)
  let* rho := calc_rho thetao so pres eos in
  let* volo := calc_volo volcello in
  let* masso := calc_masso rho volcello tcoord in
  let* rhoga := calc_rhoga masso volo in
  (* 83: attribute access *)
  let* areacello := match dget "areacello" ds with Some a => Ok a | None => Err AttributeError end in
  Ok [("thetao", thetao); ("so", so); ("volcello", volcello); ("rho", rho); ("volo", volo);
      ("masso", masso); ("rhoga", rhoga); ("areacello", areacello)].

(** [a.where(cond)] *)
Definition where_method (a cond : arr) : res arr :=
  amap2 (fun v c => if truth c then v else NaN) a cond.

(** steric.py:115-125: which fields are held fixed *)
Definition select_fields (ds reference : dataset) (variant : string) : res (arr * arr) :=
  if String.eqb variant "thermosteric" then
    let* t := ds_get "thetao" ds in let* s := ds_get "so" reference in Ok (t, s)
  else if String.eqb variant "halosteric" then
    let* t := ds_get "thetao" reference in let* s := ds_get "so" ds in Ok (t, s)
  else if String.eqb variant "steric" then
    let* t := ds_get "thetao" ds in let* s := ds_get "so" ds in Ok (t, s)
  else Err ValueError.

(** steric.py:135-147 *)
Definition steric_global (reference : dataset) (rho : arr) (variant tcoord : string) : res (dict arr) :=
  let* vol := ds_get "volcello" reference in
  let* masso := calc_masso rho vol tcoord in
  let* rhoga := ds_get "rhoga" reference in
  let* volo := ds_get "volo" reference in
  let* mean := adiv masso volo in
  let* ratio := adiv rhoga mean in
  let expansion := amap fln ratio in
  let* area := ds_get "areacello" reference in
  let* height := adiv volo (asum_all area) in
  let* sealevel := amul height expansion in
  Ok [("reference_height", height); (variant, sealevel)].

(** steric.py:151-166 *)
Definition steric_local (ds reference : dataset) (rho : arr) (rhozero : R)
           (variant tcoord zcoord zbounds : string) : res (dict arr) :=
  let* vol := ds_get "volcello" reference in
  let* rho0 := ds_get "rho" reference in
  let* diff := asub rho rho0 in
  let* delta := awhere (anotnull vol) diff (scalar NaN) in
  let* delta := transpose_first tcoord delta in
  let* z := ds_get zcoord ds in
  let* zb := ds_get zbounds ds in
  let* depth := ds_get "deptho" ds in
  let* dz := calc_dz z zb depth (Fin 0) None false in
  let* fact := if Reqb rhozero 0 then Err ZeroDivisionError else Ok (Fin (-1 / rhozero)%R) in
  let* prod := amul dz delta in
  let* s := asum [zcoord] prod in
  let sealevel := const_l fmul fact s in
  let* sealevel := transpose_first tcoord sealevel in
  let* surf := isel zcoord 0 vol in
  let* masked := where_method sealevel (anotnull surf) in
  Ok [("delta_rho", delta); (variant, masked)].

(** steric.py:17-184 steric with annual=False (for annual=True see the time model).
    dtype and verbose have no effect on values. *)
Definition steric (dset : dataset) (reference : option dataset) (coord_names varname_map : option (dict string))
           (rhozero : R) (patm : arr) (eos variant domain : string) (strict : bool)
  : res (dict arr * dataset) :=
  (* 84, 87 *)
  let* ds := ds_rename varname_map dset in
  let '(tcoord, zcoord, zbounds) := default_coords coord_names in
  (* 90-91 *)
  let additional := if String.eqb domain "global" then [] else [zbounds; "deptho"] in
  let* _ := validate_dataset ds false strict additional in
  (* 96 *)
  let* z := ds_get zcoord ds in
  let* pres := aadd (const_r fmul z (Fin 10000%R)) patm in
  (* 98-107 *)
  let* ref := match reference with
              | Some r => Ok r
              | None => setup_reference_state ds patm eos coord_names 0
              end in
  (* 112 *)
  let* _ := validate_dataset ref true strict [] in
  (* 115-125 *)
  let* ts := select_fields ds ref variant in
  (* 128 *)
  let* rho := calc_rho (fst ts) (snd ts) pres eos in
  let* result := if String.eqb domain "global"
                 then steric_global ref rho variant tcoord
                 else steric_local ds ref rho rhozero variant tcoord zcoord zbounds in
  Ok (result, ref).

(** steric.py:187-196: wrappers *)
Definition halosteric dset reference coord_names varname_map rhozero patm eos domain strict :=
  steric dset reference coord_names varname_map rhozero patm eos "halosteric" domain strict.
Definition thermosteric dset reference coord_names varname_map rhozero patm eos domain strict :=
  steric dset reference coord_names varname_map rhozero patm eos "thermosteric" domain strict.
