(** * Align: index labels and their alignment in steric (src/momlevel/steric.py:90-166)

    The other files assume that the arrays of one operation carry equal labels along shared
    dimensions.  Here arrays carry the labels of their index coordinates and xarray's
    alignment is part of every binary operation:
    - arithmetic and [DataArray.where(cond)] use the inner join: along a dimension where both
      have labels and these differ, both are restricted to the common labels, in the order of
      the left one (pandas [Index.intersection], [sort=False]);
    - [apply_ufunc] and [xr.where] use the exact join: differing labels are a ValueError.
    Labels are only compared for equality, so integers stand for them. *)
From Coq Require Import Reals ZArith List String Bool Arith.
From Verif Require Import Num Py Arr Eos Derived Dataset.
Import ListNotations.
Local Open Scope string_scope.

Definition labels := dict (list Z).

(** A DataArray with the labels of those of its dimensions that have an index. *)
Record larr : Type := mkL { la : arr; lab : labels }.

(** A Dataset has one index per labelled dimension. *)
Record lds : Type := mkLd { ld_vars : dataset; ld_lab : labels }.

Definition zmem (x : Z) (l : list Z) : bool := existsb (Z.eqb x) l.
Fixpoint zlist_eqb (l l' : list Z) : bool :=
  match l, l' with
  | [], [] => true
  | x :: l, y :: l' => Z.eqb x y && zlist_eqb l l'
  | _, _ => false
  end.

(** Position of a label. *)
Fixpoint zpos (x : Z) (l : list Z) : nat :=
  match l with [] => O | y :: l' => if Z.eqb x y then O else S (zpos x l') end.

(** The common labels, in the order of the left index. *)
Definition zinter (l l' : list Z) : list Z := filter (fun x => zmem x l') l.

(** Dimensions labelled in both arrays with different labels, and the labels they are joined to. *)
Definition joined (a b : labels) : labels :=
  flat_map (fun p => match dget (fst p) b with
                     | Some l' => if zlist_eqb (snd p) l' then [] else [(fst p, zinter (snd p) l')]
                     | None => []
                     end) a.

(** Selecting the labels [new] of an array labelled [old]. *)
Definition relabel (old new : labels) (e : index) : index :=
  fun d => match dget d new, dget d old with
           | Some n, Some o => zpos (nth (e d) n 0%Z) o
           | _, _ => e d
           end.
Definition reindex (new : labels) (a : larr) : larr :=
  mkL (mkArr (map (fun p => match dget (fst p) new with
                            | Some l => (fst p, List.length l)
                            | None => p
                            end) (adims (la a)))
             (fun e => at_ (la a) (relabel (lab a) new e)))
      (map (fun p => match dget (fst p) new with Some l => (fst p, l) | None => p end) (lab a)).

(** Labels of the result of an operation on aligned arrays. *)
Definition merge_labels (a b : labels) : labels :=
  (a ++ filter (fun p => negb (dmem (fst p) a)) b)%list.

(** Arithmetic: inner join. *)
Definition linner (f : fval -> fval -> fval) (a b : larr) : res larr :=
  let new := joined (lab a) (lab b) in
  let a' := reindex new a in
  let b' := reindex new b in
  let* c := amap2 f (la a') (la b') in
  Ok (mkL c (merge_labels (lab a') (lab b'))).

(** Exact join. *)
Definition lexact (a b : labels) : res unit :=
  match joined a b with [] => Ok tt | _ => Err ValueError end.

(** [dset[name]] with the labels of its dimensions *)
Definition ld_get (name : string) (ds : lds) : res larr :=
  let* a := ds_get name (ld_vars ds) in
  Ok (mkL a (filter (fun p => has_dim (fst p) a) (ld_lab ds))).

(** derived.py:597-639 calc_rho ([apply_ufunc], exact join) *)
Definition lcalc_rho (thetao so pres : larr) (eos : string) : res larr :=
  let* f := eos_func_from_str eos FDensity in
  let* _ := lexact (lab thetao) (lab so) in
  let ts := merge_labels (lab thetao) (lab so) in
  let* _ := lexact ts (lab pres) in
  let* c := eos_ufunc false f (la thetao) (la so) (la pres) in
  Ok (mkL c (merge_labels ts (lab pres))).

(** Operations that keep or drop dimensions *)
Definition lift1 (f : arr -> res arr) (a : larr) : res larr :=
  let* c := f (la a) in
  Ok (mkL c (filter (fun p => has_dim (fst p) c) (lab a))).

(** derived.py:414-444 calc_masso *)
Definition lcalc_masso (rho volcello : larr) (tcoord : string) : res larr :=
  let* masso := linner fmul rho volcello in
  lift1 (fun a => asum (filter (fun x => negb (String.eqb x tcoord)) (names a)) a) masso.

(** steric.py:115-125 *)
Definition lselect_fields (ds reference : lds) (variant : string) : res (larr * larr) :=
  if String.eqb variant "thermosteric" then
    let* t := ld_get "thetao" ds in let* s := ld_get "so" reference in Ok (t, s)
  else if String.eqb variant "halosteric" then
    let* t := ld_get "thetao" reference in let* s := ld_get "so" ds in Ok (t, s)
  else if String.eqb variant "steric" then
    let* t := ld_get "thetao" ds in let* s := ld_get "so" ds in Ok (t, s)
  else Err ValueError.

(** steric.py:135-147 *)
Definition lsteric_global (reference : lds) (rho : larr) (variant tcoord : string) : res (dict larr) :=
  let* vol := ld_get "volcello" reference in
  let* masso := lcalc_masso rho vol tcoord in
  let* rhoga := ld_get "rhoga" reference in
  let* volo := ld_get "volo" reference in
  let* mean := linner fdiv masso volo in
  let* ratio := linner fdiv rhoga mean in
  let* expansion := lift1 (fun a => Ok (amap fln a)) ratio in
  let* area := ld_get "areacello" reference in
  let* total := lift1 (fun a => Ok (asum_all a)) area in
  let* height := linner fdiv volo total in
  let* sealevel := linner fmul height expansion in
  Ok [("reference_height", height); (variant, sealevel)].

(** steric.py:151-166; the thickness is computed from the dataset alone. *)
Definition lsteric_local (ds reference : lds) (rho : larr) (rhozero : R)
           (variant tcoord zcoord zbounds : string) : res (dict larr) :=
  let* vol := ld_get "volcello" reference in
  let* rho0 := ld_get "rho" reference in
  let* diff := linner fsub rho rho0 in
  let* _ := lexact (lab vol) (lab diff) in
  let* delta := awhere (anotnull (la vol)) (la diff) (scalar NaN) in
  let* delta := lift1 (transpose_first tcoord) (mkL delta (merge_labels (lab vol) (lab diff))) in
  let* z := ld_get zcoord ds in
  let* zb := ld_get zbounds ds in
  let* depth := ld_get "deptho" ds in
  let* dz := calc_dz (la z) (la zb) (la depth) (Fin 0) None false in
  let dz := mkL dz (filter (fun p => has_dim (fst p) dz) (ld_lab ds)) in
  let* fact := if Reqb rhozero 0 then Err ZeroDivisionError else Ok (Fin (-1 / rhozero)%R) in
  let* prod := linner fmul dz delta in
  let* s := lift1 (asum [zcoord]) prod in
  let* sealevel := lift1 (fun a => Ok (const_l fmul fact a)) s in
  let* sealevel := lift1 (transpose_first tcoord) sealevel in
  let* surf := lift1 (isel zcoord 0) vol in
  let* masked := linner (fun v c => if truth c then v else NaN) sealevel (mkL (anotnull (la surf)) (lab surf)) in
  Ok [("delta_rho", delta); (variant, masked)].

(** steric.py:17-184 steric with a supplied reference.
    SIMPLIFICATION: varname_map is taken as applied, and patm carries no labels. *)
Definition lsteric (ds reference : lds) (coord_names : option (dict string)) (rhozero : R) (patm : arr)
           (eos variant domain : string) (strict : bool) : res (dict larr * lds) :=
  let '(tcoord, zcoord, zbounds) := default_coords coord_names in
  let additional := if String.eqb domain "global" then [] else [zbounds; "deptho"] in
  let* _ := validate_dataset (ld_vars ds) false strict additional in
  let* z := ld_get zcoord ds in
  let* pres := linner fadd (mkL (const_r fmul (la z) (Fin 10000%R)) (lab z)) (mkL patm []) in
  let* _ := validate_dataset (ld_vars reference) true strict [] in
  let* ts := lselect_fields ds reference variant in
  let* rho := lcalc_rho (fst ts) (snd ts) pres eos in
  let* result := if String.eqb domain "global"
                 then lsteric_global reference rho variant tcoord
                 else lsteric_local ds reference rho rhozero variant tcoord zcoord zbounds in
  Ok (result, reference).
