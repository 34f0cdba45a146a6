(** * Meta: attributes and encodings of annual_average and steric
    (src/momlevel/util.py, steric.py)

    The values are modelled in TimeAvg and Dataset; this file follows the metadata of the same
    statements.  Attribute values are strings. *)
From Coq Require Import List String Ascii Bool Arith.
From Verif Require Import Py.
Import ListNotations.
Local Open Scope string_scope.

Definition attrs := dict string.

(** Metadata of one variable: [v.attrs] and [v.encoding]. *)
Record meta : Type := mkMeta { m_attrs : attrs; m_enc : attrs }.

(** Metadata of an xarray object: its variables (coordinates included), which of them are
    coordinates, its dimensions and its own [attrs].  A DataArray has only its coordinates here. *)
Record xmeta : Type := mkX {
  x_vars : dict meta; x_coords : list string; x_dims : list string; x_attrs : attrs }.

(** [x[name].attrs]: a dimension without coordinate variable has none. *)
Definition attrs_of (x : xmeta) (name : string) : attrs :=
  match dget name (x_vars x) with Some m => m_attrs m | None => [] end.

(** [x[name].attrs = a] stores a copy of [a]; on a dimension without coordinate variable it
    acts on a temporary object and has no effect. *)
Definition set_attrs (name : string) (a : attrs) (x : xmeta) : xmeta :=
  mkX (map (fun p => if String.eqb name (fst p) then (fst p, mkMeta a (m_enc (snd p))) else p) (x_vars x))
      (x_coords x) (x_dims x) (x_attrs x).

(** [x[name].encoding[k] = v] *)
Definition set_enc (name k v : string) (x : xmeta) : xmeta :=
  mkX (map (fun p => if String.eqb name (fst p) then (fst p, mkMeta (m_attrs (snd p)) (dset k v (m_enc (snd p)))) else p)
           (x_vars x))
      (x_coords x) (x_dims x) (x_attrs x).

(** One of the loops of util.py:107-115: over [todo], copying the attributes of the names in
    [known]. *)
Definition copy_attrs (from : xmeta) (known todo : list string) (x : xmeta) : xmeta :=
  fold_left (fun r v => set_attrs v (if smem v known then attrs_of from v else []) r) todo x.

(** util.py:107-117, the end of annual_average.  [raw] is the averaged object as groupby,
    weighted, concat, transpose and assign_coords leave it; [x] the argument. *)
Definition annual_average_attrs (is_dataset : bool) (x raw : xmeta) : xmeta :=
  let r := if is_dataset then copy_attrs x (dkeys (x_vars x)) (dkeys (x_vars raw)) raw else raw in
  let r := copy_attrs x (x_coords x) (x_coords raw) r in
  let r := copy_attrs x (x_dims x) (x_dims raw) r in
  mkX (x_vars r) (x_coords r) (x_dims r) (x_attrs x).

(** A variable that is the result of arithmetic or of a reduction (xarray's default
    [keep_attrs=False]): neither attributes nor encoding. *)
Definition computed : meta := mkMeta [] [].

(** Python [str.capitalize] restricted to ASCII letters. *)
Definition upper_ascii (c : ascii) : ascii :=
  let n := nat_of_ascii c in
  if (97 <=? n)%nat && (n <=? 122)%nat then ascii_of_nat (n - 32) else c.
Definition capitalize (s : string) : string :=
  match s with EmptyString => EmptyString | String c s' => String (upper_ascii c) (lower s') end.

(** steric.py:131-178: metadata of the result.  [d] is the dataset, [crd] the coordinate variables
    that came with the assigned arrays and [dims] the dimensions of the result. *)
Definition steric_meta (d : xmeta) (crd : dict meta) (dims : list string) (variant domain dtype : string) : xmeta :=
  let x :=
    if String.eqb domain "global" then
      (* 140, 144-147 *)
      set_enc "reference_height" "dtype" dtype
        (mkX (crd ++ [("reference_height", mkMeta [("long_name", "Reference column height"); ("units", "m")] []);
                      (variant, computed)])%list (dkeys crd) dims [])
    else
      (* 155-160, 166 *)
      set_enc "delta_rho" "dtype" dtype
        (mkX (crd ++ [("delta_rho", mkMeta [("long_name", "change in in situ density from reference state");
                                            ("units", "kg m-3")] []);
                      (variant, computed)])%list (dkeys crd) dims []) in
  (* 169-172 *)
  let x := set_attrs variant [("long_name", capitalize variant ++ " height adjustment"); ("units", "m")] x in
  (* 174 *)
  let x := set_enc variant "dtype" dtype x in
  (* 177-179: the order of the set does not matter, every name is assigned once *)
  fold_left (fun r v => if dmem v (x_vars d) then set_attrs v (attrs_of d v) r else r)
    (x_coords x ++ filter (fun v => negb (smem v (x_coords x))) (x_dims x))%list x.

(** steric.py:181-182 with [annual=True].  The averaged data variables are computed; [crd'] are the
    coordinate variables of the averaged result. *)
Definition steric_annual_meta (d : xmeta) (crd crd' : dict meta) (dims dims' : list string)
           (variant domain dtype : string) : xmeta :=
  let x := steric_meta d crd dims variant domain dtype in
  let data := filter (fun p => negb (smem (fst p) (x_coords x))) (x_vars x) in
  annual_average_attrs true x
    (mkX (crd' ++ map (fun p => (fst p, computed)) data)%list (dkeys crd') dims' []).
