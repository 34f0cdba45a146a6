(** * Derived: model of src/momlevel/derived.py and dynamic.py *)
From Coq Require Import Reals List String Bool Arith.
From Verif Require Import Num Py Arr Eos Spice.
Import ListNotations.
Local Open Scope string_scope.

(** derived.py:55 and similar: [x op constant] on an array. *)
Definition const_l (f : fval -> fval -> fval) (c : fval) (a : arr) : arr := amap (fun v => f c v) a.
Definition const_r (f : fval -> fval -> fval) (a : arr) (c : fval) : arr := amap (fun v => f v c) a.

(** derived.py:30-71 adjust_negative_n2.
    SIMPLIFICATION: attributes are not modelled. *)
Definition adjust_negative_n2 (n2 : arr) (zcoord : string) : res arr :=
  (* 55: mask = xr.where(n2.isnull(), np.nan, 1.0) *)
  let mask := amap (fun v => if isnull v then NaN else Fin 1) n2 in
  (* 59: adjusted = xr.where(n2 <= 0.0, np.nan, n2) *)
  let adjusted := amap (fun v => if fleb v (Fin 0) then NaN else v) n2 in
  (* 62: adjusted[0] = adjusted[0].fillna(1.0e-8) *)
  let* first := getitem 0 adjusted in
  let first := amap (fun v => fillna v (Fin (1 / 10^8)%R)) first in
  let* adjusted := setitem0 adjusted first in
  (* 65: adjusted = adjusted.ffill(zcoord) *)
  let* adjusted := ffill zcoord adjusted in
  (* 68: adjusted = adjusted * mask *)
  amul adjusted mask.

(** [xr.apply_ufunc] hands numpy arrays whose axes are put in the order of the union of
    the dimensions, with length-one axes for missing dimensions after the first present one.
    [compat_shape u own false] is the shape of an array with dimensions [own] in that order. *)
Fixpoint compat_shape (u : list (string * nat)) (own : list (string * nat)) (started : bool) : list nat :=
  match u with
  | [] => []
  | (d, n) :: u' =>
      if dmem d own then n :: compat_shape u' own true
      else if started then 1 :: compat_shape u' own true
      else compat_shape u' own false
  end.
Definition list_nat_eqb (a b : list nat) : bool :=
  if list_eq_dec Nat.eq_dec a b then true else false.

(** [apply_ufunc] raises ValueError when the returned data do not have the expected
    shape.  The Wright functions use all three arguments, so their result always
    has the broadcast shape; the Linear functions ignore the pressure, so every
    dimension must come from temperature or salinity (or be a non-leading
    dimension of size one). *)
Definition eos_shape_ok (m : eos_module) (t s p : arr) : bool :=
  match m with
  | Wright => true
  | Linear =>
      let u := union_dims (union_dims (adims t) (adims s)) (adims p) in
      list_nat_eqb (compat_shape u (adims t ++ adims s) false) (map snd u)
  end.

Definition eos_ufunc (t_int : bool) (f : eos_module * func_name) (t s p : arr) : res arr :=
  let* r := amap3 (eos_apply t_int f) t s p in
  if eos_shape_ok (fst f) t s p then Ok r else Err ValueError.

(** derived.py:74-115 calc_alpha; [t_int]: integer dtype of thetao. *)
Definition calc_alpha (t_int : bool) (thetao so pres : arr) (eos : string) : res arr :=
  let* f := eos_func_from_str eos FAlpha in
  eos_ufunc t_int f thetao so pres.

(** derived.py:118-159 calc_beta *)
Definition calc_beta (t_int : bool) (thetao so pres : arr) (eos : string) : res arr :=
  let* f := eos_func_from_str eos FBeta in
  eos_ufunc t_int f thetao so pres.

(** derived.py:162-184 calc_coriolis *)
Definition calc_coriolis (lat : arr) : arr :=
  amap (fun l => fmul (Fin (2 * (2 * PI / (60 * 60 * 24)))%R)
                      (fsin (fdiv (fmul l (Fin PI)) (Fin 180)))) lat.

(** derived.py:249-325 calc_dz.  [levels] must be 1-dimensional (their single
    dimension is the vertical one), [interfaces] is 1-dimensional.  [bottom] is
    [None] or a float. *)
Definition fge0 (v : fval) : bool := fleb (Fin 0) v.

Definition clip0 (a : arr) : arr := amap (fun v => if fltb v (Fin 0) then Fin 0 else v) a.

Definition calc_dz (levels interfaces depth : arr) (top : fval) (bottom : option fval)
           (fraction : bool) : res arr :=
  (* 284-292 *)
  let* _ := assert_ (aall fge0 (amap (fun v => fillna v (Fin 0)) depth)) in
  let* _ := assert_ (aall fge0 levels) in
  let* _ := assert_ (aall fge0 interfaces) in
  (* 295 *)
  let depth := amap (fun v => fillna v (Fin 0)) depth in
  (* 298 *)
  let depth := match bottom with None => depth | Some b => const_r fmin depth b end in
  match adims levels, adims interfaces with
  | [(z, n)], [(zi, ni)] =>
      (* 301, 303: xr.DataArray(interfaces[0:-1].values, coords=levels.coords)
         (conflicting sizes raise ValueError) *)
      if Nat.eqb (ni - 1) n then
        let ztop := mkArr [(z, n)] (fun e => at_ interfaces (upd e zi (e z))) in
        let zbot := mkArr [(z, n)] (fun e => at_ interfaces (upd e zi (S (e z)))) in
        (* 302, 304, 305 *)
        let* ztop := broadcast_second depth ztop in
        let* zbot := broadcast_second depth zbot in
        let* depth := broadcast_like depth levels in
        (* 308 *)
        let* dz_field := asub zbot ztop in
        (* 311-313 *)
        let* part := asub depth ztop in
        let part := clip0 part in
        let* result := amin part dz_field in
        (* 316-318 *)
        let part := const_r fsub zbot top in
        let part := clip0 part in
        let* result := amin part result in
        (* 320-323 *)
        if fraction then
          let dzf := amap (fun v => if feqb v (Fin 0) then NaN else v) dz_field in
          let dzp := amap (fun v => if feqb v (Fin 0) then NaN else v) result in
          adiv dzp dzf
        else Ok result
      else Err ValueError
  | _, _ => Err ValueError
  end.

(** derived.py:397 [(thetao[zcoord] * 1.0e4) + patm] *)
Definition pressure_from_depth (z patm : arr) : res arr :=
  aadd (const_r fmul z (Fin 10000)) patm.

(** derived.py:328-411 calc_n2 with [interfaces=None].
    [zvals] is the coordinate [thetao[zcoord]] (1-dimensional, dimension [zcoord]).
    SIMPLIFICATION: the branch [interfaces is not None] (lines 390-395) regrids
    thetao and so with xgcm first; see [N2Edges]. *)
Definition zarr (zcoord : string) (n : nat) (zvals : nat -> fval) : arr :=
  mkArr [(zcoord, n)] (fun e => zvals (e zcoord)).

Definition calc_n2 (t_int : bool) (thetao so : arr) (zvals : nat -> fval) (eos : string)
           (gravity : fval) (patm : arr) (zcoord : string) (adjust_negative : bool) : res arr :=
  (* 397: KeyError when zcoord is not a coordinate of thetao *)
  let* n := match dget zcoord (adims thetao) with Some n => Ok n | None => Err KeyError end in
  let* pres := pressure_from_depth (zarr zcoord n zvals) patm in
  (* 398-401 *)
  let* alpha := calc_alpha t_int thetao so pres eos in
  let* beta := calc_beta t_int thetao so pres eos in
  let* dtdz := differentiate zcoord zvals thetao in
  let* dsdz := differentiate zcoord zvals so in
  (* 402: n2 = gravity * ((alpha * dtdz) - (beta * dsdz)) *)
  let* at_term := amul alpha dtdz in
  let* bs_term := amul beta dsdz in
  let* diff := asub at_term bs_term in
  let n2 := const_l fmul gravity diff in
  (* 409: the zcoord argument is NOT forwarded, the default "z_l" is used *)
  if adjust_negative then adjust_negative_n2 n2 "z_l" else Ok n2.

(** derived.py:414-444 calc_masso *)
Definition calc_masso (rho volcello : arr) (tcoord : string) : res arr :=
  let* masso := amul rho volcello in
  let coords := filter (fun x => negb (String.eqb x tcoord)) (names masso) in
  asum coords masso.

(** derived.py:597-639 calc_rho *)
Definition calc_rho (thetao so pres : arr) (eos : string) : res arr :=
  let* f := eos_func_from_str eos FDensity in
  eos_ufunc false f thetao so pres.

(** derived.py:447-486 calc_pdens *)
Definition calc_pdens (thetao so : arr) (level : fval) (patm : arr) (eos : string) : res arr :=
  let* _ := assert_ (fleb (Fin 0) level && fleb level (Fin 7500)) in
  calc_rho thetao so (const_l fadd (fmul level (Fin 10000)) patm) eos.

(** derived.py:568-594 calc_rossby_rd *)
Definition calc_rossby_rd (wave_speed coriolis : arr) : res arr :=
  adiv wave_speed (amap fabs coriolis).

(** derived.py:642-666 calc_rhoga *)
Definition calc_rhoga (masso volo : arr) : res arr := adiv masso volo.

(** derived.py:714-766 calc_stability_angle *)
Definition degrees (v : fval) : fval := fmul v (Fin (180 / PI)%R).
Definition calc_stability_angle (t_int : bool) (thetao so pres : arr) (zvals : nat -> fval)
           (eos zcoord : string) : res arr :=
  let* alpha := calc_alpha t_int thetao so pres eos in
  let* beta := calc_beta t_int thetao so pres eos in
  let* dtdz := differentiate zcoord zvals thetao in
  let* dsdz := differentiate zcoord zvals so in
  let* num := amul beta dsdz in
  let* den := amul alpha dtdz in
  let* r_rho := adiv num den in
  Ok (amap (fun r => degrees (fatan (fdiv (fadd (Fin 1) r) (fsub (Fin 1) r)))) r_rho).

(** derived.py:769-795 calc_volo *)
Definition calc_volo (volcello : arr) : res arr :=
  let* _ := assert_ (Nat.eqb (ndim volcello) 3) in
  Ok (asum_all volcello).

(** derived.py:798-828 calc_wave_speed; line 820 calls adjust_negative_n2 without
    forwarding zcoord. *)
Definition calc_wave_speed (n2 dz : arr) (zcoord : string) : res arr :=
  let* adj := adjust_negative_n2 n2 "z_l" in
  let* prod := amul (amap fsqrt adj) dz in
  let* s := asum [zcoord] prod in
  let result := const_r fdiv s (Fin PI) in
  (* 821: xr.where(n2[0].isnull(), np.nan, result) *)
  let* surf := getitem 0 n2 in
  awhere (aisnull surf) (scalar NaN) result.

(** derived.py:669-711 calc_spice.  flament.spice asserts that the two numpy arrays
    handed over by [apply_ufunc] have equal shapes (flament.py:75). *)
Definition calc_spice (thetao so : arr) : res arr :=
  if negb (compatible (adims thetao) (adims so)) then Err ValueError else
  let u := union_dims (adims thetao) (adims so) in
  let* _ := assert_ (list_nat_eqb (compat_shape u (adims thetao) false)
                                  (compat_shape u (adims so) false)) in
  amap2 spice_point thetao so.

(** ** xgcm operators (util.get_xgcm_grid, util.py:399-451)
    Non-symmetric grids pair "center" with "right": right point [k] lies between
    centers [k] and [k+1].  Symmetric grids pair "center" with "outer": outer point
    [k] lies between centers [k-1] and [k] and there is one more of them.
    boundary="fill" supplies 0 outside.  TRUSTED: xgcm's diff/interp semantics. *)
Definition center_val (n : nat) (f : nat -> fval) (k : nat) : fval :=
  if Nat.ltb k n then f k else Fin 0.
Definition xg_left (symmetric : bool) (n : nat) (f : nat -> fval) (k : nat) : fval :=
  if symmetric then (match k with O => Fin 0 | S m => center_val n f m end)
  else center_val n f k.
Definition xg_right (symmetric : bool) (n : nat) (f : nat -> fval) (k : nat) : fval :=
  if symmetric then center_val n f k else center_val n f (S k).
Definition xg_size (symmetric : bool) (n : nat) : nat := if symmetric then S n else n.

Definition xg_op (op : fval -> fval -> fval) (symmetric : bool) (center corner : string) (a : arr)
  : res arr :=
  match dget center (adims a) with
  | None => Err KeyError
  | Some n =>
      Ok (rename_dim center corner (xg_size symmetric n) a
            (fun e => let f := fun k => at_ a (upd e center k) in
                      op (xg_left symmetric n f (e corner)) (xg_right symmetric n f (e corner))))
  end.
(** [grid.diff]: right minus left; [grid.interp]: half the sum. *)
Definition xg_diff := xg_op (fun l r => fsub r l).
Definition xg_interp := xg_op (fun l r => fmul (Fin (1 / 2)%R) (fadd l r)).

(** The four coordinate names used by the grid (util.py:424-430). *)
Record grid_coords := { xcenter : string; ycenter : string; xcorner : string; ycorner : string }.
Definition default_grid : grid_coords :=
  {| xcenter := "xh"; ycenter := "yh"; xcorner := "xq"; ycorner := "yq" |}.

(** derived.py:187-246 calc_rel_vort.  [vars] are the dataset variables,
    [vmap] the variable-name mapping. *)
Definition default_vmap : dict string :=
  [("u", "uo"); ("v", "vo"); ("dx", "dxCu"); ("dy", "dyCv"); ("area", "areacello_bu")].

Definition calc_rel_vort (vars : dict arr) (varname_map : option (dict string))
           (coords : grid_coords) (symmetric : bool) : res arr :=
  let vmap := match varname_map with None => default_vmap | Some m => m end in
  (* 223-227 *)
  if negb (forallb (fun p => dmem (snd p) vars) vmap) then Err ValueError else
  let get k := let* v := dlookup k vmap in dlookup v vars in
  (* 232-239 *)
  let* u := get "u" in
  let* dx := get "dx" in
  let* udx := amul u dx in
  let* duy := xg_diff symmetric (ycenter coords) (ycorner coords) udx in
  let* v := get "v" in
  let* dy := get "dy" in
  let* vdy := amul v dy in
  let* dvx := xg_diff symmetric (xcenter coords) (xcorner coords) vdy in
  let* circ := aadd (amap fopp duy) dvx in
  let* area := get "area" in
  adiv circ area.

(** derived.py:489-565 calc_pv *)
Definition calc_pv (zeta coriolis n2 : arr) (gravity : fval) (coords : grid_coords)
           (symmetric : bool) (units : string) (interp_n2 : bool) : res arr :=
  let* n2 := if interp_n2
             then let* a := xg_interp symmetric (xcenter coords) (xcorner coords) n2 in
                  xg_interp symmetric (ycenter coords) (ycorner coords) a
             else Ok n2 in
  (* 547 *)
  let* absvort := aadd zeta coriolis in
  let* pv := amul absvort (const_r fdiv n2 gravity) in
  if String.eqb units "m" then Ok pv
  else if String.eqb units "cm" then
    (* 556 *)
    Ok (amap (fun v => fabs (fmul (fdiv v (Fin 100)) (Fin (10 ^ 14)%R))) pv)
  else Err ValueError.

(** dynamic.py:8-41 inverse_barometer *)
Definition inverse_barometer (tos sos pso : arr) (gravity : fval) (eos : string) : res arr :=
  let* rho := calc_rho tos sos pso eos in
  amul pso (amap (fun r => fdiv (Fin (-1)) (fmul r gravity)) rho).
