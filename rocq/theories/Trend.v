(** * Trend: model of src/momlevel/trend.py:20-357 (trends) *)
From Coq Require Import Reals ZArith List String Ascii Bool Arith.
From Verif Require Import Num Py Arr.
Import ListNotations.
Local Open Scope string_scope.

(** ** Strings *)
(** [s.split(" ")]: empty pieces are kept. *)
Fixpoint split_space (s : string) : list string :=
  match s with
  | EmptyString => [EmptyString]
  | String c s' =>
      if Ascii.eqb c " " then EmptyString :: split_space s'
      else match split_space s' with
           | w :: ws => String c w :: ws
           | [] => [String c EmptyString]
           end
  end.
(** ["-1" in s] *)
Fixpoint has_inv (s : string) : bool :=
  match s with
  | EmptyString => false
  | String c s' => match s' with
                   | String d _ => (Ascii.eqb c "-" && Ascii.eqb d "1") || has_inv s'
                   | EmptyString => false
                   end
  end.
(** [s.replace("-1", "")]: left to right, non-overlapping. *)
Fixpoint drop_inv (s : string) : string :=
  match s with
  | EmptyString => EmptyString
  | String c s' => match s' with
                   | String d s'' => if Ascii.eqb c "-" && Ascii.eqb d "1" then drop_inv s'' else String c (drop_inv s')
                   | EmptyString => s
                   end
  end.

(** ** trend.py:115-164 time_conversion_factor *)
Definition ns_table (days_per_month days_per_year : R) : dict R :=
  ([("ns", 1); ("s", 1000000000); ("min", 1000000000 * 60); ("hr", 1000000000 * 60 * 60);
    ("day", 1000000000 * 60 * 60 * 24); ("mon", 1000000000 * 60 * 60 * 24 * days_per_month);
    ("yr", 1000000000 * 60 * 60 * 24 * days_per_year)])%R.

(** 158: the table of inverses is built first, so a zero length raises whatever the units.
    SIMPLIFICATION: [days_per_month] and [days_per_year] are finite. *)
Definition time_conversion_factor (src dst : string) (days_per_month days_per_year : R) : res R :=
  let ns_from := ns_table days_per_month days_per_year in
  let* ns_to := mapM (fun kv => if Reqb (snd kv) 0 then Err ZeroDivisionError else Ok (fst kv, (1 / snd kv)%R)) ns_from in
  let* _ := assert_ (dmem src ns_from) in
  let* _ := assert_ (dmem dst ns_to) in
  let* a := dlookup src ns_from in
  let* b := dlookup dst ns_to in
  Ok (a * b)%R.

Definition default_month : R := (30417 / 1000)%R.
Definition default_year : R := 365%R.

(** ** Labelled arrays with attributes, and axes *)
Record darr : Type := mkDarr { da_name : string; da_data : arr; da_attrs : dict string }.

(** An index coordinate.  [ix_cf]: it is a CFTimeIndex.  [ix_val i]: the value of
    [get_clean_interp_index] at position [i] (nanoseconds since 1970 for a CFTimeIndex). *)
Record taxis1 : Type := mkIx { ix_dim : string; ix_cf : bool; ix_n : nat; ix_val : nat -> R }.

(** xarray's [get_clean_interp_index(strict=True)]: monotonic and unique. *)
Definition strictly_increasing (ix : taxis1) : bool :=
  forallb (fun i => Rltb (ix_val ix i) (ix_val ix (S i))) (seq 0 (pred (ix_n ix))).

(** ** xarray's polyfit of degree 1 *)
Definition Rsum_list (f : nat -> R) (l : list nat) : R := fold_right (fun i s => (f i + s)%R) 0%R l.

(** [np.linalg.lstsq] with two columns [u], [v] over the rows in [l]: the least squares
    solution, of minimal norm if the columns are dependent (then A+ = A^T / |A|^2).
    Trusted reading of LAPACK gelsd in exact arithmetic. *)
Definition lstsq2 (l : list nat) (u v y : nat -> R) : R * R :=
  let a := Rsum_list (fun i => u i * u i)%R l in
  let b := Rsum_list (fun i => u i * v i)%R l in
  let d := Rsum_list (fun i => v i * v i)%R l in
  let p := Rsum_list (fun i => u i * y i)%R l in
  let q := Rsum_list (fun i => v i * y i)%R l in
  let det := (a * d - b * b)%R in
  if Reqb det 0
  then let t := (a + d)%R in if Reqb t 0 then (0, 0)%R else (p / t, q / t)%R
  else ((d * p - b * q) / det, (a * q - b * p) / det)%R.

(** [arr.polyfit(dim, 1)] for one series: Vandermonde columns [x] and 1, each scaled by its
    norm over all samples; rows with a missing value are left out; no valid row gives NaN.
    SIMPLIFICATION: a series containing an infinity gives NaN. *)
Definition valid_rows (n : nat) (y : nat -> fval) : list nat := filter (fun i => notnull (y i)) (seq 0 n).
Definition fval_R (v : fval) : R := match v with Fin x => x | _ => 0%R end.
Definition polyfit1 (n : nat) (x : nat -> R) (y : nat -> fval) : fval * fval :=
  let all := seq 0 n in
  let s1 := sqrt (Rsum_list (fun i => x i * x i)%R all) in
  let s0 := sqrt (Rsum_list (fun _ => 1)%R all) in
  let rows := valid_rows n y in
  match rows with
  | [] => (NaN, NaN)
  | _ =>
    if forallb (fun i => is_fin (y i)) rows
    then let '(c1, c0) := lstsq2 rows (fun i => x i / s1)%R (fun _ => 1 / s0)%R (fun i => fval_R (y i)) in
         (Fin (c1 / s1), Fin (c0 / s0))
    else (NaN, NaN)
  end.

(** Values along [ix] of the series of [a] through [e]. *)
Definition series (ix : taxis1) (a : arr) (e : index) (i : nat) : fval := at_ a (upd e (ix_dim ix) i).

(** ** trend.py:214-290 calc_linear_trend *)
(** A column of zeros cannot be scaled: numpy raises LinAlgError (a ValueError). *)
Definition calc_linear_trend (ix : taxis1) (x : darr) (time_units : option string) : res (darr * darr) :=
  let* _ := match dget (ix_dim ix) (adims (da_data x)) with Some _ => Ok tt | None => Err ValueError end in
  let* _ := if Reqb (Rsum_list (fun i => ix_val ix i * ix_val ix i)%R (seq 0 (ix_n ix))) 0 then Err ValueError else Ok tt in
  let dims := drop_dim (ix_dim ix) (adims (da_data x)) in
  let fit e := polyfit1 (ix_n ix) (ix_val ix) (series ix (da_data x) e) in
  (* 254-259, 261-266: attrs are copied by the setter *)
  let slope := mkDarr (da_name x ++ "_slope") (mkArr dims (fun e => fst (fit e)))
                 (dset "comment" "Slope of linear trend" (da_attrs x)) in
  let intercept := mkDarr (da_name x ++ "_intercept") (mkArr dims (fun e => snd (fit e)))
                     (dset "comment" "Y-intercept of linear trend" (da_attrs x)) in
  (* 268-285 *)
  if ix_cf ix then
    let tu := match time_units with None => "ns" | Some u => u end in
    let units := match dget "units" (da_attrs slope) with Some u => u ++ " " | None => "" end in
    let units := units ++ " " ++ tu ++ "-1" in
    let* f := time_conversion_factor "ns" tu default_month default_year in
    (* 1.0 / factor: a positive number *)
    let factor := (1 / f)%R in
    Ok (mkDarr (da_name slope) (amap (fun v => fmul v (Fin factor)) (da_data slope)) (dset "units" units (da_attrs slope)), intercept)
  else Ok (slope, intercept).

(** ** trend.py:20-112 broadcast_trend (subtract_time_zero subtracts along "time") *)
Definition interp_index (ix : taxis1) : arr := mkArr [(ix_dim ix, ix_n ix)] (fun e => Fin (ix_val ix (e (ix_dim ix)))).

Definition broadcast_trend (slope : darr) (ix : taxis1) (subtract_time_zero : bool) : res arr :=
  let* s :=
    (if ix_cf ix then
       match dget "units" (da_attrs slope) with
       | Some u =>
         match map drop_inv (filter has_inv (split_space u)) with
         | [] => Ok (da_data slope)
         | [unit] =>
             if String.eqb unit "ns" then Ok (da_data slope)
             else let* f := time_conversion_factor unit "ns" default_month default_year in
                  Ok (amap (fun v => fmul v (Fin (1 / f)%R)) (da_data slope))
         | _ => Err ValueError
         end
       | None => Ok (da_data slope)
       end
     else Ok (da_data slope)) in
  let* _ := if strictly_increasing ix then Ok tt else Err ValueError in
  let* result := amul s (interp_index ix) in
  if subtract_time_zero
  then let* z := isel "time" 0 result in asub result z
  else Ok result.

(** ** trend.py:167-211 _detrend_array.  SIMPLIFICATION: the comment written to the
    attributes is abbreviated (it contains the printed slope and intercept). *)
Definition detrend_array (ix : taxis1) (x : darr) (order : Z) (mode : string) : res darr :=
  let* _ := assert_ (order =? 1)%Z in
  let* si := calc_linear_trend ix x None in
  let '(slope, intercept) := si in
  let* fit := broadcast_trend slope ix false in
  let* fit := (if String.eqb mode "remove" then aadd fit (da_data intercept)
               else if String.eqb mode "correct" then Ok fit
               else Err ValueError) in
  let* r := asub (da_data x) fit in
  Ok (mkDarr (da_name x) r (dset "detrend_comment" ("detrended using momlevel (mode=" ++ mode ++ ")") (da_attrs x))).

(** ** trend.py:293-357 linear_detrend *)
Inductive xobj : Type := XArray (x : darr) | XDataset (vs : dict darr) | XOther.

(** Each variable of a Dataset, taken out of it, is named by its key. *)
Definition linear_detrend (ix : taxis1) (x : xobj) (order : Z) (mode : string) : res xobj :=
  match x with
  | XArray a => let* r := detrend_array ix a order mode in Ok (XArray r)
  | XDataset vs =>
      let* out := mapM (fun kv =>
                    if dmem (ix_dim ix) (adims (da_data (snd kv)))
                    then let* r := detrend_array ix (mkDarr (fst kv) (da_data (snd kv)) (da_attrs (snd kv))) order mode in Ok (fst kv, r)
                    else Ok kv) vs in
      Ok (XDataset out)
  | XOther => Err TypeError
  end.
