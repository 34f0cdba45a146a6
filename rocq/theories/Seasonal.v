(** * Seasonal: model of src/momlevel/trend.py:360-856 (seasonal models and deseason) *)
From Coq Require Import Reals ZArith List String Bool Arith.
From Verif Require Import Num NumFacts Py Arr Calendar Trend.
Import ListNotations.
Local Open Scope string_scope.

(** ** np.linalg.pinv *)
(** [pinv n k A]: the Moore-Penrose inverse (n rows, k columns) of the matrix with rows
    [A 0], ..., [A (k-1)] of length [n], adding one row at a time (Greville).
    Trusted reading of numpy's SVD-based routine in exact arithmetic, where the cut-off for
    small singular values drops the zero ones only.  ProofsPinv.v proves the four Penrose
    equations and that they determine it. *)
Fixpoint pinv (n k : nat) (A : nat -> nat -> R) : nat -> nat -> R :=
  match k with
  | O => fun _ _ => 0%R
  | S k' =>
      let P := pinv n k' A in
      let d j := Rsum n (fun i => A k' i * P i j)%R in
      let c i := (A k' i - Rsum k' (fun j => d j * A j i))%R in
      let cc := Rsum n (fun i => c i * c i)%R in
      let dd := Rsum k' (fun j => d j * d j)%R in
      let b i := if Reqb cc 0 then (Rsum k' (fun j => P i j * d j) / (1 + dd))%R else (c i / cc)%R in
      fun i j => if Nat.ltb j k' then (P i j - b i * d j)%R else b i
  end.

(** ** The regressors: trend.py:403-410, 511-520 *)
Definition regressor (n : nat) (td : nat -> R) (k i : nat) : R :=
  match k with
  | O => 1
  | 1%nat => td i - Rsum n td / INR n
  | 2%nat => sin (2 * PI * td i)
  | 3%nat => cos (2 * PI * td i)
  | 4%nat => sin (4 * PI * td i)
  | _ => cos (4 * PI * td i)
  end%R.

(** Coefficients, fitted model and residuals of one series: 412-431, 523-532. *)
Definition coeff_of (n : nat) (td : nat -> R) (y : nat -> fval) (k : nat) : fval :=
  fsum n (fun i => fmul (y i) (Fin (pinv n 6 (regressor n td) i k))).
Definition model_of (n : nat) (td : nat -> R) (y : nat -> fval) (i : nat) : fval :=
  fsum 6 (fun k => fmul (coeff_of n td y k) (Fin (regressor n td k i))).
Definition resid_of (n : nat) (td : nat -> R) (y : nat -> fval) (i : nat) : fval :=
  fsub (y i) (model_of n td y i).

(** ** trend.py:397-401: decimal time of a date *)
(** [.dt.dayofyear] and [.dt.hour]. *)
Definition dayofyear (c : cal) (d : date) : Z := (month_start c (d_year d) (d_month d) + Int_part (d_pos d) + 1)%Z.
Definition hour (d : date) : Z := Int_part (24 * (d_pos d - IZR (Int_part (d_pos d))))%R.
Definition decimal_time (c : cal) (d : date) : R :=
  (IZR (d_year d) + (IZR (dayofyear c d - 1) + IZR (hour d) / 24) / 365)%R.

Definition date_at (ts : list date) (i : nat) : date := nth i ts (mkDate 0 1 0%R).

(** ** trend.py:360-461 seasonal_model *)
(** numpy datetimes are in the proleptic Gregorian calendar. *)
Definition axis_cal (ax : taxis) : cal := match ta_cal ax with Some c => c | None => Proleptic end.

Definition with_suffix (k suf dflt : string) (attrs : dict string) : string :=
  match dget k attrs with Some v => v ++ suf | None => dflt end.
Definition with_prefix (k pre dflt : string) (attrs : dict string) : string :=
  match dget k attrs with Some v => pre ++ v | None => dflt end.
Definition season_attrs (suf long : string) (attrs : dict string) : dict string :=
  [("standard_name", with_suffix "standard_name" ("_" ++ suf) suf attrs);
   ("long_name", with_prefix "long_name" (long ++ ", ") long attrs);
   ("units", match dget "units" attrs with Some u => u | None => "" end)].

(** Result: (model, residuals); [return_model=False] returns the second only.  The model
    arrays are built with a dimension called "time" whatever [tcoord] (414-426): a coordinate
    along another dimension raises ValueError.
    SIMPLIFICATION: [ax] is the only date coordinate of [x], one of its dimensions; every
    other dimension has an index coordinate, in the order of the dimensions. *)
Definition seasonal_model (ax : taxis) (x : darr) (tcoord : string) : res (darr * darr) :=
  let a := da_data x in
  if String.eqb (ta_name ax) tcoord then
    let* _ := if String.eqb tcoord "time" then Ok tt else Err ValueError in
    let n := List.length (ta_dates ax) in
    let td i := decimal_time (axis_cal ax) (date_at (ta_dates ax) i) in
    let y e i := at_ a (upd e "time" i) in
    let smodel := mkArr (drop_dim "time" (adims a) ++ [("time", n)])%list (fun e => model_of n td (y e) (e "time")) in
    let* r := asub a smodel in
    Ok (mkDarr "" smodel (season_attrs "smodel" "Seasonal model" (da_attrs x)),
        mkDarr "" r (season_attrs "sresid" "Seasonal residuals" (da_attrs x)))
  else if dmem tcoord (adims a) then Err AttributeError else Err KeyError.

(** ** trend.py:464-534 seasonal_cycle_model *)
(** [daysinyear]: a Python number, or an array. *)
Inductive year_days : Type := DScalar (v : R) | DArray (l : list Z).

(** The decimal time of sample [i] of [n]; dividing arrays of different lengths raises
    ValueError unless one of them has length one. *)
Definition cycle_time (n : nat) (diy : year_days) : res (nat -> R) :=
  match diy with
  | DScalar _ => Ok (fun i => INR i / 365)%R
  | DArray l =>
      let m := List.length l in
      if Nat.eqb m n then Ok (fun i => INR i / IZR (nth i l 1%Z))%R
      else if Nat.eqb m 1 then Ok (fun i => INR i / IZR (nth 0 l 1%Z))%R
      else if Nat.eqb n 1 then Err AssertionError
      else Err ValueError
  end.

(** (coefficients, residuals, model) *)
Definition seasonal_cycle_model (n : nat) (ts : nat -> fval) (diy : year_days)
  : res ((nat -> fval) * (nat -> fval) * (nat -> fval)) :=
  let* td := cycle_time n diy in
  Ok (coeff_of n td ts, resid_of n td ts, model_of n td ts).

(** ** trend.py:537-616 _detrend_deseason_chunk *)
(** [axis] is the last dimension [t].  [np.prod(())] is the float 1.0, which [reshape]
    refuses (600-601).
    SIMPLIFICATION: no dimension has size zero. *)
Definition detrend_deseason_chunk (t : string) (chunk : arr) (diy : year_days) (fmt : string) : res arr :=
  let n := size_of t chunk in
  let y e i := at_ chunk (upd e t i) in
  if String.eqb fmt "coeff" then
    let* _ := if Nat.eqb (ndim chunk) 1 then Err TypeError else Ok tt in
    let* td := cycle_time n diy in
    Ok (mkArr (drop_dim t (adims chunk) ++ [("coeff", 6%nat)])%list (fun e => coeff_of n td (y e) (e "coeff")))
  else
    let* td := cycle_time n diy in
    if String.eqb fmt "residuals" then Ok (mkArr (adims chunk) (fun e => resid_of n td (y e) (e t)))
    else if String.eqb fmt "model" then Ok (mkArr (adims chunk) (fun e => model_of n td (y e) (e t)))
    else Err ValueError.

(** ** dask blocks *)
(** Offset and size of each chunk along one dimension. *)
Fixpoint offsets (o : nat) (cs : list nat) : list (nat * nat) :=
  match cs with [] => [] | c :: cs' => (o, c) :: offsets (o + c) cs' end.
(** A block: its offset and size along every dimension. *)
Definition block := list (string * (nat * nat)).
Fixpoint blocks_of (l : list (string * list nat)) : list block :=
  match l with
  | [] => [[]]
  | (d, cs) :: l' => flat_map (fun oc => map (fun b => (d, oc) :: b) (blocks_of l')) (offsets 0 cs)
  end.
Definition offset_in (b : block) (d : string) : nat := match dget d b with Some (o, _) => o | None => 0 end.
Definition in_block (b : block) (e : index) : bool :=
  forallb (fun p => Nat.leb (fst (snd p)) (e (fst p)) && Nat.ltb (e (fst p)) (fst (snd p) + snd (snd p))) b.
Definition take_block (a : arr) (b : block) : arr :=
  mkArr (map (fun p => (fst p, snd (snd p))) b) (fun e => at_ a (fun d => (e d + offset_in b d)%nat)).

(** ** trend.py:619-680 _detrend_deseason_lazy: [map_overlap] with no overlap: the function
    runs on every block and the results are put together; with "coeff" the last dimension of
    every block is replaced by the coefficients. *)
Definition detrend_deseason_lazy (t : string) (a : arr) (chunks : list (string * list nat)) (diy : year_days) (fmt : string) : res arr :=
  let* rs := mapM (fun b => let* r := detrend_deseason_chunk t (take_block a b) diy fmt in Ok (b, r)) (blocks_of chunks) in
  let place b := if String.eqb fmt "coeff" then filter (fun p => negb (String.eqb t (fst p))) b else b in
  let dims := if String.eqb fmt "coeff" then (drop_dim t (adims a) ++ [("coeff", 6%nat)])%list else adims a in
  Ok (mkArr dims (fun e =>
        match find (fun br => in_block (place (fst br)) e) rs with
        | Some (b, r) => at_ r (fun d => (e d - offset_in (place b) d)%nat)
        | None => NaN
        end)).

(** ** trend.py:683-856 deseason *)
(** 831-851: the attributes, updated in place: [attrs] is the dictionary of the input. *)
Definition append_attr (k suf : string) (attrs : dict string) : dict string :=
  match dget k attrs with Some v => dset k (v ++ suf) attrs | None => attrs end.
Definition deseason_attrs (fmt : string) (attrs : dict string) : dict string :=
  let attrs := dpop "standard_name" attrs in
  if String.eqb fmt "residuals" then
    dset "processing" "Residuals from detrending and deseasonalizing"
      (append_attr "long_name" " residuals from detrending and deseasonalizing" attrs)
  else if String.eqb fmt "model" then
    dset "processing" "Model of linear trend and seasonal cycle"
      (append_attr "long_name" " model of linear trend and seasonal cycle" attrs)
  else dpop "units" (dset "processing" "Seasonal model polynomial coefficients"
      (append_attr "long_name" " seasonal model polynomial coefficients" attrs)).

(** 753-769: the chunks used, the time dimension in one piece.  [None]: not a dask array.
    Chunks are listed by dimension name in the order of the dimensions. *)
Definition rechunk (a : arr) (chunks : option (list (string * list nat))) (t : string) : list (string * list nat) :=
  match chunks with
  | None => map (fun p => (fst p, [snd p])) (adims a)
  | Some cs =>
      match dget t cs with
      | Some [_] => cs
      | _ => map (fun p => if String.eqb (fst p) t then (t, [size_of t a]) else p) cs
      end
  end.
(** Dimensions in the order of [core_dims]: [t] moved to the end (782-784). *)
Definition to_end {A} (t : string) (l : list (string * A)) : list (string * A) :=
  (filter (fun p => negb (String.eqb t (fst p))) l ++ filter (fun p => String.eqb t (fst p)) l)%list.

(** 771-779: the length of the year of every sample. *)
Definition days_array (c : cal) (ts : list date) : list Z := map (fun d => if leap c (d_year d) then 366%Z else 365%Z) ts.

(** 741-805: what is checked before the data are touched. *)
Definition deseason_checks (ax : taxis) (a : arr) (tdim fmt : string) : res (list Z) :=
  let* _ := assert_ (dmem tdim (adims a)) in
  (* arr.time, and [calendar] of its values *)
  let* c := (if String.eqb (ta_name ax) "time"
             then match ta_cal ax, ta_dates ax with Some c, _ => Ok c | None, [] => Ok Standard | None, _ => Err AttributeError end
             else Err AttributeError) in
  let* _ := if String.eqb fmt "residuals" || String.eqb fmt "model" || String.eqb fmt "coeff" then Ok tt else Err ValueError in
  let* _ := if String.eqb fmt "coeff" || dmem "time" (adims a) then Ok tt else Err ValueError in
  Ok (days_array c (ta_dates ax)).

(** The input's attributes afterwards, and the outcome.  An array that is not a dask array is
    computed (827-829) before the attributes are changed; the values of a dask array are
    computed when they are asked for, after that: the outcome given here is that of asking.
    SIMPLIFICATION: [ax] is the only coordinate with dates, along the dimension of its name. *)
Definition deseason (ax : taxis) (x : darr) (chunks : option (list (string * list nat))) (tdim fmt : string)
  : dict string * res darr :=
  let a := da_data x in
  let attrs' := deseason_attrs fmt (da_attrs x) in
  match deseason_checks ax a tdim fmt with
  | Err e => (da_attrs x, Err e)
  | Ok days =>
      let r := (let* r := detrend_deseason_lazy tdim (mkArr (to_end tdim (adims a)) (at_ a)) (to_end tdim (rechunk a chunks tdim)) (DArray days) fmt in
                transpose_first (if String.eqb fmt "coeff" then "coeff" else "time") r) in
      match r, chunks with
      | Ok r, _ => (attrs', Ok (mkDarr (da_name x) r attrs'))
      | Err e, None => (da_attrs x, Err e)
      | Err e, Some _ => (attrs', Err e)
      end
  end.
