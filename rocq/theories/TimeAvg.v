(** * TimeAvg: model of annual_average, annual_cycle and monthly_average
    (src/momlevel/util.py) *)
From Coq Require Import Reals ZArith List String Bool Arith.
From Verif Require Import Num Py Arr Calendar Derived Dataset.
Import ListNotations.
Local Open Scope string_scope.

(** Group keys: the distinct values, ascending ([groupby] sorts and removes repeats). *)
Fixpoint zinsert (x : Z) (l : list Z) : list Z :=
  match l with
  | [] => [x]
  | y :: l' => if (x <? y)%Z then x :: l else if (x =? y)%Z then l else y :: zinsert x l'
  end.
Definition zgroups (l : list Z) : list Z := fold_right zinsert [] l.

Definition nth_date (ds : list date) (i : nat) : date := nth i ds (mkDate 0 1 0).

(** Positions of the samples of one year / of one month among given positions. *)
Definition positions (ds : list date) : list nat := seq 0 (List.length ds).
Definition of_year (ds : list date) (y : Z) : list nat :=
  filter (fun i => (d_year (nth_date ds i) =? y)%Z) (positions ds).
Definition of_month (ds : list date) (m : nat) (ps : list nat) : list nat :=
  filter (fun i => Nat.eqb (d_month (nth_date ds i)) m) ps.
Definition years (ds : list date) : list Z :=
  zgroups (map (fun i => d_year (nth_date ds i)) (positions ds)).
Definition months (ds : list date) (ps : list nat) : list nat :=
  map Z.to_nat (zgroups (map (fun i => Z.of_nat (d_month (nth_date ds i))) ps)).

(** Reductions that skip missing values. *)
Definition lsum (l : list fval) : fval := fold_right fadd (Fin 0) l.
Definition valid (l : list fval) : list fval := filter notnull l.
Definition lmean (l : list fval) : fval :=
  fdiv (lsum (map nan0 l)) (Fin (INR (List.length (valid l)))).
Definition lbest (better : fval -> fval -> bool) (l : list fval) : fval :=
  match valid l with
  | [] => NaN
  | x :: xs => fold_left (fun acc v => if better v acc then v else acc) xs x
  end.
Definition lmin (l : list fval) : fval := lbest fltb l.
Definition lmax (l : list fval) : fval := lbest (fun v acc => fltb acc v) l.
Definition lstd (l : list fval) : fval :=
  let m := lmean l in
  fsqrt (lmean (map (fun v => fmul (fsub v m) (fsub v m)) l)).

(** [obj.weighted(w).mean(d)] (xarray/core/weighted.py): sum of w * x.fillna(0) over the
    sum of the weights of the valid points, NaN when that is zero. *)
Definition wmean (l : list (R * fval)) : fval :=
  let sw := lsum (map (fun p => fmul (Fin (fst p)) (fbool (notnull (snd p)))) l) in
  let ws := lsum (map (fun p => fmul (Fin (fst p)) (nan0 (snd p))) l) in
  if feqb sw (Fin 0) then NaN else fdiv ws sw.

(** Head of all three functions: [xobj[tcoord].values[0].calendar]. *)
Definition axis_calendar (ax : taxis) (tcoord : string) : res cal :=
  if String.eqb (ta_name ax) tcoord
  then match ta_dates ax with
       | [] => Err IndexError
       | _ => match ta_cal ax with Some c => Ok c | None => Err AttributeError end
       end
  else Err KeyError.

(** A variable of a Dataset: whether its dtype is numeric, and its data. *)
Definition tvars := dict (bool * arr).

(** util.py:70-79, 149-158, 474-483: the variables that are averaged.
    SIMPLIFICATION: Python iterates over a set, so the order of the variables in the
    result is unspecified; the model keeps the dataset's order. *)
Definition numeric_vars (vs : tvars) : dict arr :=
  map (fun p => (fst p, snd (snd p))) (filter (fun p => fst (snd p)) vs).

(** [_xobj.groupby(f"{tcoord}.year")] needs the coordinate on some variable. *)
Definition groupable (tcoord : string) (vs : dict arr) : bool :=
  existsb (fun p => has_dim tcoord (snd p)) vs.

(** ** annual_average (util.py:49-119) *)
Definition days_weight (c : cal) (d : date) : R := IZR (days_in_month c (d_year d) (d_month d)).

(** 86-91: one variable.  A Dataset variable without the time dimension is averaged
    against the weights as well, and gains a time dimension in [xr.concat]. *)
Definition annual_var (c : cal) (ds : list date) (tcoord : string) (a : arr) : arr :=
  mkArr (("time", List.length (years ds)) :: drop_dim tcoord (adims a))
    (fun e => wmean (map (fun i => (days_weight c (nth_date ds i), at_ a (upd e tcoord i)))
                         (of_year ds (nth (e "time") (years ds) 0%Z)))).

(** 84-85 *)
Definition check_years (ds : list date) : res unit :=
  assert_ (forallb (fun y => Nat.eqb (List.length (of_year ds y)) 12) (years ds)).

(** 93-105 *)
Definition ann_midpoint (c : cal) (y : Z) : date :=
  midpoint c (nth_date (range_YS y 2) 0) (nth_date (range_YS y 2) 1).
Definition annual_axis (c : cal) (ds : list date) : taxis :=
  mkAxis "time" (Some c) (map (ann_midpoint c) (years ds)).

(** DataArray argument: its dimension [tcoord] carries the axis. *)
Definition annual_average_da (ax : taxis) (a : arr) (tcoord : string) : res (taxis * arr) :=
  let* c := axis_calendar ax tcoord in
  let* _ := check_years (ta_dates ax) in
  Ok (annual_axis c (ta_dates ax), annual_var c (ta_dates ax) tcoord a).

(** Dataset argument.  SIMPLIFICATION: attributes are not modelled. *)
Definition annual_average_ds (ax : taxis) (vs : tvars) (tcoord : string) : res (taxis * dict arr) :=
  let* c := axis_calendar ax tcoord in
  let vs := numeric_vars vs in
  if groupable tcoord vs then
    let* _ := check_years (ta_dates ax) in
    Ok (annual_axis c (ta_dates ax),
        map (fun p => (fst p, annual_var c (ta_dates ax) tcoord (snd p))) vs)
  else Err KeyError.

(** ** annual_cycle (util.py:122-196) *)
(** 169-178, 492-502: midpoints of the twelve months *)
Definition month_midpoints (c : cal) (y : Z) : list date :=
  let b := range_MS y 13 in
  map (fun x => midpoint c (nth_date b x) (nth_date b (x + 1))) (seq 0 12).

(** 182-191 *)
Definition cycle_func (func : string) : res (list fval -> fval) :=
  if String.eqb func "mean" then Ok lmean
  else if String.eqb func "min" then Ok lmin
  else if String.eqb func "max" then Ok lmax
  else if String.eqb func "std" then Ok lstd
  else Err ValueError.

(** 160-167.  SIMPLIFICATION: the first time is not after the last. *)
Definition cycle_year (c : cal) (ds : list date) (time_axis_year : option Z) : Z :=
  match time_axis_year with
  | Some y => y
  | None => d_year (midpoint c (nth_date ds 0) (nth_date ds (List.length ds - 1)))
  end.

Definition cycle_var (f : list fval -> fval) (ds : list date) (tcoord : string) (a : arr) : arr :=
  let ms := months ds (positions ds) in
  mkArr ((tcoord, List.length ms) :: drop_dim tcoord (adims a))
    (fun e => f (map (fun i => at_ a (upd e tcoord i)) (of_month ds (nth (e tcoord) ms O) (positions ds)))).

(** DataArray argument.  SIMPLIFICATION: the group dimension comes first (xarray puts it
    at the position of the reduced dimension). *)
Definition annual_cycle_da (ax : taxis) (a : arr) (tcoord func : string) (time_axis_year : option Z)
  : res (taxis * arr) :=
  let* c := axis_calendar ax tcoord in
  let bounds := month_midpoints c (cycle_year c (ta_dates ax) time_axis_year) in
  let* f := cycle_func func in
  let r := cycle_var f (ta_dates ax) tcoord a in
  (* 194: assign_coords needs as many labels as months *)
  if Nat.eqb (size_of tcoord r) (List.length bounds)
  then Ok (mkAxis tcoord (Some c) bounds, r)
  else Err ValueError.

(** Dataset argument.  The order of the checks: 180 groupby, 182-191 func, 194 assign_coords.
    SIMPLIFICATION: attributes are not modelled. *)
Definition annual_cycle_ds (ax : taxis) (vs : tvars) (tcoord func : string) (time_axis_year : option Z)
  : res (taxis * dict arr) :=
  let* c := axis_calendar ax tcoord in
  let vs := numeric_vars vs in
  let bounds := month_midpoints c (cycle_year c (ta_dates ax) time_axis_year) in
  if groupable tcoord vs then
    let* f := cycle_func func in
    if Nat.eqb (List.length (months (ta_dates ax) (positions (ta_dates ax)))) (List.length bounds)
    then Ok (mkAxis tcoord (Some c) bounds, map (fun p => (fst p, cycle_var f (ta_dates ax) tcoord (snd p))) vs)
    else Err ValueError
  else Err KeyError.

(** ** monthly_average (util.py:454-511) *)
(** 489-506: one year: the months present, each with the samples averaged *)
Definition year_record (ds : list date) (y : Z) : list (list nat) :=
  let ps := of_year ds y in map (fun m => of_month ds m ps) (months ds ps).

Definition monthly_average_da (ax : taxis) (a : arr) (tcoord : string) : res (taxis * arr) :=
  let* c := axis_calendar ax tcoord in
  let ds := ta_dates ax in
  let* blocks := mapM (fun y => let r := year_record ds y in
                                if Nat.eqb (List.length r) 12
                                then Ok (r, month_midpoints c y) else Err ValueError) (years ds) in
  let groups := flat_map fst blocks in
  Ok (mkAxis tcoord (Some c) (flat_map snd blocks),
      mkArr ((tcoord, List.length groups) :: drop_dim tcoord (adims a))
        (fun e => lmean (map (fun i => at_ a (upd e tcoord i)) (nth (e tcoord) groups [])))).

(** Dataset argument.  SIMPLIFICATION: attributes are not modelled. *)
Definition monthly_average_ds (ax : taxis) (vs : tvars) (tcoord : string) : res (taxis * dict arr) :=
  let* c := axis_calendar ax tcoord in
  let vs := numeric_vars vs in
  let ds := ta_dates ax in
  if groupable tcoord vs then
    let* blocks := mapM (fun y => let r := year_record ds y in
                                  if Nat.eqb (List.length r) 12
                                  then Ok (r, month_midpoints c y) else Err ValueError) (years ds) in
    let groups := flat_map fst blocks in
    Ok (mkAxis tcoord (Some c) (flat_map snd blocks),
        map (fun p => (fst p, mkArr ((tcoord, List.length groups) :: drop_dim tcoord (adims (snd p)))
                                (fun e => lmean (map (fun i => at_ (snd p) (upd e tcoord i)) (nth (e tcoord) groups []))))) vs)
  else Err KeyError.

(** ** steric(annual=True) (steric.py:181-182) *)
(** [ax] is the time coordinate of the result, i.e. of the dataset.  The call is
    [annual_average(result)], with the default [tcoord]. *)
Definition steric_annual (ax : taxis) (dset : dataset) (reference : option dataset)
           (coord_names varname_map : option (dict string)) (rhozero : R) (patm : arr)
           (eos variant domain : string) (strict : bool) : res (taxis * dict arr * dataset) :=
  let* r := steric dset reference coord_names varname_map rhozero patm eos variant domain strict in
  let* out := annual_average_ds ax (map (fun p => (fst p, (true, snd p))) (fst r)) "time" in
  Ok (out, snd r).
