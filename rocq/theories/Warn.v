(** * Warn: the warnings of broadcast_trend, linear_detrend and validate_dataset (src/momlevel/trend.py, src/momlevel/util.py)

    A list of the warnings issued, in order; the results are those of Trend and Dataset. *)
From Coq Require Import Reals ZArith List String Bool.
From Verif Require Import Num Py Arr Dataset Trend.
Import ListNotations.
Local Open Scope string_scope.

Inductive warning : Type :=
| TimeUnitsAssumed      (* trend.py:92-99 *)
| IncompatibleVariable  (* trend.py:335-338 *)
| Deprecated            (* util.py:864-869 *)
| AreaOutOfRange.       (* util.py:790 *)

(** trend.py:57-99 *)
Definition broadcast_warnings (slope : darr) (ix : taxis1) : list warning :=
  if ix_cf ix then
    match dget "units" (da_attrs slope) with
    | Some u => match map drop_inv (filter has_inv (split_space u)) with [] => [TimeUnitsAssumed] | _ => [] end
    | None => [TimeUnitsAssumed]
    end
  else [].

(** trend.py:167-211 *)
Definition detrend_array_warnings (ix : taxis1) (x : darr) (order : Z) : list warning :=
  if (order =? 1)%Z then
    match calc_linear_trend ix x None with
    | Ok (slope, _) => broadcast_warnings slope ix
    | Err _ => []
    end
  else [].

(** trend.py:331-353; the loop ends with the first error *)
Definition questionable_vars : list string := ["time_bnds"; "average_T1"; "average_T2"; "average_DT"].
Fixpoint loop_warnings (ix : taxis1) (vs : dict darr) (order : Z) (mode : string) : list warning :=
  match vs with
  | [] => []
  | (k, a) :: rest =>
      if dmem (ix_dim ix) (adims (da_data a)) then
        let x := mkDarr k (da_data a) (da_attrs a) in
        (detrend_array_warnings ix x order ++ match detrend_array ix x order mode with Ok _ => loop_warnings ix rest order mode | Err _ => [] end)%list
      else loop_warnings ix rest order mode
  end.
Definition linear_detrend_warnings (ix : taxis1) (x : xobj) (order : Z) (mode : string) : list warning :=
  match x with
  | XArray a => detrend_array_warnings ix a order
  | XDataset vs =>
      ((if existsb (fun var => smem var (dkeys vs)) questionable_vars then [IncompatibleVariable] else []) ++ loop_warnings ix vs order mode)%list
  | XOther => []
  end.

(** util.py:863-870 linear_detrend: the old name *)
Definition util_linear_detrend (ix : taxis1) (x : xobj) (order : Z) (mode : string) : list warning * res xobj :=
  (Deprecated :: linear_detrend_warnings ix x order mode, linear_detrend ix x order mode).

(** util.py:782-792 *)
Definition validate_warnings (ds : dataset) (strict : bool) : list warning :=
  match dget "areacello" ds with
  | Some a => if validate_areacello a ocean_area area_tolerance then [] else if strict then [] else [AreaOutOfRange]
  | None => []
  end.
