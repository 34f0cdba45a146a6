(** * TrendAxis: which index coordinates trend.py treats as time axes *)
From Coq Require Import Reals List String Bool.
From Verif Require Import Num Py Arr Trend.

(** The pandas index behind a dimension coordinate: cftime dates, numpy datetimes (what xarray
    decodes times of the standard calendar between 1678 and 2262 to), or plain numbers. *)
Inductive index_kind : Type := CFTime | NumpyTime | Numbers.

(** trend.py:58-60 and 268-270: [time_indexes = [xr.coding.cftimeindex.CFTimeIndex]]. *)
Definition is_time_index (k : index_kind) : bool := match k with CFTime => true | _ => false end.

(** The axis of dimension [d] with [n] samples.  xarray's [get_clean_interp_index] turns both
    kinds of dates into nanoseconds since 1970: [v i] is that number, or the number itself. *)
Definition axis_of (k : index_kind) (d : string) (n : nat) (v : nat -> R) : taxis1 := mkIx d (is_time_index k) n v.
