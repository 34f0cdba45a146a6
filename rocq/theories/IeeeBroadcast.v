(** * IeeeBroadcast: units of slopes, broadcast trends and removed trends in IEEE 754 binary64 arithmetic (src/momlevel/trend.py) *)
From Coq Require Import ZArith QArith List String Bool.
From Flocq Require Import Core IEEE754.BinarySingleNaN.
From Verif Require Import Py Ieee IeeeTrend.
Local Open Scope string_scope.
Local Open Scope f64_scope.

(** trend.py:280-283, calc_linear_trend on a time axis: the slope per nanosecond becomes a slope per [unit]. *)
Definition per64 (unit : string) (slope : f64) : res f64 :=
  let* f := time_conversion_factor64 "ns" unit default_month64 default_year64 in Ok (slope * (lit 1 / f)).

(** trend.py:73-78, broadcast_trend: a slope per [unit] becomes a slope per nanosecond. *)
Definition ns_slope64 (unit : string) (slope : f64) : res f64 :=
  if String.eqb unit "ns" then Ok slope
  else let* f := time_conversion_factor64 unit "ns" default_month64 default_year64 in Ok (slope * (lit 1 / f)).

(** trend.py:99-112, broadcast_trend for one point and the times [idx] in nanoseconds.  SIMPLIFICATION: the conversion of
    dates to numbers (get_clean_interp_index) is not modelled; [idx] is arbitrary. *)
Definition broadcast64 (unit : string) (slope : f64) (idx : nat -> f64) (subtract_time_zero : bool) (k : nat) : res f64 :=
  let* s := ns_slope64 unit slope in
  if subtract_time_zero then Ok (s * idx k - s * idx 0%nat) else Ok (s * idx k).

(** trend.py:184-202, _detrend_array for one point: the fitted slope is that of calc_linear_trend in its default unit; the
    fit itself ([slope], [intercept]) is an argument. *)
Definition detrend64 (remove : bool) (slope intercept : f64) (idx x : nat -> f64) (k : nat) : res f64 :=
  let* s := per64 "ns" slope in
  let* fit := broadcast64 "ns" s idx false k in
  Ok (x k - (if remove then fit + intercept else fit)).
