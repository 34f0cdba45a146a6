(** * Calendar: cftime calendars, dates and [xr.cftime_range] as used by
    src/momlevel/util.py and src/momlevel/test_data/time.py *)
From Coq Require Import Reals ZArith List String Bool Arith.
From Verif Require Import Num.
Import ListNotations.
Local Open Scope Z_scope.

(** The cftime calendars ("gregorian" is the same calendar as "standard", "365_day" as
    "noleap", "366_day" as "all_leap"). *)
Inductive cal : Type := NoLeap | AllLeap | Day360 | Julian | Proleptic | Standard.

Definition julian_leap (y : Z) : bool := y mod 4 =? 0.
Definition gregorian_leap (y : Z) : bool :=
  (y mod 4 =? 0) && (negb (y mod 100 =? 0) || (y mod 400 =? 0)).

Definition leap (c : cal) (y : Z) : bool :=
  match c with
  | NoLeap | Day360 => false
  | AllLeap => true
  | Julian => julian_leap y
  | Proleptic => gregorian_leap y
  | Standard => if y <? 1583 then julian_leap y else gregorian_leap y
  end.

(** [date.daysinmonth] (what [.dt.days_in_month] reads); months are 1..12 *)
Definition days_in_month (c : cal) (y : Z) (m : nat) : Z :=
  match c with
  | Day360 => 30
  | _ => match m with
         | 2%nat => if leap c y then 29 else 28
         | 4%nat | 6%nat | 9%nat | 11%nat => 30
         | _ => 31
         end
  end.

(** Day number of 1 January of year [y].
    SIMPLIFICATION: a year zero exists in every calendar.  The ten days skipped in
    October 1582 of the mixed calendar appear in the day numbers of the years after
    1582 only, so year 1582 itself is not modelled. *)
Definition year_start (c : cal) (y : Z) : Z :=
  match c with
  | NoLeap => 365 * y
  | AllLeap => 366 * y
  | Day360 => 360 * y
  | Julian => 365 * (y - 1) + (y - 1) / 4 - 1
  | Proleptic => 365 * (y - 1) + (y - 1) / 4 - (y - 1) / 100 + (y - 1) / 400 + 1
  | Standard => if y <? 1583 then 365 * (y - 1) + (y - 1) / 4 - 1
                else 365 * (y - 1) + (y - 1) / 4 - (y - 1) / 100 + (y - 1) / 400 + 1
  end.

(** Days of year [y] before month [m]. *)
Definition month_start (c : cal) (y : Z) (m : nat) : Z :=
  fold_right Z.add 0 (map (days_in_month c y) (seq 1 (m - 1))).

(** A cftime datetime: year, month 1..12, and the time in days since the start of the
    month (day - 1 plus the fraction of the day).
    SIMPLIFICATION: exact instead of microsecond resolution. *)
Record date : Type := mkDate { d_year : Z; d_month : nat; d_pos : R }.

(** Time in days on the calendar's axis; [a - b] of two dates is the difference. *)
Definition abs_day (c : cal) (d : date) : R :=
  (IZR (year_start c (d_year d) + month_start c (d_year d) (d_month d)) + d_pos d)%R.
Definition dsub (c : cal) (a b : date) : R := (abs_day c a - abs_day c b)%R.

(** [date + timedelta] for a non-negative timedelta: cftime's add_timedelta walks from
    month to month.  Every whole month passed uses up at least 28 days, so the number of
    steps below is never reached. *)
Fixpoint add_loop (fuel : nat) (c : cal) (d : date) (delta : R) : date :=
  let len := IZR (days_in_month c (d_year d) (d_month d)) in
  if Rltb (d_pos d + delta)%R len
  then mkDate (d_year d) (d_month d) (d_pos d + delta)%R
  else match fuel with
       | O => d
       | S fuel' =>
           let next := if Nat.ltb (d_month d) 12
                       then mkDate (d_year d) (S (d_month d)) 0%R
                       else mkDate (d_year d + 1) 1 0%R in
           add_loop fuel' c next (delta - (len - d_pos d))%R
       end.
Definition add_days (c : cal) (d : date) (delta : R) : date :=
  add_loop (S (Z.to_nat (up delta))) c d delta.

(** [a + (b - a) / 2] *)
Definition midpoint (c : cal) (a b : date) : date := add_days c a (dsub c b a / 2)%R.

(** First day of month number [k] counted from January of year [y]. *)
Definition month_at (y : Z) (k : nat) : date :=
  mkDate (y + Z.of_nat (k / 12)) (S (k mod 12)) 0%R.

(** [xr.cftime_range(f"{y}-01-01", freq=..., periods=n)] for "YS", "MS" and "D".
    SIMPLIFICATION: here the year is a number; YearText.v models writing it into the string and
    reading it back. *)
Definition range_YS (y : Z) (n : nat) : list date :=
  map (fun k => mkDate (y + Z.of_nat k) 1 0%R) (seq 0 n).
Definition range_MS (y : Z) (n : nat) : list date := map (month_at y) (seq 0 n).
Definition range_D (c : cal) (y : Z) (n : nat) : list date :=
  map (fun k => add_days c (mkDate y 1 0%R) (INR k)) (seq 0 n).

(** A time coordinate: its name, its calendar ([None]: numpy datetimes, which have no
    [calendar] attribute) and its values. *)
Record taxis : Type := mkAxis { ta_name : String.string; ta_cal : option cal; ta_dates : list date }.
