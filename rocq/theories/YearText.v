(** * YearText: years written into and read from strings (Python [str], [str.zfill] and the
    start date of [xr.cftime_range]) *)
From Coq Require Import ZArith List String Ascii Bool Arith.
From Verif Require Import Py Arr Calendar TimeAvg.
Import ListNotations.
Local Open Scope string_scope.

(** [str(n)] of a Python integer. *)
Definition digit (n : Z) : string := String (ascii_of_nat (48 + Z.to_nat n)) "".
Fixpoint digits (fuel : nat) (n : Z) : string :=
  match fuel with
  | O => ""
  | S f => if (n <? 10)%Z then digit n else digits f (n / 10) ++ digit (n mod 10)
  end.
Definition str_int (n : Z) : string :=
  if (n <? 0)%Z then "-" ++ digits (S (Z.to_nat (- n))) (- n) else digits (S (Z.to_nat n)) n.

(** [s.zfill(w)]: zeros on the left, after a sign. *)
Fixpoint zeros (k : nat) : string := match k with O => "" | S k' => "0" ++ zeros k' end.
Definition zfill (w : nat) (s : string) : string :=
  let pad := zeros (w - String.length s) in
  match s with
  | String c s' => if Ascii.eqb c "-" || Ascii.eqb c "+" then String c (pad ++ s') else pad ++ s
  | EmptyString => pad
  end.

Definition is_digit (c : ascii) : bool := let n := nat_of_ascii c in Nat.leb 48 n && Nat.leb n 57.
Definition digit_val (c : ascii) : Z := Z.of_nat (nat_of_ascii c) - 48.

(** The year of the start date "YYYY-01-01" of [xr.cftime_range].  TRUSTED: xarray reads
    ISO 8601 dates with four-digit years and raises ValueError for other strings (releases since the
    end of 2024 also read years of five digits and signs). *)
Definition range_start (s : string) : res Z :=
  match s with
  | String a (String b (String c (String d rest))) =>
      if is_digit a && is_digit b && is_digit c && is_digit d && String.eqb rest "-01-01"
      then Ok (1000 * digit_val a + 100 * digit_val b + 10 * digit_val c + digit_val d)%Z
      else Err ValueError
  | _ => Err ValueError
  end.

(** util.py:93-103, 169-170, 492-493: the year with at least four digits *)
Definition padded_start (y : Z) : res Z := range_start (zfill 4 (str_int y) ++ "-01-01").

(** util.py:49-119 annual_average of a DataArray, with the labels read from strings *)
Definition annual_average_text (ax : taxis) (a : arr) (tcoord : string) : res (taxis * arr) :=
  let* c := axis_calendar ax tcoord in
  let* _ := check_years (ta_dates ax) in
  let* labels := mapM (fun y => let* y' := padded_start y in Ok (ann_midpoint c y')) (years (ta_dates ax)) in
  Ok (mkAxis "time" (Some c) labels, annual_var c (ta_dates ax) tcoord a).

(** util.py:122-196 annual_cycle of a DataArray *)
Definition annual_cycle_text (ax : taxis) (a : arr) (tcoord func : string) (time_axis_year : option Z) : res (taxis * arr) :=
  let* c := axis_calendar ax tcoord in
  let* y := padded_start (cycle_year c (ta_dates ax) time_axis_year) in
  let bounds := month_midpoints c y in
  let* f := cycle_func func in
  let r := cycle_var f (ta_dates ax) tcoord a in
  if Nat.eqb (size_of tcoord r) (List.length bounds)
  then Ok (mkAxis tcoord (Some c) bounds, r)
  else Err ValueError.

(** util.py:454-511 monthly_average of a DataArray *)
Definition monthly_average_text (ax : taxis) (a : arr) (tcoord : string) : res (taxis * arr) :=
  let* c := axis_calendar ax tcoord in
  let ds := ta_dates ax in
  let* blocks := mapM (fun y => let r := year_record ds y in
                                let* y' := padded_start y in
                                if Nat.eqb (List.length r) 12
                                then Ok (r, month_midpoints c y') else Err ValueError) (years ds) in
  let groups := flat_map fst blocks in
  Ok (mkAxis tcoord (Some c) (flat_map snd blocks),
      mkArr ((tcoord, List.length groups) :: drop_dim tcoord (adims a))
        (fun e => lmean (map (fun i => at_ a (upd e tcoord i)) (nth (e tcoord) groups [])))).
