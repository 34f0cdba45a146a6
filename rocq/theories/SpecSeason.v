(** * SpecSeason: vocabulary of the seasonal statements *)
From Coq Require Import Reals ZArith List String Bool Arith.
From Verif Require Import Num NumFacts Py Arr Calendar SpecTime.
Import ListNotations.

(** Constant, trend, annual and semi-annual harmonics, at decimal year [t]. *)
Definition curve (g : nat -> R) (t : R) : R :=
  (g 0%nat + g 1%nat * t + g 2%nat * sin (2 * PI * t) + g 3%nat * cos (2 * PI * t)
   + g 4%nat * sin (4 * PI * t) + g 5%nat * cos (4 * PI * t))%R.

(** Sum of squared differences of a series from a curve. *)
Definition misfit (n : nat) (td : nat -> R) (y : nat -> fval) (g : nat -> R) : R :=
  Rsum n (fun i => (val (y i) - curve g (td i)) ^ 2)%R.

Definition all_finite (n : nat) (y : nat -> fval) : Prop := forall i, (i < n)%nat -> is_fin (y i) = true.

(** The residual series is orthogonal to the six functions. *)
Record uncorrelated (n : nat) (td : nat -> R) (z : nat -> fval) : Prop := {
  un_one : Rsum n (fun i => val (z i)) = 0%R;
  un_time : Rsum n (fun i => val (z i) * td i)%R = 0%R;
  un_sin1 : Rsum n (fun i => val (z i) * sin (2 * PI * td i))%R = 0%R;
  un_cos1 : Rsum n (fun i => val (z i) * cos (2 * PI * td i))%R = 0%R;
  un_sin2 : Rsum n (fun i => val (z i) * sin (4 * PI * td i))%R = 0%R;
  un_cos2 : Rsum n (fun i => val (z i) * cos (4 * PI * td i))%R = 0%R }.

(** A date at a whole hour. *)
Definition whole_hours (d : date) : Prop := exists k : nat, d_pos d = (INR k / 24)%R.

(** Chunk sizes of every dimension, in the order of the dimensions, as dask keeps them. *)
Definition chunking (a : arr) (cs : list (string * list nat)) : Prop :=
  Forall2 (fun p q => fst q = fst p /\ fold_right plus 0%nat (snd q) = snd p /\ Forall (fun c => 0 < c)%nat (snd q)) (adims a) cs.

(** [s] is the fit of [y], [z] what remains. *)
Record season_fit (n : nat) (td : nat -> R) (y s z : nat -> fval) : Prop := {
  sf_sum : forall i, (i < n)%nat -> fadd (s i) (z i) = y i;
  sf_curve : exists g, forall i, (i < n)%nat -> s i = Fin (curve g (td i));
  sf_uncorrelated : uncorrelated n td z;
  sf_best : forall g, (Rsum n (fun i => val (z i) ^ 2) <= misfit n td y g)%R;
  sf_only : forall g, (misfit n td y g <= Rsum n (fun i => val (z i) ^ 2))%R ->
            forall i, (i < n)%nat -> s i = Fin (curve g (td i)) }.

(** The series along "time" through a position. *)
Definition series (a : arr) (e : index) (i : nat) : fval := at_ a (upd e "time"%string i).

(** Time since 1 January of the year, in days. *)
Definition elapsed (c : cal) (d : date) : R := (abs_day c d - IZR (year_start c (d_year d)))%R.

(** Decimal year from the completed hours since 1 January, in years of 365 days. *)
Definition decimal_year (c : cal) (d : date) : R := (IZR (d_year d) + IZR (Int_part (24 * elapsed c d)) / 24 / 365)%R.

(** The curve with coefficients [b], its trend relative to the time [m]. *)
Definition curve_about (m : R) (b : nat -> R) (t : R) : R :=
  (b 0%nat + b 1%nat * (t - m) + b 2%nat * sin (2 * PI * t) + b 3%nat * cos (2 * PI * t)
   + b 4%nat * sin (4 * PI * t) + b 5%nat * cos (4 * PI * t))%R.

(** The same time of year. *)
Definition same_season (d d' : date) : Prop := d_month d = d_month d' /\ d_pos d = d_pos d'.
