(** * PropertiesSeason2: C67, C70, C82 - C84 and examples *)
From Coq Require Import Reals ZArith List String Ascii Bool Arith Lia Lra.
From Verif Require Import Num NumFacts Py Arr ArrFacts Calendar Trend SpecTime ProofsCal ProofsUtil ProofsTide Seasonal SpecSeason
  ProofsPinv ProofsSeason ProofsSeason2 ProofsSeason3 ProofsSeason4 ProofsSeason5 PropertiesSeason.
Import ListNotations.
Local Open Scope string_scope.
Local Open Scope R_scope.
#[local] Opaque pinv.

(** ** C67 *)
Definition noon_dec31_2000 := mkDate 2000 12 (30 + / 2).
Definition jan1_2001 := mkDate 2001 1 0.
(** Half a day before the end of a leap year comes after the start of the next. *)
Theorem C67_dates_refuted : valid_date Standard noon_dec31_2000 /\ valid_date Standard jan1_2001 /\
  abs_day Standard noon_dec31_2000 < abs_day Standard jan1_2001 /\
  decimal_time Standard jan1_2001 < decimal_time Standard noon_dec31_2000.
Proof.
  assert (E1 : abs_day Standard noon_dec31_2000 = IZR (year_start Standard 2000 + 335) + (30 + / 2)) by reflexivity.
  assert (E2 : abs_day Standard jan1_2001 = IZR (year_start Standard 2001 + 0) + 0) by reflexivity.
  assert (Y : (year_start Standard 2001 = year_start Standard 2000 + 366)%Z) by reflexivity.
  rewrite E1, E2, Y. split; [split; cbn; [lia|lra]|]. split; [split; cbn; [lia|lra]|]. split; [rewrite !plus_IZR; lra|].
  rewrite !decimal_elapsed.
  - unfold elapsed. rewrite E1, E2. cbn [d_year noon_dec31_2000 jan1_2001]. rewrite Y, !plus_IZR. lra.
  - exists (732%nat). cbn [d_pos noon_dec31_2000]. replace (INR 732) with 732 by (rewrite INR_IZR_INZ; reflexivity). lra.
  - exists 0%nat. cbn. lra.
Qed.
Print Assumptions C67_dates_refuted.

(** Otherwise the order is kept: two dates at whole hours of one year, or the first not on the
    366th day of its year. *)
Theorem C67_dates_partial : forall c d d', valid_date c d -> valid_date c d' -> regular c (d_year d') -> whole_hours d -> whole_hours d' ->
  abs_day c d < abs_day c d' -> d_year d = d_year d' \/ elapsed c d < 365 ->
  decimal_time c d < decimal_time c d'.
Proof. intros. apply decimal_lt; assumption. Qed.
Print Assumptions C67_dates_partial.

(** In the calendars without leap years nothing else is needed. *)
Theorem C67_no_leap_partial : forall c d d', c = NoLeap \/ c = Day360 -> valid_date c d -> valid_date c d' -> whole_hours d -> whole_hours d' ->
  abs_day c d < abs_day c d' -> decimal_time c d < decimal_time c d'.
Proof.
  intros c d d' Hc V V' W W' L. apply decimal_lt; try assumption.
  - destruct Hc as [-> | ->]; intros; discriminate.
  - right. pose proof (elapsed_bounds c d V) as [_ B]. rewrite month_start_13 in B. destruct Hc as [-> | ->]; cbn [leap] in B; lra.
Qed.
Print Assumptions C67_no_leap_partial.

(** Leap day 2000 at noon comes before 1 March, and noon on 31 December 2001 before New Year without leap years. *)
Example C67_case : decimal_time Standard (mkDate 2000 2 (28 + / 2)) < decimal_time Standard (mkDate 2000 3 0) /\
  decimal_time NoLeap (mkDate 2001 12 (30 + / 2)) < decimal_time NoLeap (mkDate 2002 1 0).
Proof.
  assert (N : forall y m k, whole_hours (mkDate y m (INR k + / 2))) by (intros y m k; exists (24 * k + 12)%nat; cbn [d_pos]; rewrite plus_INR, mult_INR; cbn; lra).
  assert (M : forall y m, whole_hours (mkDate y m 0)) by (intros y m; exists 0%nat; cbn; lra).
  split.
  - apply C67_dates_partial; cbn [d_year].
    + unfold valid_date. cbn. split; [lia|lra].
    + unfold valid_date. cbn. split; [lia|lra].
    + intros _; discriminate.
    + replace 28 with (INR 28) by (cbn; lra). apply N.
    + apply M.
    + unfold abs_day. vm_compute year_start. vm_compute month_start. cbn. lra.
    + left; reflexivity.
  - apply C67_no_leap_partial.
    + left; reflexivity.
    + unfold valid_date. cbn. split; [lia|lra].
    + unfold valid_date. cbn. split; [lia|lra].
    + replace 30 with (INR 30) by (cbn; lra). apply N.
    + apply M.
    + unfold abs_day. vm_compute year_start. vm_compute month_start. cbn. lra.
Qed.

(** Daily samples from 1 January 2002: the sample of 1 January 2004 comes before that of
    31 December 2003. *)
Theorem C67_samples_refuted : forall n, (731 <= n)%nat ->
  let ax := mkAxis "time" (Some Standard) (range_D Standard 2002 n) in
  exists td, cycle_time n (DArray (days_array Standard (ta_dates ax))) = Ok td /\ td 730%nat < td 729%nat.
Proof.
  intros n Hn ax. exists (deseason_td Standard ax). split.
  - unfold cycle_time. unfold days_array at 1. rewrite map_length. cbn [ta_dates ax]. rewrite range_D_length, Nat.eqb_refl. reflexivity.
  - assert (R : forall y', (2002 <= y' <= 2004)%Z -> regular Standard y') by (intros y' Hy' _; lia).
    rewrite !deseason_td_spec by (cbn [ta_dates ax]; rewrite range_D_length; lia). unfold year_length, time_of. cbn [ta_dates ax].
    rewrite (daily_year Standard 2002 n 729 2003), (daily_year Standard 2002 n 730 2004).
    + change (leap Standard 2003) with false. change (leap Standard 2004) with true. lazy iota. rewrite !INR_IZR_INZ.
      change (Z.of_nat 730) with 730%Z. change (Z.of_nat 729) with 729%Z. lra.
    + lia. + lia. + exact R. + vm_compute. split; congruence.
    + lia. + lia. + intros; apply R; lia. + vm_compute. split; congruence.
Qed.
Print Assumptions C67_samples_refuted.

(** From one sample to the next it increases exactly if the first position times the length of
    the second year is less than the second position times the length of the first; in
    particular as long as the years have the same length. *)
Theorem C67_samples_partial : forall ts c i, (i + 1 < List.length ts)%nat ->
  let len j := if leap c (d_year (time_of ts j)) then 366 else 365 in
  exists td, cycle_time (List.length ts) (DArray (days_array c ts)) = Ok td /\
    (td i < td (i + 1)%nat <-> INR i * len (i + 1)%nat < INR (i + 1) * len i) /\
    (len i = len (i + 1)%nat -> td i < td (i + 1)%nat).
Proof.
  intros ts c i Hi len. exists (deseason_td c (mkAxis "time" (Some c) ts)). split.
  - unfold cycle_time. unfold days_array at 1. rewrite map_length, Nat.eqb_refl. reflexivity.
  - rewrite !deseason_td_spec by (cbn [ta_dates]; lia). cbn [ta_dates].
    pose proof (step_lt i (year_length c (time_of ts i)) (year_length c (time_of ts (i + 1))) (year_length_pos _ _) (year_length_pos _ _)) as S.
    split; [exact S|]. intros E. apply S. change (len i) with (year_length c (time_of ts i)) in E. change (len (i + 1)%nat) with (year_length c (time_of ts (i + 1))) in E.
    rewrite <- E. rewrite plus_INR. cbn [INR]. pose proof (year_length_pos c (time_of ts i)). nra.
Qed.
Print Assumptions C67_samples_partial.

Example C67_samples_case : let ts := [mkDate 2000 1 0; mkDate 2000 1 1; mkDate 2000 1 2] in
  exists td, cycle_time 3 (DArray (days_array Standard ts)) = Ok td /\ td 1%nat < td 2%nat.
Proof.
  intros ts. destruct (C67_samples_partial ts Standard 1) as (td & E & _ & H); [cbn; lia|].
  exists td. split; [exact E|]. apply H. reflexivity.
Qed.

(** ** C70 *)
(** The attributes of the input after the call. *)
Theorem C70_changes_partial : forall ax c x ch fmt, deseasonable ax c x ch ->
  let after := fst (deseason ax x ch "time" fmt) in
  (~ In fmt ["residuals"; "model"; "coeff"] -> after = da_attrs x) /\
  (fmt = "residuals" \/ fmt = "model" \/ (fmt = "coeff" /\ ndim (da_data x) <> 1%nat) ->
     (exists r, snd (deseason ax x ch "time" fmt) = Ok r /\ da_attrs r = after) /\
     dget "standard_name" after = None /\
     (exists p, dget "processing" after = Some p) /\
     (exists suf, dget "long_name" after = option_map (fun v => v ++ suf) (dget "long_name" (da_attrs x)) /\ suf <> "") /\
     dget "units" after = (if String.eqb fmt "coeff" then None else dget "units" (da_attrs x)) /\
     forall k, ~ In k ["standard_name"; "processing"; "long_name"; "units"] -> dget k after = dget k (da_attrs x)).
Proof.
  intros ax c x ch fmt H after. split.
  - intros N. unfold after. rewrite (deseason_unknown ax c x ch H); [reflexivity|intros ->; apply N; cbn [In]; tauto..].
  - intros Hf. assert (A : after = deseason_attrs fmt (da_attrs x) /\ exists r, snd (deseason ax x ch "time" fmt) = Ok r /\ da_attrs r = deseason_attrs fmt (da_attrs x)).
    { unfold after. destruct Hf as [-> |[-> |[-> N]]].
      - destruct (deseason_plain ax c x ch H "residuals" (or_introl eq_refl)) as (r & E & _). rewrite E. split; [reflexivity|]. eexists. split; reflexivity.
      - destruct (deseason_plain ax c x ch H "model" (or_intror eq_refl)) as (r & E & _). rewrite E. split; [reflexivity|]. eexists. split; reflexivity.
      - destruct (deseason_coeff ax c x ch H N) as (r & E & _). rewrite E. split; [reflexivity|]. eexists. split; reflexivity. }
    destruct A as (A & r & E & Ea). split; [exists r; rewrite A; auto|]. rewrite A. clear after A E Ea r.
    set (d := da_attrs x). clearbody d. clear H.
    assert (F3 : fmt = "residuals" \/ fmt = "model" \/ fmt = "coeff") by tauto. clear Hf.
    unfold deseason_attrs.
    destruct F3 as [-> |[-> | ->]]; cbn [String.eqb Ascii.eqb Bool.eqb];
      (split; [repeat first [rewrite dget_dpop_other by discriminate | rewrite dget_dset_other by discriminate | rewrite dget_append | rewrite dget_dpop_same]; reflexivity|]);
      (split; [eexists; repeat rewrite dget_dpop_other by discriminate; apply dget_dset_same|]);
      (split; [eexists; split; [repeat first [rewrite dget_dpop_other by discriminate | rewrite dget_dset_other by discriminate]; rewrite dget_append, dget_dpop_other by discriminate; reflexivity|discriminate]|]);
      (split; [repeat first [rewrite dget_dpop_same | rewrite dget_dpop_other by discriminate | rewrite dget_dset_other by discriminate | rewrite dget_append]; reflexivity|]);
      intros k Hk; cbn [In] in Hk;
      assert (K1 : "standard_name" <> k) by tauto; assert (K2 : "processing" <> k) by tauto; assert (K3 : "long_name" <> k) by tauto; assert (K4 : "units" <> k) by tauto;
      repeat first [rewrite dget_dpop_other by assumption | rewrite dget_dset_other by assumption | rewrite dget_append];
      apply String.eqb_neq in K3; rewrite K3; reflexivity.
Qed.
Print Assumptions C70_changes_partial.

(** An array of two dimensions and a series, ten daily samples. *)
Definition demo_axis := mkAxis "time" (Some NoLeap) (range_D NoLeap 2001 10).
Definition demo_attrs : dict string := [("standard_name", "zos"); ("long_name", "Sea level"); ("units", "m")].
Definition demo_2d := mkDarr "zos" (mkArr [("time", 10); ("x", 3)]%nat (fun e => Fin (INR (e "time") * INR (e "x")))) demo_attrs.
Definition demo_1d := mkDarr "zos" (mkArr [("time", 10)]%nat (fun e => Fin (INR (e "time")))) demo_attrs.

Example demo_2d_ok : deseasonable demo_axis NoLeap demo_2d (Some [("time", [4; 6]); ("x", [2; 1])]%nat) /\ deseasonable demo_axis NoLeap demo_2d None.
Proof.
  assert (L : List.length (ta_dates demo_axis) = 10%nat) by (cbn [ta_dates demo_axis]; apply range_D_length).
  assert (W : wf_arr (da_data demo_2d)).
  { split; [repeat constructor; cbn; intuition discriminate|]. intros e e' H. cbn. rewrite (H "time"), (H "x") by (cbn; tauto). reflexivity. }
  split; (split; [exact W|reflexivity|reflexivity|rewrite L; left; reflexivity|rewrite L; lia| |cbn; intuition discriminate]).
  - repeat constructor.
  - exact I.
Qed.
Example demo_1d_ok : deseasonable demo_axis NoLeap demo_1d None /\ deseasonable demo_axis NoLeap demo_1d (Some [("time", [3; 7])]%nat).
Proof.
  assert (L : List.length (ta_dates demo_axis) = 10%nat) by (cbn [ta_dates demo_axis]; apply range_D_length).
  assert (W : wf_arr (da_data demo_1d)).
  { split; [repeat constructor; cbn; intuition discriminate|]. intros e e' H. cbn. rewrite (H "time") by (cbn; tauto). reflexivity. }
  split; (split; [exact W|reflexivity|reflexivity|rewrite L; left; reflexivity|rewrite L; lia| |cbn; intuition discriminate]).
  - exact I.
  - repeat constructor.
Qed.
Example C69_demo : snd (deseason demo_axis demo_1d None "time" "coeff") = Err TypeError.
Proof. apply (C69_coeff_refuted _ NoLeap); [apply demo_1d_ok|reflexivity]. Qed.
(** The fit of the product of time and position: residuals zero (it is a trend). *)
Example C70_case : let after := fst (deseason demo_axis demo_2d None "time" "residuals") in
  dget "standard_name" after = None /\ dget "units" after = Some "m" /\ exists p, dget "processing" after = Some p.
Proof.
  destruct (C70_changes_partial _ _ _ _ "residuals" (proj2 demo_2d_ok)) as [_ H].
  destruct H as (_ & H1 & H2 & _ & H3 & _); [left; reflexivity|]. cbv zeta. split; [exact H1|]. split; [exact H3|exact H2].
Qed.

(** C66 on ten days of a linear rise: the fit is the series itself. *)
Example C66_case : exists s r, seasonal_model demo_axis (mkDarr "zos" (mkArr [("time", 10)]%nat
    (fun e => Fin (decimal_year NoLeap (time_of (range_D NoLeap 2001 10) (e "time"))))) []) "time" = Ok (s, r) /\
  forall i, (i < 10)%nat -> series (da_data r) (fun _ => 0%nat) i = Fin 0.
Proof.
  set (x := mkDarr _ _ _).
  assert (W : wf_arr (da_data x)).
  { split; [repeat constructor; cbn; tauto|]. intros e e' H. cbn. rewrite (H "time") by (cbn; tauto). reflexivity. }
  destruct (C66_exact demo_axis x eq_refl W (or_introl eq_refl) (fun _ => 0%nat) (fun k => if Nat.eqb k 1 then 1 else 0)) as (s & r & E & H).
  { intros i _. unfold series. cbn [da_data x at_]. rewrite upd_same. unfold curve. cbn [Nat.eqb]. f_equal.
    change (match ta_cal demo_axis with Some c => c | None => Proleptic end) with NoLeap. change (ta_dates demo_axis) with (range_D NoLeap 2001 10). lra. }
  exists s, r. split; [exact E|]. intros i Hi. exact (proj1 (H i Hi)).
Qed.

Example C68_demo : exists r, snd (deseason demo_axis demo_2d (Some [("time", [4; 6]); ("x", [2; 1])]%nat) "time" "residuals") = Ok r /\
  forall e, inrange (adims (da_data demo_2d)) e -> series (da_data r) e 7 = Fin 0.
Proof.
  destruct (C68_each_series _ _ _ _ (proj1 demo_2d_ok)) as (s & r & _ & E & _ & _ & V). exists r. split; [exact E|]. intros e R.
  destruct (V e R) as [F _]. assert (L : List.length (ta_dates demo_axis) = 10%nat) by (cbn [ta_dates demo_axis]; apply range_D_length). rewrite L in F.
  destruct F as [S _ _ _ O]; [intros i Hi; reflexivity|].
  set (k := INR (e "x")).
  assert (T : forall i, (i < 10)%nat -> series (da_data demo_2d) e i = Fin (curve (fun j => if Nat.eqb j 1 then 365 * k else 0) (INR i / 365))).
  { intros i Hi. unfold series, curve. cbn [da_data demo_2d at_ Nat.eqb]. rewrite upd_same, upd_other by discriminate. fold k. f_equal. field. }
  set (td := fun i : nat => INR i / IZR (if leap NoLeap (d_year (time_of (ta_dates demo_axis) i)) then 366 else 365)) in *.
  assert (Td : forall i, td i = INR i / 365) by (intros i; reflexivity).
  specialize (O (fun j => if Nat.eqb j 1 then 365 * k else 0)).
  assert (M0 : misfit 10 td (series (da_data demo_2d) e) (fun j => if Nat.eqb j 1 then 365 * k else 0) = 0).
  { unfold misfit. transitivity (Rsum 10 (fun _ => 0)); [|cbn; ring]. apply Rs_ext. intros i Hi. rewrite T by exact Hi. rewrite Td. cbn [val]. ring. }
  assert (O7 : series (da_data s) e 7 = Fin (curve (fun j => if Nat.eqb j 1 then 365 * k else 0) (INR 7 / 365))).
  { refine (O _ 7%nat ltac:(lia)). refine (Rle_trans _ 0 _ (Req_le _ _ M0) _). apply Rsum_nonneg. intros; nra. }
  specialize (S 7%nat ltac:(lia)). rewrite O7, (T 7%nat ltac:(lia)) in S. destruct (series (da_data r) e 7) as [|b|v]; cbn in S; [discriminate|destruct b; discriminate|]. injection S as S. f_equal. lra.
Qed.

(** The input loses its standard name; after a second call its long name has grown again. *)
Theorem C70_refuted : exists ax x c, deseasonable ax c x None /\
  let once := fst (deseason ax x None "time" "residuals") in
  let twice := fst (deseason ax (mkDarr (da_name x) (da_data x) once) None "time" "residuals") in
  once <> da_attrs x /\ twice <> once.
Proof.
  exists demo_axis, demo_2d, NoLeap. split; [apply demo_2d_ok|]. cbv zeta.
  assert (G : forall at_, deseasonable demo_axis NoLeap (mkDarr "zos" (da_data demo_2d) at_) None).
  { intros at_. destruct (proj2 demo_2d_ok) as [W N C D P K X]. split; assumption. }
  assert (T : forall d, fst (deseason demo_axis (mkDarr "zos" (da_data demo_2d) d) None "time" "residuals") = deseason_attrs "residuals" d).
  { intros d. destruct (deseason_plain _ _ _ _ (G d) "residuals" (or_introl eq_refl)) as (r & E & _). rewrite E. reflexivity. }
  change (da_name demo_2d) with "zos". rewrite T. change demo_2d with (mkDarr "zos" (da_data demo_2d) demo_attrs). rewrite T. cbn [da_attrs da_data].
  split; vm_compute; discriminate.
Qed.
Print Assumptions C70_refuted.

(** ** C82 *)
(** A coordinate of another name is refused, whatever the array. *)
Theorem C82_seasonal_model_refuted : forall ax x t, t <> "time" -> ta_name ax = t -> seasonal_model ax x t = Err ValueError.
Proof. intros ax x t N H. unfold seasonal_model. rewrite H, String.eqb_refl. apply String.eqb_neq in N. rewrite N. reflexivity. Qed.
Print Assumptions C82_seasonal_model_refuted.
Theorem C82_deseason_refuted : forall ax x ch t fmt, ta_name ax <> "time" -> dmem t (adims (da_data x)) = true ->
  deseason ax x ch t fmt = (da_attrs x, Err AttributeError).
Proof.
  intros ax x ch t fmt N H. unfold deseason, deseason_checks. rewrite H. cbn [assert_ bind]. apply String.eqb_neq in N. rewrite N. reflexivity.
Qed.
Print Assumptions C82_deseason_refuted.
Example C82_demo : snd (deseason (mkAxis "year" (Some NoLeap) (range_D NoLeap 2001 10)) (mkDarr "zos" (mkArr [("year", 10)]%nat (fun e => Fin (INR (e "year")))) []) None "year" "residuals") = Err AttributeError.
Proof. rewrite C82_deseason_refuted; [reflexivity|discriminate|reflexivity]. Qed.

(** ** C83 *)
(** A number of days per year is ignored. *)
Theorem C83_ignored_refuted : forall n ts v, seasonal_cycle_model n ts (DScalar v) = seasonal_cycle_model n ts (DScalar 365).
Proof. reflexivity. Qed.
Print Assumptions C83_ignored_refuted.
(** Seven or more days of a pure annual cycle of 360 days, fitted with a year of 360 days,
    leave residuals. *)
Theorem C83_refuted : forall n, (7 <= n)%nat -> exists c z s,
  seasonal_cycle_model n (fun i => Fin (cos (2 * PI * (INR i / 360)))) (DScalar 360) = Ok (c, z, s) /\
  ~ forall i, (i < n)%nat -> z i = Fin 0.
Proof.
  intros n Hn. destruct (C66_cycle_model n (fun i => Fin (cos (2 * PI * (INR i / 360)))) (DScalar 360) (fun i => INR i / 365) (fun _ => eq_refl)) as (c & z & s & E & F & _).
  exists c, z, s. split; [exact E|]. intros Z. destruct F as (F & _); [intros i Hi; reflexivity|]. destruct F as [S (g & C) _ _ _].
  apply (not_365 g). intros i Hi. specialize (S i ltac:(lia)). rewrite C, Z in S by lia. cbn in S. injection S as S. lra.
Qed.
Print Assumptions C83_refuted.
(** Given as an array the length of the year is used. *)
Theorem C83_array_partial : forall n v g ts, (forall i, (i < n)%nat -> ts i = Fin (curve g (INR i / IZR v))) ->
  exists c z s, seasonal_cycle_model n ts (DArray (repeat v n)) = Ok (c, z, s) /\ forall i, (i < n)%nat -> z i = Fin 0.
Proof.
  intros n v g ts H.
  assert (T : cycle_time n (DArray (repeat v n)) = Ok (fun i => INR i / IZR (nth i (repeat v n) 1%Z))) by (unfold cycle_time; rewrite repeat_length, Nat.eqb_refl; reflexivity).
  unfold seasonal_cycle_model. rewrite T. cbn [bind]. eexists _, _, _. split; [reflexivity|]. apply resid_exact with (g := g).
  - intros i Hi. rewrite H by exact Hi. reflexivity.
  - intros i Hi. rewrite H by exact Hi. assert (N : nth i (repeat v n) 1%Z = v) by (apply (repeat_spec n), nth_In; rewrite repeat_length; exact Hi). rewrite N. reflexivity.
Qed.
Print Assumptions C83_array_partial.

(** Ten days of a 360-day cycle with the year given as an array. *)
Example C83_case : exists c z s, seasonal_cycle_model 10 (fun i => Fin (cos (2 * PI * (INR i / 360)))) (DArray (repeat 360%Z 10)) = Ok (c, z, s) /\
  forall i, (i < 10)%nat -> z i = Fin 0.
Proof.
  apply (C83_array_partial 10 360 (fun k => if Nat.eqb k 3 then 1 else 0)). intros i _. unfold curve. cbn [Nat.eqb]. f_equal. lra.
Qed.

(** ** C84 *)
(** Daily data in the calendars whose years have 365 or 366 days all: the phase of the
    harmonics depends on the time of year only. *)
Theorem C84_daily_partial : forall c y n i j, c = NoLeap \/ c = AllLeap -> (i < n)%nat -> (j < n)%nat ->
  let ts := range_D c y n in
  same_season (time_of ts i) (time_of ts j) ->
  exists td, cycle_time n (DArray (days_array c ts)) = Ok td /\
    sin (2 * PI * td i) = sin (2 * PI * td j) /\ cos (2 * PI * td i) = cos (2 * PI * td j) /\
    td i - td j = IZR (d_year (time_of ts i) - d_year (time_of ts j)).
Proof.
  intros c y n i j Hc Hi Hj ts S. set (ax := mkAxis "time" (Some c) ts). exists (deseason_td c ax).
  assert (L : List.length ts = n) by apply range_D_length.
  split; [unfold cycle_time; unfold days_array at 1; rewrite map_length, L, Nat.eqb_refl; reflexivity|].
  set (len := match c with AllLeap => 366%Z | _ => 365%Z end).
  assert (Tl : forall k, (k < n)%nat -> deseason_td c ax k = INR k / IZR len).
  { intros k Hk. rewrite deseason_td_spec by (cbn [ta_dates ax]; lia). unfold year_length, len. destruct Hc as [-> | ->]; reflexivity. }
  assert (R : forall y', regular c y') by (intros y'; destruct Hc as [-> | ->]; intros; discriminate).
  assert (Y : forall k, (k < n)%nat -> INR k = IZR len * IZR (d_year (time_of ts k) - y) + IZR (month_start c y (d_month (time_of ts k))) + d_pos (time_of ts k)).
  { intros k Hk. destruct (daily_day c y n k Hk R) as [_ A]. fold ts in A. change (nth k ts (mkDate 0 1 0)) with (time_of ts k) in A. unfold abs_day in A.
    set (d := time_of ts k) in *. assert (Ms : month_start c (d_year d) (d_month d) = month_start c y (d_month d)).
    { unfold month_start. f_equal. apply map_ext. intros m. destruct Hc as [-> | ->]; reflexivity. }
    rewrite Ms in A. unfold len. destruct Hc as [-> | ->]; cbn [year_start] in A; rewrite plus_IZR, !mult_IZR in A; rewrite minus_IZR; lra. }
  destruct S as [Sm Sp]. pose proof (Y i Hi) as Yi. pose proof (Y j Hj) as Yj. rewrite Sm, Sp in Yi.
  assert (Lp : IZR len <> 0) by (unfold len; destruct Hc as [-> | ->]; lra).
  assert (Df : deseason_td c ax i - deseason_td c ax j = IZR (d_year (time_of ts i) - d_year (time_of ts j))).
  { rewrite !Tl by assumption. rewrite Yi, Yj. rewrite !minus_IZR. field. exact Lp. }
  set (di := d_year (time_of ts i)) in *. set (dj := d_year (time_of ts j)) in *.
  assert (Ph : sin (2 * PI * deseason_td c ax i) = sin (2 * PI * deseason_td c ax j) /\ cos (2 * PI * deseason_td c ax i) = cos (2 * PI * deseason_td c ax j)).
  { destruct (Z.le_gt_cases dj di) as [G|G].
    - replace (deseason_td c ax i) with (deseason_td c ax j + INR (Z.to_nat (di - dj))) by (rewrite INR_IZR_INZ, Z2Nat.id by lia; lra).
      rewrite sin_years, cos_years. auto.
    - replace (deseason_td c ax j) with (deseason_td c ax i + INR (Z.to_nat (dj - di))) by (rewrite INR_IZR_INZ, Z2Nat.id by lia; rewrite minus_IZR in *; lra).
      rewrite sin_years, cos_years. auto. }
  tauto.
Qed.
Print Assumptions C84_daily_partial.
Example C84_demo : same_season (time_of (range_D NoLeap 2001 800) 0) (time_of (range_D NoLeap 2001 800) 365).
Proof.
  destruct (daily_day NoLeap 2001 800 365 ltac:(lia) ltac:(intros y H; discriminate)) as [V A].
  destruct (daily_day NoLeap 2001 800 0 ltac:(lia) ltac:(intros y H; discriminate)) as [V0 A0].
  assert (E : nth 365 (range_D NoLeap 2001 800) (mkDate 0 1 0) = mkDate 2002 1 0).
  { apply (abs_day_inj NoLeap); [exact V|apply first_valid; lia|intros; discriminate..|]. rewrite A, abs_day_jan1. rewrite INR_IZR_INZ, <- plus_IZR. reflexivity. }
  assert (E0 : nth 0 (range_D NoLeap 2001 800) (mkDate 0 1 0) = mkDate 2001 1 0).
  { apply (abs_day_inj NoLeap); [exact V0|apply first_valid; lia|intros; discriminate..|]. rewrite A0, abs_day_jan1. cbn [INR]. ring. }
  unfold time_of. rewrite E, E0. split; reflexivity.
Qed.

(** Not so in the 360-day calendar, where the first day of the second year is out of phase
    with that of the first ... *)
Theorem C84_360_day_refuted : forall y n, (360 < n)%nat -> let ts := range_D Day360 y n in
  same_season (time_of ts 0) (time_of ts 360) /\
  exists td, cycle_time n (DArray (days_array Day360 ts)) = Ok td /\ cos (2 * PI * td 360%nat) < cos (2 * PI * td 0%nat).
Proof.
  intros y n Hn ts. assert (L : List.length ts = n) by apply range_D_length. split.
  - destruct (daily_day Day360 y n 360 Hn ltac:(intros y' H; discriminate)) as [V A].
    destruct (daily_day Day360 y n 0 ltac:(lia) ltac:(intros y' H; discriminate)) as [V0 A0].
    assert (E : nth 360 ts (mkDate 0 1 0) = mkDate (y + 1) 1 0).
    { apply (abs_day_inj Day360); [exact V|apply first_valid; lia|intros; discriminate..|]. fold ts in A. rewrite A, abs_day_jan1. rewrite INR_IZR_INZ, <- plus_IZR.
      f_equal. cbn [year_start]. change (Z.of_nat 360) with 360%Z. lia. }
    assert (E0 : nth 0 ts (mkDate 0 1 0) = mkDate y 1 0).
    { apply (abs_day_inj Day360); [exact V0|apply first_valid; lia|intros; discriminate..|]. fold ts in A0. rewrite A0, abs_day_jan1. cbn [INR]. ring. }
    unfold time_of. rewrite E, E0. split; reflexivity.
  - exists (deseason_td Day360 (mkAxis "time" (Some Day360) ts)). split; [unfold cycle_time; unfold days_array at 1; rewrite map_length, L, Nat.eqb_refl; reflexivity|].
    rewrite !deseason_td_spec by (cbn [ta_dates]; lia). unfold year_length. cbn [leap ta_dates]. lazy iota. rewrite !INR_IZR_INZ.
    change (Z.of_nat 360) with 360%Z. change (Z.of_nat 0) with 0%Z. replace (2 * PI * (0 / 365)) with 0 by field. rewrite cos_0. apply cos_lt_1. lra.
Qed.
Print Assumptions C84_360_day_refuted.

(** ... nor in calendars with leap years: 1 January 2004 in data from 1 January 2001. *)
Theorem C84_leap_refuted : forall n, (1095 < n)%nat -> let ts := range_D Standard 2001 n in
  same_season (time_of ts 0) (time_of ts 1095) /\
  exists td, cycle_time n (DArray (days_array Standard ts)) = Ok td /\ cos (2 * PI * td 1095%nat) < cos (2 * PI * td 0%nat).
Proof.
  intros n Hn ts. assert (L : List.length ts = n) by apply range_D_length.
  assert (R : forall y', (2001 <= y' <= 2004)%Z -> regular Standard y') by (intros y' Hy' _; lia).
  assert (K : IZR (Z.of_nat 1095) = 1095) by reflexivity.
  assert (E : nth 1095 ts (mkDate 0 1 0) = mkDate 2004 1 0).
  { destruct (daily_day' Standard 2001 n 1095 2004 Hn ltac:(lia) R) as (V & A & B).
    - rewrite INR_IZR_INZ, <- plus_IZR. apply IZR_lt. vm_compute. reflexivity.
    - fold ts in V, A, B. apply (abs_day_inj Standard); [exact V|apply first_valid; lia|apply R; exact B|intros _; cbn; lia|]. rewrite A, abs_day_jan1. rewrite INR_IZR_INZ, <- plus_IZR. f_equal. }
  assert (E0 : nth 0 ts (mkDate 0 1 0) = mkDate 2001 1 0).
  { destruct (daily_day' Standard 2001 n 0 2004 ltac:(lia) ltac:(lia) R) as (V & A & B).
    - cbn [INR]. rewrite Rplus_0_r. apply IZR_lt. vm_compute. reflexivity.
    - fold ts in V, A, B. apply (abs_day_inj Standard); [exact V|apply first_valid; lia|apply R; exact B|intros _; cbn; lia|]. rewrite A, abs_day_jan1. cbn [INR]. ring. }
  unfold time_of. rewrite E, E0. split; [split; reflexivity|].
  exists (deseason_td Standard (mkAxis "time" (Some Standard) ts)). split; [unfold cycle_time; unfold days_array at 1; rewrite map_length, L, Nat.eqb_refl; reflexivity|].
  rewrite !deseason_td_spec by (cbn [ta_dates]; lia). unfold year_length, time_of. cbn [ta_dates]. rewrite E, E0. cbn [d_year].
  change (leap Standard 2004) with true. change (leap Standard 2001) with false. lazy iota. rewrite !INR_IZR_INZ, K. change (Z.of_nat 0) with 0%Z.
  replace (2 * PI * (0 / 365)) with 0 by field. rewrite cos_0. replace (1095 / 366) with ((1095 / 366 - 2) + INR 2) by (cbn [INR]; lra). rewrite cos_years. apply cos_lt_1. lra.
Qed.
Print Assumptions C84_leap_refuted.

(** The trend is per 365 samples, not per year, when samples are not daily: successive Januaries
    of monthly data are 12/365 apart. *)
Theorem C84_monthly_refuted : forall y n, (12 < n)%nat -> let ts := range_MS y n in
  same_season (time_of ts 0) (time_of ts 12) /\ d_year (time_of ts 12) = (d_year (time_of ts 0) + 1)%Z /\
  exists td, cycle_time n (DArray (days_array NoLeap ts)) = Ok td /\ td 12%nat - td 0%nat = 12 / 365.
Proof.
  intros y n Hn ts. assert (L : List.length ts = n) by (unfold ts, range_MS; rewrite map_length, seq_length; reflexivity).
  assert (E : forall k, (k < n)%nat -> time_of ts k = month_at y k).
  { intros k Hk. unfold time_of, ts, range_MS. rewrite (nth_indep _ _ (month_at y 0)) by (rewrite map_length, seq_length; exact Hk). rewrite map_nth, seq_nth by exact Hk. reflexivity. }
  rewrite !E by lia. split; [split; reflexivity|]. split; [cbn; lia|].
  exists (deseason_td NoLeap (mkAxis "time" (Some NoLeap) ts)). split; [unfold cycle_time; unfold days_array at 1; rewrite map_length, L, Nat.eqb_refl; reflexivity|].
  rewrite !deseason_td_spec by (cbn [ta_dates]; lia). unfold year_length. cbn [leap]. lazy iota. cbn [INR]. lra.
Qed.
Print Assumptions C84_monthly_refuted.

(** The same on the level of the results: in the 365 and 366 day calendars the fitted curve of
    every series grows by the same amount from year to year at any time of the year ... *)
Lemma curve_years g t k : curve g (t + IZR k) - curve g t = g 1%nat * IZR k.
Proof.
  assert (P : forall u n, curve g (u + INR n) - curve g u = g 1%nat * INR n).
  { intros u n. unfold curve. rewrite sin_years, cos_years.
    replace (4 * PI * (u + INR n)) with (2 * PI * (2 * u + INR (2 * n))) by (rewrite mult_INR; cbn [INR]; ring).
    rewrite sin_years, cos_years. replace (2 * PI * (2 * u)) with (4 * PI * u) by ring. ring. }
  destruct (Z.le_gt_cases 0 k) as [G|G].
  - rewrite <- (Z2Nat.id k G), <- INR_IZR_INZ. apply P.
  - pose proof (P (t + IZR k) (Z.to_nat (- k))) as Q. rewrite INR_IZR_INZ, Z2Nat.id, opp_IZR in Q by lia.
    replace (t + IZR k + - IZR k) with t in Q by ring. lra.
Qed.
Theorem C84_model_daily_partial : forall c y n x ch, c = NoLeap \/ c = AllLeap ->
  let ts := range_D c y n in deseasonable (mkAxis "time" (Some c) ts) c x ch ->
  exists s, snd (deseason (mkAxis "time" (Some c) ts) x ch "time" "model") = Ok s /\
    forall e, inrange (adims (da_data x)) e -> all_finite n (series (da_data x) e) ->
      exists b, forall i j, (i < n)%nat -> (j < n)%nat -> same_season (time_of ts i) (time_of ts j) ->
        exists u, series (da_data s) e j = Fin u /\
          series (da_data s) e i = Fin (u + b * IZR (d_year (time_of ts i) - d_year (time_of ts j))).
Proof.
  intros c y n x ch Hc ts H. assert (L : List.length ts = n) by apply range_D_length.
  destruct (C68_each_series _ _ _ _ H) as (s & r & E & _ & _ & _ & V). exists s. split; [exact E|]. intros e R F.
  cbn [ta_dates] in V. rewrite L in V. destruct (V e R) as [V1 _]. destruct (V1 F) as [_ (g & G) _ _ _]. clear V V1.
  exists (g 1%nat). intros i j Hi Hj S. destruct (C84_daily_partial c y n i j Hc Hi Hj S) as (td & T & _ & _ & D).
  fold ts in T, D. assert (Td : forall k, (k < n)%nat -> td k = INR k / IZR (if leap c (d_year (time_of ts k)) then 366 else 365)).
  { intros k Hk. unfold cycle_time in T. unfold days_array at 1 in T. rewrite map_length, L, Nat.eqb_refl in T. apply Ok_inj in T. subst td.
    change (INR k / IZR (nth k (days_array c ts) 1%Z)) with (deseason_td c (mkAxis "time" (Some c) ts) k).
    rewrite deseason_td_spec by (cbn [ta_dates]; lia). unfold year_length. cbn [ta_dates]. destruct (leap c (d_year (time_of ts k))); reflexivity. }
  exists (curve g (td j)). rewrite !G, <- !Td by assumption. split; [reflexivity|]. f_equal.
  rewrite <- (curve_years g (td j)). rewrite <- D. replace (td j + (td i - td j)) with (td i) by ring. ring.
Qed.
Print Assumptions C84_model_daily_partial.

(** ... and in the 360-day calendar a week or more of a signal that repeats exactly every year is
    not removed. *)
Theorem C84_cycle_360_refuted : forall y n x ch, (7 <= n)%nat ->
  let ts := range_D Day360 y n in deseasonable (mkAxis "time" (Some Day360) ts) Day360 x ch ->
  (forall e i, (i < n)%nat -> series (da_data x) e i = Fin (cos (2 * PI * (elapsed Day360 (time_of ts i) / 360)))) ->
  exists r, snd (deseason (mkAxis "time" (Some Day360) ts) x ch "time" "residuals") = Ok r /\
    forall e, inrange (adims (da_data x)) e -> ~ forall i, (i < n)%nat -> series (da_data r) e i = Fin 0.
Proof.
  intros y n x ch Hn ts H X. assert (L : List.length ts = n) by apply range_D_length.
  destruct (C68_each_series _ _ _ _ H) as (s & r & _ & E & _ & _ & V). exists r. split; [exact E|]. intros e R Z.
  cbn [ta_dates] in V. rewrite L in V. destruct (V e R) as [V1 _].
  destruct V1 as [S (g & G) _ _ _]; [intros i Hi; rewrite X by exact Hi; reflexivity|].
  apply (not_365 g). intros i Hi. assert (Hi' : (i < n)%nat) by lia. specialize (S i Hi'). rewrite G, Z, X in S by exact Hi'. cbn in S. injection S as S.
  assert (C : cos (2 * PI * (elapsed Day360 (time_of ts i) / 360)) = cos (2 * PI * (INR i / 360))).
  { destruct (daily_day Day360 y n i Hi' ltac:(intros y' K; discriminate)) as [_ A]. change (nth i _ _) with (time_of ts i) in A.
    set (d := time_of ts i) in *. unfold elapsed. rewrite A. cbn [year_start].
    replace ((IZR (360 * y) + INR i - IZR (360 * d_year d)) / 360) with (INR i / 360 + IZR (y - d_year d)) by (rewrite minus_IZR, !mult_IZR; field).
    set (k := (y - d_year d)%Z). destruct (Z.le_gt_cases 0 k) as [P|P].
    - rewrite <- (Z2Nat.id k P), <- INR_IZR_INZ. apply cos_years.
    - rewrite <- (cos_years (INR i / 360 + IZR k) (Z.to_nat (- k))). f_equal. f_equal. rewrite (INR_IZR_INZ (Z.to_nat _)), Z2Nat.id, opp_IZR by lia. ring. }
  rewrite <- C, <- S. lra.
Qed.
Print Assumptions C84_cycle_360_refuted.
Example C84_cycle_demo : let ts := range_D Day360 2001 720 in
  let x := mkDarr "zos" (mkArr [("time", 720)]%nat (fun e => Fin (cos (2 * PI * (elapsed Day360 (time_of ts (e "time")) / 360))))) [] in
  exists r, snd (deseason (mkAxis "time" (Some Day360) ts) x None "time" "residuals") = Ok r /\ ~ forall i, (i < 720)%nat -> series (da_data r) (fun _ => O) i = Fin 0.
Proof.
  intros ts x. assert (L : List.length ts = 720%nat) by apply range_D_length.
  destruct (C84_cycle_360_refuted 2001 720 x None ltac:(lia)) as (r & E & Z).
  - split; [|reflexivity|reflexivity|cbn [ta_dates]; fold ts; rewrite L; left; reflexivity|cbn [ta_dates]; fold ts; rewrite L; lia|exact I|intros [K|[]]; discriminate K].
    split; [constructor; [intros []|constructor]|]. intros e e' H. cbn [da_data x at_]. rewrite (H "time") by (left; reflexivity). reflexivity.
  - intros e i Hi. unfold series. cbn [da_data x at_]. rewrite upd_same. reflexivity.
  - exists r. split; [exact E|]. apply Z. intros d m [I|[]]. injection I as <- <-. lia.
Qed.
