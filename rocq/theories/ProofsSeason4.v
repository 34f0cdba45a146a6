(** * ProofsSeason4: decimal times *)
From Coq Require Import Reals ZArith List String Bool Arith Lia Lra.
From Verif Require Import Num NumFacts Py Arr Calendar SpecTime ProofsCal Seasonal SpecSeason ProofsSeason3.
Import ListNotations.
Local Open Scope R_scope.

Lemma Int_part_IZR z r : 0 <= r < 1 -> Int_part (IZR z + r) = z.
Proof.
  intros H. destruct (base_Int_part (IZR z + r)) as [A B]. set (k := Int_part (IZR z + r)) in *.
  assert (k < z + 1)%Z by (apply lt_IZR; rewrite plus_IZR; lra). assert (z < k + 1)%Z by (apply lt_IZR; rewrite plus_IZR; lra). lia.
Qed.

(** The hour is whole hours since midnight: for dates at whole hours nothing is lost. *)
Lemma day_hour d : whole_hours d -> IZR (Int_part (d_pos d)) + IZR (hour d) / 24 = d_pos d.
Proof.
  intros (k & E). unfold hour. set (q := (k / 24)%nat). set (r := (k mod 24)%nat).
  assert (K : (k = 24 * q + r)%nat) by (apply Nat.div_mod; lia). assert (B : (r < 24)%nat) by (apply Nat.mod_upper_bound; lia).
  assert (D : d_pos d = IZR (Z.of_nat q) + INR r / 24).
  { rewrite E, K, plus_INR, mult_INR, <- INR_IZR_INZ. replace (INR 24) with 24 by (cbn; lra). field. }
  assert (Rr : 0 <= INR r / 24 < 1). { apply lt_INR in B. replace (INR 24) with 24 in B by (cbn; lra). pose proof (pos_INR r). lra. }
  rewrite D, (Int_part_IZR _ _ Rr).
  replace (24 * (IZR (Z.of_nat q) + INR r / 24 - IZR (Z.of_nat q))) with (IZR (Z.of_nat r) + 0) by (rewrite <- INR_IZR_INZ; field).
  rewrite Int_part_IZR by lra. rewrite <- !INR_IZR_INZ. reflexivity.
Qed.

Lemma decimal_elapsed c d : whole_hours d -> decimal_time c d = IZR (d_year d) + elapsed c d / 365.
Proof.
  intros W. unfold decimal_time, elapsed, dayofyear, abs_day. pose proof (day_hour d W) as E.
  replace (month_start c (d_year d) (d_month d) + Int_part (d_pos d) + 1 - 1)%Z with (month_start c (d_year d) (d_month d) + Int_part (d_pos d))%Z by lia.
  rewrite !plus_IZR. lra.
Qed.

Lemma elapsed_bounds c d : valid_date c d -> 0 <= elapsed c d < IZR (month_start c (d_year d) 13).
Proof.
  intros V. unfold elapsed. pose proof (abs_day_lower c d V). pose proof (abs_day_upper_month c d V) as U.
  assert (M : (month_start c (d_year d) (S (d_month d)) <= month_start c (d_year d) 13)%Z) by (apply month_start_mono; destruct V; lia).
  apply IZR_le in M. rewrite plus_IZR in U. lra.
Qed.

Lemma year_mono c d d' : valid_date c d -> valid_date c d' -> regular c (d_year d') -> abs_day c d < abs_day c d' -> (d_year d <= d_year d')%Z.
Proof.
  intros V V' R' L. pose proof (abs_day_lower c d V). pose proof (abs_day_upper c d' V' R'). apply (year_start_le_lt c), lt_IZR. lra.
Qed.

Lemma decimal_lt c d d' : whole_hours d -> whole_hours d' -> valid_date c d -> valid_date c d' -> regular c (d_year d') ->
  abs_day c d < abs_day c d' -> d_year d = d_year d' \/ elapsed c d < 365 -> decimal_time c d < decimal_time c d'.
Proof.
  intros W W' V V' R' L H. rewrite !decimal_elapsed by assumption. pose proof (year_mono c d d' V V' R' L) as Y.
  destruct (Z.eq_dec (d_year d) (d_year d')) as [E|N].
  - unfold elapsed in *. rewrite <- E in *. lra.
  - assert (Y' : (d_year d + 1 <= d_year d')%Z) by lia. apply IZR_le in Y'. rewrite plus_IZR in Y'. pose proof (elapsed_bounds c d' V').
    destruct H as [H|H]; [congruence|]. lra.
Qed.

(** Days of a daily axis. *)
Lemma daily_day c y n i : (i < n)%nat -> (forall y', regular c y') ->
  let d := nth i (range_D c y n) (mkDate 0 1 0) in valid_date c d /\ abs_day c d = IZR (year_start c y) + INR i.
Proof.
  intros Hi R. unfold range_D. rewrite (nth_indep _ _ (add_days c (mkDate y 1 0) (INR 0))) by (rewrite map_length, seq_length; exact Hi).
  rewrite (map_nth (fun k => add_days c (mkDate y 1 0) (INR k))), seq_nth by exact Hi. cbn [plus].
  destruct (add_days_spec c (y + Z.of_nat i) (mkDate y 1 0) (INR i)) as (V & A & _).
  - apply first_valid. lia.
  - apply pos_INR.
  - cbn. lia.
  - intros; apply R.
  - rewrite abs_day_jan1. assert (M : (year_start c y + (y + Z.of_nat i + 1 - y) <= year_start c (y + Z.of_nat i + 1))%Z) by (apply year_start_mono; lia).
    apply IZR_le in M. rewrite plus_IZR in M. rewrite INR_IZR_INZ. replace (y + Z.of_nat i + 1 - y)%Z with (Z.of_nat i + 1)%Z in M by lia. rewrite plus_IZR in M. lra.
  - split; [exact V|]. rewrite A, abs_day_jan1. reflexivity.
Qed.
(** The same, as long as the year of the reform is not reached. *)
Lemma daily_day' c y n i Y : (i < n)%nat -> (y <= Y)%Z -> (forall y', (y <= y' <= Y)%Z -> regular c y') ->
  IZR (year_start c y) + INR i < IZR (year_start c (Y + 1)) ->
  let d := nth i (range_D c y n) (mkDate 0 1 0) in valid_date c d /\ abs_day c d = IZR (year_start c y) + INR i /\ (y <= d_year d <= Y)%Z.
Proof.
  intros Hi HY R U. unfold range_D. rewrite (nth_indep _ _ (add_days c (mkDate y 1 0) (INR 0))) by (rewrite map_length, seq_length; exact Hi).
  rewrite (map_nth (fun k => add_days c (mkDate y 1 0) (INR k))), seq_nth by exact Hi. cbn [plus].
  destruct (add_days_spec c Y (mkDate y 1 0) (INR i)) as (V & A & B).
  - apply first_valid. lia.
  - apply pos_INR.
  - exact HY.
  - exact R.
  - rewrite abs_day_jan1. exact U.
  - split; [exact V|]. rewrite A, abs_day_jan1. split; [reflexivity|exact B].
Qed.
Lemma daily_year c y n i Y : (i < n)%nat -> (y <= Y)%Z -> (forall y', (y <= y' <= Y)%Z -> regular c y') ->
  (year_start c Y <= year_start c y + Z.of_nat i < year_start c (Y + 1))%Z -> d_year (nth i (range_D c y n) (mkDate 0 1 0)) = Y.
Proof.
  intros Hi HY R [L U]. apply IZR_le in L. apply IZR_lt in U. rewrite plus_IZR, <- INR_IZR_INZ in *.
  destruct (daily_day' c y n i Y Hi HY R U) as (V & A & B). cbv zeta in *. set (d := nth i (range_D c y n) (mkDate 0 1 0)) in *.
  assert (G : regular c (d_year d)) by (apply R; exact B). pose proof (abs_day_upper c d V G).
  assert (Y <= d_year d)%Z by (apply (year_start_le_lt c), lt_IZR; lra). lia.
Qed.
Lemma range_D_length c y n : List.length (range_D c y n) = n.
Proof. unfold range_D. rewrite map_length, seq_length. reflexivity. Qed.

(** ** The decimal time of deseason *)
Definition year_length (c : cal) (d : date) : R := if leap c (d_year d) then 366 else 365.
Lemma deseason_td_spec c ax i : (i < List.length (ta_dates ax))%nat ->
  deseason_td c ax i = INR i / year_length c (time_of (ta_dates ax) i).
Proof.
  intros Hi. unfold deseason_td, year_length, days_array, time_of.
  rewrite (nth_indep _ _ (if leap c (d_year (mkDate 0 1 0)) then 366 else 365)%Z) by (rewrite map_length; exact Hi).
  rewrite (map_nth (fun d => if leap c (d_year d) then 366 else 365)%Z). destruct (leap c _); reflexivity.
Qed.
Lemma step_lt i l m : 0 < l -> 0 < m -> (INR i / l < INR (i + 1) / m <-> INR i * m < INR (i + 1) * l).
Proof.
  intros Hl Hm. split; intros H.
  - apply (Rmult_lt_compat_r (l * m)) in H; [|nra]. replace (INR i / l * (l * m)) with (INR i * m) in H by (field; lra).
    replace (INR (i + 1) / m * (l * m)) with (INR (i + 1) * l) in H by (field; lra). exact H.
  - apply (Rmult_lt_reg_r (l * m)); [nra|]. replace (INR i / l * (l * m)) with (INR i * m) by (field; lra).
    replace (INR (i + 1) / m * (l * m)) with (INR (i + 1) * l) by (field; lra). exact H.
Qed.
Lemma year_length_pos c d : 0 < year_length c d.
Proof. unfold year_length. destruct (leap c _); lra. Qed.

(** Phases of whole years. *)
Lemma sin_years t k : sin (2 * PI * (t + INR k)) = sin (2 * PI * t).
Proof. replace (2 * PI * (t + INR k)) with (2 * PI * t + 2 * INR k * PI) by ring. apply sin_period. Qed.
Lemma cos_years t k : cos (2 * PI * (t + INR k)) = cos (2 * PI * t).
Proof. replace (2 * PI * (t + INR k)) with (2 * PI * t + 2 * INR k * PI) by ring. apply cos_period. Qed.

Lemma cos_lt_1 t : 0 < t < 1 -> cos (2 * PI * t) < 1.
Proof.
  intros H. pose proof PI_RGT_0 as P. replace (2 * PI * t) with (2 * (PI * t)) by ring. rewrite cos_2a_sin.
  assert (0 < sin (PI * t)) by (apply sin_gt_0; nra). nra.
Qed.
