(** * PropertiesYearText: C126 (years of time labels), C127 (start years of test data) *)
From Coq Require Import Reals ZArith Lra Lia List String Bool Arith.
From Verif Require Import Num NumFacts Py Arr Calendar TimeAvg SpecTime ProofsCal ProofsAvg ProofsAvg2 PropertiesTime YearText ProofsYearText TestData ProofsTestTime
  PropertiesTestData.
Import ListNotations.
Local Open Scope string_scope.
Local Open Scope R_scope.

(** All dates of a record lie in years that are written with at most four digits. *)
Definition common_era (ax : taxis) : Prop := forall d, In d (ta_dates ax) -> (1 <= d_year d <= 9999)%Z.

Lemma years_common ax y : common_era ax -> In y (years (ta_dates ax)) -> (1 <= y <= 9999)%Z.
Proof. intros H Hy. apply years_In in Hy as (i & Hi & <-). apply H. apply nth_In. exact Hi. Qed.

(** ** C126: the years in the labels survive being written and read *)

Theorem C126_annual : forall ax a t, common_era ax -> annual_average_text ax a t = annual_average_da ax a t.
Proof.
  intros ax a t H. unfold annual_average_text, annual_average_da.
  destruct (axis_calendar ax t) as [c|]; cbn [bind]; [|reflexivity].
  destruct (check_years (ta_dates ax)); cbn [bind]; [|reflexivity].
  rewrite (mapM_all _ (ann_midpoint c)); [reflexivity|].
  intros y Hy. rewrite padded_start_ok; [reflexivity|]. pose proof (years_common ax y H Hy). lia.
Qed.
Print Assumptions C126_annual.

Theorem C126_monthly : forall ax a t, common_era ax -> monthly_average_text ax a t = monthly_average_da ax a t.
Proof.
  intros ax a t H. unfold monthly_average_text, monthly_average_da.
  destruct (axis_calendar ax t) as [c|]; cbn [bind]; [|reflexivity].
  assert (E : forall l, (forall y, In y l -> (1 <= y <= 9999)%Z) ->
    mapM (fun y => let r := year_record (ta_dates ax) y in let* y' := padded_start y in
       if Nat.eqb (List.length r) 12 then Ok (r, month_midpoints c y') else Err ValueError) l =
    mapM (fun y => let r := year_record (ta_dates ax) y in
       if Nat.eqb (List.length r) 12 then Ok (r, month_midpoints c y) else Err ValueError) l).
  { induction l as [|y l IH]; intros L; cbn [mapM]; [reflexivity|]. cbv zeta.
    rewrite padded_start_ok by (pose proof (L y (or_introl eq_refl)); lia). cbn [bind].
    pose proof (IH (fun z Hz => L z (or_intror Hz))) as IH'. cbv zeta in IH'. rewrite IH'. reflexivity. }
  rewrite E; [reflexivity|]. intros y Hy. exact (years_common ax y H Hy).
Qed.
Print Assumptions C126_monthly.

Theorem C126_cycle : forall ax a t f y, (1 <= y <= 9999)%Z ->
  annual_cycle_text ax a t f (Some y) = annual_cycle_da ax a t f (Some y).
Proof.
  intros ax a t f y H. unfold annual_cycle_text, annual_cycle_da, cycle_year.
  destruct (axis_calendar ax t) as [c|]; cbn [bind]; [|reflexivity].
  rewrite padded_start_ok by lia. reflexivity.
Qed.
Print Assumptions C126_cycle.

(** Every label of an annual mean lies in the year of its data, also before the year 1000. *)
Theorem C126_labels : forall ax a t ax' r, common_era ax -> annual_average_text ax a t = Ok (ax', r) ->
  exists c ys, ta_cal ax = Some c /\ years_of (ta_dates ax) ys /\ List.length (ta_dates ax') = List.length ys /\
    forall k, (k < List.length ys)%nat -> regular c (nth k ys 0%Z) -> d_year (time_of (ta_dates ax') k) = nth k ys 0%Z.
Proof.
  intros ax a t ax' r H E. rewrite C126_annual in E by exact H.
  destruct (C55_time_stamps ax a t ax' r E) as (c & ys & Hc & Hy & _ & _ & L & D).
  exists c, ys. split; [exact Hc|]. split; [exact Hy|]. split; [exact L|]. intros k Hk R. apply D; assumption.
Qed.
Print Assumptions C126_labels.

(** Outside those years there is no result. *)
Lemma mapM_fails {A B} (f : A -> res B) (e : exn) : forall l x, In x l -> f x = Err e -> (forall z e', f z = Err e' -> e' = e) ->
  mapM f l = Err e.
Proof.
  induction l as [|z l IH]; intros x I F U; [destruct I|]. cbn [mapM]. destruct (f z) as [w|e'] eqn:Z; cbn [bind].
  - destruct I as [->|I]; [congruence|]. rewrite (IH x I F U). reflexivity.
  - f_equal. exact (U z e' Z).
Qed.
Lemma padded_start_exn y e : padded_start y = Err e -> e = ValueError.
Proof.
  intros E. destruct (Z_lt_le_dec y 0) as [N|N]; [rewrite padded_start_err in E by lia; congruence|].
  destruct (Z_lt_le_dec y 10000); [rewrite padded_start_ok in E by lia; discriminate|].
  rewrite padded_start_err in E by lia. congruence.
Qed.

Theorem C126_outside : forall ax a t d, In d (ta_dates ax) -> (d_year d < 0 \/ 10000 <= d_year d)%Z ->
  (forall r, annual_average_da ax a t = Ok r -> annual_average_text ax a t = Err ValueError) /\
  (forall r, monthly_average_da ax a t = Ok r -> monthly_average_text ax a t = Err ValueError).
Proof.
  intros ax a t d I Y.
  assert (Hy : In (d_year d) (years (ta_dates ax))) by (apply years_In; destruct (In_nth _ _ (mkDate 0 1 0) I) as (i & Hi & E); exists i; split; [exact Hi|unfold time_of; rewrite <- E; f_equal; apply nth_indep, Hi]).
  split; intros r E.
  - unfold annual_average_text. unfold annual_average_da in E.
    destruct (axis_calendar ax t) as [c|]; cbn [bind] in *; [|discriminate].
    destruct (check_years (ta_dates ax)); cbn [bind] in *; [|discriminate].
    rewrite (mapM_fails _ ValueError _ _ Hy); [reflexivity| |].
    + rewrite padded_start_err by exact Y. reflexivity.
    + intros z e' Z. destruct (padded_start z) eqn:P; cbn [bind] in Z; [discriminate|]. injection Z as <-. exact (padded_start_exn z _ P).
  - unfold monthly_average_text. unfold monthly_average_da in E.
    destruct (axis_calendar ax t) as [c|]; cbn [bind] in *; [|discriminate].
    rewrite (mapM_fails _ ValueError _ _ Hy); [reflexivity| |].
    + cbv zeta. rewrite padded_start_err by exact Y. reflexivity.
    + intros z e' Z. cbv zeta in Z. destruct (padded_start z) eqn:P; cbn [bind] in Z.
      * destruct (Nat.eqb _ 12); congruence.
      * injection Z as <-. exact (padded_start_exn z _ P).
Qed.
Print Assumptions C126_outside.

(** A record of the year 7 (model years of a control run). *)
Example C126_example : common_era (mkAxis "time" (Some NoLeap) (one_year 7)) /\
  zfill 4 (str_int 7) ++ "-01-01" = "0007-01-01" /\
  exists ax' r, annual_average_text (mkAxis "time" (Some NoLeap) (one_year 7)) jan_feb "time" = Ok (ax', r) /\
    map d_year (ta_dates ax') = [7%Z] /\ at_ r (fun _ => O) = Fin (87 / 59) /\
    annual_average_text (mkAxis "time" (Some NoLeap) (one_year 12000)) jan_feb "time" = Err ValueError.
Proof.
  assert (H : common_era (mkAxis "time" (Some NoLeap) (one_year 7))).
  { intros d Hd. unfold one_year in Hd. apply in_map_iff in Hd as (m & <- & _). cbn [d_year]. lia. }
  split; [exact H|]. split; [reflexivity|]. rewrite C126_annual by exact H.
  eexists _, _. split; [reflexivity|]. split; [|split].
  - cbn [ta_dates annual_axis]. change (years (one_year 7)) with [7%Z]. cbn [map]. f_equal.
    apply ann_midpoint_spec. intros X. discriminate X.
  - rewrite annual_var_eq.
    match goal with |- wmean (map ?f ?l) = _ => change l with (seq 0 12) end.
    cbn [seq map]. unfold days_weight, jan_feb, wmean. cbn [at_ map lsum fold_right fst snd].
    unfold upd. cbn [String.eqb Ascii.eqb Bool.eqb Nat.ltb Nat.leb notnull isnull negb nan0 fillna fbool d_year d_month time_of one_year nth seq map].
    cbn [days_in_month leap gregorian_leap INR fmul fadd]. cbn.
    match goal with |- (if Reqb ?x 0 then _ else _) = _ => assert (x = 59) as E by lra; rewrite E end.
    destruct (Reqb 59 0) eqn:Z; [apply Reqb_true in Z; lra|].
    f_equal. f_equal. lra.
  - reflexivity.
Qed.

(** ** C127: a test axis starts in the year it is asked for *)

(** Refuted: the start year is written without zeros on the left, and "850-01-01" is not a date. *)
Theorem C127_refuted : exists s n c, (1 <= s)%Z /\ (1 <= n)%nat /\ no_reform c s n /\
  (forall A B, generate_test_data_time s n c "MS" A B = Err ValueError) /\
  List.length (generate_daily_timeaxis s n c) = 730%nat.
Proof.
  exists 850%Z, 2%nat, NoLeap. split; [lia|]. split; [lia|].
  assert (NR : no_reform NoLeap 850 2) by (intros y _ X; discriminate X). split; [exact NR|]. split.
  - intros A B. unfold generate_test_data_time, generate_time_stub, stub_bounds. rewrite plain_start_err by lia. reflexivity.
  - rewrite (daily_length NoLeap 850 2 NR). reflexivity.
Qed.
Print Assumptions C127_refuted.

Lemma ndays_pos s n c : no_reform c s n -> (1 <= n)%nat -> (0 < ndays c s n)%nat.
Proof.
  intros NR Hn. destruct (day_surj c s n NR (mkDate s 1 0)) as (k & Hk & _); [|cbn [d_year]; lia|lia].
  split; [cbn [d_month]; lia|]. exists 0%nat. cbn [d_year d_month d_pos INR]. split; [pose proof (dim_bounds c s 1); lia|reflexivity].
Qed.
Lemma day_first c s : add_days c (mkDate s 1 0) (INR 0) = mkDate s 1 0.
Proof.
  unfold add_days. cbn [add_loop d_year d_month d_pos INR].
  pose proof (dim_bounds c s 1) as B. destruct B as [B _]. apply IZR_le in B.
  rewrite (proj2 (Rltb_true (0 + 0) _)); [f_equal; lra|lra].
Qed.

(** What holds: exactly the start years 1000 to 9999 are accepted, for every length and calendar,
    and then the axis starts there. *)
Theorem C127_start_year_partial : forall s n c fr, fr = "MS" \/ fr = "D" -> (1 <= n)%nat -> no_reform c s n ->
  ((1000 <= s <= 9999)%Z -> exists st, generate_time_stub s n c fr = Ok st /\ st_T1 st <> [] /\
     time_of (st_T1 st) 0 = mkDate s 1 0) /\
  (~ (1000 <= s <= 9999)%Z -> generate_time_stub s n c fr = Err ValueError).
Proof.
  intros s n c fr F Hn NR. split; intros Y.
  - destruct F as [-> | ->].
    + destruct (C71_stub_monthly s n c Y NR) as (st & E & (_ & Lb & T1 & _) & B). exists st. split; [exact E|].
      destruct (B 0%nat (mkDate 0 0 0, mkDate 0 0 0) ltac:(lia)) as [B0 _]. cbv zeta in B0.
      rewrite T1. destruct (st_bnds st) as [|b l]; [cbn [List.length] in Lb; lia|]. split; [discriminate|].
      cbn [map]. unfold time_of. cbn [nth] in *. rewrite B0. cbn. f_equal. lia.
    + destruct (C71_stub_daily s n c Y NR) as (st & E & G & T1 & _). exists st. split; [exact E|].
      rewrite T1. pose proof (ndays_pos s n c NR Hn) as P. split.
      * intros X. apply (f_equal (@List.length _)) in X. rewrite (daily_length c s n NR) in X. cbn [List.length] in X. lia.
      * rewrite (daily_time_of c s n NR) by exact P. apply day_first.
  - unfold generate_time_stub, stub_bounds. rewrite plain_start_err by lia.
    destruct F as [-> | ->]; reflexivity.
Qed.
Print Assumptions C127_start_year_partial.

Example C127_example : exists st, generate_time_stub 1981 1 NoLeap "D" = Ok st /\ time_of (st_T1 st) 0 = mkDate 1981 1 0 /\
  generate_time_stub 1 10 NoLeap "MS" = Err ValueError.
Proof.
  assert (NR : no_reform NoLeap 1981 1) by (intros y _ X; discriminate X).
  destruct (proj1 (C127_start_year_partial 1981 1 NoLeap "D" (or_intror eq_refl) ltac:(lia) NR) ltac:(lia)) as (st & E & _ & F).
  exists st. split; [exact E|]. split; [exact F|]. reflexivity.
Qed.
