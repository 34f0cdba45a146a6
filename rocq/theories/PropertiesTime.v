(** * PropertiesTime: C55 - C58, C78, C79 *)
From Coq Require Import Reals ZArith Lra Lia List String Bool Arith Sorted.
From Verif Require Import Num NumFacts Py Arr ArrFacts Calendar TimeAvg Derived Dataset SpecTime ProofsCal ProofsUtil ProofsAvg ProofsAvg2 ProofsAvg3 ProofsFields ProofsStericAnnual.
Import ListNotations.
Local Open Scope string_scope.
Local Open Scope R_scope.

(** C55.  [ys] lists the sampled years in ascending order; position [k] of the result
    belongs to year [nth k ys].  [q i]: sample [i] lies in that year and is not missing. *)
Theorem C55_weighted_mean : forall ax a t ax' r, annual_average_da ax a t = Ok (ax', r) ->
  let ts := ta_dates ax in let n := List.length ts in
  exists c ys, ta_cal ax = Some c /\ years_of ts ys /\
    adims r = ("time", List.length ys) :: drop_dim t (adims a) /\
    forall e, (e "time" < List.length ys)%nat ->
      let y := nth (e "time") ys 0%Z in
      let x i := at_ a (upd e t i) in
      let q i := same_year ts y i && notnull (x i) in
      let days i := IZR (days_in_month c y (d_month (time_of ts i))) in
      (forall i, (i < n)%nat -> same_year ts y i = true -> not_inf (x i)) ->
      ((exists k, (k < n)%nat /\ q k = true) ->
         at_ r e = Fin (Sum_if n q (fun i => days i * val (x i)) / Sum_if n q days)) /\
      ((forall k, (k < n)%nat -> q k = false) -> at_ r e = NaN).
Proof.
  intros ax a t ax' r H ts n. unfold annual_average_da in H.
  destruct (axis_calendar ax t) as [c|] eqn:A; [|discriminate]. cbn [bind] in H.
  destruct (check_years (ta_dates ax)) as [u|] eqn:C; [|discriminate]. cbn [bind] in H.
  apply Ok_inj in H. injection H as <- <-. apply axis_calendar_inv in A. destruct A as (A1 & A2 & A3).
  exists c, (years ts). split; [exact A2|]. split; [apply years_years_of|]. split; [reflexivity|].
  intros e He y x q days Hx.
  assert (D : forall (f : R -> nat -> R), Sum_if n q (fun i => f (days_weight c (time_of ts i)) i) = Sum_if n q (fun i => f (days i) i)).
  { intros f. apply Sum_if_ext; [reflexivity|]. intros i _ Hq. unfold days, days_weight.
    unfold q in Hq. apply andb_prop in Hq. destruct Hq as [Hq _]. unfold same_year in Hq. apply Z.eqb_eq in Hq. rewrite Hq. reflexivity. }
  split.
  - intros (k & Hk & Hq). refine (eq_trans (wmean_some n (same_year ts y) (fun i => days_weight c (time_of ts i)) x Hx _ k Hk Hq) _).
    + intros i _ _. apply days_weight_pos.
    + f_equal. f_equal; [exact (D (fun w i => w * val (x i))) | exact (D (fun w _ => w))].
  - intros Hq. apply (wmean_none n (same_year ts y) (fun i => days_weight c (time_of ts i)) x). exact Hq.
Qed.
Print Assumptions C55_weighted_mean.

(** The value lies between any bounds of the year's valid samples; in particular a
    constant year gives that constant ([lo = hi]). *)
Theorem C55_bounds : forall ax a t ax' r, annual_average_da ax a t = Ok (ax', r) ->
  let ts := ta_dates ax in let n := List.length ts in
  exists ys, years_of ts ys /\
    forall e, (e "time" < List.length ys)%nat ->
      let y := nth (e "time") ys 0%Z in
      let x i := at_ a (upd e t i) in
      (forall i, (i < n)%nat -> same_year ts y i = true -> not_inf (x i)) ->
      (exists k, (k < n)%nat /\ same_year ts y k = true /\ notnull (x k) = true) ->
      forall lo hi, (forall i v, (i < n)%nat -> same_year ts y i = true -> x i = Fin v -> lo <= v <= hi) ->
      exists v, at_ r e = Fin v /\ lo <= v <= hi.
Proof.
  intros ax a t ax' r H ts n. destruct (C55_weighted_mean ax a t ax' r H) as (c & ys & Hc & Hy & _ & V).
  exists ys. split; [exact Hy|]. intros e He y x Hx (k & Hk & Hyk & Hn) lo hi Hb.
  destruct (V e He Hx) as [V1 _].
  fold ts n in V1. fold y in V1.
  set (q := fun i => same_year ts y i && notnull (at_ a (upd e t i))) in *.
  set (days := fun i => IZR (days_in_month c y (d_month (time_of ts i)))) in *.
  assert (Hq : q k = true) by (unfold q; rewrite Hyk; exact Hn).
  rewrite (V1 (ex_intro _ k (conj Hk Hq))). eexists. split; [reflexivity|].
  assert (P : forall i, 0 < days i).
  { intros i. unfold days. pose proof (dim_bounds c y (d_month (time_of ts i))) as [L _]. apply IZR_le in L. lra. }
  assert (W : 0 < Sum_if n q days) by (apply Sum_if_pos with k; auto).
  pose proof (Sum_if_bounds n q days (fun i => val (at_ a (upd e t i))) lo hi) as B.
  destruct B as [B1 B2].
  { intros i Hi Hqi. split; [apply P|]. unfold q in Hqi. apply andb_prop in Hqi. destruct Hqi as [Q1 Q2].
    specialize (Hx i Hi Q1). unfold x in *. destruct (at_ a (upd e t i)) as [|b|v] eqn:E; [discriminate|contradiction|].
    cbn [val]. apply (Hb i v Hi Q1). unfold x. exact E. }
  split.
  - apply Rmult_le_reg_r with (Sum_if n q days); [exact W|]. unfold Rdiv. rewrite Rmult_assoc, Rinv_l, Rmult_1_r by lra. exact B1.
  - apply Rmult_le_reg_r with (Sum_if n q days); [exact W|]. unfold Rdiv. rewrite Rmult_assoc, Rinv_l, Rmult_1_r by lra. exact B2.
Qed.
Print Assumptions C55_bounds.

(** Each time stamp is a valid date of its year, halfway between the start of the year
    and the start of the next one. *)
Theorem C55_time_stamps : forall ax a t ax' r, annual_average_da ax a t = Ok (ax', r) ->
  exists c ys, ta_cal ax = Some c /\ years_of (ta_dates ax) ys /\
    ta_name ax' = "time" /\ ta_cal ax' = Some c /\ List.length (ta_dates ax') = List.length ys /\
    forall k, (k < List.length ys)%nat -> let y := nth k ys 0%Z in let d := time_of (ta_dates ax') k in
      regular c y ->
      d_year d = y /\ valid_date c d /\
      abs_day c d - abs_day c (mkDate y 1 0) = abs_day c (mkDate (y + 1) 1 0) - abs_day c d.
Proof.
  intros ax a t ax' r H. unfold annual_average_da in H.
  destruct (axis_calendar ax t) as [c|] eqn:A; [|discriminate]. cbn [bind] in H.
  destruct (check_years (ta_dates ax)) as [u|] eqn:C; [|discriminate]. cbn [bind] in H.
  apply Ok_inj in H. injection H as <- <-. apply axis_calendar_inv in A. destruct A as (A1 & A2 & A3).
  exists c, (years (ta_dates ax)). split; [exact A2|]. split; [apply years_years_of|].
  split; [reflexivity|]. split; [reflexivity|]. split; [apply map_length|].
  intros k Hk y d Reg.
  assert (d = ann_midpoint c y) as ->.
  { unfold d, time_of, annual_axis. cbn [ta_dates].
    rewrite (nth_indep _ _ (ann_midpoint c 0%Z)) by (rewrite map_length; exact Hk). apply map_nth. }
  destruct (ann_midpoint_spec c y Reg) as (V & Y & M). split; [exact Y|]. split; [exact V|].
  rewrite M, !abs_day_jan1. lra.
Qed.
Print Assumptions C55_time_stamps.

(** Dataset argument: the numeric variables, each averaged as a DataArray would be;
    the others are dropped. *)
Theorem C55_dataset : forall ax vs t ax' out, annual_average_ds ax vs t = Ok (ax', out) ->
  dkeys out = map fst (filter (fun p => fst (snd p)) vs) /\
  forall k a, NoDup (dkeys vs) -> dget k vs = Some (true, a) ->
    exists r, dget k out = Some r /\ annual_average_da ax a t = Ok (ax', r).
Proof.
  intros ax vs t ax' out H. unfold annual_average_ds in H.
  destruct (axis_calendar ax t) as [c|] eqn:A; [|discriminate]. cbn [bind] in H.
  destruct (groupable _ _); [|discriminate].
  destruct (check_years (ta_dates ax)) as [u|] eqn:C; [|discriminate]. cbn [bind] in H.
  apply Ok_inj in H. injection H as <- <-. split.
  - unfold dkeys, numeric_vars. rewrite !map_map. reflexivity.
  - intros k a N G. eexists. unfold annual_average_da. rewrite A. cbn [bind]. rewrite C. cbn [bind].
    split; [|reflexivity]. clear -N G. induction vs as [|[k' [b a']] vs IH]; [discriminate|].
    cbn [dget] in G. unfold dkeys in N. cbn [map fst] in N. inversion N as [|? ? N1 N2]; subst.
    unfold numeric_vars. cbn [filter snd fst].
    destruct (String.eqb_spec k k') as [->|E].
    + injection G as -> ->. cbn [map dget fst snd]. rewrite String.eqb_refl. reflexivity.
    + specialize (IH N2 G). destruct b; [|exact IH]. cbn [map dget fst snd].
      destruct (String.eqb_spec k k'); [contradiction|]. exact IH.
Qed.
Print Assumptions C55_dataset.

(** A concrete case: one year of a leap-day calendar, value [m] in month [m] except for
    missing months 3..12: the result is (31*1 + 29*2)/60. *)
Definition one_year (y : Z) : list date := map (fun m => mkDate y m 15) (seq 1 12).
Definition jan_feb : arr :=
  mkArr [("time", 12%nat)] (fun e => if Nat.ltb (e "time") 2 then Fin (INR (S (e "time"))) else NaN).
Example C55_example : exists ax' r,
  annual_average_da (mkAxis "time" (Some Standard) (one_year 2000)) jan_feb "time" = Ok (ax', r) /\
  at_ r (fun _ => O) = Fin (89 / 60) /\ abs_day Standard (time_of (ta_dates ax') 0) = 730303 /\
  abs_day Standard (mkDate 2000 7 1) = 730303.
Proof.
  eexists _, _. split; [reflexivity|]. split; [|split].
  - rewrite annual_var_eq.
    match goal with |- wmean (map ?f ?l) = _ => change l with (seq 0 12) end.
    cbn [seq map]. unfold days_weight, jan_feb, wmean. cbn [at_ map lsum fold_right fst snd].
    unfold upd. cbn [String.eqb Ascii.eqb Bool.eqb Nat.ltb Nat.leb notnull isnull negb nan0 fillna fbool d_year d_month time_of one_year nth seq map].
    cbn [days_in_month leap gregorian_leap INR fmul fadd]. cbn.
    match goal with |- (if Reqb ?x 0 then _ else _) = _ => assert (x = 60) as E by lra; rewrite E end.
    destruct (Reqb 60 0) eqn:Z; [apply Reqb_true in Z; lra|].
    f_equal. f_equal. lra.
  - unfold annual_axis. cbn [ta_dates].
    change (years (one_year 2000)) with [2000%Z]. cbn [map].
    destruct (ann_midpoint_spec Standard 2000) as (_ & _ & M); [intros _; lia|].
    change (time_of [ann_midpoint Standard 2000] 0) with (ann_midpoint Standard 2000). rewrite M.
    change (year_start Standard 2000) with 730120%Z. change (year_start Standard (2000 + 1)) with 730486%Z. lra.
  - unfold abs_day. cbn [d_year d_month d_pos].
    change (year_start Standard 2000 + month_start Standard 2000 7)%Z with 730302%Z. lra.
Qed.

(** C56.  Only the number of samples is checked: twelve samples of one month pass. *)
Theorem C56_refuted :
  ~ (forall ax a t ax' r, annual_average_da ax a t = Ok (ax', r) ->
     forall i, (i < List.length (ta_dates ax))%nat ->
     forall m, (1 <= m <= 12)%nat -> month_present (ta_dates ax) (d_year (time_of (ta_dates ax) i)) m).
Proof.
  intros H.
  pose (ts := map (fun k => mkDate 2001 1 (INR k)) (seq 0 12)).
  destruct (annual_average_da (mkAxis "time" (Some NoLeap) ts) (mkArr [("time", 12%nat)] (fun _ => Fin 0)) "time")
    as [[ax' r]|] eqn:E.
  - destruct (H _ _ _ _ _ E O) with (m := 2%nat) as (i & Hi & _ & M); [cbn; lia | lia |].
    cbn [ta_dates] in Hi, M. unfold ts in Hi. rewrite map_length, seq_length in Hi.
    do 12 (destruct i as [|i]; [discriminate M|]). lia.
  - discriminate E.
Qed.
Print Assumptions C56_refuted.

(** What holds: an error unless every sampled year has exactly 12 samples; hence for a
    series without two samples in one month, success exactly when no month is missing. *)
Theorem C56_count_partial : forall ax a c, ta_cal ax = Some c -> ta_dates ax <> [] ->
  let ts := ta_dates ax in
  let full := forall i, (i < List.length ts)%nat ->
                count_if (List.length ts) (same_year ts (d_year (time_of ts i))) = 12%nat in
  (full -> exists out, annual_average_da ax a (ta_name ax) = Ok out) /\
  (~ full -> annual_average_da ax a (ta_name ax) = Err AssertionError).
Proof.
  intros ax a c Hc Hn ts full. unfold annual_average_da. rewrite (axis_calendar_ok ax c) by assumption. cbn [bind].
  assert (F : full <-> check_years ts = Ok tt).
  { rewrite check_years_ok. unfold full. split.
    - intros H y Hy. apply years_In in Hy. destruct Hy as (i & Hi & <-). exact (H i Hi).
    - intros H i Hi. apply H. apply years_In. exists i. auto. }
  fold ts. split; intros H.
  - apply F in H. rewrite H. eexists. reflexivity.
  - destruct (check_years ts) as [[]|e] eqn:E; [exfalso; apply H, F; reflexivity|].
    apply check_years_err in E. subst. reflexivity.
Qed.
Print Assumptions C56_count_partial.

Theorem C56_monthly_partial : forall ax a c, ta_cal ax = Some c -> ta_dates ax <> [] ->
  let ts := ta_dates ax in
  (forall i, (i < List.length ts)%nat -> (1 <= d_month (time_of ts i) <= 12)%nat) ->
  (forall i j, (i < List.length ts)%nat -> (j < List.length ts)%nat ->
     d_year (time_of ts i) = d_year (time_of ts j) -> d_month (time_of ts i) = d_month (time_of ts j) -> i = j) ->
  let full := forall i m, (i < List.length ts)%nat -> (1 <= m <= 12)%nat -> month_present ts (d_year (time_of ts i)) m in
  (full -> exists out, annual_average_da ax a (ta_name ax) = Ok out) /\
  (~ full -> annual_average_da ax a (ta_name ax) = Err AssertionError).
Proof.
  intros ax a c Hc Hn ts Hm Hd full.
  destruct (C56_count_partial ax a c Hc Hn) as [P1 P2]. fold ts in P1, P2.
  assert (E : forall i, (i < List.length ts)%nat ->
    (count_if (List.length ts) (same_year ts (d_year (time_of ts i))) = 12%nat <->
     forall m, (1 <= m <= 12)%nat -> month_present ts (d_year (time_of ts i)) m)).
  { intros i Hi. set (y := d_year (time_of ts i)).
    assert (I : forall j, In j (filter (same_year ts y) (seq 0 (List.length ts))) <-> (j < List.length ts)%nat /\ d_year (time_of ts j) = y).
    { intros j. rewrite filter_In, in_seq. unfold same_year. rewrite Z.eqb_eq. intuition lia. }
    set (ms := map (fun j => d_month (time_of ts j)) (filter (same_year ts y) (seq 0 (List.length ts)))).
    assert (NoDup ms) as N.
    { unfold ms. apply NoDup_map_in.
      - intros j k Hj Hk Q. apply I in Hj, Hk. apply Hd; try tauto. destruct Hj, Hk; congruence.
      - apply NoDup_filter, seq_NoDup. }
    assert (incl ms (seq 1 12)) as S.
    { intros m Hmm. apply in_map_iff in Hmm. destruct Hmm as (j & <- & Hj). apply I in Hj. apply in_seq. specialize (Hm j). lia. }
    assert (LL : List.length ms = count_if (List.length ts) (same_year ts y)) by apply map_length.
    rewrite <- LL. split.
    - intros Q m Hmm.
      assert (incl (seq 1 12) ms) as S' by (apply NoDup_length_incl; [exact N | rewrite Q; reflexivity | exact S]).
      assert (In m ms) as J by (apply S', in_seq; lia). apply in_map_iff in J. destruct J as (j & <- & Hj). apply I in Hj.
      exists j. tauto.
    - intros Q. apply Nat.le_antisymm.
      + change 12%nat with (List.length (seq 1 12)). apply NoDup_incl_length; assumption.
      + change 12%nat with (List.length (seq 1 12)). apply NoDup_incl_length; [apply seq_NoDup|].
        intros m Hmm. apply in_seq in Hmm. destruct (Q m) as (j & Hj & Y & <-); [lia|].
        apply in_map_iff. exists j. split; [reflexivity | apply I; auto]. }
  assert (F : full <-> forall i, (i < List.length ts)%nat -> count_if (List.length ts) (same_year ts (d_year (time_of ts i))) = 12%nat).
  { unfold full. split; intros H.
    - intros i Hi. apply E; auto.
    - intros i m Hi. apply E; auto. }
  split; intros H; [apply P1, F, H | apply P2; rewrite <- F; exact H].
Qed.
Print Assumptions C56_monthly_partial.

Example C56_example_missing :
  annual_average_da (mkAxis "time" (Some NoLeap) (one_year 2001 ++ firstn 11 (one_year 2002))%list)
    (mkArr [("time", 23%nat)] (fun _ => Fin 1)) "time" = Err AssertionError.
Proof. reflexivity. Qed.

(** C57.  A complete daily series: in every sampled year, each month has as many samples
    as days; no sample is missing. *)
Theorem C57_daily_mean : forall ax a t c,
  let ts := ta_dates ax in let n := List.length ts in
  ta_name ax = t -> ta_cal ax = Some c -> ts <> [] ->
  (forall i, (i < n)%nat -> (1 <= d_month (time_of ts i) <= 12)%nat /\ regular c (d_year (time_of ts i))) ->
  (forall i m, (i < n)%nat -> (1 <= m <= 12)%nat ->
     Z.of_nat (count_if n (fun j => same_year ts (d_year (time_of ts i)) j && same_month ts m j))
     = days_in_month c (d_year (time_of ts i)) m) ->
  exists ax1 m ax2 r ys,
    monthly_average_da ax a t = Ok (ax1, m) /\ annual_average_da ax1 m t = Ok (ax2, r) /\
    years_of ts ys /\ adims r = ("time", List.length ys) :: drop_dim t (adims a) /\
    forall e, (e "time" < List.length ys)%nat ->
      let y := nth (e "time") ys 0%Z in
      (forall i, (i < n)%nat -> is_fin (at_ a (upd e t i)) = true) ->
      at_ r e = Fin (Sum_if n (same_year ts y) (fun i => val (at_ a (upd e t i)))
                     / INR (count_if n (same_year ts y))).
Proof.
  intros [nm cl ts0] a t c ts n H1 H2 H3 H4 H5. cbn [ta_name ta_cal ta_dates] in *. subst nm cl.
  assert (Hm : forall i, (i < List.length ts)%nat -> (1 <= d_month (time_of ts i) <= 12)%nat) by (intros i Hi; apply H4, Hi).
  assert (Hr : forall i, (i < List.length ts)%nat -> regular c (d_year (time_of ts i))) by (intros i Hi; apply H4, Hi).
  assert (Hf : forall y m, (exists i, (i < List.length ts)%nat /\ d_year (time_of ts i) = y) -> (1 <= m <= 12)%nat ->
    Z.of_nat (count_if (List.length ts) (fun i => same_year ts y i && same_month ts m i)) = days_in_month c y m).
  { intros y m (i & Hi & <-) Hmm. apply H5; assumption. }
  eexists _, _, _, _, (years ts).
  split; [apply (monthly_ok c ts t a Hm Hr Hf H3)|].
  split; [apply annual_monthly_ok; assumption|].
  split; [apply years_years_of|].
  split; [apply daily_dims; assumption|].
  intros e He Hfin. apply daily_value; assumption.
Qed.
Print Assumptions C57_daily_mean.

(** C58.  Position [k] of the result belongs to month [k + 1]. *)
Theorem C58_mean : forall ax a t ty ax' r, annual_cycle_da ax a t "mean" ty = Ok (ax', r) ->
  let ts := ta_dates ax in let n := List.length ts in
  (forall i, (i < n)%nat -> (1 <= d_month (time_of ts i) <= 12)%nat) ->
  adims r = (t, 12%nat) :: drop_dim t (adims a) /\
  forall e, (e t < 12)%nat ->
    let x i := at_ a (upd e t i) in
    let q i := same_month ts (S (e t)) i && notnull (x i) in
    (forall i, (i < n)%nat -> same_month ts (S (e t)) i = true -> not_inf (x i)) ->
    ((exists k, (k < n)%nat /\ q k = true) ->
       at_ r e = Fin (Sum_if n q (fun i => val (x i)) / INR (count_if n q))) /\
    ((forall k, (k < n)%nat -> q k = false) -> at_ r e = NaN).
Proof.
  intros ax a t ty ax' r H ts n Hm. apply cycle_inv in H.
  destruct H as (c & f & Hn & Hc & Hne & F & L & -> & ->). apply Ok_inj in F. subst f.
  pose proof (cycle_months ts Hm L) as M. split.
  - unfold cycle_var. cbn [adims]. fold ts. rewrite M. reflexivity.
  - intros e He x q Hx. fold ts. rewrite (cycle_value ts t a lmean e M He). fold n. split.
    + intros (k & Hk & Hq). exact (lmean_some n (same_month ts (S (e t))) x k Hx Hk Hq).
    + intros Hq. exact (lmean_none n (same_month ts (S (e t))) x Hx Hq).
Qed.
Print Assumptions C58_mean.

(** The minimum and maximum are values of samples of that month, bound all of them, and
    hence bound the mean. *)
Theorem C58_min_max : forall ax a t ty ax1 r1 ax2 r2 ax3 r3,
  annual_cycle_da ax a t "min" ty = Ok (ax1, r1) ->
  annual_cycle_da ax a t "mean" ty = Ok (ax2, r2) ->
  annual_cycle_da ax a t "max" ty = Ok (ax3, r3) ->
  let ts := ta_dates ax in let n := List.length ts in
  (forall i, (i < n)%nat -> (1 <= d_month (time_of ts i) <= 12)%nat) ->
  forall e, (e t < 12)%nat ->
    let x i := at_ a (upd e t i) in
    let here i := (i < n)%nat /\ d_month (time_of ts i) = S (e t) in
    (forall i, here i -> not_inf (x i)) ->
    (exists k, here k /\ notnull (x k) = true) ->
    exists lo mid hi, at_ r1 e = Fin lo /\ at_ r2 e = Fin mid /\ at_ r3 e = Fin hi /\ lo <= mid <= hi /\
      (exists i, here i /\ x i = Fin lo) /\ (exists i, here i /\ x i = Fin hi) /\
      forall i v, here i -> x i = Fin v -> lo <= v <= hi.
Proof.
  intros ax a t ty ax1 r1 ax2 r2 ax3 r3 H1 H2 H3 ts n Hm e He x here Hx (k & Hk & Hkn).
  pose proof (C58_mean _ _ _ _ _ _ H2 Hm) as [_ V]. specialize (V e He). cbv zeta in V. fold ts n in V.
  apply cycle_inv in H1, H3.
  destruct H1 as (c & f & Hn & Hc & Hne & F & L & -> & ->). apply Ok_inj in F. subst f.
  destruct H3 as (c3 & f3 & _ & _ & _ & F3 & _ & -> & ->). apply Ok_inj in F3. subst f3.
  pose proof (cycle_months ts Hm L) as M. fold ts. rewrite !(cycle_value ts t a _ e M He). fold n x.
  set (l := map x (filter (same_month ts (S (e t))) (seq 0 n))).
  assert (SM : forall i, (i < n)%nat -> same_month ts (S (e t)) i = true <-> here i).
  { intros i Hi. unfold same_month, here. rewrite Nat.eqb_eq. tauto. }
  assert (I : forall v, In v l <-> exists i, here i /\ x i = v).
  { intros v. unfold l. rewrite in_map_iff. split; intros (i & A & B).
    - exists i. apply filter_In in B. destruct B as [B C]. apply in_seq in B. split; [apply SM; [lia|exact C] | exact A].
    - exists i. split; [exact B|]. apply filter_In. pose proof A as [A' _]. split; [apply in_seq; lia | apply SM; assumption]. }
  assert (J : forall v, In v l -> not_inf v) by (intros v Hv; apply I in Hv; destruct Hv as (i & Hi & <-); apply Hx, Hi).
  assert (K : exists v, In v l /\ notnull v = true) by (exists (x k); split; [apply I; eauto | exact Hkn]).
  destruct (lmin_spec l J K) as (lo & E1 & I1 & B1). destruct (lmax_spec l J K) as (hi & E3 & I3 & B3).
  destruct V as [V _]; [intros i Hi Hs; apply Hx, SM; assumption|].
  set (q := fun i => same_month ts (S (e t)) i && notnull (at_ a (upd e t i))) in *.
  assert (Hq : q k = true) by (unfold q; destruct Hk as [Hk1 Hk2]; rewrite (proj2 (SM k Hk1) (conj Hk1 Hk2)); exact Hkn).
  assert (Hkl : (k < n)%nat) by apply Hk.
  rewrite (V (ex_intro _ k (conj Hkl Hq))).
  pose proof (count_pos n q k Hkl Hq) as P. rewrite count_Sum in P |- *.
  assert (B : forall i v, here i -> x i = Fin v -> lo <= v <= hi).
  { intros i v Hi E. split; [apply B1 | apply B3]; apply I; eauto. }
  pose proof (Sum_if_bounds n q (fun _ => 1) (fun i => val (at_ a (upd e t i))) lo hi) as SB.
  destruct SB as [S1 S2].
  { intros i Hi Hqi. split; [lra|]. unfold q in Hqi. apply andb_prop in Hqi. destruct Hqi as [Q1 Q2].
    apply SM in Q1; [|exact Hi]. specialize (Hx i Q1). unfold x in Hx.
    destruct (at_ a (upd e t i)) as [|b|v] eqn:E; [discriminate|contradiction|]. cbn [val]. apply (B i v Q1). exact E. }
  rewrite (Sum_if_ext n q q (fun i => 1 * val (at_ a (upd e t i))) (fun i => val (at_ a (upd e t i)))) in S1, S2
    by (intros; try reflexivity; lra).
  eexists lo, _, hi. split; [exact E1|]. split; [reflexivity|]. split; [exact E3|]. split.
  - split; (apply Rmult_le_reg_r with (Sum_if n q (fun _ => 1)); [exact P|]; unfold Rdiv; rewrite Rmult_assoc, Rinv_l, Rmult_1_r by lra; assumption).
  - split; [apply I, I1|]. split; [apply I, I3|]. exact B.
Qed.
Print Assumptions C58_min_max.

(** [func='std'] is the population standard deviation of the month's samples. *)
Theorem C58_std : forall ax a t ty ax' r, annual_cycle_da ax a t "std" ty = Ok (ax', r) ->
  let ts := ta_dates ax in let n := List.length ts in
  (forall i, (i < n)%nat -> (1 <= d_month (time_of ts i) <= 12)%nat) ->
  forall e, (e t < 12)%nat ->
    let x i := at_ a (upd e t i) in
    let q i := same_month ts (S (e t)) i && notnull (x i) in
    (forall i, (i < n)%nat -> same_month ts (S (e t)) i = true -> not_inf (x i)) ->
    (exists k, (k < n)%nat /\ q k = true) ->
    let mu := Sum_if n q (fun i => val (x i)) / INR (count_if n q) in
    at_ r e = Fin (sqrt (Sum_if n q (fun i => (val (x i) - mu) * (val (x i) - mu)) / INR (count_if n q))).
Proof.
  intros ax a t ty ax' r H ts n Hm. apply cycle_inv in H.
  destruct H as (c & f & Hn & Hc & Hne & F & L & -> & ->). apply Ok_inj in F. subst f.
  pose proof (cycle_months ts Hm L) as M.
  intros e He x q Hx (k & Hk & Hq). fold ts. rewrite (cycle_value ts t a lstd e M He). fold n.
  exact (lstd_some n (same_month ts (S (e t))) x k Hx Hk Hq).
Qed.
Print Assumptions C58_std.

(** Success needs all twelve months; an unknown [func] is a ValueError. *)
Theorem C58_errors : forall ax a ty func c, ta_cal ax = Some c -> ta_dates ax <> [] ->
  let ts := ta_dates ax in
  (forall i, (i < List.length ts)%nat -> (1 <= d_month (time_of ts i) <= 12)%nat) ->
  (~ In func ["mean"; "min"; "max"; "std"] -> annual_cycle_da ax a (ta_name ax) func ty = Err ValueError) /\
  (In func ["mean"; "min"; "max"; "std"] ->
   let full := forall m, (1 <= m <= 12)%nat -> exists i, (i < List.length ts)%nat /\ d_month (time_of ts i) = m in
   (full -> exists out, annual_cycle_da ax a (ta_name ax) func ty = Ok out) /\
   (~ full -> annual_cycle_da ax a (ta_name ax) func ty = Err ValueError)).
Proof.
  intros ax a ty func c Hc Hne ts Hm. split.
  - intros H. unfold annual_cycle_da. rewrite (axis_calendar_ok ax c) by assumption. cbn [bind]. unfold cycle_func.
    destruct (String.eqb_spec func "mean") as [->|_]; [exfalso; apply H; cbn; tauto|].
    destruct (String.eqb_spec func "min") as [->|_]; [exfalso; apply H; cbn; tauto|].
    destruct (String.eqb_spec func "max") as [->|_]; [exfalso; apply H; cbn; tauto|].
    destruct (String.eqb_spec func "std") as [->|_]; [exfalso; apply H; cbn; tauto|]. reflexivity.
  - intros H full.
    assert (exists f, cycle_func func = Ok f) as [f F].
    { cbn [In] in H. destruct H as [<- |[<- |[<- |[<- |[]]]]]; eexists; reflexivity. }
    rewrite (cycle_ok ax a (ta_name ax) func ty c f eq_refl Hc Hne F). fold ts.
    split; intros Q.
    + apply (cycle_full_iff ts Hm) in Q. rewrite Q. eexists. reflexivity.
    + destruct (Nat.eqb_spec (List.length (months ts (positions ts))) 12) as [E|E]; [|reflexivity].
      exfalso. exact (Q (proj1 (cycle_full_iff ts Hm) E)).
Qed.
Print Assumptions C58_errors.

(** The twelve labels are the middles of the months of the requested year. *)
Theorem C58_labels : forall ax a t func y ax' r c, annual_cycle_da ax a t func (Some y) = Ok (ax', r) ->
  ta_cal ax = Some c -> regular c y ->
  ta_name ax' = t /\ List.length (ta_dates ax') = 12%nat /\
  forall k, (k < 12)%nat ->
    time_of (ta_dates ax') k = mkDate y (S k) (IZR (days_in_month c y (S k)) / 2).
Proof.
  intros ax a t func y ax' r c H Hc Reg. apply cycle_inv in H.
  destruct H as (c' & f & Hn & Hc' & Hne & F & L & -> & ->). assert (c' = c) by congruence. subst c'.
  split; [reflexivity|]. split; [apply month_midpoints_length|]. cbn [ta_dates cycle_year]. intros k Hk.
  rewrite month_midpoints_eq by exact Reg. unfold time_of.
  do 12 (destruct k as [|k]; [reflexivity|]). lia.
Qed.
Print Assumptions C58_labels.

Definition two_years : list date := (one_year 2000 ++ one_year 2001)%list.
Definition ramp : arr := mkArr [("time", 24%nat)] (fun e => if Nat.eqb (e "time") 12 then NaN else Fin (INR (e "time"))).
(** January: the second value is missing; February: mean of 1 and 13. *)
Example C58_example : exists ax' r,
  annual_cycle_da (mkAxis "time" (Some NoLeap) two_years) ramp "time" "mean" None = Ok (ax', r) /\
  at_ r (fun _ => O) = Fin 0 /\ at_ r (fun _ => 1%nat) = Fin 7.
Proof.
  eexists _, _. split; [reflexivity|]. split.
  - unfold cycle_var. cbn [at_ ta_dates]. change (months two_years (positions two_years)) with (seq 1 12). cbn [seq nth].
    change (of_month two_years 1 (positions two_years)) with [0; 12]%nat. cbn [map]. unfold ramp. cbn [at_]. unfold upd. cbn.
    replace (0 + (0 + 0)) with 0 by lra.
    destruct (Reqb 1 0) eqn:Z; [apply Reqb_true in Z; lra|]. f_equal. lra.
  - unfold cycle_var. cbn [at_ ta_dates]. change (months two_years (positions two_years)) with (seq 1 12). cbn [seq nth].
    change (of_month two_years 2 (positions two_years)) with [1; 13]%nat. cbn [map]. unfold ramp. cbn [at_]. unfold upd. cbn.
    match goal with |- (if Reqb ?x 0 then _ else _) = _ => destruct (Reqb x 0) eqn:Z; [apply Reqb_true in Z; lra|] end.
    f_equal. lra.
Qed.

(** C78: steric(annual=True).  The averaging always looks for a coordinate called
    "time", whatever [coord_names] says. *)
Theorem C78_refuted :
  ~ (forall ax dset cn eos variant domain r ref c,
       steric dset None cn None 1035 (scalar (Fin 101325)) eos variant domain true = Ok (r, ref) ->
       ta_name ax = fst (fst (default_coords cn)) -> ta_cal ax = Some c -> ta_dates ax = one_year 2001 ->
       exists out, steric_annual ax dset None cn None 1035 (scalar (Fin 101325)) eos variant domain true = Ok out).
Proof.
  intros H. destruct (tdemo_ok "t" (or_introl eq_refl)) as (r & ref & E).
  destruct (H (mkAxis "t" (Some NoLeap) (one_year 2001)) (tdemo "t") (Some [("t", "t")]) "Linear" "steric" "local" r ref NoLeap E
              eq_refl eq_refl eq_refl) as [out F].
  unfold steric_annual in F. rewrite E in F. cbn [bind] in F. discriminate F.
Qed.
Print Assumptions C78_refuted.

(** Exactly: any other coordinate name is a KeyError; with "time" and complete years the
    local result is averaged variable by variable. *)
Theorem C78_partial : forall ax dset reference cn vm rhozero patm eos variant domain strict r ref c,
  steric dset reference cn vm rhozero patm eos variant domain strict = Ok (r, ref) ->
  ta_name ax = fst (fst (default_coords cn)) -> ta_cal ax = Some c -> ta_dates ax <> [] ->
  let call := steric_annual ax dset reference cn vm rhozero patm eos variant domain strict in
  (ta_name ax <> "time" -> call = Err KeyError) /\
  (ta_name ax = "time" -> domain <> "global" ->
     (forall i, (i < List.length (ta_dates ax))%nat ->
        count_if (List.length (ta_dates ax)) (same_year (ta_dates ax) (d_year (time_of (ta_dates ax) i))) = 12%nat) ->
     exists ax' out, call = Ok (ax', out, ref) /\
       forall k a, NoDup (dkeys r) -> dget k r = Some a ->
         exists a', dget k out = Some a' /\ annual_average_da ax a "time" = Ok (ax', a')).
Proof.
  intros ax dset reference cn vm rhozero patm eos variant domain strict r ref c E Hn Hc Hne call.
  unfold call, steric_annual. rewrite E. cbn [bind fst snd]. split.
  - intros N. unfold annual_average_ds, axis_calendar. destruct (String.eqb_spec (ta_name ax) "time"); [contradiction|]. reflexivity.
  - intros N Hd Hf. set (vs := map (fun p => (fst p, (true, snd p))) r).
    assert (G : groupable "time" (numeric_vars vs) = true).
    { unfold steric in E. apply bind_inv in E. destruct E as (ds & _ & E).
      destruct (default_coords cn) as [[t z] zb]. cbn [fst] in Hn.
      repeat (apply bind_inv in E; destruct E as (? & ? & E)). apply Ok_inj in E. injection E as -> <-.
      destruct (String.eqb_spec domain "global") as [|_]; [contradiction|].
      match goal with H : steric_local _ _ _ _ _ _ _ _ = Ok _ |- _ => apply local_has_time in H; destruct H as (delta & Hi & Ht) end.
      unfold groupable. apply existsb_exists. exists ("delta_rho", delta). split; [|cbn [snd]; congruence].
      unfold numeric_vars, vs. clear -Hi. induction r as [|[k a] r IH]; [destruct Hi|].
      cbn [map filter fst snd]. destruct Hi as [Hi|Hi]; [left; congruence | right; apply IH; exact Hi]. }
    assert (K : check_years (ta_dates ax) = Ok tt).
    { apply check_years_ok. intros y Hy. apply years_In in Hy. destruct Hy as (i & Hi & <-). apply Hf, Hi. }
    destruct (annual_average_ds ax vs "time") as [[ax' out]|] eqn:Q.
    + exists ax', out. split; [reflexivity|]. intros k a Nd Gk.
      destruct (C55_dataset ax vs "time" ax' out Q) as [_ D]. apply D.
      * unfold vs, dkeys. rewrite map_map. exact Nd.
      * unfold vs. clear -Gk. induction r as [|[k' a'] r IH]; [discriminate|]. cbn [map dget fst snd] in *.
        destruct (String.eqb k k'); [injection Gk as <-; reflexivity | apply IH, Gk].
    + exfalso. unfold annual_average_ds in Q. rewrite <- N in Q. rewrite (axis_calendar_ok ax c) in Q by assumption.
      cbn [bind] in Q. rewrite N, G, K in Q. discriminate Q.
Qed.
Print Assumptions C78_partial.

(** Twelve months of the demonstration dataset. *)
Example C78_case : exists r ref ax' out,
  let ax := mkAxis "time" (Some NoLeap) (one_year 2001) in
  steric (tdemo "time") None (Some [("t", "time")]) None 1035 (scalar (Fin 101325)) "Linear" "steric" "local" true = Ok (r, ref) /\
  steric_annual ax (tdemo "time") None (Some [("t", "time")]) None 1035 (scalar (Fin 101325)) "Linear" "steric" "local" true = Ok (ax', out, ref).
Proof.
  destruct (tdemo_ok "time" (or_intror eq_refl)) as (r & ref & E).
  destruct (C78_partial (mkAxis "time" (Some NoLeap) (one_year 2001)) _ _ _ _ _ _ _ _ _ _ _ _ NoLeap E eq_refl eq_refl) as [_ Q]; [discriminate|].
  destruct Q as (ax' & out & F & _); [reflexivity|discriminate| |exists r, ref, ax', out; split; [exact E|exact F]].
  intros i Hi. cbn in Hi. do 12 (destruct i as [|i]; [reflexivity|]). lia.
Qed.

(** C79: a Dataset variable without the time dimension gains one. *)
Theorem C79_refuted :
  ~ (forall ax vs t ax' out k a r, annual_average_ds ax vs t = Ok (ax', out) ->
       NoDup (dkeys vs) -> dget k vs = Some (true, a) -> has_dim t a = false -> dget k out = Some r -> adims r = adims a).
Proof.
  intros H.
  pose (vs := [("zos", (true, mkArr [("time", 12%nat)] (fun _ => Fin 1))); ("area", (true, mkArr [("x", 3%nat)] (fun _ => Fin 2)))] : tvars).
  destruct (annual_average_ds (mkAxis "time" (Some NoLeap) (one_year 2001)) vs "time") as [[ax' out]|] eqn:E; [|discriminate E].
  unfold annual_average_ds in E. cbn in E. apply Ok_inj in E. injection E as <- <-.
  assert (N : NoDup (dkeys vs)) by (repeat constructor; cbn; intuition discriminate).
  specialize (H (mkAxis "time" (Some NoLeap) (one_year 2001)) vs "time" _ _ "area" (mkArr [("x", 3%nat)] (fun _ => Fin 2)) _ eq_refl N
    eq_refl eq_refl eq_refl). discriminate H.
Qed.
Print Assumptions C79_refuted.

(** Its values are repeated unchanged for every year. *)
Theorem C79_partial : forall ax vs t ax' out k a, annual_average_ds ax vs t = Ok (ax', out) ->
  NoDup (dkeys vs) -> dget k vs = Some (true, a) -> wf_arr a -> has_dim t a = false ->
  exists r ys, dget k out = Some r /\ years_of (ta_dates ax) ys /\ adims r = ("time", List.length ys) :: adims a /\
    forall e, (e "time" < List.length ys)%nat -> not_inf (at_ a e) -> at_ r e = at_ a e.
Proof.
  intros ax vs t ax' out k a H N G [Nd W] T.
  destruct (C55_dataset ax vs t ax' out H) as [_ D]. destruct (D k a N G) as (r & E & A).
  destruct (C55_weighted_mean ax a t ax' r A) as (c & ys & Hc & Hy & Hd & V).
  exists r, ys. split; [exact E|]. split; [exact Hy|].
  assert (TN : ~ In t (names a)).
  { intros I. unfold has_dim, dmem in T. destruct (dget t (adims a)) eqn:Q; [discriminate|]. apply dget_None in Q. exact (Q I). }
  split.
  - rewrite Hd. f_equal. clear -TN. unfold names in TN. induction (adims a) as [|[d m] l IH]; [reflexivity|].
    cbn [drop_dim filter fst map] in *. unfold drop_dim. cbn [filter fst]. destruct (String.eqb_spec t d) as [->|Ne].
    + exfalso. apply TN. left; reflexivity.
    + cbn [negb]. f_equal. apply IH. intros I. apply TN. right; exact I.
  - intros e He NI.
    assert (X : forall i, at_ a (upd e t i) = at_ a e).
    { intros i. apply W. intros d Hin. apply upd_other. intros ->. exact (TN Hin). }
    destruct (V e He) as [V1 V2]; [intros i _ _; rewrite X; exact NI|].
    assert (In (nth (e "time") ys 0%Z) ys) as Hin by (apply nth_In; exact He).
    apply (proj2 Hy) in Hin. destruct Hin as (i & Hi & Ei).
    set (y := nth (e "time") ys 0%Z) in *.
    destruct (at_ a e) as [|b|v] eqn:Q; [|contradiction|].
    + apply V2. intros j Hj. rewrite X. apply andb_false_r.
    + assert (B : at_ r e = Fin v); [|exact B].
      destruct (C55_bounds ax a t ax' r A) as (ys' & Hy' & B).
      assert (ys' = ys) as ->.
      { assert (Sx : forall l, ascending l -> StronglySorted Z.lt l).
        { clear. induction l as [|z l IH]; intros S; constructor.
          - apply IH. intros p q Hpq. apply (S (Datatypes.S p) (Datatypes.S q)). cbn; lia.
          - apply Forall_forall. intros w Hw. destruct (In_nth _ _ 0%Z Hw) as (j & Hj & <-). apply (S O (Datatypes.S j)). cbn; lia. }
        apply sorted_unique; [apply Sx, Hy' | apply Sx, Hy |]. intros z. rewrite (proj2 Hy' z), (proj2 Hy z). reflexivity. }
      destruct (B e He) with (lo := v) (hi := v) as (u & Eu & Bu).
      * intros j _ _. rewrite X. exact I.
      * exists i. split; [exact Hi|]. split; [unfold same_year; apply Z.eqb_eq; exact Ei | rewrite X; reflexivity].
      * intros j w Hj _ Ew. rewrite X in Ew. injection Ew as ->. lra.
      * rewrite Eu. f_equal. lra.
Qed.
Print Assumptions C79_partial.

(** A grid-cell area next to twelve months of sea level. *)
Example C79_case : exists ax' out r,
  annual_average_ds (mkAxis "time" (Some NoLeap) (one_year 2001))
    [("zos", (true, mkArr [("time", 12%nat)] (fun _ => Fin 1))); ("area", (true, mkArr [("x", 3%nat)] (fun e => Fin (INR (e "x")))))] "time" = Ok (ax', out) /\
  dget "area" out = Some r /\ adims r = [("time", 1%nat); ("x", 3%nat)] /\ at_ r (fun d => if String.eqb d "x" then 2%nat else 0%nat) = Fin (INR 2).
Proof.
  pose (vs := [("zos", (true, mkArr [("time", 12%nat)] (fun _ => Fin 1))); ("area", (true, mkArr [("x", 3%nat)] (fun e => Fin (INR (e "x")))))] : tvars).
  destruct (annual_average_ds (mkAxis "time" (Some NoLeap) (one_year 2001)) vs "time") as [[ax' out]|] eqn:E; [|discriminate E].
  destruct (C79_partial _ _ _ _ _ "area" (mkArr [("x", 3%nat)] (fun e => Fin (INR (e "x")))) E) as (r & ys & G & Y & D & V).
  - repeat constructor; cbn; intuition discriminate.
  - reflexivity.
  - split; [repeat constructor; cbn; tauto|]. intros e e' H. cbn. rewrite (H "x") by (cbn; tauto). reflexivity.
  - reflexivity.
  - exists ax', out, r. split; [exact E|]. split; [exact G|].
    assert (L : List.length ys = 1%nat).
    { unfold annual_average_ds in E. cbn in E. apply Ok_inj in E. injection E as _ <-. cbn in G. injection G as <-. cbn in D. congruence. }
    rewrite L in D, V. split; [exact D|]. rewrite V; [reflexivity|cbn; lia|]. exact I.
Qed.
