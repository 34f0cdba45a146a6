(** * PropertiesTestData: C71, C72, C80, and the daily mean (C57) on generated axes *)
From Coq Require Import Reals ZArith Lra Lia List String Bool Arith.
From Verif Require Import Num NumFacts Py Arr ArrFacts Eos SpecEos Derived Calendar TimeAvg Dataset SpecTime SpecSteric
  ProofsEos ProofsEosApi ProofsUtil ProofsCal ProofsAvg ProofsAvg2 ProofsAvg3 PropertiesTime YearText ProofsYearText TestData ProofsTestTime ProofsTestData ProofsStericOk ProofsTide.
Import ListNotations.
Local Open Scope string_scope.
Local Open Scope R_scope.

(** The mixed calendar's year 1582 is out of reach of the generated days (time.py counts
    366 days per year before cutting). *)
Definition no_reform (c : cal) (s : Z) (n : nat) : Prop :=
  forall y, (s <= y <= s + 2 * Z.of_nat n)%Z -> SpecTime.regular c y.

(** ** C71 *)
(** A date is listed exactly when it is midnight of a day of the requested years; no day is
    listed twice, and consecutive entries are one day apart. *)
Theorem C71_daily : forall s n c, no_reform c s n ->
  let l := generate_daily_timeaxis s n c in
  NoDup l /\
  (forall d, In d l <-> (s <= d_year d < s + Z.of_nat n)%Z /\ (1 <= d_month d <= 12)%nat /\
      exists k : nat, (Z.of_nat k < days_in_month c (d_year d) (d_month d))%Z /\ d_pos d = INR k) /\
  (forall i, (S i < List.length l)%nat -> abs_day c (time_of l (S i)) = abs_day c (time_of l i) + 1).
Proof.
  intros s n c H l. pose proof (ndays_le c s n H) as NL. split; [|split].
  - unfold l. rewrite daily_list by exact H. apply NoDup_map_in; [|apply seq_NoDup].
    intros i j Hi Hj E. apply in_seq in Hi, Hj. eapply (day_inj c s n H); [lia|lia|exact E].
  - intros d. unfold l. rewrite daily_list by exact H. rewrite in_map_iff. split.
    + intros (k & <- & Hk). apply in_seq in Hk. split; [apply (day_year c s n H); lia|].
      apply (day_whole c s n H). lia.
    + intros (Y & W). destruct (day_surj c s n H d W Y) as (k & Hk & E). exists k. split; [exact E|apply in_seq; lia].
  - intros i Hi. unfold l in *. rewrite daily_length in Hi by exact H. rewrite !daily_time_of by (exact H || lia).
    destruct (day_spec c s n H i ltac:(lia)) as (_ & -> & _). destruct (day_spec c s n H (S i) ltac:(lia)) as (_ & -> & _).
    rewrite S_INR. lra.
Qed.
Print Assumptions C71_daily.

(** The stub datasets; years of four digits (for other years see C127). *)
Definition good_stub (c : cal) (s : Z) (n m : nat) (st : stub) : Prop :=
  List.length (st_time st) = m /\ List.length (st_bnds st) = m /\
  st_T1 st = map fst (st_bnds st) /\ st_T2 st = map snd (st_bnds st) /\
  (forall k d0 b0, (k < m)%nat ->
     let b := nth k (st_bnds st) b0 in let t := nth k (st_time st) d0 in
     valid_date c (fst b) /\ valid_date c t /\
     abs_day c (fst b) < abs_day c t < abs_day c (snd b) /\
     abs_day c t - abs_day c (fst b) = abs_day c (snd b) - abs_day c t /\
     nth k (st_DT st) 0 = abs_day c (snd b) - abs_day c (fst b)) /\
  (forall k b0, (S k < m)%nat -> snd (nth k (st_bnds st) b0) = fst (nth (S k) (st_bnds st) b0)) /\
  fold_right Rplus 0 (st_DT st) = IZR (year_start c (s + Z.of_nat n)) - IZR (year_start c s).

Lemma good_of c s n m f :
  (forall k, (k < m)%nat -> valid_date c (f k)) ->
  (forall k, (k < m)%nat -> abs_day c (f k) < abs_day c (f (S k))) ->
  (forall k, (k < m)%nat ->
    valid_date c (midpoint c (f k) (f (S k))) /\
    abs_day c (midpoint c (f k) (f (S k))) = (abs_day c (f k) + abs_day c (f (S k))) / 2) ->
  abs_day c (f O) = IZR (year_start c s) -> abs_day c (f m) = IZR (year_start c (s + Z.of_nat n)) ->
  good_stub c s n m (the_stub c f m).
Proof.
  intros V I M A B. destruct (stub_facts c f m I M) as (L1 & L2 & T1 & T2 & P & F).
  split; [exact L1|]. split; [exact L2|]. split; [exact T1|]. split; [exact T2|]. split; [|split].
  - intros k d0 b0 Hk b t. destruct (P k d0 b0 Hk) as (E & Vt & R). split; [|split; [exact Vt|exact R]].
    unfold b. rewrite E. apply V, Hk.
  - intros k b0 Hk. destruct (P k (f O) b0 ltac:(lia)) as (E & _). destruct (P (S k) (f O) b0 Hk) as (E' & _).
    rewrite E, E'. reflexivity.
  - rewrite F, A, B. reflexivity.
Qed.

Theorem C71_stub_monthly : forall s n c, (1000 <= s <= 9999)%Z -> no_reform c s n ->
  exists st, generate_time_stub s n c "MS" = Ok st /\ good_stub c s n (12 * n) st /\
    forall k b0, (k < 12 * n)%nat ->
      let b := fst (nth k (st_bnds st) b0) in
      b = mkDate (s + Z.of_nat (k / 12)) (S (k mod 12)) 0 /\ nth k (st_DT st) 0 = IZR (days_in_month c (d_year b) (d_month b)).
Proof.
  intros s n c W H. exists (the_stub c (month_at s) (12 * n)).
  assert (HR : forall k, (k < 12 * n)%nat -> SpecTime.regular c (s + Z.of_nat (k / 12))).
  { intros k Hk. apply H. pose proof (Nat.div_lt_upper_bound k 12 n ltac:(lia) Hk). lia. }
  assert (G : good_stub c s n (12 * n) (the_stub c (month_at s) (12 * n))).
  { apply good_of.
    - intros k Hk. pose proof (Nat.mod_upper_bound k 12 ltac:(lia)). apply first_valid. lia.
    - intros k Hk. apply (month_at_mid c s k (HR k Hk)).
    - intros k Hk. apply (month_at_mid c s k (HR k Hk)).
    - unfold month_at. cbn [Nat.div Nat.modulo Nat.divmod fst snd]. replace (s + Z.of_nat 0)%Z with s by lia. apply abs_day_jan1.
    - unfold month_at. rewrite (Nat.mul_comm 12), Nat.div_mul, Nat.mod_mul by lia. apply abs_day_jan1. }
  split; [|split; [exact G|]].
  - unfold generate_time_stub, stub_bounds. rewrite plain_start_ok by exact W. cbn [String.eqb Ascii.eqb Bool.eqb bind]. unfold range_MS.
    rewrite (Nat.mul_comm n), Nat.add_1_r. reflexivity.
  - intros k b0 Hk b. destruct G as (_ & _ & _ & _ & P & _). destruct (P k (month_at s 0) b0 Hk) as (_ & _ & _ & _ & E).
    assert (I : forall k, (k < 12 * n)%nat -> abs_day c (month_at s k) < abs_day c (month_at s (S k))) by (intros j Hj; apply (month_at_mid c s j (HR j Hj))).
    assert (M : forall k, (k < 12 * n)%nat -> valid_date c (midpoint c (month_at s k) (month_at s (S k))) /\
       abs_day c (midpoint c (month_at s k) (month_at s (S k))) = (abs_day c (month_at s k) + abs_day c (month_at s (S k))) / 2)
      by (intros j Hj; apply (month_at_mid c s j (HR j Hj))).
    destruct (stub_facts c (month_at s) (12 * n) I M) as (_ & _ & _ & _ & P2 & _).
    destruct (P2 k (month_at s 0) b0 Hk) as (E2 & _).
    cbv zeta in E. unfold b. rewrite E2 in E |- *. cbn [fst snd] in *. split; [reflexivity|]. rewrite E.
    rewrite month_at_S. pose proof (Nat.mod_upper_bound k 12 ltac:(lia)).
    pose proof (abs_day_next c (s + Z.of_nat (k / 12)) (S (k mod 12)) (HR k Hk) ltac:(lia)) as N.
    unfold month_at in *. cbn [d_year d_month]. cbv zeta in N. rewrite N. lra.
Qed.
Print Assumptions C71_stub_monthly.

Theorem C71_stub_daily : forall s n c, (1000 <= s <= 9999)%Z -> no_reform c s n ->
  exists st, generate_time_stub s n c "D" = Ok st /\
    good_stub c s n (Z.to_nat (year_start c (s + Z.of_nat n) - year_start c s)) st /\
    st_T1 st = generate_daily_timeaxis s n c /\ (forall x, In x (st_DT st) -> x = 1).
Proof.
  intros s n c W H. pose (f := fun k => add_days c (mkDate s 1 0) (INR k)).
  pose proof (ndays_le c s n H) as NL.
  exists (the_stub c f (ndays c s n)).
  assert (A : forall k, (k <= ndays c s n)%nat -> abs_day c (f k) = IZR (year_start c s) + INR k).
  { intros k Hk. apply (day_spec c s n H k). lia. }
  assert (I : forall k, (k < ndays c s n)%nat -> abs_day c (f k) < abs_day c (f (S k))).
  { intros k Hk. rewrite !A by lia. rewrite S_INR. lra. }
  assert (M : forall k, (k < ndays c s n)%nat -> valid_date c (midpoint c (f k) (f (S k))) /\
    abs_day c (midpoint c (f k) (f (S k))) = (abs_day c (f k) + abs_day c (f (S k))) / 2).
  { intros k Hk. unfold midpoint, dsub. rewrite (A (S k)), (A k) by lia. rewrite S_INR.
    replace ((IZR (year_start c s) + (INR k + 1) - (IZR (year_start c s) + INR k)) / 2) with (1 / 2) by lra.
    destruct (day_spec c s n H k ltac:(lia)) as (V & A0 & Y).
    destruct (add_days_spec c (s + 2 * Z.of_nat n) (f k) (1 / 2)) as (V2 & A2 & _).
    - exact V.
    - lra.
    - unfold f. lia.
    - intros y Hy. apply H. unfold f in Hy. lia.
    - fold (f k) in A0. rewrite A0. pose proof (ndays_eq c s n) as Q.
      assert (INR k + 1 <= INR (ndays c s n)) by (rewrite <- S_INR; apply le_INR; lia).
      assert (year_start c (s + Z.of_nat n) <= year_start c (s + 2 * Z.of_nat n + 1))%Z as Z1 by (pose proof (year_start_mono c (s + Z.of_nat n) (s + 2 * Z.of_nat n + 1)); lia).
      apply IZR_le in Z1. lra.
    - split; [exact V2|]. fold (f k) in A0. rewrite A2, A0. lra. }
  split; [|split; [|split]].
  - unfold generate_time_stub. rewrite daily_bounds by assumption. reflexivity.
  - change (Z.to_nat _) with (ndays c s n). apply good_of.
    + intros k Hk. apply (day_spec c s n H k). lia.
    + exact I.
    + exact M.
    + rewrite A by lia. cbn [INR]. lra.
    + rewrite A by lia. symmetry. apply ndays_eq.
  - unfold the_stub. cbn [st_T1]. rewrite pairs_map, map_map. cbn [fst]. symmetry. apply daily_list, H.
  - unfold the_stub. cbn [st_DT]. rewrite pairs_map, map_map. cbn [fst snd]. intros x Hx. apply in_map_iff in Hx.
    destruct Hx as (k & <- & Hk). apply in_seq in Hk. unfold dsub. rewrite !A by lia. rewrite S_INR. lra.
Qed.
Print Assumptions C71_stub_daily.

Theorem C71_other_frequency : forall s n c fr, fr <> "MS" -> fr <> "D" -> generate_time_stub s n c fr = Err ValueError.
Proof.
  intros s n c fr H1 H2. unfold generate_time_stub, stub_bounds.
  apply String.eqb_neq in H1, H2. rewrite H1, H2. reflexivity.
Qed.
Print Assumptions C71_other_frequency.

(** Ten leap-free years are 3650 days; 2000 has a 29 February in the Gregorian calendar. *)
Example C71_example : List.length (generate_daily_timeaxis 1 10 NoLeap) = 3650%nat /\
  In (mkDate 2000 2 (INR 28)) (generate_daily_timeaxis 1999 2 Proleptic) /\
  ~ In (mkDate 2000 2 (INR 28)) (generate_daily_timeaxis 1999 2 NoLeap).
Proof.
  split; [|split].
  - rewrite daily_length by (intros y _ E; discriminate). reflexivity.
  - apply C71_daily; [intros y _ E; discriminate|]. cbn [d_year d_month d_pos]. split; [lia|]. split; [lia|].
    exists 28%nat. split; reflexivity.
  - intros I. apply C71_daily in I; [|intros y _ E; discriminate]. destruct I as (_ & _ & k & Hk & E).
    cbn [d_year d_month d_pos] in *. apply INR_eq in E. subst k. cbn in Hk. lia.
Qed.

(** C57 on the generated axis: for every start, length and calendar, the monthly then annual
    mean of a complete daily field is its mean over the days of the year. *)
Theorem C57_generated : forall s n c a, no_reform c s n -> (1 <= n)%nat ->
  let ts := generate_daily_timeaxis s n c in
  exists ax1 m ax2 r ys,
    monthly_average_da (mkAxis "time" (Some c) ts) a "time" = Ok (ax1, m) /\ annual_average_da ax1 m "time" = Ok (ax2, r) /\
    years_of ts ys /\ (forall y, In y ys <-> (s <= y < s + Z.of_nat n)%Z) /\
    forall e, (e "time" < List.length ys)%nat ->
      let y := nth (e "time") ys 0%Z in
      (forall i, (i < List.length ts)%nat -> is_fin (at_ a (upd e "time" i)) = true) ->
      at_ r e = Fin (Sum_if (List.length ts) (same_year ts y) (fun i => val (at_ a (upd e "time" i)))
                     / INR (count_if (List.length ts) (same_year ts y))).
Proof.
  intros s n c a H Hn ts. pose proof (ndays_le c s n H) as NL.
  assert (TS : forall i, (i < List.length ts)%nat -> (1 <= d_month (time_of ts i) <= 12)%nat /\ (s <= d_year (time_of ts i) < s + Z.of_nat n)%Z).
  { intros i Hi. unfold ts in *. rewrite daily_length in Hi by exact H. rewrite daily_time_of by (exact H || exact Hi).
    split; [apply (day_whole c s n H); lia|apply (day_year c s n H); exact Hi]. }
  assert (IN : forall y, (s <= y < s + Z.of_nat n)%Z -> exists i, (i < List.length ts)%nat /\ d_year (time_of ts i) = y).
  { intros y Hy. destruct (day_surj c s n H (mkDate y 1 (INR 0))) as (k & Hk & E).
    - split; [cbn; lia|]. exists O. cbn [d_year d_month d_pos]. pose proof (dim_bounds c y 1). split; [lia|reflexivity].
    - exact Hy.
    - exists k. unfold ts. rewrite daily_length by exact H. split; [exact Hk|]. rewrite daily_time_of by (exact H || exact Hk). rewrite E. reflexivity. }
  destruct (C57_daily_mean (mkAxis "time" (Some c) ts) a "time" c) as (ax1 & m & ax2 & r & ys & E1 & E2 & Y & _ & V); cbn [ta_name ta_cal ta_dates].
  - reflexivity.
  - reflexivity.
  - intros E. destruct (IN s ltac:(lia)) as (i & Hi & _). rewrite E in Hi. cbn in Hi. lia.
  - intros i Hi. destruct (TS i Hi) as [M B]. split; [exact M|]. apply H. lia.
  - intros i m Hi Hm. apply (daily_count c s n H); [apply (TS i Hi)|exact Hm].
  - exists ax1, m, ax2, r, ys. split; [exact E1|]. split; [exact E2|]. split; [exact Y|]. split; [|exact V].
    intros y. destruct Y as [_ Y]. cbn [ta_dates] in Y. rewrite Y. split; [|apply IN].
    intros (i & Hi & <-). apply TS, Hi.
Qed.
Print Assumptions C57_generated.

(** ** C72 *)
Theorem C72_area : forall ds point dx dy glon glat name f, In (point, (dx, dy, glon, glat, name)) point_dict ->
  Rsum 5 (fun j => Rsum 5 (fun i => f j i)) <> 0 ->
  exists ds' a, xy_fields ds point f = Ok ds' /\ dget name ds' = Some a /\ adims a = [(dy, 5%nat); (dx, 5%nat)] /\
    (forall e, at_ (asum_all a) e = Fin 361110920000000) /\
    (forall e, at_ a e = Fin (f (e dy) (e dx) / Rsum 5 (fun j => Rsum 5 (fun i => f j i)) * 361110920000000)) /\
    validate_areacello a (Fin 361110920000000%R) (Fin (2 / 100)%R) = true.
Proof.
  intros ds point dx dy glon glat name f I Hs.
  assert (Hd : dy <> dx) by (cbn in I; destruct I as [I|[I|[I|[I|[]]]]]; injection I as <- <- <- <- <- <-; discriminate).
  destruct (normalised_ok dy dx f Hd Hs) as (a & E & D & V & S & A).
  assert (L : dlookup point point_dict = Ok (dx, dy, glon, glat, name)) by (cbn in I; destruct I as [I|[I|[I|[I|[]]]]]; injection I as <- <- <- <- <- <-; reflexivity).
  eexists _, a. unfold xy_fields. rewrite L. cbn [bind]. rewrite E. cbn [bind]. split; [reflexivity|].
  split; [|split; [exact D|split; [exact S|split; [exact V|exact A]]]]. apply dget_dset_same.
Qed.
Print Assumptions C72_area.

(** Uniform random fields (times 1e6 or not) are a case: all values positive. *)
Example C72_example : exists ds' a, xy_fields [] "v" (fun j i => 1 + INR j * INR i) = Ok ds' /\ dget "areacello_cv" ds' = Some a /\
  validate_areacello a (Fin 361110920000000%R) (Fin (2 / 100)%R) = true.
Proof.
  destruct (C72_area [] "v" "xh" "yq" "geolon_v" "geolat_v" "areacello_cv" (fun j i => 1 + INR j * INR i)) as (d & a & E & G & _ & _ & _ & A).
  - cbn. tauto.
  - cbn. lra.
  - exists d, a. auto.
Qed.

(** ** C80: steric succeeds on every generated dataset *)
Theorem C80_generated_accepted : forall nt f g T S V strict extra,
  Rsum 5 (fun j => Rsum 5 (fun i => f j i)) <> 0 -> (forall j i, 0 <= g j i) -> incl extra ["z_i"; "deptho"] ->
  exists ds, generate_test_data nt f g T S V = Ok ds /\ validate_dataset ds false strict extra = Ok tt.
Proof.
  intros nt f g T S V strict extra Hs Hg Hx.
  destruct (generated_regular nt f g T S V Hs Hg) as (ds & a & E & Ea & RG).
  destruct (normalised_ok "yh" "xh" f ltac:(discriminate) Hs) as (a' & E' & _ & _ & _ & A).
  unfold h_area in Ea. rewrite E' in Ea. apply Ok_inj in Ea. subst a'.
  exists ds. split; [exact E|]. eapply input_valid; [exact RG|intros _; exact A|exact Hx].
Qed.
Print Assumptions C80_generated_accepted.

Theorem C80_generated_steric : forall nt f g T S V m eos variant domain strict pa,
  Rsum 5 (fun j => Rsum 5 (fun i => f j i)) <> 0 -> (forall j i, 0 <= g j i) -> (1 <= nt)%nat ->
  same_name eos (module_name m) -> In variant ["steric"; "thermosteric"; "halosteric"] ->
  exists ds r ref, generate_test_data nt f g T S V = Ok ds /\
    steric ds None None None 1035 (scalar pa) eos variant domain strict = Ok (r, ref).
Proof.
  intros nt f g T S V m eos variant domain strict pa Hs Hg Hnt Hm Hv.
  destruct (generated_regular nt f g T S V Hs Hg) as (ds & a & E & Ea & RG).
  destruct (normalised_ok "yh" "xh" f ltac:(discriminate) Hs) as (a' & E' & _ & _ & _ & A).
  unfold h_area in Ea. rewrite E' in Ea. apply Ok_inj in Ea. subst a'.
  destruct (steric_ok _ _ _ _ _ _ _ _ _ _ _ _ _ _ _ _ _ _ RG strict pa eos m Hm (fun _ => A) None 1035 variant domain eq_refl Hv Hnt) as (r & ref & Er).
  { intros _. lra. }
  exists ds, r, ref. auto.
Qed.
Print Assumptions C80_generated_steric.

Example C80_example : exists ds r ref,
  generate_test_data 5 (fun _ _ => 1 / 2) (fun _ _ => 1 / 3) (fun t k j i => 15 + INR t) (fun _ _ _ _ => 35) (fun _ _ _ _ => 1000) = Ok ds /\
  steric ds None None None 1035 (scalar (Fin 101325)) "Wright" "thermosteric" "local" true = Ok (r, ref).
Proof.
  apply (C80_generated_steric 5 _ _ _ _ _ Wright); [cbn; lra|intros; lra|lia|apply same_name_lower; reflexivity|cbn; tauto].
Qed.
