(** * ProofsTestTime: generated time axes *)
From Coq Require Import Reals ZArith List String Bool Arith Lia Lra.
From Verif Require Import Num NumFacts Py Arr ArrFacts Calendar SpecTime YearText ProofsYearText TestData ProofsCal ProofsUtil ProofsAvg2 ProofsAvg3.
Import ListNotations.
Local Open Scope R_scope.

Lemma year_len_360 c y : regular c y -> (year_start c y + 360 <= year_start c (y + 1) <= year_start c y + 366)%Z.
Proof.
  intros H. rewrite year_start_step by exact H. rewrite month_start_13. destruct c; try destruct (leap _ y); lia.
Qed.

Lemma years_len c y m : (forall k, (y <= k < y + Z.of_nat m)%Z -> regular c k) ->
  (year_start c y + 360 * Z.of_nat m <= year_start c (y + Z.of_nat m) <= year_start c y + 366 * Z.of_nat m)%Z.
Proof.
  induction m as [|m IH]; intros H.
  - replace (y + Z.of_nat 0)%Z with y by lia. lia.
  - replace (y + Z.of_nat (S m))%Z with (y + Z.of_nat m + 1)%Z by lia.
    pose proof (year_len_360 c (y + Z.of_nat m) ltac:(apply H; lia)).
    assert (forall k, (y <= k < y + Z.of_nat m)%Z -> regular c k) as H' by (intros k Hk; apply H; lia).
    specialize (IH H'). lia.
Qed.

(** A calendar day, at midnight. *)
Definition whole (c : cal) (d : date) : Prop :=
  (1 <= d_month d <= 12)%nat /\
  exists k : nat, (Z.of_nat k < days_in_month c (d_year d) (d_month d))%Z /\ d_pos d = INR k.

Lemma whole_valid c d : whole c d -> valid_date c d.
Proof.
  intros [H (k & Hk & E)]. split; [exact H|]. rewrite E. split; [apply pos_INR|].
  rewrite INR_IZR_INZ. apply IZR_lt, Hk.
Qed.

Lemma filter_seq_lt (p : nat -> bool) N M : (N <= M)%nat ->
  (forall k, (k < M)%nat -> p k = Nat.ltb k N) -> filter p (seq 0 M) = seq 0 N.
Proof.
  intros H E. replace M with (N + (M - N))%nat by lia. rewrite seq_app, filter_app.
  assert (filter p (seq 0 N) = seq 0 N) as ->.
  { rewrite (filter_ext_in _ (fun _ => true)).
    - clear. induction (seq 0 N) as [|x l IH]; [reflexivity|]. cbn [filter]. rewrite IH. reflexivity.
    - intros k Hk. apply in_seq in Hk. rewrite E by lia. apply Nat.ltb_lt. lia. }
  assert (filter p (seq (0 + N) (M - N)) = []) as ->; [|apply app_nil_r].
  rewrite (filter_ext_in _ (fun _ => false)).
  - clear. induction (seq (0 + N) (M - N)) as [|x l IH]; [reflexivity|]. exact IH.
  - intros k Hk. apply in_seq in Hk. rewrite E by lia. apply Nat.ltb_ge. lia.
Qed.

Lemma filter_map_comm {A B} (f : A -> B) (p : B -> bool) l : filter p (map f l) = map f (filter (fun x => p (f x)) l).
Proof. induction l as [|x l IH]; [reflexivity|]. cbn [map filter]. destruct (p (f x)); cbn [map]; rewrite IH; reflexivity. Qed.

Section Daily.
  Variables (c : cal) (s : Z) (n : nat).
  Hypothesis Hreg : forall y, (s <= y <= s + 2 * Z.of_nat n)%Z -> regular c y.
  Let day k := add_days c (mkDate s 1 0) (INR k).
  Definition ndays : nat := Z.to_nat (year_start c (s + Z.of_nat n) - year_start c s).

  Lemma ndays_eq : IZR (year_start c (s + Z.of_nat n)) = IZR (year_start c s) + INR ndays.
  Proof.
    unfold ndays. rewrite INR_IZR_INZ, Z2Nat.id, minus_IZR; [lra|].
    pose proof (year_start_mono c s (s + Z.of_nat n)). lia.
  Qed.

  Lemma ndays_le : (ndays <= 366 * n)%nat.
  Proof.
    unfold ndays. pose proof (years_len c s n) as H.
    assert (forall k, (s <= k < s + Z.of_nat n)%Z -> regular c k) as H' by (intros k Hk; apply Hreg; lia).
    specialize (H H'). lia.
  Qed.

  Lemma day_spec k : (k <= 366 * n)%nat ->
    valid_date c (day k) /\ abs_day c (day k) = IZR (year_start c s) + INR k /\ (s <= d_year (day k) <= s + 2 * Z.of_nat n)%Z.
  Proof.
    intros Hk. unfold day.
    destruct (add_days_spec c (s + 2 * Z.of_nat n) (mkDate s 1 0) (INR k)) as (V & A & Y).
    - apply first_valid; lia.
    - apply pos_INR.
    - cbn [d_year]; lia.
    - exact Hreg.
    - rewrite abs_day_jan1. rewrite INR_IZR_INZ, <- plus_IZR. apply IZR_lt.
      pose proof (years_len c s (2 * n)) as L.
      assert (forall k, (s <= k < s + Z.of_nat (2 * n))%Z -> regular c k) as L' by (intros j Hj; apply Hreg; lia).
      specialize (L L'). replace (s + Z.of_nat (2 * n))%Z with (s + 2 * Z.of_nat n)%Z in L by lia.
      pose proof (year_len_360 c (s + 2 * Z.of_nat n) ltac:(apply Hreg; lia)). lia.
    - split; [exact V|]. split; [rewrite A, abs_day_jan1; reflexivity | exact Y].
  Qed.

  Lemma day_year k : (k < ndays)%nat -> (s <= d_year (day k) < s + Z.of_nat n)%Z.
  Proof.
    intros Hk. pose proof ndays_le. destruct (day_spec k ltac:(lia)) as (V & A & Y). split; [lia|].
    apply (year_start_lt_inv c). apply lt_IZR. eapply Rle_lt_trans; [apply abs_day_lower, V|].
    rewrite A, ndays_eq. apply lt_INR in Hk. lra.
  Qed.

  Lemma day_whole k : (k <= 366 * n)%nat -> whole c (day k).
  Proof.
    intros Hk. destruct (day_spec k Hk) as (V & A & Y). destruct V as [M [P0 P]]. split; [exact M|].
    unfold abs_day in A. set (d := day k) in *.
    exists (Z.to_nat (year_start c s + Z.of_nat k - (year_start c (d_year d) + month_start c (d_year d) (d_month d)))).
    assert (E : d_pos d = IZR (year_start c s + Z.of_nat k - (year_start c (d_year d) + month_start c (d_year d) (d_month d)))).
    { rewrite minus_IZR, (plus_IZR (year_start c s)), <- INR_IZR_INZ. lra. }
    rewrite E in P0, P. apply le_IZR in P0. apply lt_IZR in P.
    rewrite Z2Nat.id by exact P0. split; [exact P|]. rewrite INR_IZR_INZ, Z2Nat.id by exact P0. exact E.
  Qed.

  Lemma daily_list : generate_daily_timeaxis s n c = map day (seq 0 ndays).
  Proof.
    unfold generate_daily_timeaxis. rewrite filter_map_comm. f_equal. apply filter_seq_lt; [apply ndays_le|].
    intros k Hk. change (add_days c (mkDate s 1 0) (INR k)) with (day k).
    destruct (day_spec k ltac:(lia)) as (_ & -> & _). rewrite abs_day_jan1, ndays_eq.
    destruct (Nat.ltb_spec k ndays) as [L|L].
    - apply Rltb_true. apply lt_INR in L. lra.
    - apply Rltb_false. apply le_INR in L. lra.
  Qed.

  Lemma day_surj d : whole c d -> (s <= d_year d < s + Z.of_nat n)%Z -> exists k, (k < ndays)%nat /\ day k = d.
  Proof.
    intros W Y. pose proof (whole_valid c d W) as V. destruct W as [M (j & Hj & E)].
    pose proof (abs_day_lower c d V) as L. pose proof (abs_day_upper c d V ltac:(apply Hreg; lia)) as U.
    set (z := (year_start c (d_year d) + month_start c (d_year d) (d_month d) + Z.of_nat j - year_start c s)%Z).
    assert (A : abs_day c d = IZR (year_start c s) + IZR z).
    { unfold abs_day, z. rewrite E, INR_IZR_INZ, <- !plus_IZR. f_equal. lia. }
    assert (0 <= z)%Z as Z0.
    { apply le_IZR. pose proof (year_start_mono c s (d_year d) ltac:(lia)) as Q.
      assert (IZR (year_start c s) <= IZR (year_start c (d_year d))) by (apply IZR_le; lia). lra. }
    assert (z < Z.of_nat ndays)%Z as Z1.
    { apply lt_IZR. rewrite <- INR_IZR_INZ. pose proof ndays_eq as Q.
      pose proof (year_start_mono c (d_year d + 1) (s + Z.of_nat n) ltac:(lia)) as Q2.
      assert (IZR (year_start c (d_year d + 1)) <= IZR (year_start c (s + Z.of_nat n))) by (apply IZR_le; lia). lra. }
    exists (Z.to_nat z). split; [lia|]. pose proof ndays_le as NL.
    destruct (day_spec (Z.to_nat z) ltac:(lia)) as (V' & A' & Y').
    apply (abs_day_inj c); [exact V' | exact V | apply Hreg; lia | apply Hreg; lia |].
    rewrite A', A, INR_IZR_INZ, Z2Nat.id by exact Z0. reflexivity.
  Qed.

  Lemma day_inj i j : (i <= 366 * n)%nat -> (j <= 366 * n)%nat -> day i = day j -> i = j.
  Proof.
    intros Hi Hj E. destruct (day_spec i Hi) as (_ & A & _). destruct (day_spec j Hj) as (_ & B & _).
    rewrite E in A. apply INR_eq. lra.
  Qed.

  Lemma daily_time_of k : (k < ndays)%nat -> time_of (generate_daily_timeaxis s n c) k = day k.
  Proof.
    intros Hk. rewrite daily_list. unfold time_of. rewrite (nth_indep _ _ (day 0)) by (rewrite map_length, seq_length; exact Hk).
    rewrite map_nth, seq_nth by exact Hk. reflexivity.
  Qed.

  Lemma daily_length : List.length (generate_daily_timeaxis s n c) = ndays.
  Proof. rewrite daily_list, map_length, seq_length. reflexivity. Qed.

  (** Each month of each year has as many samples as days. *)
  Lemma daily_count y m : (s <= y < s + Z.of_nat n)%Z -> (1 <= m <= 12)%nat ->
    let ts := generate_daily_timeaxis s n c in
    Z.of_nat (count_if (List.length ts) (fun i => same_year ts y i && same_month ts m i)) = days_in_month c y m.
  Proof.
    intros Hy Hm ts. unfold count_if.
    set (P := filter (fun i => same_year ts y i && same_month ts m i) (seq 0 (List.length ts))).
    set (D := Z.to_nat (days_in_month c y m)).
    pose proof (dim_bounds c y m) as B.
    assert (LN : List.length ts = ndays) by apply daily_length.
    assert (PI : forall i, In i P <-> (i < ndays)%nat /\ d_year (day i) = y /\ d_month (day i) = m).
    { intros i. unfold P. rewrite filter_In, in_seq, LN. unfold same_year, same_month. split.
      - intros [H1 H2]. assert (i < ndays)%nat as Hi by lia. unfold ts in H2. rewrite (daily_time_of i Hi) in H2.
        apply andb_prop in H2. rewrite Z.eqb_eq, Nat.eqb_eq in H2. tauto.
      - intros [H1 H2]. split; [lia|]. unfold ts. rewrite (daily_time_of i H1). apply andb_true_intro. rewrite Z.eqb_eq, Nat.eqb_eq. exact H2. }
    pose proof ndays_le as NL.
    assert (N1 : NoDup (map day P)).
    { apply NoDup_map_in; [|apply NoDup_filter, seq_NoDup]. intros i j Hi Hj E. apply PI in Hi, Hj. apply day_inj; [lia|lia|exact E]. }
    set (Q := map (fun k => mkDate y m (INR k)) (seq 0 D)).
    assert (N2 : NoDup Q).
    { apply NoDup_map_in; [|apply seq_NoDup]. intros i j _ _ E. injection E as E. apply INR_eq, E. }
    assert (I1 : incl (map day P) Q).
    { intros d Hd. apply in_map_iff in Hd. destruct Hd as (i & <- & Hi). apply PI in Hi. destruct Hi as (Hi & Y & M).
      destruct (day_whole i ltac:(lia)) as [_ (k & Hk & E)]. rewrite Y, M in Hk.
      apply in_map_iff. exists k. split; [|apply in_seq; unfold D; lia].
      rewrite <- E, <- Y, <- M. destruct (day i); reflexivity. }
    assert (I2 : incl Q (map day P)).
    { intros d Hd. apply in_map_iff in Hd. destruct Hd as (k & <- & Hk). apply in_seq in Hk.
      destruct (day_surj (mkDate y m (INR k))) as (i & Hi & E).
      - split; [exact Hm|]. exists k. cbn [d_year d_month d_pos]. split; [unfold D in Hk; lia | reflexivity].
      - exact Hy.
      - apply in_map_iff. exists i. split; [exact E|]. apply PI. rewrite E. auto. }
    pose proof (NoDup_incl_length N1 I1) as L1. pose proof (NoDup_incl_length N2 I2) as L2.
    rewrite map_length in L1, L2. unfold Q in L1, L2. rewrite map_length, seq_length in L1, L2. unfold D in L1, L2. fold P. lia.
  Qed.

  (** Bounds of the daily stub: one more day than the axis. *)
  Lemma daily_bounds : (1000 <= s <= 9999)%Z -> stub_bounds s n c "D" = Ok (map day (seq 0 (S ndays))).
  Proof.
    intros W. unfold stub_bounds. rewrite plain_start_ok by exact W. cbn [String.eqb Ascii.eqb Bool.eqb bind]. f_equal. unfold range_D. rewrite filter_map_comm. f_equal.
    pose proof ndays_le as NL. apply filter_seq_lt; [lia|].
    intros k Hk. change (add_days c (mkDate s 1 0) (INR k)) with (day k).
    destruct (day_spec k ltac:(lia)) as (_ & -> & _). rewrite abs_day_jan1, ndays_eq.
    destruct (Nat.ltb_spec k (S ndays)) as [L|L].
    - apply Rleb_true. assert (k <= ndays)%nat as L' by lia. apply le_INR in L'. lra.
    - apply Rleb_false. assert (ndays < k)%nat as L' by lia. apply lt_INR in L'. lra.
  Qed.
End Daily.

(** ** Bounds to intervals *)
Definition pairs (b : list date) : list (date * date) := combine (removelast b) (tl b).

Lemma pairs_map (f : nat -> date) m :
  pairs (map f (seq 0 (S m))) = map (fun k => (f k, f (S k))) (seq 0 m).
Proof.
  unfold pairs. replace (removelast (map f (seq 0 (S m)))) with (map f (seq 0 m))
    by (rewrite seq_S, map_app; cbn [map]; rewrite removelast_last; reflexivity).
  change (seq 0 (S m)) with (0 :: seq 1 m)%nat. cbn [map tl].
  rewrite <- seq_shift, map_map. generalize (seq 0 m). intros l. induction l as [|x l IH]; [reflexivity|].
  cbn [map combine]. rewrite IH. reflexivity.
Qed.

Lemma fold_telescope (f : nat -> R) m :
  fold_right Rplus 0 (map (fun k => f (S k) - f k) (seq 0 m)) = f m - f O.
Proof.
  induction m as [|m IH]; [cbn; lra|]. rewrite seq_S, map_app, fold_right_app. cbn [map fold_right plus].
  assert (G : forall l x, fold_right Rplus x l = fold_right Rplus 0 l + x).
  { induction l as [|y l IHl]; intros x; cbn [fold_right]; [lra|]. rewrite IHl. lra. }
  rewrite G, IH. lra.
Qed.

(** A strictly increasing sequence of bounds whose midpoints are computed correctly. *)
Section Stub.
  Variables (c : cal) (f : nat -> date) (m : nat).
  Hypothesis Hinc : forall k, (k < m)%nat -> abs_day c (f k) < abs_day c (f (S k)).
  Hypothesis Hmid : forall k, (k < m)%nat ->
    valid_date c (midpoint c (f k) (f (S k))) /\
    abs_day c (midpoint c (f k) (f (S k))) = (abs_day c (f k) + abs_day c (f (S k))) / 2.

  Definition the_stub : stub :=
    let bnds := pairs (map f (seq 0 (S m))) in
    mkStub (map (fun x => midpoint c (fst x) (snd x)) bnds) bnds (map fst bnds) (map snd bnds)
           (map (fun x => dsub c (snd x) (fst x)) bnds).

  Lemma stub_facts :
    List.length (st_time the_stub) = m /\ List.length (st_bnds the_stub) = m /\
    st_T1 the_stub = map fst (st_bnds the_stub) /\ st_T2 the_stub = map snd (st_bnds the_stub) /\
    (forall k d0 b0, (k < m)%nat ->
       let b := nth k (st_bnds the_stub) b0 in let t := nth k (st_time the_stub) d0 in
       b = (f k, f (S k)) /\ valid_date c t /\
       abs_day c (fst b) < abs_day c t < abs_day c (snd b) /\
       abs_day c t - abs_day c (fst b) = abs_day c (snd b) - abs_day c t /\
       nth k (st_DT the_stub) 0 = abs_day c (snd b) - abs_day c (fst b)) /\
    fold_right Rplus 0 (st_DT the_stub) = abs_day c (f m) - abs_day c (f O).
  Proof.
    unfold the_stub. cbn [st_time st_bnds st_T1 st_T2 st_DT]. rewrite pairs_map.
    rewrite !map_length, seq_length. repeat (split; [reflexivity|]). split.
    - intros k d0 b0 Hk.
      rewrite (nth_indep _ b0 (f 0%nat, f 1%nat)) by (rewrite map_length, seq_length; exact Hk).
      change (f 0%nat, f 1%nat) with ((fun k => (f k, f (S k))) 0%nat). rewrite map_nth, seq_nth by exact Hk.
      rewrite !map_map. cbn [fst snd plus].
      rewrite (nth_indep _ d0 (midpoint c (f 0%nat) (f 1%nat))) by (rewrite map_length, seq_length; exact Hk).
      change (midpoint c (f 0%nat) (f 1%nat)) with ((fun k => midpoint c (f k) (f (S k))) 0%nat).
      rewrite map_nth, seq_nth by exact Hk.
      rewrite (nth_indep _ 0 (dsub c (f 1%nat) (f 0%nat))) by (rewrite map_length, seq_length; exact Hk).
      change (dsub c (f 1%nat) (f 0%nat)) with ((fun k => dsub c (f (S k)) (f k)) 0%nat).
      rewrite map_nth, seq_nth by exact Hk. cbn [plus].
      destruct (Hmid k Hk) as [V A]. specialize (Hinc k Hk).
      split; [reflexivity|]. split; [exact V|]. rewrite A. split; [lra|]. split; [lra|]. reflexivity.
    - rewrite map_map. cbn [fst snd]. unfold dsub. apply (fold_telescope (fun k => abs_day c (f k))).
  Qed.
End Stub.

(** Months counted from January of year [y]. *)
Lemma month_at_S y k :
  month_at y (S k) = (if Nat.ltb (S (k mod 12)) 12 then mkDate (y + Z.of_nat (k / 12)) (S (S (k mod 12))) 0
                      else mkDate (y + Z.of_nat (k / 12) + 1) 1 0).
Proof.
  unfold month_at. pose proof (Nat.div_mod k 12 ltac:(lia)) as D. pose proof (Nat.mod_upper_bound k 12 ltac:(lia)) as M.
  destruct (Nat.ltb_spec (S (k mod 12)) 12) as [L|L].
  - rewrite <- (Nat.div_unique (S k) 12 (k / 12) (S (k mod 12))) by lia.
    rewrite <- (Nat.mod_unique (S k) 12 (k / 12) (S (k mod 12))) by lia. reflexivity.
  - rewrite <- (Nat.div_unique (S k) 12 (S (k / 12)) 0) by lia.
    rewrite <- (Nat.mod_unique (S k) 12 (S (k / 12)) 0) by lia. f_equal. lia.
Qed.

Lemma month_at_mid c y k : regular c (y + Z.of_nat (k / 12)) ->
  let a := month_at y k in let b := month_at y (S k) in
  abs_day c a < abs_day c b /\ valid_date c (midpoint c a b) /\
  abs_day c (midpoint c a b) = (abs_day c a + abs_day c b) / 2.
Proof.
  intros R a b. pose proof (Nat.mod_upper_bound k 12 ltac:(lia)) as M.
  assert (A : abs_day c b = abs_day c a + IZR (days_in_month c (d_year a) (d_month a))).
  { unfold b. rewrite month_at_S. exact (abs_day_next c _ (S (k mod 12)) R ltac:(lia)). }
  assert (E : midpoint c a b = mkDate (d_year a) (d_month a) (IZR (days_in_month c (d_year a) (d_month a)) / 2)).
  { unfold b. rewrite month_at_S. apply (month_midpoint c _ (S (k mod 12)) R). lia. }
  pose proof (dim_bounds c (d_year a) (d_month a)) as [L _]. apply IZR_le in L.
  rewrite E. split; [lra|]. split.
  - split; cbn [d_year d_month d_pos]; [unfold a, month_at; cbn [d_month]; lia | lra].
  - rewrite A. unfold abs_day. cbn [d_year d_month d_pos]. unfold a, month_at. cbn [d_year d_month d_pos]. lra.
Qed.
