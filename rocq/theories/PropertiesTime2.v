(** * PropertiesTime2: C108 (Dataset arguments of the averages), C109 (complete monthly records) *)
From Coq Require Import Reals ZArith Lra Lia List String Bool Arith FunctionalExtensionality.
From Verif Require Import Num NumFacts Py Arr ArrFacts Calendar TimeAvg Derived Dataset SpecTime ProofsCal ProofsUtil ProofsAvg ProofsAvg2 ProofsAvg3 ProofsFields
  TestData ProofsTestTime ProofsMonthly PropertiesTime PropertiesTestData.
Import ListNotations.
Local Open Scope string_scope.
Local Open Scope R_scope.

(** ** C108 *)
Lemma numeric_get (g : arr -> arr) vs k a : NoDup (dkeys vs) -> dget k vs = Some (true, a) ->
  dget k (map (fun p => (fst p, g (snd p))) (numeric_vars vs)) = Some (g a).
Proof.
  intros N G. induction vs as [|[k' [b a']] vs IH]; [discriminate|].
  cbn [dget] in G. unfold dkeys in N. cbn [map fst] in N. inversion N as [|? ? N1 N2]; subst.
  unfold numeric_vars. cbn [filter snd fst].
  destruct (String.eqb_spec k k') as [->|E].
  - injection G as -> ->. cbn [map dget fst snd]. rewrite String.eqb_refl. reflexivity.
  - specialize (IH N2 G). destruct b; [|exact IH]. cbn [map dget fst snd].
    destruct (String.eqb_spec k k'); [contradiction|]. exact IH.
Qed.

Lemma has_dim_In d a : has_dim d a = true <-> In d (names a).
Proof.
  unfold has_dim, dmem, names. induction (adims a) as [|[k v] l IH]; cbn [dget map fst In]; [split; [discriminate|tauto]|].
  destruct (String.eqb_spec d k) as [->|N]; [tauto|]. rewrite IH. intuition congruence.
Qed.

(** Grouping needs a numeric variable with the time dimension. *)
Lemma groupable_iff t vs : groupable t (numeric_vars vs) = true <-> exists k a, In (k, (true, a)) vs /\ In t (names a).
Proof.
  unfold groupable. rewrite existsb_exists. split.
  - intros ([k a] & H & D). apply in_map_iff in H. destruct H as ([k' [b a']] & E & H). cbn [fst snd] in *. injection E as <- <-.
    apply filter_In in H. cbn [fst snd] in H. destruct H as [H ->]. exists k', a'. split; [exact H|]. apply has_dim_In, D.
  - intros (k & a & H & D). exists (k, a). split; [|apply has_dim_In, D]. apply in_map_iff. exists (k, (true, a)).
    split; [reflexivity|]. apply filter_In. split; [exact H|reflexivity].
Qed.

Theorem C108_cycle : forall ax vs t func ty ax' out, annual_cycle_ds ax vs t func ty = Ok (ax', out) ->
  dkeys out = map fst (filter (fun p => fst (snd p)) vs) /\
  forall k a, NoDup (dkeys vs) -> dget k vs = Some (true, a) ->
    exists r, dget k out = Some r /\ annual_cycle_da ax a t func ty = Ok (ax', r).
Proof.
  intros ax vs t func ty ax' out H. unfold annual_cycle_ds in H.
  destruct (axis_calendar ax t) as [c|] eqn:A; [|discriminate]. cbn [bind] in H.
  destruct (groupable _ _); [|discriminate].
  destruct (cycle_func func) as [f|] eqn:F; [|discriminate]. cbn [bind] in H.
  destruct (Nat.eqb _ _) eqn:L; [|discriminate]. apply Ok_inj in H. injection H as <- <-. split.
  - unfold dkeys, numeric_vars. rewrite !map_map. reflexivity.
  - intros k a N G. exists (cycle_var f (ta_dates ax) t a). split; [apply (numeric_get (cycle_var f (ta_dates ax) t)); assumption|].
    unfold annual_cycle_da. rewrite A. cbn [bind]. rewrite F. cbn [bind].
    unfold size_of, cycle_var at 1. cbn [adims dget]. rewrite String.eqb_refl, L. reflexivity.
Qed.
Print Assumptions C108_cycle.

Theorem C108_monthly : forall ax vs t ax' out, monthly_average_ds ax vs t = Ok (ax', out) ->
  dkeys out = map fst (filter (fun p => fst (snd p)) vs) /\
  forall k a, NoDup (dkeys vs) -> dget k vs = Some (true, a) ->
    exists r, dget k out = Some r /\ monthly_average_da ax a t = Ok (ax', r).
Proof.
  intros ax vs t ax' out H. unfold monthly_average_ds in H.
  destruct (axis_calendar ax t) as [c|] eqn:A; [|discriminate]. cbn [bind] in H.
  destruct (groupable _ _); [|discriminate].
  destruct (mapM _ (years (ta_dates ax))) as [bl|] eqn:B; [|discriminate]. cbn [bind] in H.
  apply Ok_inj in H. injection H as <- <-. split.
  - unfold dkeys, numeric_vars. rewrite !map_map. reflexivity.
  - intros k a N G. eexists. split; [apply (numeric_get (fun a => mkArr ((t, List.length (flat_map fst bl)) :: drop_dim t (adims a))
      (fun e => lmean (map (fun i => at_ a (upd e t i)) (nth (e t) (flat_map fst bl) [])))) vs k a N G)|].
    unfold monthly_average_da. rewrite A. cbn [bind]. rewrite B. cbn [bind]. reflexivity.
Qed.
Print Assumptions C108_monthly.

Ltac err := repeat split; intros Z; injection Z as ->; reflexivity.

(** A Dataset is accepted exactly when each of its numeric variables on the time axis is,
    and refused with the same exception. *)
Theorem C108_same_outcome : forall ax vs t func ty k a e, In (k, (true, a)) vs -> In t (names a) ->
  (annual_cycle_ds ax vs t func ty = Err e <-> annual_cycle_da ax a t func ty = Err e) /\
  (monthly_average_ds ax vs t = Err e <-> monthly_average_da ax a t = Err e) /\
  (annual_average_ds ax vs t = Err e <-> annual_average_da ax a t = Err e).
Proof.
  intros ax vs t func ty k a e Hin Ht.
  assert (G : groupable t (numeric_vars vs) = true) by (apply groupable_iff; exists k, a; auto).
  unfold annual_cycle_ds, annual_cycle_da, monthly_average_ds, monthly_average_da, annual_average_ds, annual_average_da. rewrite G.
  destruct (axis_calendar ax t) as [c|x]; cbn [bind]; [|err].
  split; [|split].
  - destruct (cycle_func func) as [f|x]; cbn [bind]; [|err].
    unfold size_of, cycle_var at 2. cbn [adims dget]. rewrite String.eqb_refl. destruct (Nat.eqb _ _); [|err]. split; discriminate.
  - destruct (mapM _ (years (ta_dates ax))) as [bl|x]; cbn [bind]; [|err]. split; discriminate.
  - destruct (check_years _) as [u|x]; cbn [bind]; [|err]. split; discriminate.
Qed.
Print Assumptions C108_same_outcome.

(** Without such a variable the grouping fails. *)
Theorem C108_nothing_to_average : forall ax vs t func ty c, axis_calendar ax t = Ok c ->
  (forall k a, In (k, (true, a)) vs -> ~ In t (names a)) ->
  annual_cycle_ds ax vs t func ty = Err KeyError /\ monthly_average_ds ax vs t = Err KeyError /\ annual_average_ds ax vs t = Err KeyError.
Proof.
  intros ax vs t func ty c A H.
  assert (G : groupable t (numeric_vars vs) = false).
  { destruct (groupable t (numeric_vars vs)) eqn:G; [|reflexivity]. apply groupable_iff in G. destruct G as (k & a & I & D). destruct (H k a I D). }
  unfold annual_cycle_ds, monthly_average_ds, annual_average_ds. rewrite A. cbn [bind]. rewrite G. auto.
Qed.
Print Assumptions C108_nothing_to_average.

(** A dataset with a date variable and a field. *)
Example C108_case : exists ax' out r,
  let ax := mkAxis "time" (Some Standard) (one_year 2000) in
  let vs := [("average_T1", (false, mkArr [("time", 12%nat)] (fun _ => Fin 0))); ("zos", (true, jan_feb))] in
  annual_cycle_ds ax vs "time" "max" (Some 1%Z) = Ok (ax', out) /\ dkeys out = ["zos"] /\ dget "zos" out = Some r /\
  annual_cycle_da ax jan_feb "time" "max" (Some 1%Z) = Ok (ax', r) /\ at_ r (fun _ => 1%nat) = Fin (INR 2) /\
  annual_cycle_ds ax vs "time" "median" (Some 1%Z) = Err ValueError /\
  monthly_average_ds ax [("average_T1", (false, jan_feb)); ("deptho", (true, mkArr [("x", 3%nat)] (fun _ => Fin 0)))] "time" = Err KeyError.
Proof.
  eexists _, _, _. cbv zeta. split; [reflexivity|]. split; [reflexivity|]. split; [reflexivity|]. split; [reflexivity|].
  split; [reflexivity|]. split; [reflexivity|].
  apply (C108_nothing_to_average (mkAxis "time" (Some Standard) (one_year 2000)) _ "time" "mean" None Standard).
  - reflexivity.
  - intros k a [H|[H|[]]] D; [discriminate H|]. injection H as <- <-; destruct D as [D|[]]; discriminate D.
Qed.

(** ** C109 *)
Theorem C109_annual : forall ax a t s n c, ta_name ax = t -> ta_cal ax = Some c -> monthly_record (ta_dates ax) s n -> (1 <= n)%nat ->
  (forall k, (k < n)%nat -> regular c (s + Z.of_nat k)) ->
  exists ax' r, annual_average_da ax a t = Ok (ax', r) /\ adims r = ("time", n) :: drop_dim t (adims a) /\
    List.length (ta_dates ax') = n /\ (forall k, (k < n)%nat -> d_year (time_of (ta_dates ax') k) = (s + Z.of_nat k)%Z) /\
    forall e, (e "time" < n)%nat ->
      let y := (s + Z.of_nat (e "time"))%Z in let x m := at_ a (upd e t (12 * e "time" + m)) in
      (forall m, (m < 12)%nat -> is_fin (x m) = true) ->
      at_ r e = Fin (Rsum 12 (fun m => IZR (days_in_month c y (S m)) * val (x m)) / IZR (year_start c (y + 1) - year_start c y)).
Proof.
  intros ax a t s n c Hname Hc HT Hn HR. set (ts := ta_dates ax) in *.
  exists (annual_axis c ts), (annual_var c ts t a). split; [|split; [|split; [|split]]].
  - unfold annual_average_da. rewrite <- Hname, (axis_calendar_ok ax c Hc (mr_nonempty ts s n HT Hn)). cbn [bind]. fold ts.
    rewrite (mr_check ts s n HT Hn). reflexivity.
  - unfold annual_var. cbn [adims]. rewrite (mr_years ts s n HT Hn), map_length, seq_length. reflexivity.
  - unfold annual_axis. cbn [ta_dates]. rewrite (mr_years ts s n HT Hn), !map_length, seq_length. reflexivity.
  - intros k Hk. unfold annual_axis. cbn [ta_dates]. unfold time_of.
    rewrite (nth_indep _ _ (ann_midpoint c 0)) by (rewrite (mr_years ts s n HT Hn), !map_length, seq_length; exact Hk).
    rewrite map_nth, (mr_year_nth ts s n HT Hn k Hk). apply ann_midpoint_spec, HR, Hk.
  - intros e He y x Hx. rewrite annual_var_eq, (mr_year_nth ts s n HT Hn _ He). fold y.
    assert (Lt : List.length ts = (12 * n)%nat) by apply HT.
    assert (Fn : forall i, (i < List.length ts)%nat -> same_year ts y i = true -> is_fin (at_ a (upd e t i)) = true).
    { intros i Hi Hy. destruct HT as [L H]. unfold same_year in Hy. apply Z.eqb_eq in Hy. rewrite (proj1 (H i ltac:(lia))) in Hy.
      assert (D := Nat.div_mod i 12 ltac:(lia)). assert (M := Nat.mod_upper_bound i 12 ltac:(lia)).
      assert (K : (i / 12 = e "time")%nat) by (unfold y in Hy; lia). rewrite D, K. apply Hx, M. }
    assert (NN : forall v, is_fin v = true -> notnull v = true) by (intros [| |]; cbn; auto).
    assert (Q : forall i, (i < List.length ts)%nat -> same_year ts y i && notnull (at_ a (upd e t i)) = same_year ts y i).
    { intros i Hi. destruct (same_year ts y i) eqn:E; [|reflexivity]. cbn. apply NN, Fn; assumption. }
    assert (Y0 : same_year ts y (12 * e "time" + 0) = true).
    { destruct HT as [L H]. unfold same_year. rewrite (proj1 (H (12 * e "time" + 0)%nat ltac:(lia))). destruct (block_div (e "time") 0 ltac:(lia)) as [-> _]. apply Z.eqb_refl. }
    rewrite (wmean_some (List.length ts) (same_year ts y) (fun i => days_weight c (time_of ts i)) (fun i => at_ a (upd e t i))) with (k := (12 * e "time" + 0)%nat).
    + f_equal.
      assert (S1 : forall g, Sum_if (List.length ts) (fun i => same_year ts y i && notnull (at_ a (upd e t i))) g = Rsum 12 (fun m => g (12 * e "time" + m)%nat)).
      { intros g. rewrite <- (mr_sum_year ts s n HT Hn (e "time") g He). fold y. apply Sum_if_ext; [exact Q|reflexivity]. }
      assert (W : forall m, (m < 12)%nat -> days_weight c (time_of ts (12 * e "time" + m)) = IZR (days_in_month c y (S m))).
      { intros m Hm. destruct HT as [L H]. unfold days_weight. destruct (H (12 * e "time" + m)%nat ltac:(lia)) as [-> ->].
        destruct (block_div (e "time") m Hm) as [-> ->]. reflexivity. }
      f_equal.
      * eapply eq_trans; [apply S1|]. apply Rsum_ext. intros m Hm. cbn beta. rewrite W by exact Hm. reflexivity.
      * f_equal. eapply eq_trans; [apply S1|]. rewrite <- (days_of_year c y (HR _ He)). apply Rsum_ext. intros m Hm. apply W, Hm.
    + intros i Hi Hp. specialize (Fn i Hi Hp). destruct (at_ a (upd e t i)); try discriminate. exact I.
    + intros i _ _. apply days_weight_pos.
    + lia.
    + rewrite Q by lia. exact Y0.
Qed.
Print Assumptions C109_annual.

(** The m-th value of the annual cycle is the mean over the n years. *)
Theorem C109_cycle : forall ax a t ty s n c, ta_name ax = t -> ta_cal ax = Some c -> monthly_record (ta_dates ax) s n -> (1 <= n)%nat ->
  exists ax' r, annual_cycle_da ax a t "mean" ty = Ok (ax', r) /\ adims r = (t, 12%nat) :: drop_dim t (adims a) /\
    forall e, (e t < 12)%nat -> let x k := at_ a (upd e t (12 * k + e t)) in
      (forall k, (k < n)%nat -> is_fin (x k) = true) -> at_ r e = Fin (Rsum n (fun k => val (x k)) / INR n).
Proof.
  intros ax a t ty s n c Hname Hc HT Hn. set (ts := ta_dates ax) in *.
  assert (M := mr_months_all ts s n HT Hn).
  exists (mkAxis t (Some c) (month_midpoints c (cycle_year c ts ty))), (cycle_var lmean ts t a). split; [|split].
  - rewrite (cycle_ok ax a t "mean" ty c lmean Hname Hc (mr_nonempty ts s n HT Hn) eq_refl). fold ts. rewrite M, seq_length. reflexivity.
  - unfold cycle_var. cbn [adims]. rewrite M. reflexivity.
  - intros e He x Hx. rewrite (cycle_value ts t a lmean e M He).
    assert (Lt : List.length ts = (12 * n)%nat) by apply HT.
    assert (Fn : forall i, (i < List.length ts)%nat -> same_month ts (S (e t)) i = true -> is_fin (at_ a (upd e t i)) = true).
    { intros i Hi Hy. destruct HT as [L H]. unfold same_month in Hy. apply Nat.eqb_eq in Hy. rewrite (proj2 (H i ltac:(lia))) in Hy.
      assert (D := Nat.div_mod i 12 ltac:(lia)). assert (K : (i mod 12 = e t)%nat) by lia. rewrite D, K. apply Hx. apply Nat.div_lt_upper_bound; lia. }
    assert (NN : forall v, is_fin v = true -> notnull v = true) by (intros [| |]; cbn; auto).
    assert (Q : forall i, (i < List.length ts)%nat -> same_month ts (S (e t)) i && notnull (at_ a (upd e t i)) = same_month ts (S (e t)) i).
    { intros i Hi. destruct (same_month ts (S (e t)) i) eqn:E; [|reflexivity]. cbn. apply NN, Fn; assumption. }
    assert (S1 : forall g, Sum_if (List.length ts) (fun i => same_month ts (S (e t)) i && notnull (at_ a (upd e t i))) g = Rsum n (fun k => g (12 * k + e t)%nat)).
    { intros g. rewrite <- (mr_sum_month ts s n HT Hn (e t) g He). apply Sum_if_ext; [exact Q|reflexivity]. }
    rewrite (lmean_some (List.length ts) (same_month ts (S (e t))) (fun i => at_ a (upd e t i)) (12 * 0 + e t)%nat).
    + rewrite S1, count_Sum, S1, Rsum_const, Rmult_1_r. reflexivity.
    + intros i Hi Hp. specialize (Fn i Hi Hp). destruct (at_ a (upd e t i)); try discriminate. exact I.
    + lia.
    + rewrite Q by lia. destruct HT as [L H]. unfold same_month. rewrite (proj2 (H (12 * 0 + e t)%nat ltac:(lia))).
      destruct (block_div 0 (e t) He) as [_ ->]. apply Nat.eqb_refl.
Qed.
Print Assumptions C109_cycle.

(** Monthly averages of monthly data are the data, gaps included. *)
Theorem C109_monthly : forall ax a t s n c, ta_name ax = t -> ta_cal ax = Some c -> monthly_record (ta_dates ax) s n -> (1 <= n)%nat ->
  exists ax' r, monthly_average_da ax a t = Ok (ax', r) /\ adims r = (t, (12 * n)%nat) :: drop_dim t (adims a) /\
    (forall e, (e t < 12 * n)%nat -> at_ r e = at_ a e) /\
    ta_dates ax' = map (fun i => midpoint c (month_at s i) (month_at s (S i))) (seq 0 (12 * n)).
Proof.
  intros ax a t s n c Hname Hc HT Hn. set (ts := ta_dates ax) in *.
  set (g := fun k : nat => (map (fun m => [(12 * k + m)%nat]) (seq 0 12), month_midpoints c (s + Z.of_nat k))).
  assert (B : mapM (fun y => let r := year_record ts y in if Nat.eqb (List.length r) 12 then Ok (r, month_midpoints c y) else Err ValueError) (years ts)
              = Ok (map g (seq 0 n))).
  { rewrite (mapM_all _ (fun y => g (Z.to_nat (y - s)))).
    - rewrite (mr_years ts s n HT Hn), map_map. f_equal. apply map_ext. intros k. f_equal. lia.
    - intros y Hy. rewrite (mr_years ts s n HT Hn) in Hy. apply in_map_iff in Hy. destruct Hy as (k & <- & Hk). apply in_seq in Hk.
      cbv zeta. rewrite (mr_record ts s n HT Hn k) by lia. rewrite map_length, seq_length. cbn [Nat.eqb].
      replace (Z.to_nat (s + Z.of_nat k - s)) with k by lia. reflexivity. }
  assert (G1 : flat_map fst (map g (seq 0 n)) = map (fun i => [i]) (seq 0 (12 * n))).
  { rewrite flat_map_concat_map, map_map, <- flat_map_concat_map. unfold g. cbn [fst].
    rewrite (flat_blocks (fun k m => [(12 * k + m)%nat]) n). apply map_ext. intros i. f_equal. symmetry. apply Nat.div_mod. lia. }
  assert (G2 : flat_map snd (map g (seq 0 n)) = map (fun i => midpoint c (month_at s i) (month_at s (S i))) (seq 0 (12 * n))).
  { rewrite flat_map_concat_map, map_map, <- flat_map_concat_map. unfold g. cbn [snd].
    assert (MM : forall k, month_midpoints c (s + Z.of_nat k) = map (fun m => midpoint c (month_at s (12 * k + m)) (month_at s (S (12 * k + m)))) (seq 0 12)).
    { intros k. unfold month_midpoints. apply map_ext_in. intros m Hm. apply in_seq in Hm.
      assert (R : forall j, (j < 13)%nat -> nth_date (range_MS (s + Z.of_nat k) 13) j = month_at s (12 * k + j)).
      { intros j Hj. unfold nth_date, range_MS. rewrite (nth_indep _ _ (month_at (s + Z.of_nat k) 0)) by (rewrite map_length, seq_length; exact Hj).
        rewrite map_nth, seq_nth by exact Hj. unfold month_at. rewrite (Nat.mul_comm 12), (Nat.add_comm (k * 12)), Nat.div_add, Nat.mod_add by lia. cbn [plus].
        f_equal. lia. }
      rewrite !R by lia. f_equal. f_equal. lia. }
    rewrite (flat_map_ext _ _ (fun k => MM k)).
    rewrite (flat_blocks (fun k m => midpoint c (month_at s (12 * k + m)) (month_at s (S (12 * k + m)))) n). apply map_ext. intros i.
    rewrite <- (Nat.div_mod i 12) by lia. reflexivity. }
  eexists _, _. split; [|split; [|split]].
  - unfold monthly_average_da. rewrite <- Hname, (axis_calendar_ok ax c Hc (mr_nonempty ts s n HT Hn)). cbn [bind]. fold ts. cbv zeta in B |- *. rewrite B. cbn [bind].
    rewrite G1, G2. reflexivity.
  - cbn [adims]. rewrite map_length, seq_length, Hname. reflexivity.
  - intros e He. cbn [at_]. rewrite Hname, (nth_indep _ [] [0%nat]) by (rewrite map_length, seq_length; exact He).
    rewrite (map_nth (fun i => [i])), seq_nth by exact He. cbn [map plus].
    replace (upd e t (e t)) with e.
    + unfold lmean, valid. cbn [map lsum fold_right filter]. destruct (at_ a e) as [|b|v]; cbn.
      * rewrite Rplus_0_r, Reqb_refl. reflexivity.
      * destruct (Rltb 1 0) eqn:E; [apply Rltb_true in E; lra|]. destruct b; reflexivity.
      * destruct (Reqb 1 0) eqn:E; [apply Reqb_true in E; lra|]. f_equal. field.
    + apply functional_extensionality. intros d. unfold upd. destruct (String.eqb_spec t d) as [<-|N]; [rewrite ?String.eqb_refl; reflexivity|]. destruct (String.eqb_spec d t); [congruence|reflexivity].
  - reflexivity.
Qed.
Print Assumptions C109_monthly.

Definition days_in_year (c : cal) (y : Z) : R := IZR (year_start c (y + 1) - year_start c y).

Lemma stub_monthly s n c : (1000 <= s <= 9999)%Z -> no_reform c s n ->
  generate_time_stub s n c "MS" = Ok (the_stub c (month_at s) (12 * n)) /\
  st_time (the_stub c (month_at s) (12 * n)) = map (fun i => midpoint c (month_at s i) (month_at s (S i))) (seq 0 (12 * n)) /\
  monthly_record (st_time (the_stub c (month_at s) (12 * n))) s n.
Proof.
  intros W H. split; [|].
  - unfold generate_time_stub, stub_bounds. rewrite ProofsYearText.plain_start_ok by exact W. cbn [String.eqb Ascii.eqb Bool.eqb bind]. unfold range_MS.
    rewrite (Nat.mul_comm n), Nat.add_1_r. reflexivity.
  - assert (E : st_time (the_stub c (month_at s) (12 * n)) = map (fun i => midpoint c (month_at s i) (month_at s (S i))) (seq 0 (12 * n))).
    { unfold the_stub. cbn [st_time]. rewrite pairs_map, map_map. reflexivity. }
    split; [exact E|]. rewrite E. split; [rewrite map_length, seq_length; reflexivity|].
    intros i Hi. unfold time_of. rewrite (nth_indep _ _ ((fun i => midpoint c (month_at s i) (month_at s (S i))) 0%nat)) by (rewrite map_length, seq_length; exact Hi).
    rewrite (map_nth (fun i => midpoint c (month_at s i) (month_at s (S i)))), seq_nth by exact Hi. cbn [plus].
    assert (R : SpecTime.regular c (s + Z.of_nat (i / 12))).
    { apply H. pose proof (Nat.div_lt_upper_bound i 12 n ltac:(lia) Hi). lia. }
    assert (M := Nat.mod_upper_bound i 12 ltac:(lia)).
    rewrite month_at_S. unfold month_at.
    rewrite (month_midpoint c (s + Z.of_nat (i / 12)) (S (i mod 12)) R ltac:(lia)). split; reflexivity.
Qed.

(** Generated monthly data: monthly_average gives back the dataset's fields and time axis,
    annual_average the weighted means of both fields; the date variables are dropped. *)
Theorem C109_generated : forall s n c A B, (1000 <= s <= 9999)%Z -> no_reform c s n -> (1 <= n)%nat ->
  exists ax vs out ax' out', generate_test_data_time s n c "MS" A B = Ok (ax, vs) /\
    dkeys vs = ["time_bnds"; "average_T1"; "average_T2"; "average_DT"; "var_a"; "var_b"] /\
    monthly_average_ds ax vs "time" = Ok (ax, out) /\ dkeys out = ["var_a"; "var_b"] /\
    annual_average_ds ax vs "time" = Ok (ax', out') /\ dkeys out' = ["var_a"; "var_b"] /\
    forall v f, In (v, f) [("var_a", A); ("var_b", B)] ->
      exists m r, dget v out = Some m /\ dget v out' = Some r /\
        adims m = [("time", (12 * n)%nat); ("lat", 5%nat); ("lon", 5%nat)] /\ adims r = [("time", n); ("lat", 5%nat); ("lon", 5%nat)] /\
        (forall e, (e "time" < 12 * n)%nat -> at_ m e = Fin (f (e "time") (e "lat") (e "lon"))) /\
        forall e, (e "time" < n)%nat -> let y := (s + Z.of_nat (e "time"))%Z in
          at_ r e = Fin (Rsum 12 (fun k => IZR (days_in_month c y (S k)) * f (12 * e "time" + k)%nat (e "lat") (e "lon")) / days_in_year c y).
Proof.
  intros s n c A B W H Hn. destruct (stub_monthly s n c W H) as (E & Et & HT).
  unfold generate_test_data_time. rewrite E. cbn [bind]. set (st := the_stub c (month_at s) (12 * n)) in *.
  set (ax := mkAxis "time" (Some c) (st_time st)).
  assert (L : List.length (st_time st) = (12 * n)%nat) by apply HT. rewrite L.
  set (field := fun f : nat -> nat -> nat -> R => mkArr [("time", (12 * n)%nat); ("lat", 5%nat); ("lon", 5%nat)] (fun e => Fin (f (e "time") (e "lat") (e "lon")))).
  eexists ax, _.
  destruct (C109_monthly ax (field A) "time" s n c eq_refl eq_refl HT Hn) as (ax1 & m & M & _ & _ & T1).
  assert (Eax : forall a ax2 r, monthly_average_da ax a "time" = Ok (ax2, r) -> ax2 = ax).
  { intros a ax2 r M2. destruct (C109_monthly ax a "time" s n c eq_refl eq_refl HT Hn) as (ax3 & r3 & M3 & _ & _ & T3).
    rewrite M2 in M3. apply Ok_inj in M3. injection M3 as <- <-. rewrite <- Et in T3.
    unfold monthly_average_da in M2. destruct (axis_calendar ax "time") as [c'|] eqn:AC; [|discriminate]. cbn [bind] in M2.
    apply axis_calendar_inv in AC. destruct AC as (_ & AC & _). injection AC as <-.
    destruct (mapM _ _); [|discriminate]. cbn [bind] in M2. apply Ok_inj in M2. injection M2 as <- _. cbn [ta_dates] in T3.
    unfold ax. f_equal. exact T3. }
  match goal with |- exists _ _ _, Ok (ax, ?v) = _ /\ _ => set (vs := v) end.
  assert (In_a : In ("var_a", (true, field A)) vs) by (right; right; right; right; left; reflexivity).
  assert (Td : In "time" (names (field A))) by (left; reflexivity).
  assert (MS : exists out, monthly_average_ds ax vs "time" = Ok (ax, out)).
  { destruct (monthly_average_ds ax vs "time") as [[ax2 out]|x] eqn:D.
    - exists out. destruct (C108_monthly _ _ _ _ _ D) as [_ G]. destruct (G "var_a" (field A)) as (r & _ & M2).
      + repeat constructor; cbn; intuition discriminate.
      + reflexivity.
      + rewrite (Eax _ _ _ M2). reflexivity.
    - exfalso. apply (proj1 (proj1 (proj2 (C108_same_outcome ax vs "time" "mean" None "var_a" (field A) x In_a Td)))) in D. rewrite M in D. discriminate. }
  destruct (C109_annual ax (field A) "time" s n c eq_refl eq_refl HT Hn) as (ax2 & r2 & R2 & _).
  { intros k Hk. apply H. lia. }
  assert (AS : exists ax' out', annual_average_ds ax vs "time" = Ok (ax', out')).
  { destruct (annual_average_ds ax vs "time") as [[ax3 out]|x] eqn:D; [eexists; eexists; reflexivity|].
    exfalso. apply (proj1 (proj2 (proj2 (C108_same_outcome ax vs "time" "mean" None "var_a" (field A) x In_a Td)))) in D. rewrite R2 in D. discriminate. }
  destruct MS as [out D1], AS as (ax' & out' & D2). exists out, ax', out'.
  split; [reflexivity|]. split; [reflexivity|]. split; [exact D1|].
  destruct (C108_monthly _ _ _ _ _ D1) as [K1 G1]. destruct (C55_dataset _ _ _ _ _ D2) as [K2 G2].
  split; [exact K1|]. split; [exact D2|]. split; [exact K2|].
  assert (ND : NoDup (dkeys vs)) by (repeat constructor; cbn; intuition discriminate).
  intros v f I.
  assert (Gv : dget v vs = Some (true, field f)) by (destruct I as [I|[I|[]]]; injection I as <- <-; reflexivity).
  destruct (G1 v _ ND Gv) as (m1 & Q1 & M1). destruct (G2 v _ ND Gv) as (r1 & Q2 & M2).
  exists m1, r1. split; [exact Q1|]. split; [exact Q2|].
  destruct (C109_monthly ax (field f) "time" s n c eq_refl eq_refl HT Hn) as (ax4 & m4 & M4 & A4 & V4 & _).
  rewrite M1 in M4. apply Ok_inj in M4. injection M4 as <- <-.
  destruct (C109_annual ax (field f) "time" s n c eq_refl eq_refl HT Hn) as (ax5 & r5 & M5 & A5 & _ & _ & V5).
  { intros k Hk. apply H. lia. }
  rewrite M2 in M5. apply Ok_inj in M5. injection M5 as <- <-.
  split; [exact A4|]. split; [exact A5|]. split.
  - intros e He. rewrite (V4 e He). reflexivity.
  - intros e He. rewrite (V5 e He) by reflexivity. reflexivity.
Qed.
Print Assumptions C109_generated.

(** Two years of 365 days; the value of every sample is its number. *)
Example C109_example : exists ax vs ax' out' r, generate_test_data_time 1981 2 NoLeap "MS" (fun i _ _ => INR i) (fun _ _ _ => 0) = Ok (ax, vs) /\
  annual_average_ds ax vs "time" = Ok (ax', out') /\ dget "var_a" out' = Some r /\
  at_ r (fun _ => 1%nat) = Fin (6397 / 365).
Proof.
  assert (H : no_reform NoLeap 1981 2) by (intros y _ C; discriminate).
  destruct (C109_generated 1981 2 NoLeap (fun i _ _ => INR i) (fun _ _ _ => 0) ltac:(lia) H ltac:(lia)) as (ax & vs & out & ax' & out' & E & _ & _ & _ & D & _ & V).
  destruct (V "var_a" (fun i _ _ => INR i) ltac:(left; reflexivity)) as (m & r & _ & Q & _ & _ & _ & W).
  exists ax, vs, ax', out', r. split; [exact E|]. split; [exact D|]. split; [exact Q|]. rewrite W by lia. f_equal.
  unfold days_in_year. cbn [year_start]. cbn. field.
Qed.

(** ** Generated daily data *)
Lemma stub_daily s n c : (1000 <= s <= 9999)%Z -> no_reform c s n ->
  let st := the_stub c (fun k => add_days c (mkDate s 1 0) (INR k)) (ndays c s n) in
  generate_time_stub s n c "D" = Ok st /\ List.length (st_time st) = ndays c s n /\
  forall i, (i < ndays c s n)%nat -> let d := time_of (generate_daily_timeaxis s n c) i in
    time_of (st_time st) i = mkDate (d_year d) (d_month d) (d_pos d + 1 / 2).
Proof.
  intros Y4 H st. pose (f := fun k => add_days c (mkDate s 1 0) (INR k)).
  pose proof (ndays_le c s n H) as NL. split; [|split].
  - unfold generate_time_stub. rewrite daily_bounds by assumption. reflexivity.
  - unfold st, the_stub. cbn [st_time]. rewrite pairs_map, !map_length, seq_length. reflexivity.
  - intros i Hi d. unfold d. rewrite daily_time_of by assumption. fold (f i).
    unfold st, the_stub. cbn [st_time]. rewrite pairs_map, map_map. cbn [fst snd]. unfold time_of.
    rewrite (nth_indep _ _ ((fun k => midpoint c (f k) (f (S k))) 0%nat)) by (rewrite map_length, seq_length; exact Hi).
    rewrite (map_nth (fun k => midpoint c (f k) (f (S k)))), seq_nth by exact Hi. cbn [plus].
    assert (A : forall k, (k <= ndays c s n)%nat -> abs_day c (f k) = IZR (year_start c s) + INR k).
    { intros k Hk. apply (day_spec c s n H k). lia. }
    destruct (day_spec c s n H i ltac:(lia)) as (V & _ & Y). fold (f i) in V, Y.
    assert (W : whole c (f i)) by (apply (day_whole c s n H); lia).
    unfold midpoint, dsub. rewrite (A (S i)), (A i) by lia. rewrite S_INR.
    replace ((IZR (year_start c s) + (INR i + 1) - (IZR (year_start c s) + INR i)) / 2) with (1 / 2) by lra.
    destruct (add_days_spec c (s + 2 * Z.of_nat n) (f i) (1 / 2)) as (V2 & A2 & Y2).
    + exact V.
    + lra.
    + lia.
    + intros y Hy. apply H. lia.
    + rewrite A by lia. pose proof (ndays_eq c s n) as Q.
      assert (INR i + 1 <= INR (ndays c s n)) by (rewrite <- S_INR; apply le_INR; lia).
      assert (year_start c (s + Z.of_nat n) <= year_start c (s + 2 * Z.of_nat n + 1))%Z as Z1 by (pose proof (year_start_mono c (s + Z.of_nat n) (s + 2 * Z.of_nat n + 1)); lia).
      apply IZR_le in Z1. lra.
    + apply (abs_day_inj c).
      * exact V2.
      * destruct W as [M (j & Hj & E)]. split; cbn [d_year d_month d_pos]; [exact M|]. rewrite E.
        assert (J : (Z.of_nat j + 1 <= days_in_month c (d_year (f i)) (d_month (f i)))%Z) by lia. apply IZR_le in J.
        rewrite plus_IZR, <- INR_IZR_INZ in J. pose proof (pos_INR j). lra.
      * apply H. lia.
      * cbn [d_year]. apply H. lia.
      * rewrite A2. unfold abs_day. cbn [d_year d_month d_pos]. lra.
Qed.

Lemma Sum_if_interval N a m (p : nat -> bool) f : (a + m <= N)%nat -> (forall i, (i < N)%nat -> p i = (Nat.leb a i && Nat.ltb i (a + m))%bool) ->
  Sum_if N p f = Rsum m (fun k => f (a + k)%nat).
Proof.
  intros H P. unfold Sum_if. replace N with (a + (m + (N - a - m)))%nat in * by lia. rewrite Rsum_split, Rsum_split.
  rewrite (Rsum_zero a). 2:{ intros i Hi. rewrite P by lia. destruct (Nat.leb_spec a i); [lia|reflexivity]. }
  rewrite (Rsum_zero (N - a - m)). 2:{ intros i Hi. rewrite P by lia. destruct (Nat.ltb_spec (a + (m + i)) (a + m)); [lia|]. rewrite andb_false_r. reflexivity. }
  rewrite Rplus_0_l, Rplus_0_r. apply Rsum_ext. intros i Hi. rewrite P by lia.
  destruct (Nat.leb_spec a (a + i)); [|lia]. destruct (Nat.ltb_spec (a + i) (a + m)); [reflexivity|lia].
Qed.

(** Position of the first day of a year on the daily axis, and its number of days. *)
Definition first_day (c : cal) (s y : Z) : nat := Z.to_nat (year_start c y - year_start c s).
Definition year_days (c : cal) (y : Z) : nat := Z.to_nat (year_start c (y + 1) - year_start c y).

Lemma ascending_sorted l : ascending l -> Sorted.StronglySorted Z.lt l.
Proof.
  induction l as [|x l IH]; intros H; constructor.
  - apply IH. intros i j Hij. specialize (H (S i) (S j)). cbn [nth List.length] in H. apply H. lia.
  - apply Forall_forall. intros z Hz. destruct (In_nth l z 0%Z Hz) as (k & Hk & <-). specialize (H 0%nat (S k)). cbn [nth List.length] in H. apply H. lia.
Qed.

Lemma monthly_time ax a t ax' r : monthly_average_da ax a t = Ok (ax', r) -> In t (names r).
Proof.
  unfold monthly_average_da. destruct (axis_calendar ax t) as [c|]; [|discriminate]. cbn [bind].
  destruct (mapM _ _) as [bl|]; [|discriminate]. cbn [bind]. intros H. apply Ok_inj in H. injection H as _ <-. left. reflexivity.
Qed.

(** Generated daily data: monthly_average followed by annual_average of the Dataset gives, for
    both fields and every year, the mean over the days of the year. *)
Theorem C109_generated_daily : forall s n c A B, (1000 <= s <= 9999)%Z -> no_reform c s n -> (1 <= n)%nat ->
  exists ax vs ax1 ms ax2 out, generate_test_data_time s n c "D" A B = Ok (ax, vs) /\ List.length (ta_dates ax) = first_day c s (s + Z.of_nat n) /\
    monthly_average_ds ax vs "time" = Ok (ax1, ms) /\
    annual_average_ds ax1 (map (fun p => (fst p, (true, snd p))) ms) "time" = Ok (ax2, out) /\ dkeys out = ["var_a"; "var_b"] /\
    forall v f, In (v, f) [("var_a", A); ("var_b", B)] ->
      exists r, dget v out = Some r /\ adims r = [("time", n); ("lat", 5%nat); ("lon", 5%nat)] /\
        forall e, (e "time" < n)%nat -> let y := (s + Z.of_nat (e "time"))%Z in
          at_ r e = Fin (Rsum (year_days c y) (fun k => f (first_day c s y + k)%nat (e "lat") (e "lon")) / INR (year_days c y)).
Proof.
  intros s n c A B W H Hn. destruct (stub_daily s n c W H) as (E & L & D).
  unfold generate_test_data_time. rewrite E. cbn [bind]. set (st := the_stub c _ _) in *.
  set (ax := mkAxis "time" (Some c) (st_time st)). rewrite L.
  set (N := ndays c s n) in *.
  set (field := fun f : nat -> nat -> nat -> R => mkArr [("time", N); ("lat", 5%nat); ("lon", 5%nat)] (fun e => Fin (f (e "time") (e "lat") (e "lon")))).
  set (ts := st_time st) in *. set (td := generate_daily_timeaxis s n c) in *.
  assert (Ld : List.length td = N) by (apply daily_length; exact H).
  assert (SY : forall y i, (i < N)%nat -> same_year ts y i = same_year td y i) by (intros y i Hi; unfold same_year; rewrite (D i Hi); reflexivity).
  assert (SM : forall y i, (i < N)%nat -> same_month ts y i = same_month td y i) by (intros y i Hi; unfold same_month; rewrite (D i Hi); reflexivity).
  assert (TS : forall i, (i < N)%nat -> (1 <= d_month (time_of ts i) <= 12)%nat /\ (s <= d_year (time_of ts i) < s + Z.of_nat n)%Z).
  { intros i Hi. rewrite (D i Hi). cbn [d_year d_month]. unfold td. rewrite daily_time_of by (exact H || exact Hi).
    pose proof (ndays_le c s n H). split; [apply (day_whole c s n H); unfold N in *; lia|apply (day_year c s n H); exact Hi]. }
  assert (NE : (0 < N)%nat).
  { unfold N, ndays. pose proof (year_start_mono c s (s + Z.of_nat n) ltac:(lia)). lia. }
  assert (CM : forall a, exists ax1 m ax2 r ys,
    monthly_average_da ax a "time" = Ok (ax1, m) /\ annual_average_da ax1 m "time" = Ok (ax2, r) /\
    years_of ts ys /\ adims r = ("time", List.length ys) :: drop_dim "time" (adims a) /\
    forall e, (e "time" < List.length ys)%nat ->
      let y := nth (e "time") ys 0%Z in
      (forall i, (i < List.length ts)%nat -> is_fin (at_ a (upd e "time" i)) = true) ->
      at_ r e = Fin (Sum_if (List.length ts) (same_year ts y) (fun i => val (at_ a (upd e "time" i)))
                     / INR (count_if (List.length ts) (same_year ts y)))).
  { intros a. apply (C57_daily_mean ax a "time" c eq_refl eq_refl).
    - cbn [ax ta_dates]. intros Z0. rewrite Z0 in L. cbn in L. lia.
    - cbn [ax ta_dates]. rewrite L. intros i Hi. destruct (TS i Hi) as [M Y]. split; [exact M|]. apply H. lia.
    - cbn [ax ta_dates]. rewrite L. intros i m Hi Hm. rewrite <- (daily_count c s n H (d_year (time_of ts i)) m (proj2 (TS i Hi)) Hm). fold td. rewrite Ld.
      unfold count_if. f_equal. f_equal. apply filter_ext_in'. intros j Hj. apply in_seq in Hj. rewrite SY, SM by lia. reflexivity. }
  assert (YS : forall ys, years_of ts ys -> ys = map (fun k => (s + Z.of_nat k)%Z) (seq 0 n)).
  { intros ys [As Ys].
    assert (EX : forall y, (s <= y < s + Z.of_nat n)%Z -> exists i, (i < N)%nat /\ d_year (time_of ts i) = y).
    { intros y Hy. destruct (day_surj c s n H (mkDate y 1 (INR 0))) as (k & Hk & Ek).
      - split; [cbn; lia|]. exists O. cbn [d_year d_month d_pos]. pose proof (dim_bounds c y 1). split; [lia|reflexivity].
      - exact Hy.
      - exists k. split; [exact Hk|]. rewrite (D k Hk). cbn [d_year]. unfold td. rewrite daily_time_of by assumption. rewrite Ek. reflexivity. }
    apply sorted_unique.
    - clear - As. apply ascending_sorted. exact As.
    - generalize 0%nat. clear. induction n as [|m IH]; intros a; cbn [seq map]; constructor; [apply IH|].
      apply Forall_forall. intros x Hx. apply in_map_iff in Hx. destruct Hx as (k & <- & Hk). apply in_seq in Hk. lia.
    - intros y. rewrite Ys, L, in_map_iff. split.
      + intros (i & Hi & <-). destruct (TS i Hi) as [_ Y]. exists (Z.to_nat (d_year (time_of ts i) - s)). split; [lia|]. apply in_seq. lia.
      + intros (k & <- & Hk). apply in_seq in Hk. apply EX. lia. }
  eexists ax, _.
  match goal with |- exists _ _ _ _, Ok (ax, ?v) = _ /\ _ => set (vs := v) end.
  assert (In_a : In ("var_a", (true, field A)) vs) by (right; right; right; right; left; reflexivity).
  assert (Td : In "time" (names (field A))) by (left; reflexivity).
  assert (ND : NoDup (dkeys vs)) by (repeat constructor; cbn; intuition discriminate).
  destruct (CM (field A)) as (ax1 & mA & ax2 & rA & ysA & MA & RA & _).
  assert (MS : exists ax1' ms, monthly_average_ds ax vs "time" = Ok (ax1', ms)).
  { destruct (monthly_average_ds ax vs "time") as [[ax3 out]|x] eqn:D0; [eexists; eexists; reflexivity|].
    exfalso. apply (proj1 (proj1 (proj2 (C108_same_outcome ax vs "time" "mean" None "var_a" (field A) x In_a Td)))) in D0. rewrite MA in D0. discriminate. }
  destruct MS as (ax1' & ms & D1). destruct (C108_monthly _ _ _ _ _ D1) as [K1 G1].
  destruct (G1 "var_a" (field A) ND eq_refl) as (m0 & Q0 & M0). rewrite MA in M0. apply Ok_inj in M0. injection M0 as <- <-.
  set (vs2 := map (fun p => (fst p, (true, snd p))) ms).
  assert (K2 : dkeys vs2 = dkeys ms) by (unfold vs2, dkeys; rewrite map_map; reflexivity).
  assert (G2 : forall k, dget k vs2 = match dget k ms with Some m => Some (true, m) | None => None end).
  { intros k. unfold vs2. clear. induction ms as [|[k' m'] l IH]; [reflexivity|]. cbn [map dget fst snd]. destruct (String.eqb k k'); [reflexivity|exact IH]. }
  assert (ND2 : NoDup (dkeys vs2)) by (rewrite K2, K1; repeat constructor; cbn; intuition discriminate).
  assert (AS : exists ax2' out, annual_average_ds ax1 vs2 "time" = Ok (ax2', out)).
  { destruct (annual_average_ds ax1 vs2 "time") as [[ax3 out]|x] eqn:D0; [eexists; eexists; reflexivity|].
    assert (I2 : In ("var_a", (true, mA)) vs2) by (apply dget_In; rewrite G2, Q0; reflexivity).
    exfalso. apply (proj1 (proj2 (proj2 (C108_same_outcome ax1 vs2 "time" "mean" None "var_a" mA x I2 (monthly_time _ _ _ _ _ MA))))) in D0.
    rewrite RA in D0. discriminate. }
  destruct AS as (ax2' & out & D2). destruct (C55_dataset _ _ _ _ _ D2) as [K3 G3].
  exists ax1, ms, ax2', out. split; [reflexivity|]. split; [exact L|]. split; [exact D1|]. split; [exact D2|]. split.
  { rewrite K3. transitivity (dkeys ms); [|exact K1]. unfold vs2, dkeys. clear. induction ms as [|p l IH]; [reflexivity|]. cbn [map filter fst snd]. rewrite IH. reflexivity. }
  intros v f I.
  assert (Gv : dget v vs = Some (true, field f)) by (destruct I as [I|[I|[]]]; injection I as <- <-; reflexivity).
  destruct (G1 v _ ND Gv) as (m1 & Q1 & M1). destruct (G3 v m1 ND2 ltac:(rewrite G2, Q1; reflexivity)) as (r1 & Q2 & M2).
  exists r1. split; [exact Q2|].
  destruct (CM (field f)) as (ax4 & m4 & ax5 & r5 & ys & M4 & R4 & Y4 & A4 & V4).
  rewrite M1 in M4. apply Ok_inj in M4. injection M4 as <- <-. rewrite M2 in R4. apply Ok_inj in R4. injection R4 as <- <-.
  rewrite (YS ys Y4) in A4, V4. rewrite map_length, seq_length in A4, V4. split; [exact A4|].
  intros e He. set (y := (s + Z.of_nat (e "time"))%Z). rewrite (V4 e He) by (intros; reflexivity). clear V4 A4 Y4.
  assert (Ey : nth (e "time") (map (fun k => (s + Z.of_nat k)%Z) (seq 0 n)) 0%Z = y).
  { rewrite (nth_indep _ 0%Z (s + Z.of_nat 0)%Z) by (rewrite map_length, seq_length; exact He).
    rewrite (map_nth (fun k => (s + Z.of_nat k)%Z)), seq_nth by exact He. reflexivity. }
  rewrite Ey, L.
  assert (Y0 := year_start_mono c s y ltac:(unfold y; lia)). assert (Y1 := year_start_mono c y (y + 1) ltac:(lia)).
  assert (Y2 := year_start_mono c (y + 1) (s + Z.of_nat n) ltac:(unfold y; lia)).
  assert (IV : forall g, Sum_if N (same_year ts y) g = Rsum (year_days c y) (fun k => g (first_day c s y + k)%nat)).
  { intros g. apply Sum_if_interval.
    - unfold first_day, year_days, N, ndays. lia.
    - intros i Hi. rewrite (SY y i Hi). unfold same_year, td. rewrite daily_time_of by assumption.
      pose proof (ndays_le c s n H) as NL. destruct (day_spec c s n H i ltac:(unfold N in *; lia)) as (Vd & Ad & Rd).
      set (d := add_days c (mkDate s 1 0) (INR i)) in *.
      pose proof (abs_day_lower c d Vd) as Lo. pose proof (abs_day_upper c d Vd ltac:(apply H; lia)) as Up.
      rewrite Ad in Lo, Up. rewrite INR_IZR_INZ, <- plus_IZR in Lo, Up. apply le_IZR in Lo. apply lt_IZR in Up.
      unfold first_day, year_days.
      destruct (Z.eqb_spec (d_year d) y) as [Eq|Ne].
      + rewrite Eq in Lo, Up. destruct (Nat.leb_spec (Z.to_nat (year_start c y - year_start c s)) i); [|lia].
        destruct (Nat.ltb_spec i (Z.to_nat (year_start c y - year_start c s) + Z.to_nat (year_start c (y + 1) - year_start c y))); [reflexivity|lia].
      + destruct (Z_lt_le_dec (d_year d) y) as [Lt|Ge].
        * pose proof (year_start_mono c (d_year d + 1) y ltac:(lia)). destruct (Nat.leb_spec (Z.to_nat (year_start c y - year_start c s)) i); [lia|reflexivity].
        * pose proof (year_start_mono c (y + 1) (d_year d) ltac:(lia)).
          destruct (Nat.ltb_spec i (Z.to_nat (year_start c y - year_start c s) + Z.to_nat (year_start c (y + 1) - year_start c y))); [lia|].
          rewrite andb_false_r. reflexivity. }
  rewrite count_Sum, !IV, Rsum_const, Rmult_1_r. reflexivity.
Qed.
Print Assumptions C109_generated_daily.

(** 365 days of the value 3 and 365 of the value 5. *)
Example C109_daily_example : exists ax vs ax1 ms ax2 out r, generate_test_data_time 1981 2 NoLeap "D" (fun i _ _ => if Nat.ltb i 365 then 3 else 5) (fun _ _ _ => 0) = Ok (ax, vs) /\
  List.length (ta_dates ax) = 730%nat /\ monthly_average_ds ax vs "time" = Ok (ax1, ms) /\
  annual_average_ds ax1 (map (fun p => (fst p, (true, snd p))) ms) "time" = Ok (ax2, out) /\ dget "var_a" out = Some r /\
  at_ r (fun _ => 1%nat) = Fin 5.
Proof.
  assert (H : no_reform NoLeap 1981 2) by (intros y _ C; discriminate).
  set (f := fun (i _ _ : nat) => if Nat.ltb i 365 then 3 else 5).
  destruct (C109_generated_daily 1981 2 NoLeap f (fun _ _ _ => 0) ltac:(lia) H ltac:(lia)) as (ax & vs & ax1 & ms & ax2 & out & E & L & M & D & _ & V).
  destruct (V "var_a" f ltac:(left; reflexivity)) as (r & Q & _ & W).
  exists ax, vs, ax1, ms, ax2, out, r. split; [exact E|]. split; [exact L|]. split; [exact M|]. split; [exact D|]. split; [exact Q|].
  rewrite W by lia. f_equal. cbv zeta.
  replace (year_days NoLeap (1981 + Z.of_nat 1)) with 365%nat by reflexivity. replace (first_day NoLeap 1981 (1981 + Z.of_nat 1)) with 365%nat by reflexivity.
  rewrite (Rsum_ext 365 _ (fun _ => 5)).
  - rewrite Rsum_const. field. apply not_0_INR. lia.
  - intros i Hi. unfold f. destruct (Nat.ltb_spec (365 + i) 365); [lia|reflexivity].
Qed.
