(** * ProofsAvg: annual, monthly and climatological averages *)
From Coq Require Import Reals ZArith List String Bool Arith Lia Lra Sorted FunctionalExtensionality.
From Verif Require Import Num NumFacts Py Arr ArrFacts Calendar TimeAvg SpecTime ProofsCal ProofsUtil.
Import ListNotations.
Local Open Scope R_scope.

(** ** Sorted group keys *)
Lemma zinsert_In x l y : In y (zinsert x l) <-> y = x \/ In y l.
Proof.
  induction l as [|z l IH]; cbn [zinsert].
  - cbn; intuition.
  - destruct (Z.ltb_spec x z); [cbn; intuition|].
    destruct (Z.eqb_spec x z); [subst; cbn; intuition|].
    cbn [In]. rewrite IH. intuition.
Qed.

Lemma zinsert_sorted x l : StronglySorted Z.lt l -> StronglySorted Z.lt (zinsert x l).
Proof.
  induction 1 as [|z l S IH F]; cbn [zinsert].
  - repeat constructor.
  - destruct (Z.ltb_spec x z).
    + constructor; [constructor; assumption|]. constructor; [assumption|].
      eapply Forall_impl; [|exact F]. cbn; intros; lia.
    + destruct (Z.eqb_spec x z); [constructor; assumption|].
      constructor; [exact IH|]. apply Forall_forall. intros y Hy. apply zinsert_In in Hy.
      destruct Hy as [->|Hy]; [lia|]. rewrite Forall_forall in F. auto.
Qed.

Lemma zgroups_In l y : In y (zgroups l) <-> In y l.
Proof.
  induction l as [|x l IH]; cbn [zgroups fold_right]; [reflexivity|].
  fold (zgroups l). rewrite zinsert_In, IH. cbn; intuition.
Qed.

Lemma zgroups_sorted l : StronglySorted Z.lt (zgroups l).
Proof.
  induction l as [|x l IH]; cbn [zgroups fold_right]; [constructor|]. apply zinsert_sorted, IH.
Qed.

Lemma sorted_ascending l : StronglySorted Z.lt l -> ascending l.
Proof.
  induction 1 as [|x l S IH F]; intros i j [H1 H2]; cbn in H2; [lia|].
  destruct j as [|j]; [lia|]. destruct i as [|i]; cbn [nth].
  - rewrite Forall_forall in F. apply F, nth_In. lia.
  - apply IH. lia.
Qed.

Lemma sorted_NoDup l : StronglySorted Z.lt l -> NoDup l.
Proof.
  induction 1 as [|x l S IH F]; constructor; [|exact IH].
  intros H. rewrite Forall_forall in F. specialize (F x H). lia.
Qed.

Lemma sorted_unique l l' : StronglySorted Z.lt l -> StronglySorted Z.lt l' ->
  (forall x, In x l <-> In x l') -> l = l'.
Proof.
  intros S; revert l'. induction S as [|x l S IH F]; intros l' S' H.
  - destruct l' as [|y l']; [reflexivity|]. destruct (proj2 (H y)); left; reflexivity.
  - destruct S' as [|y l' S' F'].
    + destruct (proj1 (H x)); left; reflexivity.
    + rewrite Forall_forall in F, F'.
      assert (x = y) as ->.
      { destruct (proj1 (H x)) as [E|E]; [left; reflexivity|congruence|].
        destruct (proj2 (H y)) as [E'|E']; [left; reflexivity|congruence|].
        specialize (F _ E'). specialize (F' _ E). lia. }
      f_equal. apply IH; [exact S'|]. intros z. split; intros Hz.
      * destruct (proj1 (H z)) as [E|E]; [right; exact Hz| |exact E]. subst.
        specialize (F _ Hz). lia.
      * destruct (proj2 (H z)) as [E|E]; [right; exact Hz| |exact E]. subst.
        specialize (F' _ Hz). lia.
Qed.

Lemma nth_date_time ds i : nth_date ds i = time_of ds i.
Proof. reflexivity. Qed.

Lemma years_In ds y :
  In y (years ds) <-> exists i, (i < List.length ds)%nat /\ d_year (time_of ds i) = y.
Proof.
  unfold years. rewrite zgroups_In, in_map_iff. unfold positions.
  split; intros (i & A & B).
  - exists i. apply in_seq in B. split; [lia | exact A].
  - exists i. split; [exact B | apply in_seq; lia].
Qed.

Lemma years_years_of ds : years_of ds (years ds).
Proof. split; [apply sorted_ascending, zgroups_sorted | apply years_In]. Qed.

(** ** Sums over selected positions *)
Lemma lsum_app l1 l2 x y : lsum l1 = Fin x -> lsum l2 = Fin y -> lsum (l1 ++ l2) = Fin (x + y).
Proof.
  revert x. induction l1 as [|v l1 IH]; intros x H1 H2; cbn [lsum fold_right app] in *.
  - injection H1 as <-. fold (lsum l2). rewrite H2. f_equal; lra.
  - fold (lsum l1) in H1. fold (lsum (l1 ++ l2)).
    apply fadd_fin_inv in H1. destruct H1 as (u & w & -> & E & ->).
    rewrite (IH w E H2). cbn. f_equal; lra.
Qed.

Lemma lsum_filter n p (f : nat -> fval) (g : nat -> R) : (forall i, (i < n)%nat -> p i = true -> f i = Fin (g i)) ->
  lsum (map f (filter p (seq 0 n))) = Fin (Sum_if n p g).
Proof.
  induction n as [|n IH]; intros H; [reflexivity|].
  rewrite seq_S, filter_app, map_app. unfold Sum_if. cbn [Rsum]. cbn [plus].
  apply lsum_app; [apply IH; auto|].
  cbn [filter]. destruct (p n) eqn:E; [|reflexivity].
  cbn [map lsum fold_right]. rewrite (H n) by auto. cbn. f_equal; lra.
Qed.

Lemma Sum_if_ext n p q (f g : nat -> R) :
  (forall i, (i < n)%nat -> p i = q i) -> (forall i, (i < n)%nat -> q i = true -> f i = g i) ->
  Sum_if n p f = Sum_if n q g.
Proof.
  intros H1 H2. apply Rsum_ext. intros i Hi. rewrite H1 by exact Hi.
  destruct (q i) eqn:E; [apply H2; assumption | reflexivity].
Qed.

Lemma Sum_if_and n (p q : nat -> bool) (f : nat -> R) :
  Sum_if n p (fun i => if q i then f i else 0) = Sum_if n (fun i => p i && q i) f.
Proof. apply Rsum_ext. intros i _. destruct (p i), (q i); reflexivity. Qed.

Lemma count_Sum n (p : nat -> bool) : INR (count_if n p) = Sum_if n p (fun _ => 1).
Proof.
  unfold count_if. induction n as [|n IH]; [reflexivity|].
  rewrite seq_S, filter_app, app_length, plus_INR, IH. unfold Sum_if. cbn [Rsum plus].
  f_equal. cbn [filter]. destruct (p n); reflexivity.
Qed.

Lemma Sum_if_pos n p (f : nat -> R) k : (forall i, (i < n)%nat -> p i = true -> 0 < f i) ->
  (k < n)%nat -> p k = true -> 0 < Sum_if n p f.
Proof.
  intros H Hk Hp. apply Rsum_pos with k; [|exact Hk|].
  - intros i Hi. destruct (p i) eqn:E; [left; auto | lra].
  - rewrite Hp. auto.
Qed.

Lemma Sum_if_none n p (f : nat -> R) : (forall i, (i < n)%nat -> p i = false) -> Sum_if n p f = 0.
Proof. intros H. apply Rsum_zero. intros i Hi. rewrite H by exact Hi. reflexivity. Qed.

(** ** Weighted mean *)
Section WMean.
  Variables (n : nat) (p : nat -> bool) (w : nat -> R) (x : nat -> fval).
  Hypothesis Hx : forall i, (i < n)%nat -> p i = true -> not_inf (x i).
  Hypothesis Hw : forall i, (i < n)%nat -> p i = true -> 0 < w i.

  Let q i := p i && notnull (x i).
  Let l := map (fun i => (w i, x i)) (filter p (seq 0 n)).

  Lemma wmean_sw :
    lsum (map (fun r => fmul (Fin (fst r)) (fbool (notnull (snd r)))) l) = Fin (Sum_if n q w).
  Proof.
    unfold l. rewrite map_map. cbn [fst snd].
    rewrite lsum_filter with (g := fun i => if notnull (x i) then w i else 0).
    - f_equal. apply Sum_if_and.
    - intros i _ _. unfold fbool. destruct (notnull (x i)); cbn; f_equal; lra.
  Qed.

  Lemma wmean_ws :
    lsum (map (fun r => fmul (Fin (fst r)) (nan0 (snd r))) l) = Fin (Sum_if n q (fun i => w i * val (x i))).
  Proof.
    unfold l. rewrite map_map. cbn [fst snd].
    rewrite lsum_filter with (g := fun i => if notnull (x i) then w i * val (x i) else 0).
    - f_equal. apply Sum_if_and.
    - intros i Hi Hp. specialize (Hx i Hi Hp). destruct (x i) as [|b|v]; cbn in *; [|contradiction|reflexivity].
      f_equal; lra.
  Qed.

  Lemma wmean_some k : (k < n)%nat -> q k = true ->
    wmean l = Fin (Sum_if n q (fun i => w i * val (x i)) / Sum_if n q w).
  Proof.
    intros Hk Hq. unfold wmean. rewrite wmean_sw, wmean_ws.
    assert (0 < Sum_if n q w) as P.
    { apply Sum_if_pos with k; auto. unfold q. intros i Hi Q. apply andb_prop in Q. apply Hw; tauto. }
    cbn [feqb]. destruct (Reqb (Sum_if n q w) 0) eqn:E; [apply Reqb_true in E; lra|].
    apply fdiv_Fin. lra.
  Qed.

  Lemma wmean_none : (forall i, (i < n)%nat -> q i = false) -> wmean l = NaN.
  Proof.
    intros H. unfold wmean. rewrite wmean_sw, Sum_if_none by exact H.
    cbn [feqb]. rewrite Reqb_refl. reflexivity.
  Qed.
End WMean.

(** ** Plain mean *)
Lemma valid_length n p (x : nat -> fval) :
  List.length (valid (map x (filter p (seq 0 n)))) = count_if n (fun i => p i && notnull (x i)).
Proof.
  unfold valid, count_if. generalize (seq 0 n). intros l.
  induction l as [|i l IH]; cbn [filter]; [reflexivity|].
  destruct (p i); cbn [map filter andb]; [|exact IH].
  destruct (notnull (x i)); cbn [List.length]; [f_equal|]; exact IH.
Qed.

Lemma lmean_sum n p (x : nat -> fval) : (forall i, (i < n)%nat -> p i = true -> not_inf (x i)) ->
  let q i := p i && notnull (x i) in
  lmean (map x (filter p (seq 0 n))) =
  fdiv (Fin (Sum_if n q (fun i => val (x i)))) (Fin (INR (count_if n q))).
Proof.
  intros Hx q. unfold lmean. rewrite valid_length. f_equal.
  rewrite map_map. rewrite lsum_filter with (g := fun i => if notnull (x i) then val (x i) else 0).
  - f_equal. apply Sum_if_and.
  - intros i Hi Hp. specialize (Hx i Hi Hp). destruct (x i) as [|b|v]; cbn in *; [reflexivity|contradiction|reflexivity].
Qed.

Lemma count_pos n p k : (k < n)%nat -> p k = true -> 0 < INR (count_if n p).
Proof. intros H1 H2. rewrite count_Sum. apply Sum_if_pos with k; auto. intros; lra. Qed.

Lemma lmean_some n p (x : nat -> fval) k : (forall i, (i < n)%nat -> p i = true -> not_inf (x i)) ->
  let q i := p i && notnull (x i) in
  (k < n)%nat -> q k = true ->
  lmean (map x (filter p (seq 0 n))) =
  Fin (Sum_if n q (fun i => val (x i)) / INR (count_if n q)).
Proof.
  intros Hx q Hk Hq. rewrite lmean_sum by exact Hx. fold q. apply fdiv_Fin.
  pose proof (count_pos n q k Hk Hq). lra.
Qed.

Lemma lmean_none n p (x : nat -> fval) : (forall i, (i < n)%nat -> p i = true -> not_inf (x i)) ->
  (forall i, (i < n)%nat -> p i && notnull (x i) = false) ->
  lmean (map x (filter p (seq 0 n))) = NaN.
Proof.
  intros Hx H. rewrite lmean_sum by exact Hx. rewrite Sum_if_none by exact H.
  rewrite count_Sum, Sum_if_none by exact H. cbn. rewrite Reqb_refl. reflexivity.
Qed.

Lemma Sum_if_bounds n (p : nat -> bool) (w v : nat -> R) lo hi :
  (forall i, (i < n)%nat -> p i = true -> 0 < w i /\ lo <= v i <= hi) ->
  lo * Sum_if n p w <= Sum_if n p (fun i => w i * v i) <= hi * Sum_if n p w.
Proof.
  intros H. unfold Sum_if. rewrite <- !Rsum_scal. split; apply Rsum_le; intros i Hi;
    destruct (p i) eqn:E; try lra; destruct (H i Hi E) as [A [B C]].
  - rewrite Rmult_comm. apply Rmult_le_compat_l; lra.
  - rewrite (Rmult_comm hi). apply Rmult_le_compat_l; lra.
Qed.

(** ** annual_average *)
Lemma axis_calendar_inv ax t c : axis_calendar ax t = Ok c ->
  ta_name ax = t /\ ta_cal ax = Some c /\ ta_dates ax <> [].
Proof.
  unfold axis_calendar. destruct (String.eqb_spec (ta_name ax) t) as [E|]; [|discriminate].
  destruct (ta_dates ax) eqn:D; [discriminate|]. destruct (ta_cal ax); [|discriminate].
  intros H. apply Ok_inj in H. subst. repeat split; congruence.
Qed.

Lemma axis_calendar_ok ax c : ta_cal ax = Some c -> ta_dates ax <> [] ->
  axis_calendar ax (ta_name ax) = Ok c.
Proof.
  intros H1 H2. unfold axis_calendar. rewrite String.eqb_refl, H1. destruct (ta_dates ax); [contradiction|reflexivity].
Qed.

Lemma days_weight_pos c d : 0 < days_weight c d.
Proof.
  unfold days_weight. pose proof (dim_bounds c (d_year d) (d_month d)) as [L _]. apply IZR_le in L. lra.
Qed.

Lemma check_years_ok ds :
  check_years ds = Ok tt <-> forall y, In y (years ds) -> List.length (of_year ds y) = 12%nat.
Proof.
  unfold check_years, assert_.
  destruct (forallb _ _) eqn:E.
  - rewrite forallb_forall in E. split; [|reflexivity]. intros _ y Hy. apply Nat.eqb_eq, E, Hy.
  - split; [discriminate|]. intros H. rewrite <- not_true_iff_false in E. exfalso. apply E.
    apply forallb_forall. intros y Hy. apply Nat.eqb_eq, H, Hy.
Qed.

Lemma check_years_err ds e : check_years ds = Err e -> e = AssertionError.
Proof. unfold check_years, assert_. destruct (forallb _ _); congruence. Qed.

Lemma ann_midpoint_spec c y : regular c y ->
  valid_date c (ann_midpoint c y) /\ d_year (ann_midpoint c y) = y /\
  abs_day c (ann_midpoint c y) = (IZR (year_start c y) + IZR (year_start c (y + 1))) / 2.
Proof.
  intros R. unfold ann_midpoint, range_YS, nth_date. cbn [seq map nth]. rewrite Z.add_0_r.
  apply year_midpoint, R.
Qed.

Lemma annual_var_eq c ts t a e :
  at_ (annual_var c ts t a) e =
  wmean (map (fun i => (days_weight c (time_of ts i), at_ a (upd e t i)))
             (filter (same_year ts (nth (e "time"%string) (years ts) 0%Z)) (seq 0 (List.length ts)))).
Proof. reflexivity. Qed.

(** ** Months *)
Lemma months_In ds ps m : In m (months ds ps) <-> exists i, In i ps /\ d_month (time_of ds i) = m.
Proof.
  unfold months. rewrite in_map_iff. split.
  - intros (z & E & H). apply zgroups_In, in_map_iff in H. destruct H as (i & E' & Hi).
    exists i. split; [exact Hi|]. rewrite nth_date_time in E'. lia.
  - intros (i & Hi & E). exists (Z.of_nat m). split; [lia|]. apply zgroups_In, in_map_iff.
    exists i. split; [|exact Hi]. rewrite nth_date_time. congruence.
Qed.

Lemma seq_sorted_Z a n : StronglySorted Z.lt (map Z.of_nat (seq a n)).
Proof.
  revert a. induction n as [|n IH]; intros a; cbn [seq map]; constructor; [apply IH|].
  apply Forall_forall. intros x Hx. apply in_map_iff in Hx. destruct Hx as (k & <- & Hk).
  apply in_seq in Hk. lia.
Qed.

(** The months found are exactly 1..12 when all of them occur and no others. *)
Lemma months_full ds ps : (forall i, In i ps -> (1 <= d_month (time_of ds i) <= 12)%nat) ->
  (forall m, (1 <= m <= 12)%nat -> exists i, In i ps /\ d_month (time_of ds i) = m) ->
  months ds ps = seq 1 12.
Proof.
  intros H1 H2. unfold months.
  rewrite (sorted_unique (zgroups _) (map Z.of_nat (seq 1 12))).
  - rewrite map_map. rewrite <- map_id. apply map_ext. intros; lia.
  - apply zgroups_sorted.
  - apply seq_sorted_Z.
  - intros x. rewrite zgroups_In, !in_map_iff. split.
    + intros (i & <- & Hi). exists (d_month (time_of ds i)). split; [reflexivity|].
      apply in_seq. specialize (H1 i Hi). lia.
    + intros (m & <- & Hm). apply in_seq in Hm. destruct (H2 m) as (i & Hi & E); [lia|].
      exists i. split; [|exact Hi]. rewrite nth_date_time. congruence.
Qed.

Lemma months_NoDup ds ps : NoDup (months ds ps).
Proof.
  unfold months.
  assert (forall l, StronglySorted Z.lt l -> (forall z, In z l -> (0 <= z)%Z) -> NoDup (map Z.to_nat l)) as G.
  { induction 1 as [|x l S IH F]; intros H; cbn [map]; constructor.
    - rewrite in_map_iff. intros (z & E & Hz). rewrite Forall_forall in F. specialize (F z Hz).
      pose proof (H x (or_introl eq_refl)). lia.
    - apply IH. intros z Hz. apply H. right; exact Hz. }
  apply G; [apply zgroups_sorted|]. intros z Hz. apply zgroups_In, in_map_iff in Hz.
  destruct Hz as (i & <- & _). lia.
Qed.

(** Twelve distinct months in 1..12 are all of them. *)
Lemma months_12 ds ps : (forall i, In i ps -> (1 <= d_month (time_of ds i) <= 12)%nat) ->
  List.length (months ds ps) = 12%nat -> months ds ps = seq 1 12.
Proof.
  intros H1 H2. apply months_full; [exact H1|].
  assert (incl (seq 1 12) (months ds ps)) as I.
  { apply NoDup_length_incl.
    - apply months_NoDup.
    - rewrite H2. reflexivity.
    - intros m Hm. apply months_In in Hm. destruct Hm as (i & Hi & <-). apply in_seq. specialize (H1 i Hi). lia. }
  intros m Hm. apply months_In, I, in_seq. lia.
Qed.

Lemma months_length_le ds ps : (forall i, In i ps -> (1 <= d_month (time_of ds i) <= 12)%nat) ->
  (List.length (months ds ps) <= 12)%nat.
Proof.
  intros H1. change 12%nat with (List.length (seq 1 12)). apply NoDup_incl_length; [apply months_NoDup|].
  intros m Hm. apply months_In in Hm. destruct Hm as (i & Hi & <-). apply in_seq. specialize (H1 i Hi). lia.
Qed.

Lemma month_midpoints_eq c y : regular c y ->
  month_midpoints c y = map (fun m => mkDate y m (IZR (days_in_month c y m) / 2)) (seq 1 12).
Proof.
  intros R. unfold month_midpoints.
  assert (B : forall x, In x (seq 0 12) ->
     midpoint c (nth_date (range_MS y 13) x) (nth_date (range_MS y 13) (x + 1)) =
     mkDate y (S x) (IZR (days_in_month c y (S x)) / 2)).
  { intros x Hx. apply in_seq in Hx.
    rewrite <- (month_midpoint c y (S x)) by (auto; lia). f_equal.
    - do 12 (destruct x as [|x]; [cbn [range_MS]; unfold nth_date, range_MS; cbn [seq map nth]; unfold month_at; cbn [Nat.div Nat.modulo Nat.divmod fst snd Nat.sub]; f_equal; lia|]). lia.
    - do 12 (destruct x as [|x]; [unfold nth_date, range_MS; cbn [seq map nth plus Nat.ltb Nat.leb]; unfold month_at; cbn [Nat.div Nat.modulo Nat.divmod fst snd Nat.sub]; f_equal; lia|]). lia. }
  rewrite (map_ext_in _ _ _ B). rewrite <- seq_shift, map_map. reflexivity.
Qed.
