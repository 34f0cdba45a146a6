(** * PropertiesMonthly: C149 (monthly averages of any record, exactly and in binary64) *)
From Coq Require Import Reals ZArith List String Bool Arith Lia Lra Classical.
From Flocq Require Import Core IEEE754.BinarySingleNaN.
From Verif Require Import Num NumFacts Py Arr ArrFacts Calendar TimeAvg SpecTime ProofsCal ProofsUtil ProofsAvg ProofsAvg2 ProofsAvg3
  SpecFloat64 Ieee IeeeGlobal IeeeTime ProofsFloat6 ProofsFloat12 PropertiesTime PropertiesFloat3.
Import ListNotations.
Local Open Scope R_scope.

Section Blocks.
  Context {A B : Type}.
  Lemma flat_length (f : A -> list B) l : (forall y, In y l -> List.length (f y) = 12%nat) -> List.length (flat_map f l) = (12 * List.length l)%nat.
  Proof.
    induction l as [|y l IH]; intros H; [reflexivity|]. cbn [flat_map List.length]. rewrite app_length, (H y (or_introl eq_refl)), IH; [lia|].
    intros z Z. apply H. right. exact Z.
  Qed.
  Lemma flat_nth (f : A -> list B) d d' l : (forall y, In y l -> List.length (f y) = 12%nat) -> forall i, (i < 12 * List.length l)%nat ->
    nth i (flat_map f l) d = nth (i mod 12) (f (nth (i / 12) l d')) d.
  Proof.
    induction l as [|y l IH]; intros H i Hi; [cbn in Hi; lia|]. cbn [flat_map]. assert (Ly := H y (or_introl eq_refl)).
    destruct (Nat.lt_ge_cases i 12) as [L|G].
    - rewrite app_nth1 by lia. rewrite Nat.mod_small, Nat.div_small by exact L. reflexivity.
    - rewrite app_nth2 by lia. rewrite Ly, (IH (fun z Z => H z (or_intror Z))) by (cbn [List.length] in Hi; lia).
      replace i with ((i - 12) + 1 * 12)%nat at 3 4 by lia. rewrite Nat.mod_add, Nat.div_add by lia.
      rewrite Nat.add_1_r. reflexivity.
  Qed.
End Blocks.

Lemma monthly_inv ax a t ax' r : monthly_average_da ax a t = Ok (ax', r) ->
  let ts := ta_dates ax in
  exists c, ta_name ax = t /\ ta_cal ax = Some c /\ ts <> [] /\
    (forall y, In y (years ts) -> List.length (months ts (of_year ts y)) = 12%nat) /\
    ax' = mkAxis t (Some c) (flat_map (month_midpoints c) (years ts)) /\
    let groups := flat_map (year_record ts) (years ts) in
    r = mkArr ((t, List.length groups) :: drop_dim t (adims a)) (fun e => lmean (map (fun i => at_ a (upd e t i)) (nth (e t) groups []))).
Proof.
  intros H ts. unfold monthly_average_da in H. apply bind_inv in H as (c & Hc & H). fold ts in H. apply bind_inv in H as (bl & Hb & H).
  apply Ok_inj in H. injection H as <- <-. apply axis_calendar_inv in Hc. destruct Hc as (H1 & H2 & H3). exists c.
  split; [exact H1|]. split; [exact H2|]. split; [exact H3|].
  assert (G : (forall y, In y (years ts) -> List.length (months ts (of_year ts y)) = 12%nat) /\
    bl = map (fun y => (year_record ts y, month_midpoints c y)) (years ts)).
  { revert bl Hb. generalize (years ts). induction l as [|y l IH]; intros bl Hb; cbn [mapM] in Hb.
    - apply Ok_inj in Hb. subst bl. split; [intros y []|reflexivity].
    - apply bind_inv in Hb as (p & Hp & Hb). apply bind_inv in Hb as (bl' & Hb' & Hb). apply Ok_inj in Hb. subst bl.
      cbv zeta in Hp. destruct (Nat.eqb_spec (List.length (year_record ts y)) 12) as [E|]; [|discriminate]. apply Ok_inj in Hp. subst p.
      destruct (IH bl' Hb') as [I1 ->]. split; [|reflexivity]. intros z [<-|Z]; [|apply I1, Z].
      unfold year_record in E. rewrite map_length in E. exact E. }
  destruct G as [G ->]. split; [exact G|]. split.
  - f_equal. clear. induction (years ts) as [|y l IH]; [reflexivity|]. cbn [map flat_map snd]. f_equal. exact IH.
  - cbv zeta. replace (flat_map fst (map (fun y => (year_record ts y, month_midpoints c y)) (years ts))) with (flat_map (year_record ts) (years ts)); [reflexivity|].
    clear. induction (years ts) as [|y l IH]; [reflexivity|]. cbn [map flat_map fst]. f_equal. exact IH.
Qed.

Definition in_month (ts : list date) (y : Z) (m : nat) (i : nat) : bool := same_year ts y i && same_month ts m i.

Section Value.
  Variables (ax : taxis) (a : arr) (t : string) (ax' : taxis) (r : arr).
  Hypothesis H : monthly_average_da ax a t = Ok (ax', r).
  Let ts := ta_dates ax. Let n := List.length ts.
  Hypothesis Hm : forall i, (i < n)%nat -> (1 <= d_month (time_of ts i) <= 12)%nat.
  Variable ys : list Z.
  Hypothesis Hy : years_of ts ys.

  Lemma ys_years : ys = years ts.
  Proof. apply (years_of_unique ts); [exact Hy|apply years_years_of]. Qed.
  Lemma year_pos y i : In i (of_year ts y) -> (i < n)%nat.
  Proof. unfold of_year, positions. rewrite filter_In, in_seq. fold n. lia. Qed.
  Lemma monthly_dims : adims r = (t, (12 * List.length ys)%nat) :: drop_dim t (adims a).
  Proof.
    destruct (monthly_inv _ _ _ _ _ H) as (c & _ & _ & _ & L & _ & ->). cbn [adims]. fold ts in L |- *.
    rewrite flat_length; [rewrite ys_years; reflexivity|]. intros y I. unfold year_record. rewrite map_length. apply L, I.
  Qed.
  Lemma monthly_value e : (e t < 12 * List.length ys)%nat ->
    at_ r e = lmean (map (fun i => at_ a (upd e t i)) (filter (in_month ts (nth (e t / 12) ys 0%Z) (S (e t mod 12))) (seq 0 n))).
  Proof.
    intros He. destruct (monthly_inv _ _ _ _ _ H) as (c & _ & _ & _ & L & _ & ->). cbn [at_]. fold ts in L |- *.
    rewrite ys_years in He |- *. rewrite (flat_nth _ [] 0%Z (years ts)); [|intros y I; unfold year_record; rewrite map_length; apply L, I|exact He].
    set (y := nth (e t / 12) (years ts) 0%Z). assert (I : In y (years ts)) by (apply nth_In, Nat.div_lt_upper_bound; lia).
    assert (M : months ts (of_year ts y) = seq 1 12).
    { apply months_12; [intros i Hi; apply Hm, (year_pos y), Hi|apply L, I]. }
    unfold year_record. rewrite M. assert (K : (e t mod 12 < 12)%nat) by (apply Nat.mod_upper_bound; lia).
    rewrite (nth_indep _ [] (of_month ts 0 (of_year ts y))) by (rewrite map_length, seq_length; exact K).
    rewrite (map_nth (fun m => of_month ts m (of_year ts y))), seq_nth by exact K. cbn [Nat.add].
    unfold of_month, of_year, positions. rewrite filter_filter. reflexivity.
  Qed.
End Value.

(** C149: the result has twelve times per sampled year; the k-th is the mean of the valid samples of
    its month in its year (missing when there is none), whatever the sampling. *)
Theorem C149_mean : forall ax a t ax' r, monthly_average_da ax a t = Ok (ax', r) ->
  let ts := ta_dates ax in let n := List.length ts in
  (forall i, (i < n)%nat -> (1 <= d_month (time_of ts i) <= 12)%nat) ->
  forall ys, years_of ts ys ->
  adims r = (t, (12 * List.length ys)%nat) :: drop_dim t (adims a) /\
  forall e k m, e t = (12 * k + m)%nat -> (k < List.length ys)%nat -> (m < 12)%nat ->
    let x i := at_ a (upd e t i) in
    let here i := same_year ts (nth k ys 0%Z) i && same_month ts (S m) i in
    let q i := here i && notnull (x i) in
    (forall i, (i < n)%nat -> here i = true -> not_inf (x i)) ->
    ((exists i, (i < n)%nat /\ q i = true) -> at_ r e = Fin (Sum_if n q (fun i => val (x i)) / INR (count_if n q))) /\
    ((forall i, (i < n)%nat -> q i = false) -> at_ r e = NaN).
Proof.
  intros ax a t ax' r H ts n Hm ys Hy. split; [exact (monthly_dims ax a t ax' r H ys Hy)|].
  intros e k m E Hk Hm' x here q Hx.
  assert (E1 : (e t / 12 = k)%nat) by (symmetry; apply (Nat.div_unique _ _ k m); lia).
  assert (E2 : (e t mod 12 = m)%nat) by (symmetry; apply (Nat.mod_unique _ _ k m); lia).
  rewrite (monthly_value ax a t ax' r H Hm ys Hy e) by lia. rewrite E1, E2. fold ts n. split.
  - intros (i & Hi & Hq). exact (lmean_some n here x i Hx Hi Hq).
  - intros Hq. exact (lmean_none n here x Hx Hq).
Qed.
Print Assumptions C149_mean.

(** Each mean is labelled with the middle of its month. *)
Theorem C149_labels : forall ax a t ax' r c, monthly_average_da ax a t = Ok (ax', r) -> ta_cal ax = Some c ->
  forall ys, years_of (ta_dates ax) ys -> (forall y, In y ys -> regular c y) ->
  ta_name ax' = t /\ ta_cal ax' = Some c /\ List.length (ta_dates ax') = (12 * List.length ys)%nat /\
  forall k m, (k < List.length ys)%nat -> (m < 12)%nat -> let y := nth k ys 0%Z in
    time_of (ta_dates ax') (12 * k + m) = mkDate y (S m) (IZR (days_in_month c y (S m)) / 2).
Proof.
  intros ax a t ax' r c H Hc ys Hy Hr. destruct (monthly_inv _ _ _ _ _ H) as (c' & Hn & Hc' & _ & _ & -> & _).
  rewrite Hc in Hc'. injection Hc' as <-. assert (ys = years (ta_dates ax)) as -> by (apply (years_of_unique (ta_dates ax)); [exact Hy|apply years_years_of]).
  cbn [ta_name ta_cal ta_dates]. split; [reflexivity|]. split; [reflexivity|].
  assert (L12 : forall y, In y (years (ta_dates ax)) -> List.length (month_midpoints c y) = 12%nat) by (intros; apply month_midpoints_length).
  split; [apply flat_length, L12|]. intros k m Hk Hm. set (y := nth k (years (ta_dates ax)) 0%Z). unfold time_of. rewrite (flat_nth _ _ 0%Z _ L12) by lia.
  replace ((12 * k + m) / 12)%nat with k by (apply (Nat.div_unique _ _ k m); lia).
  replace ((12 * k + m) mod 12)%nat with m by (apply (Nat.mod_unique _ _ k m); lia). fold y.
  rewrite month_midpoints_eq by (apply Hr, nth_In, Hk). do 12 (destruct m as [|m]; [reflexivity|]). lia.
Qed.
Print Assumptions C149_labels.

(** It succeeds exactly when every sampled year has samples in every month. *)
Theorem C149_errors : forall ax a c, ta_cal ax = Some c -> ta_dates ax <> [] ->
  let ts := ta_dates ax in
  (forall i, (i < List.length ts)%nat -> (1 <= d_month (time_of ts i) <= 12)%nat) ->
  let full := forall i m, (i < List.length ts)%nat -> (1 <= m <= 12)%nat -> month_present ts (d_year (time_of ts i)) m in
  (full -> exists out, monthly_average_da ax a (ta_name ax) = Ok out) /\
  (~ full -> monthly_average_da ax a (ta_name ax) = Err ValueError).
Proof.
  intros ax a c Hc Hne ts Hm full.
  assert (IY : forall y i, In i (of_year ts y) <-> (i < List.length ts)%nat /\ d_year (time_of ts i) = y).
  { intros y i. unfold of_year, positions. rewrite filter_In, in_seq, Z.eqb_eq, nth_date_time. intuition lia. }
  assert (K : forall y, In y (years ts) -> (List.length (year_record ts y) = 12%nat <-> forall m, (1 <= m <= 12)%nat -> month_present ts y m)).
  { intros y I. unfold year_record. rewrite map_length. split.
    - intros E m Bm. apply months_12 in E; [|intros i Hi; apply Hm, (IY y), Hi].
      assert (X : In m (months ts (of_year ts y))) by (rewrite E; apply in_seq; lia). apply months_In in X.
      destruct X as (i & Hi & Ei). apply IY in Hi. exists i. tauto.
    - intros P. rewrite months_full; [reflexivity|intros i Hi; apply Hm, (IY y), Hi|].
      intros m Bm. destruct (P m Bm) as (i & Hi & Ey & Em). exists i. split; [apply IY; tauto|exact Em]. }
  unfold monthly_average_da. rewrite (axis_calendar_ok ax c Hc Hne). cbn [bind]. fold ts. split; intros F.
  - rewrite (mapM_all _ (fun y => (year_record ts y, month_midpoints c y))); [eexists; reflexivity|].
    intros y I. cbv zeta. assert (E : List.length (year_record ts y) = 12%nat); [|rewrite E; reflexivity].
    apply (K y I). intros m Bm. apply years_In in I. destruct I as (i & Hi & <-). apply F; assumption.
  - assert (X : exists y, In y (years ts) /\ List.length (year_record ts y) <> 12%nat).
    { apply NNPP. intros N. apply F. intros i m Hi Bm. assert (I : In (d_year (time_of ts i)) (years ts)) by (apply years_In; exists i; auto).
      apply (K _ I); [|exact Bm]. destruct (Nat.eq_dec (List.length (year_record ts (d_year (time_of ts i)))) 12) as [E|E]; [exact E|].
      exfalso. apply N. eexists. split; eassumption. }
    clear K F full. destruct X as (y & I & N). revert I. generalize (years ts). induction l as [|z l IH]; intros I; [destruct I|].
    cbn [mapM]. cbv zeta. destruct (Nat.eqb_spec (List.length (year_record ts z)) 12) as [E|E]; [|reflexivity].
    cbn [bind]. destruct I as [->|I]; [contradiction|]. specialize (IH I).
    destruct (mapM _ l) as [bl|ex]; cbn [bind] in IH |- *; [discriminate|exact IH].
Qed.
Print Assumptions C149_errors.

(** In binary64 each monthly mean is within (k + 1) rounding errors of the exact one; [k] bounds the
    additions a sample passes through. *)
Theorem C149_binary64 : forall ax dims (x : index -> f64) t ax' r ys n B,
  monthly_average_da ax (mkArr dims (fun e => of_f64 (x e))) t = Ok (ax', r) ->
  let ts := ta_dates ax in
  (forall i, (i < List.length ts)%nat -> (1 <= d_month (time_of ts i) <= 12)%nat) -> years_of ts ys ->
  (Z.of_nat (List.length ts) <= 1000000)%Z -> (Z.of_nat n <= 1000000)%Z -> 0 <= B <= 10 ^ 300 ->
  forall e k m, e t = (12 * k + m)%nat -> (k < List.length ys)%nat -> (m < 12)%nat ->
    (forall i, (i < List.length ts)%nat ->
       x (upd e t i) = B754_nan \/ is_finite (x (upd e t i)) = true /\ Rabs (B2R (x (upd e t i))) <= B) ->
    forall a, month64 n ts (nth k ys 0%Z) (S m) (fun i => x (upd e t i)) a ->
    (at_ r e = NaN /\ a = B754_nan) \/
    (exists v, at_ r e = Fin v /\ is_finite a = true /\ Rabs (B2R a - v) <= 1.01 * ((INR n + 1) / 2 ^ 53) * B + / 2 ^ 1075).
Proof.
  intros ax dims x t ax' r ys n B H ts Hm Hy HL HK HB e k m E Hk Hm' Hx a Ha.
  assert (E1 : (e t / 12 = k)%nat) by (symmetry; apply (Nat.div_unique _ _ k m); lia).
  assert (E2 : (e t mod 12 = m)%nat) by (symmetry; apply (Nat.mod_unique _ _ k m); lia).
  rewrite (monthly_value _ _ _ _ _ H Hm ys Hy e) by lia. rewrite E1, E2. fold ts. cbn [at_].
  unfold month64, of_month, of_year, positions in Ha. rewrite filter_filter in Ha.
  set (ps := filter _ _) in Ha. change (filter (in_month ts (nth k ys 0%Z) (S m)) (seq 0 (List.length ts))) with ps.
  rewrite <- (map_map (fun i => x (upd e t i)) of_f64).
  apply mean_close with (k := n); try assumption.
  - intros v I. apply in_map_iff in I. destruct I as (i & <- & I). unfold ps in I. apply filter_In in I. destruct I as [I _]. apply in_seq in I. apply Hx. lia.
  - rewrite map_length. unfold ps. match goal with |- context [filter ?f ?l] => assert (X := flen f l) end. rewrite seq_length in X. lia.
Qed.
Print Assumptions C149_binary64.

(** Two years of monthly values, one of them missing. *)
Example C149_example : let ax := mkAxis "time" (Some NoLeap) two_years in
  years_of two_years [2000%Z; 2001%Z] /\ (forall y, In y [2000%Z; 2001%Z] -> regular NoLeap y) /\
  (forall i, (i < List.length two_years)%nat -> (1 <= d_month (time_of two_years i) <= 12)%nat) /\
  (exists ax' r, monthly_average_da ax ramp "time" = Ok (ax', r) /\ at_ r (fun _ => 1%nat) = Fin 1 /\ at_ r (fun _ => 12%nat) = NaN /\
     time_of (ta_dates ax') 13 = mkDate 2001 2 14) /\
  monthly_average_da (mkAxis "time" (Some NoLeap) (tl two_years)) ramp "time" = Err ValueError /\
  (exists a, month64 1 two_years 2001 3 (fun i => of_Z (Z.of_nat i)) a /\ B2R a = 14).
Proof.
  intros ax.
  assert (Y : years_of two_years [2000%Z; 2001%Z]) by (change [2000%Z; 2001%Z] with (years two_years); apply years_years_of).
  assert (Rg : forall y, In y [2000%Z; 2001%Z] -> regular NoLeap y) by (intros y _; intros F; discriminate F).
  assert (Hm : forall i, (i < List.length two_years)%nat -> (1 <= d_month (time_of two_years i) <= 12)%nat).
  { intros i Hi. change (List.length two_years) with 24%nat in Hi. do 24 (destruct i as [|i]; [cbn; lia|]). lia. }
  split; [exact Y|]. split; [exact Rg|]. split; [exact Hm|]. split; [|split; [reflexivity|]].
  - destruct (monthly_average_da ax ramp "time") as [[ax' r]|] eqn:E; [|discriminate]. exists ax', r. split; [reflexivity|].
    destruct (C149_labels ax ramp "time" ax' r NoLeap E eq_refl _ Y Rg) as (_ & _ & _ & Lb).
    destruct (C149_mean ax ramp "time" ax' r E Hm _ Y) as [_ M].
    split; [|split].
    + destruct (M (fun _ => 1%nat) 0%nat 1%nat eq_refl ltac:(cbn; lia) ltac:(lia)) as [A _].
      { intros i _ _. cbn [at_ ramp]. destruct (Nat.eqb _ 12); exact I. }
      rewrite A; [|exists 1%nat; split; [cbn; lia|reflexivity]]. f_equal. unfold Sum_if, count_if. cbn. lra.
    + destruct (M (fun _ => 12%nat) 1%nat 0%nat eq_refl ltac:(cbn; lia) ltac:(lia)) as [_ A].
      { intros i _ _. cbn [at_ ramp]. destruct (Nat.eqb _ 12); exact I. }
      apply A. intros i Hi. change (List.length (ta_dates ax)) with 24%nat in Hi. do 24 (destruct i as [|i]; [reflexivity|]). lia.
    + rewrite (Lb 1%nat 1%nat ltac:(cbn; lia) ltac:(lia) : time_of (ta_dates ax') 13 = _). cbn [nth]. f_equal.
      change (days_in_month NoLeap 2001 2) with 28%Z. lra.
  - exists (of_Z 14 / of_Z 1)%f64. split; [|b2r (of_Z 14 / of_Z 1)%f64 E; lra]. exists (of_Z 14). split; [|reflexivity].
    change (tree64 1 [of_Z 14] (of_Z 14)). apply tree_one.
Qed.
