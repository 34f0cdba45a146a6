(** * PropertiesFloat3: rounding errors of the averages over time (C130, C131)

    [B2R x] is the real number represented by the finite binary64 datum [x]; [of_f64 x] is the
    datum [x] in the exact model of the other files. *)
From Coq Require Import Reals Lra Lia List ZArith QArith Bool String.
From Flocq Require Import Core IEEE754.BinarySingleNaN.
From Verif Require Import Num NumFacts Py Arr ArrFacts Calendar TimeAvg Derived Dataset SpecTime ProofsCal ProofsAvg ProofsAvg2 ProofsAvg3 ProofsUtil SpecFloat64 Ieee IeeeGlobal IeeeTime SpecIeee
  ProofsFloat ProofsIeee ProofsFloat5 ProofsFloat9 ProofsFloat10 ProofsFloat11 ProofsFloat12 PropertiesTime PropertiesTime2.
Import ListNotations.
Local Open Scope string_scope.
Local Open Scope R_scope.

Lemma eta_le_1 : eta <= 1.
Proof.
  assert (H := eta_small). eapply Rle_trans; [exact H|]. rewrite <- Rinv_1. apply Rinv_le_contravar; [lra|]. apply pow_R1_Rle. lra.
Qed.
Lemma weights_ok c ds y (x : nat -> f64) B :
  (forall i, (i < List.length ds)%nat -> x i = B754_nan \/ is_finite (x i) = true /\ Rabs (B2R (x i)) <= B) ->
  forall p, In p (map (fun i => (days_in_month c (d_year (nth_date ds i)) (d_month (nth_date ds i)), x i)) (of_year ds y)) -> vok B p /\ (fst p <= 31)%Z.
Proof.
  intros H p I. apply in_map_iff in I. destruct I as (i & <- & I). unfold of_year in I. apply filter_In in I. destruct I as [I _].
  apply in_seq in I. assert (D := dim_bounds c (d_year (nth_date ds i)) (d_month (nth_date ds i))). cbn [fst snd]. split; [|lia].
  split; [cbn [fst]; lia|]. cbn [snd]. apply H. lia.
Qed.
Lemma weights_sum l n : (forall p : Z * f64, In p l -> (0 <= fst p <= 31)%Z) -> List.length l = n -> (valid_weight l <= wsum (filled l) <= 31 * Z.of_nat n)%Z.
Proof.
  intros H <-. split; [apply filled_wsum; intros p I; apply (H p I)|].
  induction l as [|p l IH]; [cbn; lia|]. change (filled (p :: l)) with ((fst p, skipna (snd p)) :: filled l). rewrite wsum_cons. cbn [fst List.length].
  assert (I := IH (fun q Q => H q (or_intror Q))). assert (A := H p (or_introl eq_refl)). lia.
Qed.
Lemma annual_weights c ds (x : nat -> f64) ps :
  exact_list (map (fun i => (days_in_month c (d_year (nth_date ds i)) (d_month (nth_date ds i)), x i)) ps)
  = map (fun i => (days_weight c (nth_date ds i), of_f64 (x i))) ps.
Proof. unfold exact_list. rewrite map_map. reflexivity. Qed.

Lemma years_of_unique ts l l' : years_of ts l -> years_of ts l' -> l = l'.
Proof. intros [A1 A2] [B1 B2]. apply sorted_unique; [apply ascending_sorted, A1|apply ascending_sorted, B1|]. intros y. rewrite A2, B2. reflexivity. Qed.

(** C130: every annual mean computed in binary64, in whatever order the products are added and
    with or without fused multiply-adds, is missing exactly when the exact annual mean is; otherwise
    it is finite and differs from the exact one by at most 15 roundings of the largest value of the year. *)
Theorem C130_annual : forall ax dims (x : index -> f64) t ax' r c ys B,
  annual_average_da ax (mkArr dims (fun e => of_f64 (x e))) t = Ok (ax', r) ->
  ta_cal ax = Some c -> years_of (ta_dates ax) ys -> 0 <= B <= 10 ^ 300 ->
  forall e, (e "time" < List.length ys)%nat ->
    (forall i, (i < List.length (ta_dates ax))%nat ->
       x (upd e t i) = B754_nan \/ is_finite (x (upd e t i)) = true /\ Rabs (B2R (x (upd e t i))) <= B) ->
    forall a, annual64 c (ta_dates ax) (nth (e "time") ys 0%Z) (fun i => x (upd e t i)) a ->
    (at_ r e = NaN /\ a = B754_nan) \/
    (exists m, at_ r e = Fin m /\ is_finite a = true /\ Rabs (B2R a - m) <= 15 / 2 ^ 53 * B + / 2 ^ 1075).
Proof.
  intros ax dims x t ax' r c ys B H Hc Hy HB e He Hx a Ha. unfold annual_average_da in H.
  destruct (axis_calendar ax t) as [c'|] eqn:A; [|discriminate]. cbn [bind] in H.
  destruct (check_years (ta_dates ax)) as [u|] eqn:C; [|discriminate]. cbn [bind] in H.
  apply Ok_inj in H. injection H as <- <-. apply axis_calendar_inv in A. destruct A as (A1 & A2 & A3).
  rewrite Hc in A2. injection A2 as <-.
  assert (Ey : ys = years (ta_dates ax)) by (apply (years_of_unique (ta_dates ax)); [exact Hy|apply years_years_of]). subst ys.
  set (ds := ta_dates ax) in *. set (y := nth (e "time") (years ds) 0%Z) in *.
  assert (L : List.length (of_year ds y) = 12%nat).
  { destruct u. apply check_years_ok with (y := y) in C; [exact C|]. apply nth_In, He. }
  unfold annual64 in Ha. set (l := map _ (of_year ds y)) in Ha.
  assert (W := weights_ok c ds y (fun i => x (upd e t i)) B Hx). fold l in W.
  assert (S12 : (valid_weight l <= wsum (filled l) <= 31 * Z.of_nat 12)%Z).
  { apply weights_sum; [|unfold l; rewrite map_length; exact L]. intros p I. destruct (W p I) as [[P _] Q]. lia. }
  destruct (wmean_close 13 l a B (fun p I => proj1 (W p I)) HB ltac:(lia) ltac:(cbn; lia) Ha) as [[E1 E2]|(m & E1 & E2 & E3)].
  - left. split; [|exact E2]. unfold l in E1. rewrite annual_weights in E1. exact E1.
  - right. exists m. split; [unfold l in E1; rewrite annual_weights in E1; exact E1|]. split; [exact E2|].
    eapply Rle_trans; [exact E3|]. apply Rplus_le_compat_r. apply Rmult_le_compat_r; [apply HB|]. cbn [INR].
    replace (2 ^ 53) with 9007199254740992 by ring. lra.
Qed.
Print Assumptions C130_annual.

(** The same for the mean annual cycle; [k] bounds the additions a sample passes through. *)
Theorem C130_cycle : forall ax dims (x : index -> f64) t ty ax' r k B,
  annual_cycle_da ax (mkArr dims (fun e => of_f64 (x e))) t "mean" ty = Ok (ax', r) ->
  (forall i, (i < List.length (ta_dates ax))%nat -> (1 <= d_month (time_of (ta_dates ax) i) <= 12)%nat) ->
  (Z.of_nat (List.length (ta_dates ax)) <= 1000000)%Z -> (Z.of_nat k <= 1000000)%Z -> 0 <= B <= 10 ^ 300 ->
  forall e, (e t < 12)%nat ->
    (forall i, (i < List.length (ta_dates ax))%nat ->
       x (upd e t i) = B754_nan \/ is_finite (x (upd e t i)) = true /\ Rabs (B2R (x (upd e t i))) <= B) ->
    forall a, cycle64 k (ta_dates ax) (S (e t)) (fun i => x (upd e t i)) a ->
    (at_ r e = NaN /\ a = B754_nan) \/
    (exists m, at_ r e = Fin m /\ is_finite a = true /\ Rabs (B2R a - m) <= 1.01 * ((INR k + 1) / 2 ^ 53) * B + / 2 ^ 1075).
Proof.
  intros ax dims x t ty ax' r k B H Hm HL HK HB e He Hx a Ha. apply cycle_inv in H.
  destruct H as (c & f & Hn & Hc & Hne & F & L & -> & ->). apply Ok_inj in F. subst f.
  set (ts := ta_dates ax) in *. pose proof (cycle_months ts Hm L) as M.
  rewrite (cycle_value ts t _ lmean e M He). cbn [at_].
  unfold cycle64, of_month in Ha. set (ps := filter _ (positions ts)) in Ha.
  assert (Ep : ps = filter (same_month ts (S (e t))) (seq 0 (List.length ts))) by reflexivity. rewrite <- Ep.
  rewrite <- (map_map (fun i => x (upd e t i)) of_f64).
  apply mean_close with (k := k); try assumption.
  - intros v I. apply in_map_iff in I. destruct I as (i & <- & I). rewrite Ep in I. apply filter_In in I. destruct I as [I _]. apply in_seq in I. apply Hx. lia.
  - rewrite map_length, Ep. assert (X := flen (same_month ts (S (e t))) (seq 0 (List.length ts))). rewrite seq_length in X. lia.
Qed.
Print Assumptions C130_cycle.

(** One year of twelve values, one of them missing, added from left to right. *)
Definition year_x (e : index) : f64 := if Nat.eqb (e "time") 4 then B754_nan else lit (Z.of_nat (S (e "time")) # 10).
Lemma year_dots (x : nat -> f64) : exists a, annual64 NoLeap (one_year 2001) 2001 x a.
Proof.
  unfold annual64. set (l := map _ (of_year (one_year 2001) 2001)).
  assert (L : (List.length l <= 12)%nat) by (unfold l; rewrite map_length; cbv; repeat constructor).
  eexists. exists (chain_dot zero (map (fun p : Z * f64 => (fst p, skipna (snd p))) l)). split; [|reflexivity].
  apply dot_weaken with (1 + List.length (map (fun p : Z * f64 => (fst p, skipna (snd p))) l))%nat; [|rewrite map_length; lia].
  apply (chain_dot64 _ 1 []); [lia|apply dot_zero].
Qed.
Example C130_example :
  let ax := mkAxis "time" (Some NoLeap) (one_year 2001) in
  (exists p, annual_average_da ax (mkArr [("time", 12%nat)] (fun e => of_f64 (year_x e))) "time" = Ok p) /\
  years_of (one_year 2001) [2001%Z] /\
  (forall i, (i < 12)%nat -> let v := year_x (upd (fun _ => O) "time" i) in v = B754_nan \/ is_finite v = true /\ Rabs (B2R v) <= 4) /\
  (exists a, annual64 NoLeap (one_year 2001) 2001 (fun i => year_x (upd (fun _ => O) "time" i)) a).
Proof.
  split; [eexists; reflexivity|]. split; [|split; [|apply year_dots]].
  - change [2001%Z] with (years (one_year 2001)). apply years_years_of.
  - intros i Hi v. unfold v, year_x. cbn [upd String.eqb Ascii.eqb Bool.eqb]. destruct (Nat.eqb i 4); [left; reflexivity|right].
    assert (R := lit_rep (Z.of_nat (S i) # 10)). assert (Q : Q2R (Z.of_nat (S i) # 10) <= 1.2 /\ 0 <= Q2R (Z.of_nat (S i) # 10)).
    { unfold Q2R. cbn [Qnum Qden]. assert (0 <= IZR (Z.of_nat (S i)) <= 12) by (split; apply IZR_le; lia). lra. }
    assert (FE := fl_error (Q2R (Z.of_nat (S i) # 10))). rewrite u_val in FE. assert (ET := eta_le_1).
    rewrite (Rabs_pos_eq (Q2R _)) in FE by apply Q. apply Rabs_le_inv in FE.
    destruct R as [R1 R2]; [cbn [Qnum]; lia|reflexivity| |].
    + unfold fits64. apply Rle_lt_trans with 4; [apply Rabs_le; lra|]. change 4 with (bpow radix2 2). apply bpow_lt. lia.
    + split; [exact R1|]. rewrite R2. apply Rabs_le. lra.
Qed.

(** C131: the annual mean of a field that does not change through the year is that field ... in binary64
    it need not be: with the NoLeap calendar, the twelve monthly values 0.1 average to 0.10000000000000002. *)
Theorem C131_refuted :
  ~ (forall c ts y (x a : f64), is_finite x = true -> Rabs (B2R x) <= 10 ^ 300 ->
     count_if (List.length ts) (same_year ts y) = 12%nat -> annual64 c ts y (fun _ => x) a -> B2R a = B2R x).
Proof.
  intros H. set (x := lit (1 # 10)).
  set (l := map (fun i => (days_in_month NoLeap (d_year (nth_date (one_year 2001) i)) (d_month (nth_date (one_year 2001) i)), x)) (of_year (one_year 2001) 2001)).
  set (a := (chain_dot zero (map (fun p : Z * f64 => (fst p, skipna (snd p))) l) / of_Z (valid_weight l))%f64).
  assert (F : is_finite x = true) by (vm_compute; reflexivity).
  assert (A : annual64 NoLeap (one_year 2001) 2001 (fun _ => x) a).
  { unfold annual64. fold l. exists (chain_dot zero (map (fun p : Z * f64 => (fst p, skipna (snd p))) l)). split; [|reflexivity].
    apply dot_weaken with (1 + List.length (map (fun p : Z * f64 => (fst p, skipna (snd p))) l))%nat.
    - apply (chain_dot64 _ 1 []); [lia|apply dot_zero].
    - rewrite map_length. unfold l. rewrite map_length. cbv. repeat constructor. }
  assert (N : Beqb a x = false) by (vm_compute; reflexivity).
  assert (Fa : is_finite a = true) by (vm_compute; reflexivity).
  specialize (H NoLeap (one_year 2001) 2001%Z x a F).
  rewrite Beqb_correct in N by assumption. rewrite H in N; [rewrite Req_bool_true in N by reflexivity; discriminate N| |reflexivity|exact A].
  apply Rle_trans with 1; [|apply pow_R1_Rle; lra].
  destruct (lit_rep (1 # 10)) as [_ R2]; [cbn; lia|reflexivity| |].
  - unfold fits64. assert (FE := fl_error (Q2R (1 # 10))). unfold Q2R in *. cbn [Qnum Qden] in *. rewrite u_val in FE. assert (ET := eta_le_1).
    rewrite (Rabs_pos_eq (1 * / 10)) in FE by lra. apply Rabs_le_inv in FE.
    apply Rle_lt_trans with 4; [apply Rabs_le; lra|]. change 4 with (bpow radix2 2). apply bpow_lt. lia.
  - fold x in R2. rewrite R2. assert (FE := fl_error (Q2R (1 # 10))). unfold Q2R in *. cbn [Qnum Qden] in *. rewrite u_val in FE. assert (ET := eta_small).
    rewrite (Rabs_pos_eq (1 * / 10)) in FE by lra. apply Rabs_le_inv in FE. assert (/ 10 ^ 30 <= / 10).
    { apply Rinv_le_contravar; [lra|]. rewrite <- (pow_1 10) at 1. apply Rle_pow; [lra|lia]. } apply Rabs_le. lra.
Qed.
Print Assumptions C131_refuted.

(** What holds: a value with at most 44 significant bits comes out unchanged, in whatever order the months
    are added, also when months are missing (but not all). *)
Theorem C131_bits_partial : forall c ts y (x : f64) (s : nat -> f64) a m e,
  is_finite x = true -> B2R x = IZR m * bpow radix2 e -> (-1074 <= e)%Z -> (Z.abs m <= 2 ^ 44)%Z -> Rabs (B2R x) <= 10 ^ 300 ->
  count_if (List.length ts) (same_year ts y) = 12%nat ->
  (forall i, (i < List.length ts)%nat -> same_year ts y i = true -> s i = x \/ s i = B754_nan) ->
  (exists i, (i < List.length ts)%nat /\ same_year ts y i = true /\ s i = x) ->
  annual64 c ts y s a -> is_finite a = true /\ B2R a = B2R x.
Proof.
  intros c ts y x s a m e F Hx He Hm Hb HC HS (j & Hj & Yj & Sj) HA. unfold annual64 in HA. set (l := map _ (of_year ts y)) in HA.
  assert (I : forall p, In p l -> (28 <= fst p <= 31)%Z /\ (snd p = x \/ snd p = B754_nan)).
  { intros p I. apply in_map_iff in I. destruct I as (i & <- & I). apply filter_In in I. destruct I as [I1 I2]. apply in_seq in I1. cbn [fst snd].
    split; [apply dim_bounds|]. apply HS; [lia|exact I2]. }
  assert (S12 : (valid_weight l <= wsum (filled l) <= 31 * Z.of_nat 12)%Z).
  { apply weights_sum; [intros p P; destruct (I p P); lia|]. unfold l. rewrite map_length. exact HC. }
  apply (constant_mean 13 l a x m e); try assumption; [intros p P; destruct (I p P); split; [lia|assumption]|lia|].
  assert (P : In (days_in_month c (d_year (nth_date ts j)) (d_month (nth_date ts j)), s j) l).
  { unfold l. apply (in_map (fun i => (days_in_month c (d_year (nth_date ts i)) (d_month (nth_date ts i)), s i))). apply filter_In. split; [apply in_seq; lia|exact Yj]. }
  assert (N : is_nan x = false) by (destruct x; try discriminate F; reflexivity).
  clear - I P N Sj. rewrite Sj in P. assert (V : forall q, (forall p, In p q -> (28 <= fst p <= 31)%Z /\ (snd p = x \/ snd p = B754_nan)) -> (0 <= valid_weight q)%Z).
  { induction q as [|p q IH]; intros H; [cbn; lia|]. rewrite valid_cons. assert (J := IH (fun r Q => H r (or_intror Q))). destruct (H p (or_introl eq_refl)) as [A _]. destruct (is_nan (snd p)); lia. }
  induction l as [|p l IH]; [destruct P|]. rewrite valid_cons. assert (J := V l (fun r Q => I r (or_intror Q))). destruct P as [->|P].
  - cbn [fst snd] in *. rewrite N. destruct (I _ (or_introl eq_refl)) as [A _]. cbn [fst] in A. lia.
  - specialize (IH (fun r Q => I r (or_intror Q)) P). destruct (I _ (or_introl eq_refl)) as [A _]. destruct (is_nan (snd p)); lia.
Qed.
Print Assumptions C131_bits_partial.

(** In particular single-precision data (which numpy widens before it multiplies by the integer weights). *)
Theorem C131_single_partial : forall c ts y (v : f32) a,
  is_finite v = true -> count_if (List.length ts) (same_year ts y) = 12%nat ->
  annual64 c ts y (fun _ => widen v) a -> is_finite a = true /\ B2R a = B2R v.
Proof.
  intros c ts y v a F HC HA. destruct (widen_rep v _ (conj F eq_refl)) as [W1 W2].
  assert (G := generic_format_B2R 24 128 v). apply (FLT_format_generic radix2 (-149) 24) in G. destruct G as [[m e] E1 E2 E3]. cbn in E2, E3.
  rewrite <- W2. apply (C131_bits_partial c ts y (widen v) (fun _ => widen v) a m e); try assumption.
  - rewrite W2. exact E1.
  - lia.
  - change (Z.abs m < 2 ^ 24)%Z in E2. lia.
  - rewrite W2. left. eapply Rlt_trans; [apply abs_B2R_lt_emax|].
    change (bpow radix2 128) with (IZR (2 ^ 128)). replace (10 ^ 300) with (IZR (10 ^ 300)) by (rewrite pow_IZR; reflexivity). apply IZR_lt. vm_compute. reflexivity.
  - intros i _ _. left. reflexivity.
  - unfold count_if in HC. destruct (filter (same_year ts y) (seq 0 (List.length ts))) as [|i q] eqn:Q; [discriminate HC|].
    assert (I : In i (filter (same_year ts y) (seq 0 (List.length ts)))) by (rewrite Q; left; reflexivity).
    apply filter_In in I. destruct I as [I1 I2]. apply in_seq in I1. exists i. split; [lia|]. split; [exact I2|reflexivity].
Qed.
Print Assumptions C131_single_partial.

Example C131_example : let v := narrow (lit (1 # 10)) in
  is_finite v = true /\ B2R v <> 0 /\ count_if 12 (same_year (one_year 2001) 2001) = 12%nat /\
  exists a, annual64 NoLeap (one_year 2001) 2001 (fun _ => widen v) a.
Proof.
  split; [vm_compute; reflexivity|]. split; [|split; [reflexivity|apply year_dots]].
  assert (N : Beqb (narrow (lit (1 # 10))) (B754_zero false) = false) by (vm_compute; reflexivity).
  rewrite Beqb_correct in N by (vm_compute; reflexivity). intros E. rewrite E in N. cbn [B2R] in N. rewrite Req_bool_true in N by reflexivity. discriminate N.
Qed.
