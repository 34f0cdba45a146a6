(** * ProofsFloat9: the global steric height (proofs only) *)
From Coq Require Import Reals Lra Lia List ZArith Bool Permutation.
From Flocq Require Import Core IEEE754.BinarySingleNaN Relative Plus_error.
From Verif Require Import SpecFloat64 Ieee IeeeGlobal SpecIeee SpecEos SpecIeeeGlobal ProofsEosBox ProofsFloat ProofsIeee ProofsFloat4 ProofsFloat5 ProofsFloat8.
Import ListNotations.
Local Open Scope R_scope.

Lemma tiny_pow : bpow radix2 (-1022) <= / 10 ^ 300.
Proof.
  change (bpow radix2 (-1022)) with (bpow radix2 (Z.opp 1022)). rewrite bpow_opp. apply Rinv_le_contravar; [apply pow_lt; lra|].
  replace (10 ^ 300) with (IZR (10 ^ 300)) by (rewrite pow_IZR; reflexivity).
  change (bpow radix2 1022) with (IZR (2 ^ 1022)). apply IZR_le. vm_compute. discriminate.
Qed.
Lemma big_pow : 10 ^ 300 < bpow radix2 1024.
Proof.
  replace (10 ^ 300) with (IZR (10 ^ 300)) by (rewrite pow_IZR; reflexivity).
  change (bpow radix2 1024) with (IZR (2 ^ 1024)). apply IZR_lt. vm_compute. reflexivity.
Qed.
Lemma p300 : 10 ^ 300 = 10 ^ 100 * 10 ^ 100 * 10 ^ 100.
Proof. rewrite <- !pow_add. reflexivity. Qed.

(** Relative error of a density: 4e-15. *)
Definition cd : R := 4 / 10 ^ 15.
Lemma cd_val : cd = 4 / 1000000000000000.
Proof. unfold cd. f_equal. ring. Qed.
Lemma rho_near (T S z a : f64) : is_finite T = true -> is_finite S = true -> is_finite z = true -> is_finite a = true ->
  -2 <= B2R T <= 40 -> 0 <= B2R S <= 42 -> 0 <= B2R z <= 11900 -> 0 <= B2R a <= 110000 ->
  is_finite (rho_at T S z a) = true /\ 
  980 < wr_rho (B2R T) (B2R S) (B2R z * 10000 + B2R a) < 1100 /\
  near (1 + cd) (wr_rho (B2R T) (B2R S) (B2R z * 10000 + B2R a)) (B2R (rho_at T S z a)).
Proof.
  intros F1 F2 F3 F4 H1 H2 H3 H4. destruct (rho_at_close T S z a F1 F2 F3 F4 H1 H2 H3 H4) as [F C].
  assert (B : 980 < wr_rho (B2R T) (B2R S) (B2R z * 10000 + B2R a) < 1100).
  { apply rho_bounds. unfold ocean_box. lra. }
  split; [exact F|]. split; [exact B|]. set (r := wr_rho _ _ _) in *. set (x := B2R (rho_at T S z a)) in *.
  change (IZR (10 ^ 13)) with 10000000000000 in C. apply Rabs_le_inv in C.
  rewrite cd_val. split; [lra|]. split; [lra|]. split; [|lra].
  apply Rmult_le_reg_r with (1 + 4 / 1000000000000000); [lra|]. unfold Rdiv at 1. rewrite Rmult_assoc, Rinv_l by lra. lra.
Qed.

Section Cell.
Variables (patm v z T S : f64).
Hypotheses (Fa : is_finite patm = true) (Ha : 0 <= B2R patm <= 110000).
Hypothesis Hv : size_ok v.
Hypothesis Hf : is_finite v = true ->
  is_finite z = true /\ is_finite T = true /\ is_finite S = true /\
  0 <= B2R z <= 11900 /\ -2 <= B2R T <= 40 /\ 0 <= B2R S <= 42.
Hypothesis Vmax : B2R v <= 10 ^ 100.
Let rho := wr_rho (B2R T) (B2R S) (B2R z * 10000 + B2R patm).
Lemma term_near : is_finite (skipna (rho_at T S z patm * v)) = true /\ 0 <= B2R (skipna (rho_at T S z patm * v)) /\
  near ((1 + cd) * (1 + u)) (B2R v * rho) (B2R (skipna (rho_at T S z patm * v))).
Proof.
  assert (U := u_pos). assert (C : 0 < cd) by (rewrite cd_val; lra).
  assert (G : 1 <= (1 + cd) * (1 + u)) by nra.
  assert (Z0 : forall x, near ((1 + cd) * (1 + u)) (0 * x) 0).
  { intros x. rewrite Rmult_0_l. split; [exact G|]. split; [lra|]. unfold Rdiv. rewrite !Rmult_0_l. lra. }
  destruct Hv as [-> | [Fv Sv]].
  - assert (E : (rho_at T S z patm * B754_nan)%f64 = B754_nan) by (destruct (rho_at T S z patm); reflexivity).
    rewrite E. cbn. split; [reflexivity|]. split; [lra|]. apply Z0.
  - destruct (Hf Fv) as (F1 & F2 & F3 & B1 & B2 & B3).
    destruct (rho_near T S z patm F2 F3 F1 Fa B2 B3 B1 Ha) as (Fr & Br & N). fold rho in Br, N.
    set (r := rho_at T S z patm) in *.
    assert (N0 := near_pos _ _ _ N).
    assert (P100 : 0 < 10 ^ 100) by (apply pow_lt; lra).
    assert (R : near ((1 + cd) * (1 + u)) (B2R v * rho) (fl (B2R r * B2R v))).
    { destruct Sv as [-> | Sv].
      - rewrite Rmult_0_r. unfold fl. rewrite round_0; [|apply valid_rnd_N]. apply Z0.
      - apply near_trans with (B2R r * B2R v).
        + rewrite Rmult_comm. replace (1 + cd) with ((1 + cd) * 1) by ring. apply near_mul; [exact N|].
          apply near_refl. assert (0 < / 10 ^ 100) by (apply Rinv_0_lt_compat; exact P100). lra.
        + apply near_fl. eapply Rle_trans; [exact tiny_pow|].
          destruct N as (_ & _ & N1 & N2). rewrite cd_val in N1.
          assert (1 <= B2R r).
          { eapply Rle_trans; [|exact N1]. apply Rmult_le_reg_r with (1 + 4 / 1000000000000000); [lra|].
            unfold Rdiv at 2. rewrite Rmult_assoc, Rinv_l by lra. lra. }
          assert (/ 10 ^ 300 <= / 10 ^ 100).
          { apply Rinv_le_contravar; [exact P100|]. apply Rle_pow; [lra|lia]. }
          assert (0 < / 10 ^ 100) by (apply Rinv_0_lt_compat; exact P100). nra. }
    assert (Up : fl (B2R r * B2R v) <= 10 ^ 300).
    { eapply Rle_trans; [apply R|]. assert (V0 : 0 <= B2R v) by (destruct Sv as [-> | Sv]; [lra|]; assert (0 < / 10 ^ 100) by (apply Rinv_0_lt_compat; exact P100); lra).
      assert (K : (1 + cd) * (1 + u) <= 2) by (rewrite cd_val, u_val; lra).
      assert (Big : 2200 <= 10 ^ 100) by (change 2200 with (IZR 2200); replace (10 ^ 100) with (IZR (10 ^ 100)) by (rewrite pow_IZR; reflexivity); apply IZR_le; vm_compute; discriminate).
      rewrite p300. set (q := 10 ^ 100) in *.
      assert (B2R v * rho <= q * 1100) by (apply Rmult_le_compat; lra).
      assert (0 <= B2R v * rho) by (apply Rmult_le_pos; lra).
      assert (B2R v * rho * ((1 + cd) * (1 + u)) <= q * 1100 * 2) by (apply Rmult_le_compat; lra).
      assert (q * 2200 <= q * q) by (apply Rmult_le_compat_l; lra).
      assert (0 <= q * q) by nra. assert (q * q * 1 <= q * q * q) by (apply Rmult_le_compat_l; lra). lra. }
    assert (P := near_pos _ _ _ R).
    destruct (mul64_rep r v _ _ (conj Fr eq_refl) (conj Fv eq_refl)) as [X Y].
    { unfold fits64. rewrite Rabs_pos_eq by exact P. assert (BP := big_pow). lra. }
    unfold skipna. rewrite (finite_not_nan _ X). rewrite Y. split; [exact X|]. split; [exact P|exact R].
Qed.
Lemma size_near : is_finite (skipna v) = true /\ 0 <= B2R (skipna v) /\ B2R (skipna v) = B2R v.
Proof using Hv.
  clear - Hv.  destruct Hv as [-> | [F S']]; [cbn; repeat split; lra|]. unfold skipna. rewrite (finite_not_nan _ F).
  split; [exact F|]. split; [|reflexivity]. destruct S' as [-> | S']; [lra|].
  assert (0 < / 10 ^ 100) by (apply Rinv_0_lt_compat, pow_lt; lra). lra.
Qed.
End Cell.

Lemma near_rsum {A} f (g g' : A -> R) l : 1 <= f -> (forall c, In c l -> near f (g c) (g' c)) -> near f (rsum (map g l)) (rsum (map g' l)).
Proof.
  intros F. induction l as [|c l IH]; intros H; cbn [map rsum].
  - split; [exact F|]. split; [lra|]. unfold Rdiv. rewrite !Rmult_0_l. lra.
  - apply near_add; [apply H; left; reflexivity|]. apply IH. intros c' Hc. apply H. right. exact Hc.
Qed.
Lemma rsum_pick {A} (f : A -> R) l : (forall c, In c l -> f c = 0 \/ / 10 ^ 100 <= f c) -> 0 < rsum (map f l) -> / 10 ^ 100 <= rsum (map f l).
Proof.
  assert (P : 0 < / 10 ^ 100) by (apply Rinv_0_lt_compat, pow_lt; lra).
  induction l as [|c l IH]; intros H Q; cbn [map rsum] in *; [lra|].
  assert (N := rsum_nonneg f l (fun x Hx => match H x (or_intror Hx) with or_introl E => Req_le _ _ (eq_sym E) | or_intror E => Rle_trans _ _ _ (Rlt_le _ _ P) E end)).
  destruct (H c (or_introl eq_refl)) as [E|E]; [|lra]. rewrite E in *.
  assert (IH' := IH (fun x Hx => H x (or_intror Hx))). lra.
Qed.
Lemma le_part {A} (f : A -> R) l c : (forall x, In x l -> 0 <= f x) -> In c l -> f c <= rsum (map f l).
Proof.
  induction l as [|d l IH]; intros H I; [destruct I|]. cbn [map rsum].
  assert (N := rsum_nonneg f l (fun x Hx => H x (or_intror Hx))). assert (Nd := H d (or_introl eq_refl)).
  destruct I as [-> | I]; [lra|]. assert (IH' := IH (fun x Hx => H x (or_intror Hx)) I). lra.
Qed.
Lemma Fac_bound n : INR n * u <= / 1000 -> Fac n <= 1 + 1.002 * (INR n * u).
Proof.
  intros H. assert (U := u_pos). assert (I := pos_INR n). assert (Q : 0 <= INR n * u) by nra.
  assert (B := pow_bernoulli n ltac:(lra)). fold (Fac n) in B. assert (F := Fac_1 n). set (t := INR n * u) in *. nra.
Qed.
Lemma near_abs f x y : near f x y -> Rabs (y - x) <= x * (f - 1).
Proof.
  intros (F & X & H1 & H2). apply Rabs_le. split; [|lra].
  assert (x * (2 - f) <= x / f).
  { apply Rmult_le_compat_l; [exact X|]. apply Rmult_le_reg_r with f; [lra|]. rewrite Rinv_l by lra. nra. }
  lra.
Qed.

Section Height.
(** Sums, exact and computed. *)
Variables (volo masso masso_ref area : f64) (V M Mref A f : R) (k : nat).
Hypotheses (Fv : is_finite volo = true) (Fm : is_finite masso = true) (Fr : is_finite masso_ref = true) (Fa : is_finite area = true).
Hypotheses (Nv : near (Fac k) V (B2R volo)) (Na : near (Fac k) A (B2R area)).
Hypotheses (Nm : near f M (B2R masso)) (Nr : near f Mref (B2R masso_ref)).
Hypothesis Ef : f = (1 + cd) * (1 + u) * Fac k.
Hypotheses (Hk : INR k <= 1000000).
Hypotheses (V1 : / 10 ^ 100 <= V) (V2 : V <= 10 ^ 100) (A1 : / 10 ^ 100 <= A) (A2 : A <= 10 ^ 100).
Hypotheses (M1 : 980 * V <= M <= 1100 * V) (R1 : 980 * V <= Mref <= 1100 * V).
Let P100 : 0 < / 10 ^ 100.
Proof. apply Rinv_0_lt_compat, pow_lt; lra. Qed.
Let K : R := INR k * u.
Lemma K_le : 0 <= K <= 1.2e-10.
Proof. unfold K. rewrite u_val. assert (I := pos_INR k). split; lra. Qed.
Lemma Fk : 1 <= Fac k <= 1 + 1.002 * K.
Proof. split; [apply Fac_1|]. apply Fac_bound. fold K. assert (H := K_le). lra. Qed.
Lemma f_le : 1 <= f <= 1.001.
Proof.
  rewrite Ef. assert (H := Fk). assert (HK := K_le). rewrite cd_val, u_val.
  set (c := (1 + 4 / 1000000000000000) * (1 + / 9007199254740992)).
  assert (C : 1 <= c <= 1.0001) by (unfold c; lra). assert (Fac k <= 1.0001) by lra. split; nra.
Qed.

Let x := Mref / M.
Lemma x_range : 0.89 <= x <= 1.123.
Proof.
  assert (VP : 0 < V) by lra. unfold x. split.
  - apply Rmult_le_reg_r with M; [lra|]. unfold Rdiv. rewrite Rmult_assoc, Rinv_l by lra. lra.
  - apply Rmult_le_reg_r with M; [lra|]. unfold Rdiv. rewrite Rmult_assoc, Rinv_l by lra. lra.
Qed.
Lemma ln_x : Rabs (ln x) <= 0.1236.
Proof.
  assert (X := x_range). apply Rabs_le. split.
  - assert (L := ln_1p (/ x - 1)). replace (1 + (/ x - 1)) with (/ x) in L by ring. rewrite ln_Rinv in L by lra.
    assert (I : / x <= / 0.89) by (apply Rinv_le_contravar; lra).
    assert (J : / 1.123 <= / x) by (apply Rinv_le_contravar; lra).
    destruct (Rle_or_lt 0 (/ x - 1)) as [Q|Q]; [specialize (L Q); lra|].
    assert (1 < x). { destruct (Rle_or_lt x 1) as [W|W]; [|exact W]. assert (/ 1 <= / x) by (apply Rinv_le_contravar; lra). rewrite Rinv_1 in *. lra. }
    assert (0 < ln x) by (rewrite <- ln_1; apply ln_increasing; lra). lra.
  - destruct (Rle_or_lt 1 x) as [Q|Q].
    + assert (L := ln_1p (x - 1) ltac:(lra)). replace (1 + (x - 1)) with x in L by ring. lra.
    + assert (ln x < 0) by (rewrite <- ln_1; apply ln_increasing; lra). lra.
Qed.

(** A quotient of moderate numbers. *)
Lemma div_near (a b : f64) : is_finite a = true -> is_finite b = true -> 0 < B2R b -> / 10 ^ 300 <= B2R a / B2R b <= 10 ^ 250 ->
  is_finite (a / b)%f64 = true /\ near (1 + u) (B2R a / B2R b) (B2R (a / b)%f64).
Proof.
  intros F1 F2 P [L H].
  assert (N := near_fl (B2R a / B2R b) (Rle_trans _ _ _ tiny_pow L)).
  destruct (div64_rep a b _ _ (conj F1 eq_refl) (conj F2 eq_refl)) as [X Y]; [lra| |rewrite Y; split; [exact X|exact N]].
  unfold fits64. rewrite Rabs_pos_eq by exact (near_pos _ _ _ N). assert (BP := big_pow).
  destruct N as (_ & N0 & _ & N1). rewrite u_val in N1. 
  assert (10 ^ 250 * 10 ^ 50 = 10 ^ 300) by (rewrite <- pow_add; reflexivity).
  assert (2 <= 10 ^ 50) by (change 2 with (IZR 2); replace (10 ^ 50) with (IZR (10 ^ 50)) by (rewrite pow_IZR; reflexivity); apply IZR_le; vm_compute; discriminate).
  assert (0 < 10 ^ 250) by (apply pow_lt; lra). set (q := B2R a / B2R b) in *. nra.
Qed.
Lemma small_300 y : / 1000 <= y -> / 10 ^ 300 <= y.
Proof.
  intros H. eapply Rle_trans; [|exact H]. apply Rinv_le_contravar; [lra|].
  replace (10 ^ 300) with (IZR (10 ^ 300)) by (rewrite pow_IZR; reflexivity). apply IZR_le. vm_compute. discriminate.
Qed.
Lemma large_250 y : y <= 1000000 -> y <= 10 ^ 250.
Proof.
  intros H. eapply Rle_trans; [exact H|].
  replace (10 ^ 250) with (IZR (10 ^ 250)) by (rewrite pow_IZR; reflexivity). apply IZR_le. vm_compute. discriminate.
Qed.
Lemma near_half g a b : near g a b -> g <= 2 -> a / 2 <= b <= a * 2.
Proof.
  intros (G & X & H1 & H2) H. split.
  - eapply Rle_trans; [|exact H1]. apply Rmult_le_compat_l; [exact X|]. apply Rinv_le_contravar; lra.
  - eapply Rle_trans; [exact H2|]. apply Rmult_le_compat_l; lra.
Qed.
Lemma mean_near (m : f64) (E : R) : is_finite m = true -> near f E (B2R m) -> 980 * V <= E <= 1100 * V ->
  is_finite (m / volo)%f64 = true /\ near (1 + u) (B2R m / B2R volo) (B2R (m / volo)%f64) /\ 200 <= B2R m / B2R volo <= 4400.
Proof.
  intros F N HE. assert (FL := f_le). assert (FK := Fk). assert (HK := K_le).
  assert (NV := near_half _ _ _ Nv ltac:(lra)). assert (NM := near_half _ _ _ N ltac:(lra)).
  assert (VP : 0 < V) by lra.
  assert (B : 200 <= B2R m / B2R volo <= 4400).
  { split; (apply Rmult_le_reg_r with (B2R volo); [lra|]; unfold Rdiv; rewrite Rmult_assoc, Rinv_l by lra; lra). }
  destruct (div_near m volo F Fv) as [X Y]; [lra|split; [apply small_300|apply large_250]; lra|].
  split; [exact X|]. split; [exact Y|exact B].
Qed.
Definition ratio : f64 := ((masso_ref / volo) / (masso / volo))%f64.
Lemma ratio_near : is_finite ratio = true /\ near (f * f * ((1 + u) * (1 + u)) * (1 + u)) x (B2R ratio).
Proof.
  assert (VP : 0 < V) by lra.
  destruct (mean_near masso_ref Mref Fr Nr R1) as (X1 & Y1 & Z1). destruct (mean_near masso M Fm Nm M1) as (X2 & Y2 & Z2).
  assert (P1 := near_half _ _ _ Y1 ltac:(rewrite u_val; lra)). assert (P2 := near_half _ _ _ Y2 ltac:(rewrite u_val; lra)).
  set (q1 := (masso_ref / volo)%f64) in *. set (q2 := (masso / volo)%f64) in *.
  destruct (div_near q1 q2 X1 X2) as [X Y]; [lra| |].
  { split; [apply small_300|apply large_250]; (apply Rmult_le_reg_r with (B2R q2); [lra|]; unfold Rdiv; rewrite Rmult_assoc, Rinv_l by lra; lra). }
  split; [exact X|]. eapply near_trans; [|exact Y]. eapply near_trans; [|apply near_div; [exact Y1|exact Y2|lra]].
  assert (VV := near_spos _ _ _ Nv VP). assert (MM := near_spos _ _ _ Nm ltac:(lra)).
  replace (B2R masso_ref / B2R volo / (B2R masso / B2R volo)) with (B2R masso_ref / B2R masso) by (field; lra).
  unfold x. apply near_div; [exact Nr|exact Nm|lra].
Qed.
Let D : R := 2 * cd + 2 * K + 5 * u.
Lemma D_le : 0 <= D <= 1e-9.
Proof. unfold D. rewrite cd_val, u_val. assert (H := K_le). lra. Qed.
Lemma ln_ratio : Rabs (ln (B2R ratio) - ln x) <= D.
Proof.
  assert (X := x_range). assert (U := u_pos). assert (FL := f_le). assert (FK := Fk).
  assert (X0 : 0 < x) by lra. eapply Rle_trans; [apply (near_ln _ _ _ X0 (proj2 ratio_near))|].
  assert (0 < (1 + u) * (1 + u)) by nra. assert (0 < f * f) by nra.
  assert (C : 0 < cd) by (rewrite cd_val; lra).
  rewrite (ln_mult (f * f * ((1 + u) * (1 + u)))), (ln_mult (f * f)), (ln_mult (1 + u)), (ln_mult f) by nra.
  rewrite Ef, (ln_mult ((1 + cd) * (1 + u))), (ln_mult (1 + cd)) by nra. assert (L1 := ln_1p cd ltac:(lra)). assert (L2 := ln_1p u ltac:(lra)). assert (L3 := ln_Fac k). fold K in L3.
  unfold D. lra.
Qed.
Lemma ratio_range : 1/2 <= B2R ratio <= 2.
Proof.
  assert (X := x_range). assert (FL := f_le). assert (U := u_pos). destruct ratio_near as (_ & N).
  assert (1 <= f * f <= 1.01) by nra.
  set (g := f * f * ((1 + u) * (1 + u)) * (1 + u)) in *.
  assert (G : g <= 1.1).
  { unfold g. rewrite u_val. set (ff := f * f) in *. lra. }
  destruct N as (G1 & _ & N1 & N2). split.
  - eapply Rle_trans; [|exact N1]. apply Rmult_le_reg_r with g; [lra|]. unfold Rdiv. rewrite !Rmult_assoc, Rinv_l by lra. lra.
  - eapply Rle_trans; [exact N2|]. nra.
Qed.

Let H := V / A.
Lemma H_range : / 10 ^ 200 <= H <= 10 ^ 200.
Proof.
  assert (E : 10 ^ 200 = 10 ^ 100 * 10 ^ 100) by (rewrite <- pow_add; reflexivity). rewrite E.
  assert (Q : 0 < 10 ^ 100) by (apply pow_lt; lra). unfold H. set (q := 10 ^ 100) in *. 
  assert (AP : 0 < A) by lra. split.
  - apply Rmult_le_reg_r with A; [exact AP|]. unfold Rdiv. rewrite (Rmult_assoc V), Rinv_l by lra. rewrite Rmult_1_r.
    eapply Rle_trans; [apply Rmult_le_compat_l; [left; apply Rinv_0_lt_compat; nra|exact A2]|].
    replace (/ (q * q) * q) with (/ q) by (field; lra). exact V1.
  - apply Rmult_le_reg_r with A; [exact AP|]. unfold Rdiv. rewrite (Rmult_assoc V), Rinv_l by lra. rewrite Rmult_1_r.
    eapply Rle_trans; [exact V2|]. rewrite Rmult_assoc. rewrite <- (Rmult_1_r q) at 1. apply Rmult_le_compat_l; [lra|].
    apply Rmult_le_reg_l with (/ q); [exact P100|]. rewrite <- Rmult_assoc, Rinv_l by lra. lra.
Qed.
Lemma href_near : is_finite (volo / area)%f64 = true /\ Rabs (B2R (volo / area)%f64 - H) <= H * (2.01 * K + 1.02 * u) /\ Rabs (B2R (volo / area)%f64 - H) <= H.
Proof.
  assert (HK := K_le). assert (FK := Fk). assert (U := u_pos). assert (HR := H_range).
  assert (AP : 0 < A) by lra. assert (AA := near_spos _ _ _ Na AP).
  assert (N := near_div _ _ _ _ _ _ Nv Na AP). fold H in N.
  assert (FF : 1 <= Fac k * Fac k <= 1 + 2.005 * K) by nra.
  assert (NH := near_half _ _ _ N ltac:(lra)).
  destruct (div_near volo area Fv Fa AA) as [X Y].
  { split.
    - apply Rle_trans with (/ 10 ^ 200 / 2); [|lra].
      assert (E : 10 ^ 300 = 10 ^ 200 * 10 ^ 100) by (rewrite <- pow_add; reflexivity). rewrite E.
      assert (0 < 10 ^ 200) by (apply pow_lt; lra).
      rewrite Rinv_mult. unfold Rdiv. apply Rmult_le_compat_l; [left; apply Rinv_0_lt_compat; assumption|].
      apply Rinv_le_contravar; [lra|]. replace (10 ^ 100) with (IZR (10 ^ 100)) by (rewrite pow_IZR; reflexivity). apply IZR_le. vm_compute. discriminate.
    - assert (E : 10 ^ 250 = 10 ^ 200 * 10 ^ 50) by (rewrite <- pow_add; reflexivity). rewrite E.
      assert (2 <= 10 ^ 50) by (replace (10 ^ 50) with (IZR (10 ^ 50)) by (rewrite pow_IZR; reflexivity); apply IZR_le; vm_compute; discriminate).
      assert (0 < 10 ^ 200) by (apply pow_lt; lra). set (a := 10 ^ 200) in *. set (b := 10 ^ 50) in *. nra. }
  split; [exact X|]. assert (T := near_abs _ _ _ (near_trans _ _ _ _ _ N Y)).
  assert (HP : 0 < H) by (assert (0 < / 10 ^ 200) by (apply Rinv_0_lt_compat, pow_lt; lra); lra).
  assert (Q : Fac k * Fac k * (1 + u) - 1 <= 2.01 * K + 1.02 * u).
  { assert (u <= 1e-3) by (rewrite u_val; lra). set (ff := Fac k * Fac k) in *. nra. }
  split.
  - eapply Rle_trans; [exact T|]. apply Rmult_le_compat_l; lra.
  - eapply Rle_trans; [exact T|]. rewrite <- (Rmult_1_r H) at 2. apply Rmult_le_compat_l; [lra|]. rewrite u_val in *. lra.
Qed.

Lemma height_close log64 : accurate_log log64 ->
  is_finite (height64 log64 volo masso masso_ref area) = true /\
  Rabs (B2R (height64 log64 volo masso masso_ref area) - H * ln x) <= H * (9e-15 + 2.25 * K).
Proof.
  intros Hl. destruct (Hl ratio (proj1 ratio_near) ratio_range) as [FL EL].
  assert (LX := ln_x). assert (LR := ln_ratio). assert (DL := D_le). assert (HK := K_le). assert (U := u_pos).
  destruct href_near as (FH & EH & EH1). set (h := B2R (volo / area)%f64) in *. set (l := B2R (log64 ratio)) in *.
  assert (HP : 0 < H) by (assert (0 < / 10 ^ 200) by (apply Rinv_0_lt_compat, pow_lt; lra); assert (HR := H_range); lra).
  set (lx := ln x) in *. set (lr := ln (B2R ratio)) in *.
  assert (U2 : / 2 ^ 52 = 2 * u) by (rewrite u_val; lra). rewrite U2 in EL.
  assert (LR' : Rabs lr <= 0.1237).
  { replace lr with ((lr - lx) + lx) by ring. eapply Rle_trans; [apply Rabs_triang|]. lra. }
  assert (E1 : Rabs (l - lx) <= D + 0.2475 * u).
  { replace (l - lx) with ((l - lr) + (lr - lx)) by ring. eapply Rle_trans; [apply Rabs_triang|].
    assert (2 * u * Rabs lr <= 2 * u * 0.1237) by (apply Rmult_le_compat_l; lra). lra. }
  set (e := 2.01 * K + 1.02 * u) in *. assert (Ee : 0 <= e <= 1e-9) by (unfold e; rewrite u_val; lra).
  assert (Hh : Rabs h <= H * (1 + e)).
  { replace h with ((h - H) + H) by ring. eapply Rle_trans; [apply Rabs_triang|]. rewrite (Rabs_pos_eq H) by lra. lra. }
  assert (E2 : Rabs (h * l - H * lx) <= H * ((1 + e) * (D + 0.2475 * u) + e * 0.1236)).
  { replace (h * l - H * lx) with (h * (l - lx) + (h - H) * lx) by ring. eapply Rle_trans; [apply Rabs_triang|].
    rewrite !Rabs_mult. assert (Rabs h * Rabs (l - lx) <= H * (1 + e) * (D + 0.2475 * u)) by (apply Rmult_le_compat; try apply Rabs_pos; assumption).
    assert (Rabs (h - H) * Rabs lx <= H * e * 0.1236) by (apply Rmult_le_compat; try apply Rabs_pos; assumption). lra. }
  assert (E3 : Rabs (h * l) <= H * 0.13).
  { replace (h * l) with ((h * l - H * lx) + H * lx) by ring. eapply Rle_trans; [apply Rabs_triang|].
    rewrite (Rabs_mult H), (Rabs_pos_eq H) by lra.
    assert (H * Rabs lx <= H * 0.1236) by (apply Rmult_le_compat_l; lra).
    assert ((1 + e) * (D + 0.2475 * u) + e * 0.1236 <= 0.001) by (rewrite u_val; nra).
    assert (H * ((1 + e) * (D + 0.2475 * u) + e * 0.1236) <= H * 0.001) by (apply Rmult_le_compat_l; lra). lra. }
  assert (E4 := fl_error (h * l)).
  assert (ET : eta <= H * (1e-20)).
  { apply Rle_trans with (/ 10 ^ 200 * 1e-20).
    - unfold eta. replace (/ 10 ^ 200 * 1e-20) with (/ (10 ^ 200 * 10 ^ 20)) by (rewrite Rinv_mult; f_equal; lra).
      rewrite <- pow_add. apply Rle_trans with (bpow radix2 (-1074)); [assert (B := bpow_gt_0 radix2 (-1074)); lra|].
      change (bpow radix2 (-1074)) with (bpow radix2 (Z.opp 1074)). rewrite bpow_opp. apply Rinv_le_contravar; [apply pow_lt; lra|].
      replace (10 ^ (200 + 20)) with (IZR (10 ^ 220)) by (rewrite pow_IZR; reflexivity).
      change (bpow radix2 1074) with (IZR (2 ^ 1074)). apply IZR_le. vm_compute. discriminate.
    - apply Rmult_le_compat_r; [lra|]. apply H_range. }
  assert (Tot : Rabs (fl (h * l) - H * lx) <= H * (9e-15 + 2.25 * K)).
  { replace (fl (h * l) - H * lx) with ((fl (h * l) - h * l) + (h * l - H * lx)) by ring.
    eapply Rle_trans; [apply Rabs_triang|].
    assert (u * Rabs (h * l) <= u * (H * 0.13)) by (apply Rmult_le_compat_l; lra).
    assert (Q : 0.13 * u + 1e-20 + ((1 + e) * (D + 0.2475 * u) + e * 0.1236) <= 9e-15 + 2.25 * K).
    { assert (e * (D + 0.2475 * u) <= 1e-9 * (D + 0.2475 * u)) by (apply Rmult_le_compat_r; lra).
      revert H1. unfold D, e. rewrite cd_val, u_val. intros. lra. }
    assert (H * (0.13 * u + 1e-20 + ((1 + e) * (D + 0.2475 * u) + e * 0.1236)) <= H * (9e-15 + 2.25 * K)) by (apply Rmult_le_compat_l; lra).
    lra. }
  destruct (mul64_rep (volo / area)%f64 (log64 ratio) _ _ (conj FH eq_refl) (conj FL eq_refl)) as [X Y].
  { fold h l. unfold fits64. apply Rle_lt_trans with (10 ^ 300); [|apply big_pow].
    replace (fl (h * l)) with ((fl (h * l) - H * lx) + H * lx) by ring. eapply Rle_trans; [apply Rabs_triang|].
    rewrite (Rabs_mult H), (Rabs_pos_eq H) by lra.
    assert (H * Rabs lx <= H * 0.1236) by (apply Rmult_le_compat_l; lra).
    assert (H * (9e-15 + 2.25 * K) <= H * 0.001) by (apply Rmult_le_compat_l; lra).
    assert (HR := H_range). assert (10 ^ 200 <= 10 ^ 300) by (apply Rle_pow; [lra|lia]). lra. }
  unfold height64. fold ratio. split; [exact X|]. rewrite Y. exact Tot.
Qed.
End Height.
