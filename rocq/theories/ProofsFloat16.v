(** * ProofsFloat16: numpy.gradient in binary64 *)
From Coq Require Import Reals Lra Lia List ZArith QArith Qreals Bool.
From Flocq Require Import Core IEEE754.BinarySingleNaN Relative.
From Verif Require Import SpecFloat64 Ieee IeeeDerived SpecIeee ProofsFloat ProofsIeee ProofsFloat4 ProofsFloat6 ProofsFloat11 ProofsFloat15.
Import ListNotations.
Local Open Scope R_scope.

Lemma sub_close (v w : f64) X : is_finite v = true -> is_finite w = true -> Rabs (B2R v - B2R w) <= X -> X <= bpow radix2 400 ->
  is_finite (v - w)%f64 = true /\ Rabs (B2R (v - w)%f64 - (B2R v - B2R w)) <= u * X.
Proof.
  intros Fv Fw HX LX. assert (U := u_pos). assert (UL := u_lt). cbn [pow] in UL.
  assert (Gr : grid (B2R v - B2R w)).
  { unfold Rminus. apply grid_add; [apply grid_B2R|]. destruct (grid_B2R w) as [m E]. exists (- m)%Z. rewrite opp_IZR, E. ring. }
  assert (K := grid_fl _ Gr).
  assert (E1 : Rabs (fl (B2R v - B2R w) - (B2R v - B2R w)) <= u * X) by nra.
  assert (B400 := bpow_gt_0 radix2 400).
  assert (X0 : 0 <= X) by (eapply Rle_trans; [apply Rabs_pos|exact HX]).
  destruct (sub64_rep v w _ _ (conj Fv eq_refl) (conj Fw eq_refl)) as [G V].
  { unfold fits64. replace (fl (B2R v - B2R w)) with ((fl (B2R v - B2R w) - (B2R v - B2R w)) + (B2R v - B2R w)) by ring.
    eapply Rle_lt_trans; [apply Rabs_triang|]. apply Rle_lt_trans with (2 * bpow radix2 400); [nra|].
    change 2 with (bpow radix2 1). rewrite <- bpow_plus. apply bpow_lt. lia. }
  rewrite V. auto.
Qed.
Lemma div_close (v w : f64) X : is_finite v = true -> is_finite w = true -> B2R w <> 0 -> Rabs (B2R v / B2R w) <= X -> X <= bpow radix2 400 ->
  is_finite (v / w)%f64 = true /\ Rabs (B2R (v / w)%f64 - B2R v / B2R w) <= u * X + eta.
Proof.
  intros Fv Fw N HX LX. assert (U := u_pos). assert (UL := u_lt). cbn [pow] in UL. assert (ET := eta_tiny). assert (E0 := eta_pos).
  assert (K := fl_error (B2R v / B2R w)).
  assert (E1 : Rabs (fl (B2R v / B2R w) - (B2R v / B2R w)) <= u * X + eta) by nra.
  assert (B400 : 1 <= bpow radix2 400) by (change 1 with (bpow radix2 0); apply bpow_le; lia).
  assert (X0 : 0 <= X) by (eapply Rle_trans; [apply Rabs_pos|exact HX]).
  destruct (div64_rep v w _ _ (conj Fv eq_refl) (conj Fw eq_refl) N) as [G V].
  { unfold fits64. replace (fl (B2R v / B2R w)) with ((fl (B2R v / B2R w) - (B2R v / B2R w)) + (B2R v / B2R w)) by ring.
    eapply Rle_lt_trans; [apply Rabs_triang|]. apply Rle_lt_trans with (4 * bpow radix2 400); [nra|].
    change 4 with (bpow radix2 2). rewrite <- bpow_plus. apply bpow_lt. lia. }
  rewrite V. auto.
Qed.
Lemma R64_neg_div k j v y k' j' v' y' w : R64 k j v y -> R64 k' j' v' y' -> (0 <= j)%Z -> (0 <= j')%Z -> (j + j' <= 1000)%Z ->
  is_finite w = true -> B2R w = - B2R v ->
  is_finite (w / v')%f64 = true /\ B2R (w / v')%f64 = - B2R (v / v')%f64.
Proof.
  intros (F & Y & R & M) (F' & Y' & R' & M') J J' L Fw Ew. assert (MM := mag_mul _ _ _ _ M (mag_inv _ _ M')).
  assert (X' := mag_pos _ _ M').
  assert (N : B2R v' <> 0) by lra.
  destruct (div64_rep v v' _ _ (conj F eq_refl) (conj F' eq_refl) N) as [G V].
  { apply (mag_fits (j + j')); [lia|]. apply mag_fl; [lia|exact MM]. }
  assert (O : fl (- B2R v / B2R v') = - fl (B2R v / B2R v')).
  { replace (- B2R v / B2R v') with (- (B2R v / B2R v')) by (field; exact N). apply fl_opp. }
  destruct (div64_rep w v' _ _ (conj Fw Ew) (conj F' eq_refl) N) as [G2 V2].
  { rewrite O. unfold fits64. rewrite Rabs_Ropp. apply (mag_fits (j + j')); [lia|]. apply mag_fl; [lia|exact MM]. }
  split; [exact G2|]. rewrite V, V2. exact O.
Qed.
(** Coefficients of size 1/h *)
Section Stencil.
  Variables (h M : R).
  Hypotheses (Hh : bpow radix2 (-100) <= h <= bpow radix2 100) (HM : 0 <= M <= bpow radix2 100).
  Let H := / h.
  Lemma h_pos : 0 < h.
  Proof. assert (X := bpow_gt_0 radix2 (-100)). lra. Qed.
  Lemma H_pos : 0 < H.
  Proof. apply Rinv_0_lt_compat, h_pos. Qed.
  Lemma H_big : 4 * H <= bpow radix2 400.
  Proof.
    assert (X := bpow_gt_0 radix2 (-100)). apply Rle_trans with (4 * bpow radix2 100).
    - apply Rmult_le_compat_l; [lra|]. unfold H. replace (bpow radix2 100) with (/ bpow radix2 (-100)) by (change (-100)%Z with (- (100))%Z; rewrite bpow_opp; field; apply Rgt_not_eq, bpow_gt_0).
      apply Rinv_le_contravar; lra.
    - change 4 with (bpow radix2 2). rewrite <- bpow_plus. apply bpow_le. lia.
  Qed.
  Lemma eta_H : eta <= u * H / 100.
  Proof.
    assert (X := h_pos). assert (I : bpow radix2 (-100) <= H).
    { unfold H. change (-100)%Z with (- (100))%Z. rewrite bpow_opp. apply Rinv_le_contravar; lra. }
    assert (U := u_pos). apply Rle_trans with (u * bpow radix2 (-100) / 100); [|unfold Rdiv; nra].
    unfold eta, u. replace (/ 2 * bpow radix2 (- (53) + 1) * bpow radix2 (-100) / 100) with (/ 2 * (bpow radix2 (- (53) + 1) * bpow radix2 (-100) * / 100)) by (unfold Rdiv; ring).
    apply Rmult_le_compat_l; [lra|]. rewrite <- bpow_plus.
    apply Rle_trans with (bpow radix2 (- (53) + 1 + -100) * bpow radix2 (-7)); [rewrite <- bpow_plus; apply bpow_le; lia|].
    apply Rmult_le_compat_l; [apply bpow_ge_0|]. change (bpow radix2 (-7)) with (/ 128). lra.
  Qed.
  Definition coef (c : R) (k : R) (v : f64) (a : R) : Prop := is_finite v = true /\ Rabs a <= c * H /\ Rabs (B2R v - a) <= k * u * H.
  Lemma coef_R64 k j v y c : R64 k j v y -> (k <= 20)%nat -> y <= c * H -> 0 <= c -> coef c (1.01 * INR k * c) v y.
  Proof.
    intros (F & Y & R & _) K L C. split; [exact F|]. rewrite Rabs_pos_eq by lra. split; [exact L|].
    replace (1.01 * INR k * c * u * H) with (1.01 * INR k * u * (c * H)) by ring. apply rel_abs; [|exact R|rewrite Rabs_pos_eq; lra].
    apply le_INR in K. change (INR 20) with (1+1+1+1+1+1+1+1+1+1+1+1+1+1+1+1+1+1+1+1) in K. lra.
  Qed.
  Lemma coef_neg v w c k a : coef c k v a -> is_finite w = true -> B2R w = - B2R v -> coef c k w (- a).
  Proof.
    intros (F & L & E) Fw Ew. split; [exact Fw|]. rewrite Ew, Rabs_Ropp. split; [exact L|].
    replace (- B2R v - - a) with (- (B2R v - a)) by ring. rewrite Rabs_Ropp. exact E.
  Qed.
  Lemma coef_weaken c k c' k' v a : coef c k v a -> c <= c' -> k <= k' -> coef c' k' v a.
  Proof.
    intros (F & L & E) C K. assert (P := H_pos). assert (U := u_pos). split; [exact F|]. split; [nra|].
    eapply Rle_trans; [exact E|]. rewrite !Rmult_assoc. apply Rmult_le_compat_r; [|exact K]. apply Rmult_le_pos; lra.
  Qed.
  Lemma stencil_close a' b' c' a b c ka kb kc (f0 f1 f2 : f64) : coef 2 ka a' a -> coef 2 kb b' b -> coef 2 kc c' c -> ka <= 20 -> kb <= 20 -> kc <= 20 ->
    is_finite f0 = true -> is_finite f1 = true -> is_finite f2 = true ->
    Rabs (B2R f0) <= M -> Rabs (B2R f1) <= M -> Rabs (B2R f2) <= M ->
    is_finite (comb64 a' b' c' f0 f1 f2) = true /\
    Rabs (B2R (comb64 a' b' c' f0 f1 f2) - (a * B2R f0 + b * B2R f1 + c * B2R f2)) <= (ka + kb + kc + 17) * u * M * H + 4 * eta.
  Proof.
    intros (Fa & La & Ea) (Fb & Lb & Eb) (Fc & Lc & Ec) Ka Kb Kc F0 F1 F2 H0 H1 H2.
    assert (U := u_pos). assert (UL := u_lt). cbn [pow] in UL. assert (P := H_pos). assert (BH := H_big).
    assert (UH : 0 < u * H) by (apply Rmult_lt_0_compat; assumption).
    assert (UHs : u * H <= H / 1000000000000000) by (unfold Rdiv; rewrite Rmult_comm; apply Rmult_le_compat_l; lra).
    assert (Bd : forall v x k, k <= 20 -> Rabs x <= 2 * H -> Rabs (B2R v - x) <= k * u * H -> Rabs (B2R (v : f64)) <= 2.01 * H).
    { intros v x k K L E. replace (B2R v) with ((B2R v - x) + x) by ring. eapply Rle_trans; [apply Rabs_triang|].
      assert (k * u * H <= 20 * (u * H)) by (rewrite Rmult_assoc; apply Rmult_le_compat_r; lra). lra. }
    destruct (comb_close a' b' c' f0 f1 f2 (2.01 * H) (2.01 * H) (2.01 * H) M Fa Fb Fc F0 F1 F2
      (Bd _ _ _ Ka La Ea) (Bd _ _ _ Kb Lb Eb) (Bd _ _ _ Kc Lc Ec) H0 H1 H2) as [G E].
    1-3: lra.
    1: { eapply Rle_trans; [apply HM|]. apply bpow_le. lia. }
    split; [exact G|].
    set (g := B2R (comb64 a' b' c' f0 f1 f2)) in *.
    replace (g - (a * B2R f0 + b * B2R f1 + c * B2R f2)) with ((g - (B2R a' * B2R f0 + B2R b' * B2R f1 + B2R c' * B2R f2))
      + (B2R a' - a) * B2R f0 + (B2R b' - b) * B2R f1 + (B2R c' - c) * B2R f2 + 0) by ring.
    eapply Rle_trans; [apply Rabs5|]. rewrite Rabs_R0, !Rabs_mult.
    assert (Pr : forall k x f, Rabs x <= k * u * H -> Rabs f <= M -> Rabs x * Rabs f <= k * u * H * M) by (intros; apply Rmult_le_compat; try assumption; apply Rabs_pos).
    assert (Q1 := Pr _ _ _ Ea H0). assert (Q2 := Pr _ _ _ Eb H1). assert (Q3 := Pr _ _ _ Ec H2).
    assert (UHM : 0 <= u * H * M) by (apply Rmult_le_pos; lra).
    replace (1.01 * u * M * (3 * (2.01 * H) + 3 * (2.01 * H) + 2 * (2.01 * H))) with (16.2408 * (u * H * M)) in E by lra.
    replace ((ka + kb + kc + 17) * u * M * H) with (ka * u * H * M + kb * u * H * M + kc * u * H * M + 17 * (u * H * M)) by ring.
    lra.
  Qed.
End Stencil.

(** ** The constants of the formulas *)
Ltac litv := match goal with |- B2R ?v = _ => let E := fresh in b2r v E; lra end.
Lemma two_val : B2R (lit 2) = 2. Proof. litv. Qed.
Lemma mtwo_val : B2R (lit (-2)) = -2. Proof. litv. Qed.
Lemma half_val : B2R (lit (1 # 2)) = / 2. Proof. litv. Qed.
Lemma mhalf_val : B2R (lit (-1 # 2)) = - / 2. Proof. litv. Qed.
Lemma th_val : B2R (lit (3 # 2)) = 1.5. Proof. litv. Qed.
Lemma mth_val : B2R (lit (-3 # 2)) = -1.5. Proof. litv. Qed.
Lemma R64_const v y : is_finite v = true -> B2R v = y -> / 2 <= y <= 2 -> R64 0 1 v y.
Proof.
  intros F E L. split; [exact F|]. split; [lra|]. rewrite E. split; [apply rel_refl|]. unfold mag. change (bpow radix2 (- (1))) with (/ 2). change (bpow radix2 1) with 2. lra.
Qed.
Lemma R64_two : R64 0 1 (lit 2) 2. Proof. apply R64_const; [reflexivity|exact two_val|lra]. Qed.
Lemma R64_half : R64 0 1 (lit (1 # 2)) (/ 2). Proof. apply R64_const; [reflexivity|exact half_val|lra]. Qed.
Lemma R64_th : R64 0 1 (lit (3 # 2)) 1.5. Proof. apply R64_const; [reflexivity|exact th_val|lra]. Qed.

Lemma div_le a b c : 0 < b -> a <= c * b -> a / b <= c.
Proof. intros B L. apply Rmult_le_reg_r with b; [exact B|]. unfold Rdiv. rewrite Rmult_assoc, Rinv_l by lra. lra. Qed.

Section Nonuniform.
  Variables (h M D1 D2 : R) (d1 d2 : f64).
  Hypotheses (Hh : bpow radix2 (-100) <= h <= bpow radix2 100) (HM : 0 <= M <= bpow radix2 100).
  Hypotheses (HD1 : h <= D1) (HD2 : h <= D2) (R1 : R64 1 100 d1 D1) (R2 : R64 1 100 d2 D2).
  Let P1 : 0 < D1. Proof. assert (X := h_pos h Hh). lra. Qed.
  Let P2 : 0 < D2. Proof. assert (X := h_pos h Hh). lra. Qed.
  Lemma sum_R64 : R64 2 101 (d1 + d2)%f64 (D1 + D2).
  Proof. apply (R64_add 1 100); [exact R1|exact R2|lia]. Qed.
  Lemma den1 : R64 4 201 (d1 * (d1 + d2))%f64 (D1 * (D1 + D2)).
  Proof. exact (R64_mul 1 100 _ _ 2 101 _ _ R1 sum_R64 ltac:(lia) ltac:(lia) ltac:(lia)). Qed.
  Lemma den2 : R64 4 201 (d2 * (d1 + d2))%f64 (D2 * (D1 + D2)).
  Proof. exact (R64_mul 1 100 _ _ 2 101 _ _ R2 sum_R64 ltac:(lia) ltac:(lia) ltac:(lia)). Qed.
  Lemma den12 : R64 3 200 (d1 * d2)%f64 (D1 * D2).
  Proof. exact (R64_mul 1 100 _ _ 1 100 _ _ R1 R2 ltac:(lia) ltac:(lia) ltac:(lia)). Qed.
  Lemma inv1 : / D1 <= / h.
  Proof. apply Rinv_le_contravar; [apply h_pos, Hh|exact HD1]. Qed.
  Lemma inv2 : / D2 <= / h.
  Proof. apply Rinv_le_contravar; [apply h_pos, Hh|exact HD2]. Qed.

  (** |coefficients| <= 2/h *)
  Lemma q21 : D2 / (D1 * (D1 + D2)) <= / h.
  Proof. apply Rle_trans with (/ D1); [|exact inv1]. apply div_le; [nra|]. replace (/ D1 * (D1 * (D1 + D2))) with (D1 + D2) by (field; lra). lra. Qed.
  Lemma q12 : D1 / (D2 * (D1 + D2)) <= / h.
  Proof. apply Rle_trans with (/ D2); [|exact inv2]. apply div_le; [nra|]. replace (/ D2 * (D2 * (D1 + D2))) with (D1 + D2) by (field; lra). lra. Qed.
  Lemma q_first : (2 * D1 + D2) / (D1 * (D1 + D2)) <= 2 * / h.
  Proof. apply Rle_trans with (2 * / D1); [|assert (X := inv1); lra]. apply div_le; [nra|]. replace (2 * / D1 * (D1 * (D1 + D2))) with (2 * (D1 + D2)) by (field; lra). lra. Qed.
  Lemma q_last : (2 * D2 + D1) / (D2 * (D1 + D2)) <= 2 * / h.
  Proof. apply Rle_trans with (2 * / D2); [|assert (X := inv2); lra]. apply div_le; [nra|]. replace (2 * / D2 * (D2 * (D1 + D2))) with (2 * (D1 + D2)) by (field; lra). lra. Qed.
  Lemma q_mid : (D1 + D2) / (D1 * D2) <= 2 * / h.
  Proof. replace ((D1 + D2) / (D1 * D2)) with (/ D1 + / D2) by (field; lra). assert (X := inv1). assert (Y := inv2). lra. Qed.

  Ltac inr K := change (INR 6) with (1+1+1+1+1+1) in K; change (INR 7) with (1+1+1+1+1+1+1) in K.

  Lemma c21 : coef h 2 6.1 (d2 / (d1 * (d1 + d2)))%f64 (D2 / (D1 * (D1 + D2))).
  Proof.
    assert (K := coef_R64 h 6 301 _ _ 1 (R64_div 1 100 _ _ 4 201 _ _ R2 den1 ltac:(lia) ltac:(lia) ltac:(lia)) ltac:(lia)).
    assert (X := q21). specialize (K ltac:(lra) ltac:(lra)). inr K. eapply coef_weaken; [exact Hh|exact K|lra|lra].
  Qed.
  Lemma c12 : coef h 2 6.1 (d1 / (d2 * (d1 + d2)))%f64 (D1 / (D2 * (D1 + D2))).
  Proof.
    assert (K := coef_R64 h 6 301 _ _ 1 (R64_div 1 100 _ _ 4 201 _ _ R1 den2 ltac:(lia) ltac:(lia) ltac:(lia)) ltac:(lia)).
    assert (X := q12). specialize (K ltac:(lra) ltac:(lra)). inr K. eapply coef_weaken; [exact Hh|exact K|lra|lra].
  Qed.
  Lemma n21 : coef h 2 6.1 (opp64 d2 / (d1 * (d1 + d2)))%f64 (- (D2 / (D1 * (D1 + D2)))).
  Proof. destruct (R64_opp_div 1 100 _ _ 4 201 _ _ R2 den1 ltac:(lia) ltac:(lia) ltac:(lia)) as [F E]. eapply coef_neg; [exact c21|exact F|exact E]. Qed.
  Lemma n12 : coef h 2 6.1 (opp64 d1 / (d2 * (d1 + d2)))%f64 (- (D1 / (D2 * (D1 + D2)))).
  Proof. destruct (R64_opp_div 1 100 _ _ 4 201 _ _ R1 den2 ltac:(lia) ltac:(lia) ltac:(lia)) as [F E]. eapply coef_neg; [exact c12|exact F|exact E]. Qed.
  Lemma c_mid : coef h 2 12.2 ((d1 + d2) / (d1 * d2))%f64 ((D1 + D2) / (D1 * D2)).
  Proof.
    assert (K := coef_R64 h 6 301 _ _ 2 (R64_div 2 101 _ _ 3 200 _ _ sum_R64 den12 ltac:(lia) ltac:(lia) ltac:(lia)) ltac:(lia)).
    assert (X := q_mid). specialize (K ltac:(lra) ltac:(lra)). inr K. eapply coef_weaken; [exact Hh|exact K|lra|lra].
  Qed.
  Lemma twice (d d' : f64) D D' : R64 1 100 d D -> R64 1 100 d' D' -> R64 3 102 (lit 2 * d + d')%f64 (2 * D + D').
  Proof.
    intros A B. apply (R64_add 2 101); [|apply (R64_weaken 1 2 100 101); [lia|lia|exact B]|lia].
    exact (R64_mul 0 1 _ _ 1 100 _ _ R64_two A ltac:(lia) ltac:(lia) ltac:(lia)).
  Qed.
  Lemma c_first : coef h 2 16.2 ((lit 2 * d1 + d2) / (d1 * (d1 + d2)))%f64 ((2 * D1 + D2) / (D1 * (D1 + D2))).
  Proof.
    assert (K := coef_R64 h 8 303 _ _ 2 (R64_div 3 102 _ _ 4 201 _ _ (twice _ _ _ _ R1 R2) den1 ltac:(lia) ltac:(lia) ltac:(lia)) ltac:(lia)).
    assert (X := q_first). specialize (K ltac:(lra) ltac:(lra)). change (INR 8) with (1+1+1+1+1+1+1+1) in K. eapply coef_weaken; [exact Hh|exact K|lra|lra].
  Qed.
  Lemma n_first : coef h 2 16.2 (opp64 (lit 2 * d1 + d2) / (d1 * (d1 + d2)))%f64 (- ((2 * D1 + D2) / (D1 * (D1 + D2)))).
  Proof. destruct (R64_opp_div 3 102 _ _ 4 201 _ _ (twice _ _ _ _ R1 R2) den1 ltac:(lia) ltac:(lia) ltac:(lia)) as [F E]. eapply coef_neg; [exact c_first|exact F|exact E]. Qed.
  Lemma c_last : coef h 2 16.2 ((lit 2 * d2 + d1) / (d2 * (d1 + d2)))%f64 ((2 * D2 + D1) / (D2 * (D1 + D2))).
  Proof.
    assert (K := coef_R64 h 8 303 _ _ 2 (R64_div 3 102 _ _ 4 201 _ _ (twice _ _ _ _ R2 R1) den2 ltac:(lia) ltac:(lia) ltac:(lia)) ltac:(lia)).
    assert (X := q_last). specialize (K ltac:(lra) ltac:(lra)). change (INR 8) with (1+1+1+1+1+1+1+1) in K. eapply coef_weaken; [exact Hh|exact K|lra|lra].
  Qed.
  Lemma n_mid : coef h 2 12.2 (opp64 (d2 + d1) / (d1 * d2))%f64 (- ((D2 + D1) / (D1 * D2))).
  Proof.
    assert (S21 : R64 2 101 (d2 + d1)%f64 (D2 + D1)) by (apply (R64_add 1 100); [exact R2|exact R1|lia]).
    assert (K := coef_R64 h 6 301 _ _ 2 (R64_div 2 101 _ _ 3 200 _ _ S21 den12 ltac:(lia) ltac:(lia) ltac:(lia)) ltac:(lia)).
    assert (X := q_mid). rewrite (Rplus_comm D1 D2) in X. specialize (K ltac:(lra) ltac:(lra)). inr K.
    destruct (R64_opp_div 2 101 _ _ 3 200 _ _ S21 den12 ltac:(lia) ltac:(lia) ltac:(lia)) as [F E].
    eapply coef_neg; [|exact F|exact E]. eapply coef_weaken; [exact Hh|exact K|lra|lra].
  Qed.

  (** The middle coefficient of an interior level is a difference, so its error is bounded by the larger of 1/dx *)
  Lemma rel1 x y : rel 1 x y -> exists t, x = y * t /\ Rabs (t - 1) <= u /\ / (1 + u) <= t <= 1 + u.
  Proof.
    intros (t & E & B). unfold P in B. rewrite pow_1 in B. exists t. split; [exact E|]. split; [|exact B]. assert (U := u_pos).
    apply Rabs_le. split; [|lra]. assert (1 - u <= / (1 + u)); [|lra]. apply Rmult_le_reg_r with (1 + u); [lra|]. rewrite Rinv_l by lra. nra.
  Qed.
  Lemma c_diff : coef h 2 5.2 ((d2 - d1) / (d1 * d2))%f64 ((D2 - D1) / (D1 * D2)).
  Proof.
    assert (U := u_pos). assert (UL := u_lt). cbn [pow] in UL. assert (Hp := H_pos h Hh). assert (BH := H_big h Hh). assert (EH := eta_H h Hh).
    assert (I1 := inv1). assert (I2 := inv2). set (H := / h) in *.
    destruct R1 as (F1 & _ & Q1 & M1). destruct R2 as (F2 & _ & Q2 & M2).
    destruct (rel1 _ _ (rel_sym _ _ _ Q1)) as (s1 & E1 & B1 & C1). destruct (rel1 _ _ (rel_sym _ _ _ Q2)) as (s2 & E2 & B2 & C2).
    set (e1 := B2R d1) in *. set (e2 := B2R d2) in *.
    assert (Z1 := mag_pos _ _ M1). assert (Z2 := mag_pos _ _ M2).
    (* exact differences *)
    assert (SB : Rabs (e2 - e1) <= bpow radix2 100) by (apply Rabs_le; destruct M1, M2; lra).
    destruct (sub_close d2 d1 (bpow radix2 100) F2 F1 SB ltac:(apply bpow_le; lia)) as [FN _].
    assert (Gr : grid (e2 - e1)).
    { unfold Rminus. apply grid_add; [apply grid_B2R|]. destruct (grid_B2R d1) as [m E]. exists (- m)%Z. rewrite opp_IZR. unfold e1. rewrite E. ring. }
    assert (VN : B2R (d2 - d1)%f64 = fl (e2 - e1)).
    { apply (sub64_rep d2 d1 _ _ (conj F2 eq_refl) (conj F1 eq_refl)). unfold fits64. fold e1 e2.
      replace (fl (e2 - e1)) with (fl (e2 - e1) - (e2 - e1) + (e2 - e1)) by ring. eapply Rle_lt_trans; [apply Rabs_triang|].
      assert (K := grid_fl _ Gr). assert (B100 := bpow_gt_0 radix2 100). apply Rle_lt_trans with (2 * bpow radix2 100); [nra|].
      change 2 with (bpow radix2 1). rewrite <- bpow_plus. apply bpow_lt. lia. }
    destruct (R64_mul 1 100 _ _ 1 100 _ _ R1 R2 ltac:(lia) ltac:(lia) ltac:(lia)) as (FM & _ & _ & MM). 
    assert (VM : rel 1 (B2R (d1 * d2)%f64) (e1 * e2)).
    { assert (M12 := mag_mul _ _ _ _ M1 M2). destruct (mul64_rep d1 d2 _ _ (conj F1 eq_refl) (conj F2 eq_refl)) as [_ V].
      - apply (mag_fits (100 + 100)); [lia|]. apply mag_fl; [lia|exact M12].
      - rewrite V. apply (fl_rel (100 + 100)); [lia|exact M12]. }
    assert (MP := mag_pos _ _ MM).
    destruct (rel1 _ _ (rel_sym _ _ _ VM)) as (t & Et & Bt & Ct). set (m := B2R (d1 * d2)%f64) in *.
    assert (T0 : 0 < t) by (assert (0 < / (1 + u)) by (apply Rinv_0_lt_compat; lra); lra).
    assert (K := grid_fl _ Gr). rewrite <- VN in K. set (nn := B2R (d2 - d1)%f64) in *.
    (* nn / m against 1/e1 - 1/e2 *)
    assert (IE1 : / e1 = / D1 * s1) by (rewrite E1 at 1; field; assert (0 < s1) by (assert (0 < / (1 + u)) by (apply Rinv_0_lt_compat; lra); lra); split; lra).
    assert (IE2 : / e2 = / D2 * s2) by (rewrite E2 at 1; field; assert (0 < s2) by (assert (0 < / (1 + u)) by (apply Rinv_0_lt_compat; lra); lra); split; lra).
    assert (IP1 : 0 < / D1) by (apply Rinv_0_lt_compat, P1). assert (IP2 : 0 < / D2) by (apply Rinv_0_lt_compat, P2).
    assert (IQ1 : 0 < / e1) by (apply Rinv_0_lt_compat, Z1). assert (IQ2 : 0 < / e2) by (apply Rinv_0_lt_compat, Z2).
    assert (L1 : / e1 <= 1.01 * H) by (rewrite IE1; nra). assert (L2 : / e2 <= 1.01 * H) by (rewrite IE2; nra).
    set (w := / e1 - / e2). assert (W : Rabs w <= 1.01 * H) by (apply Rabs_le; unfold w; lra).
    assert (Y : (e2 - e1) / m = w * t) by (unfold w; assert (Et' : / m = t * / (e1 * e2)) by (rewrite Et; field; lra); unfold Rdiv; rewrite Et'; field; split; lra).
    assert (Y2 : Rabs ((nn - (e2 - e1)) / m) <= 1.02 * u * H).
    { unfold Rdiv. rewrite Rabs_mult, (Rabs_pos_eq (/ m)) by (apply Rlt_le, Rinv_0_lt_compat, MP).
      apply Rle_trans with (u * (Rabs (e2 - e1) * / m)); [rewrite <- Rmult_assoc; apply Rmult_le_compat_r; [apply Rlt_le, Rinv_0_lt_compat, MP|exact K]|].
      replace (Rabs (e2 - e1) * / m) with (Rabs ((e2 - e1) / m)) by (unfold Rdiv; rewrite Rabs_mult, (Rabs_pos_eq (/ m)); [reflexivity|apply Rlt_le, Rinv_0_lt_compat, MP]).
      rewrite Y, Rabs_mult, (Rabs_pos_eq t) by lra.
      replace (1.02 * u * H) with (u * (1.02 * H)) by ring. apply Rmult_le_compat_l; [lra|].
      apply Rle_trans with (1.01 * H * (1 + u)); [apply Rmult_le_compat; try lra; apply Rabs_pos|]. nra. }
    assert (Y3 : Rabs (w * t - w) <= 1.01 * u * H).
    { replace (w * t - w) with (w * (t - 1)) by ring. rewrite Rabs_mult. replace (1.01 * u * H) with (1.01 * H * u) by ring. apply Rmult_le_compat; try assumption; apply Rabs_pos. }
    assert (Y4 : Rabs (w - (D2 - D1) / (D1 * D2)) <= 2 * u * H).
    { unfold w. rewrite IE1, IE2. replace (/ D1 * s1 - / D2 * s2 - (D2 - D1) / (D1 * D2)) with (/ D1 * (s1 - 1) + / D2 * (1 - s2)) by (field; lra).
      eapply Rle_trans; [apply Rabs_triang|]. rewrite !Rabs_mult, (Rabs_pos_eq (/ D1)), (Rabs_pos_eq (/ D2)), (Rabs_minus_sym 1 s2) by lra.
      assert (/ D1 * Rabs (s1 - 1) <= H * u) by (apply Rmult_le_compat; try lra; apply Rabs_pos).
      assert (/ D2 * Rabs (s2 - 1) <= H * u) by (apply Rmult_le_compat; try lra; apply Rabs_pos). lra. }
    assert (Y5 : Rabs ((D2 - D1) / (D1 * D2)) <= H).
    { replace ((D2 - D1) / (D1 * D2)) with (/ D1 - / D2) by (field; lra). apply Rabs_le. lra. }
    assert (UH : 0 < u * H) by (apply Rmult_lt_0_compat; assumption).
    assert (UHs : u * H <= H / 1000) by (unfold Rdiv; rewrite Rmult_comm; apply Rmult_le_compat_l; lra).
    assert (Y6 : Rabs (nn / m - (D2 - D1) / (D1 * D2)) <= 4.03 * (u * H)).
    { replace (nn / m - (D2 - D1) / (D1 * D2)) with ((nn - (e2 - e1)) / m + (w * t - w) + (w - (D2 - D1) / (D1 * D2)) + 0 + 0) by (rewrite <- Y; field; lra).
      eapply Rle_trans; [apply Rabs5|]. rewrite Rabs_R0. lra. }
    assert (Y7 : Rabs (nn / m) <= 1.01 * H).
    { replace (nn / m) with ((nn / m - (D2 - D1) / (D1 * D2)) + (D2 - D1) / (D1 * D2)) by ring. eapply Rle_trans; [apply Rabs_triang|]. lra. }
    destruct (div_close (d2 - d1)%f64 (d1 * d2)%f64 (1.01 * H) FN FM) as [G E]; [fold m; lra|exact Y7|lra|].
    split; [exact G|]. fold H. split; [lra|].
    replace (B2R ((d2 - d1) / (d1 * d2))%f64 - (D2 - D1) / (D1 * D2)) with ((B2R ((d2 - d1) / (d1 * d2))%f64 - nn / m) + (nn / m - (D2 - D1) / (D1 * D2))) by ring.
    eapply Rle_trans; [apply Rabs_triang|]. fold nn m in E. lra.
  Qed.
End Nonuniform.

(** ** The exact three-point formulas and their binary64 versions *)
Definition interiorR (D1 D2 f0 f1 f2 : R) : R := - (D2 / (D1 * (D1 + D2))) * f0 + (D2 - D1) / (D1 * D2) * f1 + D1 / (D2 * (D1 + D2)) * f2.
Definition firstR (D1 D2 f0 f1 f2 : R) : R := - ((2 * D1 + D2) / (D1 * (D1 + D2))) * f0 + (D1 + D2) / (D1 * D2) * f1 + - (D1 / (D2 * (D1 + D2))) * f2.
Definition lastR (D1 D2 f0 f1 f2 : R) : R := D2 / (D1 * (D1 + D2)) * f0 + - ((D2 + D1) / (D1 * D2)) * f1 + (2 * D2 + D1) / (D2 * (D1 + D2)) * f2.

Section Levels.
  Variables (h M D1 D2 : R) (d1 d2 f0 f1 f2 : f64).
  Hypotheses (Hh : bpow radix2 (-100) <= h <= bpow radix2 100) (HM : 0 <= M <= bpow radix2 100).
  Hypotheses (HD1 : h <= D1) (HD2 : h <= D2) (R1 : R64 1 100 d1 D1) (R2 : R64 1 100 d2 D2).
  Hypotheses (F0 : is_finite f0 = true) (F1 : is_finite f1 = true) (F2 : is_finite f2 = true).
  Hypotheses (H0 : Rabs (B2R f0) <= M) (H1 : Rabs (B2R f1) <= M) (H2 : Rabs (B2R f2) <= M).
  Definition close_to (v : f64) (r : R) : Prop := is_finite v = true /\ Rabs (B2R v - r) <= 60 * u * M / h + 4 * eta.
  Lemma UMH : 0 <= u * M * / h.
  Proof. assert (U := u_pos). assert (X := H_pos h Hh). apply Rmult_le_pos; [apply Rmult_le_pos; lra|lra]. Qed.
  Lemma close_weaken v r k : k <= 60 -> is_finite v = true /\ Rabs (B2R v - r) <= k * u * M * / h + 4 * eta -> close_to v r.
  Proof. intros K [F E]. split; [exact F|]. assert (X := UMH). unfold Rdiv. eapply Rle_trans; [exact E|]. nra. Qed.

  Lemma interior_close : close_to (interior64 d1 d2 f0 f1 f2) (interiorR D1 D2 (B2R f0) (B2R f1) (B2R f2)).
  Proof.
    refine (close_weaken _ _ _ _ (stencil_close h M Hh HM _ _ _ _ _ _ _ _ _ f0 f1 f2 (n21 h D1 D2 d1 d2 Hh HD1 HD2 R1 R2) (c_diff h D1 D2 d1 d2 Hh HD1 HD2 R1 R2)
      (c12 h D1 D2 d1 d2 Hh HD1 HD2 R1 R2) _ _ _ F0 F1 F2 H0 H1 H2)); lra.
  Qed.
  Lemma first_close : close_to (first64 d1 d2 f0 f1 f2) (firstR D1 D2 (B2R f0) (B2R f1) (B2R f2)).
  Proof.
    refine (close_weaken _ _ _ _ (stencil_close h M Hh HM _ _ _ _ _ _ _ _ _ f0 f1 f2 (n_first h D1 D2 d1 d2 Hh HD1 HD2 R1 R2) (c_mid h D1 D2 d1 d2 Hh HD1 HD2 R1 R2)
      (n12 h D1 D2 d1 d2 Hh HD1 HD2 R1 R2) _ _ _ F0 F1 F2 H0 H1 H2)); lra.
  Qed.
  Lemma last_close : close_to (last64 d1 d2 f0 f1 f2) (lastR D1 D2 (B2R f0) (B2R f1) (B2R f2)).
  Proof.
    refine (close_weaken _ _ _ _ (stencil_close h M Hh HM _ _ _ _ _ _ _ _ _ f0 f1 f2 (c21 h D1 D2 d1 d2 Hh HD1 HD2 R1 R2) (n_mid h D1 D2 d1 d2 Hh HD1 HD2 R1 R2)
      (c_last h D1 D2 d1 d2 Hh HD1 HD2 R1 R2) _ _ _ F0 F1 F2 H0 H1 H2)); lra.
  Qed.
End Levels.

Lemma R64_change k k' j v y y' : R64 k j v y -> 0 < y' -> rel k' y y' -> R64 (k + k') j v y'.
Proof. intros (F & Y & R & M) Y' R'. split; [exact F|]. split; [exact Y'|]. split; [eapply rel_trans; eassumption|exact M]. Qed.

Section Uniform.
  Variables (h M D1 D2 : R) (d f0 f1 f2 : f64).
  Hypotheses (Hh : bpow radix2 (-100) <= h <= bpow radix2 100) (HM : 0 <= M <= bpow radix2 100).
  Hypotheses (HD1 : h <= D1) (HD2 : h <= D2) (R1 : R64 1 100 d D1) (R2 : R64 1 100 d D2).
  Hypotheses (F0 : is_finite f0 = true) (F1 : is_finite f1 = true) (F2 : is_finite f2 = true).
  Hypotheses (H0 : Rabs (B2R f0) <= M) (H1 : Rabs (B2R f1) <= M) (H2 : Rabs (B2R f2) <= M).
  Let P1 : 0 < D1. Proof. assert (X := h_pos h Hh). lra. Qed.
  Let P2 : 0 < D2. Proof. assert (X := h_pos h Hh). lra. Qed.
  Let delta := B2R d.
  Let Pd : 0 < delta. Proof. destruct R1 as (_ & _ & _ & MM). exact (mag_pos _ _ MM). Qed.
  Let Q1 : rel 1 delta D1. Proof. apply R1. Qed.
  Let Q2 : rel 1 delta D2. Proof. apply R2. Qed.
  Let Rd : R64 0 100 d delta.
  Proof. destruct R1 as (F & _ & _ & MM). split; [exact F|]. split; [exact Pd|]. split; [apply rel_refl|exact MM]. Qed.
  Let Qs : rel 1 (delta + delta) (D1 + D2). Proof. apply rel_add; assumption. Qed.
  Let S0 : 0 < D1 + D2. Proof. lra. Qed.
  Lemma r_first : rel 3 (1.5 / delta) ((2 * D1 + D2) / (D1 * (D1 + D2))).
  Proof.
    replace (1.5 / delta) with ((2 * delta + delta) / (delta * (delta + delta))) by (replace 1.5 with (3 / 2) by lra; field; lra).
    apply (rel_div 1 2); [apply Rgt_not_eq; nra| |apply (rel_mul 1 1); assumption].
    apply rel_add; [lra|lra| |exact Q2]. apply (rel_mul 0 1); [apply rel_refl|exact Q1].
  Qed.
  Lemma r_last : rel 3 (1.5 / delta) ((2 * D2 + D1) / (D2 * (D1 + D2))).
  Proof.
    replace (1.5 / delta) with ((2 * delta + delta) / (delta * (delta + delta))) by (replace 1.5 with (3 / 2) by lra; field; lra).
    apply (rel_div 1 2); [apply Rgt_not_eq; nra| |apply (rel_mul 1 1); assumption].
    apply rel_add; [lra|lra| |exact Q1]. apply (rel_mul 0 1); [apply rel_refl|exact Q2].
  Qed.
  Lemma r_mid : rel 3 (2 / delta) ((D1 + D2) / (D1 * D2)).
  Proof.
    replace (2 / delta) with ((delta + delta) / (delta * delta)) by (field; lra).
    apply (rel_div 1 2); [apply Rgt_not_eq; nra|exact Qs|apply (rel_mul 1 1); assumption].
  Qed.
  Lemma r_21 : rel 3 (/ 2 / delta) (D2 / (D1 * (D1 + D2))).
  Proof.
    replace (/ 2 / delta) with (delta / (delta * (delta + delta))) by (field; lra).
    apply (rel_div 1 2); [apply Rgt_not_eq; nra|exact Q2|apply (rel_mul 1 1); assumption].
  Qed.
  Lemma r_12 : rel 3 (/ 2 / delta) (D1 / (D2 * (D1 + D2))).
  Proof.
    replace (/ 2 / delta) with (delta / (delta * (delta + delta))) by (field; lra).
    apply (rel_div 1 2); [apply Rgt_not_eq; nra|exact Q1|apply (rel_mul 1 1); assumption].
  Qed.
  Lemma u_coef v c y : R64 0 1 v c -> 0 < y <= 2 * / h -> rel 3 (c / delta) y -> coef h 2 8.1 (v / d)%f64 y.
  Proof.
    intros V Y R. assert (K := R64_change 1 3 101 _ _ y (R64_div 0 1 _ _ 0 100 _ _ V Rd ltac:(lia) ltac:(lia) ltac:(lia)) ltac:(lra) R).
    assert (C := coef_R64 h _ _ _ _ 2 K ltac:(lia) ltac:(lra) ltac:(lra)). change (INR (1 + 3)) with (1 + 1 + 1 + 1) in C.
    eapply coef_weaken; [exact Hh|exact C|lra|lra].
  Qed.
  Lemma u_ncoef v w c y : R64 0 1 v c -> is_finite w = true -> B2R w = - B2R v -> 0 < y <= 2 * / h -> rel 3 (c / delta) y -> coef h 2 8.1 (w / d)%f64 (- y).
  Proof.
    intros V Fw Ew Y R. destruct (R64_neg_div 0 1 _ _ 0 100 _ _ w V Rd ltac:(lia) ltac:(lia) ltac:(lia) Fw Ew) as [F E].
    eapply coef_neg; [exact (u_coef v c y V Y R)|exact F|exact E].
  Qed.
  Let pos a b : 0 < a -> 0 < b -> 0 < a / b. Proof. intros. apply Rdiv_lt_0_compat; assumption. Qed.
  Let p1 : 0 < D1 * (D1 + D2). Proof. nra. Qed.
  Let p2 : 0 < D2 * (D1 + D2). Proof. nra. Qed.
  Let p12 : 0 < D1 * D2. Proof. nra. Qed.
  Let Hp : 0 < / h. Proof. exact (H_pos h Hh). Qed.
  Let b_first : 0 < (2 * D1 + D2) / (D1 * (D1 + D2)) <= 2 * / h. Proof. split; [apply pos; [lra|exact p1]|exact (q_first h D1 D2 Hh HD1 HD2)]. Qed.
  Let b_last : 0 < (2 * D2 + D1) / (D2 * (D1 + D2)) <= 2 * / h. Proof. split; [apply pos; [lra|exact p2]|exact (q_last h D1 D2 Hh HD1 HD2)]. Qed.
  Let b_mid : 0 < (D1 + D2) / (D1 * D2) <= 2 * / h. Proof. split; [apply pos; [lra|exact p12]|exact (q_mid h D1 D2 Hh HD1 HD2)]. Qed.
  Let b_21 : 0 < D2 / (D1 * (D1 + D2)) <= 2 * / h. Proof. split; [apply pos; [lra|exact p1]|assert (X := q21 h D1 D2 Hh HD1 HD2); lra]. Qed.
  Let b_12 : 0 < D1 / (D2 * (D1 + D2)) <= 2 * / h. Proof. split; [apply pos; [lra|exact p2]|assert (X := q12 h D1 D2 Hh HD1 HD2); lra]. Qed.

  Lemma uniform_first_close : close_to h M (uniform_first64 d f0 f1 f2) (firstR D1 D2 (B2R f0) (B2R f1) (B2R f2)).
  Proof.
    assert (A := u_ncoef _ (lit (-3 # 2)) _ _ R64_th eq_refl ltac:(rewrite mth_val, th_val; lra) b_first r_first).
    assert (B := u_coef _ _ _ R64_two b_mid r_mid).
    assert (C := u_ncoef _ (lit (-1 # 2)) _ _ R64_half eq_refl ltac:(rewrite mhalf_val, half_val; lra) b_12 r_12).
    refine (close_weaken h M Hh HM _ _ _ _ (stencil_close h M Hh HM _ _ _ _ _ _ _ _ _ f0 f1 f2 A B C _ _ _ F0 F1 F2 H0 H1 H2)); lra.
  Qed.
  Lemma uniform_last_close : close_to h M (uniform_last64 d f0 f1 f2) (lastR D1 D2 (B2R f0) (B2R f1) (B2R f2)).
  Proof.
    assert (A := u_coef _ _ _ R64_half b_21 r_21).
    assert (B := u_ncoef _ (lit (-2)) _ _ R64_two eq_refl ltac:(rewrite mtwo_val, two_val; lra) b_mid r_mid).
    assert (C := u_coef _ _ _ R64_th b_last r_last). rewrite (Rplus_comm D1 D2) in B at 1.
    refine (close_weaken h M Hh HM _ _ _ _ (stencil_close h M Hh HM _ _ _ _ _ _ _ _ _ f0 f1 f2 A B C _ _ _ F0 F1 F2 H0 H1 H2)); lra.
  Qed.
  Lemma uniform_interior_close : close_to h M (uniform_interior64 d f0 f2) (interiorR D1 D2 (B2R f0) (B2R f1) (B2R f2)).
  Proof.
    assert (U := u_pos). assert (UL := u_lt). cbn [pow] in UL. assert (ET := eta_pos).
    assert (I1 := inv1 h D1 Hh HD1). assert (I2 := inv2 h D2 Hh HD2). assert (BH := H_big h Hh).
    assert (Hp' := Hp). set (H := / h) in *.
    assert (IP1 : 0 < / D1) by (apply Rinv_0_lt_compat, P1). assert (IP2 : 0 < / D2) by (apply Rinv_0_lt_compat, P2).
    destruct (rel1 _ _ (rel_sym _ _ _ Q1)) as (s1 & E1 & B1 & C1). destruct (rel1 _ _ (rel_sym _ _ _ Q2)) as (s2 & E2 & B2 & C2).
    assert (IU : 0 < / (1 + u)) by (apply Rinv_0_lt_compat; lra).
    assert (Pd' := Pd).
    assert (Dl : / delta <= 1.01 * H) by (replace (/ delta) with (/ D1 * s1) by (rewrite E1; field; lra); nra).
    assert (Dp : 0 < / delta) by (apply Rinv_0_lt_compat, Pd).
    (* 2 d *)
    destruct (R64_mul 0 1 _ _ 0 100 _ _ R64_two Rd ltac:(lia) ltac:(lia) ltac:(lia)) as (Ft & _ & Qt & Mt).
    destruct (rel1 _ _ (rel_sym _ _ _ Qt)) as (t & Et & Bt & Ct). assert (Tp := mag_pos _ _ Mt). set (tt := B2R (lit 2 * d)%f64) in *.
    assert (It : / tt = / 2 * / delta * t) by (replace (/ 2 * / delta) with (/ (2 * delta)) by (field; lra); rewrite Et; field; lra).
    assert (Ip : 0 < / tt) by (apply Rinv_0_lt_compat, Tp).
    assert (Il : / tt <= 0.52 * H) by (rewrite It; nra).
    (* difference *)
    assert (M0 := proj1 HM). assert (M1 := proj2 HM).
    assert (A0 := Rabs_le_inv _ _ H0). assert (A2 := Rabs_le_inv _ _ H2).
    assert (SB : Rabs (B2R f2 - B2R f0) <= 2 * M) by (apply Rabs_le; lra).
    destruct (sub_close f2 f0 (2 * M) F2 F0 SB) as [Fs Es].
    { apply Rle_trans with (2 * bpow radix2 100); [lra|]. change 2 with (bpow radix2 1). rewrite <- bpow_plus. apply bpow_le. lia. }
    set (s := B2R (f2 - f0)%f64) in *. set (D := B2R f2 - B2R f0) in *.
    assert (UM : 0 <= u * M) by (apply Rmult_le_pos; lra). assert (UMs : u * M <= M / 1000) by nra.
    assert (Sl : Rabs s <= 2.01 * M) by (replace s with ((s - D) + D) by ring; eapply Rle_trans; [apply Rabs_triang|]; lra).
    assert (MH : 0 <= M * H) by (apply Rmult_le_pos; lra).
    assert (ql : Rabs (s / tt) <= 1.06 * (M * H)).
    { unfold Rdiv. rewrite Rabs_mult, (Rabs_pos_eq (/ tt)) by lra. apply Rle_trans with (2.01 * M * (0.52 * H)); [apply Rmult_le_compat; try lra; apply Rabs_pos|]. nra. }
    assert (Hb : H <= bpow radix2 100).
    { unfold H. replace (bpow radix2 100) with (/ bpow radix2 (-100)) by (change (-100)%Z with (- (100))%Z; rewrite bpow_opp; field; apply Rgt_not_eq, bpow_gt_0).
      apply Rinv_le_contravar; [apply bpow_gt_0|lra]. }
    destruct (div_close (f2 - f0)%f64 (lit 2 * d)%f64 (1.06 * (M * H)) Fs Ft) as [Fg Eg]; [fold tt; lra|exact ql| |].
    { apply Rle_trans with (bpow radix2 1 * (bpow radix2 100 * bpow radix2 100)); [|rewrite <- !bpow_plus; apply bpow_le; lia].
      change (bpow radix2 1) with 2. assert (M * H <= bpow radix2 100 * bpow radix2 100) by (apply Rmult_le_compat; lra). lra. }
    fold s tt in Eg. split; [exact Fg|]. unfold uniform_interior64. set (g := B2R ((f2 - f0) / (lit 2 * d))%f64) in *.
    (* exact coefficients *)
    assert (K3 : INR 3 <= 100) by (change (INR 3) with (1 + 1 + 1); lra).
    assert (X12 := rel_abs 3 _ _ H K3 r_12). assert (X21 := rel_abs 3 _ _ H K3 r_21).
    rewrite Rabs_pos_eq in X12 by (apply Rlt_le, b_12). rewrite Rabs_pos_eq in X21 by (apply Rlt_le, b_21).
    specialize (X12 (q12 h D1 D2 Hh HD1 HD2)). specialize (X21 (q21 h D1 D2 Hh HD1 HD2)).
    change (INR 3) with (1 + 1 + 1) in X12, X21.
    assert (Xm : Rabs ((D2 - D1) / (D1 * D2)) <= 2.1 * (u * H)).
    { replace ((D2 - D1) / (D1 * D2)) with (/ D1 - / D2) by (field; lra).
      assert (J1 : / D1 = / delta * / s1) by (rewrite E1; field; lra). assert (J2 : / D2 = / delta * / s2) by (rewrite E2; field; lra).
      assert (V1 : forall z, / (1 + u) <= z <= 1 + u -> 1 - u <= / z <= 1 + u).
      { intros z Z. split; [|replace (1 + u) with (/ / (1 + u)) by (field; lra); apply Rinv_le_contravar; lra].
        apply Rle_trans with (/ (1 + u)); [|apply Rinv_le_contravar; lra]. apply Rmult_le_reg_r with (1 + u); [lra|]. rewrite Rinv_l by lra. nra. }
      assert (W1 := V1 _ C1). assert (W2 := V1 _ C2). rewrite J1, J2.
      replace (/ delta * / s1 - / delta * / s2) with (/ delta * (/ s1 - / s2)) by ring. rewrite Rabs_mult, Rabs_pos_eq by lra.
      apply Rle_trans with (1.01 * H * (2 * u)); [|nra]. apply Rmult_le_compat; try lra; [apply Rabs_pos|]. apply Rabs_le; lra. }
    unfold interiorR. replace (60 * u * M / h) with (60 * (u * (M * H))) by (unfold H, Rdiv; ring).
    assert (UMH : 0 <= u * (M * H)) by (apply Rmult_le_pos; lra).
    set (a12 := D1 / (D2 * (D1 + D2))) in *. set (a21 := D2 / (D1 * (D1 + D2))) in *. set (am := (D2 - D1) / (D1 * D2)) in *.
    replace (g - (- a21 * B2R f0 + am * B2R f1 + a12 * B2R f2)) with ((g - s / tt) + ((s - D) / tt + D * (/ tt - / 2 * / delta)) + (/ 2 / delta - a12) * B2R f2 + - (/ 2 / delta - a21) * B2R f0 + - am * B2R f1)
      by (unfold D; field; lra).
    eapply Rle_trans; [apply Rabs5|].
    assert (Z1 : Rabs ((s - D) / tt + D * (/ tt - / 2 * / delta)) <= 2.2 * (u * (M * H))).
    { eapply Rle_trans; [apply Rabs_triang|]. unfold Rdiv. rewrite !Rabs_mult, (Rabs_pos_eq (/ tt)) by lra.
      assert (Rabs (s - D) * / tt <= u * (2 * M) * (0.52 * H)) by (apply Rmult_le_compat; try lra; apply Rabs_pos).
      assert (Rabs (/ tt - / 2 * / delta) <= 0.52 * H * u).
      { rewrite It. replace (/ 2 * / delta * t - / 2 * / delta) with (/ 2 * / delta * (t - 1)) by ring. rewrite Rabs_mult, (Rabs_pos_eq (/ 2 * / delta)) by lra.
        apply Rmult_le_compat; try lra; apply Rabs_pos. }
      assert (Rabs D * Rabs (/ tt - / 2 * / delta) <= 2 * M * (0.52 * H * u)) by (apply Rmult_le_compat; try assumption; apply Rabs_pos). lra. }
    assert (Z2 : Rabs ((/ 2 / delta - a12) * B2R f2) <= 3.1 * (u * (M * H))).
    { rewrite Rabs_mult. apply Rle_trans with (1.01 * (1 + 1 + 1) * u * H * M); [apply Rmult_le_compat; try assumption; apply Rabs_pos|]. lra. }
    assert (Z3 : Rabs (- (/ 2 / delta - a21) * B2R f0) <= 3.1 * (u * (M * H))).
    { rewrite Rabs_mult, Rabs_Ropp. apply Rle_trans with (1.01 * (1 + 1 + 1) * u * H * M); [apply Rmult_le_compat; try assumption; apply Rabs_pos|]. lra. }
    assert (Z4 : Rabs (- am * B2R f1) <= 2.1 * (u * (M * H))).
    { rewrite Rabs_mult, Rabs_Ropp. apply Rle_trans with (2.1 * (u * H) * M); [apply Rmult_le_compat; try assumption; apply Rabs_pos|]. lra. }
    lra.
  Qed.
End Uniform.
