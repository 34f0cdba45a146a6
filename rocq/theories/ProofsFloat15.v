(** * ProofsFloat15: numpy.gradient in binary64 (proofs only) *)
From Coq Require Import Reals Lra Lia List ZArith QArith Qreals Bool.
From Flocq Require Import Core IEEE754.BinarySingleNaN Relative.
From Verif Require Import SpecFloat64 Ieee IeeeDerived SpecIeee ProofsFloat ProofsIeee ProofsFloat4 ProofsFloat6 ProofsFloat11.
Import ListNotations.
Local Open Scope R_scope.

(** ** Relative errors: [x] is [y] times a number between (1+u)^-k and (1+u)^k *)
Definition P (k : nat) : R := (1 + u) ^ k.
Lemma P_pos k : 0 < P k.
Proof. apply pow_lt. assert (U := u_pos). lra. Qed.
Lemma P_1 k : 1 <= P k.
Proof. apply pow_R1_Rle. assert (U := u_pos). lra. Qed.
Lemma P_add j k : P (j + k) = P j * P k.
Proof. apply pow_add. Qed.
Lemma P_le j k : (j <= k)%nat -> P j <= P k.
Proof. intros H. apply Rle_pow; [assert (U := u_pos); lra|exact H]. Qed.
Definition rel (k : nat) (x y : R) : Prop := exists t, x = y * t /\ / P k <= t <= P k.
Lemma rel_weaken j k x y : (j <= k)%nat -> rel j x y -> rel k x y.
Proof.
  intros H (t & E & B). exists t. split; [exact E|]. assert (L := P_le j k H). assert (J := P_pos j).
  assert (/ P k <= / P j) by (apply Rinv_le_contravar; lra). lra.
Qed.
Lemma inv_t j t : / P j <= t <= P j -> 0 < t /\ / P j <= / t <= P j.
Proof.
  intros B. assert (J := P_pos j). assert (0 < / P j) by (apply Rinv_0_lt_compat, J). assert (T : 0 < t) by lra. split; [exact T|].
  split; [apply Rinv_le_contravar; lra|]. replace (P j) with (/ / P j) by (field; lra). apply Rinv_le_contravar; lra.
Qed.
Lemma rel_mul j k x y x' y' : rel j x y -> rel k x' y' -> rel (j + k) (x * x') (y * y').
Proof.
  intros (t & -> & B) (t' & -> & B'). exists (t * t'). split; [ring|]. rewrite P_add, Rinv_mult.
  assert (0 < / P j) by (apply Rinv_0_lt_compat, P_pos). assert (0 < / P k) by (apply Rinv_0_lt_compat, P_pos).
  split; apply Rmult_le_compat; lra.
Qed.
Lemma rel_div j k x y x' y' : y' <> 0 -> rel j x y -> rel k x' y' -> rel (j + k) (x / x') (y / y').
Proof.
  intros N (t & -> & B) (t' & -> & B'). destruct (inv_t _ _ B') as [T' I']. exists (t * / t'). split; [field; split; lra|].
  rewrite P_add, Rinv_mult.
  assert (0 < / P j) by (apply Rinv_0_lt_compat, P_pos). assert (0 < / P k) by (apply Rinv_0_lt_compat, P_pos).
  split; apply Rmult_le_compat; lra.
Qed.
Lemma rel_sym k x y : rel k x y -> rel k y x.
Proof. intros (t & -> & B). destruct (inv_t _ _ B) as [T I]. exists (/ t). split; [field; lra|exact I]. Qed.
Lemma rel_trans j k x y z : rel j x y -> rel k y z -> rel (j + k) x z.
Proof.
  intros (t & -> & B) (t' & -> & B'). exists (t' * t). split; [ring|]. rewrite Nat.add_comm, P_add, Rinv_mult.
  assert (0 < / P j) by (apply Rinv_0_lt_compat, P_pos). assert (0 < / P k) by (apply Rinv_0_lt_compat, P_pos).
  split; apply Rmult_le_compat; lra.
Qed.
Lemma rel_refl k x : rel k x x.
Proof. exists 1. split; [ring|]. assert (X := P_1 k). split; [|exact X]. rewrite <- Rinv_1. apply Rinv_le_contravar; lra. Qed.
Lemma rel_add k x y x' y' : 0 < y -> 0 < y' -> rel k x y -> rel k x' y' -> rel k (x + x') (y + y').
Proof.
  intros Y Y' (t & -> & B) (t' & -> & B'). exists ((y * t + y' * t') / (y + y')). split; [field; lra|].
  split; [apply Rmult_le_reg_r with (y + y')|apply Rmult_le_reg_r with (y + y')]; try lra;
    replace ((y * t + y' * t') / (y + y') * (y + y')) with (y * t + y' * t') by (field; lra); nra.
Qed.
Lemma rel_opp k x y : rel k x y -> rel k (- x) (- y).
Proof. intros (t & -> & B). exists t. split; [ring|exact B]. Qed.

(** ** Rounding a number of moderate size *)
Definition mag (j : Z) (x : R) : Prop := bpow radix2 (- j) <= x <= bpow radix2 j.
Lemma mag_pos j x : mag j x -> 0 < x.
Proof. intros [H _]. assert (X := bpow_gt_0 radix2 (- j)). lra. Qed.
Lemma fl_bpow e : (-1074 <= e)%Z -> fl (bpow radix2 e) = bpow radix2 e.
Proof.
  intros H. unfold fl. apply round_generic; [apply valid_rnd_N|]. apply generic_format_bpow. unfold FLT_exp. lia.
Qed.
Lemma mag_fl j x : (0 <= j <= 1000)%Z -> mag j x -> mag j (fl x).
Proof.
  intros H [A B]. split; [rewrite <- (fl_bpow (- j)) by lia|rewrite <- (fl_bpow j) by lia]; apply fl_mono; assumption.
Qed.
Lemma fl_rel j x : (0 <= j <= 1000)%Z -> mag j x -> rel 1 (fl x) x.
Proof.
  intros H M. assert (X := mag_pos _ _ M).
  destruct (relative_error_N_FLX'_ex radix2 53 eq_refl (fun z => negb (Z.even z)) x) as (e & He & E).
  exists (1 + e). split.
  { rewrite <- E. unfold fl. apply round_FLT_FLX. rewrite Rabs_pos_eq by lra. eapply Rle_trans; [|apply M]. apply bpow_le. lia. } unfold P. rewrite pow_1. change (u_ro radix2 53) with u in He.
  assert (U := u_pos). assert (0 <= u / (1 + u) <= u).
  { split; [apply Rlt_le, Rdiv_lt_0_compat; lra|]. apply Rmult_le_reg_r with (1 + u); [lra|]. replace (u / (1 + u) * (1 + u)) with u by (field; lra). nra. }
  apply Rabs_le_inv in He. split; [|lra]. replace (/ (1 + u)) with (1 - u / (1 + u)) by (field; lra). lra.
Qed.
Lemma mag_fits j x : (0 <= j <= 1000)%Z -> mag j x -> fits64 x.
Proof.
  intros H M. assert (X := mag_pos _ _ M). unfold fits64. rewrite Rabs_pos_eq by lra. eapply Rle_lt_trans; [apply M|]. apply bpow_lt. lia.
Qed.

(** ** Positive binary64 numbers with a relative error *)
Definition R64 (k : nat) (j : Z) (v : f64) (y : R) : Prop := is_finite v = true /\ 0 < y /\ rel k (B2R v) y /\ mag j (B2R v).
Lemma R64_weaken k k' j j' v y : (k <= k')%nat -> (j <= j')%Z -> R64 k j v y -> R64 k' j' v y.
Proof.
  intros A B (F & Y & R & M). repeat split; try assumption; [apply rel_weaken with k; assumption| |].
  - eapply Rle_trans; [|apply M]. apply bpow_le. lia.
  - eapply Rle_trans; [apply M|]. apply bpow_le. lia.
Qed.
Lemma mag_mul j k x y : mag j x -> mag k y -> mag (j + k) (x * y).
Proof.
  intros A B. assert (X := mag_pos _ _ A). assert (Y := mag_pos _ _ B). destruct A, B. split.
  - replace (- (j + k))%Z with (- j + - k)%Z by lia. rewrite bpow_plus. apply Rmult_le_compat; try assumption; apply bpow_ge_0.
  - rewrite bpow_plus. apply Rmult_le_compat; lra.
Qed.
Lemma mag_inv j x : mag j x -> mag j (/ x).
Proof.
  intros A. assert (X := mag_pos _ _ A). destruct A as [A B]. split.
  - rewrite bpow_opp. apply Rinv_le_contravar; assumption.
  - rewrite <- (Z.opp_involutive j), bpow_opp. apply Rinv_le_contravar; [apply bpow_gt_0|exact A].
Qed.
Lemma R64_mul k j v y k' j' v' y' : R64 k j v y -> R64 k' j' v' y' -> (0 <= j)%Z -> (0 <= j')%Z -> (j + j' <= 1000)%Z ->
  R64 (S (k + k')) (j + j') (v * v') (y * y').
Proof.
  intros (F & Y & R & M) (F' & Y' & R' & M') J J' L. assert (MM := mag_mul _ _ _ _ M M').
  assert (MF := mag_fl _ _ (conj (Z.add_nonneg_nonneg _ _ J J') L) MM).
  destruct (mul64_rep v v' _ _ (conj F eq_refl) (conj F' eq_refl) (mag_fits _ _ (conj (Z.add_nonneg_nonneg _ _ J J') L) MF)) as [G V].
  split; [exact G|]. split; [apply Rmult_lt_0_compat; assumption|]. rewrite V. split; [|exact MF].
  change (S (k + k')) with (1 + (k + k'))%nat. eapply rel_trans; [eapply fl_rel; [|exact MM]; lia|]. apply rel_mul; assumption.
Qed.
Lemma R64_div k j v y k' j' v' y' : R64 k j v y -> R64 k' j' v' y' -> (0 <= j)%Z -> (0 <= j')%Z -> (j + j' <= 1000)%Z ->
  R64 (S (k + k')) (j + j') (v / v') (y / y').
Proof.
  intros (F & Y & R & M) (F' & Y' & R' & M') J J' L. assert (MM := mag_mul _ _ _ _ M (mag_inv _ _ M')).
  assert (MF := mag_fl _ _ (conj (Z.add_nonneg_nonneg _ _ J J') L) MM). assert (V0 := mag_pos _ _ M').
  destruct (div64_rep v v' _ _ (conj F eq_refl) (conj F' eq_refl) ltac:(lra) (mag_fits _ _ (conj (Z.add_nonneg_nonneg _ _ J J') L) MF)) as [G V].
  split; [exact G|]. split; [apply Rdiv_lt_0_compat; assumption|]. rewrite V. split; [|exact MF].
  change (S (k + k')) with (1 + (k + k'))%nat. eapply rel_trans; [eapply fl_rel; [|exact MM]; lia|]. apply rel_div; try assumption. lra.
Qed.
Lemma R64_add k j v y v' y' : R64 k j v y -> R64 k j v' y' -> (0 <= j < 1000)%Z -> R64 (S k) (j + 1) (v + v') (y + y').
Proof.
  intros (F & Y & R & M) (F' & Y' & R' & M') J.
  assert (MM : mag (j + 1) (B2R v + B2R v')).
  { assert (V0 := mag_pos _ _ M). assert (V1 := mag_pos _ _ M'). destruct M as [M1 M2], M' as [M3 M4]. split.
    - apply Rle_trans with (bpow radix2 (- j)); [apply bpow_le; lia|lra].
    - rewrite bpow_plus. change (bpow radix2 1) with 2. lra. }
  assert (MF := mag_fl (j + 1) _ ltac:(lia) MM).
  destruct (add64_rep v v' _ _ (conj F eq_refl) (conj F' eq_refl) (mag_fits (j + 1) _ ltac:(lia) MF)) as [G V].
  split; [exact G|]. split; [lra|]. rewrite V. split; [|exact MF].
  change (S k) with (1 + k)%nat. eapply rel_trans; [eapply (fl_rel (j + 1)); [lia|exact MM]|]. apply rel_add; assumption.
Qed.
Lemma R64_opp_div k j v y k' j' v' y' : R64 k j v y -> R64 k' j' v' y' -> (0 <= j)%Z -> (0 <= j')%Z -> (j + j' <= 1000)%Z ->
  is_finite (opp64 v / v')%f64 = true /\ B2R (opp64 v / v')%f64 = - B2R (v / v')%f64.
Proof.
  intros (F & Y & R & M) (F' & Y' & R' & M') J J' L. assert (MM := mag_mul _ _ _ _ M (mag_inv _ _ M')).
  assert (MF := mag_fl _ _ (conj (Z.add_nonneg_nonneg _ _ J J') L) MM). assert (V0 := mag_pos _ _ M').
  assert (Ft := mag_fits _ _ (conj (Z.add_nonneg_nonneg _ _ J J') L) MF).
  destruct (div64_rep v v' _ _ (conj F eq_refl) (conj F' eq_refl) ltac:(lra) Ft) as [G V]. rewrite V.
  assert (E : fl (- B2R v / B2R v') = - fl (B2R v / B2R v')).
  { replace (- B2R v / B2R v') with (- (B2R v / B2R v')) by (field; lra). unfold fl. apply round_NE_opp. }
  rewrite <- E. apply div64_rep; [split; [unfold opp64; rewrite is_finite_Bopp; exact F|apply B2R_Bopp]|split; [exact F'|reflexivity]|lra|].
  rewrite E. unfold fits64 in *. rewrite Rabs_Ropp. exact Ft.
Qed.

Lemma P_bound k : INR k <= 100 -> P k <= 1 + 1.01 * INR k * u.
Proof.
  induction k as [|k IH]; intros H; [unfold P; cbn; lra|]. rewrite S_INR in *. assert (K := pos_INR k). specialize (IH ltac:(lra)).
  unfold P in *. cbn [pow]. assert (U := u_pos). assert (L := u_lt). cbn [pow] in L. assert (K2 : INR k * u <= 100 * u) by nra. nra.
Qed.
Lemma rel_abs k x y A : INR k <= 100 -> rel k x y -> Rabs y <= A -> Rabs (x - y) <= 1.01 * INR k * u * A.
Proof.
  intros H (t & -> & B) HA. assert (PB := P_bound k H). assert (P1 := P_1 k). assert (U := u_pos). assert (K := pos_INR k).
  replace (y * t - y) with (y * (t - 1)) by ring. rewrite Rabs_mult, Rmult_comm.
  assert (I : 2 - P k <= / P k). { apply Rmult_le_reg_r with (P k); [lra|]. rewrite Rinv_l by lra. nra. }
  apply Rmult_le_compat; try apply Rabs_pos; [|exact HA]. apply Rabs_le. lra.
Qed.
Lemma eta_tiny : eta <= u / 1000000.
Proof.
  unfold eta, u. apply Rle_trans with (/ 2 * (bpow radix2 (- (53) + 1) * bpow radix2 (-20))).
  - apply Rmult_le_compat_l; [lra|]. rewrite <- bpow_plus. apply bpow_le. lia.
  - assert (X := bpow_gt_0 radix2 (- (53) + 1)). assert (Y : bpow radix2 (-20) <= / 1000000).
    { rewrite <- (Z.opp_involutive (-20)), bpow_opp. change (- - 20)%Z with 20%Z. apply Rinv_le_contravar; [lra|].
      change (bpow radix2 (- -20)) with (IZR (2 ^ 20)). apply IZR_le. vm_compute. discriminate. }
    unfold Rdiv. nra.
Qed.

(** ** A combination of three values *)
Lemma Rabs5 a b c d e : Rabs (a + b + c + d + e) <= Rabs a + Rabs b + Rabs c + Rabs d + Rabs e.
Proof.
  assert (H1 := Rabs_triang (a + b + c + d) e). assert (H2 := Rabs_triang (a + b + c) d).
  assert (H3 := Rabs_triang (a + b) c). assert (H4 := Rabs_triang a b). lra.
Qed.
Section Comb.
  Variables (a' b' c' f0 f1 f2 : f64) (A B C M : R).
  Hypotheses (Fa : is_finite a' = true) (Fb : is_finite b' = true) (Fc : is_finite c' = true).
  Hypotheses (F0 : is_finite f0 = true) (F1 : is_finite f1 = true) (F2 : is_finite f2 = true).
  Hypotheses (HA : Rabs (B2R a') <= A) (HB : Rabs (B2R b') <= B) (HC : Rabs (B2R c') <= C).
  Hypotheses (H0 : Rabs (B2R f0) <= M) (H1 : Rabs (B2R f1) <= M) (H2 : Rabs (B2R f2) <= M).
  Let big := bpow radix2 400.
  Hypotheses (LA : A <= big) (LB : B <= big) (LC : C <= big) (LM : M <= big).

  Lemma prod_close (v f : f64) X : is_finite v = true -> is_finite f = true -> Rabs (B2R v) <= X -> X <= big -> Rabs (B2R f) <= M ->
    is_finite (v * f)%f64 = true /\ Rabs (B2R (v * f)%f64 - B2R v * B2R f) <= u * (X * M) + eta /\ Rabs (B2R (v * f)%f64) <= (1 + u) * (X * M) + eta.
  Proof.
    intros Fv Ff HX LX Hf. assert (U := u_pos). assert (X0 : 0 <= X) by (eapply Rle_trans; [apply Rabs_pos|exact HX]).
    assert (M0 : 0 <= M) by (eapply Rle_trans; [apply Rabs_pos|exact H0]).
    assert (PB : Rabs (B2R v * B2R f) <= X * M) by (rewrite Rabs_mult; apply Rmult_le_compat; try assumption; apply Rabs_pos).
    assert (E := fl_error (B2R v * B2R f)).
    assert (E1 : Rabs (fl (B2R v * B2R f) - B2R v * B2R f) <= u * (X * M) + eta) by nra.
    assert (E2 : Rabs (fl (B2R v * B2R f)) <= (1 + u) * (X * M) + eta).
    { replace (fl (B2R v * B2R f)) with ((fl (B2R v * B2R f) - B2R v * B2R f) + B2R v * B2R f) by ring. eapply Rle_trans; [apply Rabs_triang|]. lra. }
    destruct (mul64_rep v f _ _ (conj Fv eq_refl) (conj Ff eq_refl)) as [G V].
    { unfold fits64. eapply Rle_lt_trans; [exact E2|]. assert (XM : X * M <= bpow radix2 800).
      { change 800%Z with (400 + 400)%Z. rewrite bpow_plus. apply Rmult_le_compat; assumption. }
      assert (S1 := eta_tiny). assert (S2 := u_lt). cbn [pow] in S2.
      assert (1 <= bpow radix2 800) by (change 1 with (bpow radix2 0); apply bpow_le; lia).
      apply Rle_lt_trans with (4 * bpow radix2 800); [nra|]. change 4 with (bpow radix2 2). rewrite <- bpow_plus. apply bpow_lt. lia. }
    rewrite V. auto.
  Qed.

  Lemma comb_close : is_finite (comb64 a' b' c' f0 f1 f2) = true /\
    Rabs (B2R (comb64 a' b' c' f0 f1 f2) - (B2R a' * B2R f0 + B2R b' * B2R f1 + B2R c' * B2R f2)) <= 1.01 * u * M * (3 * A + 3 * B + 2 * C) + 4 * eta.
  Proof.
    assert (U := u_pos). assert (UL := u_lt). cbn [pow] in UL. assert (ET := eta_pos).
    assert (A0 : 0 <= A) by (eapply Rle_trans; [apply Rabs_pos|exact HA]). assert (B0 : 0 <= B) by (eapply Rle_trans; [apply Rabs_pos|exact HB]).
    assert (C0 : 0 <= C) by (eapply Rle_trans; [apply Rabs_pos|exact HC]). assert (M0 : 0 <= M) by (eapply Rle_trans; [apply Rabs_pos|exact H0]).
    destruct (prod_close a' f0 A Fa F0 HA LA H0) as (G1 & E1 & N1). destruct (prod_close b' f1 B Fb F1 HB LB H1) as (G2 & E2 & N2).
    destruct (prod_close c' f2 C Fc F2 HC LC H2) as (G3 & E3 & N3).
    set (p := (a' * f0)%f64) in *. set (q := (b' * f1)%f64) in *. set (r := (c' * f2)%f64) in *.
    set (AM := A * M) in *. set (BM := B * M) in *. set (CM := C * M) in *.
    assert (AM0 : 0 <= AM) by (apply Rmult_le_pos; assumption). assert (BM0 : 0 <= BM) by (apply Rmult_le_pos; assumption). assert (CM0 : 0 <= CM) by (apply Rmult_le_pos; assumption).
    assert (Big : forall X, X <= big -> X * M <= bpow radix2 800).
    { intros X LX. change 800%Z with (400 + 400)%Z. rewrite bpow_plus. fold big. destruct (Rle_or_lt 0 X); [apply Rmult_le_compat; assumption|].
      apply Rle_trans with 0; [nra|]. apply Rmult_le_pos; apply bpow_ge_0. }
    assert (BA := Big A LA). assert (BB := Big B LB). assert (BC := Big C LC). fold AM in BA. fold BM in BB. fold CM in BC. clear Big.
    set (W := bpow radix2 800) in *. assert (W1 : 1 <= W) by (change 1 with (bpow radix2 0); apply bpow_le; lia).
    assert (S1 := eta_tiny).
    assert (Fit : forall x, Rabs x <= 64 * W -> fits64 x).
    { intros x Hx. unfold fits64. eapply Rle_lt_trans; [exact Hx|]. unfold W. change 64 with (bpow radix2 6). rewrite <- bpow_plus. apply bpow_lt. lia. }
    assert (T1 : Rabs (B2R p + B2R q) <= (1 + u) * (AM + BM) + 2 * eta) by (eapply Rle_trans; [apply Rabs_triang|]; lra).
    assert (K1 := grid_fl _ (grid_add _ _ (grid_B2R p) (grid_B2R q))).
    assert (D1 : Rabs (fl (B2R p + B2R q) - (B2R p + B2R q)) <= u * ((1 + u) * (AM + BM) + 2 * eta)) by nra.
    assert (L1 : Rabs (fl (B2R p + B2R q)) <= (1 + u) * ((1 + u) * (AM + BM) + 2 * eta)).
    { replace (fl (B2R p + B2R q)) with ((fl (B2R p + B2R q) - (B2R p + B2R q)) + (B2R p + B2R q)) by ring. eapply Rle_trans; [apply Rabs_triang|]. lra. }
    assert (UE : u * eta <= / 1000000000000000 * eta) by (apply Rmult_le_compat_r; lra).
    assert (UA : u * (AM + BM) <= / 1000000000000000 * (AM + BM)) by (apply Rmult_le_compat_r; lra).
    assert (UA0 : 0 <= u * (AM + BM)) by (apply Rmult_le_pos; lra). assert (UE0 : 0 <= u * eta) by (apply Rmult_le_pos; lra).
    assert (UC : u * CM <= / 1000000000000000 * CM) by (apply Rmult_le_compat_r; lra).
    assert (UC0 : 0 <= u * CM) by (apply Rmult_le_pos; lra).
    assert (UUA : u * (u * (AM + BM)) <= / 1000000000000000 * (u * (AM + BM))) by (apply Rmult_le_compat_r; lra).
    assert (UUA0 : 0 <= u * (u * (AM + BM))) by (apply Rmult_le_pos; lra).
    assert (UUUA : u * (u * (u * (AM + BM))) <= / 1000000000000000 * (u * (u * (AM + BM)))) by (apply Rmult_le_compat_r; lra).
    assert (UUC : u * (u * CM) <= / 1000000000000000 * (u * CM)) by (apply Rmult_le_compat_r; lra).
    assert (UUE : u * (u * eta) <= / 1000000000000000 * (u * eta)) by (apply Rmult_le_compat_r; lra).
    destruct (add64_rep p q _ _ (conj G1 eq_refl) (conj G2 eq_refl)) as [G4 V4]; [apply Fit; eapply Rle_trans; [exact L1|]; lra|].
    set (s := (p + q)%f64) in *. rewrite <- V4 in D1, L1.
    assert (T2 : Rabs (B2R s + B2R r) <= (1 + u) * ((1 + u) * (AM + BM) + 2 * eta) + ((1 + u) * CM + eta)) by (eapply Rle_trans; [apply Rabs_triang|]; lra).
    assert (K2 := grid_fl _ (grid_add _ _ (grid_B2R s) (grid_B2R r))).
    assert (D2 : Rabs (fl (B2R s + B2R r) - (B2R s + B2R r)) <= u * ((1 + u) * ((1 + u) * (AM + BM) + 2 * eta) + ((1 + u) * CM + eta))) by nra.
    assert (L2 : Rabs (fl (B2R s + B2R r)) <= (1 + u) * ((1 + u) * ((1 + u) * (AM + BM) + 2 * eta) + ((1 + u) * CM + eta))).
    { replace (fl (B2R s + B2R r)) with ((fl (B2R s + B2R r) - (B2R s + B2R r)) + (B2R s + B2R r)) by ring. eapply Rle_trans; [apply Rabs_triang|]. lra. }
    destruct (add64_rep s r _ _ (conj G4 eq_refl) (conj G3 eq_refl)) as [G5 V5]; [apply Fit; eapply Rle_trans; [exact L2|]; lra|].
    unfold comb64. fold p q r s. split; [exact G5|]. rewrite V5.
    replace (fl (B2R s + B2R r) - (B2R a' * B2R f0 + B2R b' * B2R f1 + B2R c' * B2R f2)) with
      ((fl (B2R s + B2R r) - (B2R s + B2R r)) + (B2R s - (B2R p + B2R q)) + (B2R p - B2R a' * B2R f0) + (B2R q - B2R b' * B2R f1) + (B2R r - B2R c' * B2R f2)) by ring.
    eapply Rle_trans; [apply Rabs5|].
    replace (1.01 * u * M * (3 * A + 3 * B + 2 * C)) with (1.01 * (3 * (u * (AM + BM)) + 2 * (u * CM))) by (unfold AM, BM, CM; ring).
    clear - D2 D1 E1 E2 E3 UE UA UC UUA UUUA UUC UUE UA0 UE0 UC0 UUA0 ET U. lra.
  Qed.
End Comb.
