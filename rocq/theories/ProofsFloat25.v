(** * ProofsFloat25: the stability angle in binary64 (proofs only) *)
From Coq Require Import Reals Lra Lia List ZArith Bool.
From Flocq Require Import Core IEEE754.BinarySingleNaN Relative.
From Verif Require Import SpecFloat64 Ieee IeeeWave IeeeTurner SpecIeeeTurner ProofsFloat ProofsIeee ProofsFloat4 ProofsFloat6 ProofsFloat8 ProofsFloat10 ProofsFloat11 ProofsFloat19 ProofsPi ProofsFloat22.
Local Open Scope R_scope.

(** The inverse tangent of nearly equal numbers. *)
Lemma atan_between x y : x < y -> exists c, atan y - atan x = / (1 + c²) * (y - x) /\ x < c < y.
Proof.
  intros H. destruct (MVT_cor2 atan (fun c => / (1 + c²)) x y H) as (c & E & B); [intros c _; rewrite Rsqr_pow2; apply derivable_pt_lim_atan|].
  exists c. split; [exact E|exact B].
Qed.
Lemma atan_near e x y : 0 <= e <= / 100 -> rel e x y -> Rabs (atan y - atan x) <= 0.51 * e.
Proof.
  unfold rel. intros He R.
  assert (G : exists c, Rabs (atan y - atan x) = / (1 + c²) * Rabs (y - x) /\ (1 - e) * Rabs x <= Rabs c).
  { assert (N : forall c, x < c < y \/ y < c < x -> (1 - e) * Rabs x <= Rabs c).
    { intros c C. assert (D : Rabs (c - x) <= e * Rabs x).
      { eapply Rle_trans; [|exact R]. destruct C as [C|C]; [rewrite !Rabs_pos_eq by lra|rewrite !Rabs_left1 by lra]; lra. }
      assert (T := Rabs_triang (x - c) c). replace (x - c + c) with x in T by ring. rewrite (Rabs_minus_sym x c) in T. lra. }
    assert (P : forall c, 0 < / (1 + c²)) by (intros c; apply Rinv_0_lt_compat; assert (Q := Rle_0_sqr c); lra).
    destruct (Rtotal_order x y) as [H|[<-|H]].
    - destruct (atan_between x y H) as (c & E & B). exists c. split; [|apply N; left; exact B].
      rewrite E, Rabs_mult, (Rabs_pos_eq (/ _)) by (left; apply P). reflexivity.
    - exists x. split; [rewrite !Rminus_eq_0, Rabs_R0; ring|]. assert (Q := Rabs_pos x). nra.
    - destruct (atan_between y x H) as (c & E & B). exists c. split; [|apply N; right; exact B].
      rewrite Rabs_minus_sym, E, Rabs_mult, (Rabs_pos_eq (/ _)), (Rabs_minus_sym x y) by (left; apply P). reflexivity. }
  destruct G as (c & E & B). rewrite E. assert (Q := Rle_0_sqr c). assert (P : 0 < 1 + c²) by lra.
  apply Rmult_le_reg_l with (1 + c²); [exact P|]. rewrite <- Rmult_assoc, Rinv_r, Rmult_1_l by lra.
  eapply Rle_trans; [exact R|]. assert (Px := Rabs_pos x). rewrite (Rsqr_abs c). unfold Rsqr. set (X := Rabs x) in *. set (C := Rabs c) in *.
  assert (L : 0.99 * X <= C) by nra. assert (L2 : X <= 0.51 * (1 + C * C)). { assert (0.9801 * (X * X) <= C * C) by nra. assert (Z := Rle_0_sqr (X - 1.0005)). unfold Rsqr in Z. lra. }
  replace ((1 + C * C) * (0.51 * e)) with (e * (0.51 * (1 + C * C))) by ring. apply Rmult_le_compat_l; lra.
Qed.

(** The angle on either side of the ratio one. *)
Definition tu (r : R) : R := atan ((1 + r) / (1 - r)).
Lemma tu_below r : r < 1 -> tu r = PI / 4 + atan r.
Proof.
  intros H. assert (B := atan_bound r). assert (P := PI_RGT_0). assert (A : atan r < PI / 4) by (rewrite <- atan_1; apply atan_increasing, H).
  assert (T : tan (PI / 4 + atan r) = (1 + r) / (1 - r)).
  { rewrite tan_plus.
    - rewrite tan_PI4, Ratan.tan_atan. f_equal. lra.
    - apply Rgt_not_eq, cos_gt_0; lra.
    - apply Rgt_not_eq, cos_gt_0; lra.
    - apply Rgt_not_eq, cos_gt_0; lra.
    - rewrite tan_PI4, Ratan.tan_atan. lra. }
  unfold tu. rewrite <- T. apply Ratan.atan_tan. lra.
Qed.
Lemma tu_above r : 1 < r -> tu r = - (PI / 4 + atan (/ r)).
Proof.
  intros H. assert (I : / r < 1) by (rewrite <- Rinv_1; apply Rinv_lt_contravar; lra). rewrite <- tu_below by exact I. unfold tu. rewrite <- atan_opp. f_equal.
  field. split; [|lra]. intros Z. lra.
Qed.
Lemma rel_inv e x y : 0 <= e <= / 100 -> x <> 0 -> rel e x y -> rel (1.02 * e) (/ x) (/ y).
Proof.
  intros He Hx R. destruct (rel_size _ _ _ R) as [_ S]. assert (P := Rabs_pos_lt x Hx). assert (Py : 0 < Rabs y) by nra.
  assert (Hy : y <> 0) by (intros ->; rewrite Rabs_R0 in Py; lra). unfold rel in *.
  replace (/ y - / x) with ((x - y) * (/ x * / y)) by (field; auto). rewrite !Rabs_mult, !Rabs_inv, Rabs_minus_sym.
  apply Rmult_le_reg_r with (Rabs x * Rabs y); [nra|].
  replace (Rabs (y - x) * (/ Rabs x * / Rabs y) * (Rabs x * Rabs y)) with (Rabs (y - x)) by (field; lra).
  rewrite Rmult_assoc, <- (Rmult_assoc (/ Rabs x)), Rinv_l, Rmult_1_l by lra.
  assert (L : 0.99 * Rabs x <= Rabs y) by nra. assert (L2 : e * (0.99 * Rabs x) <= e * Rabs y) by (apply Rmult_le_compat_l; lra). assert (0 <= e * Rabs x) by (apply Rmult_le_pos; lra). lra.
Qed.
Lemma tu_near e r r' : 0 <= e <= / 1000 -> (r < 1 /\ r' < 1 \/ 1 < r /\ 1 < r') -> rel e r r' -> Rabs (tu r' - tu r) <= 0.53 * e.
Proof.
  intros He [[A B]|[A B]] R.
  - rewrite !tu_below by assumption. replace (PI / 4 + atan r' - (PI / 4 + atan r)) with (atan r' - atan r) by ring.
    eapply Rle_trans; [apply (atan_near e); [lra|exact R]|]. lra.
  - rewrite !tu_above by assumption. replace (- (PI / 4 + atan (/ r')) - - (PI / 4 + atan (/ r))) with (- (atan (/ r') - atan (/ r))) by ring. rewrite Rabs_Ropp.
    eapply Rle_trans; [apply (atan_near (1.02 * e)); [lra|]|lra]. apply rel_inv; [lra|lra|exact R].
Qed.

(** Numbers that are zero or of moderate size. *)
Definition moderate (x : f64) : Prop := is_finite x = true /\ big (-200) (B2R x) /\ Rabs (B2R x) <= bp 200.
Lemma big_prod e f x y : big e x -> big f y -> big (e + f) (x * y).
Proof.
  intros [-> |X] [-> |Y]; [left; ring|left; ring|left; ring|right]. rewrite Rabs_mult, bpow_plus.
  assert (P := bp_pos e). assert (Q := bp_pos f). apply Rmult_le_compat; lra.
Qed.
Lemma abs_prod e f x y : Rabs x <= bp e -> Rabs y <= bp f -> Rabs (x * y) <= bp (e + f).
Proof. intros X Y. rewrite Rabs_mult, bpow_plus. apply Rmult_le_compat; try apply Rabs_pos; assumption. Qed.
Lemma abs_rel e x y d : 0 <= d <= 1 -> rel d x y -> Rabs x <= bp e -> Rabs y <= bp (e + 1).
Proof.
  intros D R X. destruct (rel_size _ _ _ R) as [S _]. rewrite bpow_plus. change (bp 1) with 2. assert (P := Rabs_pos x). assert (Q := bp_pos e). nra.
Qed.
Lemma inv_size lo hi x : bp lo <= Rabs x -> Rabs x <= bp hi -> bp (- hi) <= Rabs (/ x) <= bp (- lo).
Proof.
  intros L H. rewrite Rabs_inv, !bpow_opp. assert (P := bp_pos lo). split; apply Rinv_le_contravar; lra.
Qed.
Lemma quot_ok (c d : f64) lo hi : (0 <= lo)%Z -> (0 <= hi)%Z -> (lo + hi < 1000)%Z -> is_finite c = true -> is_finite d = true -> big (- lo) (B2R c) -> Rabs (B2R c) <= bp lo ->
  bp (- hi) <= Rabs (B2R d) -> Rabs (B2R d) <= bp hi ->
  is_finite (c / d)%f64 = true /\ rel u (B2R c / B2R d) (B2R (c / d)%f64) /\ big (- lo - hi - 1) (B2R (c / d)%f64) /\ Rabs (B2R (c / d)%f64) <= bp (lo + hi + 1).
Proof.
  intros L0 H0 LH Fc Fd Bc Uc Ld Ud. us. destruct (inv_size _ _ _ Ld Ud) as [I1 I2]. rewrite Z.opp_involutive in I2. assert (P := bp_pos (- hi)).
  assert (Nd : B2R d <> 0) by (intros Z; rewrite Z, Rabs_R0 in Ld; lra).
  assert (B : big (- lo + - hi) (B2R c / B2R d)) by (apply big_prod; [exact Bc|right; exact I1]).
  assert (S : Rabs (B2R c / B2R d) <= bp (lo + hi)) by (apply abs_prod; assumption).
  destruct (div64_rep c d _ _ (conj Fc eq_refl) (conj Fd eq_refl) Nd (fits_bp (lo + hi) _ ltac:(lia) S)) as [F V].
  assert (R : rel u (B2R c / B2R d) (B2R (c / d)%f64)) by (rewrite V; apply (rel_fl_big (- lo + - hi)); [lia|exact B]).
  split; [exact F|]. split; [exact R|]. split.
  - apply (big_weaken (- lo + - hi - 1)); [lia|]. apply (big_rel _ u _ _ ltac:(lra) R B).
  - apply (abs_rel (lo + hi) _ _ u ltac:(lra) R S).
Qed.
Lemma prod_ok a b : moderate a -> moderate b ->
  is_finite (a * b)%f64 = true /\ rel u (B2R a * B2R b) (B2R (a * b)%f64) /\ big (-401) (B2R (a * b)%f64) /\ Rabs (B2R (a * b)%f64) <= bp 401.
Proof.
  intros (Fa & Ba & Ua) (Fb & Bb & Ub). us. assert (B := big_prod _ _ _ _ Ba Bb). assert (S := abs_prod _ _ _ _ Ua Ub).
  destruct (mul64_rep a b _ _ (conj Fa eq_refl) (conj Fb eq_refl) (fits_bp (200 + 200) _ ltac:(lia) S)) as [F V].
  assert (R : rel u (B2R a * B2R b) (B2R (a * b)%f64)) by (rewrite V; apply (rel_fl_big (-200 + -200)); [lia|exact B]).
  split; [exact F|]. split; [exact R|]. split; [exact (big_rel _ u _ _ ltac:(lra) R B)|exact (abs_rel _ _ _ u ltac:(lra) R S)].
Qed.
Lemma rel_div e f x y x' y' : 0 <= e <= / 100 -> 0 <= f <= / 100 -> y <> 0 -> rel e x x' -> rel f y y' -> rel (e + 1.02 * f + e * (1.02 * f)) (x / y) (x' / y').
Proof. intros E F N R1 R2. apply rel_mul; [lra|lra|exact R1|apply rel_inv; [lra|exact N|exact R2]]. Qed.
Lemma ratio_ok a x b y : moderate a -> moderate x -> moderate b -> moderate y -> B2R a <> 0 -> B2R x <> 0 ->
  is_finite (ratio64 a x b y) = true /\ rel (3.1 * u) (B2R b * B2R y / (B2R a * B2R x)) (B2R (ratio64 a x b y)) /\
  big (-803) (B2R (ratio64 a x b y)) /\ Rabs (B2R (ratio64 a x b y)) <= bp 803.
Proof.
  intros Ma Mx Mb My Na Nx. us. destruct (prod_ok a x Ma Mx) as (Fd & Rd & Bd & Ud). destruct (prod_ok b y Mb My) as (Fc & Rc & Bc & Uc).
  assert (Nd : B2R a * B2R x <> 0) by (apply Rmult_integral_contrapositive_currified; assumption).
  assert (Ld : bp (- 401) <= Rabs (B2R (a * x)%f64)).
  { destruct Bd as [Z|Z]; [|exact Z]. exfalso. rewrite Z in Rd. unfold rel in Rd. replace (0 - B2R a * B2R x) with (- (B2R a * B2R x)) in Rd by ring. rewrite Rabs_Ropp in Rd.
    assert (P := Rabs_pos_lt _ Nd). nra. }
  destruct (quot_ok (b * y)%f64 (a * x)%f64 401 401 ltac:(lia) ltac:(lia) ltac:(lia) Fc Fd Bc Uc Ld Ud) as (F & R & B & U).
  split; [exact F|]. split; [|split; [exact B|exact U]].
  assert (R2 := rel_div u u _ _ _ _ ltac:(lra) ltac:(lra) Nd Rc Rd). assert (R3 := rel_trans _ _ _ _ _ (Rlt_le _ _ U0) R2 R).
  eapply rel_weaken; [|exact R3]. nra.
Qed.
Lemma gap_one (x : f64) : is_finite x = true -> big (-53) (1 - B2R x).
Proof.
  intros F. destruct (Rlt_or_le (B2R x) (1 / 2)) as [H|H].
  - right. rewrite Rabs_pos_eq by lra. apply Rle_trans with (bp (-1)); [apply bpow_le; lia|change (bp (-1)) with (/ 2); lra].
  - destruct (grid_53 x F H) as (m & E). assert (P : 0 < IZR (2 ^ 53)) by (apply IZR_lt; reflexivity).
    assert (D : 1 - B2R x = IZR (2 ^ 53 - m) * / IZR (2 ^ 53)) by (rewrite minus_IZR, E; field; lra).
    destruct (Z.eq_dec (2 ^ 53 - m) 0) as [Z|Z]; [left; rewrite D, Z; ring|right].
    rewrite D, Rabs_mult, (Rabs_pos_eq (/ _)) by (left; apply Rinv_0_lt_compat, P). change (bp (-53)) with (/ IZR (2 ^ 53)).
    rewrite <- abs_IZR. assert (1 <= IZR (Z.abs (2 ^ 53 - m))) by (apply IZR_le; lia). assert (I := Rinv_0_lt_compat _ P). nra.
Qed.
Lemma one_rep : rep64 (of_Z 1) 1. Proof. apply (of_Z_rep 1 eq_refl). Qed.
Lemma diff_ok r : is_finite r = true -> Rabs (B2R r) <= bp 803 ->
  is_finite (of_Z 1 - r)%f64 = true /\ B2R (of_Z 1 - r)%f64 = fl (1 - B2R r) /\ rel u (1 - B2R r) (B2R (of_Z 1 - r)%f64) /\
  big (-54) (B2R (of_Z 1 - r)%f64) /\ Rabs (B2R (of_Z 1 - r)%f64) <= bp 805.
Proof.
  intros F L. us. assert (S : Rabs (1 - B2R r) <= bp 804).
  { eapply Rle_trans; [apply Rabs_triang|]. rewrite Rabs_Ropp, (Rabs_pos_eq 1) by lra. change 804%Z with (803 + 1)%Z. rewrite bpow_plus. change (bp 1) with 2.
    assert (1 <= bp 803) by (change 1 with (bp 0); apply bpow_le; lia). lra. }
  destruct (sub64_rep (of_Z 1) r 1 (B2R r) one_rep (conj F eq_refl) (fits_bp 804 _ ltac:(lia) S)) as [G V].
  assert (R : rel u (1 - B2R r) (B2R (of_Z 1 - r)%f64)).
  { rewrite V. unfold rel. apply grid_fl. replace (1 - B2R r) with (B2R (of_Z 1) + IZR (-1) * B2R r) by (rewrite (proj2 one_rep); lra).
    apply grid_add; [|apply grid_mul]; apply grid_B2R. }
  split; [exact G|]. split; [exact V|]. split; [exact R|]. split; [exact (big_rel _ u _ _ ltac:(lra) R (gap_one r F))|exact (abs_rel _ _ _ u ltac:(lra) R S)].
Qed.
Lemma sum_ok r : is_finite r = true -> Rabs (B2R r) <= bp 803 ->
  is_finite (of_Z 1 + r)%f64 = true /\ B2R (of_Z 1 + r)%f64 = fl (1 + B2R r) /\ rel u (1 + B2R r) (B2R (of_Z 1 + r)%f64) /\
  big (-54) (B2R (of_Z 1 + r)%f64) /\ Rabs (B2R (of_Z 1 + r)%f64) <= bp 805.
Proof.
  intros F L. us. assert (S : Rabs (1 + B2R r) <= bp 804).
  { eapply Rle_trans; [apply Rabs_triang|]. rewrite (Rabs_pos_eq 1) by lra. change 804%Z with (803 + 1)%Z. rewrite bpow_plus. change (bp 1) with 2.
    assert (1 <= bp 803) by (change 1 with (bp 0); apply bpow_le; lia). lra. }
  destruct (add64_rep (of_Z 1) r 1 (B2R r) one_rep (conj F eq_refl) (fits_bp 804 _ ltac:(lia) S)) as [G V].
  assert (R : rel u (1 + B2R r) (B2R (of_Z 1 + r)%f64)).
  { rewrite V. unfold rel. apply grid_fl. replace (1 + B2R r) with (B2R (of_Z 1) + B2R r) by (rewrite (proj2 one_rep); lra). apply grid_add; apply grid_B2R. }
  assert (B : big (-53) (1 + B2R r)).
  { assert (H := gap_one (Bopp r)). rewrite is_finite_Bopp, B2R_Bopp in H. replace (1 - - B2R r) with (1 + B2R r) in H by ring. exact (H F). }
  split; [exact G|]. split; [exact V|]. split; [exact R|]. split; [exact (big_rel _ u _ _ ltac:(lra) R B)|exact (abs_rel _ _ _ u ltac:(lra) R S)].
Qed.
Definition quo64 (r : f64) : f64 := ((of_Z 1 + r) / (of_Z 1 - r))%f64.
Lemma quo_ok r : is_finite r = true -> Rabs (B2R r) <= bp 803 -> B2R r <> 1 ->
  is_finite (quo64 r) = true /\ rel (3.1 * u) ((1 + B2R r) / (1 - B2R r)) (B2R (quo64 r)) /\
  B2R (quo64 r) = fl (fl (1 + B2R r) / fl (1 - B2R r)) /\ fl (1 - B2R r) <> 0.
Proof.
  intros F L N. us. destruct (sum_ok r F L) as (Fn & Vn & Rn & Bn & Un). destruct (diff_ok r F L) as (Fd & Vd & Rd & Bd & Ud).
  assert (Ld : bp (-54) <= Rabs (B2R (of_Z 1 - r)%f64)).
  { destruct Bd as [Z|Z]; [|exact Z]. exfalso. rewrite Z in Rd. unfold rel in Rd. replace (0 - (1 - B2R r)) with (- (1 - B2R r)) in Rd by ring. rewrite Rabs_Ropp in Rd.
    assert (P := Rabs_pos_lt (1 - B2R r) ltac:(lra)). nra. }
  assert (Nd : B2R (of_Z 1 - r)%f64 <> 0) by (intros Z; rewrite Z, Rabs_R0 in Ld; assert (P := bp_pos (-54)); lra).
  assert (S : Rabs (B2R (of_Z 1 + r)%f64 / B2R (of_Z 1 - r)%f64) <= bp (805 + 54)).
  { apply abs_prod; [exact Un|]. rewrite Rabs_inv, <- (Rinv_inv (bp 54)). apply Rinv_le_contravar; [apply Rinv_0_lt_compat, bp_pos|]. rewrite <- bpow_opp. exact Ld. }
  assert (B : big (-54 + -805) (B2R (of_Z 1 + r)%f64 / B2R (of_Z 1 - r)%f64)).
  { apply big_prod; [exact Bn|]. right. rewrite Rabs_inv. change (-805)%Z with (- (805))%Z. rewrite bpow_opp. apply Rinv_le_contravar; [apply Rlt_le_trans with (2 := Ld), bp_pos|exact Ud]. }
  destruct (div64_rep _ _ _ _ (conj Fn eq_refl) (conj Fd eq_refl) Nd (fits_bp (805 + 54) _ ltac:(lia) S)) as [G V]. fold (quo64 r) in G, V.
  assert (R1 : rel u (B2R (of_Z 1 + r)%f64 / B2R (of_Z 1 - r)%f64) (B2R (quo64 r))) by (rewrite V; apply (rel_fl_big (-54 + -805)); [lia|exact B]).
  split; [exact G|]. split.
  - assert (N' : 1 - B2R r <> 0) by lra. assert (R2 := rel_div u u _ _ _ _ ltac:(lra) ltac:(lra) N' Rn Rd). assert (R3 := rel_trans _ _ _ _ _ (Rlt_le _ _ U0) R2 R1).
    eapply rel_weaken; [|exact R3]. nra.
  - rewrite V, Vn, Vd. split; [reflexivity|]. rewrite <- Vd. exact Nd.
Qed.

(** The conversion to degrees. *)
Definition k64 : f64 := (of_Z 180 / pi64)%f64.
Lemma k64_ok : is_finite k64 = true /\ rel (2.1 * u) (180 / PI) (B2R k64) /\ 57.2 <= B2R k64 <= 57.3.
Proof.
  us. destruct pi64_rel as (Fp & Rp & Bp). assert (D := PI_digits).
  assert (S : Rabs (180 / B2R pi64) <= bp 6).
  { unfold Rdiv. rewrite Rabs_mult, Rabs_inv, !Rabs_pos_eq by lra. change (bp 6) with 64. apply Rmult_le_reg_r with (B2R pi64); [lra|]. rewrite Rmult_assoc, Rinv_l by lra. lra. }
  destruct (div64_rep (of_Z 180) pi64 180 (B2R pi64) (of_Z_rep 180 eq_refl) (conj Fp eq_refl) ltac:(lra) (fits_bp 6 _ ltac:(lia) S)) as [F V].
  fold k64 in F, V. split; [exact F|].
  assert (R1 : rel u (180 / B2R pi64) (B2R k64)).
  { rewrite V. apply rel_fl. right. apply Rle_trans with (bp 0); [apply bpow_le; lia|]. change (bp 0) with 1. unfold Rdiv. rewrite Rabs_mult, Rabs_inv, !Rabs_pos_eq by lra.
    apply Rmult_le_reg_r with (B2R pi64); [lra|]. rewrite Rmult_assoc, Rinv_l by lra. lra. }
  assert (R2 : rel (1.02 * u) (180 / PI) (180 / B2R pi64)).
  { unfold Rdiv. rewrite !(Rmult_comm 180). apply rel_scale. apply rel_inv; [lra|lra|exact Rp]. }
  assert (R3 := rel_trans _ _ _ _ _ (Rlt_le _ _ U0) R2 R1). split; [eapply rel_weaken; [|exact R3]; nra|].
  unfold rel in R3. assert (I : 57.29 <= 180 / PI <= 57.299).
  { split; [apply Rmult_le_reg_r with PI; [lra|]; unfold Rdiv; rewrite Rmult_assoc, Rinv_l by lra; lra|].
    apply Rmult_le_reg_r with PI; [lra|]; unfold Rdiv; rewrite Rmult_assoc, Rinv_l by lra; lra. }
  rewrite (Rabs_pos_eq (180 / PI)) in R3 by lra. apply Rabs_le_inv in R3. set (w := 180 / PI) in *.
  assert ((1.02 * u + u + 1.02 * u * u) * w <= 1e-3) by (apply Rle_trans with (1e-5 * 60); [apply Rmult_le_compat; nra|lra]). lra.
Qed.
Lemma degrees_full x : is_finite x = true -> Rabs (B2R x) <= 1.6 ->
  is_finite (degrees64 x) = true /\ B2R (degrees64 x) = fl (B2R x * B2R k64) /\ Rabs (B2R (degrees64 x) - B2R x * (180 / PI)) <= 290 * u.
Proof.
  intros F L. us. destruct k64_ok as (Fk & Rk & Bk). assert (P := Rabs_pos (B2R x)).
  assert (S : Rabs (B2R x * B2R k64) <= 92) by (rewrite Rabs_mult, (Rabs_pos_eq (B2R k64)) by lra; nra).
  destruct (mul64_rep x k64 _ _ (conj F eq_refl) (conj Fk eq_refl)) as [G V]; [apply (fits_bp 7); [lia|change (bp 7) with 128; lra]|].
  unfold degrees64. fold k64. split; [exact G|]. split; [exact V|]. rewrite V.
  replace (fl (B2R x * B2R k64) - B2R x * (180 / PI)) with ((fl (B2R x * B2R k64) - B2R x * B2R k64) + B2R x * (B2R k64 - 180 / PI)) by ring.
  eapply Rle_trans; [apply Rabs_triang|]. rewrite Rabs_mult. assert (E := fl_error (B2R x * B2R k64)).
  unfold rel in Rk. assert (D := PI_digits). assert (I : 0 < 180 / PI <= 57.299).
  { split; [apply Rdiv_lt_0_compat; lra|]. apply Rmult_le_reg_r with PI; [lra|]; unfold Rdiv; rewrite Rmult_assoc, Rinv_l by lra; lra. }
  rewrite (Rabs_pos_eq (180 / PI)) in Rk by lra.
  assert (H1 : Rabs (B2R x) * Rabs (B2R k64 - 180 / PI) <= 1.6 * (2.1 * u * 57.299)).
  { apply Rmult_le_compat; [exact P|apply Rabs_pos|exact L|]. eapply Rle_trans; [exact Rk|]. apply Rmult_le_compat_l; lra. }
  assert (H2 : u * Rabs (B2R x * B2R k64) <= u * 92) by (apply Rmult_le_compat_l; lra).
  assert (H3 : eta <= u). { unfold eta, u. apply Rmult_le_compat_l; [lra|]. apply bpow_le. lia. } lra.
Qed.
Lemma turner_ok atan64 r : accurate_atan atan64 -> is_finite r = true -> Rabs (B2R r) <= bp 803 -> B2R r <> 1 ->
  is_finite (turner64 atan64 r) = true /\ Rabs (B2R (turner64 atan64 r) - tu (B2R r) * (180 / PI)) <= 850 * u.
Proof.
  intros [A _] F L N. us. destruct (quo_ok r F L N) as (Fq & Rq & _ & _). destruct (A _ Fq) as [Fa Ea]. rewrite eight_u in Ea.
  assert (T := atan_near (3.1 * u) _ _ ltac:(lra) Rq). fold (tu (B2R r)) in T.
  assert (B := atan_bound (B2R (quo64 r))). assert (D := PI_digits).
  assert (S : Rabs (B2R (atan64 (quo64 r))) <= 1.6).
  { apply Rabs_le_inv in Ea. apply Rabs_le. lra. }
  destruct (degrees_full _ Fa S) as (Fd & _ & Ed). unfold turner64. fold (quo64 r). split; [exact Fd|].
  set (t := B2R (atan64 (quo64 r))) in *. set (w := 180 / PI) in *.
  assert (I : 0 < w <= 57.299).
  { unfold w. split; [apply Rdiv_lt_0_compat; lra|]. apply Rmult_le_reg_r with PI; [lra|]; unfold Rdiv; rewrite Rmult_assoc, Rinv_l by lra; lra. }
  replace (B2R (degrees64 (atan64 (quo64 r))) - tu (B2R r) * w) with ((B2R (degrees64 (atan64 (quo64 r))) - t * w) + (t - tu (B2R r)) * w) by ring.
  eapply Rle_trans; [apply Rabs_triang|]. rewrite Rabs_mult, (Rabs_pos_eq w) by lra.
  assert (E : Rabs (t - tu (B2R r)) <= 9.6 * u).
  { replace (t - tu (B2R r)) with ((t - atan (B2R (quo64 r))) + (atan (B2R (quo64 r)) - tu (B2R r))) by ring. eapply Rle_trans; [apply Rabs_triang|]. lra. }
  assert (H : Rabs (t - tu (B2R r)) * w <= 9.6 * u * 57.299) by (apply Rmult_le_compat; try lra; apply Rabs_pos). lra.
Qed.
Lemma angle_ok atan64 a x b y : accurate_atan atan64 -> moderate a -> moderate x -> moderate b -> moderate y ->
  let d := B2R a * B2R x in let c := B2R b * B2R y in d <> 0 -> 1e-15 * Rabs d <= Rabs (c - d) ->
  is_finite (angle64 atan64 a x b y) = true /\ Rabs (B2R (angle64 atan64 a x b y) - tu (c / d) * (180 / PI)) <= 1.1e-13.
Proof.
  intros A Ma Mx Mb My d c Nd G. us.
  assert (Na : B2R a <> 0) by (intros Z; apply Nd; unfold d; rewrite Z; ring). assert (Nx : B2R x <> 0) by (intros Z; apply Nd; unfold d; rewrite Z; ring).
  destruct (ratio_ok a x b y Ma Mx Mb My Na Nx) as (F & R & _ & U). fold d c in R. set (r := ratio64 a x b y) in *.
  assert (P := Rabs_pos_lt d Nd).
  assert (G' : 1e-15 <= Rabs (c / d - 1)).
  { replace (c / d - 1) with ((c - d) / d) by (field; exact Nd). unfold Rdiv. rewrite Rabs_mult, Rabs_inv. apply Rmult_le_reg_r with (Rabs d); [exact P|].
    rewrite (Rmult_assoc (Rabs (c - d))), Rinv_l by lra. lra. }
  set (q := c / d) in *. assert (SD : q < 1 /\ B2R r < 1 \/ 1 < q /\ 1 < B2R r).
  { unfold rel in R. apply Rabs_le_inv in R. destruct (Rtotal_order q 1) as [H|[H|H]].
    - left. split; [exact H|]. rewrite Rabs_left in G' by lra. destruct (Rle_or_lt 0 q) as [Q|Q].
      + rewrite Rabs_pos_eq in R by lra. nra.
      + rewrite Rabs_left in R by lra. nra.
    - rewrite H, Rminus_eq_0, Rabs_R0 in G'. lra.
    - right. split; [exact H|]. rewrite Rabs_pos_eq in G', R by lra. nra. }
  assert (T := tu_near (3.1 * u) q (B2R r) ltac:(lra) SD R).
  destruct (turner_ok atan64 r A F U ltac:(lra)) as [Ft Et]. unfold angle64. fold r. split; [exact Ft|].
  assert (D := PI_digits). set (w := 180 / PI) in *. assert (I : 0 < w <= 57.299).
  { unfold w. split; [apply Rdiv_lt_0_compat; lra|]. apply Rmult_le_reg_r with PI; [lra|]; unfold Rdiv; rewrite Rmult_assoc, Rinv_l by lra; lra. }
  replace (B2R (turner64 atan64 r) - tu q * w) with ((B2R (turner64 atan64 r) - tu (B2R r) * w) + (tu (B2R r) - tu q) * w) by ring.
  eapply Rle_trans; [apply Rabs_triang|]. rewrite Rabs_mult, (Rabs_pos_eq w) by lra.
  assert (H : Rabs (tu (B2R r) - tu q) * w <= 0.53 * (3.1 * u) * 57.299) by (apply Rmult_le_compat; try lra; apply Rabs_pos).
  assert (UV := u_val). lra.
Qed.
