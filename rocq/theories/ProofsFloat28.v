(** * ProofsFloat28: distances on the sphere in binary64 (proofs only) *)
From Coq Require Import QArith Reals Lra Lia List ZArith Bool.
From Flocq Require Import Core IEEE754.BinarySingleNaN Relative.
From Verif Require Import SpecFloat64 SpecGeo Ieee IeeeWave IeeeGeo SpecIeeeGeo ProofsFloat ProofsIeee ProofsFloat4 ProofsFloat10 ProofsFloat11 ProofsFloat19 ProofsPi ProofsFloat22 ProofsFloat25.
Local Open Scope R_scope.

(** From an error of the square to an error of the root. *)
Lemma root_near H h a b : 0 <= H -> 0 <= h -> 0 <= a -> 0 <= b -> Rabs (H - h) <= a * sqrt h + b * b -> Rabs (sqrt H - sqrt h) <= a + b.
Proof.
  intros PH Ph Pa Pb E. assert (SH := sqrt_pos H). assert (Sh := sqrt_pos h). assert (QH := sqrt_sqrt H PH). assert (Qh := sqrt_sqrt h Ph).
  set (x := sqrt H) in *. set (y := sqrt h) in *. rewrite <- QH, <- Qh in E. apply Rnot_lt_le. intros C.
  destruct (Rle_or_lt y x) as [L|L].
  - rewrite Rabs_pos_eq in C by lra. rewrite Rabs_pos_eq in E by nra. nra.
  - rewrite Rabs_left in C by lra. rewrite Rabs_left in E by nra. nra.
Qed.

(** The real error of the reduced distance. *)
Lemma prod2 c1 c2 c1' c2' d : 0 <= c1 -> 0 <= c2 -> 0 <= d -> Rabs (c1' - c1) <= d -> Rabs (c2' - c2) <= d ->
  Rabs (c1' * c2' - c1 * c2) <= d * (c1 + c2) + d * d.
Proof.
  intros P1 P2 Pd E1 E2. replace (c1' * c2' - c1 * c2) with ((c1' - c1) * (c2' - c2) + ((c1' - c1) * c2 + c1 * (c2' - c2))) by ring.
  eapply Rle_trans; [apply Rabs_triang|]. assert (T := Rabs_triang ((c1' - c1) * c2) (c1 * (c2' - c2))). rewrite !Rabs_mult in *.
  rewrite (Rabs_pos_eq c1), (Rabs_pos_eq c2) in T by assumption.
  assert (A1 := Rabs_pos (c1' - c1)). assert (A2 := Rabs_pos (c2' - c2)).
  assert (Rabs (c1' - c1) * Rabs (c2' - c2) <= d * d) by (apply Rmult_le_compat; assumption).
  assert (Rabs (c1' - c1) * c2 <= d * c2) by (apply Rmult_le_compat_r; assumption). assert (c1 * Rabs (c2' - c2) <= c1 * d) by (apply Rmult_le_compat_l; assumption). lra.
Qed.
Lemma square2 s s' d : 0 <= d -> Rabs (s' - s) <= d -> Rabs (s' * s' - s * s) <= 2 * d * Rabs s + d * d.
Proof.
  intros Pd E. replace (s' * s' - s * s) with ((s' - s) * (s' - s) + 2 * (s' - s) * s) by ring.
  eapply Rle_trans; [apply Rabs_triang|]. rewrite !Rabs_mult, (Rabs_pos_eq 2) by lra. assert (A1 := Rabs_pos (s' - s)). assert (A2 := Rabs_pos s).
  assert (Rabs (s' - s) * Rabs (s' - s) <= d * d) by (apply Rmult_le_compat; assumption). assert (Rabs (s' - s) * Rabs s <= d * Rabs s) by (apply Rmult_le_compat_r; assumption). lra.
Qed.
Lemma sum_small c1 c2 s1 s2 : 0 <= c1 -> 0 <= c2 -> c1 <= 1 -> c2 <= 1 -> Rabs s2 <= 1 -> Rabs (c1 - c2) <= 2 * Rabs s1 ->
  (c1 + c2) * (s2 * s2) <= 2 * (sqrt (c1 * c2) * Rabs s2) + 4 * Rabs s1.
Proof.
  intros P1 P2 L1 L2 LS D. assert (PS := Rabs_pos s2). assert (SS : s2 * s2 = Rabs s2 * Rabs s2) by (rewrite <- Rabs_mult; symmetry; apply Rabs_pos_eq; nra). rewrite SS. set (t := Rabs s2) in *.
  assert (SQ := sqrt_pos (c1 * c2)). assert (SE := sqrt_sqrt (c1 * c2) ltac:(nra)). set (g := sqrt (c1 * c2)) in *.
  assert (M : c1 + c2 <= 2 * g + 2 * Rabs (c1 - c2)).
  { destruct (Rle_or_lt c1 c2) as [L|L].
    - rewrite (Rabs_minus_sym c1 c2), Rabs_pos_eq by lra. assert (c1 <= g) by (apply Rnot_lt_le; intros X; nra). lra.
    - rewrite Rabs_pos_eq by lra. assert (c2 <= g) by (apply Rnot_lt_le; intros X; nra). lra. }
  assert (TT : 0 <= t * t <= t) by nra. assert (PD := Rabs_pos (c1 - c2)). set (D' := Rabs (c1 - c2)) in *.
  assert ((c1 + c2) * (t * t) <= (2 * g + 2 * D') * (t * t)) by (apply Rmult_le_compat_r; lra).
  assert (g * (t * t) <= g * t) by (apply Rmult_le_compat_l; lra). assert (D' * (t * t) <= D' * 1) by (apply Rmult_le_compat_l; lra). lra.
Qed.
Definition hv (y1 y2 x1 x2 : R) : R := sin ((y1 - y2) / 2) * sin ((y1 - y2) / 2) + cos y1 * cos y2 * (sin ((x1 - x2) / 2) * sin ((x1 - x2) / 2)).
Lemma cos_diff y1 y2 : Rabs (cos y1 - cos y2) <= 2 * Rabs (sin ((y1 - y2) / 2)).
Proof.
  rewrite form2. rewrite !Rabs_mult. rewrite (Rabs_left (-2)) by lra. assert (B : Rabs (sin ((y1 + y2) / 2)) <= 1) by (apply Rabs_le, SIN_bound).
  assert (P := Rabs_pos (sin ((y1 - y2) / 2))). nra.
Qed.
Lemma hv_error y1 y2 x1 x2 s1' s2' c1' c2' : Rabs y1 <= PI / 2 -> Rabs y2 <= PI / 2 ->
  Rabs (s1' - sin ((y1 - y2) / 2)) <= 17 * u -> Rabs (s2' - sin ((x1 - x2) / 2)) <= 41 * u -> Rabs (c1' - cos y1) <= 14 * u -> Rabs (c2' - cos y2) <= 14 * u ->
  0 <= hv y1 y2 x1 x2 <= 1 /\ Rabs (s1' * s1' + c1' * c2' * (s2' * s2') - hv y1 y2 x1 x2) <= 200 * u * sqrt (hv y1 y2 x1 x2) + 4500 * (u * u).
Proof.
  intros Y1 Y2 E1 E2 F1 F2. us. assert (P1 : 0 <= cos y1) by (apply Rabs_le_inv in Y1; apply cos_ge_0; lra). assert (P2 : 0 <= cos y2) by (apply Rabs_le_inv in Y2; apply cos_ge_0; lra).
  assert (L1 := COS_bound y1). assert (L2 := COS_bound y2). assert (D := cos_diff y1 y2).
  assert (H1 : hv y1 y2 x1 x2 <= 1).
  { unfold hv. assert (CC : cos (y1 - y2) = 1 - 2 * (sin ((y1 - y2) / 2) * sin ((y1 - y2) / 2))).
    { replace (y1 - y2) with (2 * ((y1 - y2) / 2)) at 1 by field. rewrite cos_2a_sin. ring. }
    rewrite cos_minus in CC. assert (CS : cos y1 * cos y2 - sin y1 * sin y2 = cos (y1 + y2)) by (rewrite cos_plus; ring). assert (B := COS_bound (y1 + y2)).
    assert (S2 := SIN_bound ((x1 - x2) / 2)). assert (Q : sin ((x1 - x2) / 2) * sin ((x1 - x2) / 2) <= 1) by nra.
    assert (CP : 0 <= cos y1 * cos y2) by (apply Rmult_le_pos; assumption). assert (cos y1 * cos y2 * (sin ((x1 - x2) / 2) * sin ((x1 - x2) / 2)) <= cos y1 * cos y2 * 1) by (apply Rmult_le_compat_l; assumption). lra. }
  assert (LS : Rabs (sin ((x1 - x2) / 2)) <= 1) by (apply Rabs_le, SIN_bound).
  unfold hv in *. set (s1 := sin ((y1 - y2) / 2)) in *. set (s2 := sin ((x1 - x2) / 2)) in *. set (c1 := cos y1) in *. set (c2 := cos y2) in *.
  assert (CP : 0 <= c1 * c2) by (apply Rmult_le_pos; assumption). assert (Q1 : 0 <= s1 * s1) by apply Rle_0_sqr. assert (Q2 : 0 <= s2 * s2) by apply Rle_0_sqr. assert (Q3 : 0 <= c1 * c2 * (s2 * s2)) by (apply Rmult_le_pos; assumption).
  split; [lra|]. set (h := s1 * s1 + c1 * c2 * (s2 * s2)) in *.
  assert (R1 : Rabs s1 <= sqrt h) by (rewrite <- sqrt_Rsqr_abs; apply sqrt_le_1_alt; unfold Rsqr, h; lra).
  assert (R2 : sqrt (c1 * c2) * Rabs s2 <= sqrt h) by (rewrite <- sqrt_Rsqr_abs, <- sqrt_mult_alt by assumption; apply sqrt_le_1_alt; unfold Rsqr, h; lra).
  assert (S := sum_small c1 c2 s1 s2 P1 P2 ltac:(lra) ltac:(lra) LS D).
  assert (A := prod2 c1 c2 c1' c2' (14 * u) P1 P2 ltac:(lra) F1 F2). assert (B := square2 s1 s1' (17 * u) ltac:(lra) E1). assert (C := square2 s2 s2' (41 * u) ltac:(lra) E2).
  assert (PB : 0 <= sqrt (c1 * c2) * Rabs s2) by (apply Rmult_le_pos; [apply sqrt_pos|apply Rabs_pos]).
  assert (PC : c1 * c2 * Rabs s2 <= sqrt (c1 * c2) * Rabs s2).
  { apply Rmult_le_compat_r; [apply Rabs_pos|]. assert (X := sqrt_sqrt (c1 * c2) CP). assert (Y := sqrt_pos (c1 * c2)). set (g := sqrt (c1 * c2)) in *. assert (c1 * c2 <= 1) by nra. assert (g <= 1) by (apply Rnot_lt_le; intros Z; nra). nra. }
  set (g := sqrt (c1 * c2) * Rabs s2) in *. set (a := Rabs s1) in *. assert (PA : 0 <= a) by apply Rabs_pos. assert (PT := Rabs_pos s2). set (t := Rabs s2) in *.
  assert (UU : 0 <= u * u) by nra. assert (UUU : u * u * u <= 1e-10 * (u * u)) by nra.
  replace (s1' * s1' + c1' * c2' * (s2' * s2') - h) with ((s1' * s1' - s1 * s1) + ((c1' * c2' - c1 * c2) * (s2' * s2') + c1 * c2 * (s2' * s2' - s2 * s2))) by (unfold h; ring).
  eapply Rle_trans; [apply Rabs_triang|]. assert (T := Rabs_triang ((c1' * c2' - c1 * c2) * (s2' * s2')) (c1 * c2 * (s2' * s2' - s2 * s2))).
  rewrite !Rabs_mult in T. rewrite <- !Rabs_mult in T. rewrite (Rabs_mult (c1' * c2' - c1 * c2)), (Rabs_mult (c1 * c2)), (Rabs_pos_eq (c1 * c2)) in T by exact CP.
  rewrite (Rabs_pos_eq (s2' * s2')) in T by apply Rle_0_sqr.
  assert (Z1 : s2' * s2' <= s2 * s2 + 83 * u). { apply Rabs_le_inv in C. assert (2 * (41 * u) * t <= 82 * u) by nra. assert (u * u <= 1e-10 * u) by nra. lra. }
  assert (Z2 : Rabs (c1' * c2' - c1 * c2) * (s2' * s2') <= (14 * u * (c1 + c2) + 14 * u * (14 * u)) * (s2 * s2 + 83 * u)).
  { apply Rmult_le_compat; [apply Rabs_pos|apply Rle_0_sqr|exact A|exact Z1]. }
  assert (Z3 : c1 * c2 * Rabs (s2' * s2' - s2 * s2) <= c1 * c2 * (2 * (41 * u) * t + 41 * u * (41 * u))) by (apply Rmult_le_compat_l; assumption).
  assert (Z4 : c1 * c2 * (2 * (41 * u) * t + 41 * u * (41 * u)) <= 82 * u * g + 1681 * (u * u)).
  { replace (c1 * c2 * (2 * (41 * u) * t + 41 * u * (41 * u))) with (82 * u * (c1 * c2 * t) + 1681 * (u * u) * (c1 * c2)) by ring.
    assert (82 * u * (c1 * c2 * t) <= 82 * u * g) by (apply Rmult_le_compat_l; lra). assert (c1 * c2 <= 1) by nra. nra. }
  assert (Z5 : (14 * u * (c1 + c2) + 14 * u * (14 * u)) * (s2 * s2 + 83 * u) <= 14 * u * (2 * g + 4 * a) + 2530 * (u * u)).
  { replace ((14 * u * (c1 + c2) + 14 * u * (14 * u)) * (s2 * s2 + 83 * u)) with
      (14 * u * ((c1 + c2) * (s2 * s2)) + 1162 * (u * u) * (c1 + c2) + 196 * (u * u) * (s2 * s2) + 16268 * (u * u * u)) by ring.
    assert (14 * u * ((c1 + c2) * (s2 * s2)) <= 14 * u * (2 * g + 4 * a)) by (apply Rmult_le_compat_l; lra).
    assert (1162 * (u * u) * (c1 + c2) <= 1162 * (u * u) * 2) by (apply Rmult_le_compat_l; lra).
    assert (s2 * s2 <= 1) by (apply Rabs_le_inv in LS; nra). assert (196 * (u * u) * (s2 * s2) <= 196 * (u * u) * 1) by (apply Rmult_le_compat_l; lra). lra. }
  assert (u * a <= u * sqrt h) by (apply Rmult_le_compat_l; lra). assert (u * g <= u * sqrt h) by (apply Rmult_le_compat_l; lra). lra.
Qed.

(** The computed radians. *)
Definition k180 : f64 := (pi64 / of_Z 180)%f64.
Lemma k180_ok : is_finite k180 = true /\ rel (2.1 * u) (PI / 180) (B2R k180) /\ 0.017 <= B2R k180 <= 0.018.
Proof.
  us. destruct pi64_rel as (Fp & Rp & Bp). assert (D := PI_digits).
  destruct (div64_rep pi64 (of_Z 180) (B2R pi64) 180 (conj Fp eq_refl) (of_Z_rep 180 eq_refl) ltac:(lra)) as [F V].
  { apply (fits_bp 0); [lia|]. change (bp 0) with 1. rewrite Rabs_pos_eq; lra. }
  fold k180 in F, V. split; [exact F|].
  assert (R1 : rel u (B2R pi64 / 180) (B2R k180)).
  { rewrite V. apply rel_fl. right. apply Rle_trans with (bp (-10)); [apply bpow_le; lia|]. change (bp (-10)) with (/ 1024). rewrite Rabs_pos_eq; lra. }
  assert (R2 : rel u (PI / 180) (B2R pi64 / 180)) by (apply rel_scale, Rp).
  assert (R3 := rel_trans _ _ _ _ _ (Rlt_le _ _ U0) R2 R1). split; [eapply rel_weaken; [|exact R3]; nra|].
  unfold rel in R3. rewrite (Rabs_pos_eq (PI / 180)) in R3 by lra. apply Rabs_le_inv in R3.
  assert ((u + u + u * u) * (PI / 180) <= 1e-5) by (apply Rle_trans with (1e-5 * 1); [apply Rmult_le_compat; nra|lra]). lra.
Qed.
Lemma eta_uu : 0 <= eta <= 1e-20 * u.
Proof.
  unfold eta, u. split; [assert (P := bpow_gt_0 radix2 (-1074)); lra|].
  apply Rle_trans with (/ 2 * bpow radix2 (-200 + (- (53) + 1))); [apply Rmult_le_compat_l; [lra|apply bpow_le; lia]|].
  rewrite bpow_plus. assert (bpow radix2 (-200) <= 1e-20).
  { apply Rle_trans with (bpow radix2 (-70)); [apply bpow_le; lia|]. change (bpow radix2 (-70)) with (/ 1180591620717411303424). lra. }
  assert (P := bpow_gt_0 radix2 (- (53) + 1)). assert (bpow radix2 (-200) * bpow radix2 (- (53) + 1) <= 1e-20 * bpow radix2 (- (53) + 1)) by (apply Rmult_le_compat_r; lra). lra.
Qed.
Lemma radians_ok x m : is_finite x = true -> Rabs (B2R x) <= m -> 0 <= m <= 360 ->
  is_finite (deg2rad64 x) = true /\ B2R (deg2rad64 x) = fl (B2R x * B2R k180) /\ Rabs (B2R (deg2rad64 x) - rad_of (B2R x)) <= 3.2 * u * (m * (PI / 180)) + 1e-20 * u.
Proof.
  intros F L Hm. us. destruct k180_ok as (Fk & Rk & Bk). assert (E0 := eta_uu). assert (P := Rabs_pos (B2R x)). assert (D := PI_digits).
  assert (S : Rabs (B2R x * B2R k180) <= 6.5) by (rewrite Rabs_mult, (Rabs_pos_eq (B2R k180)) by lra; nra).
  destruct (mul64_rep x k180 _ _ (conj F eq_refl) (conj Fk eq_refl)) as [G V]; [apply (fits_bp 3); [lia|change (bp 3) with 8; lra]|].
  unfold deg2rad64. fold k180. split; [exact G|]. split; [exact V|]. rewrite V. unfold rad_of.
  assert (E := fl_error (B2R x * B2R k180)). assert (R := rel_scale _ (B2R x) _ _ Rk). rewrite !(Rmult_comm _ (B2R x)) in R. destruct (rel_size _ _ _ R) as [Z _]. unfold rel in R.
  assert (W : Rabs (B2R x * (PI / 180)) <= m * (PI / 180)) by (rewrite Rabs_mult, (Rabs_pos_eq (PI / 180)) by lra; apply Rmult_le_compat_r; lra).
  set (w := m * (PI / 180)) in *. set (v := Rabs (B2R x * (PI / 180))) in *. assert (PV : 0 <= v) by apply Rabs_pos.
  replace (fl (B2R x * B2R k180) - B2R x * (PI / 180)) with ((fl (B2R x * B2R k180) - B2R x * B2R k180) + (B2R x * B2R k180 - B2R x * (PI / 180))) by ring.
  eapply Rle_trans; [apply Rabs_triang|]. assert (Z' : Rabs (B2R x * B2R k180) <= 1.01 * w) by nra. assert (u * Rabs (B2R x * B2R k180) <= u * (1.01 * w)) by (apply Rmult_le_compat_l; lra).
  assert (2.1 * u * v <= 2.1 * u * w) by (apply Rmult_le_compat_l; lra). assert (0 <= u * w) by nra. lra.
Qed.
Lemma ninety : B2R (deg2rad64 (of_Z 90)) <= PI / 2.
Proof.
  assert (E : B2SF (deg2rad64 (of_Z 90)) = SpecFloat.S754_finite false 7074237752028440 (-52)) by (vm_compute; reflexivity). rewrite <- SF2R_B2SF, E.
  unfold SF2R, F2R, Defs.Fnum, Defs.Fexp, cond_Zopp. change (bpow radix2 (-52)) with (/ 4503599627370496). assert (D := PI_digits). lra.
Qed.
Lemma lat_range x : is_finite x = true -> Rabs (B2R x) <= 90 -> Rabs (B2R (deg2rad64 x)) <= PI / 2.
Proof.
  intros F L. destruct (radians_ok x 90 F L ltac:(lra)) as (_ & V & _). destruct k180_ok as (_ & _ & Bk).
  destruct (of_Z_rep 90 eq_refl) as [F9 V9]. destruct (radians_ok (of_Z 90) 90 F9 ltac:(rewrite V9, Rabs_pos_eq; lra) ltac:(lra)) as (_ & W & _). assert (N := ninety). rewrite W, V9 in N.
  rewrite V. apply Rabs_le_inv in L. apply Rabs_le. split.
  - apply Rle_trans with (- fl (90 * B2R k180)); [lra|]. rewrite <- fl_opp. apply fl_mono. nra.
  - apply Rle_trans with (fl (90 * B2R k180)); [|exact N]. apply fl_mono. nra.
Qed.
(** Half of a difference. *)
Definition half_diff (a b : f64) : f64 := (lit (1 # 2) * (a - b))%f64.
Lemma half_diff_ok a b m : is_finite a = true -> is_finite b = true -> Rabs (B2R a) <= m -> Rabs (B2R b) <= m -> 0 <= m <= 6.5 ->
  is_finite (half_diff a b) = true /\ Rabs (B2R (half_diff a b) - (B2R a - B2R b) / 2) <= 2.02 * u * m + 1e-20 * u.
Proof.
  intros Fa Fb La Lb Hm. us. assert (E0 := eta_uu). assert (T := Rabs_triang (B2R a) (- B2R b)). rewrite Rabs_Ropp in T. fold (B2R a - B2R b) in T.
  destruct (sub64_rep a b _ _ (conj Fa eq_refl) (conj Fb eq_refl)) as [F V]; [apply (fits_bp 4); [lia|change (bp 4) with 16; lra]|].
  assert (E : Rabs (B2R (a - b)%f64 - (B2R a - B2R b)) <= u * Rabs (B2R a - B2R b)).
  { rewrite V. apply grid_fl. replace (B2R a - B2R b) with (B2R a + IZR (-1) * B2R b) by ring. apply grid_add; [|apply grid_mul]; apply grid_B2R. }
  assert (H : rep64 (lit (1 # 2)) (/ 2)).
  { split; [vm_compute; reflexivity|]. assert (X : B2SF (lit (1 # 2)) = SpecFloat.S754_finite false 4503599627370496 (-53)) by (vm_compute; reflexivity). rewrite <- SF2R_B2SF, X.
    unfold SF2R, F2R, Defs.Fnum, Defs.Fexp, cond_Zopp. change (bpow radix2 (-53)) with (/ 9007199254740992). lra. }
  set (d := (a - b)%f64) in *. set (r := B2R a - B2R b) in *. assert (Pr := Rabs_pos r).
  assert (Sd : Rabs (B2R d) <= 1.01 * (2 * m)). { replace (B2R d) with ((B2R d - r) + r) by ring. eapply Rle_trans; [apply Rabs_triang|]. nra. }
  destruct (mul64_rep (lit (1 # 2)) d _ _ H (conj F eq_refl)) as [G W]; [apply (fits_bp 4); [lia|change (bp 4) with 16; rewrite Rabs_mult, (Rabs_pos_eq (/ 2)); lra]|].
  unfold half_diff. fold d. split; [exact G|]. rewrite W.
  assert (X := fl_error (/ 2 * B2R d)). rewrite Rabs_mult, (Rabs_pos_eq (/ 2)) in X by lra.
  assert (u * (/ 2 * Rabs (B2R d)) <= u * (1.01 * m)) by (apply Rmult_le_compat_l; lra). assert (u * Rabs r <= u * (2 * m)) by (apply Rmult_le_compat_l; lra).
  replace (fl (/ 2 * B2R d) - r / 2) with ((fl (/ 2 * B2R d) - / 2 * B2R d) + / 2 * (B2R d - r)) by field. eapply Rle_trans; [apply Rabs_triang|].
  rewrite Rabs_mult, (Rabs_pos_eq (/ 2)) by lra. assert (0 <= u * m) by nra. lra.
Qed.
