(** Distances of [geolocate_points] in binary64: the haversine value. *)
From Coq Require Import QArith Reals Lra Lia List ZArith Bool.
From Flocq Require Import Core IEEE754.BinarySingleNaN Relative.
From Verif Require Import SpecFloat64 SpecGeo Ieee IeeeWave IeeeGeo SpecIeeeGeo ProofsFloat ProofsIeee ProofsFloat4 ProofsFloat10 ProofsFloat11 ProofsFloat19 ProofsPi ProofsFloat22 ProofsFloat25.
Local Open Scope R_scope.
From Verif Require Import ProofsFloat28 Geo ProofsGeo2.

Lemma cos_lip x y : Rabs (cos y - cos x) <= Rabs (y - x).
Proof. rewrite !cos_sin. replace (y - x) with ((PI / 2 + y) - (PI / 2 + x)) by ring. apply sin_lip. Qed.
Lemma sine_ok sin64 cos64 asin64 a b x y m e : accurate_trig sin64 cos64 asin64 -> is_finite a = true -> is_finite b = true -> Rabs (B2R a) <= m -> Rabs (B2R b) <= m -> 0 <= m <= 6.5 ->
  Rabs (B2R a - x) <= e -> Rabs (B2R b - y) <= e ->
  is_finite (sin64 (half_diff a b)) = true /\ Rabs (B2R (sin64 (half_diff a b)) - sin ((x - y) / 2)) <= e + 2.02 * u * m + 8.1 * u.
Proof.
  intros (A & _) Fa Fb La Lb Hm Ea Eb. us. destruct (half_diff_ok a b m Fa Fb La Lb Hm) as [F E]. set (t := half_diff a b) in *.
  assert (E' : Rabs (B2R t - (x - y) / 2) <= 2.02 * u * m + 1e-20 * u + e).
  { replace (B2R t - (x - y) / 2) with ((B2R t - (B2R a - B2R b) / 2) + ((B2R a - x) / 2 + - ((B2R b - y) / 2))) by field. eapply Rle_trans; [apply Rabs_triang|].
    assert (T := Rabs_triang ((B2R a - x) / 2) (- ((B2R b - y) / 2))). rewrite Rabs_Ropp in T. unfold Rdiv in T. rewrite !Rabs_mult, !(Rabs_pos_eq (/ 2)) in T by lra. unfold Rdiv. lra. }
  assert (S : Rabs (B2R t) <= 7).
  { assert (0 <= u * m <= 1e-10) by (split; nra). replace (B2R t) with ((B2R t - (B2R a - B2R b) / 2) + (B2R a - B2R b) / 2) by ring. eapply Rle_trans; [apply Rabs_triang|].
    assert (T := Rabs_triang (B2R a) (- B2R b)). rewrite Rabs_Ropp in T. fold (B2R a - B2R b) in T. unfold Rdiv at 2. rewrite (Rabs_mult (B2R a - B2R b)), (Rabs_pos_eq (/ 2)) by lra. lra. }
  destruct (A t F S) as [Fs Es]. rewrite eight_u in Es. split; [exact Fs|].
  replace (B2R (sin64 t) - sin ((x - y) / 2)) with ((B2R (sin64 t) - sin (B2R t)) + (sin (B2R t) - sin ((x - y) / 2))) by ring. eapply Rle_trans; [apply Rabs_triang|].
  assert (L := sin_lip ((x - y) / 2) (B2R t)). lra.
Qed.
Lemma cosine_ok sin64 cos64 asin64 x : accurate_trig sin64 cos64 asin64 -> is_finite x = true -> Rabs (B2R x) <= 90 ->
  is_finite (cos64 (deg2rad64 x)) = true /\ 0 <= B2R (cos64 (deg2rad64 x)) /\ Rabs (B2R (cos64 (deg2rad64 x)) - cos (rad_of (B2R x))) <= 14 * u.
Proof.
  intros (_ & A & P & _) F L. us. assert (D := PI_digits). destruct (radians_ok x 90 F L ltac:(lra)) as (G & _ & E). assert (R := lat_range x F L).
  destruct (A _ G ltac:(lra)) as [Fc Ec]. rewrite eight_u in Ec. split; [exact Fc|]. split; [apply P; assumption|].
  set (c := B2R (cos64 (deg2rad64 x))) in *. replace (c - cos (rad_of (B2R x))) with ((c - cos (B2R (deg2rad64 x))) + (cos (B2R (deg2rad64 x)) - cos (rad_of (B2R x)))) by ring.
  eapply Rle_trans; [apply Rabs_triang|]. assert (T := cos_lip (rad_of (B2R x)) (B2R (deg2rad64 x))). assert (u * (90 * (PI / 180)) <= u * 1.571) by (apply Rmult_le_compat_l; lra). lra.
Qed.

(** The rounded sum of products. *)
Lemma uu x : 0 <= x -> 0 <= u * x /\ u * (u * x) <= 1e-10 * (u * x).
Proof. intros H. us. assert (0 <= u * x) by (apply Rmult_le_pos; lra). split; [assumption|]. apply Rmult_le_compat_r; lra. Qed.
Lemma step x y : is_finite x = true -> is_finite y = true -> Rabs (B2R x) <= 2 -> Rabs (B2R y) <= 2 ->
  is_finite (x * y)%f64 = true /\ B2R (x * y)%f64 = fl (B2R x * B2R y) /\ Rabs (B2R (x * y)%f64 - B2R x * B2R y) <= u * Rabs (B2R x * B2R y) + 1e-20 * (u * u).
Proof.
  intros Fx Fy Lx Ly. assert (S : Rabs (B2R x * B2R y) <= 4) by (rewrite Rabs_mult; assert (P := Rabs_pos (B2R x)); assert (Q := Rabs_pos (B2R y)); nra).
  destruct (mul64_rep x y _ _ (conj Fx eq_refl) (conj Fy eq_refl)) as [F V]; [apply (fits_bp 2); [lia|exact S]|].
  split; [exact F|]. split; [exact V|]. rewrite V. assert (E := fl_error (B2R x * B2R y)).
  assert (N : eta <= 1e-20 * (u * u)).
  { unfold eta, u. apply Rle_trans with (/ 2 * bpow radix2 (-200 + ((- (53) + 1) + (- (53) + 1)))); [apply Rmult_le_compat_l; [lra|apply bpow_le; lia]|].
    rewrite !bpow_plus with (e1 := (-200)%Z). rewrite (bpow_plus _ (- (53) + 1) (- (53) + 1)). assert (Z : bpow radix2 (-200) <= 1e-30).
    { apply Rle_trans with (bpow radix2 (-100)); [apply bpow_le; lia|]. change (bpow radix2 (-100)) with (/ 1267650600228229401496703205376). lra. }
    assert (P := bpow_gt_0 radix2 (- (53) + 1)). set (w := bpow radix2 (- (53) + 1)) in *. assert (bpow radix2 (-200) * (w * w) <= 1e-30 * (w * w)) by (apply Rmult_le_compat_r; nra). nra. }
  lra.
Qed.
Lemma sum_products (s1 s2 c1 c2 : f64) : is_finite s1 = true -> is_finite s2 = true -> is_finite c1 = true -> is_finite c2 = true ->
  Rabs (B2R s1) <= 1.01 -> Rabs (B2R s2) <= 1.01 -> 0 <= B2R c1 <= 1.01 -> 0 <= B2R c2 <= 1.01 ->
  let E := B2R s1 * B2R s1 + B2R c1 * B2R c2 * (B2R s2 * B2R s2) in let r := (s1 * s1 + c1 * c2 * s2 * s2)%f64 in
  is_finite r = true /\ 0 <= B2R r /\ Rabs (B2R r - E) <= 4.1 * u * E + u * u.
Proof.
  intros F1 F2 G1 G2 L1 L2 M1 M2 E r. us.
  destruct (step s1 s1 F1 F1 ltac:(lra) ltac:(lra)) as (FA & VA & EA).
  destruct (step c1 c2 G1 G2 ltac:(rewrite Rabs_pos_eq; lra) ltac:(rewrite Rabs_pos_eq; lra)) as (FB & VB & EB).
  assert (PB : 0 <= B2R c1 * B2R c2 <= 1.0201) by nra. assert (PS : 0 <= B2R s2 * B2R s2 <= 1.0201) by (apply Rabs_le_inv in L2; nra). assert (PA : 0 <= B2R s1 * B2R s1 <= 1.0201) by (apply Rabs_le_inv in L1; nra).
  rewrite (Rabs_pos_eq (B2R s1 * B2R s1)) in EA by lra. rewrite (Rabs_pos_eq (B2R c1 * B2R c2)) in EB by lra.
  set (A := (s1 * s1)%f64) in *. set (B := (c1 * c2)%f64) in *.
  assert (NA : 0 <= B2R A) by (rewrite VA, <- fl_0; apply fl_mono; lra). assert (NB : 0 <= B2R B) by (rewrite VB, <- fl_0; apply fl_mono; lra).
  apply Rabs_le_inv in EA, EB. assert (UU : 0 <= u * u <= 1e-10 * u) by (split; nra).
  assert (LB : B2R B <= 1.03) by nra. assert (LA : B2R A <= 1.03) by nra.
  destruct (step B s2 FB F2 ltac:(rewrite Rabs_pos_eq; lra) ltac:(lra)) as (FC & VC & EC). set (C := (B * s2)%f64) in *.
  assert (LBS : Rabs (B2R B * B2R s2) <= 1.05) by (rewrite Rabs_mult, (Rabs_pos_eq (B2R B)) by lra; assert (Q := Rabs_pos (B2R s2)); nra).
  assert (LC : Rabs (B2R C) <= 1.1). { replace (B2R C) with ((B2R C - B2R B * B2R s2) + B2R B * B2R s2) by ring. eapply Rle_trans; [apply Rabs_triang|]. nra. }
  destruct (step C s2 FC F2 ltac:(lra) ltac:(lra)) as (FD & VD & ED). set (D := (C * s2)%f64) in *.
  (* the sign of the last product *)
  assert (ND : 0 <= B2R D /\ Rabs (B2R C * B2R s2 - B2R B * (B2R s2 * B2R s2)) <= u * (B2R B * (B2R s2 * B2R s2)) + 1.1e-20 * (u * u)).
  { split.
    - rewrite VD, <- fl_0. apply fl_mono. rewrite VC. destruct (Rle_or_lt 0 (B2R s2)) as [Z|Z].
      + apply Rmult_le_pos; [|exact Z]. rewrite <- fl_0. apply fl_mono. nra.
      + assert (fl (B2R B * B2R s2) <= 0) by (rewrite <- fl_0; apply fl_mono; nra). nra.
    - replace (B2R C * B2R s2 - B2R B * (B2R s2 * B2R s2)) with ((B2R C - B2R B * B2R s2) * B2R s2) by ring. rewrite Rabs_mult.
      assert (Q := Rabs_pos (B2R s2)). eapply Rle_trans; [apply Rmult_le_compat_r; [exact Q|exact EC]|].
      rewrite Rabs_mult, (Rabs_pos_eq (B2R B)) by lra. assert (SS : Rabs (B2R s2) * Rabs (B2R s2) = B2R s2 * B2R s2) by (rewrite <- Rabs_mult; apply Rabs_pos_eq; lra).
      replace ((u * (B2R B * Rabs (B2R s2)) + 1e-20 * (u * u)) * Rabs (B2R s2)) with (u * (B2R B * (Rabs (B2R s2) * Rabs (B2R s2))) + 1e-20 * (u * u) * Rabs (B2R s2)) by ring. rewrite SS. nra. }
  destruct ND as [ND EC2]. set (S := B2R s2 * B2R s2) in *. set (K := B2R c1 * B2R c2) in *.
  assert (TB : Rabs (B2R B * S - K * S) <= u * (K * S) + 1.1e-20 * (u * u)).
  { replace (B2R B * S - K * S) with ((B2R B - K) * S) by ring. rewrite Rabs_mult, (Rabs_pos_eq S) by lra.
    assert (X : Rabs (B2R B - K) <= u * K + 1e-20 * (u * u)) by (apply Rabs_le; lra). eapply Rle_trans; [apply Rmult_le_compat_r; [|exact X]; lra|].
    assert (1e-20 * (u * u) * S <= 1e-20 * (u * u) * 1.0201) by (apply Rmult_le_compat_l; lra). lra. }
  assert (PK : 0 <= K * S) by (apply Rmult_le_pos; lra). apply Rabs_le_inv in TB, EC2. destruct (uu _ PK) as [UK UUK].
  destruct (uu u ltac:(lra)) as [_ UUU].
  set (BS := B2R B * S) in *. assert (UB : u * BS <= u * (K * S) + 1e-10 * (u * (K * S)) + 1e-25 * (u * u)).
  { apply Rle_trans with (u * (K * S + (u * (K * S) + 1.1e-20 * (u * u)))); [apply Rmult_le_compat_l; lra|]. rewrite !Rmult_plus_distr_l. lra. }
  assert (PBS : 0 <= BS) by (apply Rmult_le_pos; lra).
  set (CS := B2R C * B2R s2) in *. assert (AC : Rabs CS <= BS + (u * BS + 1.1e-20 * (u * u))) by (apply Rabs_le; lra).
  assert (UC : u * Rabs CS <= u * BS + 1e-10 * (u * BS) + 1e-25 * (u * u)).
  { apply Rle_trans with (u * (BS + (u * BS + 1.1e-20 * (u * u)))); [apply Rmult_le_compat_l; lra|]. destruct (uu _ PBS) as [? ?]. rewrite !Rmult_plus_distr_l. lra. }
  destruct (uu _ PBS) as [? _]. apply Rabs_le_inv in ED. assert (TD : Rabs (B2R D - K * S) <= 3.01 * (u * (K * S)) + 1e-15 * (u * u)) by (apply Rabs_le; lra).
  apply Rabs_le_inv in TD.
  assert (LD : B2R D <= 1.2). { assert (K * S <= 1.0201 * 1.0201) by (apply Rmult_le_compat; lra). nra. }
  destruct (add64_rep A D _ _ (conj FA eq_refl) (conj FD eq_refl)) as [FR VR]; [apply (fits_bp 2); [lia|change (bp 2) with 4; rewrite Rabs_pos_eq; lra]|]. fold r in FR, VR.
  assert (ER : Rabs (B2R r - (B2R A + B2R D)) <= u * Rabs (B2R A + B2R D)) by (rewrite VR; apply grid_fl, grid_add; apply grid_B2R).
  rewrite (Rabs_pos_eq (B2R A + B2R D)) in ER by lra. split; [exact FR|]. split; [rewrite VR, <- fl_0; apply fl_mono; lra|].
  fold K S in E. set (Q := B2R s1 * B2R s1) in *. destruct (uu Q ltac:(lra)) as [UQ UUQ]. apply Rabs_le_inv in ER.
  assert (UT : u * (B2R A + B2R D) <= 1.001 * (u * Q) + 1.001 * (u * (K * S)) + 1e-20 * (u * u)).
  { apply Rle_trans with (u * ((Q + (u * Q + 1e-20 * (u * u))) + (K * S + (3.01 * (u * (K * S)) + 1e-15 * (u * u))))); [apply Rmult_le_compat_l; lra|]. rewrite !Rmult_plus_distr_l. lra. }
  apply Rabs_le. unfold E. lra.
Qed.

Lemma rad_eq x : rad_of x = x * (PI / 180). Proof. reflexivity. Qed.
Lemma rdist_ok sin64 cos64 asin64 q p : accurate_trig sin64 cos64 asin64 -> on_earth q -> on_earth p ->
  let h := hv (rad_of (B2R (fst q))) (rad_of (B2R (fst p))) (rad_of (B2R (snd q))) (rad_of (B2R (snd p))) in let r := rdist64 sin64 cos64 q p in
  is_finite r = true /\ 0 <= B2R r /\ 0 <= h <= 1 /\ Rabs (sqrt (B2R r) - sqrt h) <= 273 * u.
Proof.
  intros A (Q1 & Q2 & Q3 & Q4) (P1 & P2 & P3 & P4) h r. us. assert (D := PI_digits).
  destruct (cosine_ok _ _ _ _ A Q1 Q2) as (C1 & C2 & C3). destruct (cosine_ok _ _ _ _ A P1 P2) as (K1 & K2 & K3).
  destruct (radians_ok _ 90 Q1 Q2 ltac:(lra)) as (Fq & _ & Eq). destruct (radians_ok _ 90 P1 P2 ltac:(lra)) as (Fp & _ & Ep).
  destruct (radians_ok _ 360 Q3 Q4 ltac:(lra)) as (Gq & _ & Xq). destruct (radians_ok _ 360 P3 P4 ltac:(lra)) as (Gp & _ & Xp).
  assert (N : u * (90 * (PI / 180)) <= u * 1.5708) by (apply Rmult_le_compat_l; lra). assert (M : u * (360 * (PI / 180)) <= u * 6.2832) by (apply Rmult_le_compat_l; lra).
  assert (Bq : Rabs (B2R (deg2rad64 (snd q))) <= 6.2833).
  { replace (B2R (deg2rad64 (snd q))) with ((B2R (deg2rad64 (snd q)) - rad_of (B2R (snd q))) + rad_of (B2R (snd q))) by ring. eapply Rle_trans; [apply Rabs_triang|].
    assert (Rabs (rad_of (B2R (snd q))) <= 6.2832) by (unfold rad_of; rewrite Rabs_mult, (Rabs_pos_eq (PI / 180)) by lra; assert (Z := Rabs_pos (B2R (snd q))); apply Rle_trans with (360 * (PI / 180)); [apply Rmult_le_compat_r; lra|lra]). lra. }
  assert (Bp : Rabs (B2R (deg2rad64 (snd p))) <= 6.2833).
  { replace (B2R (deg2rad64 (snd p))) with ((B2R (deg2rad64 (snd p)) - rad_of (B2R (snd p))) + rad_of (B2R (snd p))) by ring. eapply Rle_trans; [apply Rabs_triang|].
    assert (Rabs (rad_of (B2R (snd p))) <= 6.2832) by (unfold rad_of; rewrite Rabs_mult, (Rabs_pos_eq (PI / 180)) by lra; assert (Z := Rabs_pos (B2R (snd p))); apply Rle_trans with (360 * (PI / 180)); [apply Rmult_le_compat_r; lra|lra]). lra. }
  assert (Lq := lat_range _ Q1 Q2). assert (Lp := lat_range _ P1 P2).
  destruct (sine_ok _ _ _ (deg2rad64 (fst q)) (deg2rad64 (fst p)) (rad_of (B2R (fst q))) (rad_of (B2R (fst p))) 1.5708 (5.03 * u) A Fq Fp ltac:(lra) ltac:(lra) ltac:(lra) ltac:(lra) ltac:(lra)) as [S1 E1].
  destruct (sine_ok _ _ _ (deg2rad64 (snd q)) (deg2rad64 (snd p)) (rad_of (B2R (snd q))) (rad_of (B2R (snd p))) 6.2833 (20.12 * u) A Gq Gp ltac:(lra) ltac:(lra) ltac:(lra) ltac:(lra) ltac:(lra)) as [S2 E2].
  assert (Yq : Rabs (rad_of (B2R (fst q))) <= PI / 2) by (unfold rad_of; rewrite Rabs_mult, (Rabs_pos_eq (PI / 180)) by lra; apply Rle_trans with (90 * (PI / 180)); [apply Rmult_le_compat_r; lra|lra]).
  assert (Yp : Rabs (rad_of (B2R (fst p))) <= PI / 2) by (unfold rad_of; rewrite Rabs_mult, (Rabs_pos_eq (PI / 180)) by lra; apply Rle_trans with (90 * (PI / 180)); [apply Rmult_le_compat_r; lra|lra]).
  unfold half_diff in *.
  destruct (hv_error _ _ (rad_of (B2R (snd q))) (rad_of (B2R (snd p))) _ _ _ _ Yq Yp (Rle_trans _ _ (17 * u) E1 ltac:(lra)) (Rle_trans _ _ (41 * u) E2 ltac:(lra)) C3 K3) as [H01 EH]. fold h in H01, EH.
  assert (near1 : forall v t e, Rabs (v - t) <= e -> -1 <= t <= 1 -> e <= 0.001 -> Rabs v <= 1.01) by (intros v t e V T Le; apply Rabs_le_inv in V; apply Rabs_le; lra).
  assert (T1 := near1 _ _ _ E1 (SIN_bound _) ltac:(lra)). assert (T2 := near1 _ _ _ E2 (SIN_bound _) ltac:(lra)).
  assert (T3 := near1 _ _ _ C3 (COS_bound _) ltac:(lra)). assert (T4 := near1 _ _ _ K3 (COS_bound _) ltac:(lra)). apply Rabs_le_inv in T3, T4.
  destruct (sum_products _ _ _ _ S1 S2 C1 K1 T1 T2 ltac:(lra) ltac:(lra)) as (FR & NR & ER). fold (rdist64 sin64 cos64 q p) in FR, NR, ER. change (is_finite r = true) in FR. fold r in NR, ER.
  split; [exact FR|]. split; [exact NR|]. split; [exact H01|].
  match type of ER with Rabs (_ - ?x) <= _ => set (E := x) in * end.
  assert (Sh := sqrt_pos h). assert (Qh := sqrt_sqrt h ltac:(lra)). assert (S1' : sqrt h <= 1) by (rewrite <- sqrt_1; apply sqrt_le_1; lra). assert (hs : h <= sqrt h) by (rewrite <- Qh at 1; rewrite <- (Rmult_1_r (sqrt h)) at 3; apply Rmult_le_compat_l; lra).
  set (z := sqrt h) in *. destruct (uu z Sh) as [Uz UUz]. destruct (uu u ltac:(lra)) as [Uu UUu].
  assert (LE : E <= z + (200 * u * z + 4500 * (u * u))) by (apply Rabs_le_inv in EH; lra).
  assert (UE : u * E <= u * z + 200 * (u * (u * z)) + 4500 * (u * (u * u))).
  { apply Rle_trans with (u * (z + (200 * u * z + 4500 * (u * u)))); [apply Rmult_le_compat_l; lra|lra]. }
  replace (273 * u) with (205 * u + 68 * u) by ring. apply root_near; [exact NR|lra|lra|lra|]. fold z.
  replace (B2R r - h) with ((B2R r - E) + (E - h)) by ring. eapply Rle_trans; [apply Rabs_triang|]. lra.
Qed.

Lemma asin_lip x y : 0 <= x <= 3 / 4 -> 0 <= y <= 3 / 4 -> Rabs (asin x - asin y) <= 1.52 * Rabs (x - y).
Proof.
  assert (G : forall x y, 0 <= x -> x < y -> y <= 3 / 4 -> 0 <= asin y - asin x <= 1.52 * (y - x)).
  { clear x y. intros x y Px Lxy Py. assert (Bx := asin_bound x). assert (By := asin_bound y). assert (Sx := sin_asin x ltac:(lra)). assert (Sy := sin_asin y ltac:(lra)).
    assert (PI0 := PI_digits). assert (N : 0 <= asin x).
    { destruct (Rle_or_lt 0 (asin x)) as [Z|Z]; [exact Z|]. assert (sin (asin x) < 0) by (apply sin_lt_0_var; lra). lra. }
    assert (L : asin x < asin y).
    { destruct (Rlt_or_le (asin x) (asin y)) as [Z|Z]; [exact Z|]. destruct Z as [Z|Z]; [assert (sin (asin y) < sin (asin x)) by (apply sin_increasing_1; lra); lra|rewrite Z in Sy; lra]. }
    destruct (MVT_cor2 sin cos (asin x) (asin y) L) as (c & Ec & Hc); [intros t _; apply derivable_pt_lim_sin|].
    rewrite Sx, Sy in Ec.
    assert (K : 0.66 <= cos c).
    { apply Rle_trans with (cos (asin y)); [|left; apply cos_decreasing_1; lra]. rewrite cos_asin by lra. rewrite <- (sqrt_Rsqr 0.66) by lra. apply sqrt_le_1; unfold Rsqr; nra. }
    split; [lra|]. assert (0.66 * (asin y - asin x) <= cos c * (asin y - asin x)) by (apply Rmult_le_compat_r; lra). lra. }
  intros Hx Hy. destruct (Rtotal_order x y) as [L|[->|L]].
  - specialize (G x y ltac:(lra) L ltac:(lra)). rewrite (Rabs_left1 (asin x - asin y)), (Rabs_left1 (x - y)) by lra. lra.
  - rewrite !Rminus_diag_eq by reflexivity. rewrite Rabs_R0. lra.
  - specialize (G y x ltac:(lra) L ltac:(lra)). rewrite !Rabs_pos_eq by lra. lra.
Qed.

(** The central angle and the haversine value. *)
Definition hav (q p : place64) : R := hv (rad_of (B2R (fst q))) (rad_of (B2R (fst p))) (rad_of (B2R (snd q))) (rad_of (B2R (snd p))).
Lemma angle_hav q p : central_angle (place_R q) (place_R p) = 2 * asin (sqrt (hav q p)).
Proof. unfold place_R. rewrite <- haversine_angle2. reflexivity. Qed.
Lemma small_hav q p : 0 <= hav q p <= 1 -> central_angle (place_R q) (place_R p) <= PI / 2 -> 0 <= sqrt (hav q p) <= 0.7072.
Proof.
  intros H L. rewrite angle_hav in L. assert (P := sqrt_pos (hav q p)). assert (S1 : sqrt (hav q p) <= 1) by (rewrite <- sqrt_1; apply sqrt_le_1; lra). split; [exact P|].
  assert (D := PI_digits). assert (B := asin_bound (sqrt (hav q p))). rewrite <- (sin_asin (sqrt (hav q p))) by lra.
  apply Rle_trans with (sin (PI / 4)); [apply sin_incr_1; lra|]. rewrite sin_PI4.
  assert (S2 : 1.4141 <= sqrt 2) by (rewrite <- (sqrt_Rsqr 1.4141) by lra; apply sqrt_le_1; unfold Rsqr; lra). assert (0 < sqrt 2) by lra.
  unfold Rdiv. rewrite Rmult_1_l. apply Rmult_le_reg_r with (sqrt 2); [lra|]. rewrite Rinv_l by lra.
  assert (S3 : 1.41420 <= sqrt 2) by (rewrite <- (sqrt_Rsqr 1.41420) by lra; apply sqrt_le_1; unfold Rsqr; lra). lra.
Qed.
Lemma root64 x : is_finite x = true -> 0 <= B2R x -> is_finite (sqrt64 x) = true /\ B2R (sqrt64 x) = fl (sqrt (B2R x)).
Proof.
  intros F P. destruct (Bsqrt_correct 53 1024 prec53 emax1024 mode_NE x) as (V & W & _). fold (sqrt64 x) in V, W.
  change (round radix2 (SpecFloat.fexp 53 1024) (round_mode mode_NE)) with fl in V. split; [|exact V].
  rewrite W. destruct x as [s|s| |s m e B]; try discriminate; [reflexivity|]. destruct s; [|reflexivity].
  exfalso. unfold B2R in P. cbn [cond_Zopp] in P. assert (Q : F2R (Float radix2 (Zneg m) e) < 0) by (apply F2R_lt_0; reflexivity). cbn in P, Q. lra.
Qed.

Lemma angle_ok sin64 cos64 asin64 q p : accurate_trig sin64 cos64 asin64 -> on_earth q -> on_earth p -> central_angle (place_R q) (place_R p) <= PI / 2 ->
  let a := angle_between64 sin64 cos64 asin64 q p in is_finite a = true /\ Rabs (B2R a - central_angle (place_R q) (place_R p)) <= 851 * u.
Proof.
  intros A Hq Hp Hc a. us. assert (D := PI_digits). destruct (rdist_ok _ _ _ q p A Hq Hp) as (Fr & Pr & H01 & Er). fold (hav q p) in H01, Er.
  assert (Sh := small_hav q p H01 Hc). set (z := sqrt (hav q p)) in *. destruct (root64 _ Fr Pr) as [Fs Vs]. set (r := rdist64 sin64 cos64 q p) in *.
  assert (Sr : 0 <= sqrt (B2R r) <= 0.7073) by (split; [apply sqrt_pos|apply Rabs_le_inv in Er; lra]).
  assert (E0 := eta_uu). assert (Es : Rabs (B2R (sqrt64 r) - sqrt (B2R r)) <= 0.71 * u).
  { rewrite Vs. eapply Rle_trans; [apply fl_error|]. rewrite (Rabs_pos_eq (sqrt (B2R r))) by lra. assert (u * sqrt (B2R r) <= u * 0.7073) by (apply Rmult_le_compat_l; lra). lra. }
  assert (Ps : 0 <= B2R (sqrt64 r)) by (rewrite Vs, <- fl_0; apply fl_mono; lra).
  assert (Ez : Rabs (B2R (sqrt64 r) - z) <= 273.8 * u).
  { replace (B2R (sqrt64 r) - z) with ((B2R (sqrt64 r) - sqrt (B2R r)) + (sqrt (B2R r) - z)) by ring. eapply Rle_trans; [apply Rabs_triang|]. lra. }
  assert (Ls : B2R (sqrt64 r) <= 3 / 4) by (apply Rabs_le_inv in Ez; lra).
  destruct A as (_ & _ & _ & AA). destruct (AA _ Fs ltac:(rewrite Rabs_pos_eq; lra)) as [Fa Ea]. rewrite eight_u in Ea.
  assert (La := asin_lip (B2R (sqrt64 r)) z ltac:(lra) ltac:(lra)). set (t := asin64 (sqrt64 r)) in *.
  assert (Et : Rabs (B2R t - asin z) <= 424.4 * u).
  { replace (B2R t - asin z) with ((B2R t - asin (B2R (sqrt64 r))) + (asin (B2R (sqrt64 r)) - asin z)) by ring. eapply Rle_trans; [apply Rabs_triang|]. lra. }
  rewrite angle_hav in Hc |- *. fold z in Hc |- *. assert (Pz : 0 <= asin z).
  { assert (B := asin_bound z). assert (Sz := sin_asin z ltac:(lra)). destruct (Rle_or_lt 0 (asin z)) as [Z|Z]; [exact Z|]. assert (sin (asin z) < 0) by (apply sin_lt_0_var; lra). lra. }
  assert (S2 : Rabs (2 * B2R t) <= 1.58) by (apply Rabs_le_inv in Et; apply Rabs_le; lra).
  destruct (mul64_rep (of_Z 2) t _ _ (of_Z_rep 2 eq_refl) (conj Fa eq_refl)) as [F V]; [apply (fits_bp 2); [lia|change (bp 2) with 4; lra]|]. fold t in F, V. change (of_Z 2 * t)%f64 with a in F, V.
  split; [exact F|]. rewrite V. assert (E := fl_error (2 * B2R t)). assert (u * Rabs (2 * B2R t) <= u * 1.58) by (apply Rmult_le_compat_l; lra).
  replace (fl (2 * B2R t) - 2 * asin z) with ((fl (2 * B2R t) - 2 * B2R t) + 2 * (B2R t - asin z)) by ring. eapply Rle_trans; [apply Rabs_triang|]. rewrite (Rabs_mult 2), (Rabs_pos_eq 2) by lra. lra.
Qed.

Lemma distance_ok sin64 cos64 asin64 rad_earth q p : accurate_trig sin64 cos64 asin64 -> on_earth q -> on_earth p -> central_angle (place_R q) (place_R p) <= PI / 2 ->
  is_finite rad_earth = true -> 1 <= B2R rad_earth <= 2 ^ 100 ->
  let d := distance64 sin64 cos64 asin64 rad_earth q p in is_finite d = true /\ Rabs (B2R d - B2R rad_earth * central_angle (place_R q) (place_R p)) <= 1e-13 * B2R rad_earth.
Proof.
  intros A Hq Hp Hc FR BR d. us. assert (D := PI_digits). destruct (angle_ok _ _ _ _ _ A Hq Hp Hc) as [Fa Ea]. set (a := angle_between64 sin64 cos64 asin64 q p) in *.
  set (g := central_angle (place_R q) (place_R p)) in *. assert (G0 : 0 <= g) by (unfold g, central_angle; apply acos_bound).
  assert (Sa : Rabs (B2R a) <= 1.6) by (apply Rabs_le_inv in Ea; apply Rabs_le; lra). set (w := B2R rad_earth) in *.
  assert (Sw : Rabs (B2R a * w) <= 1.6 * w) by (rewrite Rabs_mult, (Rabs_pos_eq w) by lra; apply Rmult_le_compat_r; lra).
  destruct (mul64_rep a rad_earth _ _ (conj Fa eq_refl) (conj FR eq_refl)) as [F V].
  { apply (fits_bp 101); [lia|]. fold w. change (bp 101) with (IZR (2 ^ 101)). change (2 ^ 101)%Z with (2 * 2 ^ 100)%Z. rewrite mult_IZR. replace (IZR (2 ^ 100)) with (2 ^ 100) by (rewrite pow_IZR; reflexivity). lra. }
  change (a * rad_earth)%f64 with d in F, V. fold w in V. split; [exact F|]. rewrite V. assert (E := fl_error (B2R a * w)). assert (E0 := eta_uu).
  assert (u * Rabs (B2R a * w) <= 1.6 * (u * w)) by (apply Rle_trans with (u * (1.6 * w)); [apply Rmult_le_compat_l; lra|lra]).
  assert (Uw : u * 1 <= u * w) by (apply Rmult_le_compat_l; lra).
  replace (fl (B2R a * w) - w * g) with ((fl (B2R a * w) - B2R a * w) + (B2R a - g) * w) by ring. eapply Rle_trans; [apply Rabs_triang|]. rewrite (Rabs_mult (B2R a - g)), (Rabs_pos_eq w) by lra.
  assert (Rabs (B2R a - g) * w <= 851 * u * w) by (apply Rmult_le_compat_r; lra).
  assert (853 * (u * w) <= 1e-13 * w). { rewrite <- Rmult_assoc. apply Rmult_le_compat_r; [lra|]. rewrite U2. lra. }
  lra.
Qed.

Lemma closest_ok sin64 cos64 asin64 q pts j pj k pk : accurate_trig sin64 cos64 asin64 -> on_earth q -> Forall on_earth pts -> closest64 sin64 cos64 q pts j ->
  nth_error pts j = Some pj -> nth_error pts k = Some pk -> central_angle (place_R q) (place_R pk) <= PI / 2 ->
  central_angle (place_R q) (place_R pj) <= central_angle (place_R q) (place_R pk) + 2e-13.
Proof.
  intros A Hq Hpts (p & Ej & H) Ej' Ek Hc. rewrite Ej' in Ej. injection Ej as <-. specialize (H k pk Ek). us.
  rewrite Forall_forall in Hpts. assert (Hj := Hpts pj (nth_error_In _ _ Ej')). assert (Hk := Hpts pk (nth_error_In _ _ Ek)).
  destruct (rdist_ok _ _ _ q pj A Hq Hj) as (Fj & Pj & Hj1 & Erj). destruct (rdist_ok _ _ _ q pk A Hq Hk) as (Fk & Pk & Hk1 & Erk). fold (hav q pj) in Hj1, Erj. fold (hav q pk) in Hk1, Erk.
  rewrite Bleb_correct in H by assumption. assert (L : B2R (rdist64 sin64 cos64 q pj) <= B2R (rdist64 sin64 cos64 q pk)) by (destruct (Rle_bool_spec (B2R (rdist64 sin64 cos64 q pj)) (B2R (rdist64 sin64 cos64 q pk))); [assumption|discriminate]).
  assert (S := small_hav q pk Hk1 Hc). rewrite !angle_hav. apply sqrt_le_1 in L; [|exact Pj|exact Pk]. apply Rabs_le_inv in Erj, Erk. assert (Zj := sqrt_pos (hav q pj)).
  set (x := sqrt (hav q pj)) in *. set (y := sqrt (hav q pk)) in *. destruct (Rle_or_lt x y) as [Z|Z].
  - enough (asin x <= asin y) by lra. assert (Bx := asin_bound x). assert (By := asin_bound y). assert (Sx := sin_asin x ltac:(lra)). assert (Sy := sin_asin y ltac:(lra)). assert (D := PI_digits).
    apply Rnot_lt_le. intros C. assert (sin (asin y) < sin (asin x)) by (apply sin_increasing_1; lra). lra.
  - assert (Lp := asin_lip x y ltac:(lra) ltac:(lra)). rewrite (Rabs_pos_eq (x - y)) in Lp by lra. apply Rabs_le_inv in Lp. assert (x - y <= 546 * u) by lra. assert (1660 * u <= 2e-13) by (rewrite U2; lra). lra.
Qed.
