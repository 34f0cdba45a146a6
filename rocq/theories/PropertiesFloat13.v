(** * PropertiesFloat13: cell areas in binary64 (C161) *)
From Coq Require Import Reals Lra Lia List ZArith QArith Bool String.
From Flocq Require Import Core IEEE754.BinarySingleNaN.
From Verif Require Import Num NumFacts Py Arr ArrFacts Util SpecUtil ProofsUtil PropertiesUtil SpecFloat64 Ieee IeeeWave IeeeSphere SpecIeeeSphere
  ProofsFloat ProofsIeee ProofsFloat6 ProofsFloat10 ProofsFloat19 ProofsFloat22 ProofsFloat23 ProofsPi PropertiesFloat12.
Import ListNotations.
Local Open Scope R_scope.

(** The binary64 centres [c] of a coordinate of length [n]: finite, with cells (of the width given by the first two) inside [-M, M]. *)
Definition step (c : nat -> f64) : R := B2R (c 1%nat) - B2R (c 0%nat).
Definition centres64 (c : nat -> f64) (n : nat) (M : R) : Prop :=
  (2 <= n)%nat /\ forall k, (k < n)%nat -> is_finite (c k) = true /\ -M <= B2R (c k) - step c / 2 <= M /\ -M <= B2R (c k) + step c / 2 <= M.
Definition coordinate (c : nat -> f64) (d : string) (n : nat) (a : arr) : Prop :=
  adims a = [(d, n)] /\ forall e, at_ a e = Fin (B2R (c (e d))).
(** The area of the zone of one radian of longitude between the edges of a row, on the unit sphere. *)
Definition zone (c : nat -> f64) (j : nat) : R := Rabs (sin ((B2R (c j) - step c / 2) * (PI / 180)) - sin ((B2R (c j) + step c / 2) * (PI / 180))).

Lemma cell_value lat lon dy dx n m ay ax r : centres64 lat n 90 -> centres64 lon m 720 -> coordinate lat dy n ay -> coordinate lon dx m ax ->
  exists area, standard_grid_cell_area ay ax (Fin r) = Ok area /\ adims area = [(dy, n); (dx, m)] /\
    forall e, at_ area e = Fin (PI / 180 * r * r * zone lat (e dy) * Rabs (step lon)).
Proof.
  intros [Hn _] [Hm _] [Dl Vl] [Do Vo]. unfold standard_grid_cell_area, vget. rewrite Dl, Do.
  assert (L1 : Nat.ltb 1 n = true) by (apply Nat.ltb_lt; lia). assert (L0 : Nat.ltb 0 n = true) by (apply Nat.ltb_lt; lia).
  assert (M1 : Nat.ltb 1 m = true) by (apply Nat.ltb_lt; lia). assert (M0 : Nat.ltb 0 m = true) by (apply Nat.ltb_lt; lia).
  rewrite L1, L0, M1, M0. cbn [bind]. rewrite !Vl, !Vo, !upd_same. eexists. split; [reflexivity|]. split; [reflexivity|]. intros e. cbn [at_]. rewrite Vl, Vo.
  repeat first [rewrite fsub_Fin|rewrite fadd_Fin|rewrite fmul_Fin|rewrite fabs_Fin|rewrite fdiv_Fin by lra|progress cbn [fsin]].
  f_equal. unfold zone, step.
  match goal with |- _ * Rabs ?Z = _ * Rabs ?Z' => replace Z with (- Z') by field end. rewrite Rabs_Ropp. reflexivity.
Qed.
Lemma cell_bound sin64 lat lon r n m j i : accurate_sin sin64 -> centres64 lat n 90 -> centres64 lon m 720 -> Rabs (step lon) <= 360 ->
  is_finite r = true -> 1 <= B2R r <= 1e9 -> (j < n)%nat -> (i < m)%nat ->
  let K := PI / 180 * B2R r * B2R r in
  is_finite (area64 sin64 lat lon r j i) = true /\
  Rabs (B2R (area64 sin64 lat lon r j i) - K * zone lat j * Rabs (step lon)) <= K * (6e-15 * Rabs (step lon) + 3e-13 * zone lat j + 1e-26).
Proof.
  intros A [Hn Hl] [Hm Ho] W F B Hj Hi. cbv zeta. destruct (Hl j Hj) as (F1 & Y0 & Y1). destruct (Ho i Hi) as (F2 & X0 & X1).
  apply area64_ok; try assumption.
  - split; [apply (Hl 0%nat); lia|]. split; [apply (Hl 1%nat); lia|exact F1].
  - split; [apply (Ho 0%nat); lia|]. split; [apply (Ho 1%nat); lia|exact F2].
Qed.

(** C161.  With a sine accurate to four units in the last place, every computed cell is finite and within the stated
    distance of the exact area of the same centres: two rounding errors of the sines per row, a few of the longitudes per column. *)
Theorem C161_cell : forall sin64 lat lon r n m dy dx ay ax, accurate_sin sin64 -> centres64 lat n 90 -> centres64 lon m 720 -> Rabs (step lon) <= 360 ->
  is_finite r = true -> 1 <= B2R r <= 1e9 -> coordinate lat dy n ay -> coordinate lon dx m ax ->
  exists area, standard_grid_cell_area ay ax (Fin (B2R r)) = Ok area /\
  forall e, (e dy < n)%nat -> (e dx < m)%nat -> exists x, at_ area e = Fin x /\
    is_finite (area64 sin64 lat lon r (e dy) (e dx)) = true /\
    Rabs (B2R (area64 sin64 lat lon r (e dy) (e dx)) - x) <= PI / 180 * (B2R r)² * (6e-15 * Rabs (step lon) + 3e-13 * zone lat (e dy) + 1e-26).
Proof.
  intros sin64 lat lon r n m dy dx ay ax A Hl Ho W F B Cl Co. destruct (cell_value lat lon dy dx n m ay ax (B2R r) Hl Ho Cl Co) as (area & E & _ & V).
  exists area. split; [exact E|]. intros e Hj Hi. eexists. split; [apply V|].
  replace (PI / 180 * (B2R r)²) with (PI / 180 * B2R r * B2R r) by (unfold Rsqr; ring). exact (cell_bound sin64 lat lon r n m (e dy) (e dx) A Hl Ho W F B Hj Hi).
Qed.
Print Assumptions C161_cell.

(** Rows and columns of at least a thousandth of a degree: the relative error of every cell (those at the poles are the worst), and so positive areas. *)
Lemma zone_low c n j : centres64 c n 90 -> (j < n)%nat -> (PI / 180 * step c)² / 8 <= zone c j.
Proof.
  intros [_ H] Hj. destruct (H j Hj) as (_ & Y0 & Y1). unfold zone. set (y := B2R (c j)) in *. set (s := step c) in *. assert (P := PI_digits).
  rewrite form4. set (a := (y - s / 2) * (PI / 180)). set (b := (y + s / 2) * (PI / 180)).
  assert (Ea : (a + b) / 2 = y * (PI / 180)) by (unfold a, b; lra). assert (Eb : (a - b) / 2 = - (PI / 180 * s / 2)) by (unfold a, b; lra). rewrite Ea, Eb.
  rewrite sin_neg, !Rabs_mult, Rabs_Ropp, (Rabs_pos_eq 2) by lra. set (d := PI / 180 * s / 2).
  assert (Q : Rabs y + Rabs s / 2 <= 90). { unfold Rabs. destruct (Rcase_abs y), (Rcase_abs s); lra. }
  assert (D : Rabs d = PI / 180 * Rabs s / 2). { unfold d, Rdiv. rewrite !Rabs_mult, (Rabs_pos_eq PI), (Rabs_pos_eq (/ 180)), (Rabs_pos_eq (/ 2)) by lra. reflexivity. }
  assert (Z := Rabs_pos s). assert (Zy := Rabs_pos y). assert (D2 : 0 <= Rabs d <= 1.58) by (rewrite D; split; nra).
  assert (S1 : Rabs d / 2 <= Rabs (sin d)) by (apply sin_abs; lra).
  assert (C1 : Rabs d / 2 <= Rabs (cos (y * (PI / 180)))).
  { assert (E : cos (y * (PI / 180)) = sin (PI / 2 - Rabs y * (PI / 180))).
    { rewrite sin_shift. unfold Rabs. destruct (Rcase_abs y); [|reflexivity]. rewrite <- cos_neg. f_equal. ring. }
    rewrite E. assert (T : Rabs d <= PI / 2 - Rabs y * (PI / 180)) by (rewrite D; nra).
    assert (T0 : 0 <= Rabs y * (PI / 180)) by (apply Rmult_le_pos; lra).
    assert (T1 : 0 <= PI / 2 - Rabs y * (PI / 180) <= 17 / 10) by lra. assert (T2 := sin_half _ T1). rewrite (Rabs_pos_eq (sin (PI / 2 - Rabs y * (PI / 180)))) by lra. lra. }
  assert (G : Rabs d / 2 * (Rabs d / 2) <= Rabs (cos (y * (PI / 180))) * Rabs (sin d)) by (apply Rmult_le_compat; lra).
  assert (G2 : (PI / 180 * s)² = 4 * (Rabs d * Rabs d)). { rewrite <- Rabs_mult, Rabs_pos_eq by apply Rle_0_sqr. unfold Rsqr, d. lra. }
  rewrite G2. lra.
Qed.
Lemma div_upper a q b : 0 < q -> a <= b * q -> a / q <= b.
Proof. intros P H. apply Rmult_le_reg_r with q; [exact P|]. replace (a / q * q) with a by (field; lra). exact H. Qed.
Lemma div_lower a q b : 0 < q -> b * q <= a -> b <= a / q.
Proof. intros P H. apply Rmult_le_reg_r with q; [exact P|]. replace (a / q * q) with a by (field; lra). exact H. Qed.
Theorem C161_relative : forall sin64 lat lon r n m j i, accurate_sin sin64 -> centres64 lat n 90 -> centres64 lon m 720 -> Rabs (step lon) <= 360 ->
  is_finite r = true -> 1 <= B2R r <= 1e9 -> (j < n)%nat -> (i < m)%nat -> 1e-3 <= Rabs (step lat) -> 1e-3 <= Rabs (step lon) ->
  let x := PI / 180 * (B2R r)² * zone lat j * Rabs (step lon) in
  Rabs (B2R (area64 sin64 lat lon r j i) - x) <= (1.6e-10 / (step lat)² + 3e-13 / Rabs (step lon)) * x /\ 0 < B2R (area64 sin64 lat lon r j i).
Proof.
  intros sin64 lat lon r n m j i A Hl Ho W F B Hj Hi S1 S2. cbv zeta. destruct (cell_bound sin64 lat lon r n m j i A Hl Ho W F B Hj Hi) as [_ C].
  replace (PI / 180 * (B2R r)²) with (PI / 180 * B2R r * B2R r) by (unfold Rsqr; ring). set (K := PI / 180 * B2R r * B2R r) in *.
  assert (P := PI_digits). assert (K0 : 0 < K) by (unfold K; apply Rmult_lt_0_compat; [apply Rmult_lt_0_compat|]; lra). assert (Z := zone_low lat n j Hl Hj).
  set (z := zone lat j) in *. set (X := Rabs (step lon)) in *. rewrite Rsqr_mult in Z. assert (Q0 : (step lat)² = Rabs (step lat) * Rabs (step lat)) by (rewrite <- Rabs_mult, Rabs_pos_eq by apply Rle_0_sqr; reflexivity).
  assert (Q1 : 1e-6 <= (step lat)²) by (rewrite Q0; apply Rle_trans with (1e-3 * 1e-3); [lra|apply Rmult_le_compat; lra]). set (q := (step lat)²) in *. clear Q0.
  assert (P2 : 0.017453 * 0.017453 <= (PI / 180)²) by (unfold Rsqr; apply Rmult_le_compat; lra). assert (P3 : 0.017453 * 0.017453 * q <= (PI / 180)² * q) by (apply Rmult_le_compat_r; lra). assert (Z2 : 3.8e-5 * q <= z) by lra.
  set (a := B2R (area64 sin64 lat lon r j i)) in *.
  assert (G : 6e-15 * X + 3e-13 * z + 1e-26 <= (1.6e-10 / q + 3e-13 / X) * (z * X)).
  { replace ((1.6e-10 / q + 3e-13 / X) * (z * X)) with (1.6e-10 * (z / q) * X + 3e-13 * z) by (field; lra).
    assert (Y : 3.8e-5 <= z / q). { apply div_lower; lra. }
    assert (1.6e-10 * 3.8e-5 * X <= 1.6e-10 * (z / q) * X) by (apply Rmult_le_compat_r; lra). lra. }
  assert (E : Rabs (a - K * z * X) <= (1.6e-10 / q + 3e-13 / X) * (K * z * X)).
  { eapply Rle_trans; [exact C|]. replace ((1.6e-10 / q + 3e-13 / X) * (K * z * X)) with (K * ((1.6e-10 / q + 3e-13 / X) * (z * X))) by ring. apply Rmult_le_compat_l; [lra|exact G]. }
  split; [exact E|]. assert (z0 : 0 < z) by nra. assert (X0 : 0 < K * z * X) by (apply Rmult_lt_0_compat; [apply Rmult_lt_0_compat|]; lra).
  assert (R1 : 1.6e-10 / q <= 1.6e-4). { apply div_upper; lra. }
  assert (R2 : 3e-13 / X <= 1e-4). { apply div_upper; lra. }
  assert (R3 : (1.6e-10 / q + 3e-13 / X) * (K * z * X) <= 0.5 * (K * z * X)) by (apply Rmult_le_compat_r; lra). apply Rabs_le_inv in E. lra.
Qed.
Print Assumptions C161_relative.

(** The cells of a uniform global grid add up to the sphere, up to a relative error that grows with the number of rows and columns. *)
Theorem C161_sphere : forall sin64 lat lon r n m a w b v, accurate_sin sin64 ->
  (2 <= n)%nat -> (2 <= m)%nat ->
  (forall k, (k < n)%nat -> is_finite (lat k) = true /\ B2R (lat k) = centres a w k) ->
  (forall k, (k < m)%nat -> is_finite (lon k) = true /\ B2R (lon k) = centres b v k) ->
  (a = -90 /\ INR n * w = 180 \/ a = 90 /\ INR n * w = -180) ->
  (INR m * v = 360 \/ INR m * v = -360) -> -360 <= b <= 360 ->
  is_finite r = true -> 1 <= B2R r <= 1e9 ->
  Rabs (Rsum n (fun j => Rsum m (fun i => B2R (area64 sin64 lat lon r j i))) - 4 * PI * (B2R r)²) <=
    (3e-15 * INR n + 1e-15 * INR m + 1e-27 * (INR n * INR m)) * (4 * PI * (B2R r)²).
Proof.
  intros sin64 lat lon r n m a w b v A Hn Hm Vl Vo Ha Hb Bb F B. assert (P := PI_digits).
  assert (N : 2 <= INR n) by (apply (le_INR 2 n), Hn). assert (M : 2 <= INR m) by (apply (le_INR 2 m), Hm).
  assert (Sl : step lat = w). { unfold step. rewrite (proj2 (Vl 1%nat ltac:(lia))), (proj2 (Vl 0%nat ltac:(lia))). unfold centres. change (INR 1) with 1. change (INR 0) with 0. lra. }
  assert (So : step lon = v). { unfold step. rewrite (proj2 (Vo 1%nat ltac:(lia))), (proj2 (Vo 0%nat ltac:(lia))). unfold centres. change (INR 1) with 1. change (INR 0) with 0. lra. }
  assert (Av : INR m * Rabs v = 360). { rewrite <- (Rabs_pos_eq (INR m)) at 1 by lra. rewrite <- Rabs_mult. destruct Hb as [-> | ->]; [rewrite Rabs_pos_eq|rewrite Rabs_left]; lra. }
  assert (Wv : Rabs v <= 180) by (assert (Z := Rabs_pos v); nra).
  assert (Cl : centres64 lat n 90).
  { split; [exact Hn|]. intros k Hk. destruct (Vl k Hk) as [Fk Ek]. split; [exact Fk|]. rewrite Ek, Sl.
    assert (E0 := edge_range n m a w Hn Hm ltac:(lra) ltac:(lra) k ltac:(lia)). assert (E1 := edge_range n m a w Hn Hm ltac:(lra) ltac:(lra) (S k) ltac:(lia)).
    unfold edge in E0, E1. rewrite S_INR in E1. unfold centres. lra. }
  assert (Co : centres64 lon m 720).
  { split; [exact Hm|]. intros k Hk. destruct (Vo k Hk) as [Fk Ek]. split; [exact Fk|]. rewrite Ek, So. unfold centres.
    assert (K0 := pos_INR k). assert (K1 : INR k + 1 <= INR m) by (rewrite <- S_INR; apply le_INR; lia).
    assert (D : - 360 <= INR k * v <= 360 /\ - 360 <= (INR k + 1) * v <= 360).
    { apply Rabs_le_inv in Wv. assert (Z : forall q, 0 <= q <= INR m -> - 360 <= q * v <= 360); [|split; apply Z; lra].
      intros q Hq. apply Rabs_le_inv. rewrite Rabs_mult, (Rabs_pos_eq q) by lra. rewrite <- Av. apply Rmult_le_compat_r; [apply Rabs_pos|lra]. }
    lra. }
  assert (ZS : Rsum n (zone lat) = 2).
  { rewrite (Rsum_ext n _ (fun k => sgn w * (sin (rad (edge a w (S k))) - sin (rad (edge a w k))))).
    - rewrite Rsum_scal, (Rsum_telescope n (fun k => sin (rad (edge a w k)))). unfold edge, rad, sgn. change (INR 0) with 0.
      destruct Ha as [[-> E] | [-> E]].
      + destruct (Rle_dec 0 w) as [Q|Q]; [|nra]. rewrite E. replace ((-90 + 180) * (PI / 180)) with (PI / 2) by field. replace ((-90 + 0 * w) * (PI / 180)) with (- (PI / 2)) by field.
        rewrite sin_neg, sin_PI2. lra.
      + destruct (Rle_dec 0 w) as [Q|Q]; [nra|]. rewrite E. replace ((90 + -180) * (PI / 180)) with (- (PI / 2)) by field. replace ((90 + 0 * w) * (PI / 180)) with (PI / 2) by field.
        rewrite sin_neg, sin_PI2. lra.
    - intros k Hk. rewrite <- (step_abs n m a w Hn Hm ltac:(lra) ltac:(lra) k Hk). unfold zone. rewrite Sl, (proj2 (Vl k Hk)). unfold rad, edge, centres. rewrite S_INR.
      f_equal. f_equal; f_equal; field. }
  set (K := PI / 180 * B2R r * B2R r). assert (K0 : 0 < K) by (unfold K; apply Rmult_lt_0_compat; [apply Rmult_lt_0_compat|]; lra).
  replace (4 * PI * (B2R r)²) with (720 * K) by (unfold K, Rsqr; field).
  assert (T : Rsum n (fun j => Rsum m (fun i => K * zone lat j * Rabs v)) = 720 * K).
  { rewrite (Rsum_ext n _ (fun j => 360 * K * zone lat j)). - rewrite Rsum_scal, ZS. lra. - intros j _. rewrite Rsum_const. rewrite <- Av. ring. }
  rewrite <- T at 1. rewrite <- Rsum_minus. rewrite (Rsum_ext n _ (fun j => Rsum m (fun i => B2R (area64 sin64 lat lon r j i) - K * zone lat j * Rabs v))) by (intros; rewrite Rsum_minus; reflexivity).
  eapply Rle_trans; [apply Rsum_abs|]. eapply Rle_trans.
  - apply Rsum_le. intros j Hj. eapply Rle_trans; [apply Rsum_abs|]. apply (Rsum_le m _ (fun i => K * (6e-15 * Rabs v + 3e-13 * zone lat j + 1e-26))).
    intros i Hi. assert (C := proj2 (cell_bound sin64 lat lon r n m j i A Cl Co ltac:(rewrite So; lra) F B Hj Hi)). rewrite So in C. exact C.
  - rewrite (Rsum_ext n _ (fun j => K * (6e-15 * 360 + 1e-26 * INR m) + K * 3e-13 * INR m * zone lat j)).
    + rewrite Rsum_plus, Rsum_const, Rsum_scal, ZS. assert (0 <= INR n * INR m) by nra. nra.
    + intros j _. rewrite Rsum_const, <- Av. lra.
Qed.
Print Assumptions C161_sphere.

(** A grid of one degree on a sphere of radius 6371 km. *)
Definition half64 (z : Z) : f64 := binary_normalize 53 1024 prec53 emax1024 mode_NE z (-1) false.
Lemma half64_ok z : (Z.abs z < 2 ^ 53)%Z -> is_finite (half64 z) = true /\ B2R (half64 z) = IZR z / 2.
Proof.
  intros K. assert (N := binary_normalize_correct 53 1024 prec53 emax1024 mode_NE z (-1) false).
  assert (V : F2R (Float radix2 z (-1)) = IZR z / 2) by reflexivity.
  assert (G : generic_format radix2 (FLT_exp (3 - 1024 - 53) 53) (F2R (Float radix2 z (-1)))).
  { apply generic_format_FLT. exists (Float radix2 z (-1)); [reflexivity| |cbn; lia]. cbn [Fnum]. exact K. }
  cbv zeta in N. change (SpecFloat.fexp 53 1024) with (FLT_exp (3 - 1024 - 53) 53) in N.
  rewrite (round_generic radix2 (FLT_exp (3 - 1024 - 53) 53) _ _ G) in N. rewrite Rlt_bool_true in N.
  - destruct N as (N1 & N2 & _). split; [exact N2|]. unfold half64. rewrite N1. exact V.
  - rewrite V. apply Rle_lt_trans with (bp 53); [|apply bpow_lt; lia]. change (bp 53) with (IZR (2 ^ 53)). unfold Rdiv. rewrite Rabs_mult, (Rabs_pos_eq (/ 2)), <- abs_IZR by lra.
    assert (IZR (Z.abs z) <= IZR (2 ^ 53)) by (apply IZR_le; lia). assert (0 <= IZR (Z.abs z)) by (apply IZR_le; lia). lra.
Qed.
Example C161_case : let lat := fun k => half64 (2 * Z.of_nat k - 179) in let lon := fun k => half64 (2 * Z.of_nat k + 1) in let r := of_Z 6371000 in
  Rabs (Rsum 180 (fun j => Rsum 360 (fun i => B2R (area64 sin_nearest lat lon r j i))) - 4 * PI * 6371000²) <= 1e-12 * (4 * PI * 6371000²) /\
  centres64 lat 180 90 /\ centres64 lon 360 720 /\ step lat = 1 /\ step lon = 1 /\
  (forall j i, (j < 180)%nat -> (i < 360)%nat -> 0 < B2R (area64 sin_nearest lat lon r j i)).
Proof.
  cbv zeta. destruct (of_Z_rep 6371000 eq_refl) as [Fr Vr].
  assert (Vl : forall k, (k < 180)%nat -> is_finite (half64 (2 * Z.of_nat k - 179)) = true /\ B2R (half64 (2 * Z.of_nat k - 179)) = centres (-90) 1 k).
  { intros k Hk. destruct (half64_ok (2 * Z.of_nat k - 179)) as [F V]; [lia|]. split; [exact F|]. rewrite V, minus_IZR, mult_IZR, <- INR_IZR_INZ. unfold centres. lra. }
  assert (Vo : forall k, (k < 360)%nat -> is_finite (half64 (2 * Z.of_nat k + 1)) = true /\ B2R (half64 (2 * Z.of_nat k + 1)) = centres 0 1 k).
  { intros k Hk. destruct (half64_ok (2 * Z.of_nat k + 1)) as [F V]; [lia|]. split; [exact F|]. rewrite V, plus_IZR, mult_IZR, <- INR_IZR_INZ. unfold centres. lra. }
  assert (I180 : INR 180 = 180) by (rewrite INR_IZR_INZ; reflexivity). assert (I360 : INR 360 = 360) by (rewrite INR_IZR_INZ; reflexivity).
  assert (Sl : step (fun k => half64 (2 * Z.of_nat k - 179)) = 1). { unfold step. rewrite (proj2 (Vl 1%nat ltac:(lia))), (proj2 (Vl 0%nat ltac:(lia))). unfold centres. change (INR 1) with 1. change (INR 0) with 0. lra. }
  assert (So : step (fun k => half64 (2 * Z.of_nat k + 1)) = 1). { unfold step. rewrite (proj2 (Vo 1%nat ltac:(lia))), (proj2 (Vo 0%nat ltac:(lia))). unfold centres. change (INR 1) with 1. change (INR 0) with 0. lra. }
  assert (Cl : centres64 (fun k => half64 (2 * Z.of_nat k - 179)) 180 90).
  { split; [lia|]. intros k Hk. destruct (Vl k Hk) as [F V]. split; [exact F|]. rewrite V, Sl. unfold centres. assert (K0 := pos_INR k). assert (K1 : INR (S k) <= INR 180) by (apply le_INR; lia). rewrite S_INR, I180 in K1. lra. }
  assert (Co : centres64 (fun k => half64 (2 * Z.of_nat k + 1)) 360 720).
  { split; [lia|]. intros k Hk. destruct (Vo k Hk) as [F V]. split; [exact F|]. rewrite V, So. unfold centres. assert (K0 := pos_INR k). assert (K1 : INR (S k) <= INR 360) by (apply le_INR; lia). rewrite S_INR, I360 in K1. lra. }
  split; [|split; [exact Cl|split; [exact Co|split; [exact Sl|split; [exact So|]]]]].
  - assert (H := C161_sphere sin_nearest (fun k => half64 (2 * Z.of_nat k - 179)) (fun k => half64 (2 * Z.of_nat k + 1)) (of_Z 6371000) 180 360 (-90) 1 0 1
      sin_nearest_accurate ltac:(lia) ltac:(lia) Vl Vo ltac:(rewrite I180; lra) ltac:(rewrite I360; lra) ltac:(lra) Fr ltac:(rewrite Vr; lra)).
    rewrite Vr, I180, I360 in H. eapply Rle_trans; [exact H|]. apply Rmult_le_compat_r; [|lra].
    assert (P := PI_digits). apply Rmult_le_pos; [lra|apply Rle_0_sqr].
  - intros j i Hj Hi. apply (C161_relative sin_nearest _ _ (of_Z 6371000) 180 360 j i sin_nearest_accurate Cl Co ltac:(rewrite So, Rabs_R1; lra) Fr ltac:(rewrite Vr; lra) Hj Hi);
      [rewrite Sl|rewrite So]; rewrite Rabs_R1; lra.
Qed.
