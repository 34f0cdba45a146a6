(** * ProofsFloat22: relative errors; the Coriolis parameter in binary64 *)
From Coq Require Import Reals Lra Lia List ZArith Bool.
From Flocq Require Import Core IEEE754.BinarySingleNaN Relative.
From Verif Require Import SpecFloat64 Ieee IeeeWave IeeeSphere SpecIeeeSphere ProofsFloat ProofsIeee ProofsFloat4 ProofsFloat6 ProofsFloat8 ProofsFloat10 ProofsFloat19 ProofsPi.
Local Open Scope R_scope.
Notation bp := (bpow radix2).

(** [y] differs from [x] by at most [e |x|]. *)
Definition rel (e x y : R) : Prop := Rabs (y - x) <= e * Rabs x.
Lemma rel_weaken e f x y : e <= f -> rel e x y -> rel f x y.
Proof. unfold rel. intros H R. assert (P := Rabs_pos x). nra. Qed.
Lemma rel_size e x y : rel e x y -> Rabs y <= (1 + e) * Rabs x /\ (1 - e) * Rabs x <= Rabs y.
Proof.
  unfold rel. intros R. assert (A := Rabs_triang (y - x) x). assert (B := Rabs_triang (x - y) y).
  replace (y - x + x) with y in A by ring. replace (x - y + y) with x in B by ring. rewrite (Rabs_minus_sym x y) in B. split; lra.
Qed.
Lemma rel_trans e f x y z : 0 <= f -> rel e x y -> rel f y z -> rel (e + f + e * f) x z.
Proof.
  unfold rel. intros F R1 R2. destruct (rel_size _ _ _ R1) as [S _]. replace (z - x) with ((z - y) + (y - x)) by ring.
  eapply Rle_trans; [apply Rabs_triang|]. assert (f * Rabs y <= f * ((1 + e) * Rabs x)) by (apply Rmult_le_compat_l; assumption). lra.
Qed.
Lemma rel_mul e f x y x' y' : 0 <= e -> 0 <= f -> rel e x x' -> rel f y y' -> rel (e + f + e * f) (x * y) (x' * y').
Proof.
  unfold rel. intros E F R1 R2. destruct (rel_size _ _ _ R1) as [S _].
  replace (x' * y' - x * y) with (x' * (y' - y) + (x' - x) * y) by ring. eapply Rle_trans; [apply Rabs_triang|]. rewrite !Rabs_mult.
  assert (P1 := Rabs_pos x). assert (P2 := Rabs_pos y). assert (P3 := Rabs_pos x'). assert (P4 := Rabs_pos (y' - y)). assert (P5 := Rabs_pos (x' - x)).
  assert (A : Rabs x' * Rabs (y' - y) <= ((1 + e) * Rabs x) * (f * Rabs y)) by (apply Rmult_le_compat; assumption).
  assert (B : Rabs (x' - x) * Rabs y <= e * Rabs x * Rabs y) by (apply Rmult_le_compat_r; assumption). lra.
Qed.
Lemma rel_scale e c x y : rel e x y -> rel e (x * c) (y * c).
Proof. unfold rel. intros H. replace (y * c - x * c) with ((y - x) * c) by ring. rewrite !Rabs_mult, <- Rmult_assoc. apply Rmult_le_compat_r; [apply Rabs_pos|exact H]. Qed.
Lemma rel_fl x : x = 0 \/ bp (-1022) <= Rabs x -> rel u x (fl x).
Proof.
  intros [-> |H]; [rewrite ProofsFloat.fl_0; unfold rel; rewrite Rminus_0_r, Rabs_R0; lra|].
  assert (E := relative_error_N_FLT radix2 (-1074) 53 eq_refl (fun x => negb (Z.even x)) x H).
  unfold rel. eapply Rle_trans; [exact E|]. right. f_equal.
Qed.
Lemma fits_bp e r : (-1074 <= e < 1024)%Z -> Rabs r <= bp e -> fits64 (fl r).
Proof.
  intros E H. unfold fits64. apply Rabs_def2b in H || idtac. apply Rabs_le_inv in H.
  assert (A := fl_up e r ltac:(lia) ltac:(lra)). assert (B := fl_up e (- r) ltac:(lia) ltac:(lra)). rewrite fl_opp in B.
  eapply Rle_lt_trans; [apply Rabs_le; split; [|exact A]; lra|]. apply bpow_lt. lia.
Qed.

(** The sine between -pi/2 and pi/2. *)
Lemma sin_half x : 0 <= x <= 17 / 10 -> x / 2 <= sin x <= x.
Proof.
  intros H. assert (P : x <= PI) by (assert (D := PI_digits); lra). split.
  - destruct (sin_bound x 0 (proj1 H) P) as [A _]. unfold sin_approx, sin_term in A. cbn in A. eapply Rle_trans; [|exact A].
    assert (x * x <= 2.89) by nra. nra.
  - destruct (Rle_lt_or_eq_dec 0 x (proj1 H)) as [H0|<-]; [left; apply sin_lt_x, H0|rewrite sin_0; lra].
Qed.
Lemma sin_abs x : Rabs x <= 17 / 10 -> Rabs x / 2 <= Rabs (sin x) <= Rabs x.
Proof.
  intros H. destruct (Rle_or_lt 0 x) as [P|P].
  - rewrite (Rabs_pos_eq x P) in *. assert (S := sin_half x ltac:(lra)). rewrite Rabs_pos_eq by lra. exact S.
  - rewrite (Rabs_left x P) in *. assert (S := sin_half (- x) ltac:(lra)). rewrite sin_neg in S. rewrite Rabs_left1 by lra. exact S.
Qed.
Lemma sin_lip x y : Rabs (sin y - sin x) <= Rabs (y - x).
Proof.
  replace (sin y - sin x) with (2 * cos ((y + x) / 2) * sin ((y - x) / 2)).
  - rewrite !Rabs_mult, (Rabs_pos_eq 2) by lra.
    assert (C : Rabs (cos ((y + x) / 2)) <= 1) by (apply Rabs_le; apply COS_bound).
    assert (S : Rabs (sin ((y - x) / 2)) <= Rabs ((y - x) / 2)).
    { destruct (Rle_or_lt (Rabs ((y - x) / 2)) (17 / 10)) as [Q|Q]; [apply sin_abs, Q|].
      apply Rle_trans with 1; [apply Rabs_le, SIN_bound|lra]. }
    replace (Rabs (y - x)) with (2 * Rabs ((y - x) / 2)).
    + assert (P1 := Rabs_pos (cos ((y + x) / 2))). assert (P2 := Rabs_pos (sin ((y - x) / 2))). nra.
    + rewrite <- (Rabs_pos_eq 2) at 1 by lra. rewrite <- Rabs_mult. f_equal. lra.
  - rewrite form4. replace ((y - x) / 2 * 2) with (y - x) by lra. lra.
Qed.
Lemma sin_rel e x y : 0 <= e -> Rabs x <= 17 / 10 -> rel e x y -> rel (2 * e) (sin x) (sin y).
Proof.
  unfold rel. intros E H R. assert (S := proj1 (sin_abs x H)). eapply Rle_trans; [apply sin_lip|]. eapply Rle_trans; [exact R|]. nra.
Qed.

(** The radian measure of a latitude and the constants of the Coriolis parameter. *)
Lemma u_small : 0 < u /\ u <= 1.2e-16 /\ u = / 2 ^ 53.
Proof.
  split; [exact u_pos|]. rewrite u_val. split; [lra|]. simpl. lra.
Qed.
Ltac us := destruct u_small as (U0 & U1 & U2).
Lemma bp_pos e : 0 < bp e. Proof. apply bpow_gt_0. Qed.
(** Zero, or of a size at least [2^e]. *)
Definition big (e : Z) (x : R) : Prop := x = 0 \/ bp e <= Rabs x.
Lemma big_rel e d x y : d <= / 2 -> rel d x y -> big e x -> big (e - 1) y.
Proof.
  unfold big. intros D R [-> |H].
  - left. unfold rel in R. rewrite Rabs_R0, Rmult_0_r, Rminus_0_r in R. assert (P := Rabs_pos y). destruct (Req_dec y 0) as [Z|Z]; [exact Z|].
    assert (Q := Rabs_pos_lt y Z). lra.
  - right. destruct (rel_size _ _ _ R) as [_ S]. assert (P := Rabs_pos x). unfold Zminus. rewrite bpow_plus. change (bp (- (1))) with (/ 2). nra.
Qed.
Lemma big_mul e f x c : bp f <= Rabs c -> big e x -> big (e + f) (x * c).
Proof.
  unfold big. intros C [-> |H]; [left; ring|]. right. rewrite Rabs_mult, bpow_plus. assert (P := bp_pos e). assert (Q := bp_pos f). apply Rmult_le_compat; lra.
Qed.
Lemma big_weaken e f x : (f <= e)%Z -> big e x -> big f x.
Proof. intros L [H|H]; [left; exact H|right]. eapply Rle_trans; [apply bpow_le, L|exact H]. Qed.
Lemma rel_fl_big e x : (-1022 <= e)%Z -> big e x -> rel u x (fl x).
Proof. intros L B. apply rel_fl. apply (big_weaken e _ x L) in B. exact B. Qed.

Lemma pi64_rel : is_finite pi64 = true /\ rel u PI (B2R pi64) /\ 3 <= B2R pi64 <= 4.
Proof.
  destruct pi64_ok as (F & (_ & _ & N1 & N2) & B). split; [exact F|]. split; [|exact B]. unfold rel. us. assert (D := PI_digits).
  rewrite (Rabs_pos_eq PI) by lra. apply Rabs_le. split; [|lra]. assert (PI - PI * u <= PI / (1 + u)); [|lra].
  apply Rmult_le_reg_r with (1 + u); [lra|]. unfold Rdiv. rewrite Rmult_assoc, Rinv_l, Rmult_1_r by lra. nra.
Qed.

Definition rad64 (lat : f64) : f64 := (lat * pi64 / of_Z 180)%f64.
Lemma rad_full lat : is_finite lat = true -> Rabs (B2R lat) <= 90 -> big (-900) (B2R lat) ->
  is_finite (rad64 lat) = true /\ B2R (rad64 lat) = fl (fl (B2R lat * B2R pi64) / 180) /\ rel (4 * u) (B2R lat * PI / 180) (B2R (rad64 lat)) /\ big (-912) (B2R (rad64 lat)) /\ Rabs (B2R lat * PI / 180) <= 1.5708.
Proof.
  intros F L B. set (x := B2R lat) in *. destruct pi64_rel as (Fp & Rp & Bp). set (p := B2R pi64) in *. us. assert (D := PI_digits).
  assert (Hx := Rabs_pos x).
  assert (A1 : big (-900 + 1) (x * p)). { apply big_mul; [change (bp 1) with 2; rewrite Rabs_pos_eq by lra; lra|exact B]. }
  assert (S1 : Rabs (x * p) <= bp 9). { rewrite Rabs_mult, (Rabs_pos_eq p) by lra. change (bp 9) with 512. nra. }
  assert (R1 : rel u (x * p) (fl (x * p))) by (apply (rel_fl_big (-900 + 1)); [lia|exact A1]).
  assert (M := mul64_rep lat pi64 x p (conj F eq_refl) (conj Fp eq_refl) (fits_bp 9 _ ltac:(lia) S1)).
  assert (A2 : big (-900 + 1 - 1) (fl (x * p))) by (apply (big_rel _ u (x * p)); [lra|exact R1|exact A1]).
  assert (A3 : big (-900 + 1 - 1 + -8) (fl (x * p) / 180)).
  { unfold Rdiv. apply big_mul; [|exact A2]. rewrite Rabs_pos_eq by lra. change (bp (-8)) with (/ 256). lra. }
  assert (S2 : Rabs (fl (x * p) / 180) <= bp 9).
  { destruct (rel_size _ _ _ R1) as [S _]. unfold Rdiv. rewrite Rabs_mult, (Rabs_pos_eq (/ 180)) by lra.
    assert (Q := Rabs_pos (x * p)). assert (Rabs (fl (x * p)) <= 2 * bp 9) by nra. lra. }
  assert (V := div64_rep _ _ _ _ M (of_Z_rep 180 eq_refl) ltac:(lra) (fits_bp 9 _ ltac:(lia) S2)).
  destruct V as [Fv Ev]. fold (rad64 lat) in Fv, Ev. split; [exact Fv|]. split; [exact Ev|]. rewrite Ev.
  assert (R3 : rel u (fl (x * p) / 180) (fl (fl (x * p) / 180))) by (apply (rel_fl_big (-900 + 1 - 1 + -8)); [lia|exact A3]).
  assert (A4 := big_rel _ u _ _ ltac:(lra) R3 A3). split; [|split].
  - assert (E1 : rel u (x * PI) (x * p)). { rewrite !(Rmult_comm x). apply rel_scale, Rp. }
    assert (E2 := rel_trans _ _ _ _ _ (Rlt_le _ _ U0) E1 R1). apply (rel_scale _ (/ 180)) in E2.
    assert (E3 := rel_trans _ _ _ _ _ (Rlt_le _ _ U0) E2 R3). eapply rel_weaken; [|exact E3]. nra.
  - eapply big_weaken; [|exact A4]. lia.
  - unfold Rdiv. rewrite !Rabs_mult, (Rabs_pos_eq PI), (Rabs_pos_eq (/ 180)) by lra. nra.
Qed.

Lemma rad_ok lat : is_finite lat = true -> Rabs (B2R lat) <= 90 -> big (-900) (B2R lat) ->
  is_finite (rad64 lat) = true /\ rel (4 * u) (B2R lat * PI / 180) (B2R (rad64 lat)) /\ big (-912) (B2R (rad64 lat)) /\ Rabs (B2R lat * PI / 180) <= 1.5708.
Proof. intros F L B. destruct (rad_full lat F L B) as (A & _ & C). exact (conj A C). Qed.

Definition c64 : f64 := (of_Z 2 * omega64)%f64.
Lemma const_ok : is_finite c64 = true /\ rel (5 * u) (4 * PI / 86400) (B2R c64) /\ 0.0001 <= B2R c64 <= 0.0002.
Proof.
  destruct pi64_rel as (Fp & Rp & Bp). us. assert (D := PI_digits). set (p := B2R pi64) in *.
  assert (FI : forall z, (Z.abs z < 2 ^ 53)%Z -> fl (IZR z) = IZR z).
  { intros z Hz. destruct (of_Z_rep z Hz) as [_ E]. rewrite <- E. unfold fl. apply round_generic; [apply valid_rnd_N|]. apply (generic_format_B2R 53 1024). }
  assert (W : rep64 (of_Z 60 * of_Z 60 * of_Z 24)%f64 86400).
  { assert (W1 : rep64 (of_Z 60 * of_Z 60)%f64 (fl (60 * 60))).
    { apply mul64_rep; try apply (of_Z_rep 60 eq_refl). apply (fits_bp 20); [lia|]. rewrite Rabs_pos_eq by lra. change (bp 20) with 1048576. lra. }
    replace (60 * 60) with (IZR 3600) in W1 by lra. rewrite FI in W1 by reflexivity.
    assert (W2 := mul64_rep _ _ _ _ W1 (of_Z_rep 24 eq_refl)). replace (3600 * 24) with (IZR 86400) in W2 by lra. rewrite FI in W2 by reflexivity. apply W2.
    unfold fits64. rewrite Rabs_pos_eq by lra. apply Rlt_trans with (bp 20); [change (bp 20) with 1048576; lra|apply bpow_lt; lia]. }
  assert (B0 : big (-1) (2 * p)) by (right; rewrite Rabs_pos_eq by lra; change (bp (-1)) with (/ 2); lra).
  assert (P1 := mul64_rep _ _ _ _ (of_Z_rep 2 eq_refl) (conj Fp eq_refl) (fits_bp 9 (2 * p) ltac:(lia) ltac:(rewrite Rabs_pos_eq by lra; change (bp 9) with 512; lra))).
  fold p in P1. assert (R1 := rel_fl_big (-1) _ ltac:(lia) B0). destruct (rel_size _ _ _ R1) as [S1 S1'].
  rewrite (Rabs_pos_eq (2 * p)) in S1, S1' by lra.
  assert (G1 : 5.9 <= fl (2 * p) <= 8.1).
  { assert (5 <= fl (2 * p)); [|rewrite Rabs_pos_eq in S1, S1' by lra; nra]. unfold rel in R1. apply Rabs_le_inv in R1. rewrite (Rabs_pos_eq (2 * p)) in R1 by lra. nra. }
  set (a := fl (2 * p)) in *.
  assert (B1 : big (-20) (a / 86400)) by (right; rewrite Rabs_pos_eq by lra; change (bp (-20)) with (/ 1048576); lra).
  assert (P2 := div64_rep _ _ _ _ P1 W ltac:(lra) (fits_bp 9 (a / 86400) ltac:(lia) ltac:(rewrite Rabs_pos_eq by lra; change (bp 9) with 512; lra))).
  fold omega64 in P2. assert (R2 := rel_fl_big (-20) _ ltac:(lia) B1).
  assert (G2 : 6e-5 <= fl (a / 86400) <= 9.5e-5).
  { unfold rel in R2. apply Rabs_le_inv in R2. rewrite (Rabs_pos_eq (a / 86400)) in R2 by lra. nra. }
  set (b := fl (a / 86400)) in *.
  assert (B2 : big (-20) (2 * b)) by (right; rewrite Rabs_pos_eq by lra; change (bp (-20)) with (/ 1048576); lra).
  assert (P3 := mul64_rep _ _ _ _ (of_Z_rep 2 eq_refl) P2 (fits_bp 9 (2 * b) ltac:(lia) ltac:(rewrite Rabs_pos_eq by lra; change (bp 9) with 512; lra))).
  fold c64 in P3. assert (R3 := rel_fl_big (-20) _ ltac:(lia) B2). destruct P3 as [F3 E3]. split; [exact F3|]. rewrite E3. split.
  - apply (rel_scale _ 2) in Rp. rewrite !(Rmult_comm _ 2) in Rp. fold p in Rp.
    assert (T1 := rel_trans _ _ _ _ _ (Rlt_le _ _ U0) Rp R1). apply (rel_scale _ (/ 86400)) in T1.
    assert (T2 := rel_trans _ _ _ _ _ (Rlt_le _ _ U0) T1 R2). apply (rel_scale _ 2) in T2. rewrite (Rmult_comm b 2) in T2. fold b in T2.
    assert (T3 := rel_trans _ _ _ _ _ (Rlt_le _ _ U0) T2 R3). replace (4 * PI / 86400) with (2 * PI * / 86400 * 2) by lra.
    eapply rel_weaken; [|exact T3]. assert (u * u <= u * 1e-10) by nra. assert (0 <= u * u) by nra. nra.
  - unfold rel in R3. apply Rabs_le_inv in R3. rewrite (Rabs_pos_eq (2 * b)) in R3 by lra. nra.
Qed.

Lemma bp_pow n : bp (Z.of_nat n) = 2 ^ n.
Proof. rewrite bpow_powerRZ, <- pow_powerRZ. reflexivity. Qed.
Lemma bp_1000 : bp (-1000) = / 2 ^ 1000.
Proof. change (-1000)%Z with (- (1000))%Z. rewrite bpow_opp. f_equal. exact (bp_pow 1000). Qed.
Lemma eight_u : / 2 ^ 50 = 8 * u.
Proof. us. rewrite U2. simpl. lra. Qed.

(** The computed sine of a latitude. *)
Lemma sin_lat_ok sin64 lat : accurate_sin sin64 -> is_finite lat = true -> Rabs (B2R lat) <= 90 -> big (-900) (B2R lat) ->
  is_finite (sin64 (rad64 lat)) = true /\ rel (17 * u) (sin (B2R lat * PI / 180)) (B2R (sin64 (rad64 lat))) /\ big (-920) (B2R (sin64 (rad64 lat))).
Proof.
  intros A F L B. destruct (rad_ok lat F L B) as (Fr & Rr & Br & Sr). us. assert (T := rel_size _ _ _ Rr). assert (P := Rabs_pos (B2R lat * PI / 180)).
  assert (Q : Rabs (B2R (rad64 lat)) <= 17 / 10) by nra. set (r := B2R (rad64 lat)) in *.
  assert (Br' : r = 0 \/ / 2 ^ 1000 <= Rabs r).
  { rewrite <- bp_1000. apply (big_weaken (-912) (-1000)); [lia|exact Br]. }
  destruct (A (rad64 lat) Fr ltac:(fold r; lra)) as (Fs & _ & Es). specialize (Es Br'). fold r in Es. split; [exact Fs|]. rewrite eight_u in Es.
  assert (Rs : rel (8 * u) (sin r) (B2R (sin64 (rad64 lat)))) by exact Es.
  assert (R1 := sin_rel (4 * u) (B2R lat * PI / 180) r ltac:(lra) ltac:(lra) Rr). split.
  - eapply rel_weaken; [|exact (rel_trans (2 * (4 * u)) (8 * u) _ _ _ ltac:(lra) R1 Rs)]. nra.
  - eapply big_weaken; [|apply (big_rel (-912 - 1) (8 * u) (sin r)); [lra|exact Rs|]]; [lia|].
    destruct Br as [E|H]; [left; rewrite E; apply sin_0|right]. assert (S := proj1 (sin_abs r Q)). unfold Zminus. rewrite bpow_plus. change (bp (- (1))) with (/ 2). lra.
Qed.
Lemma cor_ok sin64 lat : accurate_sin sin64 -> is_finite lat = true -> Rabs (B2R lat) <= 90 -> big (-900) (B2R lat) ->
  is_finite (coriolis64 sin64 lat) = true /\ B2R (coriolis64 sin64 lat) = fl (B2R c64 * B2R (sin64 (rad64 lat))) /\
  rel (24 * u) (4 * PI / 86400 * sin (B2R lat * PI / 180)) (B2R (coriolis64 sin64 lat)).
Proof.
  intros A F L B. destruct (sin_lat_ok sin64 lat A F L B) as (Fs & Rs & Bs). us. destruct const_ok as (Fc & Rc & Bc).
  set (s := B2R (sin64 (rad64 lat))) in *. set (c := B2R c64) in *.
  assert (G : big (-920 + -15) (s * c)).
  { apply big_mul; [|exact Bs]. rewrite Rabs_pos_eq by lra. change (bp (-15)) with (/ 32768). lra. }
  rewrite Rmult_comm in G. assert (H : rel u (c * s) (fl (c * s))) by (apply (rel_fl_big (-920 + -15)); [lia|exact G]).
  assert (S : Rabs (c * s) <= bp 9).
  { rewrite Rabs_mult, (Rabs_pos_eq c) by lra. destruct (rel_size _ _ _ Rs) as [S _].
    assert (Rabs (sin (B2R lat * PI / 180)) <= 1) by (apply Rabs_le, SIN_bound). assert (P := Rabs_pos s). assert (P2 := Rabs_pos (sin (B2R lat * PI / 180))).
    change (bp 9) with 512. nra. }
  assert (M := mul64_rep _ _ _ _ (conj Fc eq_refl) (conj Fs eq_refl) (fits_bp 9 (c * s) ltac:(lia) S)).
  destruct M as [Fm Em]. change (c64 * sin64 (rad64 lat))%f64 with (coriolis64 sin64 lat) in Fm, Em. split; [exact Fm|]. split; [exact Em|]. rewrite Em.
  assert (R1 := rel_mul (5 * u) (17 * u) _ _ _ _ ltac:(lra) ltac:(lra) Rc Rs). assert (R2 := rel_trans _ _ _ _ _ (Rlt_le _ _ U0) R1 H).
  eapply rel_weaken; [|exact R2]. assert (0 <= u * u <= u * 1e-10) by nra. nra.
Qed.

(** Away from the poles, well separated latitudes have well separated sines. *)
Lemma sin_gap x y : - (89 * PI / 180) <= x -> y <= 89 * PI / 180 -> 1.7e-12 <= y - x -> 7.3e-15 <= sin y - sin x.
Proof.
  intros X Y D. assert (P := PI_digits). rewrite form4.
  assert (C : 0.0087 <= cos ((y + x) / 2)).
  { apply Rle_trans with (cos (89 * PI / 180)).
    - rewrite <- sin_shift. replace (PI / 2 - 89 * PI / 180) with (PI / 180) by lra. assert (H := sin_half (PI / 180) ltac:(lra)). lra.
    - destruct (Rle_or_lt 0 ((y + x) / 2)) as [Q|Q]; [apply cos_decr_1; lra|]. rewrite <- (cos_neg ((y + x) / 2)). apply cos_decr_1; lra. }
  assert (S := proj1 (sin_half ((y - x) / 2) ltac:(lra))). replace ((y - x) / 2) with ((y - x) / 2) in S by reflexivity. nra.
Qed.
Lemma cor_mono sin64 l1 l2 : accurate_sin sin64 -> is_finite l1 = true -> is_finite l2 = true ->
  big (-900) (B2R l1) -> big (-900) (B2R l2) -> -89 <= B2R l1 -> B2R l2 <= 89 -> B2R l1 + 1e-10 <= B2R l2 ->
  B2R (coriolis64 sin64 l1) < B2R (coriolis64 sin64 l2).
Proof.
  intros A F1 F2 B1 B2 L1 L2 D. assert (P := PI_digits). us.
  destruct (cor_ok sin64 l1 A F1 ltac:(apply Rabs_le; lra) B1) as (_ & _ & R1). destruct (cor_ok sin64 l2 A F2 ltac:(apply Rabs_le; lra) B2) as (_ & _ & R2).
  assert (G := sin_gap (B2R l1 * PI / 180) (B2R l2 * PI / 180) ltac:(nra) ltac:(nra) ltac:(nra)).
  assert (K : forall l : f64, Rabs (4 * PI / 86400 * sin (B2R l * PI / 180)) <= 4 * PI / 86400).
  { intros l. rewrite Rabs_mult, Rabs_pos_eq by lra. assert (Rabs (sin (B2R l * PI / 180)) <= 1) by (apply Rabs_le, SIN_bound). nra. }
  assert (K1 := K l1). assert (K2 := K l2). unfold rel in R1, R2. set (k := 4 * PI / 86400) in *.
  assert (KP : 0.0001 <= k) by (unfold k; lra).
  assert (E1 : 24 * u * Rabs (k * sin (B2R l1 * PI / 180)) <= 2.9e-15 * k) by (apply Rmult_le_compat; try apply Rabs_pos; lra).
  assert (E2 : 24 * u * Rabs (k * sin (B2R l2 * PI / 180)) <= 2.9e-15 * k) by (apply Rmult_le_compat; try apply Rabs_pos; lra).
  assert (R1' := Rle_trans _ _ _ R1 E1). assert (R2' := Rle_trans _ _ _ R2 E2). apply Rabs_le_inv in R1', R2'.
  assert (k * 7.3e-15 <= k * (sin (B2R l2 * PI / 180) - sin (B2R l1 * PI / 180))) by (apply Rmult_le_compat_l; lra). lra.
Qed.

(** Next to the pole the computed sines lie in an interval of seventeen numbers. *)
Definition polar (k : nat) : f64 := binary_normalize 53 1024 prec53 emax1024 mode_NE (90 * 2 ^ 46 - Z.of_nat k) (-46) false.
Lemma INR19 k : (k <= 19)%nat -> 0 <= INR k <= 19.
Proof. intros K. split; [apply pos_INR|]. apply le_INR in K. rewrite (INR_IZR_INZ 19) in K. exact K. Qed.
Lemma polar_ok k : (k <= 19)%nat -> is_finite (polar k) = true /\ B2R (polar k) = 90 - INR k * / IZR (2 ^ 46).
Proof.
  intros K. assert (N := binary_normalize_correct 53 1024 prec53 emax1024 mode_NE (90 * 2 ^ 46 - Z.of_nat k) (-46) false).
  set (z := (90 * 2 ^ 46 - Z.of_nat k)%Z) in *.
  assert (V : F2R (Float radix2 z (-46)) = 90 - INR k * / IZR (2 ^ 46)).
  { unfold F2R. cbn [Fnum Fexp]. change (bp (-46)) with (/ IZR (2 ^ 46)). unfold z. rewrite minus_IZR, mult_IZR, <- INR_IZR_INZ. change (2 ^ 46)%Z with 70368744177664%Z. lra. }
  assert (G : generic_format radix2 (FLT_exp (3 - 1024 - 53) 53) (F2R (Float radix2 z (-46)))).
  { apply generic_format_FLT. exists (Float radix2 z (-46)); [reflexivity| |cbn; lia]. cbn [Fnum]. unfold z. change (Zpower radix2 53) with 9007199254740992%Z. change (2 ^ 46)%Z with 70368744177664%Z. lia. }
  cbv zeta in N. change (SpecFloat.fexp 53 1024) with (FLT_exp (3 - 1024 - 53) 53) in N.
  rewrite (round_generic radix2 (FLT_exp (3 - 1024 - 53) 53) _ _ G) in N. rewrite Rlt_bool_true in N.
  - destruct N as (N1 & N2 & _). split; [exact N2|]. unfold polar. fold z. rewrite N1. exact V.
  - rewrite V. assert (0 <= INR k <= 19) by (exact (INR19 k K)). change (2 ^ 46)%Z with 70368744177664%Z.
    rewrite Rabs_pos_eq by lra. apply Rlt_trans with (bp 9); [change (bp 9) with 512; lra|apply bpow_lt; lia].
Qed.
Lemma polar_sin sin64 k : accurate_sin sin64 -> (k <= 19)%nat ->
  is_finite (sin64 (rad64 (polar k))) = true /\ 1 - 8.1 * u <= B2R (sin64 (rad64 (polar k))) <= 1 + 8.1 * u.
Proof.
  intros A K. destruct (polar_ok k K) as [F V]. us. assert (P := PI_digits).
  assert (IK : 0 <= INR k <= 19) by (exact (INR19 k K)). change (IZR (2 ^ 46)) with 70368744177664 in V.
  assert (L : 89 <= B2R (polar k) <= 90) by (rewrite V; lra).
  assert (B : big (-900) (B2R (polar k))).
  { apply (big_weaken 1); [lia|]. right. change (bp 1) with 2. rewrite Rabs_pos_eq by lra. lra. }
  destruct (rad_ok _ F ltac:(rewrite Rabs_pos_eq by lra; lra) B) as (Fr & Rr & Br & Sr).
  unfold rel in Rr. assert (Q : 4 * u * Rabs (B2R (polar k) * PI / 180) <= 1e-15).
  { apply Rle_trans with (4 * u * 1.5708); [apply Rmult_le_compat_l; lra|lra]. }
  assert (Rr' := Rle_trans _ _ _ Rr Q). apply Rabs_le_inv in Rr'. rewrite V in Rr'. set (r := B2R (rad64 (polar k))) in *.
  assert (Dr : -1e-14 <= PI / 2 - r <= 1e-14) by (split; nra).
  assert (Br' : r = 0 \/ / 2 ^ 1000 <= Rabs r).
  { rewrite <- bp_1000. apply (big_weaken (-912) (-1000)); [lia|exact Br]. }
  destruct (A (rad64 (polar k)) Fr ltac:(fold r; rewrite Rabs_pos_eq by lra; lra)) as (Fs & _ & Es). specialize (Es Br'). fold r in Es. split; [exact Fs|].
  assert (C : 1 - 1e-28 <= sin r <= 1).
  { split; [|apply SIN_bound]. replace r with (PI / 2 - (PI / 2 - r)) by ring. rewrite sin_shift. set (d := PI / 2 - r) in *.
    replace d with (2 * (d / 2)) by lra. rewrite cos_2a_sin.
    assert (H := proj2 (sin_abs (d / 2) ltac:(apply Rabs_le; lra))). assert (H2 : Rabs (d / 2) <= 5e-15) by (apply Rabs_le; lra).
    assert (H3 := Rabs_pos (sin (d / 2))). assert (H4 : sin (d / 2) * sin (d / 2) = Rabs (sin (d / 2)) * Rabs (sin (d / 2))) by (rewrite <- Rabs_mult, Rabs_pos_eq; [reflexivity|apply Rle_0_sqr]).
    assert (H5 : Rabs (sin (d / 2)) * Rabs (sin (d / 2)) <= 5e-15 * 5e-15) by (apply Rmult_le_compat; lra). rewrite <- H4 in H5. clear - H5. lra. }
  rewrite eight_u, (Rabs_pos_eq (sin r)) in Es by lra. apply Rabs_le_inv in Es. assert (H1 : 8 * u * sin r <= 8 * u * 1) by (apply Rmult_le_compat_l; lra).
  assert (H2 : 1e-28 <= 0.1 * u) by (rewrite u_val; lra). clear - C Es H1 H2 U0. lra.
Qed.
Lemma chain (f : nat -> Z) n : (forall k, (k < n)%nat -> (f (S k) < f k)%Z) -> (f n + Z.of_nat n <= f 0%nat)%Z.
Proof. induction n as [|n IH]; intros H; [cbn; lia|]. assert (A := IH (fun k L => H k (Nat.lt_lt_succ_r _ _ L))). assert (B := H n (Nat.lt_succ_diag_r n)). lia. Qed.
Lemma cor_not_strict sin64 : accurate_sin sin64 ->
  exists k, (k < 19)%nat /\ B2R (coriolis64 sin64 (polar k)) <= B2R (coriolis64 sin64 (polar (S k))).
Proof.
  intros A.
  destruct (List.existsb (fun k => Rle_bool (B2R (coriolis64 sin64 (polar k))) (B2R (coriolis64 sin64 (polar (S k))))) (seq 0 19)) eqn:E.
  { apply existsb_exists in E. destruct E as (k & I & H). exists k. apply in_seq in I. split; [lia|]. revert H. case Rle_bool_spec; [auto|discriminate]. }
  exfalso. assert (S1 := fun k K => polar_sin sin64 k A K).
  assert (GZ : exists f : nat -> Z, forall k, (k <= 19)%nat -> B2R (sin64 (rad64 (polar k))) = IZR (f k) * / IZR (2 ^ 53)).
  { exists (fun k => Zfloor (B2R (sin64 (rad64 (polar k))) * IZR (2 ^ 53))). intros k K. destruct (S1 k K) as [Fk Bk]. us.
    destruct (grid_53 _ Fk ltac:(lra)) as [m E2]. rewrite E2. rewrite Rmult_assoc, Rinv_l, Rmult_1_r, Zfloor_IZR by (apply IZR_neq; discriminate). reflexivity. }
  destruct GZ as [f Gf].
  assert (M : forall k, (k < 19)%nat -> (f (S k) < f k)%Z).
  { intros k K. destruct (Z_lt_le_dec (f (S k)) (f k)) as [Q|Q]; [exact Q|exfalso].
    assert (N : Rle_bool (B2R (coriolis64 sin64 (polar k))) (B2R (coriolis64 sin64 (polar (S k)))) = true).
    { apply Rle_bool_true. destruct const_ok as (_ & _ & Cp).
      assert (Z : forall j, (j <= 19)%nat -> B2R (coriolis64 sin64 (polar j)) = fl (B2R c64 * B2R (sin64 (rad64 (polar j))))).
      { intros j J. destruct (polar_ok j J) as [Fj Vj]. assert (IK : 0 <= INR j <= 19) by (exact (INR19 j J)). change (IZR (2 ^ 46)) with 70368744177664 in Vj.
        assert (L : 89 <= B2R (polar j) <= 90) by (rewrite Vj; lra). apply cor_ok; [exact A|exact Fj|rewrite Rabs_pos_eq by lra; lra|].
        apply (big_weaken 1); [lia|]. right. change (bp 1) with 2. rewrite Rabs_pos_eq by lra. lra. }
      rewrite !Z by lia. apply fl_mono. apply Rmult_le_compat_l; [lra|]. rewrite !Gf by lia. apply Rmult_le_compat_r; [|apply IZR_le, Q].
      left. apply Rinv_0_lt_compat, IZR_lt. reflexivity. }
    assert (existsb (fun k => Rle_bool (B2R (coriolis64 sin64 (polar k))) (B2R (coriolis64 sin64 (polar (S k))))) (seq 0 19) = true) by (apply existsb_exists; exists k; split; [apply in_seq; lia|exact N]).
    congruence. }
  apply chain in M. destruct (S1 0%nat ltac:(lia)) as [_ B0]. destruct (S1 19%nat ltac:(lia)) as [_ B19]. rewrite Gf in B0, B19 by lia. us. rewrite u_val in B0, B19.
  change (IZR (2 ^ 53)) with 9007199254740992 in B0, B19. apply IZR_le in M. rewrite plus_IZR in M. change (IZR (Z.of_nat 19)) with 19 in M. lra.
Qed.

(** Opposite latitudes. *)
Lemma cor_opp sin64 lat lat' : accurate_sin sin64 ->
  (forall x y, is_finite x = true -> is_finite y = true -> B2R y = - B2R x -> B2R (sin64 y) = - B2R (sin64 x)) ->
  is_finite lat = true -> is_finite lat' = true -> B2R lat' = - B2R lat -> Rabs (B2R lat) <= 90 -> big (-900) (B2R lat) ->
  B2R (coriolis64 sin64 lat') = - B2R (coriolis64 sin64 lat).
Proof.
  intros A O F F' E L B. assert (L' : Rabs (B2R lat') <= 90) by (rewrite E, Rabs_Ropp; exact L).
  assert (B' : big (-900) (B2R lat')). { destruct B as [B|B]; [left; rewrite E, B; ring|right; rewrite E, Rabs_Ropp; exact B]. }
  destruct (rad_full lat F L B) as (G & V & _). destruct (rad_full lat' F' L' B') as (G' & V' & _).
  destruct (cor_ok sin64 lat A F L B) as (_ & C & _). destruct (cor_ok sin64 lat' A F' L' B') as (_ & C' & _).
  rewrite C, C', (O (rad64 lat) (rad64 lat') G G').
  - rewrite <- fl_opp. f_equal. ring.
  - rewrite V, V', E. rewrite <- fl_opp. f_equal. replace (- B2R lat * B2R pi64) with (- (B2R lat * B2R pi64)) by ring. rewrite fl_opp. unfold Rdiv. ring.
Qed.

(** The correctly rounded sine. *)
Definition sin_nearest (x : f64) : f64 := nearest (sin (B2R x)).
Lemma sin_third x : 0 <= x <= 2 -> x / 3 <= sin x.
Proof.
  intros H. assert (P : x <= PI) by (assert (D := PI_digits); lra).
  destruct (sin_bound x 0 (proj1 H) P) as [A _]. unfold sin_approx, sin_term in A. cbn in A. eapply Rle_trans; [|exact A].
  assert (x * x <= 4) by nra. nra.
Qed.
Lemma sin_nearest_accurate : accurate_sin sin_nearest.
Proof.
  intros x F L. set (r := B2R x) in *. us. assert (S1 : Rabs (sin r) <= 1) by (apply Rabs_le, SIN_bound).
  destruct (nearest_rep (sin r)) as [G V]; [apply (fits_bp 0); [lia|exact S1]|]. unfold sin_nearest. fold r. split; [exact G|]. rewrite V, eight_u. split.
  - eapply Rle_trans; [apply fl_error|]. assert (eta <= u). { unfold eta, u. apply Rmult_le_compat_l; [lra|]. apply bpow_le. lia. }
    assert (u * Rabs (sin r) <= u * 1) by (apply Rmult_le_compat_l; lra). lra.
  - intros H. assert (R : rel u (sin r) (fl (sin r))).
    { apply rel_fl. destruct H as [-> |H]; [left; apply sin_0|right]. rewrite <- bp_1000 in H.
      assert (T : Rabs r / 3 <= Rabs (sin r)).
      { destruct (Rle_or_lt 0 r) as [P|P].
        - rewrite (Rabs_pos_eq r P) in *. assert (Q := sin_third r ltac:(lra)). rewrite Rabs_pos_eq by lra. exact Q.
        - rewrite (Rabs_left r P) in *. assert (Q := sin_third (- r) ltac:(lra)). rewrite sin_neg in Q. rewrite Rabs_left1 by lra. exact Q. }
      assert (W : bp (-1022) <= bp (-1000) / 4). { replace (bp (-1000) / 4) with (bp (-1000) * bp (-2)) by (change (bp (-2)) with (/ 4); reflexivity). rewrite <- bpow_plus. apply bpow_le. lia. }
      assert (Z := bp_pos (-1000)). lra. }
    unfold rel in R. assert (Z := Rabs_pos (sin r)). nra.
Qed.
