(** * ProofsFloat23: cell areas in binary64 *)
From Coq Require Import Reals Lra Lia List ZArith Bool.
From Flocq Require Import Core IEEE754.BinarySingleNaN Relative.
From Verif Require Import SpecFloat64 Ieee IeeeWave IeeeSphere SpecIeeeSphere ProofsFloat ProofsIeee ProofsFloat4 ProofsFloat6 ProofsFloat8 ProofsFloat10 ProofsFloat19 ProofsFloat22 ProofsPi.
Local Open Scope R_scope.

Lemma eta_small : 0 < eta /\ eta <= u * 1e-20.
Proof.
  split; [exact eta_pos|]. us. unfold eta. assert (H : bp (-1074) <= bp (-200)) by (apply bpow_le; lia).
  change (bp (-200)) with (/ IZR (2 ^ 200)) in H. change (IZR (2 ^ 200)) with 1606938044258990275541962092341162602522202993782792835301376 in H. rewrite u_val in *. lra.
Qed.
Lemma flb x M : Rabs x <= M -> Rabs (fl x - x) <= u * M + eta.
Proof. intros H. us. eapply Rle_trans; [apply fl_error|]. assert (u * Rabs x <= u * M) by (apply Rmult_le_compat_l; lra). lra. Qed.
Lemma fits_70 x : Rabs x <= 1e21 -> fits64 (fl x).
Proof. intros H. apply (fits_bp 70); [lia|]. change (bp 70) with (IZR (2 ^ 70)). change (IZR (2 ^ 70)) with 1180591620717411303424. lra. Qed.
Lemma abs_rep x a : rep64 x a -> rep64 (abs64 x) (Rabs a).
Proof. intros [F V]. unfold abs64. split; [rewrite is_finite_Babs; exact F|]. rewrite B2R_Babs, V. reflexivity. Qed.
Lemma Rabs_sub a b c d : Rabs (a - b) <= d -> Rabs (b - c) <= d -> Rabs (a - c) <= 2 * d.
Proof. intros H1 H2. apply Rabs_le_inv in H1, H2. apply Rabs_le. lra. Qed.

(** Edges of the cells. *)
Section Edge.
  Variables (c : nat -> f64) (k : nat) (D M : R).
  Hypothesis F0 : is_finite (c 0%nat) = true.
  Hypothesis F1 : is_finite (c 1%nat) = true.
  Hypothesis Fk : is_finite (c k) = true.
  Let X := B2R (c 1%nat) - B2R (c 0%nat).
  Hypothesis HD : 1 <= D <= 1000.
  Hypothesis HM : 1 <= M <= 1000.
  Hypothesis HX : Rabs X <= D.
  Lemma half_ok : is_finite (half_step64 c) = true /\ Rabs (B2R (half_step64 c) - X / 2) <= 1.001 * u * D.
  Proof.
    us. destruct eta_small as [T0 T1]. assert (R1 := sub64_rep _ _ _ _ (conj F1 eq_refl) (conj F0 eq_refl) (fits_70 X ltac:(lra))). fold X in R1.
    assert (E1 := flb X D HX). assert (Hd : Rabs (fl X / 2) <= D). { apply Rabs_le_inv in E1, HX. apply Rabs_le. assert (u * D <= 0.1) by nra. lra. }
    assert (R2 := div64_rep _ _ _ _ R1 (of_Z_rep 2 eq_refl) ltac:(lra) (fits_70 (fl X / 2) ltac:(lra))).
    assert (Hd2 : Rabs (fl X / 2) <= 0.5001 * D). { apply Rabs_le_inv in E1, HX. apply Rabs_le. assert (u * D <= 0.00001 * D) by nra. assert (eta <= 0.00001 * D) by nra. lra. }
    assert (E2 := flb _ _ Hd2). destruct R2 as [G V]. fold (half_step64 c) in G, V. split; [exact G|]. rewrite V. apply Rabs_le_inv in E1, E2. apply Rabs_le.
    assert (eta <= 1e-12 * (u * D)) by nra. assert (0 < u * D) by nra. split; nra.
  Qed.
  Lemma lower_ok : Rabs (B2R (c k) - X / 2) <= M -> is_finite (lower64 c k) = true /\ Rabs (B2R (lower64 c k) - (B2R (c k) - X / 2)) <= 1.01 * u * (D + M).
  Proof.
    intros H. us. destruct eta_small as [T0 T1]. destruct half_ok as [G V]. set (h := B2R (half_step64 c)) in *.
    assert (Z0 : 0 < u * D) by nra. assert (Z1 : u * D <= 1e-10) by nra. assert (Z2 : 0 < u * M) by nra. assert (Z3 : eta <= 1e-12 * (u * M)) by nra.
    assert (B : Rabs (B2R (c k) - h) <= 1.001 * M). { apply Rabs_le_inv in V, H. apply Rabs_le. lra. }
    destruct (sub64_rep _ _ _ _ (conj Fk eq_refl) (conj G eq_refl) (fits_70 (B2R (c k) - h) ltac:(lra))) as [G2 V2].
    split; [exact G2|]. unfold lower64. rewrite V2. fold h. assert (E := flb _ _ B). apply Rabs_le_inv in V, E. apply Rabs_le. lra.
  Qed.
  Lemma upper_ok : Rabs (B2R (c k) + X / 2) <= M -> is_finite (upper64 c k) = true /\ Rabs (B2R (upper64 c k) - (B2R (c k) + X / 2)) <= 1.01 * u * (D + M).
  Proof.
    intros H. us. destruct eta_small as [T0 T1]. destruct half_ok as [G V]. set (h := B2R (half_step64 c)) in *.
    assert (Z0 : 0 < u * D) by nra. assert (Z1 : u * D <= 1e-10) by nra. assert (Z2 : 0 < u * M) by nra. assert (Z3 : eta <= 1e-12 * (u * M)) by nra.
    assert (B : Rabs (B2R (c k) + h) <= 1.001 * M). { apply Rabs_le_inv in V, H. apply Rabs_le. lra. }
    destruct (add64_rep _ _ _ _ (conj Fk eq_refl) (conj G eq_refl) (fits_70 (B2R (c k) + h) ltac:(lra))) as [G2 V2].
    split; [exact G2|]. unfold upper64. rewrite V2. fold h. assert (E := flb _ _ B). apply Rabs_le_inv in V, E. apply Rabs_le. lra.
  Qed.
End Edge.

Definition q64 : f64 := (pi64 / of_Z 180)%f64.
Lemma q_ok : is_finite q64 = true /\ rel (2.01 * u) (PI / 180) (B2R q64) /\ 0.0174 <= B2R q64 <= 0.0175.
Proof.
  destruct pi64_rel as (Fp & Rp & Bp). us. assert (P := PI_digits). set (p := B2R pi64) in *.
  destruct (div64_rep _ _ _ _ (conj Fp eq_refl) (of_Z_rep 180 eq_refl) ltac:(lra) (fits_70 (p / 180) ltac:(rewrite Rabs_pos_eq by lra; lra))) as [F V].
  change (pi64 / of_Z 180)%f64 with q64 in F, V. split; [exact F|].
  assert (B : big (-20) (p / 180)) by (right; rewrite Rabs_pos_eq by lra; change (bp (-20)) with (/ 1048576); lra).
  assert (R2 := rel_fl_big (-20) _ ltac:(lia) B). fold p in V. rewrite V. apply (rel_scale _ (/ 180)) in Rp.
  assert (R3 := rel_trans _ _ _ _ _ (Rlt_le _ _ U0) Rp R2).
  assert (R4 : rel (2.01 * u) (PI / 180) (fl (p / 180))) by (eapply rel_weaken; [|exact R3]; nra). split; [exact R4|].
  unfold rel in R4. rewrite (Rabs_pos_eq (PI / 180)) in R4 by lra. apply Rabs_le_inv in R4. nra.
Qed.
Lemma radians_ok e E : is_finite e = true -> Rabs E <= 90 -> Rabs (B2R e - E) <= 273 * u ->
  is_finite (radians64 e) = true /\ Rabs (B2R (radians64 e) - E * (PI / 180)) <= 10 * u.
Proof.
  intros F H1 H2. us. destruct eta_small as [T0 T1]. assert (P := PI_digits). destruct q_ok as (Fq & Rq & Bq). set (q := B2R q64) in *. set (x := B2R e) in *.
  assert (Rq' : Rabs (q - PI / 180) <= 0.0352 * u). { unfold rel in Rq. rewrite (Rabs_pos_eq (PI / 180)) in Rq by lra. eapply Rle_trans; [exact Rq|]. nra. }
  assert (B1 : Rabs x <= 90.01) by (apply Rabs_le_inv in H1, H2; apply Rabs_le; lra).
  assert (B : Rabs (x * q) <= 1.58). { rewrite Rabs_mult, (Rabs_pos_eq q) by lra. assert (Z := Rabs_pos x). nra. }
  destruct (mul64_rep _ _ _ _ (conj F eq_refl) (conj Fq eq_refl) (fits_70 (x * q) ltac:(lra))) as [G V]. fold q x in V.
  split; [exact G|]. unfold radians64. fold q64. rewrite V. assert (E1 := flb _ _ B).
  replace (fl (x * q) - E * (PI / 180)) with ((fl (x * q) - x * q) + x * (q - PI / 180) + (x - E) * (PI / 180)) by ring.
  eapply Rle_trans; [apply Rabs_triang|]. assert (A1 := Rabs_triang (fl (x * q) - x * q) (x * (q - PI / 180))). rewrite !Rabs_mult in *. rewrite (Rabs_pos_eq (PI / 180)) by lra.
  assert (A2 : Rabs x * Rabs (q - PI / 180) <= 90.01 * (0.0352 * u)) by (apply Rmult_le_compat; try apply Rabs_pos; assumption).
  assert (A3 : Rabs (x - E) * (PI / 180) <= 273 * u * 0.017454) by (apply Rmult_le_compat; try apply Rabs_pos; lra). lra.
Qed.
Lemma edge_sin sin64 e E : accurate_sin sin64 -> is_finite e = true -> Rabs E <= 90 -> Rabs (B2R e - E) <= 273 * u ->
  is_finite (sin64 (radians64 e)) = true /\ Rabs (B2R (sin64 (radians64 e)) - sin (E * (PI / 180))) <= 18 * u.
Proof.
  intros A F H1 H2. destruct (radians_ok e E F H1 H2) as [G V]. us. assert (P := PI_digits).
  assert (Q : Rabs (E * (PI / 180)) <= 1.5709). { rewrite Rabs_mult, (Rabs_pos_eq (PI / 180)) by lra. assert (Z := Rabs_pos E). nra. }
  destruct (A (radians64 e) G) as (G2 & V2 & _); [apply Rabs_le_inv in Q, V; apply Rabs_le; lra|]. split; [exact G2|]. rewrite eight_u in V2.
  assert (S := sin_lip (E * (PI / 180)) (B2R (radians64 e))). assert (S2 := Rle_trans _ _ _ S V). apply Rabs_le_inv in V2, S2. apply Rabs_le. lra.
Qed.

Lemma final_bound K X sg : 0.017 <= K -> 0 <= X -> 0 <= sg ->
  u * (2.001 * K * (X + 2545 * u)) + eta + 49 * (u * K) * (X + 2545 * u) + K * sg * (2545 * u) <= K * (6e-15 * X + 3e-13 * sg + 1e-26).
Proof.
  intros HK HX HS. us. destruct eta_small as [T0 T1]. clear U2.
  assert (Q1 : eta <= K * 1e-27). { apply Rle_trans with (0.017 * 1e-27); [lra|]. apply Rmult_le_compat_r; lra. }
  assert (Q2 : K * X * (51.001 * u) <= K * X * 6e-15). { apply Rmult_le_compat_l; [apply Rmult_le_pos; lra|]. rewrite u_val. lra. }
  assert (Q3 : K * sg * (2545 * u) <= K * sg * 3e-13). { apply Rmult_le_compat_l; [apply Rmult_le_pos; lra|]. rewrite u_val. lra. }
  assert (Q5 : u * u <= 1.2e-16 * 1.2e-16) by (apply Rmult_le_compat; lra).
  assert (Q4 : K * (51.001 * 2545 * (u * u)) <= K * 2e-27) by (apply Rmult_le_compat_l; lra).
  replace (u * (2.001 * K * (X + 2545 * u)) + eta + 49 * (u * K) * (X + 2545 * u) + K * sg * (2545 * u))
    with (K * X * (51.001 * u) + K * sg * (2545 * u) + K * (51.001 * 2545 * (u * u)) + eta) by lra.
  replace (K * (6e-15 * X + 3e-13 * sg + 1e-26)) with (K * X * 6e-15 + K * sg * 3e-13 + K * 1e-26) by lra. lra.
Qed.
Section Area64.
  Variables (sin64 : f64 -> f64) (lat lon : nat -> f64) (r : f64) (j i : nat).
  Hypothesis A : accurate_sin sin64.
  Let DY := B2R (lat 1%nat) - B2R (lat 0%nat).
  Let DX := B2R (lon 1%nat) - B2R (lon 0%nat).
  Let y := B2R (lat j).
  Let x := B2R (lon i).
  Hypothesis FY : is_finite (lat 0%nat) = true /\ is_finite (lat 1%nat) = true /\ is_finite (lat j) = true.
  Hypothesis FX : is_finite (lon 0%nat) = true /\ is_finite (lon 1%nat) = true /\ is_finite (lon i) = true.
  Hypothesis Fr : is_finite r = true.
  Hypothesis Br : 1 <= B2R r <= 1e9.
  Hypothesis Y0 : -90 <= y - DY / 2 <= 90.
  Hypothesis Y1 : -90 <= y + DY / 2 <= 90.
  Hypothesis X0 : -720 <= x - DX / 2 <= 720.
  Hypothesis X1 : -720 <= x + DX / 2 <= 720.
  Hypothesis WX : Rabs DX <= 360.
  Let K := PI / 180 * B2R r * B2R r.
  Let sg := Rabs (sin ((y - DY / 2) * (PI / 180)) - sin ((y + DY / 2) * (PI / 180))).

  Lemma sines_ok : let w := (sin64 (radians64 (lower64 lat j)) - sin64 (radians64 (upper64 lat j)))%f64 in
    is_finite (abs64 w) = true /\ Rabs (B2R (abs64 w) - sg) <= 38.1 * u.
  Proof.
    cbv zeta. us. destruct eta_small as [T0 T1]. destruct FY as (F0 & F1 & Fj). assert (HD : Rabs DY <= 180) by (apply Rabs_le; lra).
    destruct (lower_ok lat j 180 90 F0 F1 Fj ltac:(lra) ltac:(lra) HD ltac:(apply Rabs_le; exact Y0)) as [Ga Va].
    destruct (upper_ok lat j 180 90 F0 F1 Fj ltac:(lra) ltac:(lra) HD ltac:(apply Rabs_le; exact Y1)) as [Gb Vb].
    fold DY y in Va, Vb.
    destruct (edge_sin sin64 _ _ A Ga (Rabs_le _ _ Y0) ltac:(lra)) as [Gs Vs]. destruct (edge_sin sin64 _ _ A Gb (Rabs_le _ _ Y1) ltac:(lra)) as [Gt Vt].
    set (s := B2R (sin64 (radians64 (lower64 lat j)))) in *. set (t := B2R (sin64 (radians64 (upper64 lat j)))) in *. unfold sg.
    set (s' := sin ((y - DY / 2) * (PI / 180))) in *. set (t' := sin ((y + DY / 2) * (PI / 180))) in *.
    assert (Bs : -1 <= s' <= 1) by apply SIN_bound. assert (Bt : -1 <= t' <= 1) by apply SIN_bound. apply Rabs_le_inv in Vs, Vt.
    assert (B : Rabs (s - t) <= 2.01) by (apply Rabs_le; lra).
    destruct (abs_rep _ _ (sub64_rep _ _ _ _ (conj Gs eq_refl) (conj Gt eq_refl) (fits_70 (s - t) ltac:(lra)))) as [G V]. split; [exact G|]. rewrite V. fold s t.
    assert (E := flb _ _ B). eapply Rle_trans; [apply Rabs_triang_inv2|]. apply Rabs_le_inv in E. apply Rabs_le. lra.
  Qed.
  Lemma widths_ok : let w := (lower64 lon i - upper64 lon i)%f64 in is_finite (abs64 w) = true /\ Rabs (B2R (abs64 w) - Rabs DX) <= 2545 * u.
  Proof.
    cbv zeta. us. destruct eta_small as [T0 T1]. destruct FX as (F0 & F1 & Fj).
    destruct (lower_ok lon i 360 720 F0 F1 Fj ltac:(lra) ltac:(lra) WX ltac:(apply Rabs_le; exact X0)) as [Ga Va].
    destruct (upper_ok lon i 360 720 F0 F1 Fj ltac:(lra) ltac:(lra) WX ltac:(apply Rabs_le; exact X1)) as [Gb Vb].
    fold DX x in Va, Vb. set (a := B2R (lower64 lon i)) in *. set (b := B2R (upper64 lon i)) in *. assert (W := WX). apply Rabs_le_inv in Va, Vb, W.
    assert (B : Rabs (a - b) <= 360.01) by (apply Rabs_le; lra).
    destruct (abs_rep _ _ (sub64_rep _ _ _ _ (conj Ga eq_refl) (conj Gb eq_refl) (fits_70 (a - b) ltac:(lra)))) as [G V]. split; [exact G|]. rewrite V. fold a b.
    assert (E := flb _ _ B). rewrite <- (Rabs_Ropp DX). eapply Rle_trans; [apply Rabs_triang_inv2|]. apply Rabs_le_inv in E. apply Rabs_le. lra.
  Qed.
  Lemma radius_ok : let c := (pi64 / of_Z 180 * r * r)%f64 in is_finite c = true /\ Rabs (B2R c - K) <= 4.1 * u * K /\ 0.017 <= K <= 1.75e16.
  Proof.
    cbv zeta. us. assert (P := PI_digits). destruct q_ok as (Fq & Rq & Bq). fold q64. set (q := B2R q64) in *. set (R := B2R r) in *.
    assert (B1 : 0.017 <= q * R <= 1.75e7) by (split; nra).
    assert (M1 := mul64_rep _ _ _ _ (conj Fq eq_refl) (conj Fr eq_refl) (fits_70 (q * R) ltac:(rewrite Rabs_pos_eq by lra; lra))). fold q R in M1.
    assert (G1 : big (-20) (q * R)) by (right; rewrite Rabs_pos_eq by lra; change (bp (-20)) with (/ 1048576); lra).
    assert (R1 := rel_fl_big (-20) _ ltac:(lia) G1).
    assert (B2 : 0.0169 <= fl (q * R) <= 1.751e7). { unfold rel in R1. rewrite (Rabs_pos_eq (q * R)) in R1 by lra. apply Rabs_le_inv in R1. nra. }
    set (b := fl (q * R)) in *. assert (B3 : 0.0168 <= b * R <= 1.8e16) by (split; nra).
    assert (M2 := mul64_rep _ _ _ _ M1 (conj Fr eq_refl) (fits_70 (b * R) ltac:(rewrite Rabs_pos_eq by lra; lra))). fold R in M2.
    assert (G2 : big (-20) (b * R)) by (right; rewrite Rabs_pos_eq by lra; change (bp (-20)) with (/ 1048576); lra).
    assert (R2 := rel_fl_big (-20) _ ltac:(lia) G2). destruct M2 as [F V]. split; [exact F|]. rewrite V.
    assert (BK : 0.017 <= K <= 1.75e16). { unfold K. fold R. assert (0.01745 <= PI / 180 * R <= 0.017454 * 1e9) by (split; nra). split; nra. }
    split; [|exact BK]. apply (rel_scale _ R) in Rq. assert (T1 := rel_trans _ _ _ _ _ (Rlt_le _ _ U0) Rq R1). apply (rel_scale _ R) in T1.
    assert (T2 := rel_trans _ _ _ _ _ (Rlt_le _ _ U0) T1 R2). fold K in T2. apply (rel_weaken _ (4.1 * u)) in T2; [|nra]. unfold rel in T2. rewrite (Rabs_pos_eq K) in T2 by lra. exact T2.
  Qed.
  Lemma area64_ok : is_finite (area64 sin64 lat lon r j i) = true /\
    Rabs (B2R (area64 sin64 lat lon r j i) - K * sg * Rabs DX) <= K * (6e-15 * Rabs DX + 3e-13 * sg + 1e-26).
  Proof.
    us. destruct eta_small as [T0 T1]. destruct sines_ok as [Fs Vs]. destruct widths_ok as [Fw Vw]. destruct radius_ok as (Fc & Vc & BK).
    assert (W := WX). assert (Z := Rabs_pos DX). assert (ZS : 0 <= sg <= 2).
    { unfold sg. split; [apply Rabs_pos|]. set (a := (y - DY / 2) * (PI / 180)). set (b := (y + DY / 2) * (PI / 180)). assert (S1 := SIN_bound a). assert (S2 := SIN_bound b). apply Rabs_le. lra. }
    unfold area64. cbv zeta in *. set (c64' := (pi64 / of_Z 180 * r * r)%f64) in *.
    set (s64 := abs64 (sin64 (radians64 (lower64 lat j)) - sin64 (radians64 (upper64 lat j)))%f64) in *. set (w64 := abs64 (lower64 lon i - upper64 lon i)%f64) in *.
    set (c := B2R c64') in *. set (S := B2R s64) in *. set (L := B2R w64) in *. set (X := Rabs DX) in *.
    assert (UK : 0 < u * K) by nra. apply Rabs_le_inv in Vs, Vw, Vc. assert (Bc : 0.99 * K <= c <= 1.001 * K) by (clear - Vc BK U1 U0; split; nra).
    assert (B1 : Rabs (c * S) <= 2.01 * K). { rewrite Rabs_mult, (Rabs_pos_eq c) by lra. assert (Rabs S <= 2.001) by (apply Rabs_le; lra). assert (Q := Rabs_pos S). nra. }
    assert (M1 := mul64_rep _ _ _ _ (conj Fc eq_refl) (conj Fs eq_refl) (fits_70 (c * S) ltac:(lra))). fold c S in M1. assert (E1 := flb _ _ B1). set (a := fl (c * S)) in *.
    assert (E2 : Rabs (a - K * sg) <= 49 * (u * K)).
    { assert (H1 : Rabs (c * (S - sg)) <= 1.001 * K * (38.1 * u)) by (rewrite Rabs_mult; apply Rmult_le_compat; try apply Rabs_pos; apply Rabs_le; lra).
      assert (H2 : Rabs ((c - K) * sg) <= 4.1 * u * K * 2) by (rewrite Rabs_mult; apply Rmult_le_compat; try apply Rabs_pos; apply Rabs_le; lra).
      assert (H3 : eta <= 0.01 * (u * K)) by (clear - T0 T1 U0 BK; nra). replace (a - K * sg) with ((a - c * S) + c * (S - sg) + (c - K) * sg) by ring.
      apply Rabs_le_inv in H1, H2, E1. apply Rabs_le. lra. }
    assert (E3 := E2). apply Rabs_le_inv in E3. assert (UK1 : u * K <= 0.00001 * K) by (apply Rmult_le_compat_r; lra).
    assert (Ba : Rabs a <= 2.001 * K). { assert (0 <= K * sg <= K * 2) by (split; nra). apply Rabs_le. lra. }
    assert (BL : Rabs L <= X + 2545 * u) by (apply Rabs_le; lra).
    assert (B2 : Rabs (a * L) <= 2.001 * K * (X + 2545 * u)) by (rewrite Rabs_mult; apply Rmult_le_compat; try apply Rabs_pos; assumption).
    assert (B3 : 2.001 * K * (X + 2545 * u) <= 2.001 * 1.75e16 * 361) by (clear - BK Z W U0 U1; apply Rmult_le_compat; lra).
    destruct (mul64_rep _ _ _ _ M1 (conj Fw eq_refl) (fits_70 (a * L) ltac:(lra))) as [G V]. fold L in V. split; [exact G|]. rewrite V.
    assert (E4 := flb _ _ B2).
    assert (H1 : Rabs ((a - K * sg) * L) <= 49 * (u * K) * (X + 2545 * u)) by (rewrite Rabs_mult; apply Rmult_le_compat; try apply Rabs_pos; assumption).
    assert (H2 : Rabs (K * sg * (L - X)) <= K * sg * (2545 * u)). { rewrite Rabs_mult, (Rabs_pos_eq (K * sg)) by nra. apply Rmult_le_compat_l; [nra|]. apply Rabs_le. lra. }
    replace (fl (a * L) - K * sg * X) with ((fl (a * L) - a * L) + (a - K * sg) * L + K * sg * (L - X)) by ring.
    apply Rabs_le_inv in E4, H1, H2.
    assert (H : u * (2.001 * K * (X + 2545 * u)) + eta + 49 * (u * K) * (X + 2545 * u) + K * sg * (2545 * u) <= K * (6e-15 * X + 3e-13 * sg + 1e-26)).
    { apply final_bound; lra. }
    clear - E4 H1 H2 H. apply Rabs_le. lra.
  Qed.
End Area64.
