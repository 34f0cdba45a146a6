(** * PropertiesFloat20: C175 (size and sign of the global steric height in binary64) *)
From Coq Require Import Reals Lra Lia List ZArith QArith Bool.
From Flocq Require Import Core IEEE754.BinarySingleNaN.
From Verif Require Import SpecFloat64 Ieee IeeeGlobal SpecIeee SpecIeeeGlobal SpecEos ProofsEos ProofsEosBox ProofsEosSlope
  ProofsIeee ProofsFloat6 ProofsFloat9 ProofsFloat10 PropertiesSlope2 PropertiesFloat2 PropertiesFloat19.
Import ListNotations.
Local Open Scope R_scope.

(** steric.py:115-120: the halosteric height takes the temperature of the reference state, the thermosteric height its salinity. *)
Definition ghalo (c : gcell) : gcell := mkGcell (g_vol c) (g_z c) (g_Tref c) (g_S c) (g_Tref c) (g_Sref c).
Definition gthermo (c : gcell) : gcell := mkGcell (g_vol c) (g_z c) (g_T c) (g_Sref c) (g_Tref c) (g_Sref c).

(** Volume-weighted changes of temperature and salinity ([B2R] of a missing volume is 0). *)
Definition heat_change (cells : list gcell) : R := rsum (map (fun c => B2R (g_vol c) * Rabs (B2R (g_T c) - B2R (g_Tref c))) cells).
Definition salt_change (cells : list gcell) : R := rsum (map (fun c => B2R (g_vol c) * Rabs (B2R (g_S c) - B2R (g_Sref c))) cells).
Definition freshening (cells : list gcell) : R := rsum (map (fun c => B2R (g_vol c) * (B2R (g_Sref c) - B2R (g_S c))) cells).

(** The conditions of C98; [k] bounds the number of additions that a cell passes through. *)
Record sea_grid (log64 : f64 -> f64) (k : nat) (sum : list f64 -> f64) (patm : f64) (cells : list gcell) (areas : list f64) : Prop := {
  sg_log : accurate_log log64;
  sg_k : (Z.of_nat k <= 1000000)%Z;
  sg_patm : is_finite patm = true /\ 0 <= B2R patm <= 110000;
  sg_cells : Forall gcell_ok cells;
  sg_areas : Forall size_ok areas;
  sg_volume : 0 < total_volume cells <= 10 ^ 100;
  sg_area : 0 < total_area64 areas <= 10 ^ 100;
  sg_sums : sums_within k sum patm cells areas }.
(** The bound of the rounding error of C98. *)
Definition rounding (k : nat) (cells : list gcell) (areas : list f64) : R := total_volume cells / total_area64 areas * (9 / 10 ^ 15 + 9 / 4 * INR k / 2 ^ 53).

Lemma size_nonneg v : size_ok v -> 0 <= B2R v.
Proof. intros [->|(_ & [->|H])]; [cbn; lra|lra|]. assert (0 < / 10 ^ 100) by (apply Rinv_0_lt_compat, pow_lt; lra). lra. Qed.
Lemma gcell_cases patm c : 0 <= patm <= 110000 -> gcell_ok c -> 0 <= B2R (g_vol c) /\ (B2R (g_vol c) = 0 \/
  let p := B2R (g_z c) * 10000 + patm in ocean_box (B2R (g_T c)) (B2R (g_S c)) p /\ ocean_box (B2R (g_Tref c)) (B2R (g_Sref c)) p).
Proof.
  intros P [Sz K]. split; [exact (size_nonneg _ Sz)|]. destruct Sz as [->|[F _]]; [left; reflexivity|right].
  destruct (K F) as (_ & _ & _ & _ & _ & Z & A & B & C & D). unfold ocean_box. lra.
Qed.

Section Grid.
  Variables (patm : R) (cells : list gcell).
  Hypothesis P : 0 <= patm <= 110000.
  Hypothesis G : Forall gcell_ok cells.
  Lemma cell_in c : In c cells -> 0 <= B2R (g_vol c) /\ (B2R (g_vol c) = 0 \/
    let p := B2R (g_z c) * 10000 + patm in ocean_box (B2R (g_T c)) (B2R (g_S c)) p /\ ocean_box (B2R (g_Tref c)) (B2R (g_Sref c)) p).
  Proof. intros I. apply gcell_cases; [exact P|]. rewrite Forall_forall in G. exact (G c I). Qed.
  Lemma vol_scal a : a * total_volume cells = rsum (map (fun c => a * B2R (g_vol c)) cells).
  Proof. unfold total_volume. clear. induction cells as [|c l IH]; cbn [map rsum]; [ring|]. rewrite <- IH. ring. Qed.
  Lemma masses : 980 * total_volume cells <= total_mass64 patm cells <= 1100 * total_volume cells /\
    980 * total_volume cells <= reference_mass64 patm cells <= 1100 * total_volume cells.
  Proof.
    rewrite !vol_scal. unfold total_mass64, reference_mass64.
    split; split; apply rsum_le; intros c I; destruct (cell_in c I) as [V [-> | [B1 B0]]]; try lra;
      [assert (X := rho_bounds _ _ _ B1)|assert (X := rho_bounds _ _ _ B1)|assert (X := rho_bounds _ _ _ B0)|assert (X := rho_bounds _ _ _ B0)]; rewrite Rmult_comm; try apply Rmult_le_compat_l; try apply Rmult_le_compat_r; lra.
  Qed.
  Lemma mass_difference : reference_mass64 patm cells - total_mass64 patm cells =
    rsum (map (fun c => B2R (g_vol c) * (wr_rho (B2R (g_Tref c)) (B2R (g_Sref c)) (B2R (g_z c) * 10000 + patm) - wr_rho (B2R (g_T c)) (B2R (g_S c)) (B2R (g_z c) * 10000 + patm))) cells).
  Proof. unfold total_mass64, reference_mass64. clear. induction cells as [|c l IH]; cbn [map rsum]; [ring|]. rewrite <- IH. ring. Qed.
  Lemma mass_bound : Rabs (reference_mass64 patm cells - total_mass64 patm cells) <= 0.5 * heat_change cells + 0.83 * salt_change cells.
  Proof.
    rewrite mass_difference. unfold heat_change, salt_change.
    rewrite <- (rsum_lin (fun c => B2R (g_vol c) * Rabs (B2R (g_T c) - B2R (g_Tref c))) (fun c => B2R (g_vol c) * Rabs (B2R (g_S c) - B2R (g_Sref c))) 0.5 0.83 cells).
    apply rsum_abs_le. intros c I. destruct (cell_in c I) as [V [-> | [B1 B0]]]; [rewrite !Rmult_0_l, Rabs_R0; lra|].
    set (p := B2R (g_z c) * 10000 + patm) in *. set (v := B2R (g_vol c)) in *. set (T1 := B2R (g_T c)) in *. set (S1 := B2R (g_S c)) in *. set (T0 := B2R (g_Tref c)) in *. set (S0 := B2R (g_Sref c)) in *.
    assert (BM : ocean_box T0 S1 p) by (unfold ocean_box in *; lra).
    destruct (diff_T T0 T1 S1 p BM B1) as (a & Ha & Ea). destruct (diff_S T0 S0 S1 p B0 BM) as (b & Hb & Eb).
    replace (wr_rho T0 S0 p - wr_rho T1 S1 p) with (- (a * (T1 - T0) + b * (S1 - S0))) by lra.
    rewrite Rabs_mult, Rabs_Ropp, (Rabs_pos_eq v) by exact V.
    replace (0.5 * (v * Rabs (T1 - T0)) + 0.83 * (v * Rabs (S1 - S0))) with (v * (0.5 * Rabs (T1 - T0) + 0.83 * Rabs (S1 - S0))) by ring.
    apply Rmult_le_compat_l; [exact V|]. eapply Rle_trans; [apply Rabs_triang|]. rewrite !Rabs_mult.
    apply Rplus_le_compat; apply Rmult_le_compat_r; try apply Rabs_pos; apply Rabs_le; lra.
  Qed.
  Lemma mass_fresh64 : (forall c, In c cells -> B2R (g_vol c) <> 0 -> B2R (g_S c) <= B2R (g_Sref c)) -> (forall c, In c cells -> g_T c = g_Tref c) ->
    0.65 * freshening cells <= reference_mass64 patm cells - total_mass64 patm cells <= 0.83 * freshening cells.
  Proof.
    intros F E. rewrite mass_difference.
    assert (X : forall a, a * freshening cells = rsum (map (fun c => a * (B2R (g_vol c) * (B2R (g_Sref c) - B2R (g_S c)))) cells)).
    { intros a. unfold freshening. clear. induction cells as [|c l IH]; cbn [map rsum]; [ring|]. rewrite <- IH. ring. }
    rewrite !X. split; apply rsum_le; intros c I; destruct (cell_in c I) as [V [Z | [B1 B0]]]; try (rewrite Z; lra); specialize (F c I); rewrite (E c I) in *;
    (destruct (Req_dec (B2R (g_vol c)) 0) as [Z|N]; [rewrite Z; lra|]); specialize (F N); destruct (diff_S _ _ _ _ B1 B0) as (b & Hb & ->);
    replace (B2R (g_vol c) * (b * (B2R (g_Sref c) - B2R (g_S c)))) with (b * (B2R (g_vol c) * (B2R (g_Sref c) - B2R (g_S c)))) by ring;
    (apply Rmult_le_compat_r; [apply Rmult_le_pos; lra|lra]).
  Qed.
End Grid.

Lemma means V M : 0 < V -> 980 * V <= M <= 1100 * V -> 980 <= M / V <= 1100.
Proof. intros HV H. split; apply Rmult_le_reg_r with V; try exact HV; unfold Rdiv; rewrite Rmult_assoc, Rinv_l, Rmult_1_r by lra; lra. Qed.
Lemma ln_split V a b : 0 < V -> 0 < a -> 0 < b -> ln (a / b) = ln (a / V) - ln (b / V).
Proof. intros HV Ha Hb. unfold Rdiv. rewrite !ln_mult, !ln_Rinv by (try apply Rinv_0_lt_compat; assumption). ring. Qed.

(** ** C175: in binary64 the global steric height (and the thermosteric and halosteric one, with one of the changes zero) is bounded by the
    volume-weighted changes of temperature and salinity. *)
Theorem C175_bound : forall log64 k sum patm cells areas, sea_grid log64 k sum patm cells areas ->
  Rabs (B2R (global64 log64 sum patm cells areas)) <= (0.5 * heat_change cells + 0.83 * salt_change cells) / (980 * total_area64 areas) + rounding k cells areas.
Proof.
  intros log64 k sum patm cells areas [A B [C C'] D E F G H]. destruct (C98_global64 log64 k sum patm cells areas A B C C' D E F G H) as [_ K]. fold (rounding k cells areas) in K.
  destruct (masses (B2R patm) cells C' D) as [M1 M0]. assert (MB := mass_bound (B2R patm) cells C' D). destruct F as [F _], G as [G _].
  set (V := total_volume cells) in *. set (W := total_area64 areas) in *. set (M := total_mass64 (B2R patm) cells) in *. set (R := reference_mass64 (B2R patm) cells) in *.
  set (bound := 0.5 * heat_change cells + 0.83 * salt_change cells) in *.
  rewrite (ln_split V R M F) in K by lra.
  assert (L := ln_lipschitz 980 (R / V) (M / V) ltac:(lra) (proj1 (means V R F M0)) (proj1 (means V M F M1))).
  replace (R / V - M / V) with ((R - M) * / V) in L by (unfold Rdiv; ring). rewrite Rabs_mult, (Rabs_pos_eq (/ V)) in L by (apply Rlt_le, Rinv_0_lt_compat, F).
  assert (VW : 0 < V / W) by (apply Rdiv_lt_0_compat; assumption).
  assert (X : Rabs (V / W * (ln (R / V) - ln (M / V))) <= bound / (980 * W)).
  { rewrite Rabs_mult, (Rabs_pos_eq (V / W)) by lra. apply Rmult_le_compat_l with (r := V / W) in L; [|lra]. eapply Rle_trans; [exact L|].
    replace (V / W * (Rabs (R - M) * / V / 980)) with (Rabs (R - M) * / (980 * W)) by (field; lra). apply Rmult_le_compat_r; [apply Rlt_le, Rinv_0_lt_compat; lra|exact MB]. }
  apply Rabs_le_inv in K, X. apply Rabs_le. lra.
Qed.
Print Assumptions C175_bound.

(** Where no salinity has risen, the global halosteric height is the freshening times 0.65/1100 to 0.83/980 per area, up to rounding. *)
Theorem C175_freshening : forall log64 k sum patm cells areas, sea_grid log64 k sum patm (map ghalo cells) areas ->
  (forall c, In c cells -> B2R (g_vol c) <> 0 -> B2R (g_S c) <= B2R (g_Sref c)) ->
  0.65 * freshening cells / (1100 * total_area64 areas) - rounding k cells areas <= B2R (global64 log64 sum patm (map ghalo cells) areas)
    <= 0.83 * freshening cells / (980 * total_area64 areas) + rounding k cells areas.
Proof.
  intros log64 k sum patm cells areas [A B [C C'] D E F G H] Fr. destruct (C98_global64 log64 k sum patm (map ghalo cells) areas A B C C' D E F G H) as [_ K]. fold (rounding k (map ghalo cells) areas) in K.
  assert (EV : total_volume (map ghalo cells) = total_volume cells) by (unfold total_volume; rewrite map_map; reflexivity).
  assert (EF : freshening (map ghalo cells) = freshening cells) by (unfold freshening; rewrite map_map; reflexivity).
  replace (rounding k (map ghalo cells) areas) with (rounding k cells areas) in K by (unfold rounding; rewrite EV; reflexivity).
  destruct (masses (B2R patm) _ C' D) as [M1 M0]. assert (MF := mass_fresh64 (B2R patm) _ C' D). rewrite EF in MF. destruct F as [F _], G as [G _].
  assert (MD := MF ltac:(intros c I N; apply in_map_iff in I as (c0 & <- & I); exact (Fr c0 I N)) ltac:(intros c I; apply in_map_iff in I as (c0 & <- & I); reflexivity)). clear MF.
  rewrite EV in F, M1, M0, K. set (V := total_volume cells) in *. set (W := total_area64 areas) in *. set (M := total_mass64 (B2R patm) (map ghalo cells)) in *. set (R := reference_mass64 (B2R patm) (map ghalo cells)) in *.
  assert (FN : 0 <= freshening cells) by lra.
  rewrite (ln_split V R M F) in K by lra.
  assert (Le : M / V <= R / V) by (apply Rmult_le_compat_r; [apply Rlt_le, Rinv_0_lt_compat, F|lra]).
  destruct (ln_bounds 980 1100 (R / V) (M / V) ltac:(lra) (means V R F M0) (means V M F M1) Le) as [L1 L2].
  assert (VW : 0 < V / W) by (apply Rdiv_lt_0_compat; assumption).
  apply Rmult_le_compat_l with (r := V / W) in L1; [|lra]. apply Rmult_le_compat_l with (r := V / W) in L2; [|lra].
  replace (V / W * ((R / V - M / V) / 1100)) with ((R - M) * / (1100 * W)) in L1 by (field; lra).
  replace (V / W * ((R / V - M / V) / 980)) with ((R - M) * / (980 * W)) in L2 by (field; lra).
  assert (U1 : 0.65 * freshening cells / (1100 * W) <= (R - M) * / (1100 * W)) by (apply Rmult_le_compat_r; [apply Rlt_le, Rinv_0_lt_compat; lra|lra]).
  assert (U2 : (R - M) * / (980 * W) <= 0.83 * freshening cells / (980 * W)) by (apply Rmult_le_compat_r; [apply Rlt_le, Rinv_0_lt_compat; lra|lra]).
  apply Rabs_le_inv in K. lra.
Qed.
Print Assumptions C175_freshening.

(** Products of the changes of temperature and salinity. *)
Definition mixed_change (cells : list gcell) : R :=
  rsum (map (fun c => B2R (g_vol c) * (Rabs (B2R (g_T c) - B2R (g_Tref c)) * Rabs (B2R (g_S c) - B2R (g_Sref c)))) cells).
Lemma mass_mixed64 patm cells : 0 <= patm <= 110000 -> Forall gcell_ok cells ->
  Rabs (total_mass64 patm cells - total_mass64 patm (map ghalo cells) - total_mass64 patm (map gthermo cells) + reference_mass64 patm cells) <= 0.0051 * mixed_change cells.
Proof.
  intros P G.
  replace (total_mass64 patm cells - total_mass64 patm (map ghalo cells) - total_mass64 patm (map gthermo cells) + reference_mass64 patm cells)
    with (rsum (map (fun c => let p := B2R (g_z c) * 10000 + patm in B2R (g_vol c) * (wr_rho (B2R (g_T c)) (B2R (g_S c)) p - wr_rho (B2R (g_T c)) (B2R (g_Sref c)) p
       - wr_rho (B2R (g_Tref c)) (B2R (g_S c)) p + wr_rho (B2R (g_Tref c)) (B2R (g_Sref c)) p)) cells)).
  - replace (0.0051 * mixed_change cells) with (rsum (map (fun c => 0.0051 * (B2R (g_vol c) * (Rabs (B2R (g_T c) - B2R (g_Tref c)) * Rabs (B2R (g_S c) - B2R (g_Sref c))))) cells)).
    + apply rsum_abs_le. intros c I. cbv zeta. destruct (cell_in patm cells P G c I) as [V [-> | [B1 B0]]]; [rewrite !Rmult_0_l, Rabs_R0; lra|].
      destruct (diff_TS _ _ _ _ _ B0 B1) as (k & Hk & ->). rewrite !Rabs_mult, (Rabs_pos_eq (B2R (g_vol c))) by exact V.
      set (x := Rabs (B2R (g_T c) - B2R (g_Tref c)) * Rabs (B2R (g_S c) - B2R (g_Sref c))). assert (X : 0 <= x) by (apply Rmult_le_pos; apply Rabs_pos).
      replace (B2R (g_vol c) * (Rabs k * x)) with (Rabs k * (B2R (g_vol c) * x)) by ring. apply Rmult_le_compat_r; [apply Rmult_le_pos; assumption|exact Hk].
    + unfold mixed_change. clear. induction cells as [|c l IH]; cbn [map rsum]; [ring|]. rewrite IH. ring.
  - unfold total_mass64, reference_mass64. rewrite !map_map. clear. induction cells as [|c l IH]; cbn [map rsum]; [ring|]. rewrite IH. unfold ghalo, gthermo. cbn [g_vol g_z g_T g_S g_Tref g_Sref]. ring.
Qed.

Lemma four_masses v w a b c d : 0 < v -> 0 < w -> 980 * v <= a <= 1100 * v -> 980 * v <= b <= 1100 * v -> 980 * v <= c <= 1100 * v -> 980 * v <= d <= 1100 * v ->
  let h x := v / w * ln (a / x) in
  Rabs (h d - (h c + h b)) <= 1 / w * ((1100 * Rabs (d - b - c + a) + Rabs (c - a) * Rabs (b - a) / v) / (980 * 980)).
Proof.
  intros Y A R1 R2 R3 R4 h. unfold h. rewrite (ln_split v a d Y), (ln_split v a c Y), (ln_split v a b Y) by lra.
  apply (means v _ Y) in R1, R2, R3, R4. set (D := Rabs (d - b - c + a)). set (P := Rabs (c - a)). set (Q := Rabs (b - a)).
  set (a' := a / v) in *. set (b' := b / v) in *. set (c' := c / v) in *. set (d' := d / v) in *.
  replace (v / w * (ln a' - ln d') - (v / w * (ln a' - ln c') + v / w * (ln a' - ln b'))) with (v / w * (ln (c' * b') - ln (d' * a'))) by (rewrite !ln_mult by lra; ring).
  assert (B1 : 980 * 980 <= c' * b') by (apply Rmult_le_compat; lra). assert (B2 : 980 * 980 <= d' * a') by (apply Rmult_le_compat; lra).
  assert (L := ln_lipschitz (980 * 980) (c' * b') (d' * a') ltac:(lra) B1 B2).
  assert (P0 : 0 <= v / w) by (apply Rlt_le, Rdiv_lt_0_compat; assumption). rewrite Rabs_mult, (Rabs_pos_eq (v / w)) by exact P0.
  assert (E : Rabs (c' * b' - d' * a') <= (1100 * D + P * Q / v) / v).
  { replace (c' * b' - d' * a') with ((c' - a') * (b' - a') + - (a' * (d' - b' - c' + a'))) by ring.
    eapply Rle_trans; [apply Rabs_triang|]. rewrite Rabs_Ropp, !Rabs_mult, (Rabs_pos_eq a') by lra.
    assert (I : 0 < / v) by (apply Rinv_0_lt_compat; exact Y).
    assert (X1 : Rabs (c' - a') = P * / v) by (unfold P; rewrite <- (Rabs_pos_eq (/ v)) by lra; rewrite <- Rabs_mult; f_equal; unfold c', a'; field; lra).
    assert (X2 : Rabs (b' - a') = Q * / v) by (unfold Q; rewrite <- (Rabs_pos_eq (/ v)) by lra; rewrite <- Rabs_mult; f_equal; unfold b', a'; field; lra).
    assert (X3 : Rabs (d' - b' - c' + a') = D * / v) by (unfold D; rewrite <- (Rabs_pos_eq (/ v)) by lra; rewrite <- Rabs_mult; f_equal; unfold d', b', c', a'; field; lra).
    rewrite X1, X2, X3. assert (ZD : 0 <= D * / v) by (apply Rmult_le_pos; [apply Rabs_pos|lra]).
    assert (W : a' * (D * / v) <= 1100 * (D * / v)) by (apply Rmult_le_compat_r; lra). unfold Rdiv. lra. }
  assert (L2 : Rabs (ln (c' * b') - ln (d' * a')) <= (1100 * D + P * Q / v) / v / (980 * 980)).
  { eapply Rle_trans; [exact L|]. apply Rmult_le_compat_r; [apply Rlt_le, Rinv_0_lt_compat; lra|exact E]. }
  apply Rmult_le_compat_l with (r := v / w) in L2; [|exact P0]. eapply Rle_trans; [exact L2|]. apply Req_le. field. split; lra.
Qed.

(** The three global heights add up, up to rounding and terms of second order. *)
Theorem C175_nearly_additive : forall log64 k sum patm cells areas,
  sea_grid log64 k sum patm cells areas -> sea_grid log64 k sum patm (map gthermo cells) areas -> sea_grid log64 k sum patm (map ghalo cells) areas ->
  Rabs (B2R (global64 log64 sum patm cells areas) - (B2R (global64 log64 sum patm (map gthermo cells) areas) + B2R (global64 log64 sum patm (map ghalo cells) areas))) <=
    1 / total_area64 areas * ((1100 * (0.0051 * mixed_change cells) + (0.5 * heat_change cells) * (0.83 * salt_change cells) / total_volume cells) / (980 * 980))
    + 3 * rounding k cells areas.
Proof.
  intros log64 k sum patm cells areas [A B [C C'] D E F G H] [A2 B2 _ D2 E2 F2 G2 H2] [A3 B3 _ D3 E3 F3 G3 H3].
  destruct (C98_global64 log64 k sum patm cells areas A B C C' D E F G H) as [_ K]. fold (rounding k cells areas) in K.
  destruct (C98_global64 log64 k sum patm (map gthermo cells) areas A B C C' D2 E F2 G H2) as [_ K2]. destruct (C98_global64 log64 k sum patm (map ghalo cells) areas A B C C' D3 E F3 G H3) as [_ K3].
  assert (V2 : total_volume (map gthermo cells) = total_volume cells) by (unfold total_volume; rewrite map_map; reflexivity).
  assert (V3 : total_volume (map ghalo cells) = total_volume cells) by (unfold total_volume; rewrite map_map; reflexivity).
  assert (R2 : reference_mass64 (B2R patm) (map gthermo cells) = reference_mass64 (B2R patm) cells) by (unfold reference_mass64; rewrite map_map; reflexivity).
  assert (R3 : reference_mass64 (B2R patm) (map ghalo cells) = reference_mass64 (B2R patm) cells) by (unfold reference_mass64; rewrite map_map; reflexivity).
  rewrite V2, R2 in K2. rewrite V3, R3 in K3. fold (rounding k cells areas) in K2, K3.
  destruct (masses (B2R patm) cells C' D) as [M1 M0]. destruct (masses (B2R patm) _ C' D2) as [M2 _]. destruct (masses (B2R patm) _ C' D3) as [M3 _]. rewrite V2 in M2. rewrite V3 in M3.
  assert (X := mass_mixed64 (B2R patm) cells C' D). assert (P2 := mass_bound (B2R patm) _ C' D2). assert (P3 := mass_bound (B2R patm) _ C' D3). rewrite R2 in P2. rewrite R3 in P3.
  assert (Z : forall l, rsum (map (fun _ : gcell => 0) l) = 0) by (induction l as [|c l IH]; cbn [map rsum]; [reflexivity|rewrite IH; ring]).
  assert (S2 : salt_change (map gthermo cells) = 0).
  { unfold salt_change. rewrite map_map. erewrite map_ext; [apply Z|]. intros c. unfold gthermo. cbn [g_vol g_S g_Sref]. rewrite Rminus_eq_0, Rabs_R0. ring. }
  assert (S3 : heat_change (map ghalo cells) = 0).
  { unfold heat_change. rewrite map_map. erewrite map_ext; [apply Z|]. intros c. unfold ghalo. cbn [g_vol g_T g_Tref]. rewrite Rminus_eq_0, Rabs_R0. ring. }
  replace (heat_change (map gthermo cells)) with (heat_change cells) in P2 by (unfold heat_change; rewrite map_map; reflexivity).
  replace (salt_change (map ghalo cells)) with (salt_change cells) in P3 by (unfold salt_change; rewrite map_map; reflexivity).
  rewrite S2, Rmult_0_r, Rplus_0_r in P2. rewrite S3, Rmult_0_r, Rplus_0_l in P3. destruct F as [F _], G as [G _].
  set (v := total_volume cells) in *. set (w := total_area64 areas) in *. set (a := reference_mass64 (B2R patm) cells) in *. set (d := total_mass64 (B2R patm) cells) in *.
  set (c := total_mass64 (B2R patm) (map gthermo cells)) in *. set (b := total_mass64 (B2R patm) (map ghalo cells)) in *.
  assert (Q := four_masses v w a b c d F G M0 M3 M2 M1). cbv zeta in Q. rewrite Rabs_minus_sym in P2, P3.
  assert (U : 1 / w * ((1100 * Rabs (d - b - c + a) + Rabs (c - a) * Rabs (b - a) / v) / (980 * 980)) <=
    1 / w * ((1100 * (0.0051 * mixed_change cells) + (0.5 * heat_change cells) * (0.83 * salt_change cells) / v) / (980 * 980))).
  { apply Rmult_le_compat_l; [apply Rlt_le, Rdiv_lt_0_compat; lra|]. apply Rmult_le_compat_r; [apply Rlt_le, Rinv_0_lt_compat; lra|]. apply Rplus_le_compat; [apply Rmult_le_compat_l; [lra|exact X]|].
    apply Rmult_le_compat_r; [apply Rlt_le, Rinv_0_lt_compat, F|]. apply Rmult_le_compat; [apply Rabs_pos|apply Rabs_pos|exact P2|exact P3]. }
  apply Rabs_le_inv in K, K2, K3, Q. apply Rabs_le. lra.
Qed.
Print Assumptions C175_nearly_additive.

(** Two ocean cells and one of land; the upper cell has warmed from 10 to 11 degC and freshened from 36 to 35. *)
Definition fresher64 : list gcell :=
  [mkGcell (of_Z (10 ^ 12)) (of_Z 5) (of_Z 11) (of_Z 35) (of_Z 10) (of_Z 36); land64;
   mkGcell (of_Z (10 ^ 13)) (of_Z 1000) (of_Z 4) (of_Z 34) (of_Z 4) (of_Z 34)].
Lemma fresher_grid f : (f = (fun c => c) \/ f = gthermo \/ f = ghalo) -> sea_grid log_nearest 3 seqsum (of_Z 101325) (map f fresher64) demo_areas.
Proof.
  intros Hf. destruct (demo_ok 10 ltac:(lia)) as (_ & C2 & C3 & C4). destruct (of_Z_rep 101325 ltac:(lia)) as [F V].
  assert (TV : total_volume (map f fresher64) = IZR (11 * 10 ^ 12)) by (rewrite <- C3; destruct Hf as [-> | [-> | ->]]; reflexivity).
  constructor.
  - exact C98_log.
  - lia.
  - split; [exact F|rewrite V; lra].
  - unfold fresher64. destruct Hf as [-> | [-> | ->]]; cbn [map gthermo ghalo g_vol g_z g_T g_S g_Tref g_Sref land64];
      (apply Forall_cons; [apply cell_of_Z; lia|]; apply Forall_cons; [split; [left; reflexivity|discriminate]|]; apply Forall_cons; [apply cell_of_Z; lia|apply Forall_nil]).
  - exact C2.
  - rewrite TV. split; [apply IZR_lt; reflexivity|]. rewrite pow_IZR. apply IZR_le. vm_compute. discriminate.
  - rewrite C4. split; [lra|]. rewrite pow_IZR. apply IZR_le. vm_compute. discriminate.
  - apply C98_sum; try discriminate; cbn; lia.
Qed.
Example C175_case : sea_grid log_nearest 3 seqsum (of_Z 101325) fresher64 demo_areas /\ sea_grid log_nearest 3 seqsum (of_Z 101325) (map gthermo fresher64) demo_areas /\
  sea_grid log_nearest 3 seqsum (of_Z 101325) (map ghalo fresher64) demo_areas /\
  (forall c, In c fresher64 -> B2R (g_vol c) <> 0 -> B2R (g_S c) <= B2R (g_Sref c)) /\ 0 < freshening fresher64 /\
  (* the water has become lighter: sea level rises by more than a metre *)
  1 < B2R (global64 log_nearest seqsum (of_Z 101325) (map ghalo fresher64) demo_areas).
Proof.
  assert (Fr : forall c, In c fresher64 -> B2R (g_vol c) <> 0 -> B2R (g_S c) <= B2R (g_Sref c)).
  { b2r (of_Z 35) H0. b2r (of_Z 36) H1. b2r (of_Z 34) H2. intros c [<-|[<-|[<-|[]]]]; cbn [g_S g_Sref land64]; intros _; [lra|cbn [B2R]; lra|lra]. }
  assert (GH := fresher_grid ghalo ltac:(auto)).
  destruct (of_Z_rep (10 ^ 12) ltac:(lia)) as [_ V1]. destruct (of_Z_rep (10 ^ 13) ltac:(lia)) as [_ V2].
  destruct (demo_ok 10 ltac:(lia)) as (_ & _ & C3 & C4).
  assert (E : freshening fresher64 = 1000000000000).
  { unfold freshening, fresher64. cbn [map rsum g_vol g_S g_Sref land64]. rewrite V1, V2. b2r (of_Z 35) H0. b2r (of_Z 36) H1. b2r (of_Z 34) H2. rewrite H0, H1, H2. cbn [B2R].
    change (10 ^ 12)%Z with 1000000000000%Z. change (10 ^ 13)%Z with 10000000000000%Z. lra. }
  split; [rewrite <- (map_id fresher64); exact (fresher_grid (fun c => c) ltac:(auto))|]. split; [apply fresher_grid; auto|]. split; [exact GH|]. split; [exact Fr|]. split; [rewrite E; lra|].
  destruct (C175_freshening _ _ _ _ _ _ GH Fr) as [L _]. rewrite E, C4 in L. unfold rounding in L. rewrite C4 in L.
  replace (total_volume fresher64) with (IZR (11 * 10 ^ 12)) in L by (rewrite <- C3; reflexivity).
  eapply Rlt_le_trans; [|exact L]. change (11 * 10 ^ 12)%Z with 11000000000000%Z. replace (INR 3) with 3 by (cbn; lra). lra.
Qed.
