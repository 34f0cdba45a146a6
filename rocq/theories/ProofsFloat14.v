(** * ProofsFloat14: the local steric height of single precision data (proofs only) *)
From Coq Require Import Reals Lra Lia List ZArith Bool Permutation QArith Qreals.
From Flocq Require Import Core IEEE754.BinarySingleNaN.
From Verif Require Import SpecFloat64 Ieee Ieee32 SpecIeee SpecIeee32 SpecDz SpecEos ProofsEos ProofsEosBox ProofsFloat ProofsFloat2 ProofsIeee
  ProofsFloat3 ProofsFloat4 ProofsFloat5 ProofsFloat6 ProofsFloat13.
Import ListNotations.
Local Open Scope R_scope.

Lemma widen_finite (x : f32) : is_finite (widen x) = is_finite x.
Proof.
  destruct x as [s|s| |s m e Hb]; try reflexivity. set (x := B754_finite s m e Hb).
  exact (proj1 (widen_rep x _ (conj eq_refl eq_refl))).
Qed.
Lemma widen_value (x : f32) : is_finite x = true -> B2R (widen x) = B2R x.
Proof. intros F. exact (proj2 (widen_rep x _ (conj F eq_refl))). Qed.

Section Term32.
Variables (depth patm : f64) (c : cell32).
Hypotheses (Fd : is_finite depth = true) (Fa : is_finite patm = true).
Hypotheses (Hd : 0 <= B2R depth) (Ha : 0 <= B2R patm <= 110000).
Hypothesis Fc : cell_finite (wide c).
Hypothesis Hz : 0 <= B2R (ztop32 c) <= B2R (zbot32 c).
Hypothesis Hw : wet32 c = true -> wet_ok (wide c).
Let dz := thickness (B2R depth) (wide c).
Hypothesis Small : dz <= 12000.

Lemma term_delta32 : wet32 c = true -> is_finite (delta_rho32 patm c) = true /\
  Rabs (B2R (delta_rho32 patm c) - exact_delta (B2R patm) (wide c)) <= 7.7e-4.
Proof.
  intros W. assert (DB := delta_bound patm (wide c) Ha Hw W).
  destruct (Hw W) as (G1 & G2 & G3 & G4 & G5 & G6 & G7 & G8 & G9 & G10).
  unfold wide in G1, G2, G3, G4, G5, G6, G7, G8, G9, G10. cbn [zmid temp salt temp_ref salt_ref] in *.
  rewrite widen_finite in G2, G3, G4, G5. rewrite widen_value in G7, G8, G9, G10 by assumption.
  unfold delta_rho32, exact_delta in *. unfold wide in *. cbn [wet zmid temp salt temp_ref salt_ref] in *. rewrite W in *.
  rewrite !widen_value in * by assumption.
  destruct (density32_at (temp32 c) (salt32 c) G2 G3 (zmid32 c) patm G1 Fa G7 G8 G6 Ha) as [R1 E1].
  destruct (density32_at (temp_ref32 c) (salt_ref32 c) G4 G5 (zmid32 c) patm G1 Fa G9 G10 G6 Ha) as [R2 E2].
  set (x := density32 (temp32 c) (salt32 c) (pressure64 (zmid32 c) patm)) in *.
  set (y := density32 (temp_ref32 c) (salt_ref32 c) (pressure64 (zmid32 c) patm)) in *.
  set (a := wr_rho (B2R (temp32 c)) _ _) in *. set (b := wr_rho (B2R (temp_ref32 c)) _ _) in *.
  assert (D : Rabs (B2R x - B2R y - (a - b)) <= 76 / 100000).
  { replace (B2R x - B2R y - (a - b)) with ((B2R x - a) + - (B2R y - b)) by ring.
    eapply Rle_trans; [apply Rabs_triang|]. rewrite Rabs_Ropp. lra. }
  assert (M : Rabs (B2R x - B2R y) <= 121).
  { replace (B2R x - B2R y) with ((B2R x - B2R y - (a - b)) + (a - b)) by ring.
    eapply Rle_trans; [apply Rabs_triang|]. lra. }
  assert (Er := fl_error (B2R x - B2R y)). assert (U := u_lt). assert (U0 := u_pos). assert (Et := eta_small).
  assert (Um : u * Rabs (B2R x - B2R y) <= / 10 ^ 15 * 121).
  { apply Rmult_le_compat; try lra. apply Rabs_pos. }
  assert (T : Rabs (fl (B2R x - B2R y) - (a - b)) <= 7.7e-4).
  { replace (fl (B2R x - B2R y) - (a - b)) with ((fl (B2R x - B2R y) - (B2R x - B2R y)) + (B2R x - B2R y - (a - b))) by ring.
    eapply Rle_trans; [apply Rabs_triang|]. cbn [pow] in *. lra. }
  destruct (sub64_rep x y _ _ (conj R1 eq_refl) (conj R2 eq_refl)) as [R3 V].
  { apply fits_small. assert (MS := million_small).
    replace (fl (B2R x - B2R y)) with ((fl (B2R x - B2R y) - (a - b)) + (a - b)) by ring.
    eapply Rle_trans; [apply Rabs_triang|]. lra. }
  split; [exact R3|]. rewrite V. exact T.
Qed.

Lemma term_close32 : is_finite (term32 depth patm c) = true /\
  Rabs (B2R (term32 depth patm c) - dz * exact_delta (B2R patm) (wide c)) <= 7.71e-4 * dz + / 10 ^ 25
  /\ Rabs (B2R (term32 depth patm c)) <= 122 * dz + / 10 ^ 25.
Proof.
  assert (D0 : 0 <= dz) by apply thickness_nonneg. assert (I25 : 0 < / 10 ^ 25) by (apply Rinv_0_lt_compat, pow_lt; lra).
  unfold term32. destruct (Bool.bool_dec (wet32 c) true) as [W|W].
  2:{ apply not_true_is_false in W. assert (E : delta_rho32 patm c = B754_nan) by (unfold delta_rho32; rewrite W; reflexivity). rewrite E.
      assert (N : (dz64 (ztop32 c) (zbot32 c) depth zero * B754_nan)%f64 = B754_nan).
      { destruct (dz64 (ztop32 c) (zbot32 c) depth zero); reflexivity. }
      rewrite N. unfold skipna. cbn [is_nan]. split; [reflexivity|]. cbn [B2R zero]. unfold exact_delta, wide. cbn [wet]. rewrite W.
      rewrite Rmult_0_r, Rminus_diag_eq by reflexivity. rewrite Rabs_R0. lra. }
  destruct (term_dz depth (wide c) Fd Hd Fc Hz) as [F1 E1]. destruct (term_delta32 W) as [F2 E2]. assert (DB := delta_bound patm (wide c) Ha Hw W).
  cbn [wide ztop zbot] in F1, E1. fold dz in E1.
  set (x := dz64 (ztop32 c) (zbot32 c) depth zero) in *. set (y := delta_rho32 patm c) in *. set (d := exact_delta (B2R patm) (wide c)) in *.
  assert (U := u_lt). assert (U0 := u_pos). assert (Et := eta_small). assert (Et0 := eta_pos).
  assert (Y : Rabs (B2R y) <= 121).
  { replace (B2R y) with ((B2R y - d) + d) by ring. eapply Rle_trans; [apply Rabs_triang|]. lra. }
  assert (X : Rabs (B2R x) <= dz + (u * dz + eta)).
  { replace (B2R x) with ((B2R x - dz) + dz) by ring. eapply Rle_trans; [apply Rabs_triang|].
    rewrite (Rabs_right dz) by lra. lra. }
  assert (P : Rabs (B2R x * B2R y - dz * d) <= 121 * (u * dz + eta) + dz * 7.7e-4).
  { replace (B2R x * B2R y - dz * d) with ((B2R x - dz) * B2R y + dz * (B2R y - d)) by ring.
    eapply Rle_trans; [apply Rabs_triang|]. rewrite !Rabs_mult, (Rabs_right dz) by lra.
    apply Rplus_le_compat; [|apply Rmult_le_compat_l; lra].
    rewrite Rmult_comm. apply Rmult_le_compat; try apply Rabs_pos; assumption. }
  assert (Q : Rabs (B2R x * B2R y) <= 121 * (dz + (u * dz + eta))).
  { rewrite Rabs_mult, Rmult_comm. apply Rmult_le_compat; try apply Rabs_pos; assumption. }
  assert (Er := fl_error (B2R x * B2R y)).
  assert (Ud : u * dz <= / 10 ^ 15 * dz) by (apply Rmult_le_compat_r; lra).
  assert (Uq : u * Rabs (B2R x * B2R y) <= / 10 ^ 15 * (121 * (dz + (u * dz + eta)))).
  { apply Rmult_le_compat; try lra. apply Rabs_pos. }
  assert (T : Rabs (fl (B2R x * B2R y) - dz * d) <= 7.71e-4 * dz + / 10 ^ 25).
  { replace (fl (B2R x * B2R y) - dz * d) with ((fl (B2R x * B2R y) - B2R x * B2R y) + (B2R x * B2R y - dz * d)) by ring.
    eapply Rle_trans; [apply Rabs_triang|]. cbn [pow] in *. lra. }
  assert (T' : Rabs (fl (B2R x * B2R y)) <= 122 * dz + / 10 ^ 25).
  { replace (fl (B2R x * B2R y)) with ((fl (B2R x * B2R y) - B2R x * B2R y) + B2R x * B2R y) by ring.
    eapply Rle_trans; [apply Rabs_triang|]. cbn [pow] in *. lra. }
  destruct (mul64_rep x y _ _ (conj F1 eq_refl) (conj F2 eq_refl)) as [R V].
  { apply fits_small. assert (MS := million_small). eapply Rle_trans; [exact T'|]. cbn [pow] in *. lra. }
  unfold skipna. rewrite (finite_not_nan _ R). split; [exact R|]. rewrite V. split; assumption.
Qed.
End Term32.

Section Column32.
Variables (rhozero depth patm : f64) (column : list cell32).
Hypotheses (Fr : is_finite rhozero = true) (Fd : is_finite depth = true) (Fa : is_finite patm = true).
Hypotheses (Hr : 1000 <= B2R rhozero <= 1100) (Hd : 0 <= B2R depth) (Ha : 0 <= B2R patm <= 110000).
Hypothesis Hc : forall c, In c column ->
  cell_finite (wide c) /\ 0 <= B2R (ztop32 c) <= B2R (zbot32 c) /\ (wet32 c = true -> wet_ok (wide c)).
Let total := rsum (map (fun c => thickness (B2R depth) (wide c)) column).
Hypothesis Total : total <= 12000.
Hypothesis Levels : (length column <= 1000)%nat.

Lemma part_le32 (f : cell32 -> R) l c : (forall c, 0 <= f c) -> In c l -> f c <= rsum (map f l).
Proof.
  intros P. induction l as [|x l IH]; [intros []|]. intros [->|H]; cbn.
  - assert (Q : 0 <= rsum (map f l)).
    { clear IH. induction l as [|y l IH]; cbn; [lra|]. assert (A := P y). lra. }
    lra.
  - assert (A := P x). assert (B := IH H). lra.
Qed.
Lemma rsum_lin32 a k (f : cell32 -> R) l : rsum (map (fun c => a * f c + k) l) = a * rsum (map f l) + INR (length l) * k.
Proof. induction l as [|x l IH]; [cbn; ring|]. cbn [map rsum length]. rewrite IH, S_INR. ring. Qed.
Lemma rsum_minus32 (f g : cell32 -> R) l : rsum (map f l) - rsum (map g l) = rsum (map (fun c => f c - g c) l).
Proof. induction l as [|x l IH]; [cbn; ring|]. cbn [map rsum]. rewrite <- IH. ring. Qed.
Lemma rsum_le32 (f g : cell32 -> R) l : (forall c, In c l -> f c <= g c) -> rsum (map f l) <= rsum (map g l).
Proof.
  induction l as [|x l IH]; intros H; [cbn; lra|]. cbn [map rsum].
  assert (A := H x (or_introl eq_refl)). assert (B := IH (fun c I => H c (or_intror I))). lra.
Qed.

Lemma column_close32 h : steric32 rhozero depth patm column h ->
  is_finite h = true /\
  Rabs (B2R h - exact_height (B2R rhozero) (B2R depth) (B2R patm) (map wide column)) <= 7.8e-7 * total + 1e-9.
Proof.
  intros (s & Hs & ->). set (ts := map (term32 depth patm) column) in *.
  assert (Tot0 : 0 <= total).
  { unfold total. clear. induction column as [|x l IH]; [cbn; lra|]. cbn [map rsum]. assert (A := thickness_nonneg (B2R depth) (wide x)). lra. }
  assert (Tc : forall c, In c column -> is_finite (term32 depth patm c) = true /\
    Rabs (B2R (term32 depth patm c) - thickness (B2R depth) (wide c) * exact_delta (B2R patm) (wide c)) <= 7.71e-4 * thickness (B2R depth) (wide c) + / 10 ^ 25
    /\ Rabs (B2R (term32 depth patm c)) <= 122 * thickness (B2R depth) (wide c) + / 10 ^ 25).
  { intros c Ic. destruct (Hc c Ic) as (A & B & C). apply term_close32; try assumption.
    eapply Rle_trans; [|exact Total]. unfold total. apply (part_le32 (fun c => thickness (B2R depth) (wide c))); [intros; apply thickness_nonneg|exact Ic]. }
  assert (Fin : Forall (fun x : f64 => is_finite x = true) ts).
  { apply Forall_forall. intros x Hx. apply in_map_iff in Hx as (c & <- & Ic). exact (proj1 (Tc c Ic)). }
  assert (N : INR (length column) <= 1000).
  { replace 1000 with (INR 1000) by (rewrite INR_IZR_INZ; reflexivity). apply le_INR, Levels. }
  assert (N0 := pos_INR (length column)).
  assert (Lt : length ts = length column) by apply map_length.
  assert (I25 : 0 < / 10 ^ 25 <= / 1000000000) by (cbn [pow]; lra).
  assert (NI : INR (length column) * / 10 ^ 25 <= 1000 * / 1000000000) by (apply Rmult_le_compat; lra).
  assert (NI0 : 0 <= INR (length column) * / 10 ^ 25) by (apply Rmult_le_pos; lra).
  assert (NI' : INR (length column) * / 10 ^ 25 <= 1000 * / 10 ^ 25) by (apply Rmult_le_compat_r; lra).
  assert (A : asum (map (fun x : f64 => B2R x) ts) <= 1464001).
  { unfold asum, ts. rewrite !map_map. eapply Rle_trans.
    - apply (rsum_le32 _ (fun c => 122 * thickness (B2R depth) (wide c) + / 10 ^ 25)). intros c Ic. exact (proj2 (proj2 (Tc c Ic))).
    - rewrite rsum_lin32. fold total. lra. }
  assert (A0 := asum_nonneg (map (fun x : f64 => B2R x) ts)).
  assert (EU := eta_u). assert (EU0 : 0 < eta / u) by (apply Rmult_lt_0_compat; [apply eta_pos|apply Rinv_0_lt_compat, u_pos]).
  assert (Bu : 0 <= budget ts <= 1464002).
  { unfold budget. rewrite Lt.
    assert (INR (length column) * (eta / u) <= 1000 * / 10 ^ 14) by (apply Rmult_le_compat; lra).
    assert (0 <= INR (length column) * (eta / u)) by (apply Rmult_le_pos; lra). cbn [pow] in *. lra. }
  assert (G := gam_1000 (length ts) ltac:(lia)). assert (G0 := gam_nonneg (length ts)).
  destruct (sum_bound ts s Hs Fin) as (Fs & Ns & Es).
  { apply Rle_lt_trans with (2 * 1464002); [apply Rmult_le_compat; lra|].
    apply Rlt_trans with (bpow radix2 100); [|apply bpow_lt; reflexivity].
    change (bpow radix2 100) with (IZR (2 ^ 100)). rewrite <- mult_IZR. apply IZR_lt. vm_compute. reflexivity. }
  set (X := rsum (map (fun c => thickness (B2R depth) (wide c) * exact_delta (B2R patm) (wide c)) column)).
  assert (E1 : Rabs (B2R s - rsum (map (fun x : f64 => B2R x) ts)) <= 1.2e-13 * 1464002).
  { eapply Rle_trans; [exact Es|]. apply Rmult_le_compat; lra. }
  assert (E2 : Rabs (rsum (map (fun x : f64 => B2R x) ts) - X) <= 7.71e-4 * total + 1000 * / 10 ^ 25).
  { unfold ts, X. rewrite map_map, rsum_minus32. eapply Rle_trans; [apply rsum_le_asum|]. unfold asum. rewrite map_map.
    eapply Rle_trans.
    - apply (rsum_le32 _ (fun c => 7.71e-4 * thickness (B2R depth) (wide c) + / 10 ^ 25)). intros c Ic. exact (proj1 (proj2 (Tc c Ic))).
    - rewrite rsum_lin32. fold total. lra. }
  assert (E3 : Rabs (B2R s - X) <= 7.71e-4 * total + 2e-7).
  { replace (B2R s - X) with ((B2R s - rsum (map (fun x : f64 => B2R x) ts)) + (rsum (map (fun x : f64 => B2R x) ts) - X)) by ring.
    eapply Rle_trans; [apply Rabs_triang|]. cbn [pow] in *. lra. }
  assert (XA : Rabs (rsum (map (fun x : f64 => B2R x) ts)) <= 1464001).
  { eapply Rle_trans; [apply rsum_le_asum|exact A]. }
  assert (S1 : Rabs (B2R s) <= 1464002).
  { replace (B2R s) with ((B2R s - rsum (map (fun x : f64 => B2R x) ts)) + rsum (map (fun x : f64 => B2R x) ts)) by ring.
    eapply Rle_trans; [apply Rabs_triang|]. lra. }
  assert (L1 : rep64 (lit (-1)) (-1)).
  { split; [reflexivity|]. unfold lit. vm_compute B2R. cbn. unfold F2R. cbn. lra. }
  set (r := B2R rhozero) in *.
  assert (IR : / 1100 <= / r <= / 1000) by (split; apply Rinv_le_contravar; lra).
  assert (Q0 : Rabs (-1 / r) <= / 1000).
  { replace (-1 / r) with (- / r) by (unfold Rdiv; ring). rewrite Rabs_Ropp, Rabs_right by lra. lra. }
  assert (U := u_lt). assert (U0 := u_pos). assert (Et := eta_small). assert (Et0 := eta_pos).
  assert (Eq := fl_error (-1 / r)).
  assert (Uq : u * Rabs (-1 / r) <= / 10 ^ 15 * / 1000) by (apply Rmult_le_compat; try lra; apply Rabs_pos).
  assert (C1 : Rabs (fl (-1 / r) - -1 / r) <= 2e-18) by (cbn [pow] in *; lra).
  assert (C2 : Rabs (fl (-1 / r)) <= 0.0011).
  { replace (fl (-1 / r)) with ((fl (-1 / r) - -1 / r) + -1 / r) by ring. eapply Rle_trans; [apply Rabs_triang|]. lra. }
  assert (MS := million_small).
  destruct (div64_rep (lit (-1)) rhozero _ _ L1 (conj Fr eq_refl) ltac:(fold r; lra)) as [Fq Vq].
  { apply fits_small. fold r. lra. }
  fold r in Vq. set (q := fl (-1 / r)) in *.
  assert (PQ : Rabs (q * B2R s - -1 / r * X) <= 2e-18 * 1464002 + / 1000 * (7.71e-4 * total + 2e-7)).
  { replace (q * B2R s - -1 / r * X) with ((q - -1 / r) * B2R s + -1 / r * (B2R s - X)) by ring.
    eapply Rle_trans; [apply Rabs_triang|]. rewrite !Rabs_mult.
    apply Rplus_le_compat; apply Rmult_le_compat; try apply Rabs_pos; assumption. }
  assert (MQ : Rabs (q * B2R s) <= 0.0011 * 1464002).
  { rewrite Rabs_mult. apply Rmult_le_compat; try apply Rabs_pos; assumption. }
  assert (Ef := fl_error (q * B2R s)).
  assert (Uf : u * Rabs (q * B2R s) <= / 10 ^ 15 * (0.0011 * 1464002)) by (apply Rmult_le_compat; try lra; apply Rabs_pos).
  destruct (mul64_rep (div64 (lit (-1)) rhozero) s q (B2R s) (conj Fq Vq) (conj Fs eq_refl)) as [Ff Vf].
  { apply fits_small.
    replace (fl (q * B2R s)) with ((fl (q * B2R s) - q * B2R s) + q * B2R s) by ring.
    eapply Rle_trans; [apply Rabs_triang|]. cbn [pow] in *. lra. }
  split; [exact Ff|]. rewrite Vf. unfold exact_height. rewrite map_map. fold X. fold r.
  replace (- (1 / r) * X) with (-1 / r * X) by (unfold Rdiv; ring).
  replace (fl (q * B2R s) - -1 / r * X) with ((fl (q * B2R s) - q * B2R s) + (q * B2R s - -1 / r * X)) by ring.
  eapply Rle_trans; [apply Rabs_triang|]. cbn [pow] in *. lra.
Qed.
End Column32.

(** ** Unchanged data *)
Lemma term_unchanged32 depth patm c : cell_finite (wide c) -> 0 <= B2R (ztop32 c) -> 0 <= B2R (zbot32 c) ->
  is_finite depth = true -> 0 <= B2R depth ->
  temp32 c = temp_ref32 c -> salt32 c = salt_ref32 c -> rep64 (term32 depth patm c) 0.
Proof.
  intros [F1 F2] P1 P2 Fd Pd ET ES. unfold term32.
  destruct (dz64_rep (ztop32 c) (zbot32 c) depth zero F1 F2 Fd eq_refl P1 P2 Pd ltac:(cbn; lra)) as [Fz _].
  set (x := dz64 (ztop32 c) (zbot32 c) depth zero) in *.
  assert (D : rep64 (delta_rho32 patm c) 0 \/ delta_rho32 patm c = B754_nan).
  { unfold delta_rho32. destruct (wet32 c); [|right; reflexivity]. rewrite ET, ES. apply sub_self. }
  destruct D as [D|D].
  - assert (M := mul_zero x _ Fz D). unfold skipna. rewrite (finite_not_nan _ (proj1 M)). exact M.
  - rewrite D, mul_nan. apply zero_rep.
Qed.
