(** * ProofsEosSlope: how steeply the Wright density depends on temperature and salinity on the ocean box, and
    how little the two effects interact (proofs only) *)
From Coq Require Import Reals Lra Lia List.
From Verif Require Import Num NumFacts Eos SpecEos ProofsEos ProofsEosBox.
Local Open Scope R_scope.

(** Partial derivatives of p0 and lambda *)
Definition p0T (T S : R) : R := 3.516535e6 - 2 * 4.002714e4 * T + 3 * 2.084372e2 * T^2 - 9.643486e3 * S.
Definition laT (T S : R) : R := 7.904722e2 - 2 * 7.984422 * T + 3 * 5.140652e-2 * T^2 - 3.079464 * S.
Definition p0S (T : R) : R := 5.944068e5 - 9.643486e3 * T.
Definition laS (T : R) : R := - 2.302158e2 - 3.079464 * T.
(** Numerators of the two derivatives of the density, and the salinity derivatives of the first and of the denominator *)
Definition nT (T S P : R) : R := wr_lambda T S * p0T T S - P * (P * 3.480336e-7 + laT T S).
Definition nS (T S P : R) : R := wr_lambda T S * p0S T + P * (P * 1.112733e-7 + 2.302158e2 + 3.079464 * T).
Definition nTS (T S P : R) : R := laS T * p0T T S - wr_lambda T S * 9.643486e3 - p0S T * (P * 3.480336e-7 + laT T S)
  - P * (p0S T * 3.480336e-7 - 3.079464).
Definition dS (T S P : R) : R := laS T - 1.112733e-7 * P + wr_alpha0 T S * p0S T.
Definition den (T S P : R) : R := wr_lambda T S + wr_alpha0 T S * P.

Ltac expand := unfold nT, nS, nTS, dS, den, p0T, laT, p0S, laS, wr_lambda, wr_alpha0, wr_p0.

Section Ends.
Variables T S : R.
Hypothesis HT : -2 <= T <= 40.
Hypothesis HS : 0 <= S <= 42.
Local Notation P0 := (wr_p0 T S).
Local Notation P1 := (120000000 + wr_p0 T S).
Lemma T_low_0 : 0 < 0.5 * (2 * 630000 * den T S P0 - 630000 * 630000) + nT T S P0.
Proof. expand. bern T S HT HS 6%nat 2%nat. lra. Qed.
Lemma T_low_1 : 0 < 0.5 * (2 * 690000 * den T S P1 - 690000 * 690000) + nT T S P1.
Proof. expand. bern T S HT HS 6%nat 2%nat. lra. Qed.
Lemma T_up_0 : 0 < 0.12 * (2 * 630000 * den T S P0 - 630000 * 630000) - nT T S P0.
Proof. expand. bern T S HT HS 6%nat 2%nat. lra. Qed.
Lemma S_up_0 : 0 < 0.83 * (2 * 630000 * den T S P0 - 630000 * 630000) - nS T S P0.
Proof. expand. bern T S HT HS 6%nat 2%nat. lra. Qed.
Lemma S_low_0 : 0 < nS T S P0 - 0.65 * ((680000 + 570000) * den T S P0 - 680000 * 570000).
Proof. expand. bern T S HT HS 6%nat 2%nat. lra. Qed.
Lemma S_low_1 : 0 < nS T S P1 - 0.65 * ((765000 + 650000) * den T S P1 - 765000 * 650000).
Proof. expand. bern T S HT HS 6%nat 2%nat. lra. Qed.
Lemma TS_low_0 : 0 < 0.0045 * (2 * 630000 * den T S P0 - 630000 * 630000) + nTS T S P0.
Proof. expand. bern T S HT HS 4%nat 2%nat. lra. Qed.
Lemma TS_low_1 : 0 < 0.0045 * (2 * 630000 * den T S P1 - 630000 * 630000) + nTS T S P1.
Proof. expand. bern T S HT HS 4%nat 2%nat. lra. Qed.
Lemma TS_up_0 : 0 < 0.0005 * (2 * 690000 * den T S P0 - 690000 * 690000) - nTS T S P0.
Proof. expand. bern T S HT HS 4%nat 2%nat. lra. Qed.
Lemma TS_up_1 : 0 < 0.0005 * (2 * 690000 * den T S P1 - 690000 * 690000) - nTS T S P1.
Proof. expand. bern T S HT HS 4%nat 2%nat. lra. Qed.
Lemma den_0 : 570000 < den T S P0 < 680000.
Proof. expand. bern T S HT HS 4%nat 2%nat. split; lra. Qed.
Lemma den_1 : 650000 < den T S P1 < 765000.
Proof. expand. bern T S HT HS 4%nat 2%nat. split; lra. Qed.
Lemma dS_0 : -300 < dS T S P0 < 300.
Proof. expand. bern T S HT HS 3%nat 2%nat. split; lra. Qed.
Lemma dS_1 : -300 < dS T S P1 < 300.
Proof. expand. bern T S HT HS 3%nat 2%nat. split; lra. Qed.
End Ends.

(** Between the ends of the pressure range *)
Lemma quad_concave a b c M p : a <= 0 -> 0 < M -> 0 <= p <= M -> 0 <= c -> 0 <= a * M * M + b * M + c -> 0 <= a * p * p + b * p + c.
Proof.
  intros Ha HM Hp H0 H1. apply (Rmult_le_reg_l M); [exact HM|]. rewrite Rmult_0_r.
  replace (M * (a * p * p + b * p + c)) with ((M - p) * c + p * (a * M * M + b * M + c) + M * ((- a) * (p * (M - p)))) by ring.
  assert (0 <= (M - p) * c) by (apply Rmult_le_pos; lra). assert (0 <= p * (a * M * M + b * M + c)) by (apply Rmult_le_pos; lra).
  assert (0 <= p * (M - p)) by (apply Rmult_le_pos; lra). assert (0 <= M * ((- a) * (p * (M - p)))) by (apply Rmult_le_pos; [lra|]; apply Rmult_le_pos; lra). lra.
Qed.
Lemma tangent x d : 2 * d * x - d * d <= x * x.
Proof. assert (0 <= (x - d) * (x - d)) by exact (Rle_0_sqr (x - d)). lra. Qed.
Lemma chord x lo hi : lo <= x <= hi -> x * x <= (hi + lo) * x - hi * lo.
Proof. intros H. assert (0 <= (x - lo) * (hi - x)) by (apply Rmult_le_pos; lra). lra. Qed.

Section Box.
Variables T S p : R.
Hypothesis HB : ocean_box T S p.
Let HT := proj1 HB.
Let HS := proj1 (proj2 HB).
Let Hp := proj2 (proj2 HB).
Let P := p + wr_p0 T S.
Lemma sq_den : 0 <= wr_alpha0 T S * wr_alpha0 T S - 4.9e-7 /\ wr_alpha0 T S * wr_alpha0 T S <= 5.184e-7.
Proof. pose proof (al0_bounds T S HT HS). split; nra. Qed.
Lemma den_is : den T S P = wr_denom T S p.
Proof. reflexivity. Qed.
Lemma T_low : 0 <= 0.5 * (den T S P * den T S P) + nT T S P.
Proof.
  pose proof (T_low_0 T S HT HS) as A. pose proof (T_low_1 T S HT HS) as B. pose proof sq_den as (_ & Q).
  pose proof (tangent (den T S (wr_p0 T S)) 630000) as C. pose proof (tangent (den T S (120000000 + wr_p0 T S)) 690000) as D.
  unfold P. unfold den, nT in *. set (l := wr_lambda T S) in *. set (al := wr_alpha0 T S) in *. set (q := wr_p0 T S) in *.
  set (x := p0T T S) in *. set (y := laT T S) in *.
  replace (0.5 * ((l + al * (p + q)) * (l + al * (p + q))) + (l * x - (p + q) * ((p + q) * 3.480336e-7 + y)))
    with ((0.5 * (al * al) - 3.480336e-7) * p * p + (al * (l + al * q) - 2 * 3.480336e-7 * q - y) * p + (0.5 * ((l + al * q) * (l + al * q)) + (l * x - q * (q * 3.480336e-7 + y)))) by dring.
  apply quad_concave with (M := 120000000); [lra|lra|exact Hp|lra|].
  apply Rle_trans with (0.5 * ((l + al * (120000000 + q)) * (l + al * (120000000 + q))) + (l * x - (120000000 + q) * ((120000000 + q) * 3.480336e-7 + y))); [lra|].
  right. dring.
Qed.
Lemma laT_pos : 0 <= laT T S.
Proof. unfold laT. pose proof HT as H1. pose proof HS as H2. assert (0 <= (40 - T) * (15.968844 - 0.15421956 * (T + 40))) by (apply Rmult_le_pos; lra). lra. Qed.
Lemma T_up : 0 <= 0.12 * (den T S P * den T S P) - nT T S P.
Proof.
  pose proof (T_up_0 T S HT HS) as A. pose proof (tangent (den T S (wr_p0 T S)) 630000) as C. pose proof laT_pos as Y.
  pose proof (p0_pos T S HT HS) as Q. pose proof (al0_pos T S HT HS) as AL. pose proof (den_0 T S HT HS) as (DD & _).
  unfold P. unfold den, nT in *. set (l := wr_lambda T S) in *. set (al := wr_alpha0 T S) in *. set (q := wr_p0 T S) in *.
  set (x := p0T T S) in *. set (y := laT T S) in *. set (d := l + al * q) in *.
  replace (0.12 * ((l + al * (p + q)) * (l + al * (p + q))) - (l * x - (p + q) * ((p + q) * 3.480336e-7 + y)))
    with ((0.12 * (d * d) - (l * x - q * (q * 3.480336e-7 + y))) + (p * (0.24 * (al * d) + 0.12 * (al * al * p) + 2 * 3.480336e-7 * q + 3.480336e-7 * p + y))) by (unfold d; dring).
  assert (0 <= al * d) by (apply Rmult_le_pos; lra). assert (0 <= al * al * p) by (apply Rmult_le_pos; [apply Rmult_le_pos; lra|apply Hp]).
  assert (Hp0 := proj1 Hp).
  assert (0 <= p * (0.24 * (al * d) + 0.12 * (al * al * p) + 2 * 3.480336e-7 * q + 3.480336e-7 * p + y)) by (apply Rmult_le_pos; lra). lra.
Qed.
Lemma S_up : 0 <= 0.83 * (den T S P * den T S P) - nS T S P.
Proof.
  pose proof (S_up_0 T S HT HS) as A. pose proof (tangent (den T S (wr_p0 T S)) 630000) as C.
  pose proof (p0_pos T S HT HS) as Q. pose proof (al0_bounds T S HT HS) as AL. pose proof (den_0 T S HT HS) as (DD & DU). pose proof (lam_pos T S HT HS) as LP.
  pose proof sq_den as (SQ & _). assert (HT40 := proj2 HT). assert (Hp0 := proj1 Hp).
  unfold P. unfold den, nS in *. set (l := wr_lambda T S) in *. set (al := wr_alpha0 T S) in *. set (q := wr_p0 T S) in *.
  set (x := p0S T) in *. set (d := l + al * q) in *.
  replace (0.83 * ((l + al * (p + q)) * (l + al * (p + q))) - (l * x + (p + q) * ((p + q) * 1.112733e-7 + 2.302158e2 + 3.079464 * T)))
    with ((0.83 * (d * d) - (l * x + q * (q * 1.112733e-7 + 2.302158e2 + 3.079464 * T))) + (p * (1.66 * (al * d) + (0.83 * (al * al) - 1.112733e-7) * p - 2 * 1.112733e-7 * q - 2.302158e2 - 3.079464 * T))) by (unfold d; dring).
  assert (7.0e-4 * 570000 <= al * d) by (apply Rmult_le_compat; lra).
  assert (7.0e-4 * q <= al * q) by (apply Rmult_le_compat_r; lra).
  assert (0 <= (0.83 * (al * al) - 1.112733e-7) * p) by (apply Rmult_le_pos; lra). unfold d in DU, DD.
  assert (0 <= p * (1.66 * (al * d) + (0.83 * (al * al) - 1.112733e-7) * p - 2 * 1.112733e-7 * q - 2.302158e2 - 3.079464 * T)) by (apply Rmult_le_pos; lra). lra.
Qed.
Lemma S_low : 0 <= nS T S P - 0.65 * (den T S P * den T S P).
Proof.
  pose proof (S_low_0 T S HT HS) as A. pose proof (S_low_1 T S HT HS) as B. pose proof sq_den as (Q & _).
  pose proof (den_0 T S HT HS) as D0. pose proof (den_1 T S HT HS) as D1.
  pose proof (chord (den T S (wr_p0 T S)) 570000 680000 ltac:(lra)) as C. pose proof (chord (den T S (120000000 + wr_p0 T S)) 650000 765000 ltac:(lra)) as D.
  clear D0 D1. unfold P. unfold den, nS in *. set (l := wr_lambda T S) in *. set (al := wr_alpha0 T S) in *. set (q := wr_p0 T S) in *.
  set (x := p0S T) in *. set (y := 2.302158e2 + 3.079464 * T) in *.
  replace (l * x + (p + q) * ((p + q) * 1.112733e-7 + 2.302158e2 + 3.079464 * T) - 0.65 * ((l + al * (p + q)) * (l + al * (p + q))))
    with ((1.112733e-7 - 0.65 * (al * al)) * p * p + (2 * 1.112733e-7 * q + y - 1.3 * (al * (l + al * q))) * p + ((l * x + q * (q * 1.112733e-7 + 2.302158e2 + 3.079464 * T)) - 0.65 * ((l + al * q) * (l + al * q)))) by (unfold y; dring).
  apply quad_concave with (M := 120000000); [lra|lra|exact Hp|lra|].
  apply Rle_trans with ((l * x + (120000000 + q) * ((120000000 + q) * 1.112733e-7 + 2.302158e2 + 3.079464 * T)) - 0.65 * ((l + al * (120000000 + q)) * (l + al * (120000000 + q)))); [lra|].
  right. unfold y. dring.
Qed.
Lemma lin_between a b M : 0 < M -> 0 <= p <= M -> 0 <= b -> 0 <= a * M + b -> 0 <= a * p + b.
Proof. intros HM H1 H2 H3. pose proof (quad_concave 0 a b M p ltac:(lra) HM H1 H2 ltac:(lra)). lra. Qed.
Lemma TS_low : 0 <= 0.0045 * (den T S P * den T S P) + nTS T S P.
Proof.
  pose proof (TS_low_0 T S HT HS) as A. pose proof (TS_low_1 T S HT HS) as B. pose proof (tangent (den T S P) 630000) as C.
  assert (X : 0 <= 0.0045 * (2 * 630000 * den T S P - 630000 * 630000) + nTS T S P); [|lra]. clear C.
  unfold P, den, nTS in *. set (l := wr_lambda T S) in *. set (al := wr_alpha0 T S) in *. set (q := wr_p0 T S) in *.
  set (x := p0T T S) in *. set (y := laT T S) in *. set (u := laS T) in *. set (v := p0S T) in *.
  match type of A with 0 < ?a => assert (A' : 0 <= a) by lra; match type of B with 0 < ?b => assert (B' : 0 <= b) by lra;
    match goal with |- 0 <= ?g => replace g with (((b - a) / 120000000) * p + a) by field end; apply (lin_between _ _ 120000000); [lra|exact Hp|exact A'|];
    replace ((b - a) / 120000000 * 120000000 + a) with b by field; exact B' end end.
Qed.
Lemma TS_up : 0 <= 0.0005 * (den T S P * den T S P) - nTS T S P.
Proof.
  pose proof (TS_up_0 T S HT HS) as A. pose proof (TS_up_1 T S HT HS) as B. pose proof (tangent (den T S P) 690000) as C.
  assert (X : 0 <= 0.0005 * (2 * 690000 * den T S P - 690000 * 690000) - nTS T S P); [|lra]. clear C.
  unfold P, den, nTS in *. set (l := wr_lambda T S) in *. set (al := wr_alpha0 T S) in *. set (q := wr_p0 T S) in *.
  set (x := p0T T S) in *. set (y := laT T S) in *. set (u := laS T) in *. set (v := p0S T) in *.
  match type of A with 0 < ?a => assert (A' : 0 <= a) by lra; match type of B with 0 < ?b => assert (B' : 0 <= b) by lra;
    match goal with |- 0 <= ?g => replace g with (((b - a) / 120000000) * p + a) by field end; apply (lin_between _ _ 120000000); [lra|exact Hp|exact A'|];
    replace ((b - a) / 120000000 * 120000000 + a) with b by field; exact B' end end.
Qed.
Lemma dS_small : -300 <= dS T S P <= 300.
Proof.
  pose proof (dS_0 T S HT HS) as A. pose proof (dS_1 T S HT HS) as B. unfold P, dS in *.
  set (al := wr_alpha0 T S) in *. set (q := wr_p0 T S) in *. set (u := laS T) in *. set (v := p0S T) in *. assert (Hp0 := Hp). lra.
Qed.
Lemma den_low : 570000 <= den T S P.
Proof.
  pose proof (den_0 T S HT HS) as (A & _). pose proof (al0_pos T S HT HS). unfold P, den in *.
  assert (0 <= wr_alpha0 T S * p) by (apply Rmult_le_pos; [lra|apply Hp]). lra.
Qed.

Lemma slope_T : -0.5 <= wr_drho_dT T S p <= 0.12.
Proof.
  pose proof T_low as A. pose proof T_up as B. pose proof den_low as D. change (wr_drho_dT T S p) with (nT T S P / den T S P ^ 2).
  set (n := nT T S P) in *. set (d := den T S P) in *. assert (0 < d * d) by (apply Rmult_lt_0_compat; lra).
  replace (d ^ 2) with (d * d) by ring. split.
  - apply (Rmult_le_reg_r (d * d)); [assumption|]. replace (n / (d * d) * (d * d)) with n by (field; lra). lra.
  - apply (Rmult_le_reg_r (d * d)); [assumption|]. replace (n / (d * d) * (d * d)) with n by (field; lra). lra.
Qed.
Lemma slope_S : 0.65 <= wr_drho_dS T S p <= 0.83.
Proof.
  pose proof S_low as A. pose proof S_up as B. pose proof den_low as D. change (wr_drho_dS T S p) with (nS T S P / den T S P ^ 2).
  set (n := nS T S P) in *. set (d := den T S P) in *. assert (0 < d * d) by (apply Rmult_lt_0_compat; lra).
  replace (d ^ 2) with (d * d) by ring. split.
  - apply (Rmult_le_reg_r (d * d)); [assumption|]. replace (n / (d * d) * (d * d)) with n by (field; lra). lra.
  - apply (Rmult_le_reg_r (d * d)); [assumption|]. replace (n / (d * d) * (d * d)) with n by (field; lra). lra.
Qed.

(** The mixed derivative *)
Definition wr_drho_dTS : R := nTS T S P / (den T S P * den T S P) - 2 * wr_drho_dT T S p * (dS T S P / den T S P).
Lemma slope_TS : Rabs wr_drho_dTS <= 0.0051.
Proof.
  pose proof TS_low as A. pose proof TS_up as B. pose proof den_low as D. pose proof slope_T as X. pose proof dS_small as Y. unfold wr_drho_dTS.
  set (n := nTS T S P) in *. set (d := den T S P) in *. set (x := wr_drho_dT T S p) in *. set (y := dS T S P) in *.
  assert (0 < d * d) by (apply Rmult_lt_0_compat; lra).
  assert (-0.0045 <= n / (d * d) <= 0.0005).
  { split; (apply (Rmult_le_reg_r (d * d)); [assumption|]); replace (n / (d * d) * (d * d)) with n by (field; lra); lra. }
  assert (Rabs (y / d) <= 300 / 570000).
  { unfold Rdiv. rewrite Rabs_mult. apply Rmult_le_compat; [apply Rabs_pos|apply Rabs_pos|apply Rabs_le; lra|].
    rewrite Rabs_right by (left; apply Rinv_0_lt_compat; lra). apply Rinv_le_contravar; lra. }
  assert (Rabs (2 * x * (y / d)) <= 1 * (300 / 570000)).
  { rewrite Rabs_mult. apply Rmult_le_compat; [apply Rabs_pos|apply Rabs_pos|apply Rabs_le; lra|assumption]. }
  assert (Z : - (1 * (300 / 570000)) <= 2 * x * (y / d) <= 1 * (300 / 570000)) by (revert H2; unfold Rabs; destruct (Rcase_abs _); lra).
  apply Rabs_le. lra.
Qed.
End Box.

(** ** Differences *)
Lemma box_between_T T T' S p c : ocean_box T S p -> ocean_box T' S p -> T <= c <= T' -> ocean_box c S p.
Proof. intros (A & B & C) (D & _ & _) H. unfold ocean_box. lra. Qed.
Lemma box_between_S T S S' p c : ocean_box T S p -> ocean_box T S' p -> S <= c <= S' -> ocean_box T c p.
Proof. intros (A & B & C) (_ & D & _) H. unfold ocean_box. lra. Qed.
Lemma box_den T S p : ocean_box T S p -> wr_denom T S p <> 0.
Proof. intros H. apply Rgt_not_eq, denom_pos, H. Qed.

Lemma diff_T T T' S p : ocean_box T S p -> ocean_box T' S p -> exists c, -0.5 <= c <= 0.12 /\ wr_rho T' S p - wr_rho T S p = c * (T' - T).
Proof.
  assert (L : forall T T', ocean_box T S p -> ocean_box T' S p -> T < T' -> exists c, -0.5 <= c <= 0.12 /\ wr_rho T' S p - wr_rho T S p = c * (T' - T)).
  { clear. intros T T' H H' Hlt. destruct (MVT_cor2 (fun t => wr_rho t S p) (fun t => wr_drho_dT t S p) T T' Hlt) as (c & E & Hc).
    - intros c Hc. apply wr_rho_dT. apply box_den. apply (box_between_T T T'); assumption.
    - exists (wr_drho_dT c S p). split; [apply slope_T; apply (box_between_T T T'); [assumption..|lra]|exact E]. }
  intros H H'. destruct (Rtotal_order T T') as [G|[->|G]].
  - apply L; assumption.
  - exists 0. split; lra.
  - destruct (L T' T H' H G) as (c & C & E). exists c. split; [exact C|lra].
Qed.
Lemma diff_S T S S' p : ocean_box T S p -> ocean_box T S' p -> exists c, 0.65 <= c <= 0.83 /\ wr_rho T S' p - wr_rho T S p = c * (S' - S).
Proof.
  assert (L : forall S S', ocean_box T S p -> ocean_box T S' p -> S < S' -> exists c, 0.65 <= c <= 0.83 /\ wr_rho T S' p - wr_rho T S p = c * (S' - S)).
  { clear. intros S S' H H' Hlt. destruct (MVT_cor2 (fun s => wr_rho T s p) (fun s => wr_drho_dS T s p) S S' Hlt) as (c & E & Hc).
    - intros c Hc. apply wr_rho_dS. apply box_den. apply (box_between_S T S S'); assumption.
    - exists (wr_drho_dS T c p). split; [apply slope_S; apply (box_between_S T S S'); [assumption..|lra]|exact E]. }
  intros H H'. destruct (Rtotal_order S S') as [G|[->|G]].
  - apply L; assumption.
  - exists 0.7. split; lra.
  - destruct (L S' S H' H G) as (c & C & E). exists c. split; [exact C|lra].
Qed.

Lemma aff_derivative a b x : derivable_pt_lim (fun s => a + b * s) x b.
Proof.
  assert (H := derivable_pt_lim_plus _ _ x _ _ (derivable_pt_lim_const a x) (derivable_pt_lim_scal id b x _ (derivable_pt_lim_id x))).
  replace (0 + b * 1) with b in H by ring. eapply derivable_pt_lim_ext'; [|exact H]. intros t. reflexivity.
Qed.
(** The quotient whose pieces are affine in the salinity *)
Lemma nested_derivative (L X P Y A : R -> R) a dL dX dP dY dA x :
  derivable_pt_lim L x dL -> derivable_pt_lim X x dX -> derivable_pt_lim P x dP -> derivable_pt_lim Y x dY -> derivable_pt_lim A x dA ->
  L x + A x * P x <> 0 ->
  derivable_pt_lim (fun s => (L s * X s - P s * (P s * a + Y s)) / (L s + A s * P s) ^ 2) x
    ((dL * X x + L x * dX - dP * (P x * a + Y x) - P x * (dP * a + dY)) / ((L x + A x * P x) * (L x + A x * P x))
     - 2 * ((L x * X x - P x * (P x * a + Y x)) / (L x + A x * P x) ^ 2) * ((dL + dA * P x + A x * dP) / (L x + A x * P x))).
Proof.
  intros HL HX HP HY HA Hn.
  assert (H1 := derivable_pt_lim_mult _ _ _ _ _ HL HX).
  assert (H2 := derivable_pt_lim_plus _ _ _ _ _ (derivable_pt_lim_scal _ a _ _ HP) HY).
  assert (H3 := derivable_pt_lim_minus _ _ _ _ _ H1 (derivable_pt_lim_mult _ _ _ _ _ HP H2)).
  assert (H4 := derivable_pt_lim_plus _ _ _ _ _ HL (derivable_pt_lim_mult _ _ _ _ _ HA HP)).
  assert (H5 := derivable_pt_lim_mult _ _ _ _ _ H4 H4).
  assert (N : ((L + A * P) * (L + A * P))%F x <> 0) by (unfold plus_fct, mult_fct; apply Rmult_integral_contrapositive_currified; exact Hn).
  assert (H6 := derivable_pt_lim_div _ _ _ _ _ H3 H5 N).
  match type of H6 with derivable_pt_lim _ _ ?l => match goal with |- derivable_pt_lim _ _ ?m => replace m with l end end.
  - eapply derivable_pt_lim_ext'; [|exact H6]. intros t. unfold div_fct, minus_fct, plus_fct, mult_fct, mult_real_fct. f_equal; ring.
  - unfold minus_fct, plus_fct, mult_fct, mult_real_fct, Rsqr in *. field. exact Hn.
Qed.
Lemma wr_dT_dS T S p : wr_denom T S p <> 0 -> derivable_pt_lim (fun s => wr_drho_dT T s p) S (wr_drho_dTS T S p).
Proof.
  intros H.
  assert (D := nested_derivative (fun s => wr_lambda T s) (fun s => p0T T s) (fun s => p + wr_p0 T s) (fun s => laT T s) (fun s => wr_alpha0 T s)
    3.480336e-7 (laS T) (- 9.643486e3) (p0S T) (- 3.079464) (- 1.112733e-7) S).
  assert (D1 : derivable_pt_lim (fun s => wr_lambda T s) S (laS T)).
  { eapply derivable_pt_lim_ext'; [|apply (aff_derivative (1.704853e5 + 7.904722e2 * T - 7.984422 * T^2 + 5.140652e-2 * T^3))]. intros t. unfold wr_lambda, laS. dring. }
  assert (D2 : derivable_pt_lim (fun s => p0T T s) S (- 9.643486e3)).
  { eapply derivable_pt_lim_ext'; [|apply (aff_derivative (3.516535e6 - 2 * 4.002714e4 * T + 3 * 2.084372e2 * T^2))]. intros t. unfold p0T. dring. }
  assert (D3 : derivable_pt_lim (fun s => p + wr_p0 T s) S (p0S T)).
  { eapply derivable_pt_lim_ext'; [|apply (aff_derivative (p + (5.790749e8 + 3.516535e6 * T - 4.002714e4 * T^2 + 2.084372e2 * T^3)))]. intros t. unfold wr_p0, p0S. dring. }
  assert (D4 : derivable_pt_lim (fun s => laT T s) S (- 3.079464)).
  { eapply derivable_pt_lim_ext'; [|apply (aff_derivative (7.904722e2 - 2 * 7.984422 * T + 3 * 5.140652e-2 * T^2))]. intros t. unfold laT. dring. }
  assert (D5 : derivable_pt_lim (fun s => wr_alpha0 T s) S (- 1.112733e-7)).
  { eapply derivable_pt_lim_ext'; [|apply (aff_derivative (7.057924e-4 + 3.480336e-7 * T))]. intros t. unfold wr_alpha0. dring. }
  specialize (D D1 D2 D3 D4 D5 H). cbv beta in D.
  match type of D with derivable_pt_lim _ _ ?l => replace (wr_drho_dTS T S p) with l; [exact D|] end.
  unfold wr_drho_dTS, nTS, dS, den. change (wr_drho_dT T S p) with (nT T S (p + wr_p0 T S) / den T S (p + wr_p0 T S) ^ 2). unfold nT, den.
  f_equal; [|f_equal]; f_equal; dring.
Qed.
Lemma diff_TS T T' S S' p : ocean_box T S p -> ocean_box T' S' p ->
  exists c, Rabs c <= 0.0051 /\ wr_rho T' S' p - wr_rho T' S p - wr_rho T S' p + wr_rho T S p = c * ((T' - T) * (S' - S)).
Proof.
  assert (L : forall T T' S S', ocean_box T S p -> ocean_box T' S' p -> T < T' -> S < S' ->
    exists c, Rabs c <= 0.0051 /\ wr_rho T' S' p - wr_rho T' S p - wr_rho T S' p + wr_rho T S p = c * ((T' - T) * (S' - S))).
  { clear. intros T T' S S' H H' LT LS.
    assert (B : forall t s, T <= t <= T' -> S <= s <= S' -> ocean_box t s p) by (intros t s Ht Hs; destruct H as (A & B & C), H' as (A' & B' & C'); unfold ocean_box; lra).
    destruct (MVT_cor2 (fun t => wr_rho t S' p - wr_rho t S p) (fun t => wr_drho_dT t S' p - wr_drho_dT t S p) T T' LT) as (c & E & Hc).
    { intros c Hc. apply derivable_pt_lim_minus; apply wr_rho_dT; apply box_den; apply B; lra. }
    destruct (MVT_cor2 (fun s => wr_drho_dT c s p) (fun s => wr_drho_dTS c s p) S S' LS) as (d & F & Hd).
    { intros d Hd. apply wr_dT_dS. apply box_den. apply B; lra. }
    exists (wr_drho_dTS c d p). split; [apply slope_TS; apply B; lra|]. cbv beta in E, F. rewrite F in E.
    replace (wr_drho_dTS c d p * ((T' - T) * (S' - S))) with (wr_drho_dTS c d p * (S' - S) * (T' - T)) by ring. rewrite <- E. ring. }
  intros H H'. assert (HX : ocean_box T S' p) by (destruct H as (A & B & C), H' as (A' & B' & C'); unfold ocean_box; tauto).
  assert (HY : ocean_box T' S p) by (destruct H as (A & B & C), H' as (A' & B' & C'); unfold ocean_box; tauto).
  destruct (Rtotal_order T T') as [G|[->|G]]; [|exists 0; split; [rewrite Rabs_R0; lra|ring]|]; (destruct (Rtotal_order S S') as [K|[->|K]]; [|exists 0; split; [rewrite Rabs_R0; lra|ring]|]).
  - apply L; assumption.
  - destruct (L T T' S' S HX HY G K) as (c & C & E). exists c. split; [exact C|]. lra.
  - destruct (L T' T S S' HY HX G K) as (c & C & E). exists c. split; [exact C|]. lra.
  - destruct (L T' T S' S H' H G K) as (c & C & E). exists c. split; [exact C|]. lra.
Qed.
