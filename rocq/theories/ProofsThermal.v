(** * ProofsThermal: where the Wright density decreases with temperature *)
From Coq Require Import Reals Lra Lia.
From Verif Require Import Num NumFacts Eos SpecEos ProofsEos ProofsEosBox.
Local Open Scope R_scope.

Section Mono.
Variables u s : R.
Hypothesis Hu : 0 <= u <= 45.
Hypothesis Hs : 0 <= s <= 42.
Lemma mono_nonneg i j : 0 <= u^i * s^j.
Proof. apply Rmult_le_pos; apply pow_le; lra. Qed.
Lemma pow_step x a n : 0 <= x <= a -> x^(S n) <= x * a^n.
Proof. intros H. cbn [pow]. apply Rmult_le_compat_l; [lra|]. apply pow_incr. exact H. Qed.
Lemma mono_u i j : u^(S i) * s^j <= u * (45^i * 42^j).
Proof.
  rewrite <- Rmult_assoc. apply Rmult_le_compat; [apply pow_le; lra|apply pow_le; lra|apply pow_step, Hu|apply pow_incr, Hs].
Qed.
Lemma mono_s j : s^(3 + j) <= s^3 * 42^j.
Proof. rewrite pow_add. apply Rmult_le_compat_l; [apply pow_le; lra|]. apply pow_incr, Hs. Qed.
End Mono.

(** Numerator of the temperature derivative at zero pressure. *)
Lemma thermal_numerator T S : T <= 40 -> 0 <= S <= 42 -> 4.4 - 0.22 * S <= T ->
  wr_lambda T S * (3.516535e6 - 2 * 4.002714e4 * T + 3 * 2.084372e2 * T^2 - 9.643486e3 * S)
   - wr_p0 T S * (wr_p0 T S * 3.480336e-7
        + (7.904722e2 - 2 * 7.984422 * T + 3 * 5.140652e-2 * T^2 - 3.079464 * S)) < 0.
Proof.
  intros H1 H2 H3. set (u := T - 4.4 + 0.22 * S).
  assert (Hu : 0 <= u <= 45) by (unfold u; lra).
  replace T with (4.4 - 0.22 * S + u) by (unfold u; ring). clearbody u. clear T H1 H3.
  unfold wr_lambda, wr_p0.
  assert (N := mono_nonneg u S Hu H2). assert (U := mono_u u S Hu H2). assert (V := mono_s S H2).
  assert (N01 := N 0%nat 1%nat). assert (N02 := N 0%nat 2%nat). assert (N03 := N 0%nat 3%nat). assert (N06 := N 0%nat 6%nat).
  assert (V4 := V 1%nat). assert (V5 := V 2%nat).
  assert (U11 := U 0%nat 1%nat). assert (U20 := U 1%nat 0%nat). assert (N21 := N 2%nat 1%nat).
  assert (U12 := U 0%nat 2%nat). assert (N30 := N 3%nat 0%nat). assert (N13 := N 1%nat 3%nat). assert (U22 := U 1%nat 2%nat).
  assert (N31 := N 3%nat 1%nat). assert (N40 := N 4%nat 0%nat). assert (U14 := U 0%nat 4%nat). assert (N23 := N 2%nat 3%nat).
  assert (U32 := U 2%nat 2%nat). assert (N41 := N 4%nat 1%nat). assert (U50 := U 4%nat 0%nat).
  assert (U15 := U 0%nat 5%nat). assert (N24 := N 2%nat 4%nat). assert (U33 := U 2%nat 3%nat). assert (N42 := N 4%nat 2%nat).
  assert (U51 := U 4%nat 1%nat). assert (N60 := N 6%nat 0%nat).
  clear N U V. cbn [Nat.add] in *. destruct Hu as [Hu _]. destruct H2 as [H2 _].
  lra.
Qed.

Lemma drho_dT_neg T S p : warm_box T S p -> wr_drho_dT T S p < 0.
Proof.
  intros [Hb Hw]. assert (Hd := denom_pos T S p Hb). destruct Hb as (HT & HS & Hp).
  assert (H2 := p0_pos T S HT HS). assert (H0 := thermal_numerator T S (proj2 HT) HS Hw).
  unfold wr_drho_dT. set (dP := 3.516535e6 - 2 * 4.002714e4 * T + 3 * 2.084372e2 * T^2 - 9.643486e3 * S) in *.
  set (dL := 7.904722e2 - 2 * 7.984422 * T + 3 * 5.140652e-2 * T^2 - 3.079464 * S) in *.
  assert (HdL : 0 <= dL).
  { unfold dL. assert (0 <= (40 - T) * (15.968844 - 0.15421956 * (T + 40))) by (apply Rmult_le_pos; lra). lra. }
  set (P := wr_p0 T S) in *. set (L := wr_lambda T S) in *.
  assert (K : L * dP - (p + P) * ((p + P) * 3.480336e-7 + dL) < 0).
  { assert (0 <= p * dL) by (apply Rmult_le_pos; lra). assert (0 <= p * P) by (apply Rmult_le_pos; lra).
    assert (0 <= p * p) by (apply Rmult_le_pos; lra). lra. }
  unfold Rdiv. rewrite <- (Rmult_0_l (/ wr_denom T S p ^ 2)). apply Rmult_lt_compat_r; [|exact K].
  apply Rinv_0_lt_compat, pow_lt, Hd.
Qed.

Lemma warm_between T T' S p x : warm_box T S p -> warm_box T' S p -> T <= x <= T' -> warm_box x S p.
Proof. unfold warm_box, ocean_box. intros H H' Hx. lra. Qed.

Lemma rho_decreasing_T T T' S p : warm_box T S p -> warm_box T' S p -> T < T' -> wr_rho T' S p < wr_rho T S p.
Proof.
  intros H H' Hlt.
  destruct (MVT_cor2 (fun t => wr_rho t S p) (fun t => wr_drho_dT t S p) T T' Hlt) as (c & E & Hc).
  - intros c Hc. apply wr_rho_dT. assert (Hb := proj1 (warm_between _ _ _ _ _ H H' Hc)).
    assert (Hd := denom_pos c S p Hb). lra.
  - assert (Hn := drho_dT_neg c S p (warm_between _ _ _ _ _ H H' (conj (Rlt_le _ _ (proj1 Hc)) (Rlt_le _ _ (proj2 Hc))))). cbn beta in E.
    assert (0 < (- wr_drho_dT c S p) * (T' - T)) by (apply Rmult_lt_0_compat; lra). lra.
Qed.
