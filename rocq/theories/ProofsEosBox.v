(** * ProofsEosBox: bounds of the Wright density on the ocean box, C04 and C05 (proofs only) *)
From Coq Require Import Reals Lra Lia List String Bool Ascii.
From Verif Require Import Num NumFacts Py Eos SpecEos ProofsEos.
Import ListNotations.
Local Open Scope R_scope.

Lemma bern_nonneg T S i j k l : -2 <= T <= 40 -> 0 <= S <= 42 ->
  0 <= (T + 2)^i * (40 - T)^j * (S^k * (42 - S)^l).
Proof.
  intros HT HS. repeat apply Rmult_le_pos; apply pow_le; lra.
Qed.

Ltac bern T S HT HS n m :=
  let rec outer i :=
    let rec inner j :=
      (let H := fresh "Hb" in
       assert (H := bern_nonneg T S i (n - i) j (m - j) HT HS);
       cbv [Nat.sub] in H; cbn [pow] in H;
       lazymatch j with O => idtac | Datatypes.S ?j' => inner j' end) in
    inner m; lazymatch i with O => idtac | Datatypes.S ?i' => outer i' end in
  outer n.

Section Box.
Variables T S : R.
Hypothesis HT : -2 <= T <= 40.
Hypothesis HS : 0 <= S <= 42.

Lemma lam_pos : 0 < wr_lambda T S.
Proof. unfold wr_lambda. bern T S HT HS 3%nat 1%nat. lra. Qed.
Lemma p0_pos : 0 < wr_p0 T S.
Proof. unfold wr_p0. bern T S HT HS 3%nat 1%nat. lra. Qed.
Lemma al0_pos : 0 < wr_alpha0 T S.
Proof. unfold wr_alpha0. lra. Qed.
Lemma al0_bounds : 7.0e-4 < wr_alpha0 T S < 7.2e-4.
Proof. unfold wr_alpha0. lra. Qed.
Lemma lower_p0 : 980 * (wr_lambda T S + wr_alpha0 T S * wr_p0 T S) < wr_p0 T S.
Proof. unfold wr_lambda, wr_alpha0, wr_p0. bern T S HT HS 4%nat 2%nat. lra. Qed.
Lemma upper_p1 :
  120000000 + wr_p0 T S < 1100 * (wr_lambda T S + wr_alpha0 T S * (120000000 + wr_p0 T S)).
Proof. unfold wr_lambda, wr_alpha0, wr_p0. bern T S HT HS 4%nat 2%nat. lra. Qed.
End Box.

Lemma denom_pos T S p : ocean_box T S p -> 0 < wr_denom T S p.
Proof.
  intros (HT & HS & Hp). unfold wr_denom.
  assert (H1 := lam_pos T S HT HS). assert (H2 := p0_pos T S HT HS). assert (H3 := al0_pos T S HT HS).
  assert (0 < wr_alpha0 T S * (p + wr_p0 T S)) by (apply Rmult_lt_0_compat; lra). lra.
Qed.

Lemma rho_bounds T S p : ocean_box T S p -> 980 < wr_rho T S p < 1100.
Proof.
  intros Hb. assert (Hd := denom_pos T S p Hb). destruct Hb as (HT & HS & Hp).
  assert (H1 := lower_p0 T S HT HS). assert (H2 := upper_p1 T S HT HS).
  assert (H3 := al0_bounds T S HT HS).
  unfold wr_rho. split.
  - apply (Rmult_lt_reg_r (wr_denom T S p)); [exact Hd|].
    unfold Rdiv; rewrite Rmult_assoc, Rinv_l, Rmult_1_r by lra. unfold wr_denom.
    assert (0 <= p * (1 - 980 * wr_alpha0 T S)) by (apply Rmult_le_pos; lra). nra.
  - apply (Rmult_lt_reg_r (wr_denom T S p)); [exact Hd|].
    unfold Rdiv; rewrite Rmult_assoc, Rinv_l, Rmult_1_r by lra. unfold wr_denom.
    assert (0 <= (120000000 - p) * (1 - 1100 * wr_alpha0 T S)) by (apply Rmult_le_pos; lra). nra.
Qed.

(** 1/rho = alpha0 + lambda/(p+p0) *)
Lemma rho_increasing_general lam1 lam2 al1 al2 P1 P2 :
  0 < P1 -> P1 <= P2 -> 0 < lam2 -> lam2 <= lam1 -> 0 < al2 -> al2 <= al1 ->
  (P1 < P2 \/ lam2 < lam1 \/ al2 < al1) ->
  P1 / (lam1 + al1 * P1) < P2 / (lam2 + al2 * P2).
Proof.
  intros HP HPP Hl Hll Ha Haa Hstrict.
  assert (D1 : 0 < lam1 + al1 * P1) by nra. assert (D2 : 0 < lam2 + al2 * P2) by nra.
  apply (Rmult_lt_reg_r (lam1 + al1 * P1)); [exact D1|].
  apply (Rmult_lt_reg_r (lam2 + al2 * P2)); [exact D2|].
  replace (P1 / (lam1 + al1 * P1) * (lam1 + al1 * P1) * (lam2 + al2 * P2))
    with (P1 * lam2 + al2 * (P1 * P2)) by (field; lra).
  replace (P2 / (lam2 + al2 * P2) * (lam1 + al1 * P1) * (lam2 + al2 * P2))
    with (P2 * lam1 + al1 * (P1 * P2)) by (field; lra).
  assert (HPP' : 0 < P1 * P2) by (apply Rmult_lt_0_compat; lra).
  assert (A1 : P1 * lam2 <= P2 * lam1) by (apply Rmult_le_compat; lra).
  assert (A2 : al2 * (P1 * P2) <= al1 * (P1 * P2)) by (apply Rmult_le_compat_r; lra).
  destruct Hstrict as [H|[H|H]].
  - assert (P1 * lam2 < P2 * lam1) by nra. lra.
  - assert (P1 * lam2 < P2 * lam1) by nra. lra.
  - assert (al2 * (P1 * P2) < al1 * (P1 * P2)) by (apply Rmult_lt_compat_r; lra). lra.
Qed.

Lemma rho_increasing_p T S p p' : ocean_box T S p -> ocean_box T S p' -> p < p' ->
  wr_rho T S p < wr_rho T S p'.
Proof.
  intros (HT & HS & Hp) (_ & _ & Hp') H. unfold wr_rho, wr_denom.
  assert (H1 := lam_pos T S HT HS). assert (H2 := p0_pos T S HT HS). assert (H3 := al0_pos T S HT HS).
  apply rho_increasing_general; lra.
Qed.
Lemma rho_increasing_S T S S' p : ocean_box T S p -> ocean_box T S' p -> S < S' ->
  wr_rho T S p < wr_rho T S' p.
Proof.
  intros (HT & HS & Hp) (_ & HS' & _) H. unfold wr_rho, wr_denom.
  assert (H1 := lam_pos T S' HT HS'). assert (H2 := p0_pos T S HT HS). assert (H3 := al0_pos T S' HT HS').
  assert (H4 : wr_p0 T S <= wr_p0 T S') by (unfold wr_p0; nra).
  assert (H5 : wr_lambda T S' <= wr_lambda T S) by (unfold wr_lambda; nra).
  assert (H6 : wr_alpha0 T S' < wr_alpha0 T S) by (unfold wr_alpha0; lra).
  apply rho_increasing_general; lra.
Qed.
Lemma drho_dS_pos T S p : ocean_box T S p -> 0 < wr_drho_dS T S p.
Proof.
  intros Hb. assert (Hd := denom_pos T S p Hb). destruct Hb as (HT & HS & Hp).
  assert (H1 := lam_pos T S HT HS). assert (H2 := p0_pos T S HT HS).
  unfold wr_drho_dS. apply Rdiv_lt_0_compat; [|apply pow_lt; exact Hd].
  assert (0 < wr_lambda T S * (5.944068e5 - 9.643486e3 * T)) by (apply Rmult_lt_0_compat; lra).
  assert (0 < (p + wr_p0 T S) * ((p + wr_p0 T S) * 1.112733e-7 + 2.302158e2 + 3.079464 * T))
    by (apply Rmult_lt_0_compat; lra). lra.
Qed.
