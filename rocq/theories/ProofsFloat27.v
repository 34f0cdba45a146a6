(** * ProofsFloat27: slopes and trends in binary64 (proofs only) *)
From Coq Require Import QArith Reals Lra Lia List ZArith Bool String.
From Flocq Require Import Core IEEE754.BinarySingleNaN Relative.
From Verif Require Import Py SpecFloat64 SpecTrend Ieee IeeeTrend IeeeBroadcast ProofsFloat ProofsIeee ProofsFloat10 ProofsFloat11 ProofsFloat22 ProofsFloat25 PropertiesFloat4.
Local Open Scope R_scope.

Definition sized (n : Z) (x : f64) : Prop := is_finite x = true /\ big (- n) (B2R x) /\ Rabs (B2R x) <= bp n.
Lemma mul_ok m n a b : (0 <= m)%Z -> (0 <= n)%Z -> (m + n < 1000)%Z -> sized m a -> sized n b -> sized (m + n + 1) (a * b)%f64 /\ rel u (B2R a * B2R b) (B2R (a * b)%f64).
Proof.
  intros Hm Hn H (Fa & Ba & Ua) (Fb & Bb & Ub). us. assert (B := big_prod _ _ _ _ Ba Bb). assert (S := abs_prod _ _ _ _ Ua Ub).
  destruct (mul64_rep a b _ _ (conj Fa eq_refl) (conj Fb eq_refl) (fits_bp (m + n) _ ltac:(lia) S)) as [F V].
  assert (R : rel u (B2R a * B2R b) (B2R (a * b)%f64)) by (rewrite V; apply (rel_fl_big (- m + - n)); [lia|exact B]).
  split; [|exact R]. split; [exact F|]. split; [|exact (abs_rel _ _ _ u ltac:(lra) R S)].
  replace (- (m + n + 1))%Z with (- m + - n - 1)%Z by lia. apply (big_rel _ u _ _ ltac:(lra) R B).
Qed.
Lemma inv_ok n (f : f64) : (0 <= n < 900)%Z -> is_finite f = true -> bp (- n) <= Rabs (B2R f) <= bp n ->
  sized (n + 1) (lit 1%Q / f)%f64 /\ rel u (/ B2R f) (B2R (lit 1%Q / f)%f64).
Proof.
  intros Hn F [L H]. us. assert (P : B2R f <> 0) by (intros Z; rewrite Z, Rabs_R0 in L; assert (X := bp_pos (- n)); lra).
  destruct (inv_size _ _ _ L H) as [I1 I2]. rewrite Z.opp_involutive in I2.
  assert (E : 1 / B2R f = / B2R f) by (unfold Rdiv; ring).
  destruct (div64_rep (lit 1%Q) f _ _ PropertiesFloat4.one_rep (conj F eq_refl) P (fits_bp n (1 / B2R f) ltac:(lia) ltac:(rewrite E; exact I2))) as [G V]. rewrite E in V.
  assert (R : rel u (/ B2R f) (B2R (lit 1%Q / f)%f64)) by (rewrite V; apply (rel_fl_big (- n)); [lia|right; exact I1]).
  split; [|exact R]. split; [exact G|]. split; [|exact (abs_rel _ _ _ u ltac:(lra) R I2)].
  replace (- (n + 1))%Z with (- n - 1)%Z by lia. apply (big_rel _ u _ _ ltac:(lra) R). right. exact I1.
Qed.
Lemma unit_size a va : unit_length (30417 / 1000) 365 a = Some va -> 1 <= va <= bp 55.
Proof.
  change (bp 55) with 36028797018963968. unfold unit_length.
  repeat match goal with |- context [if String.eqb a ?s then _ else _] => destruct (String.eqb a s) end; intros [= <-]; lra.
Qed.
Lemma factor_rel a b va vb : unit_length (30417 / 1000) 365 a = Some va -> unit_length (30417 / 1000) 365 b = Some vb ->
  exists f, time_conversion_factor64 a b default_month64 default_year64 = Ok f /\ is_finite f = true /\ rel (8 * u) (va / vb) (B2R f).
Proof.
  intros A B. destruct (C132_defaults64 a b va vb A B) as (f & E & F & R). exists f. split; [exact E|]. split; [exact F|]. us. unfold rel.
  rewrite (Rabs_pos_eq (va / vb)); [|apply Rlt_le, Rdiv_lt_0_compat; destruct (unit_size _ _ A), (unit_size _ _ B); lra]. rewrite U2. replace (8 * / 2 ^ 53) with (8 / 2 ^ 53) by reflexivity. exact R.
Qed.
Lemma scaled m s a b va vb : (0 <= m < 800)%Z -> sized m s -> unit_length (30417 / 1000) 365 a = Some va -> unit_length (30417 / 1000) 365 b = Some vb -> va = 1 \/ vb = 1 ->
  exists f, time_conversion_factor64 a b default_month64 default_year64 = Ok f /\ sized (m + 59) (s * (lit 1%Q / f))%f64 /\
  rel (10.4 * u) (B2R s * (vb / va)) (B2R (s * (lit 1%Q / f))%f64).
Proof.
  intros Hm Hs A B O. us. destruct (factor_rel a b va vb A B) as (f & E & F & R). exists f. split; [exact E|].
  destruct (unit_size _ _ A) as [A1 A2]. destruct (unit_size _ _ B) as [B1 B2].
  assert (Q : bp (-55) <= va / vb <= bp 55).
  { change (bp (-55)) with (/ bp 55). assert (P := bp_pos 55). assert (P1 : 1 <= bp 55) by (change 1 with (bp 0); apply bpow_le; lia).
    assert (I1 : / bp 55 <= 1) by (rewrite <- Rinv_1; apply Rinv_le_contravar; lra). destruct O as [-> | ->].
    - unfold Rdiv. rewrite Rmult_1_l. split; [apply Rinv_le_contravar; lra|]. apply Rle_trans with 1; [rewrite <- Rinv_1; apply Rinv_le_contravar; lra|lra].
    - unfold Rdiv. rewrite Rinv_1, Rmult_1_r. lra. }
  assert (N : 0 < va / vb) by (assert (P := bp_pos (-55)); lra).
  assert (S : bp (-56) <= Rabs (B2R f) <= bp 56).
  { destruct (rel_size _ _ _ R) as [R1 R2]. rewrite (Rabs_pos_eq (va / vb)) in R1, R2 by lra. set (q := va / vb) in *.
    change 56%Z with (55 + 1)%Z. change (-56)%Z with (-55 + -1)%Z. rewrite !bpow_plus. change (bp 1) with 2. change (bp (-1)) with (/ 2). assert (8 * u <= / 4) by lra. split; nra. }
  destruct (inv_ok 56 f ltac:(lia) F S) as [SI RI]. destruct (mul_ok m (56 + 1) s _ ltac:(lia) ltac:(lia) ltac:(lia) Hs SI) as [SM RM].
  replace (m + (56 + 1) + 1)%Z with (m + 58)%Z in SM by lia. split.
  { destruct SM as (G & G1 & G2). split; [exact G|]. split; [eapply big_weaken; [|exact G1]; lia|]. eapply Rle_trans; [exact G2|apply bpow_le; lia]. }
  assert (R1 := rel_inv (8 * u) _ _ ltac:(split; lra) (Rgt_not_eq _ _ N) R). replace (/ (va / vb)) with (vb / va) in R1 by (field; lra).
  assert (R2 := rel_trans _ _ _ _ _ (Rlt_le _ _ U0) R1 RI). assert (R3 := rel_scale _ (B2R s) _ _ R2). rewrite !(Rmult_comm _ (B2R s)) in R3.
  assert (R4 := rel_trans _ _ _ _ _ (Rlt_le _ _ U0) R3 RM). eapply rel_weaken; [|exact R4].
  assert (Hu : u * u <= 1e-10 * u) by (apply Rmult_le_compat_r; lra). assert (0 <= u * u) by nra. assert (u * u * u <= u * u) by nra. lra.
Qed.
