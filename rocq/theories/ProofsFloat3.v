(** * ProofsFloat3: error bounds for the equations of state in floating point (proofs only) *)
From Coq Require Import Reals Lra Lia QArith Qreals List ZArith.
From Flocq Require Import Core IEEE754.BinarySingleNaN.
From Verif Require Import SpecFloat64 Ieee ProofsFloat ProofsFloat2 ProofsIeee SpecEos ProofsEos ProofsEosBox.
Import ListNotations.
Local Open Scope R_scope.

Lemma whole_ok a b x : IZR a <= x <= IZR b -> within (whole a b) x x.
Proof.
  intros H. assert (O := one_pos). unfold within, whole, fx. cbn [lo hi er].
  rewrite !mult_IZR. rewrite Rminus_diag_eq by reflexivity. rewrite Rabs_R0.
  replace (IZR a * IZR one / IZR one) with (IZR a) by (field; lra).
  replace (IZR b * IZR one / IZR one) with (IZR b) by (field; lra).
  replace (0 / IZR one) with 0 by (field; lra). split; lra.
Qed.
Lemma box3_ok T S p : ocean_box T S p -> forall i, within (box3 i) (env3 T S p i) (env3 T S p i).
Proof. intros (H1 & H2 & H3) [|[|i]]; apply whole_ok; assumption. Qed.

(** A bound found by evaluation: the error is at most [num / 10^k]. *)
Definition at_most (e : expr) (num k : Z) : bool :=
  match bound box3 e with Some r => (er r * 10 ^ k <=? num * one)%Z | None => false end.
Lemma at_most_sound e num k T S p : (0 <= k)%Z -> at_most e num k = true -> ocean_box T S p ->
  Rabs (computed (env3 T S p) e - exact (env3 T S p) e) <= IZR num / IZR (10 ^ k)
  /\ all_in_range (env3 T S p) e.
Proof.
  intros Hk H B. unfold at_most in H. destruct (bound box3 e) as [r|] eqn:E; [|discriminate].
  apply Z.leb_le in H. destruct (bound_sound e (env3 T S p) box3 r (box3_ok T S p B) E) as [[_ W] A].
  split; [|exact A]. eapply Rle_trans; [exact W|]. apply IZR_le in H. rewrite !mult_IZR in H.
  assert (P : 0 < IZR (10 ^ k)) by (apply IZR_lt, Z.pow_pos_nonneg; lia). assert (O := one_pos).
  unfold fx. apply Rmult_le_reg_r with (IZR one * IZR (10 ^ k)); [apply Rmult_lt_0_compat; assumption|].
  replace (IZR (er r) / IZR one * (IZR one * IZR (10 ^ k))) with (IZR (er r) * IZR (10 ^ k)) by (field; lra).
  replace (IZR num / IZR (10 ^ k) * (IZR one * IZR (10 ^ k))) with (IZR num * IZR one) by (field; lra). exact H.
Qed.

(** The exact values of the expressions. *)
Section Exact.
Variables (f : fmt) (T S p : R).
Let env := env3 T S p.
Ltac ex := destruct f; unfold env, wr_alpha0, wr_p0, wr_lambda, wr_denom; cbn -[Q2R]; unfold Q2R; cbn [Qnum Qden]; dfield.
Lemma ex_al0 : exact env (e_al0 f xT xS) = wr_alpha0 T S.
Proof. ex. Qed.
Lemma ex_p0 : exact env (e_p0 f xT xS) = wr_p0 T S.
Proof. ex. Qed.
Lemma ex_lam : exact env (e_lam f xT xS) = wr_lambda T S.
Proof. ex. Qed.
Lemma Q2R_1 : Q2R 1 = 1.
Proof. unfold Q2R. cbn. field. Qed.
Lemma ex_den : exact env (e_den f xT xS xP) = wr_denom T S p.
Proof.
  unfold e_den. cbn [exact]. rewrite ex_lam, ex_al0, ex_p0. reflexivity.
Qed.
Hypothesis B : ocean_box T S p.
Let D : wr_denom T S p <> 0.
Proof. assert (H := denom_pos T S p B). lra. Qed.
Lemma ex_density : exact env (e_density f xT xS xP) = wr_rho T S p.
Proof.
  unfold e_density. cbn [exact]. rewrite ex_den, ex_p0, Q2R_1. unfold wr_rho, env. cbn [env3 xP exact]. field. exact D.
Qed.
Lemma ex_i2 : exact env (e_i2 f xT xS xP) = / (wr_denom T S p) ^ 2.
Proof. unfold e_i2. cbn [exact]. rewrite ex_den, Q2R_1. field. exact D. Qed.
Lemma ex_dT : exact env (e_dT f xT xS xP) = wr_drho_dT T S p.
Proof.
  unfold e_dT. cbn [exact]. rewrite ex_i2, ex_p0, ex_lam. unfold wr_drho_dT.
  set (d := wr_denom T S p) in *. set (q := wr_p0 T S). set (l := wr_lambda T S).
  destruct f; unfold env; cbn -[Q2R]; unfold Q2R; cbn [Qnum Qden]; dfield; exact D.
Qed.
Lemma ex_dS : exact env (e_dS f xT xS xP) = wr_drho_dS T S p.
Proof.
  unfold e_dS. cbn [exact]. rewrite ex_i2, ex_p0, ex_lam. unfold wr_drho_dS.
  set (d := wr_denom T S p) in *. set (q := wr_p0 T S). set (l := wr_lambda T S).
  destruct f; unfold env; cbn -[Q2R]; unfold Q2R; cbn [Qnum Qden]; dfield; exact D.
Qed.
Lemma ex_alpha : exact env (e_alpha f xT xS xP) = - (wr_drho_dT T S p / wr_rho T S p).
Proof.
  unfold e_alpha. cbn [exact]. rewrite ex_dT, ex_density. unfold Q2R. cbn [Qnum Qden].
  unfold Rdiv. rewrite Rinv_1. ring.
Qed.
Lemma ex_beta : exact env (e_beta f xT xS xP) = wr_drho_dS T S p / wr_rho T S p.
Proof. unfold e_beta. cbn [exact]. rewrite ex_dS, ex_density. reflexivity. Qed.
Lemma ex_linear : exact env (e_linear f xT xS) = lin_rho T S.
Proof. unfold lin_rho. ex. Qed.
End Exact.

Lemma close64 (x : f64) e num k T S p v : tracks64 (env3 T S p) x e -> (0 <= k)%Z -> at_most e num k = true ->
  ocean_box T S p -> exact (env3 T S p) e = v ->
  is_finite x = true /\ Rabs (B2R x - v) <= IZR num / IZR (10 ^ k).
Proof.
  intros H Hk A B <-. destruct (at_most_sound e num k T S p Hk A B) as [E R]. destruct (H R) as [F V].
  split; [exact F|]. rewrite V. exact E.
Qed.
Lemma close32 (x : f32) e num k T S p v : tracks32 (env3 T S p) x e -> (0 <= k)%Z -> at_most e num k = true ->
  ocean_box T S p -> exact (env3 T S p) e = v ->
  is_finite x = true /\ Rabs (B2R x - v) <= IZR num / IZR (10 ^ k).
Proof.
  intros H Hk A B <-. destruct (at_most_sound e num k T S p Hk A B) as [E R]. destruct (H R) as [F V].
  split; [exact F|]. rewrite V. exact E.
Qed.

Section Bounds64.
Variables (T S p : f64).
Hypotheses (FT : is_finite T = true) (FS : is_finite S = true) (Fp : is_finite p = true).
Hypothesis B : ocean_box (B2R T) (B2R S) (B2R p).
Lemma density64_close : is_finite (density64 T S p) = true /\
  Rabs (B2R (density64 T S p) - wr_rho (B2R T) (B2R S) (B2R p)) <= 34 / IZR (10 ^ 13).
Proof. eapply close64; [apply tr_density; assumption|lia|vm_compute; reflexivity|exact B|apply ex_density, B]. Qed.
Lemma drho_dtemp64_close : is_finite (drho_dtemp64 T S p) = true /\
  Rabs (B2R (drho_dtemp64 T S p) - wr_drho_dT (B2R T) (B2R S) (B2R p)) <= 2 / IZR (10 ^ 14).
Proof. eapply close64; [apply tr_dT; assumption|lia|vm_compute; reflexivity|exact B|apply ex_dT, B]. Qed.
Lemma drho_dsal64_close : is_finite (drho_dsal64 T S p) = true /\
  Rabs (B2R (drho_dsal64 T S p) - wr_drho_dS (B2R T) (B2R S) (B2R p)) <= 8 / IZR (10 ^ 15).
Proof. eapply close64; [apply tr_dS; assumption|lia|vm_compute; reflexivity|exact B|apply ex_dS, B]. Qed.
Lemma alpha64_close : is_finite (alpha64 T S p) = true /\
  Rabs (B2R (alpha64 T S p) - - (wr_drho_dT (B2R T) (B2R S) (B2R p) / wr_rho (B2R T) (B2R S) (B2R p))) <= 6 / IZR (10 ^ 17).
Proof. eapply close64; [apply tr_alpha; assumption|lia|vm_compute; reflexivity|exact B|apply ex_alpha, B]. Qed.
Lemma beta64_close : is_finite (beta64 T S p) = true /\
  Rabs (B2R (beta64 T S p) - wr_drho_dS (B2R T) (B2R S) (B2R p) / wr_rho (B2R T) (B2R S) (B2R p)) <= 3 / IZR (10 ^ 17).
Proof. eapply close64; [apply tr_beta; assumption|lia|vm_compute; reflexivity|exact B|apply ex_beta, B]. Qed.
End Bounds64.
Lemma box_TS T S : -2 <= T <= 40 -> 0 <= S <= 42 -> ocean_box T S 0.
Proof. intros H1 H2. unfold ocean_box. repeat split; try tauto; lra. Qed.
Lemma linear64_close (T S : f64) : is_finite T = true -> is_finite S = true ->
  -2 <= B2R T <= 40 -> 0 <= B2R S <= 42 -> is_finite (linear_density64 T S) = true /\
  Rabs (B2R (linear_density64 T S) - lin_rho (B2R T) (B2R S)) <= 3 / IZR (10 ^ 13).
Proof.
  intros FT FS H1 H2. assert (B := box_TS _ _ H1 H2).
  eapply close64; [apply (tr_linear T S zero); assumption|lia|vm_compute; reflexivity|exact B|apply ex_linear].
Qed.

Section Bounds32.
Variables (T S : f32) (p : f64).
Hypotheses (FT : is_finite T = true) (FS : is_finite S = true) (Fp : is_finite p = true).
Hypothesis B : ocean_box (B2R T) (B2R S) (B2R p).
Lemma density32_close : is_finite (density32 T S p) = true /\
  Rabs (B2R (density32 T S p) - wr_rho (B2R T) (B2R S) (B2R p)) <= 107 / IZR (10 ^ 5).
Proof. eapply close64; [apply ts_density; assumption|lia|vm_compute; reflexivity|exact B|apply ex_density, B]. Qed.
Lemma drho_dtemp32_close : is_finite (drho_dtemp32 T S p) = true /\
  Rabs (B2R (drho_dtemp32 T S p) - wr_drho_dT (B2R T) (B2R S) (B2R p)) <= 64 / IZR (10 ^ 7).
Proof. eapply close64; [apply ts_dT; assumption|lia|vm_compute; reflexivity|exact B|apply ex_dT, B]. Qed.
Lemma drho_dsal32_close : is_finite (drho_dsal32 T S p) = true /\
  Rabs (B2R (drho_dsal32 T S p) - wr_drho_dS (B2R T) (B2R S) (B2R p)) <= 23 / IZR (10 ^ 7).
Proof. eapply close64; [apply ts_dS; assumption|lia|vm_compute; reflexivity|exact B|apply ex_dS, B]. Qed.
Lemma alpha32_close : is_finite (alpha32 T S p) = true /\
  Rabs (B2R (alpha32 T S p) - - (wr_drho_dT (B2R T) (B2R S) (B2R p) / wr_rho (B2R T) (B2R S) (B2R p))) <= 17 / IZR (10 ^ 9).
Proof. eapply close64; [apply ts_alpha; assumption|lia|vm_compute; reflexivity|exact B|apply ex_alpha, B]. Qed.
Lemma beta32_close : is_finite (beta32 T S p) = true /\
  Rabs (B2R (beta32 T S p) - wr_drho_dS (B2R T) (B2R S) (B2R p) / wr_rho (B2R T) (B2R S) (B2R p)) <= 7 / IZR (10 ^ 9).
Proof. eapply close64; [apply ts_beta; assumption|lia|vm_compute; reflexivity|exact B|apply ex_beta, B]. Qed.
End Bounds32.
Lemma linear32_close (T S : f32) : is_finite T = true -> is_finite S = true ->
  -2 <= B2R T <= 40 -> 0 <= B2R S <= 42 -> is_finite (linear_density32 T S) = true /\
  Rabs (B2R (linear_density32 T S) - lin_rho (B2R T) (B2R S)) <= 13 / IZR (10 ^ 5).
Proof.
  intros FT FS H1 H2. assert (B := box_TS _ _ H1 H2).
  eapply close32; [apply (ts_linear T S zero); assumption|lia|vm_compute; reflexivity|exact B|apply ex_linear].
Qed.
