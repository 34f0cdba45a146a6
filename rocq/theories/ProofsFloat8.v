(** * ProofsFloat8: relative errors as factors; sums of non-negative numbers (proofs only) *)
From Coq Require Import Reals Lra Lia List ZArith Bool Permutation.
From Flocq Require Import Core IEEE754.BinarySingleNaN Relative Plus_error.
From Verif Require Import SpecFloat64 Ieee IeeeGlobal SpecIeee SpecEos SpecIeeeGlobal ProofsFloat ProofsIeee ProofsFloat4 ProofsFloat5.
Import ListNotations.
Local Open Scope R_scope.

(** [y] is [x] up to the factor [f]. *)
Definition near (f x y : R) : Prop := 1 <= f /\ 0 <= x /\ x / f <= y <= x * f.
Lemma near_pos f x y : near f x y -> 0 <= y.
Proof.
  intros (F & X & H & _). eapply Rle_trans; [|exact H]. apply Rmult_le_pos; [exact X|]. left. apply Rinv_0_lt_compat. lra.
Qed.
Lemma near_spos f x y : near f x y -> 0 < x -> 0 < y.
Proof. intros (F & X & H & _) P. eapply Rlt_le_trans; [|exact H]. apply Rdiv_lt_0_compat; lra. Qed.
Lemma near_sym f x y : near f x y -> near f y x.
Proof.
  intros N. assert (P := near_pos _ _ _ N). destruct N as (F & X & H1 & H2). split; [exact F|]. split; [exact P|]. split.
  - apply Rmult_le_reg_r with f; [lra|]. unfold Rdiv. rewrite Rmult_assoc, Rinv_l by lra. lra.
  - apply Rmult_le_compat_r with (r := f) in H1; [|lra]. unfold Rdiv in H1. rewrite Rmult_assoc, Rinv_l in H1 by lra. lra.
Qed.
Lemma near_refl x : 0 <= x -> near 1 x x.
Proof. intros H. split; [lra|]. split; [exact H|]. unfold Rdiv. rewrite Rinv_1. lra. Qed.
Lemma near_trans f g x y z : near f x y -> near g y z -> near (f * g) x z.
Proof.
  intros (F & X & H1 & H2) (G & Y & H3 & H4). split; [nra|]. split; [exact X|]. split.
  - eapply Rle_trans; [|exact H3]. replace (x / (f * g)) with (x / f * / g) by (field; lra).
    apply Rmult_le_compat_r; [left; apply Rinv_0_lt_compat; lra|exact H1].
  - eapply Rle_trans; [exact H4|]. replace (x * (f * g)) with (x * f * g) by ring. apply Rmult_le_compat_r; lra.
Qed.
Lemma near_weaken f g x y : f <= g -> near f x y -> near g x y.
Proof.
  intros L (F & X & H1 & H2). split; [lra|]. split; [exact X|]. split.
  - eapply Rle_trans; [|exact H1]. apply Rmult_le_compat_l; [exact X|]. apply Rinv_le_contravar; lra.
  - eapply Rle_trans; [exact H2|]. apply Rmult_le_compat_l; lra.
Qed.
Lemma near_add f x y x' y' : near f x x' -> near f y y' -> near f (x + y) (x' + y').
Proof. intros (F & X & H1 & H2) (_ & Y & H3 & H4). split; [exact F|]. split; [lra|]. unfold Rdiv in *. split; nra. Qed.
Lemma near_mul f g x y x' y' : near f x x' -> near g y y' -> near (f * g) (x * y) (x' * y').
Proof.
  intros N1 N2. assert (P1 := near_pos _ _ _ N1). assert (P2 := near_pos _ _ _ N2).
  destruct N1 as (F & X & H1 & H2), N2 as (G & Y & H3 & H4). split; [nra|]. split; [nra|]. split.
  - replace (x * y / (f * g)) with ((x / f) * (y / g)) by (field; lra).
    apply Rmult_le_compat; try assumption; (apply Rmult_le_pos; [assumption|left; apply Rinv_0_lt_compat; lra]).
  - replace (x * y * (f * g)) with ((x * f) * (y * g)) by ring. apply Rmult_le_compat; assumption.
Qed.
Lemma near_inv f x y : 0 < x -> near f x y -> near f (/ x) (/ y).
Proof.
  intros P N. assert (Q := near_spos _ _ _ N P). apply near_sym in N. destruct N as (F & X & H1 & H2).
  split; [exact F|]. split; [left; apply Rinv_0_lt_compat, P|]. split.
  - replace (/ x / f) with (/ (x * f)) by (field; lra). apply Rinv_le_contravar; [exact Q|].
    apply Rmult_le_compat_r with (r := f) in H1; [|lra]. unfold Rdiv in H1. rewrite Rmult_assoc, Rinv_l in H1 by lra. lra.
  - apply Rmult_le_reg_r with (x * y); [nra|]. replace (/ y * (x * y)) with x by (field; lra).
    replace (/ x * f * (x * y)) with (y * f) by (field; lra). exact H2.
Qed.
Lemma near_div f g x y x' y' : near f x x' -> near g y y' -> 0 < y -> near (f * g) (x / y) (x' / y').
Proof. intros H1 H2 P. apply near_mul; [exact H1|]. apply near_inv; assumption. Qed.
Lemma ln_le x y : 0 < x -> x <= y -> ln x <= ln y.
Proof. intros P [H| ->]; [left; apply ln_increasing; assumption|right; reflexivity]. Qed.
Lemma near_ln f x y : 0 < x -> near f x y -> Rabs (ln y - ln x) <= ln f.
Proof.
  intros P N. assert (Q := near_spos _ _ _ N P). destruct N as (F & X & H1 & H2). apply Rabs_le. split.
  - assert (L := ln_le (x / f) y ltac:(apply Rdiv_lt_0_compat; lra) H1). unfold Rdiv in L.
    rewrite ln_mult, ln_Rinv in L by (try apply Rinv_0_lt_compat; lra). lra.
  - assert (L := ln_le y (x * f) Q H2). rewrite ln_mult in L by lra. lra.
Qed.

(** Rounding. *)
Lemma near_eps x e : 0 <= x -> Rabs e <= u / (1 + u) -> near (1 + u) x (x * (1 + e)).
Proof.
  intros X E. assert (U := u_pos). apply Rabs_le_inv in E. split; [lra|]. split; [exact X|].
  assert (K : u / (1 + u) <= u).
  { apply Rmult_le_reg_r with (1 + u); [lra|]. unfold Rdiv. rewrite Rmult_assoc, Rinv_l by lra. nra. }
  split; [|apply Rmult_le_compat_l; lra]. apply Rmult_le_compat_l; [exact X|].
  replace (/ (1 + u)) with (1 - u / (1 + u)) by (field; lra). lra.
Qed.
Lemma near_fl_add x y : fl x = x -> fl y = y -> 0 <= x -> 0 <= y -> near (1 + u) (x + y) (fl (x + y)).
Proof.
  intros Fx Fy X Y.
  assert (G : forall r, fl r = r -> generic_format radix2 (FLT_exp (-1074) 53) r).
  { intros r H. rewrite <- H. apply generic_format_round; [apply FLT_exp_valid; reflexivity|apply valid_rnd_N]. }
  destruct (FLT_plus_error_N_ex radix2 (-1074) 53 (fun z => negb (Z.even z)) x y (G x Fx) (G y Fy)) as (e & E & V).
  change (fl (x + y) = (x + y) * (1 + e)) in V. rewrite V. apply near_eps; [lra|].
  exact E.
Qed.
Lemma near_fl x : bpow radix2 (-1022) <= x -> near (1 + u) x (fl x).
Proof.
  intros H. assert (P := bpow_gt_0 radix2 (-1022)).
  destruct (relative_error_N_FLX'_ex radix2 53 eq_refl (fun z => negb (Z.even z)) x) as (e & E & V).
  unfold fl. rewrite round_FLT_FLX; [|rewrite Rabs_pos_eq by lra; exact H].
  change (round radix2 (FLX_exp 53) ZnearestE x = x * (1 + e)) in V. rewrite V. apply near_eps; [lra|exact E].
Qed.

Definition Fac (k : nat) : R := (1 + u) ^ k.
Lemma Fac_S k : Fac (S k) = Fac k * (1 + u).
Proof. unfold Fac. cbn. ring. Qed.
Lemma Fac_add j k : Fac (j + k) = Fac j * Fac k.
Proof. apply pow_add. Qed.
Lemma Fac_1 k : 1 <= Fac k.
Proof. apply pow_R1_Rle. assert (U := u_pos). lra. Qed.
Lemma ln_1p x : 0 <= x -> ln (1 + x) <= x.
Proof. intros H. rewrite <- (ln_exp x) at 2. apply ln_le; [lra|]. destruct (Req_dec x 0) as [->|]; [rewrite exp_0; lra|]. left. apply exp_ineq1. lra. Qed.
Lemma ln_Fac k : ln (Fac k) <= INR k * u.
Proof.
  assert (U := u_pos). induction k as [|k IH]; [unfold Fac; cbn; rewrite ln_1; lra|].
  rewrite Fac_S, ln_mult, S_INR; [|assert (H := Fac_1 k); lra|lra]. assert (L := ln_1p u ltac:(lra)). lra.
Qed.

(** A sum of non-negative numbers. *)
Lemma rsum_nonneg {A} (f : A -> R) l : (forall x, In x l -> 0 <= f x) -> 0 <= rsum (map f l).
Proof. intros H. assert (G := rsum_le (fun _ => 0) f l H). assert (Z : rsum (map (fun _ : A => 0) l) = 0) by (clear; induction l as [|x l IH]; cbn; [reflexivity|rewrite IH; ring]). lra. Qed.
Lemma tree_near k l s : tree64 k l s -> (forall x, In x l -> is_finite x = true /\ 0 <= B2R x) ->
  rsum (map (fun x : f64 => B2R x) l) * Fac k < bpow radix2 1024 ->
  is_finite s = true /\ near (Fac k) (rsum (map (fun x : f64 => B2R x) l)) (B2R s).
Proof.
  induction 1 as [k x|k l1 l2 s1 s2 H1 IH1 H2 IH2|k l l' s P H IH]; intros F L.
  - destruct (F x (or_introl eq_refl)) as [F1 F2]. split; [exact F1|]. cbn [map rsum]. rewrite Rplus_0_r.
    apply near_weaken with 1; [apply Fac_1|apply near_refl, F2].
  - rewrite map_app, rsum_app in *.
    assert (P1 := rsum_nonneg (fun x : f64 => B2R x) l1 (fun x Hx => proj2 (F x (in_or_app _ _ _ (or_introl Hx))))).
    assert (P2 := rsum_nonneg (fun x : f64 => B2R x) l2 (fun x Hx => proj2 (F x (in_or_app _ _ _ (or_intror Hx))))).
    set (r1 := rsum (map (fun x : f64 => B2R x) l1)) in *. set (r2 := rsum (map (fun x : f64 => B2R x) l2)) in *.
    assert (U := u_pos). assert (K := Fac_1 k). rewrite Fac_S in *.
    assert (B : (r1 + r2) * Fac k < bpow radix2 1024).
    { eapply Rle_lt_trans; [|exact L]. rewrite <- Rmult_assoc. assert (0 <= (r1 + r2) * Fac k) by (apply Rmult_le_pos; lra). nra. }
    destruct IH1 as [Q1 N1]; [intros x Hx; apply F, in_or_app; left; exact Hx|nra|].
    destruct IH2 as [Q2 N2]; [intros x Hx; apply F, in_or_app; right; exact Hx|nra|].
    assert (R1 := rep64_fl s1 _ (conj Q1 eq_refl)). assert (R2 := rep64_fl s2 _ (conj Q2 eq_refl)).
    assert (N := near_trans _ _ _ _ _ (near_add _ _ _ _ _ N1 N2) (near_fl_add _ _ R1 R2 (near_pos _ _ _ N1) (near_pos _ _ _ N2))).
    destruct (add64_rep s1 s2 _ _ (conj Q1 eq_refl) (conj Q2 eq_refl)) as [R V].
    { unfold fits64. rewrite Rabs_pos_eq by exact (near_pos _ _ _ N). eapply Rle_lt_trans; [|exact L]. apply N. }
    split; [exact R|]. rewrite V. exact N.
  - assert (E := rsum_perm _ _ (Permutation_map (fun x : f64 => B2R x) P)).
    rewrite <- E in *. apply IH; [|exact L]. intros x Hx. apply F. eapply Permutation_in; eassumption.
Qed.
