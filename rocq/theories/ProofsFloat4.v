(** * ProofsFloat4: calc_dz and sums in binary64 (proofs only) *)
From Coq Require Import Reals Lra Lia List ZArith Bool Permutation.
From Flocq Require Import Core IEEE754.BinarySingleNaN.
From Verif Require Import SpecFloat64 Ieee SpecIeee SpecDz ProofsFloat ProofsIeee.
Import ListNotations.
Local Open Scope R_scope.

Lemma fl_max x y : fl (Rmax x y) = Rmax (fl x) (fl y).
Proof.
  unfold Rmax. destruct (Rle_dec x y) as [H|H]; destruct (Rle_dec (fl x) (fl y)) as [H'|H']; try reflexivity.
  - exfalso. apply H', fl_mono, H.
  - apply Rle_antisym; [exact H'|]. apply fl_mono. lra.
Qed.
Lemma fl_opp x : fl (- x) = - fl x.
Proof. apply round_NE_opp. Qed.
Lemma fl_nonneg x : 0 <= x -> 0 <= fl x.
Proof. intros H. rewrite <- fl_0. apply fl_mono, H. Qed.
Lemma fl_nonpos x : x <= 0 -> fl x <= 0.
Proof. intros H. rewrite <- fl_0. apply fl_mono, H. Qed.
Lemma fl_1 : fl 1 = 1.
Proof.
  apply round_generic; [apply valid_rnd_N|]. apply generic_format_FLT.
  exists (Float radix2 1 0); [unfold F2R; cbn; ring|reflexivity|cbn; lia].
Qed.
(** Rounding does not pass a representable bound. *)
Lemma fl_abs_le x m : fl m = m -> Rabs x <= m -> Rabs (fl x) <= m.
Proof.
  intros E H. apply Rabs_le. apply Rabs_le_inv in H. split.
  - rewrite <- E, <- fl_opp. apply fl_mono. lra.
  - rewrite <- E. apply fl_mono. lra.
Qed.

Lemma sub_fits a b : fl a = a -> fl b = b -> fits64 a -> fits64 b -> 0 <= a -> 0 <= b -> fits64 (fl (a - b)).
Proof.
  unfold fits64. intros Ea Eb La Lb Pa Pb.
  eapply Rle_lt_trans; [apply (fl_abs_le (a - b) (Rmax a b))|].
  - rewrite fl_max, Ea, Eb. reflexivity.
  - assert (H1 := Rmax_l a b). assert (H2 := Rmax_r a b). apply Rabs_le. lra.
  - apply Rmax_case; [rewrite Rabs_right in La|rewrite Rabs_right in Lb]; lra.
Qed.

Lemma zero_rep : rep64 zero 0.
Proof. split; reflexivity. Qed.
Lemma where_neg_rep x a : rep64 x a -> rep64 (where_neg x) (Rmax 0 a).
Proof.
  intros [F <-]. unfold where_neg. rewrite Bltb_correct by (exact F || reflexivity). cbn [B2R zero].
  destruct (Rlt_bool_spec (B2R x) 0) as [H|H].
  - rewrite Rmax_left by lra. apply zero_rep.
  - rewrite Rmax_right by lra. split; [exact F|reflexivity].
Qed.
Lemma finite_not_nan (x : f64) : is_finite x = true -> is_nan x = false.
Proof. destruct x; cbn; congruence. Qed.
Lemma npmin_rep x y a b : rep64 x a -> rep64 y b -> rep64 (npmin x y) (Rmin a b).
Proof.
  intros [F1 <-] [F2 <-]. unfold npmin. rewrite !finite_not_nan by assumption. cbn [orb].
  rewrite Bltb_correct by assumption. destruct (Rlt_bool_spec (B2R y) (B2R x)) as [H|H].
  - rewrite Rmin_right by lra. split; [exact F2|reflexivity].
  - rewrite Rmin_left by lra. split; [exact F1|reflexivity].
Qed.

Section Dz.
Variables (zt zb d top : f64).
Hypotheses (F1 : is_finite zt = true) (F2 : is_finite zb = true) (F3 : is_finite d = true) (F4 : is_finite top = true).
Hypotheses (P1 : 0 <= B2R zt) (P2 : 0 <= B2R zb) (P3 : 0 <= B2R d) (P4 : 0 <= B2R top).
Let rep_self (x : f64) (F : is_finite x = true) : rep64 x (B2R x) := conj F eq_refl.
Lemma sub_rep (x y : f64) : is_finite x = true -> is_finite y = true -> 0 <= B2R x -> 0 <= B2R y ->
  rep64 (sub64 x y) (fl (B2R x - B2R y)).
Proof.
  intros Fx Fy Px Py. assert (Rx := rep_self x Fx). assert (Ry := rep_self y Fy).
  apply sub64_rep; try assumption.
  apply sub_fits; try assumption; solve [eapply rep64_fl; eassumption | eapply rep64_fits; eassumption].
Qed.
Definition exact_dz (zt zb d top : R) : R := Rmin (Rmax 0 (zb - top)) (Rmin (Rmax 0 (d - zt)) (zb - zt)).
Lemma dz64_rep : rep64 (dz64 zt zb d top) (fl (exact_dz (B2R zt) (B2R zb) (B2R d) (B2R top))).
Proof.
  unfold exact_dz. rewrite !fl_min, !fl_max, fl_0. unfold dz64. cbv zeta.
  apply npmin_rep; [apply where_neg_rep, sub_rep; assumption|].
  apply npmin_rep; [apply where_neg_rep, sub_rep; assumption|apply sub_rep; assumption].
Qed.
Lemma fraction_rep : B2R zt < B2R zb -> B2R (dz64 zt zb d top) <> 0 ->
  is_finite (dz_fraction64 zt zb d top) = true
  /\ 0 <= B2R (dz_fraction64 zt zb d top) <= 1
  /\ B2R (dz_fraction64 zt zb d top) = fl (B2R (dz64 zt zb d top) / fl (B2R zb - B2R zt)).
Proof.
  intros L N. destruct dz64_rep as [Fd Vd].
  destruct (sub_rep zb zt F2 F1 P2 P1) as [Ff Vf].
  set (x := dz64 zt zb d top) in *. set (y := sub64 zb zt) in *.
  assert (Nx : nan_if_zero x = x).
  { unfold nan_if_zero. rewrite Beqb_correct by (exact Fd || reflexivity). cbn [B2R zero].
    rewrite Req_bool_false by exact N. reflexivity. }
  assert (X0 : 0 <= B2R x).
  { rewrite Vd. apply fl_nonneg. unfold exact_dz. apply Rmin_glb; [apply Rmax_l|].
    apply Rmin_glb; [apply Rmax_l|lra]. }
  assert (XY : B2R x <= B2R y).
  { rewrite Vd, Vf. apply fl_mono. unfold exact_dz. eapply Rle_trans; [apply Rmin_r|apply Rmin_r]. }
  assert (Y0 : 0 < B2R y) by lra.
  assert (Ny : nan_if_zero y = y).
  { unfold nan_if_zero. rewrite Beqb_correct by (exact Ff || reflexivity). cbn [B2R zero].
    rewrite Req_bool_false by lra. reflexivity. }
  assert (Q : 0 <= B2R x / B2R y <= 1).
  { split; [apply Rmult_le_pos; [exact X0|apply Rlt_le, Rinv_0_lt_compat, Y0]|].
    apply Rmult_le_reg_r with (B2R y); [exact Y0|]. unfold Rdiv. rewrite Rmult_assoc, Rinv_l by lra. lra. }
  assert (B : 0 <= fl (B2R x / B2R y) <= 1).
  { split; [apply fl_nonneg; lra|]. rewrite <- fl_1. apply fl_mono. lra. }
  unfold dz_fraction64. fold x y. rewrite Nx, Ny. rewrite <- Vf.
  destruct (div64_rep x y (B2R x) (B2R y) (conj Fd eq_refl) (conj Ff eq_refl) ltac:(lra)) as [R1 R2].
  { unfold fits64. rewrite Rabs_right by lra. apply Rle_lt_trans with (bpow radix2 0); [cbn; lra|apply bpow_lt; reflexivity]. }
  rewrite R2. repeat split; try assumption; lra.
Qed.
Lemma fraction_full : B2R zt < B2R zb -> B2R zb <= B2R d -> B2R top <= B2R zt ->
  B2R (dz64 zt zb d top) = fl (B2R zb - B2R zt).
Proof.
  intros L H1 H2. destruct dz64_rep as [_ ->]. f_equal. unfold exact_dz.
  rewrite !Rmax_right by lra. rewrite (Rmin_right (B2R d - B2R zt)) by lra. apply Rmin_right. lra.
Qed.
End Dz.

Lemma exact_dz_overlap zt zb d : 0 <= zt <= zb -> 0 <= d -> exact_dz zt zb d 0 = overlap zt zb 0 d.
Proof.
  intros H1 H2. unfold exact_dz, overlap. rewrite (Rmax_left zt 0) by lra. rewrite (Rmax_right 0 (zb - 0)) by lra.
  unfold Rmin, Rmax. repeat (destruct Rle_dec); lra.
Qed.

(** ** Sums in any order *)
Definition asum (l : list R) : R := rsum (map Rabs l).
Lemma rsum_app l1 l2 : rsum (l1 ++ l2) = rsum l1 + rsum l2.
Proof. induction l1 as [|x l1 IH]; cbn; [ring|]. rewrite IH. ring. Qed.
Lemma rsum_perm l l' : Permutation l l' -> rsum l = rsum l'.
Proof. induction 1; cbn; lra. Qed.
Lemma asum_nonneg l : 0 <= asum l.
Proof. unfold asum. induction l as [|x l IH]; cbn; [lra|]. assert (H := Rabs_pos x). lra. Qed.
Lemma rsum_le_asum l : Rabs (rsum l) <= asum l.
Proof.
  unfold asum. induction l as [|x l IH]; cbn; [rewrite Rabs_R0; lra|].
  eapply Rle_trans; [apply Rabs_triang|]. lra.
Qed.
Lemma rsum_minus {A} (f g : A -> R) l : rsum (map f l) - rsum (map g l) = rsum (map (fun x => f x - g x) l).
Proof. induction l as [|x l IH]; cbn; [ring|]. rewrite <- IH. ring. Qed.
Lemma rsum_le {A} (f g : A -> R) l : (forall x, In x l -> f x <= g x) -> rsum (map f l) <= rsum (map g l).
Proof.
  induction l as [|x l IH]; intros H; cbn; [lra|]. assert (H1 := H x (or_introl eq_refl)).
  assert (H2 := IH (fun y Hy => H y (or_intror Hy))). lra.
Qed.
Lemma rsum_scal c l : rsum (map (Rmult c) l) = c * rsum l.
Proof. induction l as [|x l IH]; cbn; [ring|]. rewrite IH. ring. Qed.

Definition gam (n : nat) : R := (1 + u) ^ n - 1.
Lemma gam_mono n m : (n <= m)%nat -> gam n <= gam m.
Proof. intros H. unfold gam. assert (U := u_pos). assert (Q := Rle_pow (1 + u) n m ltac:(lra) H). lra. Qed.
Lemma gam_nonneg n : 0 <= gam n.
Proof. assert (H := gam_mono 0 n ltac:(lia)). unfold gam in H at 1. cbn in H. lra. Qed.
Lemma gam_S n : gam (S n) = (1 + u) * gam n + u.
Proof. unfold gam. cbn. ring. Qed.

Definition budget (l : list f64) : R := asum (map (fun x : f64 => B2R x) l) + INR (length l) * (eta / u).
Lemma sum_bound l s : sum64 l s -> Forall (fun x : f64 => is_finite x = true) l ->
  (1 + gam (length l)) * budget l < bpow radix2 1000 ->
  is_finite s = true /\ (1 <= length l)%nat
  /\ Rabs (B2R s - rsum (map (fun x : f64 => B2R x) l)) <= gam (length l) * budget l.
Proof.
  assert (U := u_pos). assert (E := eta_pos).
  assert (EU : 0 < eta / u) by (apply Rmult_lt_0_compat; [exact E|apply Rinv_0_lt_compat, U]).
  assert (Bn : forall l : list f64, 0 <= budget l).
  { intros m. unfold budget. assert (A := asum_nonneg (map (fun x : f64 => B2R x) m)).
    assert (I := pos_INR (length m)). assert (Q : 0 <= INR (length m) * (eta / u)) by (apply Rmult_le_pos; lra). lra. }
  induction 1 as [x|l1 l2 s1 s2 H1 IH1 H2 IH2|l l' s P H IH]; intros F L.
  - inversion F; subst. split; [assumption|]. split; [cbn; lia|]. cbn [map rsum length].
    rewrite Rplus_0_r, Rminus_diag_eq by reflexivity. rewrite Rabs_R0.
    apply Rmult_le_pos; [apply gam_nonneg|apply Bn].
  - apply Forall_app in F as [Fa Fb].
    assert (Bu : budget (l1 ++ l2) = budget l1 + budget l2).
    { unfold budget, asum. rewrite map_app, map_app, rsum_app, app_length, plus_INR. ring. }
    rewrite app_length in *. set (n1 := length l1) in *. set (n2 := length l2) in *.
    assert (L1 : (1 + gam n1) * budget l1 < bpow radix2 1000).
    { eapply Rle_lt_trans; [|exact L]. rewrite Bu. apply Rmult_le_compat; [assert (G := gam_nonneg n1); lra|apply Bn| |].
      - assert (G := gam_mono n1 (n1 + n2) ltac:(lia)). lra.
      - assert (G := Bn l2). lra. }
    assert (L2 : (1 + gam n2) * budget l2 < bpow radix2 1000).
    { eapply Rle_lt_trans; [|exact L]. rewrite Bu. apply Rmult_le_compat; [assert (G := gam_nonneg n2); lra|apply Bn| |].
      - assert (G := gam_mono n2 (n1 + n2) ltac:(lia)). lra.
      - assert (G := Bn l1). lra. }
    destruct (IH1 Fa L1) as (Q1 & N1 & E1). destruct (IH2 Fb L2) as (Q2 & N2 & E2).
    set (n := (n1 + n2)%nat) in *. destruct n as [|n'] eqn:En; [lia|].
    assert (G1 := gam_mono n1 n' ltac:(lia)). assert (G2 := gam_mono n2 n' ltac:(lia)).
    rewrite map_app, rsum_app. rewrite Bu in *.
    set (b1 := budget l1) in *. set (b2 := budget l2) in *. 
    assert (B1 : 0 <= b1) by apply Bn. assert (B2' : 0 <= b2) by apply Bn.
    set (r1 := rsum (map (fun x : f64 => B2R x) l1)) in *. set (r2 := rsum (map (fun x : f64 => B2R x) l2)) in *.
    assert (A1 : Rabs r1 <= b1 - eta / u).
    { unfold r1, b1, budget. eapply Rle_trans; [apply rsum_le_asum|].
      assert (1 <= INR (length l1)) by (apply (le_INR 1); exact N1).
      assert (1 * (eta / u) <= INR (length l1) * (eta / u)) by (apply Rmult_le_compat_r; lra). lra. }
    assert (A2 : Rabs r2 <= b2 - eta / u).
    { unfold r2, b2, budget. eapply Rle_trans; [apply rsum_le_asum|].
      assert (1 <= INR (length l2)) by (apply (le_INR 1); exact N2).
      assert (1 * (eta / u) <= INR (length l2) * (eta / u)) by (apply Rmult_le_compat_r; lra). lra. }
    set (e := gam n') in *. assert (G0 : 0 <= e) by apply gam_nonneg.
    assert (K1 : Rabs (B2R s1 - r1) <= e * b1).
    { eapply Rle_trans; [exact E1|]. apply Rmult_le_compat_r; assumption. }
    assert (K2 : Rabs (B2R s2 - r2) <= e * b2).
    { eapply Rle_trans; [exact E2|]. apply Rmult_le_compat_r; assumption. }
    assert (S1 : Rabs (B2R s1 + B2R s2) <= (1 + e) * (b1 + b2) - 2 * (eta / u)).
    { replace (B2R s1 + B2R s2) with ((B2R s1 - r1) + (B2R s2 - r2) + (r1 + r2)) by ring.
      eapply Rle_trans; [apply Rabs_triang|]. assert (T1 := Rabs_triang (B2R s1 - r1) (B2R s2 - r2)).
      assert (T2 := Rabs_triang r1 r2). lra. }
    assert (Er := fl_error (B2R s1 + B2R s2)).
    assert (Um : u * Rabs (B2R s1 + B2R s2) <= u * ((1 + e) * (b1 + b2) - 2 * (eta / u))) by (apply Rmult_le_compat_l; lra).
    assert (Ue : u * (eta / u) = eta) by (field; lra).
    assert (Tot : Rabs (fl (B2R s1 + B2R s2) - (r1 + r2)) <= gam (S n') * (b1 + b2)).
    { rewrite gam_S. fold e.
      replace (fl (B2R s1 + B2R s2) - (r1 + r2)) with
        ((fl (B2R s1 + B2R s2) - (B2R s1 + B2R s2)) + ((B2R s1 - r1) + (B2R s2 - r2))) by ring.
      eapply Rle_trans; [apply Rabs_triang|]. assert (T1 := Rabs_triang (B2R s1 - r1) (B2R s2 - r2)). nra. }
    assert (Fit : fits64 (fl (B2R s1 + B2R s2))).
    { unfold fits64. apply Rlt_trans with (bpow radix2 1000); [|apply bpow_lt; reflexivity].
      eapply Rle_lt_trans; [|exact L].
      replace (fl (B2R s1 + B2R s2)) with ((fl (B2R s1 + B2R s2) - (r1 + r2)) + (r1 + r2)) by ring.
      eapply Rle_trans; [apply Rabs_triang|]. assert (T2 := Rabs_triang r1 r2). lra. }
    destruct (add64_rep s1 s2 _ _ (conj Q1 eq_refl) (conj Q2 eq_refl) Fit) as [R1 R2].
    split; [exact R1|]. split; [lia|]. rewrite R2. exact Tot.
  - assert (Ln : length l = length l') by (apply Permutation_length, P).
    assert (Bu : budget l = budget l').
    { unfold budget, asum. rewrite Ln. f_equal. apply rsum_perm, Permutation_map, Permutation_map, P. }
    rewrite <- Ln, <- Bu in *.
    rewrite <- (rsum_perm _ _ (Permutation_map (fun x : f64 => B2R x) P)).
    apply IH; [|exact L]. apply Forall_forall. intros x Hx. rewrite Forall_forall in F. apply F.
    eapply Permutation_in; eassumption.
Qed.
