(** * ProofsFloat18: the squared buoyancy frequency in binary64 *)
From Coq Require Import Reals Lra Lia List ZArith QArith Qreals Bool.
From Flocq Require Import Core IEEE754.BinarySingleNaN Relative.
From Verif Require Import Num NumFacts SpecFloat64 Ieee IeeeDerived SpecIeee SpecEos ProofsEos ProofsEosBox ProofsEosSlope ProofsFloat ProofsFloat2 ProofsIeee ProofsFloat3 ProofsFloat4 ProofsFloat5 ProofsFloat6 ProofsFloat11 ProofsFloat15 ProofsFloat16 ProofsFloat17.
Import ListNotations.
Local Open Scope R_scope.

Section Expansion.
  Variables (T S z a : f64).
  Hypotheses (F1 : is_finite T = true) (F2 : is_finite S = true) (F3 : is_finite z = true) (F4 : is_finite a = true).
  Hypotheses (H1 : -2 <= B2R T <= 40) (H2 : 0 <= B2R S <= 42) (H3 : 0 <= B2R z <= 11900) (H4 : 0 <= B2R a <= 110000).
  Let P := B2R z * 10000 + B2R a.
  Let env := env4 (B2R T) (B2R S) (B2R z) (B2R a).
  Let pe := e_pres (V 2) (V 3).
  Let E4 : exact env pe = exact (env3 (B2R T) (B2R S) P) xP.
  Proof. unfold pe, e_pres, xP. cbn [exact]. unfold env, env4, env3, P, Q2R. cbn [Qnum Qden]. rewrite Rinv_1. ring. Qed.
  Let Box : ocean_box (B2R T) (B2R S) P.
  Proof. unfold ocean_box, P. lra. Qed.
  Let HB : forall i, within (box4 i) (env i) (env i).
  Proof. intros [|[|[|i]]]; apply whole_ok; assumption. Qed.
  Lemma below r k num : (0 <= k)%Z -> (er r * 10 ^ k <=? num * one)%Z = true -> fx (er r) <= IZR num / IZR (10 ^ k).
  Proof.
    intros Hk K. apply Z.leb_le, IZR_le in K. rewrite !mult_IZR in K. assert (O := one_pos). unfold fx.
    assert (Pk : 0 < IZR (10 ^ k)) by (apply IZR_lt, Z.pow_pos_nonneg; lia).
    apply Rmult_le_reg_r with (IZR one); [exact O|]. replace (IZR (er r) / IZR one * IZR one) with (IZR (er r)) by (field; lra).
    apply Rmult_le_reg_r with (IZR (10 ^ k)); [exact Pk|].
    replace (IZR num / IZR (10 ^ k) * IZR one * IZR (10 ^ k)) with (IZR num * IZR one) by (field; lra). exact K.
  Qed.
  Lemma alpha_at_close : is_finite (alpha64 T S (pressure64 z a)) = true /\
    Rabs (B2R (alpha64 T S (pressure64 z a)) - - (wr_drho_dT (B2R T) (B2R S) P / wr_rho (B2R T) (B2R S) P)) <= 54 / IZR (10 ^ 18).
  Proof.
    set (e := e_alpha F64 xT xS pe).
    assert (Tr : tracks64 env (alpha64 T S (pressure64 z a)) e).
    { unfold alpha64, e, e_alpha, drho_dtemp64, e_dT, e_i2, density64, e_density, e_den, pressure64, pe, e_pres, al0_64, p0_64, lam_64, e_al0, e_p0, e_lam.
      cbv zeta. unfold env. track. }
    assert (Ex : exact env e = - (wr_drho_dT (B2R T) (B2R S) P / wr_rho (B2R T) (B2R S) P)).
    { rewrite <- (ex_alpha F64 (B2R T) (B2R S) P Box). unfold e, e_alpha, e_dT, e_i2, e_density, e_den. cbn [exact]. rewrite E4. reflexivity. }
    destruct (bound box4 e) as [r|] eqn:Eb; [|vm_compute in Eb; discriminate].
    assert (K : (er r * 10 ^ 18 <=? 54 * one)%Z = true).
    { replace r with (match bound box4 e with Some r => r | None => whole 0 0 end) by (rewrite Eb; reflexivity).
      vm_compute. reflexivity. }
    destruct (bound_sound e env box4 r HB Eb) as [[_ W] R]. destruct (Tr R) as [F V].
    split; [exact F|]. rewrite V, <- Ex. eapply Rle_trans; [exact W|]. apply below; [lia|exact K].
  Qed.
  Lemma beta_at_close : is_finite (beta64 T S (pressure64 z a)) = true /\
    Rabs (B2R (beta64 T S (pressure64 z a)) - wr_drho_dS (B2R T) (B2R S) P / wr_rho (B2R T) (B2R S) P) <= 24 / IZR (10 ^ 18).
  Proof.
    set (e := e_beta F64 xT xS pe).
    assert (Tr : tracks64 env (beta64 T S (pressure64 z a)) e).
    { unfold beta64, e, e_beta, drho_dsal64, e_dS, e_i2, density64, e_density, e_den, pressure64, pe, e_pres, al0_64, p0_64, lam_64, e_al0, e_p0, e_lam.
      cbv zeta. unfold env. track. }
    assert (Ex : exact env e = wr_drho_dS (B2R T) (B2R S) P / wr_rho (B2R T) (B2R S) P).
    { rewrite <- (ex_beta F64 (B2R T) (B2R S) P Box). unfold e, e_beta, e_dS, e_i2, e_density, e_den. cbn [exact]. rewrite E4. reflexivity. }
    destruct (bound box4 e) as [r|] eqn:Eb; [|vm_compute in Eb; discriminate].
    assert (K : (er r * 10 ^ 18 <=? 24 * one)%Z = true).
    { replace r with (match bound box4 e with Some r => r | None => whole 0 0 end) by (rewrite Eb; reflexivity).
      vm_compute. reflexivity. }
    destruct (bound_sound e env box4 r HB Eb) as [[_ W] R]. destruct (Tr R) as [F V].
    split; [exact F|]. rewrite V, <- Ex. eapply Rle_trans; [exact W|]. apply below; [lia|exact K].
  Qed.
End Expansion.

(** ** Two products, their difference, and the factor in front *)
Section N2.
  Variables (al be gt gs g : f64) (A B X Y G h : R).
  Hypotheses (Hh : bpow radix2 (-100) <= h <= bpow radix2 100).
  Hypotheses (Fa : is_finite al = true) (Fb : is_finite be = true) (Ft : is_finite gt = true) (Fs : is_finite gs = true) (Fg : is_finite g = true).
  Hypotheses (Ea : Rabs (B2R al - A) <= 54 / IZR (10 ^ 18)) (Eb : Rabs (B2R be - B) <= 24 / IZR (10 ^ 18)).
  Hypotheses (La : Rabs A <= 0.0006) (Lb : Rabs B <= 0.0009).
  Hypotheses (Et : Rabs (B2R gt - X) <= 60 * u * 40 / h + 4 * eta) (Es : Rabs (B2R gs - Y) <= 60 * u * 42 / h + 4 * eta).
  Hypotheses (Lt : Rabs X <= 6 * 40 * / h) (Ls : Rabs Y <= 6 * 42 * / h) (Lg : Rabs (B2R g) <= 10).
  Lemma n2_combine : is_finite (g * (al * gt - be * gs))%f64 = true /\
    Rabs (B2R (g * (al * gt - be * gs))%f64 - B2R g * (A * X - B * Y)) <= 5.5e-16 * Rabs X + 2.5e-16 * Rabs Y + 6e-15 / h.
  Proof.
    assert (U := u_pos). assert (UL := u_lt). cbn [pow] in UL. assert (ET := eta_pos).
    assert (EH := eta_H h Hh). assert (Hp := H_pos h Hh). assert (BH := H_big h Hh).
    replace (60 * u * 40 / h) with (2400 * (u * / h)) in Et by (unfold Rdiv; ring).
    replace (60 * u * 42 / h) with (2520 * (u * / h)) in Es by (unfold Rdiv; ring).
    replace (6e-15 / h) with (6e-15 * / h) by (unfold Rdiv; ring).
    assert (Hb : / h <= bpow radix2 100).
    { replace (bpow radix2 100) with (/ bpow radix2 (-100)) by (change (-100)%Z with (- (100))%Z; rewrite bpow_opp; field; apply Rgt_not_eq, bpow_gt_0).
      apply Rinv_le_contravar; [apply bpow_gt_0|lra]. }
    set (H := / h) in *. set (v := u * H) in *.
    assert (V : 0 < v) by (apply Rmult_lt_0_compat; assumption).
    assert (VH : v <= 1.12e-16 * H) by (apply Rmult_le_compat_r; [lra|]; assert (u <= 1.12e-16); [|lra]; unfold u; change (bpow radix2 (- (53) + 1)) with (/ IZR 4503599627370496); lra).
    assert (B100 : 1 <= bpow radix2 100) by (change 1 with (bpow radix2 0); apply bpow_le; lia).
    assert (Big : 1000 * bpow radix2 100 <= bpow radix2 400).
    { apply Rle_trans with (bpow radix2 10 * bpow radix2 100); [|rewrite <- bpow_plus; apply bpow_le; lia]. apply Rmult_le_compat_r; [lra|]. change (bpow radix2 10) with 1024. lra. }
    assert (V18 : IZR (10 ^ 18) = 1e18) by (change (10 ^ 18)%Z with 1000000000000000000%Z; lra). rewrite V18 in Ea, Eb.
    assert (Lt' : Rabs (B2R gt) <= 241 * H) by (replace (B2R gt) with ((B2R gt - X) + X) by ring; eapply Rle_trans; [apply Rabs_triang|]; lra).
    assert (Ls' : Rabs (B2R gs) <= 253 * H) by (replace (B2R gs) with ((B2R gs - Y) + Y) by ring; eapply Rle_trans; [apply Rabs_triang|]; lra).
    assert (La' : Rabs (B2R al) <= 0.00061) by (replace (B2R al) with ((B2R al - A) + A) by ring; eapply Rle_trans; [apply Rabs_triang|]; lra).
    assert (Lb' : Rabs (B2R be) <= 0.00091) by (replace (B2R be) with ((B2R be - B) + B) by ring; eapply Rle_trans; [apply Rabs_triang|]; lra).
    destruct (prod_close gt (241 * H) Lt' ltac:(lra) al gt 0.00061 Fa Ft La' ltac:(lra) Lt') as (G1 & K1 & _).
    destruct (prod_close gs (253 * H) Ls' ltac:(lra) be gs 0.00091 Fb Fs Lb' ltac:(lra) Ls') as (G2 & K2 & _).
    set (p1 := B2R (al * gt)%f64) in *. set (p2 := B2R (be * gs)%f64) in *.
    assert (W1 : Rabs (B2R al * B2R gt - A * X) <= 5.4e-17 * Rabs X + 0.00061 * (2401 * v)).
    { replace (B2R al * B2R gt - A * X) with ((B2R al - A) * X + B2R al * (B2R gt - X)) by ring. eapply Rle_trans; [apply Rabs_triang|]. rewrite !Rabs_mult.
      apply Rplus_le_compat; apply Rmult_le_compat; try apply Rabs_pos; lra. }
    assert (W2 : Rabs (B2R be * B2R gs - B * Y) <= 2.4e-17 * Rabs Y + 0.00091 * (2521 * v)).
    { replace (B2R be * B2R gs - B * Y) with ((B2R be - B) * Y + B2R be * (B2R gs - Y)) by ring. eapply Rle_trans; [apply Rabs_triang|]. rewrite !Rabs_mult.
      apply Rplus_le_compat; apply Rmult_le_compat; try apply Rabs_pos; lra. }
    assert (Z1 : Rabs (p1 - A * X) <= 5.4e-17 * Rabs X + 1.8 * v).
    { replace (p1 - A * X) with ((p1 - B2R al * B2R gt) + (B2R al * B2R gt - A * X)) by ring. eapply Rle_trans; [apply Rabs_triang|].
      replace (u * (0.00061 * (241 * H))) with (0.14701 * v) in K1 by (unfold v; lra). lra. }
    assert (Z2 : Rabs (p2 - B * Y) <= 2.4e-17 * Rabs Y + 2.6 * v).
    { replace (p2 - B * Y) with ((p2 - B2R be * B2R gs) + (B2R be * B2R gs - B * Y)) by ring. eapply Rle_trans; [apply Rabs_triang|].
      replace (u * (0.00091 * (253 * H))) with (0.23023 * v) in K2 by (unfold v; lra). lra. }
    assert (AX : Rabs (A * X) <= 0.0006 * (240 * H)) by (rewrite Rabs_mult; apply Rmult_le_compat; try apply Rabs_pos; lra).
    assert (BY : Rabs (B * Y) <= 0.0009 * (252 * H)) by (rewrite Rabs_mult; apply Rmult_le_compat; try apply Rabs_pos; lra).
    assert (X0 := Rabs_pos X). assert (Y0 := Rabs_pos Y).
    assert (Dl : Rabs (p1 - p2) <= 0.4 * H).
    { replace (p1 - p2) with ((p1 - A * X) + A * X + - (p2 - B * Y) + - (B * Y) + 0) by ring. eapply Rle_trans; [apply Rabs5|]. rewrite !Rabs_Ropp, Rabs_R0. lra. }
    destruct (sub_close (al * gt)%f64 (be * gs)%f64 (0.4 * H) G1 G2 Dl ltac:(lra)) as [G3 K3].
    fold p1 p2 in K3. set (d := B2R (al * gt - be * gs)%f64) in *.
    assert (Z3 : Rabs (d - (A * X - B * Y)) <= 5.4e-17 * Rabs X + 2.4e-17 * Rabs Y + 4.8 * v).
    { replace (d - (A * X - B * Y)) with ((d - (p1 - p2)) + (p1 - A * X) + - (p2 - B * Y) + 0 + 0) by ring. eapply Rle_trans; [apply Rabs5|]. rewrite Rabs_Ropp, Rabs_R0.
      replace (u * (0.4 * H)) with (0.4 * v) in K3 by (unfold v; ring). lra. }
    assert (Ld : Rabs d <= 0.5 * H).
    { replace d with ((d - (p1 - p2)) + (p1 - p2)) by ring. eapply Rle_trans; [apply Rabs_triang|]. replace (u * (0.4 * H)) with (0.4 * v) in K3 by (unfold v; ring). lra. }
    destruct (prod_close (al * gt - be * gs)%f64 (0.5 * H) Ld ltac:(lra) g (al * gt - be * gs)%f64 10 Fg G3 Lg ltac:(lra) Ld) as (G4 & K4 & _).
    split; [exact G4|]. fold d in K4. set (r := B2R (g * (al * gt - be * gs))%f64) in *.
    replace (r - B2R g * (A * X - B * Y)) with ((r - B2R g * d) + B2R g * (d - (A * X - B * Y))) by ring. eapply Rle_trans; [apply Rabs_triang|]. rewrite Rabs_mult.
    assert (Rabs (B2R g) * Rabs (d - (A * X - B * Y)) <= 10 * (5.4e-17 * Rabs X + 2.4e-17 * Rabs Y + 4.8 * v)) by (apply Rmult_le_compat; try apply Rabs_pos; assumption).
    replace (u * (10 * (0.5 * H))) with (5 * v) in K4 by (unfold v; lra). lra.
  Qed.
End N2.

Section Column.
  Variables (n : nat) (z T S : nat -> f64) (patm g : f64) (h : R).
  Hypotheses (Hn : (3 <= n)%nat) (Hh : bpow radix2 (-100) <= h).
  Hypotheses (Fp : is_finite patm = true) (Hp : 0 <= B2R patm <= 110000) (Fg : is_finite g = true) (Hg : Rabs (B2R g) <= 10).
  Hypothesis Fz : forall i, (i < n)%nat -> is_finite (z i) = true /\ 0 <= B2R (z i) <= 11900.
  Hypothesis Dz : forall i, (i + 1 < n)%nat -> h <= B2R (z (i + 1)%nat) - B2R (z i).
  Hypothesis FT : forall i, (i < n)%nat -> is_finite (T i) = true /\ -2 <= B2R (T i) <= 40.
  Hypothesis FS : forall i, (i < n)%nat -> is_finite (S i) = true /\ 0 <= B2R (S i) <= 42.
  Definition n2R (k : nat) : R :=
    let t := B2R (T k) in let s := B2R (S k) in let p := B2R (z k) * 10000 + B2R patm in
    B2R g * (- (wr_drho_dT t s p / wr_rho t s p) * gradR n (fun i => B2R (z i)) (fun i => B2R (T i)) k
             - wr_drho_dS t s p / wr_rho t s p * gradR n (fun i => B2R (z i)) (fun i => B2R (S i)) k).
  Lemma n2_close k : (k < n)%nat -> is_finite (n2_64 n z T S patm g k) = true /\
    Rabs (B2R (n2_64 n z T S patm g k) - n2R k) <= 5.5e-16 * Rabs (gradR n (fun i => B2R (z i)) (fun i => B2R (T i)) k)
      + 2.5e-16 * Rabs (gradR n (fun i => B2R (z i)) (fun i => B2R (S i)) k) + 6e-15 / h.
  Proof.
    intros Hk. assert (B100 : 12000 <= bpow radix2 100).
    { apply Rle_trans with (bpow radix2 14); [change (bpow radix2 14) with 16384; lra|apply bpow_le; lia]. }
    assert (Dz' : forall i, (i + 1 < n)%nat -> h <= B2R (z (i + 1)%nat) - B2R (z i) <= bpow radix2 100).
    { intros i Hi. split; [apply Dz, Hi|]. assert (X := Fz i ltac:(lia)). assert (Y := Fz (i + 1)%nat Hi). lra. }
    assert (Hr : bpow radix2 (-100) <= h <= bpow radix2 100) by (assert (X := Dz' 0%nat ltac:(lia)); lra).
    assert (Fz' : forall i, (i < n)%nat -> is_finite (z i) = true) by (intros; apply Fz; assumption).
    assert (BT : forall i, (i < n)%nat -> is_finite (T i) = true /\ Rabs (B2R (T i)) <= 40) by (intros i Hi; destruct (FT i Hi); split; [assumption|apply Rabs_le; lra]).
    assert (BS : forall i, (i < n)%nat -> is_finite (S i) = true /\ Rabs (B2R (S i)) <= 42) by (intros i Hi; destruct (FS i Hi); split; [assumption|apply Rabs_le; lra]).
    destruct (gradient_close n z T h 40 Hn Hh ltac:(lra) Fz' Dz' BT k Hk) as [G1 E1].
    destruct (gradient_close n z S h 42 Hn Hh ltac:(lra) Fz' Dz' BS k Hk) as [G2 E2].
    assert (L1 := grad_size n (fun i => B2R (z i)) (fun i => B2R (T i)) h 40 Hn Hr Dz (fun i Hi => proj2 (BT i Hi)) k Hk).
    assert (L2 := grad_size n (fun i => B2R (z i)) (fun i => B2R (S i)) h 42 Hn Hr Dz (fun i Hi => proj2 (BS i Hi)) k Hk).
    destruct (FT k Hk) as [FTk HTk]. destruct (FS k Hk) as [FSk HSk]. destruct (Fz k Hk) as [Fzk Hzk].
    destruct (alpha_at_close (T k) (S k) (z k) patm FTk FSk Fzk Fp HTk HSk Hzk Hp) as [G3 E3].
    destruct (beta_at_close (T k) (S k) (z k) patm FTk FSk Fzk Fp HTk HSk Hzk Hp) as [G4 E4].
    assert (Box : ocean_box (B2R (T k)) (B2R (S k)) (B2R (z k) * 10000 + B2R patm)) by (unfold ocean_box; lra).
    assert (ST := slope_T _ _ _ Box). assert (SS := slope_S _ _ _ Box). assert (RB := rho_bounds _ _ _ Box).
    unfold n2_64, n2R. cbv zeta.
    apply n2_combine; try assumption.
    - rewrite Rabs_Ropp. apply Rabs_le. set (r := wr_rho _ _ _) in *. set (w := wr_drho_dT _ _ _) in *. split.
      + apply Rmult_le_reg_r with r; [lra|]. replace (w / r * r) with w by (field; lra). lra.
      + apply Rmult_le_reg_r with r; [lra|]. replace (w / r * r) with w by (field; lra). lra.
    - apply Rabs_le. set (r := wr_rho _ _ _) in *. set (w := wr_drho_dS _ _ _) in *. split.
      + apply Rmult_le_reg_r with r; [lra|]. replace (w / r * r) with w by (field; lra). lra.
      + apply Rmult_le_reg_r with r; [lra|]. replace (w / r * r) with w by (field; lra). lra.
  Qed.
End Column.
