(** * ProofsFloat5: the local steric height of a column in binary64 (proofs only) *)
From Coq Require Import Reals Lra Lia List ZArith Bool Permutation QArith Qreals.
From Flocq Require Import Core IEEE754.BinarySingleNaN.
From Verif Require Import SpecFloat64 Ieee SpecIeee SpecDz SpecEos ProofsEos ProofsEosBox ProofsFloat ProofsFloat2 ProofsIeee ProofsFloat3 ProofsFloat4.
Import ListNotations.
Local Open Scope R_scope.

(** ** Density at a depth, with the pressure computed in binary64 *)
Definition env4 (T S z a : R) (i : nat) : R := match i with O => T | 1%nat => S | 2%nat => z | _ => a end.
Definition box4 (i : nat) : bnd :=
  match i with O => whole (-2) 40 | 1%nat => whole 0 42 | 2%nat => whole 0 11900 | _ => whole 0 110000 end.
Definition e_rho_at : expr := e_density F64 xT xS (e_pres (V 2) (V 3)).

Lemma rho_at_close (T S z a : f64) : is_finite T = true -> is_finite S = true -> is_finite z = true -> is_finite a = true ->
  -2 <= B2R T <= 40 -> 0 <= B2R S <= 42 -> 0 <= B2R z <= 11900 -> 0 <= B2R a <= 110000 ->
  is_finite (rho_at T S z a) = true /\
  Rabs (B2R (rho_at T S z a) - wr_rho (B2R T) (B2R S) (B2R z * 10000 + B2R a)) <= 35 / IZR (10 ^ 13).
Proof.
  intros F1 F2 F3 F4 H1 H2 H3 H4.
  set (env := env4 (B2R T) (B2R S) (B2R z) (B2R a)).
  assert (B : ocean_box (B2R T) (B2R S) (B2R z * 10000 + B2R a)) by (unfold ocean_box; lra).
  assert (Tr : tracks64 env (rho_at T S z a) e_rho_at).
  { unfold rho_at, e_rho_at, e_density, density64, e_den, pressure64, e_pres, al0_64, p0_64, lam_64, e_al0, e_p0, e_lam.
    cbv zeta. unfold env. track. }
  assert (Ex : exact env e_rho_at = wr_rho (B2R T) (B2R S) (B2R z * 10000 + B2R a)).
  { unfold e_rho_at, e_density. cbn [exact].
    assert (E1 : exact env (e_p0 F64 xT xS) = wr_p0 (B2R T) (B2R S)) by exact (ex_p0 F64 (B2R T) (B2R S) 0).
    assert (E2 : exact env (e_al0 F64 xT xS) = wr_alpha0 (B2R T) (B2R S)) by exact (ex_al0 F64 (B2R T) (B2R S) 0).
    assert (E3 : exact env (e_lam F64 xT xS) = wr_lambda (B2R T) (B2R S)) by exact (ex_lam F64 (B2R T) (B2R S) 0).
    assert (E4 : exact env (e_pres (V 2) (V 3)) = B2R z * 10000 + B2R a).
    { unfold e_pres. cbn [exact]. unfold env, env4, Q2R. cbn [Qnum Qden]. rewrite Rinv_1. ring. }
    unfold e_den. cbn [exact]. rewrite E1, E2, E3, E4, Q2R_1. unfold wr_rho. 
    assert (D := denom_pos _ _ _ B). unfold wr_denom in *. field. lra. }
  destruct (bound box4 e_rho_at) as [r|] eqn:Eb; [|vm_compute in Eb; discriminate].
  assert (K : (er r * 10 ^ 13 <=? 35 * one)%Z = true).
  { replace r with (match bound box4 e_rho_at with Some r => r | None => whole 0 0 end) by (rewrite Eb; reflexivity).
    vm_compute. reflexivity. }
  assert (HB : forall i, within (box4 i) (env i) (env i)).
  { intros [|[|[|i]]]; apply whole_ok; assumption. }
  destruct (bound_sound e_rho_at env box4 r HB Eb) as [[_ W] R]. destruct (Tr R) as [F V].
  split; [exact F|]. rewrite V, <- Ex. eapply Rle_trans; [exact W|].
  apply Z.leb_le, IZR_le in K. rewrite !mult_IZR in K. assert (O := one_pos). unfold fx.
  apply Rmult_le_reg_r with (IZR one); [exact O|]. replace (IZR (er r) / IZR one * IZR one) with (IZR (er r)) by (field; lra).
  assert (P : 0 < IZR (10 ^ 13)) by (apply IZR_lt; reflexivity).
  apply Rmult_le_reg_r with (IZR (10 ^ 13)); [exact P|].
  replace (35 / IZR (10 ^ 13) * IZR one * IZR (10 ^ 13)) with (35 * IZR one) by (field; lra). exact K.
Qed.

(** ** One term of the sum *)
Lemma eta_small : eta <= / 10 ^ 30.
Proof.
  eapply Rle_trans; [exact (ee_fx F64)|]. unfold fx, Rdiv. rewrite Rmult_1_l. apply Rinv_le_contravar; [apply pow_lt; lra|].
  replace (10 ^ 30) with (IZR (10 ^ 30)) by (rewrite pow_IZR; reflexivity). apply IZR_le. vm_compute. discriminate.
Qed.

Section Term.
Variables (depth patm : f64) (c : cell).
Hypotheses (Fd : is_finite depth = true) (Fa : is_finite patm = true).
Hypotheses (Hd : 0 <= B2R depth) (Ha : 0 <= B2R patm <= 110000).
Hypothesis Fc : cell_finite c.
Hypothesis Hz : 0 <= B2R (ztop c) <= B2R (zbot c).
Hypothesis Hw : wet c = true -> wet_ok c.
Let dz := thickness (B2R depth) c.
Hypothesis Small : dz <= 12000.

Lemma dz_nonneg : 0 <= dz.
Proof. unfold dz, thickness, overlap. apply Rmax_l. Qed.
Lemma term_dz : is_finite (dz64 (ztop c) (zbot c) depth zero) = true /\
  Rabs (B2R (dz64 (ztop c) (zbot c) depth zero) - dz) <= u * dz + eta.
Proof.
  destruct Fc as [F1 F2].
  destruct (dz64_rep (ztop c) (zbot c) depth zero F1 F2 Fd eq_refl ltac:(lra) ltac:(lra) Hd ltac:(cbn; lra)) as [F V].
  split; [exact F|]. rewrite V. cbn [B2R zero]. rewrite exact_dz_overlap by (assumption || lra).
  fold (thickness (B2R depth) c). fold dz. assert (E := fl_error dz).
  rewrite (Rabs_right dz) in E by (apply Rle_ge, dz_nonneg). exact E.
Qed.

Lemma delta_bound : wet c = true -> Rabs (exact_delta (B2R patm) c) <= 120.
Proof.
  intros W. destruct (Hw W) as (G1 & G2 & G3 & G4 & G5 & G6 & G7 & G8 & G9 & G10). unfold exact_delta. rewrite W.
  assert (B1 := rho_bounds (B2R (temp c)) (B2R (salt c)) (B2R (zmid c) * 10000 + B2R patm) ltac:(unfold ocean_box; lra)).
  assert (B2 := rho_bounds (B2R (temp_ref c)) (B2R (salt_ref c)) (B2R (zmid c) * 10000 + B2R patm) ltac:(unfold ocean_box; lra)).
  apply Rabs_le. lra.
Qed.

Lemma fits_small r : Rabs r <= bpow radix2 100 -> fits64 r.
Proof. intros H. unfold fits64. eapply Rle_lt_trans; [exact H|]. apply bpow_lt. reflexivity. Qed.
Lemma million_small : 1000000000000 <= bpow radix2 100.
Proof. change (bpow radix2 100) with (IZR (2 ^ 100)). apply IZR_le. vm_compute. discriminate. Qed.

Lemma term_delta : wet c = true -> is_finite (delta_rho64 patm c) = true /\
  Rabs (B2R (delta_rho64 patm c) - exact_delta (B2R patm) c) <= 7.2e-12.
Proof.
  intros W. assert (DB := delta_bound W).
  destruct (Hw W) as (G1 & G2 & G3 & G4 & G5 & G6 & G7 & G8 & G9 & G10). unfold delta_rho64, exact_delta in *. rewrite W in *.
  destruct (rho_at_close (temp c) (salt c) (zmid c) patm G2 G3 G1 Fa G7 G8 G6 Ha) as [R1 E1].
  destruct (rho_at_close (temp_ref c) (salt_ref c) (zmid c) patm G4 G5 G1 Fa G9 G10 G6 Ha) as [R2 E2].
  set (x := rho_at (temp c) (salt c) (zmid c) patm) in *. set (y := rho_at (temp_ref c) (salt_ref c) (zmid c) patm) in *.
  set (a := wr_rho (B2R (temp c)) _ _) in *. set (b := wr_rho (B2R (temp_ref c)) _ _) in *.
  assert (D : Rabs (B2R x - B2R y - (a - b)) <= 70 / IZR (10 ^ 13)).
  { replace (B2R x - B2R y - (a - b)) with ((B2R x - a) + - (B2R y - b)) by ring.
    eapply Rle_trans; [apply Rabs_triang|]. rewrite Rabs_Ropp. lra. }
  change (IZR (10 ^ 13)) with 10000000000000 in D.
  assert (M : Rabs (B2R x - B2R y) <= 121).
  { replace (B2R x - B2R y) with ((B2R x - B2R y - (a - b)) + (a - b)) by ring.
    eapply Rle_trans; [apply Rabs_triang|]. lra. }
  assert (Er := fl_error (B2R x - B2R y)). assert (U := u_lt). assert (U0 := u_pos). assert (Et := eta_small).
  assert (Um : u * Rabs (B2R x - B2R y) <= / 10 ^ 15 * 121).
  { apply Rmult_le_compat; try lra. apply Rabs_pos. }
  assert (T : Rabs (fl (B2R x - B2R y) - (a - b)) <= 7.2e-12).
  { replace (fl (B2R x - B2R y) - (a - b)) with ((fl (B2R x - B2R y) - (B2R x - B2R y)) + (B2R x - B2R y - (a - b))) by ring.
    eapply Rle_trans; [apply Rabs_triang|]. cbn [pow] in *. lra. }
  destruct (sub64_rep x y _ _ (conj R1 eq_refl) (conj R2 eq_refl)) as [R3 V].
  { apply fits_small. assert (MS := million_small).
    replace (fl (B2R x - B2R y)) with ((fl (B2R x - B2R y) - (a - b)) + (a - b)) by ring.
    eapply Rle_trans; [apply Rabs_triang|]. lra. }
  split; [exact R3|]. rewrite V. exact T.
Qed.

Lemma term_close : is_finite (term64 depth patm c) = true /\
  Rabs (B2R (term64 depth patm c) - dz * exact_delta (B2R patm) c) <= 7.5e-12 * dz + / 10 ^ 25
  /\ Rabs (B2R (term64 depth patm c)) <= 122 * dz + / 10 ^ 25.
Proof.
  assert (D0 := dz_nonneg). assert (I25 : 0 < / 10 ^ 25) by (apply Rinv_0_lt_compat, pow_lt; lra).
  unfold term64. destruct (Bool.bool_dec (wet c) true) as [W|W].
  2:{ apply not_true_is_false in W. assert (E : delta_rho64 patm c = B754_nan) by (unfold delta_rho64; rewrite W; reflexivity). rewrite E.
      assert (N : (dz64 (ztop c) (zbot c) depth zero * B754_nan)%f64 = B754_nan).
      { destruct (dz64 (ztop c) (zbot c) depth zero); reflexivity. }
      rewrite N. unfold skipna. cbn [is_nan]. split; [reflexivity|]. cbn [B2R zero]. unfold exact_delta. rewrite W.
      rewrite Rmult_0_r, Rminus_diag_eq by reflexivity. rewrite Rabs_R0. lra. }
  destruct term_dz as [F1 E1]. destruct (term_delta W) as [F2 E2]. assert (DB := delta_bound W).
  set (x := dz64 (ztop c) (zbot c) depth zero) in *. set (y := delta_rho64 patm c) in *. set (d := exact_delta (B2R patm) c) in *.
  assert (U := u_lt). assert (U0 := u_pos). assert (Et := eta_small). assert (Et0 := eta_pos).
  assert (Y : Rabs (B2R y) <= 121).
  { replace (B2R y) with ((B2R y - d) + d) by ring. eapply Rle_trans; [apply Rabs_triang|]. lra. }
  assert (X : Rabs (B2R x) <= dz + (u * dz + eta)).
  { replace (B2R x) with ((B2R x - dz) + dz) by ring. eapply Rle_trans; [apply Rabs_triang|].
    rewrite (Rabs_right dz) by lra. lra. }
  assert (P : Rabs (B2R x * B2R y - dz * d) <= 121 * (u * dz + eta) + dz * 7.2e-12).
  { replace (B2R x * B2R y - dz * d) with ((B2R x - dz) * B2R y + dz * (B2R y - d)) by ring.
    eapply Rle_trans; [apply Rabs_triang|]. rewrite !Rabs_mult, (Rabs_right dz) by lra.
    apply Rplus_le_compat; [|apply Rmult_le_compat_l; lra].
    rewrite Rmult_comm. apply Rmult_le_compat; try apply Rabs_pos; assumption. }
  assert (Q : Rabs (B2R x * B2R y) <= 121 * (dz + (u * dz + eta))).
  { rewrite Rabs_mult, Rmult_comm. apply Rmult_le_compat; try apply Rabs_pos; assumption. }
  assert (Er := fl_error (B2R x * B2R y)).
  assert (Ud : u * dz <= / 10 ^ 15 * dz) by (apply Rmult_le_compat_r; lra).
  assert (Uq : u * Rabs (B2R x * B2R y) <= / 10 ^ 15 * (121 * (dz + (u * dz + eta)))).
  { apply Rmult_le_compat; try lra. apply Rabs_pos. }
  assert (T : Rabs (fl (B2R x * B2R y) - dz * d) <= 7.5e-12 * dz + / 10 ^ 25).
  { replace (fl (B2R x * B2R y) - dz * d) with ((fl (B2R x * B2R y) - B2R x * B2R y) + (B2R x * B2R y - dz * d)) by ring.
    eapply Rle_trans; [apply Rabs_triang|]. cbn [pow] in *. lra. }
  assert (T' : Rabs (fl (B2R x * B2R y)) <= 122 * dz + / 10 ^ 25).
  { replace (fl (B2R x * B2R y)) with ((fl (B2R x * B2R y) - B2R x * B2R y) + B2R x * B2R y) by ring.
    eapply Rle_trans; [apply Rabs_triang|]. cbn [pow] in *. lra. }
  destruct (mul64_rep x y _ _ (conj F1 eq_refl) (conj F2 eq_refl)) as [R V].
  { apply fits_small. assert (MS := million_small). eapply Rle_trans; [exact T'|]. cbn [pow] in *. lra. }
  unfold skipna. rewrite (finite_not_nan _ R). split; [exact R|]. rewrite V. split; assumption.
Qed.
End Term.

(** ** The sum and the final product *)
Lemma pow_bernoulli (n : nat) : 0 <= 1 - INR n * u -> (1 + u) ^ n * (1 - INR n * u) <= 1.
Proof.
  assert (U := u_pos). induction n as [|n IH]; intros H; [cbn; lra|].
  rewrite S_INR in *. assert (P : 0 < (1 + u) ^ n) by (apply pow_lt; lra). assert (I := pos_INR n).
  assert (IH' := IH ltac:(lra)). cbn [pow].
  assert ((1 + u) * (1 - (INR n + 1) * u) <= 1 - INR n * u) by nra.
  replace ((1 + u) * (1 + u) ^ n * (1 - (INR n + 1) * u)) with ((1 + u) ^ n * ((1 + u) * (1 - (INR n + 1) * u))) by ring.
  eapply Rle_trans; [apply Rmult_le_compat_l; [lra|eassumption]|]. exact IH'.
Qed.
Lemma gam_1000 n : (n <= 1000)%nat -> gam n <= 1.2e-13.
Proof.
  intros H. assert (M := gam_mono n 1000 H). eapply Rle_trans; [exact M|].
  assert (I : INR 1000 = 1000) by (rewrite INR_IZR_INZ; reflexivity).
  assert (B := pow_bernoulli 1000). rewrite I, u_val in B. unfold gam. rewrite u_val.
  assert (B' := B ltac:(lra)). set (q := (1 + / 9007199254740992) ^ 1000) in *. lra.
Qed.
Lemma eta_u : eta / u <= / 10 ^ 14.
Proof.
  assert (E := ee_fx F64). cbn [ee] in E. rewrite u_val. unfold Rdiv. rewrite Rinv_inv.
  eapply Rle_trans; [apply Rmult_le_compat_r; [lra|exact E]|]. unfold fx. 
  replace (1 / IZR one * 9007199254740992) with (/ (IZR one / 9007199254740992)) by (field; assert (O := one_pos); lra).
  apply Rinv_le_contravar; [apply pow_lt; lra|].
  apply Rmult_le_reg_r with 9007199254740992; [lra|].
  replace (IZR one / 9007199254740992 * 9007199254740992) with (IZR one) by (field; lra).
  replace (10 ^ 14) with (IZR (10 ^ 14)) by (rewrite pow_IZR; reflexivity).
  rewrite <- mult_IZR. apply IZR_le. vm_compute. discriminate.
Qed.

Section Column.
Variables (rhozero depth patm : f64) (column : list cell).
Hypotheses (Fr : is_finite rhozero = true) (Fd : is_finite depth = true) (Fa : is_finite patm = true).
Hypotheses (Hr : 1000 <= B2R rhozero <= 1100) (Hd : 0 <= B2R depth) (Ha : 0 <= B2R patm <= 110000).
Hypothesis Hc : forall c, In c column ->
  cell_finite c /\ 0 <= B2R (ztop c) <= B2R (zbot c) /\ (wet c = true -> wet_ok c).
Hypothesis Total : rsum (map (thickness (B2R depth)) column) <= 12000.
Hypothesis Levels : (length column <= 1000)%nat.

Lemma part_le (f : cell -> R) l c : (forall c, 0 <= f c) -> In c l -> f c <= rsum (map f l).
Proof.
  intros P. induction l as [|x l IH]; [intros []|]. intros [->|H]; cbn.
  - assert (Q : 0 <= rsum (map f l)).
    { clear IH. induction l as [|y l IH]; cbn; [lra|]. assert (A := P y). lra. }
    lra.
  - assert (A := P x). assert (B := IH H). lra.
Qed.
Lemma thickness_nonneg d c : 0 <= thickness d c.
Proof. unfold thickness, overlap. apply Rmax_l. Qed.
Lemma rsum_const k (l : list cell) : rsum (map (fun _ => k) l) = INR (length l) * k.
Proof. induction l as [|x l IH]; [cbn; ring|]. cbn [map rsum length]. rewrite IH, S_INR. ring. Qed.
Lemma rsum_lin a k (f : cell -> R) l : rsum (map (fun c => a * f c + k) l) = a * rsum (map f l) + INR (length l) * k.
Proof. induction l as [|x l IH]; [cbn; ring|]. cbn [map rsum length]. rewrite IH, S_INR. ring. Qed.

Lemma column_close h : steric64 rhozero depth patm column h ->
  is_finite h = true /\ Rabs (B2R h - exact_height (B2R rhozero) (B2R depth) (B2R patm) column) <= 3e-10.
Proof.
  intros (s & Hs & ->). set (ts := map (term64 depth patm) column) in *.
  assert (Tc : forall c, In c column -> is_finite (term64 depth patm c) = true /\
    Rabs (B2R (term64 depth patm c) - thickness (B2R depth) c * exact_delta (B2R patm) c) <= 7.5e-12 * thickness (B2R depth) c + / 10 ^ 25
    /\ Rabs (B2R (term64 depth patm c)) <= 122 * thickness (B2R depth) c + / 10 ^ 25).
  { intros c Ic. destruct (Hc c Ic) as (A & B & C). apply term_close; try assumption.
    eapply Rle_trans; [|exact Total]. apply part_le; [apply thickness_nonneg|exact Ic]. }
  assert (Fin : Forall (fun x : f64 => is_finite x = true) ts).
  { apply Forall_forall. intros x Hx. apply in_map_iff in Hx as (c & <- & Ic). exact (proj1 (Tc c Ic)). }
  assert (N : INR (length column) <= 1000).
  { replace 1000 with (INR 1000) by (rewrite INR_IZR_INZ; reflexivity). apply le_INR, Levels. }
  assert (N0 := pos_INR (length column)).
  assert (Lt : length ts = length column) by apply map_length.
  assert (I25 : 0 < / 10 ^ 25 <= / 1000000000) by (cbn [pow]; lra).
  assert (NI : INR (length column) * / 10 ^ 25 <= 1000 * / 1000000000) by (apply Rmult_le_compat; lra).
  assert (NI0 : 0 <= INR (length column) * / 10 ^ 25) by (apply Rmult_le_pos; lra).
  assert (NI' : INR (length column) * / 10 ^ 25 <= 1000 * / 10 ^ 25) by (apply Rmult_le_compat_r; lra).
  assert (A : asum (map (fun x : f64 => B2R x) ts) <= 1464001).
  { unfold asum, ts. rewrite !map_map. eapply Rle_trans.
    - apply (rsum_le _ (fun c => 122 * thickness (B2R depth) c + / 10 ^ 25)). intros c Ic. exact (proj2 (proj2 (Tc c Ic))).
    - rewrite rsum_lin. lra. }
  assert (A0 := asum_nonneg (map (fun x : f64 => B2R x) ts)).
  assert (EU := eta_u). assert (EU0 : 0 < eta / u) by (apply Rmult_lt_0_compat; [apply eta_pos|apply Rinv_0_lt_compat, u_pos]).
  assert (Bu : 0 <= budget ts <= 1464002).
  { unfold budget. rewrite Lt.
    assert (INR (length column) * (eta / u) <= 1000 * / 10 ^ 14) by (apply Rmult_le_compat; lra).
    assert (0 <= INR (length column) * (eta / u)) by (apply Rmult_le_pos; lra). cbn [pow] in *. lra. }
  assert (G := gam_1000 (length ts) ltac:(lia)). assert (G0 := gam_nonneg (length ts)).
  destruct (sum_bound ts s Hs Fin) as (Fs & Ns & Es).
  { apply Rle_lt_trans with (2 * 1464002); [apply Rmult_le_compat; lra|].
    apply Rlt_trans with (bpow radix2 100); [|apply bpow_lt; reflexivity].
    change (bpow radix2 100) with (IZR (2 ^ 100)). rewrite <- mult_IZR. apply IZR_lt. vm_compute. reflexivity. }
  set (X := rsum (map (fun c => thickness (B2R depth) c * exact_delta (B2R patm) c) column)).
  assert (E1 : Rabs (B2R s - rsum (map (fun x : f64 => B2R x) ts)) <= 1.2e-13 * 1464002).
  { eapply Rle_trans; [exact Es|]. apply Rmult_le_compat; lra. }
  assert (E2 : Rabs (rsum (map (fun x : f64 => B2R x) ts) - X) <= 7.5e-12 * 12000 + 1000 * / 10 ^ 25).
  { unfold ts, X. rewrite map_map, rsum_minus. eapply Rle_trans; [apply rsum_le_asum|]. unfold asum. rewrite map_map.
    eapply Rle_trans.
    - apply (rsum_le _ (fun c => 7.5e-12 * thickness (B2R depth) c + / 10 ^ 25)). intros c Ic. exact (proj1 (proj2 (Tc c Ic))).
    - rewrite rsum_lin. lra. }
  assert (E3 : Rabs (B2R s - X) <= 2.7e-7).
  { replace (B2R s - X) with ((B2R s - rsum (map (fun x : f64 => B2R x) ts)) + (rsum (map (fun x : f64 => B2R x) ts) - X)) by ring.
    eapply Rle_trans; [apply Rabs_triang|]. cbn [pow] in *. lra. }
  assert (XA : Rabs (rsum (map (fun x : f64 => B2R x) ts)) <= 1464001).
  { eapply Rle_trans; [apply rsum_le_asum|exact A]. }
  assert (S1 : Rabs (B2R s) <= 1464002).
  { replace (B2R s) with ((B2R s - rsum (map (fun x : f64 => B2R x) ts)) + rsum (map (fun x : f64 => B2R x) ts)) by ring.
    eapply Rle_trans; [apply Rabs_triang|]. lra. }
  (* the factor *)
  assert (L1 : rep64 (lit (-1)) (-1)).
  { split; [reflexivity|]. unfold lit. vm_compute B2R. cbn. unfold F2R. cbn. lra. }
  set (r := B2R rhozero) in *.
  assert (IR : / 1100 <= / r <= / 1000) by (split; apply Rinv_le_contravar; lra).
  assert (Q0 : Rabs (-1 / r) <= / 1000).
  { replace (-1 / r) with (- / r) by (unfold Rdiv; ring). rewrite Rabs_Ropp, Rabs_right by lra. lra. }
  assert (U := u_lt). assert (U0 := u_pos). assert (Et := eta_small). assert (Et0 := eta_pos).
  assert (Eq := fl_error (-1 / r)).
  assert (Uq : u * Rabs (-1 / r) <= / 10 ^ 15 * / 1000) by (apply Rmult_le_compat; try lra; apply Rabs_pos).
  assert (C1 : Rabs (fl (-1 / r) - -1 / r) <= 2e-18) by (cbn [pow] in *; lra).
  assert (C2 : Rabs (fl (-1 / r)) <= 0.0011).
  { replace (fl (-1 / r)) with ((fl (-1 / r) - -1 / r) + -1 / r) by ring. eapply Rle_trans; [apply Rabs_triang|]. lra. }
  assert (MS := million_small).
  destruct (div64_rep (lit (-1)) rhozero _ _ L1 (conj Fr eq_refl) ltac:(fold r; lra)) as [Fq Vq].
  { apply fits_small. fold r. lra. }
  fold r in Vq. set (q := fl (-1 / r)) in *.
  assert (PQ : Rabs (q * B2R s - -1 / r * X) <= 2e-18 * 1464002 + / 1000 * 2.7e-7).
  { replace (q * B2R s - -1 / r * X) with ((q - -1 / r) * B2R s + -1 / r * (B2R s - X)) by ring.
    eapply Rle_trans; [apply Rabs_triang|]. rewrite !Rabs_mult.
    apply Rplus_le_compat; apply Rmult_le_compat; try apply Rabs_pos; assumption. }
  assert (MQ : Rabs (q * B2R s) <= 0.0011 * 1464002).
  { rewrite Rabs_mult. apply Rmult_le_compat; try apply Rabs_pos; assumption. }
  assert (Ef := fl_error (q * B2R s)).
  assert (Uf : u * Rabs (q * B2R s) <= / 10 ^ 15 * (0.0011 * 1464002)) by (apply Rmult_le_compat; try lra; apply Rabs_pos).
  destruct (mul64_rep (div64 (lit (-1)) rhozero) s q (B2R s) (conj Fq Vq) (conj Fs eq_refl)) as [Ff Vf].
  { apply fits_small.
    replace (fl (q * B2R s)) with ((fl (q * B2R s) - q * B2R s) + q * B2R s) by ring.
    eapply Rle_trans; [apply Rabs_triang|]. cbn [pow] in *. lra. }
  split; [exact Ff|]. rewrite Vf. unfold exact_height. fold X. fold r.
  replace (- (1 / r) * X) with (-1 / r * X) by (unfold Rdiv; ring).
  replace (fl (q * B2R s) - -1 / r * X) with ((fl (q * B2R s) - q * B2R s) + (q * B2R s - -1 / r * X)) by ring.
  eapply Rle_trans; [apply Rabs_triang|]. cbn [pow] in *. lra.
Qed.
End Column.
