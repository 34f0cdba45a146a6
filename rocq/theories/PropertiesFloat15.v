(** * PropertiesFloat15: the stability angle computed in binary64 *)
From Coq Require Import Reals Lra Lia List ZArith Bool.
From Flocq Require Import Core IEEE754.BinarySingleNaN.
From Verif Require Import SpecFloat64 Ieee IeeeDerived IeeeWave IeeeTurner SpecIeeeTurner ProofsFloat ProofsIeee ProofsPi ProofsFloat22 ProofsFloat25 ProofsFloat26.
Local Open Scope R_scope.

(** C164: the angle whose tangent is the sum of the contributions of temperature and salinity over their difference. *)
Theorem C164_angle : forall atan64 a x b y, accurate_atan atan64 -> ordinary a -> ordinary x -> ordinary b -> ordinary y ->
  let t := B2R a * B2R x in let s := B2R b * B2R y in t <> 0 -> 1e-15 * Rabs t <= Rabs (s - t) ->
  exists ang, -90 < ang < 90 /\ tan (ang * (PI / 180)) = (t + s) / (t - s) /\
  is_finite (angle64 atan64 a x b y) = true /\ Rabs (B2R (angle64 atan64 a x b y) - ang) <= 1.1e-13.
Proof.
  intros atan64 a x b y A Oa Ox Ob Oy t s Nt G. assert (D := PI_digits).
  destruct (angle_ok atan64 a x b y A (ordinary_moderate _ Oa) (ordinary_moderate _ Ox) (ordinary_moderate _ Ob) (ordinary_moderate _ Oy) Nt G) as [F E]. fold t s in E.
  exists (tu (s / t) * (180 / PI)). assert (B := atan_bound ((1 + s / t) / (1 - s / t))). fold (tu (s / t)) in B.
  assert (I : 0 < 180 / PI) by (apply Rdiv_lt_0_compat; lra). assert (W : PI / 2 * (180 / PI) = 90) by (field; lra).
  split; [split; nra|]. split; [|split; [exact F|exact E]].
  replace (tu (s / t) * (180 / PI) * (PI / 180)) with (tu (s / t)) by (field; lra). unfold tu. rewrite tan_atan.
  assert (N : t - s <> 0) by (intros Z; replace (s - t) with (- (t - s)) in G by ring; rewrite Z, Ropp_0, Rabs_R0 in G; assert (P := Rabs_pos_lt t Nt); lra).
  field. repeat split; try assumption; lra.
Qed.
Print Assumptions C164_angle.

(** Level [k] of a column, in terms of the computed coefficients and gradients. *)
Theorem C164_column : forall atan64 n z T S p k, accurate_atan atan64 ->
  let a := alpha64 (T k) (S k) (p k) in let b := beta64 (T k) (S k) (p k) in let x := gradient64 n z T k in let y := gradient64 n z S k in
  ordinary a -> ordinary x -> ordinary b -> ordinary y -> B2R a * B2R x <> 0 ->
  1e-15 * Rabs (B2R a * B2R x) <= Rabs (B2R b * B2R y - B2R a * B2R x) ->
  exists ang, -90 < ang < 90 /\ tan (ang * (PI / 180)) = (B2R a * B2R x + B2R b * B2R y) / (B2R a * B2R x - B2R b * B2R y) /\
  is_finite (stability64 atan64 n z T S p k) = true /\ Rabs (B2R (stability64 atan64 n z T S p k) - ang) <= 1.1e-13.
Proof. intros atan64 n z T S p k A a b x y Oa Ox Ob Oy Nt G. exact (C164_angle atan64 a x b y A Oa Ox Ob Oy Nt G). Qed.
Print Assumptions C164_column.

(** Where the computed contribution of temperature is zero there is no angle, whatever the salinity. *)
Theorem C164_missing : forall atan64 a x b y, atan64 B754_nan = B754_nan -> is_finite (a * x)%f64 = true -> B2R (a * x)%f64 = 0 -> angle64 atan64 a x b y = B754_nan.
Proof.
  intros atan64 a x b y N F Z. unfold angle64, turner64, ratio64. set (t := (a * x)%f64) in *. set (s := (b * y)%f64).
  assert (Q : ((of_Z 1 + s / t) / (of_Z 1 - s / t))%f64 = B754_nan).
  { destruct t as [st| | |st m e h]; try discriminate.
    - destruct s as [ss|ss| |ss m e h]; destruct st; try destruct ss; reflexivity.
    - exfalso. revert Z. destruct st; [apply Rlt_not_eq, F2R_lt_0|apply Rgt_not_eq, F2R_gt_0]; reflexivity. }
  rewrite Q, N. reflexivity.
Qed.
Print Assumptions C164_missing.

(** C165: temperature and salinity contribute with opposite signs exactly when the angle is strictly between -45 and 45 degrees.
    Not in binary64: every inverse tangent leaves the angle at 45 when one contribution is tiny. *)
Theorem C165_refuted : forall atan64, accurate_atan atan64 -> ordered_atan atan64 -> exists a x b y, ordinary a /\ ordinary x /\ ordinary b /\ ordinary y /\
  (B2R a * B2R x) * (B2R b * B2R y) < 0 /\ ~ (-45 < B2R (angle64 atan64 a x b y) < 45).
Proof.
  intros atan64 A O. exists (of_Z 1), (of_Z 1), (of_Z (-1)), (of_Z 1 / of_Z (2 ^ 60))%f64.
  assert (O1 : ordinary (of_Z 1)) by (eapply ordinary_SF; [vm_compute; reflexivity|reflexivity]).
  assert (E : B2SF (of_Z 1 / of_Z (2 ^ 60))%f64 = SpecFloat.S754_finite false (2 ^ 52) (-112)) by (vm_compute; reflexivity).
  assert (V : B2R (of_Z 1 / of_Z (2 ^ 60))%f64 = / IZR (2 ^ 60)).
  { rewrite <- SF2R_B2SF, E. unfold SF2R, F2R, Defs.Fnum, Defs.Fexp, cond_Zopp. change (bpow radix2 (-112)) with (/ IZR 5192296858534827628530496329220096). change (2 ^ 60)%Z with 1152921504606846976%Z. change (Z.pos (2 ^ 52)) with 4503599627370496%Z. lra. }
  split; [exact O1|]. split; [exact O1|]. split; [eapply ordinary_SF; [vm_compute; reflexivity|reflexivity]|]. split; [eapply ordinary_SF; [exact E|reflexivity]|].
  destruct (of_Z_rep (-1) eq_refl) as [_ Vm]. split.
  - rewrite V, Vm, (proj2 one_rep). lra.
  - assert (Q : B2SF (quo64 (ratio64 (of_Z 1) (of_Z 1) (of_Z (-1)) (of_Z 1 / of_Z (2 ^ 60))%f64)) = B2SF (of_Z 1)) by (vm_compute; reflexivity).
    apply B2SF_inj in Q. unfold angle64, turner64. fold (quo64 (ratio64 (of_Z 1) (of_Z 1) (of_Z (-1)) (of_Z 1 / of_Z (2 ^ 60))%f64)). rewrite Q.
    destruct O as (_ & P1 & _). destruct one_rep as [Fo Vo]. specialize (P1 _ Fo Vo). destruct (atan_size _ _ A Fo) as [Fa Sa].
    assert (G := deg_ge _ Fa Sa ltac:(rewrite P1; right; reflexivity)). lra.
Qed.
Print Assumptions C165_refuted.

(** The sides are never exchanged, and the distinction is strict unless one contribution is less than 1e-14 of the other. *)
Theorem C165_partial : forall atan64 a x b y, accurate_atan atan64 -> ordered_atan atan64 -> ordinary a -> ordinary x -> ordinary b -> ordinary y ->
  let t := B2R a * B2R x in let s := B2R b * B2R y in let ang := B2R (angle64 atan64 a x b y) in t <> 0 ->
  is_finite (angle64 atan64 a x b y) = true /\
  (t * s < 0 -> -45 <= ang <= 45) /\ (0 < t * s -> ang <= -45 \/ 45 <= ang) /\ (s = 0 -> ang = 45) /\
  (1e-14 * Rabs t <= Rabs s <= 1e14 * Rabs t -> (t * s < 0 -> -45 < ang < 45) /\ (0 < t * s -> ang < -45 \/ 45 < ang)).
Proof.
  intros atan64 a x b y A O Oa Ox Ob Oy t s ang Nt. us.
  assert (Na : B2R a <> 0) by (intros Z; apply Nt; unfold t; rewrite Z; ring). assert (Nx : B2R x <> 0) by (intros Z; apply Nt; unfold t; rewrite Z; ring).
  destruct (ratio_ok a x b y (ordinary_moderate _ Oa) (ordinary_moderate _ Ox) (ordinary_moderate _ Ob) (ordinary_moderate _ Oy) Na Nx) as (F & R & _ & U). fold t s in R.
  unfold ang, angle64 in *. set (r := ratio64 a x b y) in *. destruct (turner_side atan64 r A O F U) as (S1 & S2 & S3 & S4).
  assert (P : 0 < t * t) by nra.
  assert (Q : s / t = t * s * / (t * t)) by (field; exact Nt). assert (IP := Rinv_0_lt_compat _ P).
  assert (Neg : t * s < 0 -> B2R r < 0 /\ s / t < 0). { intros H. assert (X : s / t < 0) by (rewrite Q; nra). split; [|exact X]. unfold rel in R. rewrite (Rabs_left (s / t)) in R by exact X. apply Rabs_le_inv in R. nra. }
  assert (Pos : 0 < t * s -> 0 < B2R r /\ 0 < s / t). { intros H. assert (X : 0 < s / t) by (rewrite Q; nra). split; [|exact X]. unfold rel in R. rewrite (Rabs_pos_eq (s / t)) in R by lra. apply Rabs_le_inv in R. nra. }
  split.
  { destruct (Req_dec (B2R r) 1) as [E|E]; [|apply (turner_ok atan64 r A F U E)]. unfold turner64. fold (quo64 r). rewrite (quo_one r F E). apply (inf_angle _ A). }
  split; [intros H; apply S1; destruct (Neg H); lra|]. split.
  { intros H. destruct (Pos H) as [Y _]. destruct (Rle_or_lt (B2R r) 1) as [L|L]; [right; apply S2; lra|left; apply S3, L]. }
  split.
  { intros H. apply S4. rewrite H in R. unfold rel, Rdiv in R. rewrite Rmult_0_l, Rabs_R0, Rmult_0_r, Rminus_0_r in R. assert (X := Rabs_pos (B2R r)).
    destruct (Req_dec (B2R r) 0) as [Z|Z]; [exact Z|]. apply Rabs_pos_lt in Z. lra. }
  intros [L H]. assert (Pt := Rabs_pos_lt t Nt).
  assert (B : 1e-14 <= Rabs (s / t) <= 1e14).
  { assert (Q2 : Rabs (s / t) = Rabs s * / Rabs t) by (unfold Rdiv; rewrite Rabs_mult, Rabs_inv; reflexivity). rewrite Q2. split; apply Rmult_le_reg_r with (Rabs t); try exact Pt; rewrite (Rmult_assoc (Rabs s)), Rinv_l by lra; lra. }
  assert (B' : 9e-15 <= Rabs (B2R r) <= 1.1e14)
    by (destruct (rel_size _ _ _ R) as [X Y]; set (q := Rabs (s / t)) in *; assert (3.1 * u * q <= 1e-3 * q) by (apply Rmult_le_compat_r; lra); split; lra).
  destruct (turner_strict atan64 r A F B') as [T1 T2]. split; intros X; [apply T1, Neg, X|apply T2, Pos, X].
Qed.
Print Assumptions C165_partial.

Import ListNotations.
Definition list64 (l : list Z) (k : nat) : f64 := of_Z (nth k l 0%Z).
(** Warm salty water under cold fresh water, or the other way round, in a column of three levels. *)
Example C164_case : accurate_atan atan_nearest /\ ordered_atan atan_nearest /\ atan_nearest B754_nan = B754_nan /\
  (let z := list64 [10; 20; 40]%Z in let T := list64 [20; 18; 15]%Z in let S := list64 [34; 35; 36]%Z in let p := list64 [100000; 200000; 400000]%Z in
   ordinary (alpha64 (T 1%nat) (S 1%nat) (p 1%nat)) /\ ordinary (beta64 (T 1%nat) (S 1%nat) (p 1%nat)) /\ ordinary (gradient64 3 z T 1) /\ ordinary (gradient64 3 z S 1) /\
   (B2R (alpha64 (T 1%nat) (S 1%nat) (p 1%nat)) * B2R (gradient64 3 z T 1)) * (B2R (beta64 (T 1%nat) (S 1%nat) (p 1%nat)) * B2R (gradient64 3 z S 1)) < 0 /\
   -45 < B2R (stability64 atan_nearest 3 z T S p 1) < 45) /\
  (exists ang, -90 < ang < 90 /\ tan (ang * (PI / 180)) = 2 /\ Rabs (B2R (angle64 atan_nearest (of_Z 2) (of_Z 3) (of_Z 1) (of_Z 2)) - ang) <= 1.1e-13) /\
  angle64 atan_nearest (of_Z 2) (of_Z 0) (of_Z 1) (of_Z 2) = B754_nan.
Proof.
  split; [apply atan_nearest_accurate|]. split; [apply atan_nearest_ordered|]. split; [reflexivity|].
  split.
  - intros z T S p.
    assert (E1 : B2SF (alpha64 (T 1%nat) (S 1%nat) (p 1%nat)) = SpecFloat.S754_finite false 8880115701819731 (-65)) by (vm_compute; reflexivity).
    assert (E2 : B2SF (beta64 (T 1%nat) (S 1%nat) (p 1%nat)) = SpecFloat.S754_finite false 6883776247814507 (-63)) by (vm_compute; reflexivity).
    assert (E3 : B2SF (gradient64 3 z T 1) = SpecFloat.S754_finite true 6605279453476724 (-55)) by (vm_compute; reflexivity).
    assert (E4 : B2SF (gradient64 3 z S 1) = SpecFloat.S754_finite false 6004799503160664 (-56)) by (vm_compute; reflexivity).
    assert (O1 := ordinary_SF _ _ _ _ E1 eq_refl). assert (O2 := ordinary_SF _ _ _ _ E2 eq_refl).
    assert (O3 := ordinary_SF _ _ _ _ E3 eq_refl). assert (O4 := ordinary_SF _ _ _ _ E4 eq_refl).
    split; [exact O1|]. split; [exact O2|]. split; [exact O3|]. split; [exact O4|].
    unfold stability64. set (a := alpha64 _ _ _) in *. set (b := beta64 _ _ _) in *. set (x := gradient64 3 z T 1) in *. set (y := gradient64 3 z S 1) in *.
    assert (V : forall (w : f64) s m e, B2SF w = SpecFloat.S754_finite s m e -> B2R w = IZR (cond_Zopp s (Zpos m)) * bp e) by (intros w s m e E; rewrite <- SF2R_B2SF, E; reflexivity).
    apply V in E1, E2, E3, E4. cbn [cond_Zopp Z.opp] in *.
    change (bp (-65)) with (/ 36893488147419103232) in E1. change (bp (-63)) with (/ 9223372036854775808) in E2.
    change (bp (-55)) with (/ 36028797018963968) in E3. change (bp (-56)) with (/ 72057594037927936) in E4.
    assert (B1 : 2e-4 < B2R a < 3e-4) by (rewrite E1; lra). assert (B2 : 7e-4 < B2R b < 8e-4) by (rewrite E2; lra).
    assert (B3 : -0.2 < B2R x < -0.18) by (rewrite E3; lra). assert (B4 : 0.08 < B2R y < 0.09) by (rewrite E4; lra).
    assert (Ht : - 6e-5 < B2R a * B2R x < - 3.6e-5) by nra. assert (Hs : 5.6e-5 < B2R b * B2R y < 7.2e-5) by nra.
    split; [nra|].
    destruct (C165_partial atan_nearest a x b y atan_nearest_accurate atan_nearest_ordered O1 O3 O2 O4 ltac:(lra)) as (_ & _ & _ & _ & C).
    rewrite Rabs_left, Rabs_pos_eq in C by lra. destruct C as [C _]; [lra|]. apply C. nra.
  - assert (O1 : ordinary (of_Z 1)) by (eapply ordinary_SF; [vm_compute; reflexivity|reflexivity]).
    assert (O2 : ordinary (of_Z 2)) by (eapply ordinary_SF; [vm_compute; reflexivity|reflexivity]).
    assert (O3 : ordinary (of_Z 3)) by (eapply ordinary_SF; [vm_compute; reflexivity|reflexivity]).
    destruct (of_Z_rep 1 eq_refl) as [_ V1]. destruct (of_Z_rep 2 eq_refl) as [_ V2]. destruct (of_Z_rep 3 eq_refl) as [_ V3].
    split.
    + destruct (C164_angle atan_nearest (of_Z 2) (of_Z 3) (of_Z 1) (of_Z 2) atan_nearest_accurate O2 O3 O1 O2) as (ang & B & Et & _ & E).
      * rewrite V2, V3. lra.
      * rewrite V1, V2, V3. rewrite Rabs_pos_eq, Rabs_left; lra.
      * exists ang. split; [exact B|]. split; [rewrite Et, V1, V2, V3; lra|exact E].
    + apply C164_missing; [reflexivity|vm_compute; reflexivity|].
      assert (E : B2SF (of_Z 2 * of_Z 0)%f64 = SpecFloat.S754_zero false) by (vm_compute; reflexivity). rewrite <- SF2R_B2SF, E. reflexivity.
Qed.
