(** * PropertiesFloat12: the Coriolis parameter and cell areas in binary64 (C159, C160, C161) *)
From Coq Require Import Reals Lra Lia List ZArith QArith Bool String.
From Flocq Require Import Core IEEE754.BinarySingleNaN.
From Verif Require Import Num NumFacts Py Arr ArrFacts Derived Util SpecUtil ProofsFields ProofsUtil SpecFloat64 Ieee IeeeWave IeeeSphere SpecIeeeSphere
  ProofsFloat ProofsIeee ProofsFloat6 ProofsFloat10 ProofsFloat19 ProofsFloat22 ProofsFloat23 ProofsPi.
Import ListNotations.
Local Open Scope R_scope.

(** A latitude: zero, or at least 2^-900 degrees, and at most 90 degrees. *)
Definition latitude (lat : f64) : Prop :=
  is_finite lat = true /\ Rabs (B2R lat) <= 90 /\ (B2R lat = 0 \/ / 2 ^ 900 <= Rabs (B2R lat)).
Lemma lat_big lat : latitude lat -> is_finite lat = true /\ Rabs (B2R lat) <= 90 /\ big (-900) (B2R lat).
Proof.
  intros (F & L & B). split; [exact F|]. split; [exact L|]. destruct B as [B|B]; [left; exact B|right].
  change (-900)%Z with (- (900))%Z. rewrite bpow_opp, (bp_pow 900 : bp 900 = 2 ^ 900). exact B.
Qed.
Definition odd64 (sin64 : f64 -> f64) : Prop :=
  forall x y, is_finite x = true -> is_finite y = true -> B2R y = - B2R x -> B2R (sin64 y) = - B2R (sin64 x).

(** C159.  With a sine accurate to four units in the last place the computed Coriolis parameter of every latitude is finite, has a
    relative error below 2.7e-15 against the exact one, has the sign of the latitude (zero on the equator), never exceeds
    twice the rate of rotation by more than that, and is opposite at opposite latitudes if the sine is odd. *)
Theorem C159_coriolis : forall sin64 lat, accurate_sin sin64 -> latitude lat ->
  is_finite (coriolis64 sin64 lat) = true /\
  (forall a e, at_ a e = Fin (B2R lat) -> exists f, at_ (calc_coriolis a) e = Fin f /\
     Rabs (B2R (coriolis64 sin64 lat) - f) <= 2.7e-15 * Rabs f) /\
  (0 < B2R lat <-> 0 < B2R (coriolis64 sin64 lat)) /\ (B2R lat < 0 <-> B2R (coriolis64 sin64 lat) < 0) /\
  (B2R lat = 0 <-> B2R (coriolis64 sin64 lat) = 0) /\
  Rabs (B2R (coriolis64 sin64 lat)) <= 2 * (2 * PI / 86400) * (1 + 2.7e-15) /\
  (odd64 sin64 -> forall lat', is_finite lat' = true -> B2R lat' = - B2R lat -> B2R (coriolis64 sin64 lat') = - B2R (coriolis64 sin64 lat)).
Proof.
  intros sin64 lat A H. destruct (lat_big lat H) as (F & L & B). destruct (cor_ok sin64 lat A F L B) as (G & _ & R).
  assert (U : 24 * u <= 2.7e-15) by (rewrite u_val; lra). apply (rel_weaken _ _ _ _ U) in R. unfold rel in R. assert (P := PI_digits).
  set (c := B2R (coriolis64 sin64 lat)) in *. set (x := B2R lat) in *. set (f := 4 * PI / 86400 * sin (x * PI / 180)) in *.
  assert (S0 : x = 0 -> f = 0) by (intros ->; unfold f; replace (0 * PI / 180) with 0 by lra; rewrite sin_0; ring).
  assert (S1 : 0 < x -> 0 < f). { intros X. unfold f. apply Rmult_lt_0_compat; [lra|]. rewrite Rabs_pos_eq in L by lra. apply sin_gt_0; nra. }
  assert (S2 : x < 0 -> f < 0).
  { intros X. unfold f. rewrite Rabs_left in L by lra. assert (0 < sin (- (x * PI / 180))) by (apply sin_gt_0; nra). rewrite sin_neg in H0. nra. }
  assert (C1 : 0 < f -> 0 < c). { intros X. rewrite (Rabs_pos_eq f) in R by lra. apply Rabs_le_inv in R. nra. }
  assert (C2 : f < 0 -> c < 0). { intros X. rewrite (Rabs_left f) in R by lra. apply Rabs_le_inv in R. nra. }
  assert (C0 : f = 0 -> c = 0). { intros X. rewrite X, Rabs_R0, Rmult_0_r, Rminus_0_r in R. destruct (Req_dec c 0) as [E|E]; [exact E|]. apply Rabs_pos_lt in E. lra. }
  split; [exact G|]. split.
  { intros a e E. exists f. split; [|exact R]. rewrite (calc_coriolis_Fin a e x E). reflexivity. }
  assert (T : (0 < x /\ 0 < c) \/ (x = 0 /\ c = 0) \/ (x < 0 /\ c < 0)).
  { destruct (Rtotal_order x 0) as [X|[X|X]]; [right; right|right; left|left]; auto. }
  split; [lra|]. split; [lra|]. split; [lra|]. split.
  - assert (M : Rabs f <= 4 * PI / 86400). { unfold f. rewrite Rabs_mult, Rabs_pos_eq by lra. assert (Rabs (sin (x * PI / 180)) <= 1) by (apply Rabs_le, SIN_bound). nra. }
    destruct (rel_size _ _ _ R) as [Q _]. eapply Rle_trans; [exact Q|]. assert (0 <= Rabs f) by apply Rabs_pos. nra.
  - intros O lat' F' E. exact (cor_opp sin64 lat lat' A O F F' E L B).
Qed.
Print Assumptions C159_coriolis.

(** C160.  In exact arithmetic the parameter increases strictly with latitude.  In binary64 it cannot: for every accurate
    sine some two latitudes next to the pole, in increasing order, have parameters that do not increase. *)
Theorem C160_monotone_refuted : forall sin64, accurate_sin sin64 ->
  ~ (forall lat lat', latitude lat -> latitude lat' -> B2R lat < B2R lat' -> B2R (coriolis64 sin64 lat) < B2R (coriolis64 sin64 lat')).
Proof.
  intros sin64 A H. destruct (cor_not_strict sin64 A) as (k & K & C).
  assert (V : forall j, (j <= 19)%nat -> latitude (polar j) /\ B2R (polar j) = 90 - INR j * / IZR (2 ^ 46)).
  { intros j J. destruct (polar_ok j J) as [F V]. assert (I := INR19 j J). split; [|exact V]. change (IZR (2 ^ 46)) with 70368744177664 in V.
    assert (W : 89 <= B2R (polar j) <= 90) by (rewrite V; lra). split; [exact F|]. rewrite Rabs_pos_eq by lra. split; [lra|]. right.
    apply Rle_trans with (/ 1); [|lra]. apply Rinv_le_contravar; [lra|]. apply pow_R1_Rle. lra. }
  destruct (V k ltac:(lia)) as [L1 V1]. destruct (V (S k) ltac:(lia)) as [L2 V2].
  assert (C2 := H _ _ L2 L1). rewrite V1, V2, S_INR in C2. change (IZR (2 ^ 46)) with 70368744177664 in C2. specialize (C2 ltac:(lra)). lra.
Qed.
Print Assumptions C160_monotone_refuted.

(** What holds: between 89 degrees south and 89 degrees north, latitudes at least 1e-10 degrees (a hundredth of a millimetre) apart. *)
Theorem C160_monotone_partial : forall sin64 lat lat', accurate_sin sin64 -> latitude lat -> latitude lat' ->
  -89 <= B2R lat -> B2R lat + 1e-10 <= B2R lat' -> B2R lat' <= 89 ->
  B2R (coriolis64 sin64 lat) < B2R (coriolis64 sin64 lat').
Proof.
  intros sin64 lat lat' A H1 H2 L D M. destruct (lat_big lat H1) as (F1 & _ & B1). destruct (lat_big lat' H2) as (F2 & _ & B2).
  exact (cor_mono sin64 lat lat' A F1 F2 B1 B2 L M D).
Qed.
Print Assumptions C160_monotone_partial.

(** The hypotheses: the correctly rounded sine is accurate and odd; thirty and 45 degrees north. *)
Example C159_case : accurate_sin sin_nearest /\ odd64 sin_nearest /\ latitude (of_Z 30) /\ latitude (of_Z (-45)) /\ latitude (of_Z 0) /\
  B2R (coriolis64 sin_nearest (of_Z (-45))) < B2R (coriolis64 sin_nearest (of_Z 30)).
Proof.
  assert (I : forall z, (Z.abs z <= 90)%Z -> latitude (of_Z z)).
  { intros z Hz. destruct (of_Z_rep z ltac:(lia)) as [F V]. split; [exact F|]. rewrite V, <- abs_IZR. split; [apply IZR_le, Hz|].
    destruct (Z.eq_dec z 0) as [->|N]; [left; reflexivity|right]. apply Rle_trans with (/ 1); [apply Rinv_le_contravar; [lra|apply pow_R1_Rle; lra]|].
    rewrite Rinv_1. apply IZR_le. lia. }
  split; [exact sin_nearest_accurate|]. split.
  - intros x y Fx Fy E. unfold sin_nearest. rewrite E, sin_neg. set (s := sin (B2R x)).
    assert (B : Rabs s <= 1) by (apply Rabs_le, SIN_bound).
    destruct (nearest_rep s) as [_ V1]; [apply (fits_bp 0); [lia|exact B]|]. destruct (nearest_rep (- s)) as [_ V2]; [apply (fits_bp 0); [lia|rewrite Rabs_Ropp; exact B]|].
    rewrite V1, V2. apply ProofsFloat4.fl_opp.
  - split; [apply I; lia|]. split; [apply I; lia|]. split; [apply I; lia|].
    apply C160_monotone_partial; [exact sin_nearest_accurate|apply I; lia|apply I; lia| | |]; destruct (of_Z_rep 30 eq_refl) as [_ V1]; destruct (of_Z_rep (-45) eq_refl) as [_ V2]; rewrite ?V1, ?V2; lra.
Qed.
