(** * ProofsFloat19: wave speed and Rossby radius in binary64 (proofs only) *)
From Coq Require Import Reals Lra Lia List ZArith QArith Qreals Bool.
From Flocq Require Import Core IEEE754.BinarySingleNaN Relative.
From Verif Require Import Num NumFacts SpecN2 SpecFloat64 Ieee IeeeGlobal IeeeTime IeeeWave SpecIeee ProofsFloat ProofsIeee ProofsFloat4 ProofsFloat5
  ProofsFloat6 ProofsFloat8 ProofsFloat9 ProofsPi.
Import ListNotations.
Local Open Scope R_scope.

Notation bp := (bpow radix2).
Definition lift (x : f64) : fval := of_f64 x.
Lemma lift_finite x : is_finite x = true -> of_f64 x = Fin (B2R x).
Proof. destruct x; try discriminate; reflexivity. Qed.

(** ** Roots and products *)
Lemma near_sqrt f x y : near f x y -> near f (sqrt x) (sqrt y).
Proof.
  intros N. assert (Y := near_pos _ _ _ N). destruct N as (F & X & A & B). split; [exact F|]. split; [apply sqrt_pos|].
  assert (SF : sqrt f <= f) by (rewrite <- (sqrt_square f) at 2 by lra; apply sqrt_le_1; nra).
  assert (S1 : 1 <= sqrt f) by (rewrite <- sqrt_1; apply sqrt_le_1; lra).
  assert (SX := sqrt_pos x). split.
  - apply Rle_trans with (sqrt (x / f)); [|apply sqrt_le_1; [apply Rmult_le_pos; [lra|left; apply Rinv_0_lt_compat; lra]|lra|exact A]].
    rewrite sqrt_div_alt by lra. apply Rmult_le_compat_l; [exact SX|]. apply Rinv_le_contravar; lra.
  - apply Rle_trans with (sqrt (x * f)); [apply sqrt_le_1; [exact Y|nra|exact B]|]. rewrite sqrt_mult by lra. apply Rmult_le_compat_l; lra.
Qed.
Lemma near_fl0 x : x = 0 \/ bp (-1022) <= x -> near (1 + u) x (fl x).
Proof.
  intros [-> |H]; [|apply near_fl, H]. unfold fl. rewrite round_0 by apply valid_rnd_N. apply near_weaken with 1; [assert (U := u_pos); lra|apply near_refl; lra].
Qed.
Lemma fl_up e x : (-1074 <= e)%Z -> x <= bp e -> fl x <= bp e.
Proof. intros H L. assert (E : fl (bp e) = bp e) by (unfold fl; apply round_generic; [apply valid_rnd_N|]; apply generic_format_bpow; unfold FLT_exp; lia). rewrite <- E. apply fl_mono, L. Qed.
Lemma fl_low e x : (-1074 <= e)%Z -> bp e <= x -> bp e <= fl x.
Proof. intros H L. assert (E : fl (bp e) = bp e) by (unfold fl; apply round_generic; [apply valid_rnd_N|]; apply generic_format_bpow; unfold FLT_exp; lia). rewrite <- E. apply fl_mono, L. Qed.
Lemma least_positive x : is_finite x = true -> 0 < B2R (x : f64) -> bp (-1074) <= B2R x.
Proof.
  intros F P. destruct x as [s|s| |s m e B]; try discriminate; [cbn in P; lra|]. destruct s.
  - exfalso. unfold B2R in P. cbn [cond_Zopp] in P. assert (Q : F2R (Float radix2 (Zneg m) e) < 0) by (apply F2R_lt_0; reflexivity). change (- Zpos m)%Z with (Zneg m) in P. cbn in P, Q. lra.
  - assert (A := abs_B2R_ge_emin 53 1024 (B754_finite false m e B)). rewrite Rabs_pos_eq in A by lra. apply A. reflexivity.
Qed.
Lemma sqrt_bp e : sqrt (bp (2 * e)) = bp e.
Proof. replace (2 * e)%Z with (e + e)%Z by lia. rewrite bpow_plus. apply sqrt_square, bpow_ge_0. Qed.
Lemma sqrt64_ok x : is_finite x = true -> 0 < B2R (x : f64) <= bp 100 ->
  is_finite (sqrt64 x) = true /\ bp (-537) <= B2R (sqrt64 x) <= bp 50 /\ near (1 + u) (sqrt (B2R x)) (B2R (sqrt64 x)).
Proof.
  intros F [P L]. assert (G := least_positive x F P).
  destruct (Bsqrt_correct 53 1024 prec53 emax1024 mode_NE x) as (V & W & _). fold (sqrt64 x) in V, W.
  change (round radix2 (SpecFloat.fexp 53 1024) (round_mode mode_NE)) with fl in V.
  assert (L1 : bp (-537) <= sqrt (B2R x)) by (rewrite <- sqrt_bp; apply sqrt_le_1; [apply bpow_ge_0|lra|exact G]).
  assert (L2 : sqrt (B2R x) <= bp 50) by (rewrite <- sqrt_bp; apply sqrt_le_1; [lra|apply bpow_ge_0|exact L]).
  split.
  - rewrite W. destruct x as [s|s| |s m e B]; try discriminate; [reflexivity|]. destruct s; [|reflexivity].
    exfalso. unfold B2R in P. cbn [cond_Zopp] in P. assert (Q : F2R (Float radix2 (Zneg m) e) < 0) by (apply F2R_lt_0; reflexivity). cbn in P, Q. lra.
  - rewrite V. split; [split; [apply fl_low; [lia|exact L1]|apply fl_up; [lia|exact L2]]|].
    apply near_fl0. right. eapply Rle_trans; [|exact L1]. apply bpow_le. lia.
Qed.

(** ** The adjusted column *)
Definition pos64 (x : f64) : Prop := is_finite x = true /\ 0 < B2R x.
Definition known (x : f64) : Prop := is_nan x = true \/ is_finite x = true.
Lemma nan_not_finite x : is_nan (x : f64) = true -> is_finite x = false.
Proof. destruct x; try discriminate; reflexivity. Qed.
Lemma finite_not_nan x : is_finite (x : f64) = true -> is_nan x = false.
Proof. destruct x; try discriminate; reflexivity. Qed.
Lemma drop_pos x : pos64 x -> drop64 x = x.
Proof.
  intros [F P]. unfold drop64. rewrite Bleb_correct by (assumption || reflexivity). change (B2R zero) with 0. rewrite Rle_bool_false by exact P. reflexivity.
Qed.
Lemma drop_nonpos x : known x -> ~ pos64 x -> drop64 x = B754_nan.
Proof.
  intros [N|F] P; unfold drop64.
  - destruct x; try discriminate. reflexivity.
  - rewrite Bleb_correct by (assumption || reflexivity). change (B2R zero) with 0. rewrite Rle_bool_true; [reflexivity|].
    destruct (Rle_lt_dec (B2R x) 0) as [L|L]; [exact L|]. exfalso. apply P. split; assumption.
Qed.
Lemma pos_dec x : {pos64 x} + {~ pos64 x}.
Proof.
  unfold pos64. destruct (is_finite x); [|right; intros [H _]; discriminate].
  destruct (Rlt_le_dec 0 (B2R x)) as [L|L]; [left; auto|right; intros [_ H]; lra].
Qed.
Lemma filled_ok f k : (forall j, (j <= k)%nat -> known (f j)) ->
  (exists j, (j <= k)%nat /\ pos64 (f j) /\ (forall i, (j < i <= k)%nat -> ~ pos64 (f i)) /\ filled64 f k = f j) \/
  ((forall j, (j <= k)%nat -> ~ pos64 (f j)) /\ filled64 f k = small64).
Proof.
  induction k as [|k IH]; intros K.
  - cbn [filled64]. unfold level64. cbn [Nat.eqb andb]. destruct (pos_dec (f 0%nat)) as [P|P].
    + left. exists 0%nat. rewrite (drop_pos _ P), (finite_not_nan _ (proj1 P)). cbn. rewrite (finite_not_nan _ (proj1 P)).
      repeat split; try exact (proj1 P); try exact (proj2 P); try lia. 
    + right. rewrite (drop_nonpos _ (K 0%nat (le_n 0)) P). split; [intros j Hj; replace j with 0%nat by lia; exact P|]. cbn [is_nan]. assert (Q : is_nan small64 = false) by (vm_compute; reflexivity). rewrite Q. reflexivity.
  - assert (E : level64 f (Datatypes.S k) = drop64 (f (Datatypes.S k))) by reflexivity. cbn [filled64]. rewrite E.
    destruct (pos_dec (f (Datatypes.S k))) as [P|P].
    + left. exists (Datatypes.S k). rewrite (drop_pos _ P), (finite_not_nan _ (proj1 P)). split; [lia|]. split; [exact P|]. split; [intros; lia|reflexivity].
    + rewrite (drop_nonpos _ (K (Datatypes.S k) (le_n _)) P). cbn [is_nan]. destruct (IH (fun j Hj => K j (le_S _ _ Hj))) as [(j & A & B & C & D)|[A B]].
      * left. exists j. split; [lia|]. split; [exact B|]. split; [|exact D]. intros i Hi. destruct (Nat.eq_dec i (Datatypes.S k)) as [->|]; [exact P|apply C; lia].
      * right. split; [|exact B]. intros j Hj. destruct (Nat.eq_dec j (Datatypes.S k)) as [->|]; [exact P|apply A; lia].
Qed.
Lemma positive_lift x : known x -> positive (lift x) <-> pos64 x.
Proof.
  intros [N|F].
  - destruct x; try discriminate. split; [intros []|intros [A _]; discriminate].
  - unfold lift. rewrite (lift_finite x F). cbn [positive]. unfold pos64. tauto.
Qed.
Lemma lift_nan x : lift x = NaN <-> is_nan x = true.
Proof. destruct x; cbn; split; congruence. Qed.
Lemma times_one x : is_finite x = true -> is_finite (x * of_Z 1)%f64 = true /\ B2R (x * of_Z 1)%f64 = B2R x.
Proof.
  intros F. assert (R1 := rep64_fl x _ (conj F eq_refl)).
  destruct (mul64_rep x (of_Z 1) _ _ (conj F eq_refl) (of_Z_rep 1 eq_refl)) as [Q V].
  - rewrite Rmult_1_r, R1. unfold fits64. apply abs_B2R_lt_emax.
  - rewrite Rmult_1_r, R1 in V. auto.
Qed.
Lemma small64_ok : is_finite small64 = true /\ near (1 + u) (1 / 10 ^ 8) (B2R small64) /\ 0 < B2R small64 <= bp 100 /\ B2R small64 = fl (1 / 10 ^ 8).
Proof.
  assert (F : is_finite small64 = true) by (vm_compute; reflexivity).
  assert (E : Q2R (1 # 100000000) = 1 / 10 ^ 8) by (unfold Q2R; cbn [Qnum Qden]; lra).
  assert (L : bp (-1022) <= 1 / 10 ^ 8).
  { apply Rle_trans with (bp (-30)); [apply bpow_le; lia|]. change (bp (-30)) with (/ IZR (2 ^ 30)). change (2 ^ 30)%Z with 1073741824%Z. lra. }
  assert (N := near_fl0 _ (or_intror L)).
  destruct (lit_rep (1 # 100000000)) as [_ V]; [reflexivity|reflexivity| |].
  - rewrite E. unfold fits64. rewrite Rabs_pos_eq by exact (near_pos _ _ _ N). eapply Rle_lt_trans; [apply (fl_up 0); [lia|change (bp 0) with 1; lra]|]. apply bpow_lt. lia.
  - rewrite E in V. split; [exact F|]. fold small64 in V. rewrite V. split; [exact N|].
    split; [|reflexivity]. split; [apply (near_spos _ _ _ N); lra|]. apply Rle_trans with (bp 0); [apply fl_up; [lia|change (bp 0) with 1; lra]|apply bpow_le; lia].
Qed.
Lemma adjust_ok f k g : (forall j, (j <= k)%nat -> known (f j) /\ B2R (f j) <= bp 100) ->
  stabilised (fun j => lift (f j)) k g -> is_nan (f k) = false ->
  exists y, g = Fin y /\ 0 < y /\ is_finite (adjust64 f k) = true /\ 0 < B2R (adjust64 f k) <= bp 100 /\ near (1 + u) y (B2R (adjust64 f k)) /\
    (B2R (adjust64 f k) = y \/ y = 1 / 10 ^ 8 /\ B2R (adjust64 f k) = fl (1 / 10 ^ 8)).
Proof.
  intros K (_ & S1 & S2) N. unfold adjust64. rewrite N.
  assert (PL : forall j, (j <= k)%nat -> positive (lift (f j)) <-> pos64 (f j)) by (intros j Hj; apply positive_lift, K, Hj).
  assert (U := u_pos).
  assert (G : (exists j, (j <= k)%nat /\ pos64 (f j) /\ (forall i, (j < i <= k)%nat -> ~ pos64 (f i)) /\ g = lift (f j)) \/
    ((forall j, (j <= k)%nat -> ~ pos64 (f j)) /\ g = small)).
  { destruct (pos_dec (f k)) as [P|P].
    - left. exists k. split; [lia|]. split; [exact P|]. split; [intros; lia|]. apply S1, PL; [lia|exact P].
    - destruct S2 as [(j & A & B & C & D)|[A B]].
      + intros E. apply lift_nan in E. congruence.
      + intros E. apply P, PL; [lia|exact E].
      + left. exists j. split; [lia|]. split; [apply PL; [lia|exact B]|]. split; [|exact D]. intros i Hi.
        destruct (Nat.eq_dec i k) as [->|]; [exact P|]. intros Q. apply (C i); [lia|]. apply PL; [lia|exact Q].
      + right. split; [|exact B]. intros j Hj. destruct (Nat.eq_dec j k) as [->|]; [exact P|]. intros Q. apply (A j); [lia|]. apply PL; [lia|exact Q]. }
  destruct (filled_ok f k (fun j Hj => proj1 (K j Hj))) as [(j & A & B & C & E)|[A E]]; rewrite E.
  - destruct G as [(j' & A' & B' & C' & ->)|[A' _]]; [|exfalso; apply (A' j A B)].
    assert (j' = j) as ->.
    { destruct (Nat.lt_total j j') as [L|[L|L]]; [exfalso; apply (C j'); [lia|exact B']|auto|exfalso; apply (C' j); [lia|exact B]]. }
    destruct B as [F P]. destruct (times_one _ F) as [F1 V1]. exists (B2R (f j)). rewrite F1, V1. split; [apply lift_finite, F|]. split; [exact P|].
    split; [reflexivity|]. split; [split; [exact P|apply K, A]|]. split; [apply near_weaken with 1; [lra|apply near_refl; lra]|left; reflexivity].
  - destruct G as [(j' & A' & B' & _)|[_ ->]]; [exfalso; apply (A j' A' B')|].
    destruct small64_ok as (F & Nn & Bd & Vs). destruct (times_one _ F) as [F1 V1]. exists (1 / 10 ^ 8). rewrite F1, V1. split; [reflexivity|]. split; [lra|].
    split; [reflexivity|]. split; [exact Bd|]. split; [exact Nn|right; auto].
Qed.

(** ** One layer and the whole column *)
Definition thick64 (x : f64) : Prop := is_nan x = true \/ is_finite x = true /\ (B2R x = 0 \/ bp (-100) <= B2R x <= bp 100).
Lemma mul_nan x y : is_nan x = true \/ is_nan y = true -> skipna (x * y)%f64 = zero.
Proof. intros [N|N]; [destruct x; try discriminate; reflexivity|destruct y; try discriminate; destruct x as [[]|[]| |[]]; reflexivity]. Qed.
Lemma sqrt_nan x : is_nan x = true -> is_nan (sqrt64 x) = true.
Proof. destruct x; try discriminate; reflexivity. Qed.
Lemma adjust_nan f k : is_nan (f k) = true -> is_nan (adjust64 f k) = true.
Proof. intros N. unfold adjust64. rewrite N. destruct (filled64 f k) as [[]|[]| |[]]; reflexivity. Qed.
Lemma layer_ok f h k g : (forall j, (j <= k)%nat -> known (f j) /\ B2R (f j) <= bp 100) -> thick64 (h k) ->
  stabilised (fun j => lift (f j)) k g ->
  is_finite (layer64 f h k) = true /\ (B2R (layer64 f h k) = 0 \/ bp (-638) <= B2R (layer64 f h k) <= bp 150) /\
  near ((1 + u) * (1 + u) * (1 + u)) (n_times_dz g (lift (h k))) (B2R (layer64 f h k)).
Proof.
  intros K H St. assert (U := u_pos).
  assert (Z : forall x : f64, x = zero -> forall y, y = 0 -> is_finite x = true /\ (B2R x = 0 \/ bp (-638) <= B2R x <= bp 150) /\ near ((1 + u) * (1 + u) * (1 + u)) y (B2R x)).
  { intros x -> y ->. split; [reflexivity|]. split; [left; reflexivity|]. change (B2R zero) with 0. apply near_weaken with 1; [nra|apply near_refl; lra]. }
  destruct (is_nan (f k)) eqn:Nf.
  { apply Z.
    - unfold layer64. apply mul_nan. left. apply sqrt_nan, adjust_nan, Nf.
    - destruct St as (S0 & _). rewrite S0 by (apply lift_nan, Nf). reflexivity. }
  destruct (adjust_ok f k g K St Nf) as (y & -> & Y & F & B & N & _).
  destruct H as [Nh|[Fh Hh]].
  { apply Z; [unfold layer64; apply mul_nan; right; exact Nh|]. rewrite (proj2 (lift_nan _) Nh). reflexivity. }
  unfold layer64. set (a := adjust64 f k) in *. destruct (sqrt64_ok a F B) as (Fs & Bs & Ns).
  assert (N1 := near_trans _ _ _ _ _ (near_sqrt _ _ _ N) Ns).
  unfold lift. rewrite (lift_finite _ Fh). cbn [n_times_dz].
  set (s := sqrt64 a) in *.
  assert (HH : 0 <= B2R (h k)) by (destruct Hh as [-> | [Hh _]]; [lra|]; assert (X := bpow_gt_0 radix2 (-100)); lra).
  assert (S0 : 0 < B2R s) by (assert (X := bpow_gt_0 radix2 (-537)); lra).
  assert (Q : B2R s * B2R (h k) = 0 \/ bp (-638) <= B2R s * B2R (h k) <= bp 150).
  { destruct Hh as [-> | [H1 H2]]; [left; ring|]. right. change (-638)%Z with (-538 + -100)%Z. change 150%Z with (50 + 100)%Z. rewrite !bpow_plus.
    assert (bp (-538) <= bp (-537)) by (apply bpow_le; lia). assert (X := bpow_ge_0 radix2 (-538)). assert (X2 := bpow_ge_0 radix2 (-100)).
    split; apply Rmult_le_compat; lra. }
  assert (N2 : near (1 + u) (B2R s * B2R (h k)) (fl (B2R s * B2R (h k)))).
  { apply near_fl0. destruct Q as [Q|[Q _]]; [left; exact Q|right]. eapply Rle_trans; [|exact Q]. apply bpow_le. lia. }
  destruct (mul64_rep s (h k) _ _ (conj Fs eq_refl) (conj Fh eq_refl)) as [Fm Vm].
  { unfold fits64. rewrite Rabs_pos_eq by exact (near_pos _ _ _ N2). eapply Rle_lt_trans; [apply (fl_up 150); [lia|]|apply bpow_lt; lia].
    destruct Q as [-> |[_ Q]]; [apply bpow_ge_0|exact Q]. }
  unfold skipna. rewrite (finite_not_nan _ Fm). split; [exact Fm|]. rewrite Vm. split.
  - destruct Q as [-> |[Q1 Q2]]; [left; unfold fl; apply round_0, valid_rnd_N|right; split; [apply fl_low|apply fl_up]; assumption || lia].
  - apply near_trans with (B2R s * B2R (h k)); [|exact N2].
    assert (M := near_mul _ _ _ _ _ _ N1 (near_refl _ HH)). rewrite Rmult_1_r in M. exact M.
Qed.
Lemma pi64_ok : is_finite pi64 = true /\ near (1 + u) PI (B2R pi64) /\ 3 <= B2R pi64 <= 4.
Proof.
  assert (F : is_finite pi64 = true) by (vm_compute; reflexivity). split; [exact F|].
  assert (V : B2R pi64 = 7074237752028440 / 2251799813685248).
  { assert (E : B2SF pi64 = SpecFloat.S754_finite false 7074237752028440 (-51)) by (vm_compute; reflexivity).
    rewrite <- SF2R_B2SF, E. cbn [SF2R cond_Zopp]. unfold F2R. cbn [Fnum Fexp bpow]. change (Z.pow_pos radix2 51) with 2251799813685248%Z. reflexivity. }
  rewrite V. assert (D := PI_digits). assert (U := u_val). split; [|lra]. split; [rewrite U; lra|]. split; [lra|]. split.
  - apply Rmult_le_reg_r with (1 + u); [rewrite U; lra|]. unfold Rdiv. rewrite Rmult_assoc, Rinv_l by (rewrite U; lra). rewrite U. lra.
  - rewrite U. lra.
Qed.
Lemma rsum_Rsum F n : rsum (map F (seq 0 n)) = Rsum n F.
Proof.
  assert (G : forall l1 l2, rsum (l1 ++ l2) = rsum l1 + rsum l2) by (induction l1 as [|x l IH]; intros l2; cbn; [ring|rewrite IH; ring]).
  induction n as [|n IH]; [reflexivity|]. rewrite seq_S, map_app, G, IH. cbn. lra.
Qed.
Lemma rsum_gap l b B : 0 <= b -> (forall x, In x l -> x = 0 \/ b <= x <= B) -> (rsum l = 0 \/ b <= rsum l) /\ rsum l <= INR (length l) * Rmax B 0 /\ 0 <= rsum l.
Proof.
  intros Hb. induction l as [|x l IH]; intros H; [cbn; split; [left; reflexivity|lra]|].
  destruct (IH (fun y Y => H y (or_intror Y))) as (A & C & D). cbn [rsum length]. rewrite S_INR.
  assert (M1 := Rmax_l B 0). assert (M2 := Rmax_r B 0).
  destruct (H x (or_introl eq_refl)) as [-> |X]; repeat split; try lra; destruct A; lra.
Qed.
Lemma Fac_le j k : (j <= k)%nat -> Fac j <= Fac k.
Proof. intros H. apply Rle_pow; [assert (U := u_pos); lra|exact H]. Qed.
Lemma Fac_small k : (Z.of_nat k <= 1000010)%Z -> Fac k <= 1 + 1.002 * (INR k * u) /\ Fac k <= 2.
Proof.
  intros H. assert (I : INR k <= 1000010) by (rewrite INR_IZR_INZ; apply IZR_le; lia). assert (P := pos_INR k). assert (U := u_val).
  assert (B : INR k * u <= / 1000) by (rewrite U; lra). assert (X := Fac_bound k B). split; [exact X|lra].
Qed.
Lemma div_ok lo hi a b : (-900 <= lo)%Z -> (-1000 <= hi <= 900)%Z -> is_finite a = true -> is_finite (b : f64) = true -> bp (-100) <= B2R b <= bp 100 -> B2R (a : f64) = 0 \/ bp lo <= B2R a <= bp hi ->
  is_finite (a / b)%f64 = true /\ near (1 + u) (B2R a / B2R b) (B2R (a / b)%f64) /\ (B2R (a / b)%f64 = 0 \/ bp (lo - 100) <= B2R (a / b)%f64 <= bp (hi + 100)).
Proof.
  intros Hlo Hhi Fa Fb [B1 B2] A. assert (X := bpow_gt_0 radix2 (-100)).
  assert (I1 : bp (-100) <= / B2R b) by (change (-100)%Z with (- (100))%Z; rewrite bpow_opp; apply Rinv_le_contravar; lra).
  assert (I2 : / B2R b <= bp 100) by (change 100%Z with (- - (100))%Z; rewrite bpow_opp; apply Rinv_le_contravar; [exact X|exact B1]).
  assert (Q : B2R a / B2R b = 0 \/ bp (lo - 100) <= B2R a / B2R b <= bp (hi + 100)).
  { destruct A as [-> |[A1 A2]]; [left; unfold Rdiv; ring|]. right. unfold Z.sub. change (- (100))%Z with (-100)%Z. rewrite !bpow_plus.
    assert (Y := bpow_gt_0 radix2 lo). split; apply Rmult_le_compat; lra. }
  assert (N : near (1 + u) (B2R a / B2R b) (fl (B2R a / B2R b))).
  { apply near_fl0. destruct Q as [Q|[Q _]]; [left; exact Q|right]. eapply Rle_trans; [|exact Q]. apply bpow_le. lia. }
  destruct (div64_rep a b _ _ (conj Fa eq_refl) (conj Fb eq_refl)) as [F V]; [lra| |].
  - unfold fits64. rewrite Rabs_pos_eq by exact (near_pos _ _ _ N). eapply Rle_lt_trans; [apply (fl_up (hi + 100)); [lia|]|apply bpow_lt; lia].
    destruct Q as [-> |[_ Q]]; [apply bpow_ge_0|exact Q].
  - split; [exact F|]. rewrite V. split; [exact N|]. destruct Q as [-> |[Q1 Q2]]; [left; unfold fl; apply round_0, valid_rnd_N|right; split; [apply fl_low|apply fl_up]; assumption || lia].
Qed.
Lemma bp_gap e e' x : (e + 1 <= e')%Z -> bp e' <= 2 * x -> bp e <= x.
Proof.
  intros H L. assert (A : bp (e + 1) <= bp e') by (apply bpow_le, H). rewrite bpow_plus in A. change (bp 1) with 2 in A. lra.
Qed.
Lemma column_ok f h n k s g : (Z.of_nat n <= 1000000)%Z -> (Z.of_nat k <= 1000000)%Z ->
  (forall j, (j < n)%nat -> known (f j) /\ B2R (f j) <= bp 100) -> (forall j, (j < n)%nat -> thick64 (h j)) ->
  (forall j, (j < n)%nat -> stabilised (fun j => lift (f j)) j (g j)) ->
  tree64 k (map (layer64 f h) (seq 0 n)) s ->
  is_finite (s / pi64)%f64 = true /\ near (Fac (k + 5)) (1 / PI * Rsum n (fun j => n_times_dz (g j) (lift (h j)))) (B2R (s / pi64)%f64) /\
  (B2R (s / pi64)%f64 = 0 \/ bp (-800) <= B2R (s / pi64)%f64 <= bp 400).
Proof.
  intros Hn Hk Hf Hh Hg T. assert (U := u_pos).
  set (l := map (layer64 f h) (seq 0 n)) in *.
  assert (LK : forall j, (j < n)%nat -> is_finite (layer64 f h j) = true /\ (B2R (layer64 f h j) = 0 \/ bp (-638) <= B2R (layer64 f h j) <= bp 150) /\
     near ((1 + u) * (1 + u) * (1 + u)) (n_times_dz (g j) (lift (h j))) (B2R (layer64 f h j))).
  { intros j Hj. apply layer_ok; [intros i Hi; apply Hf; lia|apply Hh, Hj|apply Hg, Hj]. }
  set (L := rsum (map (fun x : f64 => B2R x) l)).
  assert (EL : L = Rsum n (fun j => B2R (layer64 f h j))) by (unfold L, l; rewrite map_map; apply rsum_Rsum).
  destruct (rsum_gap (map (fun x : f64 => B2R x) l) (bp (-638)) (bp 150)) as (G1 & G2 & G3); [apply bpow_ge_0| |].
  { intros x Hx. apply in_map_iff in Hx as (y & <- & Hy). apply in_map_iff in Hy as (j & <- & Hj). apply in_seq in Hj. apply (LK j). lia. }
  fold L in G1, G2, G3. unfold l in G2. rewrite !map_length, seq_length in G2. rewrite Rmax_left in G2 by apply bpow_ge_0.
  assert (LB : L <= bp 170).
  { eapply Rle_trans; [exact G2|]. change 170%Z with (20 + 150)%Z. rewrite bpow_plus. apply Rmult_le_compat_r; [apply bpow_ge_0|].
    rewrite INR_IZR_INZ. change (bp 20) with (IZR 1048576). apply IZR_le. lia. }
  assert (K1 := Fac_1 k). destruct (Fac_small k ltac:(lia)) as [_ K2].
  assert (LF : L * Fac k <= bp 171).
  { change 171%Z with (170 + 1)%Z. rewrite bpow_plus. change (bp 1) with 2. apply Rmult_le_compat; lra. }
  destruct (tree_near k l s T) as [Fs Ns].
  { intros x Hx. apply in_map_iff in Hx as (j & <- & Hj). apply in_seq in Hj. destruct (LK j ltac:(lia)) as (A & B & _). split; [exact A|].
    destruct B as [-> |[B _]]; [lra|]. assert (X := bpow_ge_0 radix2 (-638)). lra. }
  { fold L. eapply Rle_lt_trans; [exact LF|]. apply bpow_lt. lia. }
  fold L in Ns.
  assert (SB : B2R s = 0 \/ bp (-700) <= B2R s <= bp 300).
  { assert (Ns' := near_sym _ _ _ Ns). destruct Ns as (_ & _ & N1 & N2), Ns' as (_ & _ & _ & N3). destruct G1 as [Z|G1].
    - left. rewrite Z in N1, N2. unfold Rdiv in N1. lra.
    - right. split.
      + apply (bp_gap _ (-638)); [lia|]. assert (0 <= B2R s) by (eapply Rle_trans; [|exact N1]; apply Rmult_le_pos; [exact G3|left; apply Rinv_0_lt_compat; lra]). nra.
      + eapply Rle_trans; [exact N2|]. eapply Rle_trans; [exact LF|]. apply bpow_le. lia. }
  destruct pi64_ok as (Fp & Np & Bp).
  destruct (div_ok (-700) 300 s pi64 ltac:(lia) ltac:(lia) Fs Fp) as (Fd & Nd & Bd); [|exact SB|].
  { split; [apply Rle_trans with (bp 0); [apply bpow_le; lia|change (bp 0) with 1; lra]|apply Rle_trans with (bp 2); [change (bp 2) with 4; lra|apply bpow_le; lia]]. }
  split; [exact Fd|]. split; [|exact Bd].
  assert (NL : near ((1 + u) * (1 + u) * (1 + u)) (Rsum n (fun j => n_times_dz (g j) (lift (h j)))) L).
  { rewrite EL, <- !rsum_Rsum. apply near_rsum; [nra|]. intros j Hj. apply in_seq in Hj. apply LK. lia. }
  assert (P0 := PI_RGT_0).
  assert (Q := near_trans _ _ _ _ _ (near_div _ _ _ _ _ _ (near_trans _ _ _ _ _ NL Ns) Np P0) Nd).
  replace (1 / PI * Rsum n (fun j => n_times_dz (g j) (lift (h j)))) with (Rsum n (fun j => n_times_dz (g j) (lift (h j))) / PI) by (field; lra).
  eapply near_weaken; [|exact Q]. right. rewrite (Nat.add_comm k 5), Fac_add. unfold Fac at 2. cbn [pow]. ring.
Qed.
Lemma rel_bound k j x y : (Z.of_nat (k + j) <= 1000010)%Z -> near (Fac (k + j)) x y -> Rabs (y - x) <= (INR k + INR j) * 1.12e-16 * x.
Proof.
  intros H N. assert (A := near_abs _ _ _ N). destruct (Fac_small (k + j) H) as [B _]. destruct N as (_ & X & _). eapply Rle_trans; [exact A|].
  rewrite plus_INR in B. assert (U := u_val). assert (P1 := pos_INR k). assert (P2 := pos_INR j). rewrite U in B.
  rewrite Rmult_comm. apply Rmult_le_compat_r; [exact X|]. lra.
Qed.
