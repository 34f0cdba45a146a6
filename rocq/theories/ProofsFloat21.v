(** * ProofsFloat21: volume, mass and mean density in binary64 *)
From Coq Require Import Reals Lra Lia List ZArith Bool Psatz.
From Flocq Require Import Core IEEE754.BinarySingleNaN.
From Verif Require Import SpecFloat64 SpecIeee Ieee IeeeGlobal IeeeBudget ProofsFloat ProofsIeee ProofsFloat4 ProofsFloat8 ProofsFloat9 ProofsFloat19.
Import ListNotations.
Local Open Scope R_scope.
Notation bp := (bpow radix2).

Definition val (x : f64) : R := if is_nan x then 0 else B2R x.
Definition adm (x : f64) : Prop := is_nan x = true \/ is_finite x = true /\ (B2R x = 0 \/ bp (-100) <= B2R x <= bp 100).
Lemma adm_val x : adm x -> val x = 0 \/ bp (-100) <= val x <= bp 100.
Proof.
  unfold val. intros [-> |[F H]]; [left; reflexivity|]. destruct (is_nan x); [left; reflexivity|exact H].
Qed.
Lemma fin_nan (x : f64) : is_finite x = true -> is_nan x = false.
Proof. destruct x; cbn; congruence. Qed.
Lemma vol_ok c : adm (snd c) -> is_finite (cell_vol64 c) = true /\ B2R (cell_vol64 c) = val (snd c).
Proof.
  unfold cell_vol64, skipna, val. intros [-> |[F H]]; [split; reflexivity|]. rewrite (fin_nan _ F). split; [exact F|reflexivity].
Qed.
Lemma nan_mul_l (a b : f64) : is_nan a = true -> is_nan (a * b)%f64 = true.
Proof. destruct a; try discriminate. intros _. destruct b; reflexivity. Qed.
Lemma nan_mul_r (a b : f64) : is_nan b = true -> is_nan (a * b)%f64 = true.
Proof. destruct b; try discriminate. intros _. destruct a; reflexivity. Qed.
Lemma mass_ok c : adm (fst c) -> adm (snd c) ->
  is_finite (cell_mass64 c) = true /\ near (1 + u) (val (fst c) * val (snd c)) (B2R (cell_mass64 c)) /\
  (val (fst c) * val (snd c) = 0 \/ bp (-200) <= val (fst c) * val (snd c) <= bp 200) /\
  (B2R (cell_mass64 c) = 0 \/ bp (-200) <= B2R (cell_mass64 c) <= bp 200).
Proof.
  assert (U := u_pos). assert (Z0 : near (1 + u) 0 0) by (split; [lra|]; unfold Rdiv; lra).
  destruct c as [a b]. cbn [fst snd]. unfold cell_mass64, skipna. cbn [fst snd]. intros Ha Hb.
  destruct (is_nan a) eqn:Na; [rewrite (nan_mul_l a b Na); unfold val; rewrite Na, Rmult_0_l; repeat split; try (left; reflexivity); apply Z0|].
  destruct (is_nan b) eqn:Nb; [rewrite (nan_mul_r a b Nb); unfold val; rewrite Nb, Rmult_0_r; repeat split; try (left; reflexivity); apply Z0|].
  unfold val. rewrite Na, Nb. destruct Ha as [Ha|[Fa Ha]]; [congruence|]. destruct Hb as [Hb|[Fb Hb]]; [congruence|].
  assert (Q : B2R a * B2R b = 0 \/ bp (-200) <= B2R a * B2R b <= bp 200).
  { destruct Ha as [-> |[A1 A2]]; [left; ring|]. destruct Hb as [-> |[B1 B2]]; [left; ring|]. right.
    change (-200)%Z with (-100 + -100)%Z. change 200%Z with (100 + 100)%Z. rewrite !bpow_plus.
    assert (X := bpow_ge_0 radix2 (-100)). split; apply Rmult_le_compat; lra. }
  assert (N : near (1 + u) (B2R a * B2R b) (fl (B2R a * B2R b))).
  { apply near_fl0. destruct Q as [Q|[Q _]]; [left; exact Q|right]. eapply Rle_trans; [|exact Q]. apply bpow_le. lia. }
  destruct (mul64_rep a b _ _ (conj Fa eq_refl) (conj Fb eq_refl)) as [F V].
  { unfold fits64. rewrite Rabs_pos_eq by exact (near_pos _ _ _ N). eapply Rle_lt_trans; [apply (fl_up 200); [lia|]|apply bpow_lt; lia].
    destruct Q as [-> |[_ Q]]; [apply bpow_ge_0|exact Q]. }
  rewrite (fin_nan _ F). split; [exact F|]. rewrite V. split; [exact N|]. split; [exact Q|].
  destruct Q as [-> |[Q1 Q2]]; [left; unfold fl; apply round_0, valid_rnd_N|right; split; [apply fl_low|apply fl_up]; assumption || lia].
Qed.
Lemma quot_ok (a b : f64) : is_finite a = true -> is_finite b = true -> bp (-400) <= B2R b <= bp 400 -> B2R a = 0 \/ bp (-400) <= B2R a <= bp 400 ->
  is_finite (a / b)%f64 = true /\ near (1 + u) (B2R a / B2R b) (B2R (a / b)%f64).
Proof.
  intros Fa Fb [B1 B2] A. assert (X := bpow_gt_0 radix2 (-400)).
  assert (I1 : bp (-400) <= / B2R b) by (change (-400)%Z with (- (400))%Z; rewrite bpow_opp; apply Rinv_le_contravar; lra).
  assert (I2 : / B2R b <= bp 400) by (change 400%Z with (- - (400))%Z; rewrite bpow_opp; apply Rinv_le_contravar; [exact X|exact B1]).
  assert (Q : B2R a / B2R b = 0 \/ bp (-800) <= B2R a / B2R b <= bp 800).
  { destruct A as [-> |[A1 A2]]; [left; unfold Rdiv; ring|]. right. change (-800)%Z with (-400 + -400)%Z. change 800%Z with (400 + 400)%Z. rewrite !bpow_plus.
    split; apply Rmult_le_compat; lra. }
  assert (N : near (1 + u) (B2R a / B2R b) (fl (B2R a / B2R b))).
  { apply near_fl0. destruct Q as [Q|[Q _]]; [left; exact Q|right]. eapply Rle_trans; [|exact Q]. apply bpow_le. lia. }
  destruct (div64_rep a b _ _ (conj Fa eq_refl) (conj Fb eq_refl)) as [F V]; [lra| |].
  - unfold fits64. rewrite Rabs_pos_eq by exact (near_pos _ _ _ N). eapply Rle_lt_trans; [apply (fl_up 800); [lia|]|apply bpow_lt; lia].
    destruct Q as [-> |[_ Q]]; [apply bpow_ge_0|exact Q].
  - split; [exact F|]. rewrite V. exact N.
Qed.
(** A sum of at most 2^100 numbers that are zero or between 2^-200 and 2^200. *)
Lemma sum_ok k l s : (Z.of_nat (length l) <= 2 ^ 100)%Z -> (Z.of_nat k <= 1000000)%Z -> tree64 k l s ->
  (forall x, In x l -> is_finite x = true /\ (B2R x = 0 \/ bp (-200) <= B2R x <= bp 200)) ->
  is_finite s = true /\ near (Fac k) (rsum (map (fun x : f64 => B2R x) l)) (B2R s) /\
  (B2R s = 0 \/ bp (-400) <= B2R s <= bp 400).
Proof.
  intros Hn Hk T HL. set (L := rsum (map (fun x : f64 => B2R x) l)).
  destruct (rsum_gap (map (fun x : f64 => B2R x) l) (bp (-200)) (bp 200)) as (G1 & G2 & G3); [apply bpow_ge_0| |].
  { intros x Hx. apply in_map_iff in Hx as (y & <- & Hy). apply (HL y Hy). }
  fold L in G1, G2, G3. rewrite !map_length in G2. rewrite Rmax_left in G2 by apply bpow_ge_0.
  assert (LB : L <= bp 300).
  { eapply Rle_trans; [exact G2|]. change 300%Z with (100 + 200)%Z. rewrite bpow_plus. apply Rmult_le_compat_r; [apply bpow_ge_0|].
    rewrite INR_IZR_INZ. change (bp 100) with (IZR (2 ^ 100)). apply IZR_le, Hn. }
  assert (K1 := Fac_1 k). destruct (Fac_small k ltac:(lia)) as [_ K2].
  assert (LF : L * Fac k <= bp 301).
  { change 301%Z with (300 + 1)%Z. rewrite bpow_plus. change (bp 1) with 2. apply Rmult_le_compat; lra. }
  destruct (tree_near k l s T) as [Fs Ns].
  { intros x Hx. destruct (HL x Hx) as (A & B). split; [exact A|].
    destruct B as [-> |[B _]]; [lra|]. assert (X := bpow_ge_0 radix2 (-200)). lra. }
  { fold L. eapply Rle_lt_trans; [exact LF|]. apply bpow_lt. lia. }
  fold L in Ns. split; [exact Fs|]. split; [exact Ns|].
  assert (Ns' := near_sym _ _ _ Ns). destruct Ns as (_ & _ & N1 & N2), Ns' as (_ & _ & _ & N3). destruct G1 as [Z|G1].
  - left. rewrite Z in N1, N2. unfold Rdiv in N1. lra.
  - right. split.
    + apply (bp_gap _ (-200)); [lia|]. assert (0 <= B2R s) by (eapply Rle_trans; [|exact N1]; apply Rmult_le_pos; [exact G3|left; apply Rinv_0_lt_compat; lra]). nra.
    + eapply Rle_trans; [exact N2|]. eapply Rle_trans; [exact LF|]. apply bpow_le. lia.
Qed.
Definition Mex (cells : list wcell) : R := rsum (map (fun c => val (fst c) * val (snd c)) cells).
Definition Vex (cells : list wcell) : R := rsum (map (fun c => val (snd c)) cells).
Lemma budget cells cells2 k m v : (Z.of_nat (length cells) <= 2 ^ 100)%Z -> (Z.of_nat (length cells2) <= 2 ^ 100)%Z -> (Z.of_nat k <= 500000)%Z ->
  (forall c, In c cells -> adm (fst c) /\ adm (snd c)) -> (forall c, In c cells2 -> adm (snd c)) ->
  tree64 k (map cell_mass64 cells) m -> tree64 k (map cell_vol64 cells2) v ->
  is_finite m = true /\ near (Fac (k + 1)) (Mex cells) (B2R m) /\
  is_finite v = true /\ near (Fac k) (Vex cells2) (B2R v) /\
  (0 < Vex cells2 -> is_finite (rhoga64 m v) = true /\ near (Fac ((k + k) + 2)) (Mex cells / Vex cells2) (B2R (rhoga64 m v))).
Proof.
  intros Hn Hn2 Hk HA HB Tm Tv. assert (U := u_pos).
  destruct (sum_ok k (map cell_mass64 cells) m) as (Fm & Nm & Bm); [rewrite map_length; exact Hn|lia|exact Tm| |].
  { intros x Hx. apply in_map_iff in Hx as (c & <- & Hc). destruct (HA c Hc) as [A1 A2]. destruct (mass_ok c A1 A2) as (F & _ & _ & B). split; assumption. }
  destruct (sum_ok k (map cell_vol64 cells2) v) as (Fv & Nv & Bv); [rewrite map_length; exact Hn2|lia|exact Tv| |].
  { intros x Hx. apply in_map_iff in Hx as (c & <- & Hc). assert (A2 := HB c Hc). destruct (vol_ok c A2) as (F & B). split; [exact F|]. rewrite B.
    destruct (adm_val _ A2) as [H|[H1 H2]]; [left; exact H|right]. split; [eapply Rle_trans; [|exact H1]|eapply Rle_trans; [exact H2|]]; apply bpow_le; lia. }
  rewrite map_map in Nm, Nv.
  assert (NM : near (Fac (k + 1)) (Mex cells) (B2R m)).
  { rewrite Nat.add_comm, Fac_add. replace (Fac 1) with (1 + u) by (unfold Fac; cbn [pow]; ring). eapply near_trans; [|exact Nm].
    apply near_rsum; [lra|]. intros c Hc. destruct (HA c Hc) as [A1 A2]. apply (mass_ok c A1 A2). }
  assert (NV : near (Fac k) (Vex cells2) (B2R v)).
  { eapply near_weaken; [right; apply Rmult_1_l|]. eapply near_trans; [|exact Nv].
    apply near_rsum; [lra|]. intros c Hc. assert (A2 := HB c Hc). rewrite (proj2 (vol_ok c A2)). apply near_refl.
    destruct (adm_val _ A2) as [->|[H1 _]]; [lra|]. assert (X := bpow_ge_0 radix2 (-100)). lra. }
  split; [exact Fm|]. split; [exact NM|]. split; [exact Fv|]. split; [exact NV|]. intros VP.
  assert (vp := near_spos _ _ _ NV VP).
  destruct (quot_ok m v Fm Fv) as [Fq Nq]; [destruct Bv as [B|B]; [lra|exact B]|exact Bm|].
  split; [exact Fq|]. unfold rhoga64. eapply near_weaken; [|eapply near_trans; [apply near_div; [exact NM|exact NV|exact VP]|exact Nq]].
  right. replace (k + k + 2)%nat with ((k + 1) + k + 1)%nat by lia. rewrite (Fac_add (k + 1 + k) 1), (Fac_add (k + 1) k).
  replace (Fac 1) with (1 + u) by (unfold Fac; cbn [pow]; ring). reflexivity.
Qed.
