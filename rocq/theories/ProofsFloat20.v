(** * ProofsFloat20: errors relative to the size of the terms; vorticity in binary64 (proofs only) *)
From Coq Require Import Reals Lra Lia List ZArith QArith Qreals Bool.
From Flocq Require Import Core IEEE754.BinarySingleNaN.
From Verif Require Import SpecFloat64 SpecVort Ieee IeeeDerived IeeeWave IeeeVort ProofsFloat ProofsIeee ProofsFloat4 ProofsFloat6 ProofsFloat8 ProofsFloat9 ProofsFloat11.
Local Open Scope R_scope.
Notation bp := (bpow radix2).

(** [v] is [y] up to [(1+u)^k - 1] times [M] and the absolute error [s]. *)
Definition ap (k : nat) (s : R) (v : f64) (y M : R) : Prop :=
  is_finite v = true /\ Rabs y <= M /\ Rabs (B2R v - y) <= (Fac k - 1) * M + s.
Lemma ap_M k s v y M : ap k s v y M -> 0 <= M.
Proof. intros (_ & H & _). eapply Rle_trans; [apply Rabs_pos|exact H]. Qed.
Lemma ap_s k s v y M : ap k s v y M -> 0 <= (Fac k - 1) * M + s.
Proof. intros (_ & _ & H). eapply Rle_trans; [apply Rabs_pos|exact H]. Qed.
Lemma ap_size k s v y M : ap k s v y M -> Rabs (B2R v) <= Fac k * M + s.
Proof.
  intros (_ & H1 & H2). replace (B2R v) with ((B2R v - y) + y) by ring. eapply Rle_trans; [apply Rabs_triang|]. lra.
Qed.
Lemma ap_leaf v : is_finite v = true -> ap 0 0 v (B2R v) (Rabs (B2R v)).
Proof. intros F. split; [exact F|]. split; [lra|]. replace (B2R v - B2R v) with 0 by ring. rewrite Rabs_R0. unfold Fac. cbn. lra. Qed.
Lemma Fac_mono j k : (j <= k)%nat -> Fac j <= Fac k.
Proof. intros H. apply Rle_pow; [assert (U := u_pos); lra|exact H]. Qed.
Lemma ap_weaken k k' s s' v y M : (k <= k')%nat -> s <= s' -> ap k s v y M -> ap k' s' v y M.
Proof.
  intros A B H. assert (M0 := ap_M _ _ _ _ _ H). destruct H as (F & H1 & H2). split; [exact F|]. split; [exact H1|].
  assert (L := Fac_mono _ _ A). nra.
Qed.
Lemma fits_small r : Rabs r <= bp 900 -> fits64 (fl r).
Proof.
  intros H. unfold fits64. assert (E := fl_error r). assert (U := u_lt). cbn [pow] in U. assert (U0 := u_pos). assert (ET : eta <= 1).
  { unfold eta. assert (bp (-1074) <= 1) by (change 1 with (bp 0); apply bpow_le; lia). lra. }
  assert (B : 1 <= bp 900) by (change 1 with (bp 0); apply bpow_le; lia).
  replace (fl r) with ((fl r - r) + r) by ring. eapply Rle_lt_trans; [apply Rabs_triang|]. assert (P := Rabs_pos r).
  apply Rle_lt_trans with (bp 2 * bp 900); [change (bp 2) with 4; nra|]. rewrite <- bpow_plus. apply bpow_lt. lia.
Qed.
Lemma ap_opp k s v y M : ap k s v y M -> ap k s (opp64 v) (- y) M.
Proof.
  intros (F & H1 & H2). unfold opp64. split; [rewrite is_finite_Bopp; exact F|]. rewrite B2R_Bopp, Rabs_Ropp. split; [exact H1|].
  replace (- B2R v - - y) with (- (B2R v - y)) by ring. rewrite Rabs_Ropp. exact H2.
Qed.
Lemma ap_abs k s v y M : ap k s v y M -> ap k s (abs64 v) (Rabs y) M.
Proof.
  intros (F & H1 & H2). unfold abs64. split; [rewrite is_finite_Babs; exact F|]. rewrite B2R_Babs, Rabs_Rabsolu. split; [exact H1|].
  eapply Rle_trans; [apply Rabs_triang_inv2|exact H2].
Qed.
Lemma ap_round k s x y M v : is_finite v = true -> B2R v = fl x -> Rabs y <= M -> Rabs (x - y) <= (Fac k - 1) * M + s ->
  Rabs (fl x - x) <= u * Rabs x -> ap (Datatypes.S k) ((1 + u) * s) v y M.
Proof.
  intros F V H1 H2 H3. split; [exact F|]. split; [exact H1|]. rewrite V, Fac_S. assert (U := u_pos). assert (K := Fac_1 k).
  assert (X : Rabs x <= Fac k * M + s) by (replace x with ((x - y) + y) by ring; eapply Rle_trans; [apply Rabs_triang|]; lra).
  replace (fl x - y) with ((fl x - x) + (x - y)) by ring. eapply Rle_trans; [apply Rabs_triang|].
  assert (u * Rabs x <= u * (Fac k * M + s)) by (apply Rmult_le_compat_l; lra). lra.
Qed.
Lemma ap_round_eta k s x y M v : is_finite v = true -> B2R v = fl x -> Rabs y <= M -> Rabs (x - y) <= (Fac k - 1) * M + s ->
  ap (Datatypes.S k) ((1 + u) * s + eta) v y M.
Proof.
  intros F V H1 H2. assert (H3 := fl_error x). split; [exact F|]. split; [exact H1|]. rewrite V, Fac_S. assert (U := u_pos). assert (K := Fac_1 k).
  assert (X : Rabs x <= Fac k * M + s) by (replace x with ((x - y) + y) by ring; eapply Rle_trans; [apply Rabs_triang|]; lra).
  replace (fl x - y) with ((fl x - x) + (x - y)) by ring. eapply Rle_trans; [apply Rabs_triang|].
  assert (u * Rabs x <= u * (Fac k * M + s)) by (apply Rmult_le_compat_l; lra). lra.
Qed.
Lemma ap_big0 k s v y M e : ap k s v y M -> (k <= 100)%nat -> (0 <= e)%Z -> M <= bp e -> s <= 1 -> Rabs (B2R v) <= bp (2 + e).
Proof.
  intros H K E L S1. assert (A := ap_size _ _ _ _ _ H). assert (M0 := ap_M _ _ _ _ _ H).
  assert (F2 : Fac k <= 2).
  { assert (I : INR k <= 100) by (apply (le_INR k 100) in K; replace 100 with (INR 100) by (cbn; lra); exact K). assert (P := pos_INR k).
    assert (UV := u_val). assert (B : INR k * u <= / 1000) by (rewrite UV; lra). assert (X := Fac_bound k B). lra. }
  eapply Rle_trans; [exact A|]. rewrite bpow_plus. change (bp 2) with 4.
  assert (1 <= bp e) by (change 1 with (bp 0); apply bpow_le; lia). nra.
Qed.
Lemma ap_big k s v y M : ap k s v y M -> (k <= 100)%nat -> M <= bp 800 -> s <= 1 -> Rabs (B2R v) <= bp 802.
Proof. intros H K L S1. apply (ap_big0 k s v y M 800 H K); [lia|exact L|exact S1]. Qed.
Lemma ap_add k s v y M s' v' y' M' : ap k s v y M -> ap k s' v' y' M' -> (k <= 100)%nat -> M <= bp 800 -> M' <= bp 800 -> s <= 1 -> s' <= 1 ->
  ap (Datatypes.S k) ((1 + u) * (s + s')) (v + v')%f64 (y + y') (M + M').
Proof.
  intros A B K L L' S1 S2. assert (X := ap_big _ _ _ _ _ A K L S1). assert (X' := ap_big _ _ _ _ _ B K L' S2).
  destruct A as (F & H1 & H2), B as (F' & H1' & H2').
  assert (SB : Rabs (B2R v + B2R v') <= bp 803) by (eapply Rle_trans; [apply Rabs_triang|]; change 803%Z with (1 + 802)%Z; rewrite bpow_plus; change (bp 1) with 2; lra).
  destruct (add64_rep v v' _ _ (conj F eq_refl) (conj F' eq_refl)) as [Fs V].
  { apply fits_small. eapply Rle_trans; [exact SB|apply bpow_le; lia]. }
  apply (ap_round k (s + s') (B2R v + B2R v')); [exact Fs|exact V| | |].
  - eapply Rle_trans; [apply Rabs_triang|]. lra.
  - replace (B2R v + B2R v' - (y + y')) with ((B2R v - y) + (B2R v' - y')) by ring. eapply Rle_trans; [apply Rabs_triang|]. lra.
  - apply grid_fl. apply grid_add; apply grid_B2R.
Qed.
Lemma sub_is_add (v w : f64) : is_finite v = true -> is_finite w = true -> fits64 (fl (B2R v - B2R w)) -> rep64 (v - w)%f64 (fl (B2R v - B2R w)).
Proof. intros F G L. apply sub64_rep; try (split; auto; fail); exact L. Qed.
Lemma ap_sub k s v y M s' v' y' M' : ap k s v y M -> ap k s' v' y' M' -> (k <= 100)%nat -> M <= bp 800 -> M' <= bp 800 -> s <= 1 -> s' <= 1 ->
  ap (Datatypes.S k) ((1 + u) * (s + s')) (v - v')%f64 (y - y') (M + M').
Proof.
  intros A B K L L' S1 S2. assert (X := ap_big _ _ _ _ _ A K L S1). assert (X' := ap_big _ _ _ _ _ B K L' S2).
  destruct A as (F & H1 & H2), B as (F' & H1' & H2').
  assert (SB : Rabs (B2R v - B2R v') <= bp 803) by (eapply Rle_trans; [apply Rabs_triang|]; rewrite Rabs_Ropp; change 803%Z with (1 + 802)%Z; rewrite bpow_plus; change (bp 1) with 2; lra).
  destruct (sub64_rep v v' _ _ (conj F eq_refl) (conj F' eq_refl)) as [Fs V].
  { apply fits_small. eapply Rle_trans; [exact SB|apply bpow_le; lia]. }
  apply (ap_round k (s + s') (B2R v - B2R v')); [exact Fs|exact V| | |].
  - eapply Rle_trans; [apply Rabs_triang|]. rewrite Rabs_Ropp. lra.
  - replace (B2R v - B2R v' - (y - y')) with ((B2R v - y) - (B2R v' - y')) by ring. eapply Rle_trans; [apply Rabs_triang|]. rewrite Rabs_Ropp. lra.
  - apply grid_fl. unfold Rminus. apply grid_add; [apply grid_B2R|]. destruct (grid_B2R v') as [m E]. exists (- m)%Z. rewrite opp_IZR, E. ring.
Qed.
(** The rounded sum of two exact numbers is relative to the sum itself. *)
Lemma ap_leaf_add v w : is_finite v = true -> is_finite w = true -> Rabs (B2R v) <= bp 800 -> Rabs (B2R w) <= bp 800 ->
  ap 1 0 (v + w)%f64 (B2R v + B2R w) (Rabs (B2R v + B2R w)).
Proof.
  intros F G L1 L2.
  destruct (add64_rep v w _ _ (conj F eq_refl) (conj G eq_refl)) as [Fs V].
  { apply fits_small. eapply Rle_trans; [apply Rabs_triang|]. apply Rle_trans with (bp 1 * bp 800); [change (bp 1) with 2; lra|]. rewrite <- bpow_plus. apply bpow_le. lia. }
  apply (ap_weaken 1 1 ((1 + u) * 0) 0); [lia|lra|]. apply (ap_round 0 0 (B2R v + B2R w)); [exact Fs|exact V|lra| |].
  - replace (B2R v + B2R w - (B2R v + B2R w)) with 0 by ring. rewrite Rabs_R0. unfold Fac. cbn. lra.
  - apply grid_fl. apply grid_add; apply grid_B2R.
Qed.
Lemma ap_mul k s v y M k' s' v' y' M' : ap k s v y M -> ap k' s' v' y' M' -> (k <= 100)%nat -> (k' <= 100)%nat ->
  M <= bp 300 -> M' <= bp 300 -> 0 <= s <= bp (-300) -> 0 <= s' <= bp (-300) ->
  ap (Datatypes.S (k + k')) (2 * (s * (2 * M' + 1) + 2 * s' * M) + eta) (v * v')%f64 (y * y') (M * M').
Proof.
  intros A B K K' L L' S1 S2. assert (U := u_pos). assert (UL := u_val). assert (SM : bp (-300) <= 1) by (change 1 with (bp 0); apply bpow_le; lia).
  assert (X := ap_size _ _ _ _ _ A). assert (X' := ap_size _ _ _ _ _ B). assert (M0 := ap_M _ _ _ _ _ A). assert (M0' := ap_M _ _ _ _ _ B).
  assert (Two : forall j, (j <= 100)%nat -> Fac j <= 2).
  { intros j Hj. assert (I : INR j <= 100) by (apply (le_INR j 100) in Hj; replace 100 with (INR 100) by (cbn; lra); exact Hj). assert (P := pos_INR j).
    assert (Q : INR j * u <= / 1000) by (rewrite UL; lra). assert (Y := Fac_bound j Q). lra. }
  assert (F2 := Two k K). assert (F2' := Two k' K'). assert (F1 := Fac_1 k). assert (F1' := Fac_1 k').
  destruct A as (F & H1 & H2), B as (F' & H1' & H2').
  assert (P3 : 1 <= bp 300) by (change 1 with (bp 0); apply bpow_le; lia).
  assert (PB : Rabs (B2R v * B2R v') <= bp 900).
  { rewrite Rabs_mult. apply Rle_trans with (bp 302 * bp 302).
    - apply Rmult_le_compat; try apply Rabs_pos; (eapply Rle_trans; [eassumption|]); change 302%Z with (2 + 300)%Z; rewrite bpow_plus; change (bp 2) with 4; nra.
    - rewrite <- bpow_plus. apply bpow_le. lia. }
  destruct (mul64_rep v v' _ _ (conj F eq_refl) (conj F' eq_refl) (fits_small _ PB)) as [Fm V].
  set (s2 := s * (2 * M' + 1) + 2 * s' * M).
  assert (s0 : 0 <= s2) by (unfold s2; assert (0 <= s * (2 * M' + 1)) by (apply Rmult_le_pos; lra); assert (0 <= s' * M) by (apply Rmult_le_pos; lra); lra).
  apply (ap_weaken (Datatypes.S (k + k')) _ ((1 + u) * s2 + eta)); [lia|assert (u * s2 <= 1 * s2) by (apply Rmult_le_compat_r; [exact s0|rewrite UL; lra]); lra|].
  apply (ap_round_eta (k + k') s2 (B2R v * B2R v')); [exact Fm|exact V| |].
  - rewrite Rabs_mult. apply Rmult_le_compat; try apply Rabs_pos; assumption.
  - replace (B2R v * B2R v' - y * y') with ((B2R v - y) * B2R v' + y * (B2R v' - y')) by ring.
    eapply Rle_trans; [apply Rabs_triang|]. rewrite !Rabs_mult, Fac_add.
    assert (T1 : Rabs (B2R v - y) * Rabs (B2R v') <= ((Fac k - 1) * M + s) * (Fac k' * M' + s')) by (apply Rmult_le_compat; try apply Rabs_pos; assumption).
    assert (T2 : Rabs y * Rabs (B2R v' - y') <= M * ((Fac k' - 1) * M' + s')) by (apply Rmult_le_compat; try apply Rabs_pos; assumption).
    assert (Q1 : s * (Fac k' * M') <= s * (2 * M')) by (apply Rmult_le_compat_l; [lra|nra]).
    assert (Q2 : s * s' <= s * 1) by (apply Rmult_le_compat_l; lra).
    assert (Q3 : (Fac k - 1) * M * s' <= 1 * M * s') by (apply Rmult_le_compat_r; [lra|]; apply Rmult_le_compat_r; lra).
    unfold s2. lra.
Qed.
Lemma ap_div k s v y M a : ap k s v y M -> is_finite a = true -> bp (-100) <= Rabs (B2R a) -> (k <= 100)%nat -> M <= bp 700 -> 0 <= s <= 1 ->
  ap (Datatypes.S k) (2 * (s * bp 100) + eta) (v / a)%f64 (y / B2R a) (M / Rabs (B2R a)).
Proof.
  intros A Fa L K LM S1. assert (U := u_pos). assert (UL := u_val). assert (B := bpow_gt_0 radix2 (-100)).
  assert (N : B2R a <> 0) by (intros E; rewrite E, Rabs_R0 in L; lra).
  assert (I : 0 < / Rabs (B2R a) <= bp 100).
  { split; [apply Rinv_0_lt_compat; lra|]. change 100%Z with (- - (100))%Z. rewrite bpow_opp. apply Rinv_le_contravar; [exact B|exact L]. }
  assert (X := ap_big0 _ _ _ _ _ 700 A K ltac:(lia) LM (proj2 S1)).
  assert (M0 := ap_M _ _ _ _ _ A). assert (E0 := ap_s _ _ _ _ _ A). assert (K1 := Fac_1 k).
  destruct A as (F & H1 & H2).
  destruct (div64_rep v a _ _ (conj F eq_refl) (conj Fa eq_refl) N) as [Fd V].
  { apply fits_small. unfold Rdiv. rewrite Rabs_mult, Rabs_inv. apply Rle_trans with (bp (2 + 700) * bp 100); [|rewrite <- bpow_plus; apply bpow_le; lia].
    apply Rmult_le_compat; [apply Rabs_pos|lra|exact X|lra]. }
  assert (Q : s * / Rabs (B2R a) <= s * bp 100) by (apply Rmult_le_compat_l; lra).
  assert (Q0 : 0 <= s * / Rabs (B2R a)) by (apply Rmult_le_pos; lra).
  apply (ap_weaken (Datatypes.S k) _ ((1 + u) * (s * / Rabs (B2R a)) + eta)); [lia| |].
  { assert (u * (s * / Rabs (B2R a)) <= 1 * (s * / Rabs (B2R a))) by (apply Rmult_le_compat_r; [exact Q0|rewrite UL; lra]). lra. }
  apply (ap_round_eta k (s * / Rabs (B2R a)) (B2R v / B2R a)); [exact Fd|exact V| |].
  - unfold Rdiv. rewrite Rabs_mult, Rabs_inv. apply Rmult_le_compat_r; lra.
  - replace (B2R v / B2R a - y / B2R a) with ((B2R v - y) * / B2R a) by (unfold Rdiv; ring).
    rewrite Rabs_mult, Rabs_inv. apply Rle_trans with (((Fac k - 1) * M + s) * / Rabs (B2R a)); [apply Rmult_le_compat_r; lra|]. unfold Rdiv. lra.
Qed.
Lemma ap_zero k : ap k 0 (of_Z 0) 0 0.
Proof. split; [reflexivity|]. split; [rewrite Rabs_R0; lra|]. replace (B2R (of_Z 0)) with 0 by reflexivity. rewrite Rminus_0_r, Rabs_R0. lra. Qed.

(** ** Lines and corners *)
Lemma center_ap n k s F f g : (forall j, (j < n)%nat -> ap k s (F j) (f j) (g j)) -> 0 <= s -> forall j,
  ap k s (center64 n F j) (if Nat.ltb j n then f j else 0) (if Nat.ltb j n then g j else 0).
Proof.
  intros H S0 j. unfold center64. destruct (Nat.ltb j n) eqn:E; [apply H, Nat.ltb_lt, E|].
  apply (ap_weaken k k 0 s); [lia|exact S0|apply ap_zero].
Qed.
Lemma left_ap sym n k s F f g : (forall j, (j < n)%nat -> ap k s (F j) (f j) (g j)) -> 0 <= s -> forall j,
  ap k s (left64 sym n F j) (line sym n f j) (line sym n g j).
Proof.
  intros H S0 j. unfold left64, line. destruct sym; [destruct j|]; try (apply center_ap; assumption).
  apply (ap_weaken k k 0 s); [lia|exact S0|apply ap_zero].
Qed.
Lemma right_ap sym n k s F f g : (forall j, (j < n)%nat -> ap k s (F j) (f j) (g j)) -> 0 <= s -> forall j,
  ap k s (right64 sym n F j) (line sym n f (Datatypes.S j)) (line sym n g (Datatypes.S j)).
Proof. intros H S0 j. unfold right64, line. destruct sym; apply center_ap; assumption. Qed.
Lemma line_le sym n g b : 0 <= b -> (forall j, (j < n)%nat -> g j <= b) -> forall j, line sym n g j <= b.
Proof.
  intros B H j. unfold line. destruct sym; [destruct j as [|j]; [exact B|]|]; (destruct (Nat.ltb j n) eqn:E; [apply H, Nat.ltb_lt, E|exact B]).
Qed.
Lemma line_ge sym n g b : b <= 0 -> (forall j, (j < n)%nat -> b <= g j) -> forall j, b <= line sym n g j.
Proof.
  intros B H j. unfold line. destruct sym; [destruct j as [|j]; [exact B|]|]; (destruct (Nat.ltb j n) eqn:E; [apply H, Nat.ltb_lt, E|exact B]).
Qed.

(** Data of ordinary size. *)
Definition sized (x : f64) : Prop := is_finite x = true /\ Rabs (B2R x) <= bp 100.
Definition divisor (x : f64) : Prop := is_finite x = true /\ bp (-100) <= Rabs (B2R x).
Lemma sized_mul x y : sized x -> sized y -> ap 1 eta (x * y)%f64 (B2R x * B2R y) (Rabs (B2R x * B2R y)) /\ Rabs (B2R x * B2R y) <= bp 200.
Proof.
  intros [Fx Bx] [Fy By]. assert (L : Rabs (B2R x * B2R y) <= bp 200).
  { rewrite Rabs_mult. change 200%Z with (100 + 100)%Z. rewrite bpow_plus. apply Rmult_le_compat; try apply Rabs_pos; assumption. }
  split; [|exact L]. rewrite Rabs_mult.
  assert (Z : 0 <= 0 <= bp (-300)) by (split; [lra|apply bpow_ge_0]).
  assert (B3 : bp 100 <= bp 300) by (apply bpow_le; lia).
  assert (H := ap_mul 0 0 x _ _ 0 0 y _ _ (ap_leaf x Fx) (ap_leaf y Fy) ltac:(lia) ltac:(lia) ltac:(lra) ltac:(lra) Z Z).
  cbn [Nat.add] in H. eapply ap_weaken; [| |exact H]; [lia|]. lra.
Qed.
Lemma eta_bp : eta = bp (-1075).
Proof. unfold eta. change (-1075)%Z with (-1 + -1074)%Z. rewrite bpow_plus. reflexivity. Qed.
Lemma u_half : u <= / 1000.
Proof. rewrite u_val. lra. Qed.

Lemma vort_ap sym ny nx (uu dx vv dy : nat -> f64) area j i :
  (forall k, (k < ny)%nat -> sized (uu k) /\ sized (dx k)) -> (forall k, (k < nx)%nat -> sized (vv k) /\ sized (dy k)) -> divisor area ->
  let U := line sym ny (fun k => B2R (uu k) * B2R (dx k)) in let V := line sym nx (fun k => B2R (vv k) * B2R (dy k)) in
  let aU := line sym ny (fun k => Rabs (B2R (uu k) * B2R (dx k))) in let aV := line sym nx (fun k => Rabs (B2R (vv k) * B2R (dy k))) in
  ap 4 (bp (-900)) (rel_vort64 sym ny nx uu dx vv dy area j i)
    ((- (U (Datatypes.S j) - U j) + (V (Datatypes.S i) - V i)) / B2R area)
    ((aU (Datatypes.S j) + aU j + (aV (Datatypes.S i) + aV i)) / Rabs (B2R area)).
Proof.
  intros HU HV [Fa La] U V aU aV. assert (UP := u_pos). assert (UH := u_half). assert (EP := eta_pos).
  assert (E1 : eta <= bp (-1000)) by (rewrite eta_bp; apply bpow_le; lia).
  assert (E1000 : bp (-1000) <= bp (-10)) by (apply bpow_le; lia). assert (E10 : bp (-10) <= / 1000) by (change (bp (-10)) with (/ 1024); lra).
  assert (PU : forall k, (k < ny)%nat -> ap 1 eta (uu k * dx k)%f64 (B2R (uu k) * B2R (dx k)) (Rabs (B2R (uu k) * B2R (dx k)))) by (intros k Hk; apply sized_mul; apply (HU k Hk)).
  assert (PV : forall k, (k < nx)%nat -> ap 1 eta (vv k * dy k)%f64 (B2R (vv k) * B2R (dy k)) (Rabs (B2R (vv k) * B2R (dy k)))) by (intros k Hk; apply sized_mul; apply (HV k Hk)).
  assert (LU : forall k, aU k <= bp 200) by (apply line_le; [apply bpow_ge_0|]; intros k Hk; apply sized_mul; apply (HU k Hk)).
  assert (LV : forall k, aV k <= bp 200) by (apply line_le; [apply bpow_ge_0|]; intros k Hk; apply sized_mul; apply (HV k Hk)).
  assert (B8 : bp 200 <= bp 800) by (apply bpow_le; lia).
  assert (B7 : 4 * bp 200 <= bp 700) by (change 4 with (bp 2); rewrite <- bpow_plus; apply bpow_le; lia).
  assert (B78 : bp 700 <= bp 800) by (apply bpow_le; lia).
  assert (DU := ap_sub 1 eta _ _ _ eta _ _ _ (right_ap sym ny 1 eta _ _ _ PU ltac:(lra) j) (left_ap sym ny 1 eta _ _ _ PU ltac:(lra) j) ltac:(lia) ltac:(eapply Rle_trans; [apply LU|exact B8]) ltac:(eapply Rle_trans; [apply LU|exact B8]) ltac:(lra) ltac:(lra)).
  assert (DV := ap_sub 1 eta _ _ _ eta _ _ _ (right_ap sym nx 1 eta _ _ _ PV ltac:(lra) i) (left_ap sym nx 1 eta _ _ _ PV ltac:(lra) i) ltac:(lia) ltac:(eapply Rle_trans; [apply LV|exact B8]) ltac:(eapply Rle_trans; [apply LV|exact B8]) ltac:(lra) ltac:(lra)).
  fold U aU in DU. fold V aV in DV.
  assert (q : (1 + u) * (eta + eta) <= 3 * eta) by (apply Rle_trans with ((1 + / 1000) * (eta + eta)); [apply Rmult_le_compat_r; lra|lra]).
  apply (ap_weaken _ 2 _ (3 * eta)) in DU; [|lia|exact q]. apply (ap_weaken _ 2 _ (3 * eta)) in DV; [|lia|exact q].
  apply ap_opp in DU.
  assert (b1 := LU (Datatypes.S j)). assert (b2 := LU j). assert (b3 := LV (Datatypes.S i)). assert (b4 := LV i).
  assert (SUM := ap_add 2 _ _ _ _ _ _ _ _ DU DV ltac:(lia) ltac:(lra) ltac:(lra) ltac:(lra) ltac:(lra)).
  assert (q' : (1 + u) * (3 * eta + 3 * eta) <= 7 * eta) by (apply Rle_trans with ((1 + / 1000) * (3 * eta + 3 * eta)); [apply Rmult_le_compat_r; lra|lra]).
  apply (ap_weaken _ 3 _ (7 * eta)) in SUM; [|lia|exact q'].
  assert (D := ap_div 3 _ _ _ _ area SUM Fa La ltac:(lia) ltac:(lra) ltac:(lra)).
  unfold rel_vort64. eapply ap_weaken; [| |exact D]; [lia|].
  apply Rle_trans with (bp 5 * bp 100 * bp (-1075)).
  - rewrite <- eta_bp. change (bp 5) with 32. assert (1 <= bp 100) by (change 1 with (bp 0); apply bpow_le; lia). nra.
  - rewrite <- !bpow_plus. apply bpow_le. lia.
Qed.

(** ** Potential vorticity *)
Lemma half_ap k s l r y y' M M' : ap k s l y M -> ap k s r y' M' -> (k <= 50)%nat -> M <= bp 200 -> M' <= bp 200 -> 0 <= s <= bp (-400) ->
  ap (2 + k) (7 * s + eta) (half64 l r) ((y + y') / 2) ((M + M') / 2).
Proof.
  intros A B K L L' S0. assert (UP := u_pos). assert (UH := u_half).
  assert (B8 : bp 200 <= bp 800) by (apply bpow_le; lia). assert (B4 : bp (-400) <= bp (-10)) by (apply bpow_le; lia).
  assert (E10 : bp (-10) <= / 1000) by (change (bp (-10)) with (/ 1024); lra).
  assert (X := ap_add k s l y M s r y' M' A B ltac:(lia) ltac:(lra) ltac:(lra) ltac:(lra) ltac:(lra)).
  assert (q : (1 + u) * (s + s) <= 3 * s) by (apply Rle_trans with ((1 + / 1000) * (s + s)); [apply Rmult_le_compat_r; lra|lra]).
  apply (ap_weaken _ (Datatypes.S k) _ (3 * s)) in X; [|lia|exact q].
  assert (Fh : is_finite (lit (1 # 2)) = true) by (vm_compute; reflexivity).
  assert (Vh : B2R (lit (1 # 2)) = 1 / 2) by (let E := fresh in b2r (lit (1 # 2)) E; lra).
  assert (H := ap_leaf _ Fh). rewrite Vh in H. rewrite (Rabs_right (1 / 2)) in H by lra.
  assert (B3 : 2 * bp 200 <= bp 300) by (change 2 with (bp 1); rewrite <- bpow_plus; apply bpow_le; lia).
  assert (P3 : 1 <= bp 300) by (change 1 with (bp 0); apply bpow_le; lia).
  assert (N4 : 3 * bp (-400) <= bp (-300)) by (apply Rle_trans with (bp 2 * bp (-400)); [change (bp 2) with 4; assert (Z := bpow_gt_0 radix2 (-400)); lra|rewrite <- bpow_plus; apply bpow_le; lia]).
  assert (Y := ap_mul 0 0 _ _ _ _ _ _ _ _ H X ltac:(lia) ltac:(lia) ltac:(lra) ltac:(lra) ltac:(split; [lra|apply bpow_ge_0]) ltac:(lra)).
  cbn [Nat.add] in Y. unfold half64. replace ((y + y') / 2) with (1 / 2 * (y + y')) by lra. replace ((M + M') / 2) with (1 / 2 * (M + M')) by lra.
  eapply ap_weaken; [| |exact Y]; [lia|lra].
Qed.
Lemma line_half sym n f g : forall j, line sym n (fun k => (f k + g k) / 2) j = (line sym n f j + line sym n g j) / 2.
Proof. intros j. unfold line. destruct sym; [destruct j as [|j]; [lra|]|]; destruct (Nat.ltb j n); lra. Qed.

Lemma corner_ap sym ny nx (N : nat -> nat -> f64) j i :
  (forall a b, (a < ny)%nat -> (b < nx)%nat -> sized (N a b)) ->
  let L := fun j i => line sym ny (fun k => line sym nx (fun m => B2R (N k m)) i) j in
  let aL := fun j i => line sym ny (fun k => line sym nx (fun m => Rabs (B2R (N k m))) i) j in
  ap 4 (bp (-900)) (corner_n2_64 sym ny nx N j i)
    ((L j i + L j (Datatypes.S i) + L (Datatypes.S j) i + L (Datatypes.S j) (Datatypes.S i)) / 4)
    ((aL j i + aL j (Datatypes.S i) + aL (Datatypes.S j) i + aL (Datatypes.S j) (Datatypes.S i)) / 4) /\
  (aL j i + aL j (Datatypes.S i) + aL (Datatypes.S j) i + aL (Datatypes.S j) (Datatypes.S i)) / 4 <= bp 100.
Proof.
  intros H L aL. assert (EP := eta_pos). assert (E1 : eta <= bp (-1000)) by (rewrite eta_bp; apply bpow_le; lia).
  assert (E4 : 7 * 0 + eta <= bp (-400)) by (assert (bp (-1000) <= bp (-400)) by (apply bpow_le; lia); lra).
  assert (b12 : bp 100 <= bp 200) by (apply bpow_le; lia).
  assert (P : forall a b, (a < ny)%nat -> (b < nx)%nat -> ap 0 0 (N a b) (B2R (N a b)) (Rabs (B2R (N a b)))) by (intros a b Ha Hb; apply ap_leaf, H; assumption).
  assert (LL : forall a b, (a < ny)%nat -> line sym nx (fun m => Rabs (B2R (N a m))) b <= bp 100) by (intros a b Ha; apply line_le; [apply bpow_ge_0|]; intros c Hc; apply H; assumption).
  assert (LA : forall a b, aL a b <= bp 100) by (intros a b; apply line_le; [apply bpow_ge_0|]; intros c Hc; apply LL; assumption).
  assert (A : forall k, (k < ny)%nat -> ap 2 (7 * 0 + eta) (half64 (left64 sym nx (N k) i) (right64 sym nx (N k) i))
     ((line sym nx (fun m => B2R (N k m)) i + line sym nx (fun m => B2R (N k m)) (Datatypes.S i)) / 2)
     ((line sym nx (fun m => Rabs (B2R (N k m))) i + line sym nx (fun m => Rabs (B2R (N k m))) (Datatypes.S i)) / 2)).
  { intros k Hk. apply (half_ap 0 0).
    - apply left_ap; [intros m Hm; apply P; assumption|lra].
    - apply right_ap; [intros m Hm; apply P; assumption|lra].
    - lia.
    - eapply Rle_trans; [apply LL, Hk|exact b12].
    - eapply Rle_trans; [apply LL, Hk|exact b12].
    - split; [lra|apply bpow_ge_0]. }
  assert (l1 := left_ap sym ny 2 _ _ _ _ A ltac:(lra) j). assert (l2 := right_ap sym ny 2 _ _ _ _ A ltac:(lra) j).
  rewrite !line_half in l1, l2. fold (L j i) (L j (Datatypes.S i)) (aL j i) (aL j (Datatypes.S i)) in l1.
  fold (L (Datatypes.S j) i) (L (Datatypes.S j) (Datatypes.S i)) (aL (Datatypes.S j) i) (aL (Datatypes.S j) (Datatypes.S i)) in l2.
  assert (c1 := LA j i). assert (c2 := LA j (Datatypes.S i)). assert (c3 := LA (Datatypes.S j) i). assert (c4 := LA (Datatypes.S j) (Datatypes.S i)).
  split; [|lra].
  assert (Q := half_ap 2 _ _ _ _ _ _ _ l1 l2 ltac:(lia) ltac:(lra) ltac:(lra) ltac:(lra)).
  replace ((L j i + L j (Datatypes.S i) + L (Datatypes.S j) i + L (Datatypes.S j) (Datatypes.S i)) / 4) with (((L j i + L j (Datatypes.S i)) / 2 + (L (Datatypes.S j) i + L (Datatypes.S j) (Datatypes.S i)) / 2) / 2) by lra.
  replace ((aL j i + aL j (Datatypes.S i) + aL (Datatypes.S j) i + aL (Datatypes.S j) (Datatypes.S i)) / 4) with (((aL j i + aL j (Datatypes.S i)) / 2 + (aL (Datatypes.S j) i + aL (Datatypes.S j) (Datatypes.S i)) / 2) / 2) by lra.
  eapply ap_weaken; [| |exact Q]; [lia|].
  apply Rle_trans with (bp 4 * bp (-1000)); [change (bp 4) with 16; lra|rewrite <- bpow_plus; apply bpow_le; lia].
Qed.

Lemma pv_ap k z f w g y M : (k <= 50)%nat -> sized z -> sized f -> divisor g -> ap k (bp (-900)) w y M -> M <= bp 100 ->
  ap (3 + k) (bp (-600)) (pv64 z f w g) ((B2R z + B2R f) * (y / B2R g)) (Rabs (B2R z + B2R f) * (M / Rabs (B2R g))) /\
  Rabs (B2R z + B2R f) * (M / Rabs (B2R g)) <= bp 301.
Proof.
  intros K [Fz Bz] [Ff Bf] [Fg Bg] A L.
  assert (EP := eta_pos). assert (E1 : eta <= bp (-900)) by (rewrite eta_bp; apply bpow_le; lia).
  assert (M0 := ap_M _ _ _ _ _ A).
  assert (b18 : bp 100 <= bp 800) by (apply bpow_le; lia). assert (b17 : bp 100 <= bp 700) by (apply bpow_le; lia).
  assert (n9 : 0 <= bp (-900) <= 1) by (split; [apply bpow_ge_0|change 1 with (bp 0); apply bpow_le; lia]).
  assert (X := ap_leaf_add z f Fz Ff ltac:(lra) ltac:(lra)).
  assert (Y := ap_div k _ w y M g A Fg Bg ltac:(lia) ltac:(lra) n9).
  assert (XB : Rabs (B2R z + B2R f) <= bp 101) by (eapply Rle_trans; [apply Rabs_triang|]; change 101%Z with (1 + 100)%Z; rewrite bpow_plus; change (bp 1) with 2; lra).
  assert (I : 0 < / Rabs (B2R g) <= bp 100).
  { assert (G := bpow_gt_0 radix2 (-100)). split; [apply Rinv_0_lt_compat; lra|]. change 100%Z with (- - (100))%Z. rewrite bpow_opp. apply Rinv_le_contravar; [exact G|exact Bg]. }
  assert (YB : M / Rabs (B2R g) <= bp 200) by (unfold Rdiv; change 200%Z with (100 + 100)%Z; rewrite bpow_plus; apply Rmult_le_compat; lra).
  assert (Y0 : 0 <= M / Rabs (B2R g)) by (unfold Rdiv; apply Rmult_le_pos; lra).
  apply (ap_weaken _ (Datatypes.S k) _ (bp (-790))) in Y; [|lia|].
  2:{ apply Rle_trans with (bp 3 * (bp (-900) * bp 100)); [change (bp 3) with 8; assert (1 <= bp 100) by (change 1 with (bp 0); apply bpow_le; lia); nra|rewrite <- !bpow_plus; apply bpow_le; lia]. }
  split.
  2:{ change 301%Z with (101 + 200)%Z. rewrite bpow_plus. apply Rmult_le_compat; try assumption. apply Rabs_pos. }
  assert (b13 : bp 101 <= bp 300) by (apply bpow_le; lia). assert (b23 : bp 200 <= bp 300) by (apply bpow_le; lia).
  assert (P := ap_mul 1 0 _ _ _ (Datatypes.S k) (bp (-790)) _ _ _ X Y ltac:(lia) ltac:(lia) ltac:(lra) ltac:(lra) ltac:(split; [lra|apply bpow_ge_0]) ltac:(split; [apply bpow_ge_0|apply bpow_le; lia])).
  cbn [Nat.add] in P. unfold pv64. eapply ap_weaken; [| |exact P]; [lia|].
  apply Rle_trans with (bp 2 * (bp (-790) * bp 101) + bp (-650)).
  - rewrite eta_bp. assert (bp (-1075) <= bp (-650)) by (apply bpow_le; lia). change (bp 2) with 4.
    assert (bp (-790) * Rabs (B2R z + B2R f) <= bp (-790) * bp 101) by (apply Rmult_le_compat_l; [apply bpow_ge_0|exact XB]). lra.
  - rewrite <- !bpow_plus. apply Rle_trans with (bp (-650) + bp (-650)).
    + apply Rplus_le_compat_r. apply bpow_le. lia.
    + replace (bp (-650) + bp (-650)) with (bp 1 * bp (-650)) by (change (bp 1) with 2; lra). rewrite <- bpow_plus. apply bpow_le. lia.
Qed.
Lemma pv_cm_ap k z f w g y M : (k <= 50)%nat -> sized z -> sized f -> divisor g -> ap k (bp (-900)) w y M -> M <= bp 100 ->
  ap (5 + k) (bp (-400)) (pv_cm64 z f w g) (Rabs ((B2R z + B2R f) * (y / B2R g)) * 10 ^ 12) (Rabs (B2R z + B2R f) * (M / Rabs (B2R g)) * 10 ^ 12).
Proof.
  intros K Hz Hf Hg A L. destruct (pv_ap k z f w g y M K Hz Hf Hg A L) as [P B].
  assert (EP := eta_pos).
  set (Y := (B2R z + B2R f) * (y / B2R g)) in *. set (MM := Rabs (B2R z + B2R f) * (M / Rabs (B2R g))) in *.
  destruct (of_Z_rep 100 ltac:(vm_compute; reflexivity)) as [F1 V1].
  destruct (of_Z_rep 100000000000000 ltac:(vm_compute; reflexivity)) as [F2 V2].
  assert (b7 : bp 301 <= bp 700) by (apply bpow_le; lia).
  assert (n6 : 0 <= bp (-600) <= 1) by (split; [apply bpow_ge_0|change 1 with (bp 0); apply bpow_le; lia]).
  assert (D := ap_div _ _ _ _ _ (of_Z 100) P F1 ltac:(rewrite V1, Rabs_right by lra; apply Rle_trans with (bp 0); [apply bpow_le; lia|change (bp 0) with 1; lra]) ltac:(lia) ltac:(lra) n6).
  rewrite V1, (Rabs_right 100) in D by lra.
  apply (ap_weaken _ (Datatypes.S (3 + k)) _ (bp (-498))) in D; [|lia|].
  2:{ rewrite eta_bp. apply Rle_trans with (bp 1 * (bp (-600) * bp 100) + bp (-499)).
      - change (bp 1) with 2. assert (bp (-1075) <= bp (-499)) by (apply bpow_le; lia). lra.
      - rewrite <- !bpow_plus. change (1 + (-600 + 100))%Z with (-499)%Z. replace (bp (-499) + bp (-499)) with (bp 1 * bp (-499)) by (change (bp 1) with 2; lra). rewrite <- bpow_plus. apply bpow_le. lia. }
  assert (D' : MM / 100 <= bp 300) by (assert (bp 301 = 2 * bp 300) by (change 301%Z with (1 + 300)%Z; rewrite bpow_plus; reflexivity); assert (0 <= bp 300) by apply bpow_ge_0; lra).
  assert (G := ap_leaf _ F2). rewrite V2, (Rabs_right 100000000000000) in G by lra.
  assert (B14 : 100000000000000 <= bp 47) by (change (bp 47) with (IZR (2 ^ 47)); apply IZR_le; vm_compute; discriminate).
  assert (b47 : bp 47 <= bp 300) by (apply bpow_le; lia).
  assert (Q := ap_mul _ _ _ _ _ _ _ _ _ _ D G ltac:(lia) ltac:(lia) D' ltac:(lra) ltac:(split; [apply bpow_ge_0|apply bpow_le; lia]) ltac:(split; [lra|apply bpow_ge_0])).
  apply ap_abs in Q. unfold pv_cm64.
  replace (Rabs Y * 10 ^ 12) with (Rabs (Y / 100 * 100000000000000)).
  2:{ replace (Y / 100 * 100000000000000) with (Y * 10 ^ 12) by field. rewrite Rabs_mult, (Rabs_right (10 ^ 12)) by lra. reflexivity. }
  replace (MM * 10 ^ 12) with (MM / 100 * 100000000000000) by field.
  eapply ap_weaken; [| |exact Q]; [lia|].
  rewrite eta_bp. apply Rle_trans with (bp 3 * (bp (-498) * bp 47) + bp (-440)).
  - assert (bp (-1075) <= bp (-440)) by (apply bpow_le; lia). change (bp 3) with 8.
    assert (X : bp (-498) * (2 * 100000000000000 + 1) <= bp (-498) * (3 * bp 47)) by (apply Rmult_le_compat_l; [apply bpow_ge_0|lra]).
    assert (0 <= bp (-498) * bp 47) by (apply Rmult_le_pos; apply bpow_ge_0). lra.
  - rewrite <- !bpow_plus. apply Rle_trans with (bp (-440) + bp (-440)).
    + apply Rplus_le_compat_r. apply bpow_le. lia.
    + replace (bp (-440) + bp (-440)) with (bp 1 * bp (-440)) by (change (bp 1) with 2; lra). rewrite <- bpow_plus. apply bpow_le. lia.
Qed.
