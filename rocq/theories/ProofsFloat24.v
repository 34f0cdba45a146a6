(** * ProofsFloat24: spiciness in binary64 (proofs only) *)
From Coq Require Import Reals Lra Lia List ZArith QArith Qreals Bool Permutation.
From Flocq Require Import Core IEEE754.BinarySingleNaN Relative.
From Verif Require Import Num SpecFloat64 SpecSpice Ieee IeeeGlobal IeeeSpice SpecIeee SpecIeeeSpice ProofsFloat ProofsIeee ProofsFloat4 ProofsFloat5 ProofsFloat6 ProofsFloat8 ProofsFloat10 ProofsFloat11 ProofsFloat19 ProofsFloat22.
Import ListNotations.
Local Open Scope R_scope.

(** A relative error [e] and an absolute error [d]. *)
Definition apx (e d x y : R) : Prop := Rabs (y - x) <= e * Rabs x + d.
Lemma apx_size e d x y : apx e d x y -> Rabs y <= (1 + e) * Rabs x + d.
Proof. unfold apx. intros H. assert (A := Rabs_triang (y - x) x). replace (y - x + x) with y in A by ring. lra. Qed.
Lemma apx_weaken e d e' d' x y : e <= e' -> d <= d' -> apx e d x y -> apx e' d' x y.
Proof. unfold apx. intros H1 H2 H. assert (P := Rabs_pos x). assert (e * Rabs x <= e' * Rabs x) by (apply Rmult_le_compat_r; assumption). lra. Qed.
Lemma apx_refl x : apx 0 0 x x.
Proof. unfold apx. rewrite Rminus_eq_0, Rabs_R0. lra. Qed.
Lemma apx_mul e d f x y x' y' M : 0 <= e <= 1 -> 0 <= f <= 1 -> 0 <= d <= 1 -> Rabs x <= M -> Rabs y <= M ->
  apx e d x x' -> apx f d y y' -> apx (e + f + e * f) (d * (4 * M + 1)) (x * y) (x' * y').
Proof.
  intros He Hf Hd Mx My A B. assert (S := apx_size _ _ _ _ B). unfold apx in *.
  replace (x' * y' - x * y) with ((x' - x) * y' + x * (y' - y)) by ring. eapply Rle_trans; [apply Rabs_triang|]. rewrite !Rabs_mult.
  assert (P1 := Rabs_pos x). assert (P2 := Rabs_pos y). assert (P3 := Rabs_pos y'). assert (P4 := Rabs_pos (y' - y)). assert (P5 := Rabs_pos (x' - x)).
  set (X := Rabs x) in *. set (Y := Rabs y) in *.
  assert (H1 : Rabs (x' - x) * Rabs y' <= (e * X + d) * ((1 + f) * Y + d)) by (apply Rmult_le_compat; assumption).
  assert (H2 : X * Rabs (y' - y) <= X * (f * Y + d)) by (apply Rmult_le_compat_l; assumption).
  assert (H3 : d * d <= d * 1) by (apply Rmult_le_compat_l; lra).
  assert (H4 : d * (e * X) <= d * M) by (apply Rmult_le_compat_l; [lra|nra]).
  assert (H5 : d * (f * Y) <= d * M) by (apply Rmult_le_compat_l; [lra|nra]).
  assert (H6 : d * X <= d * M) by (apply Rmult_le_compat_l; lra). assert (H7 : d * Y <= d * M) by (apply Rmult_le_compat_l; lra).
  nra.
Qed.
Lemma apx_fl e d x y : 0 <= e <= 1 -> 0 <= d <= 1 -> apx e d x y -> apx (e + u + e * u) (2 * d + eta) x (fl y).
Proof.
  intros He Hd H. us. assert (S := apx_size _ _ _ _ H). assert (F := fl_error y). unfold apx in *.
  replace (fl y - x) with ((fl y - y) + (y - x)) by ring. eapply Rle_trans; [apply Rabs_triang|]. assert (P := Rabs_pos x).
  assert (u * Rabs y <= u * ((1 + e) * Rabs x + d)) by (apply Rmult_le_compat_l; lra). nra.
Qed.
Lemma eta_bp : eta <= bp (-1000).
Proof. unfold eta. apply Rle_trans with (bp (-1074)); [assert (H := bp_pos (-1074)); lra|apply bpow_le; lia]. Qed.

(** Powers. *)
Lemma pow_abs_le x n M : 1 <= M -> Rabs x <= M -> Rabs (x ^ n) <= M ^ n.
Proof. intros H A. rewrite <- RPow_abs. apply pow_incr. split; [apply Rabs_pos|exact A]. Qed.
Lemma npow_ok pow64 x n : accurate_pow pow64 -> (n <= 5)%nat -> is_finite x = true -> Rabs (B2R x) <= 1000 ->
  is_finite (npow64 pow64 x n) = true /\ apx (8 * u) (bp (-1000)) (B2R x ^ n) (B2R (npow64 pow64 x n)).
Proof.
  intros A N F L. us. assert (Z := bp_pos (-1000)).
  assert (W : forall r, apx (8 * u) (bp (-1000)) r r) by (intros r; apply (apx_weaken 0 0); [lra|lra|apply apx_refl]).
  destruct n as [|[|[|n]]]; cbn [npow64].
  - destruct (of_Z_rep 1 eq_refl) as [G V]. split; [exact G|]. rewrite V. rewrite pow_O. apply W.
  - split; [exact F|]. rewrite pow_1. apply W.
  - assert (S : Rabs (B2R x * B2R x) <= bp 20).
    { rewrite Rabs_mult. change (bp 20) with 1048576. assert (P := Rabs_pos (B2R x)). nra. }
    destruct (mul64_rep x x _ _ (conj F eq_refl) (conj F eq_refl) (fits_bp 20 _ ltac:(lia) S)) as [G V]. split; [exact G|]. rewrite V.
    replace (B2R x ^ 2) with (B2R x * B2R x) by ring. unfold apx. eapply Rle_trans; [apply fl_error|]. assert (E := eta_bp).
    assert (P := Rabs_pos (B2R x * B2R x)). nra.
  - destruct (A x (S (S (S n))) ltac:(lia) F L) as (G & E & _). split; [exact G|]. unfold apx. rewrite eight_u in E. rewrite <- bp_1000 in E. exact E.
Qed.
Lemma pow_rel x y n : (n <= 4)%nat -> rel u x y -> rel (5 * u) (x ^ n) (y ^ n).
Proof.
  intros N R. us.
  assert (G : forall m, rel ((1 + u) ^ m - 1) (x ^ m) (y ^ m)).
  { induction m as [|m IH]; [unfold rel; cbn; rewrite !Rminus_eq_0, Rabs_R0, Rmult_0_l; lra|].
    cbn [pow]. eapply rel_weaken; [|apply (rel_mul u ((1 + u) ^ m - 1)); [lra| |exact R|exact IH]]; [right; ring|].
    assert (B := pow_R1_Rle (1 + u) m ltac:(lra)). lra. }
  eapply rel_weaken; [|apply (G n)]. apply Rle_trans with ((1 + u) ^ 4 - 1).
  - assert (H := Rle_pow (1 + u) n 4 ltac:(lra) N). lra.
  - assert (u * u <= 1e-3 * u) by nra. assert (u * u * u <= 1e-3 * u) by nra. assert (u * u * u * u <= 1e-3 * u) by nra. simpl. lra.
Qed.

(** The salinity relative to 35. *)
Lemma anomaly_ok s : is_finite s = true -> Rabs (B2R s) <= 100 ->
  is_finite (s - of_Z 35)%f64 = true /\ rel u (B2R s - 35) (B2R (s - of_Z 35)%f64) /\ Rabs (B2R (s - of_Z 35)%f64) <= 1000 /\ Rabs (B2R s - 35) <= 135.
Proof.
  intros F L. us. set (x := B2R s) in *. assert (S0 : Rabs (x - 35) <= 135) by (apply Rabs_le_inv in L; apply Rabs_le; lra).
  destruct (sub64_rep s (of_Z 35) x 35 (conj F eq_refl) (of_Z_rep 35 eq_refl)) as [G V].
  { apply (fits_bp 20); [lia|]. change (bp 20) with 1048576. lra. }
  split; [exact G|]. assert (R : rel u (x - 35) (B2R (s - of_Z 35)%f64)).
  { rewrite V. unfold rel. apply grid_fl. unfold x. destruct (of_Z_rep 35 eq_refl) as [_ E]. rewrite <- E.
    replace (B2R s - B2R (of_Z 35)) with (B2R s + IZR (-1) * B2R (of_Z 35)) by lra. apply grid_add; [|apply grid_mul]; apply grid_B2R. }
  split; [exact R|]. split; [|exact S0]. destruct (rel_size _ _ _ R) as [H _]. assert (P := Rabs_pos (x - 35)). nra.
Qed.

(** The coefficients. *)
Definition cq (i j : nat) : R := Q2R (nth (i * 5 + j) coeff_q 0%Q).
Definition q_ok (q : Q) : bool := ((Z.abs (Qnum q) <? 2 ^ 53) && (Zpos (Qden q) <? 2 ^ 53) && (Z.abs (Qnum q) <=? Zpos (Qden q)) && ((Qnum q =? 0) || (1 <=? Z.abs (Qnum q))))%Z.
Lemma coeff_ok i j : is_finite (coeff64 i j) = true /\ rel u (cq i j) (B2R (coeff64 i j)) /\ Rabs (cq i j) <= 1.
Proof.
  unfold coeff64, cq. set (q := nth (i * 5 + j) coeff_q 0%Q).
  assert (Q : q_ok q = true).
  { assert (H : forallb q_ok (0%Q :: coeff_q) = true) by (vm_compute; reflexivity). rewrite forallb_forall in H. apply H.
    unfold q. destruct (nth_in_or_default (i * 5 + j) coeff_q 0%Q) as [I|E]; [right; exact I|left; symmetry; exact E]. }
  unfold q_ok in Q. rewrite !andb_true_iff in Q. destruct Q as [[[Q1 Q2] Q3] _]. apply Z.ltb_lt in Q1, Q2. apply Z.leb_le in Q3.
  assert (D : 0 < IZR (Zpos (Qden q))) by (apply IZR_lt; reflexivity).
  assert (B : Rabs (Q2R q) <= 1).
  { unfold Q2R. rewrite Rabs_mult, Rabs_inv, <- abs_IZR, (Rabs_pos_eq (IZR (Zpos _))) by lra. apply IZR_le in Q3.
    apply Rmult_le_reg_r with (IZR (Z.pos (Qden q))); [exact D|]. rewrite Rmult_assoc, Rinv_l by lra. lra. }
  assert (FT := fits_bp 0 (Q2R q) ltac:(lia) ltac:(change (bp 0) with 1; exact B)).
  destruct (lit_rep q Q1 Q2 FT) as [G V]. split; [exact G|]. split; [|exact B]. rewrite V. apply rel_fl.
  destruct (Z.eq_dec (Qnum q) 0) as [E|E]; [left; unfold Q2R; rewrite E; lra|right].
  apply Rle_trans with (bp (-53)); [apply bpow_le; lia|]. unfold Q2R. rewrite Rabs_mult, Rabs_inv, <- abs_IZR, (Rabs_pos_eq (IZR (Zpos _))) by lra.
  assert (N : 1 <= IZR (Z.abs (Qnum q))) by (apply IZR_le; lia).
  assert (I : bp (-53) <= / IZR (Z.pos (Qden q))).
  { change (bp (-53)) with (/ IZR (2 ^ 53)). apply Rinv_le_contravar; [exact D|]. apply IZR_le. lia. }
  assert (P := bp_pos (-53)). nra.
Qed.

(** One term. *)
Definition texact (t s : R) (i j : nat) : R := (s - 35) ^ j * t ^ i * cq i j.
Lemma bp_split a b : bp (a + b) = bp a * bp b. Proof. apply bpow_plus. Qed.
Lemma term_ok pow64 t s i j : accurate_pow pow64 -> (i <= 5)%nat -> (j <= 4)%nat ->
  is_finite t = true -> is_finite s = true -> Rabs (B2R t) <= 100 -> Rabs (B2R s) <= 100 ->
  is_finite (IeeeSpice.term64 pow64 t s i j) = true /\ apx (26 * u) (bp (-880)) (texact (B2R t) (B2R s) i j) (B2R (IeeeSpice.term64 pow64 t s i j)) /\ Rabs (texact (B2R t) (B2R s) i j) <= bp 80.
Proof.
  intros A Hi Hj Ft Fs Lt Ls. us.
  destruct (anomaly_ok s Fs Ls) as (Fa & Ra & La & Ba). set (a := (s - of_Z 35)%f64) in *. set (x := B2R s - 35) in *. set (y := B2R t) in *.
  destruct (npow_ok pow64 a j A ltac:(lia) Fa La) as [Fp Ep]. destruct (npow_ok pow64 t i A Hi Ft ltac:(fold y; lra)) as [Fq Eq]. fold y in Eq.
  destruct (coeff_ok i j) as (Fc & Rc & Bc). set (c := cq i j) in *.
  set (p := npow64 pow64 a j) in *. set (q := npow64 pow64 t i) in *.
  assert (X : Rabs (x ^ j) <= bp 34).
  { eapply Rle_trans; [apply (pow_abs_le x j 135); [lra|exact Ba]|]. apply Rle_trans with (135 ^ 4); [apply Rle_pow; [lra|exact Hj]|].
    change (bp 34) with 17179869184. lra. }
  assert (Y : Rabs (y ^ i) <= bp 34).
  { eapply Rle_trans; [apply (pow_abs_le y i 100); [lra|exact Lt]|]. apply Rle_trans with (100 ^ 5); [apply Rle_pow; [lra|exact Hi]|].
    change (bp 34) with 17179869184. lra. }
  set (d := bp (-1000)) in *. assert (D0 : 0 < d) by apply bp_pos. assert (D1 : d <= 1e-50).
  { apply Rle_trans with (bp (-200)); [apply bpow_le; lia|]. change (bp (-200)) with (/ 1606938044258990275541962092341162602522202993782792835301376). lra. }
  (* the power of the anomaly *)
  assert (E1 : apx (14 * u) d (x ^ j) (B2R p)).
  { assert (Rj := pow_rel _ _ j Hj Ra). destruct (rel_size _ _ _ Rj) as [Sj _]. unfold apx, rel in *.
    replace (B2R p - x ^ j) with ((B2R p - B2R a ^ j) + (B2R a ^ j - x ^ j)) by ring. eapply Rle_trans; [apply Rabs_triang|].
    assert (P := Rabs_pos (x ^ j)). assert (8 * u * Rabs (B2R a ^ j) <= 8 * u * ((1 + 5 * u) * Rabs (x ^ j))) by (apply Rmult_le_compat_l; lra).
    assert (u * (u * Rabs (x ^ j)) <= 1e-3 * (u * Rabs (x ^ j))) by (apply Rmult_le_compat_r; [nra|lra]). assert (0 <= u * Rabs (x ^ j)) by (apply Rmult_le_pos; lra). lra. }
  (* the product of the powers *)
  assert (E2 : apx (22.1 * u) (d * (4 * bp 34 + 1)) (x ^ j * y ^ i) (B2R p * B2R q)).
  { eapply apx_weaken; [|apply Rle_refl|apply (apx_mul (14 * u) d (8 * u)); [lra|lra|lra|exact X|exact Y|exact E1|exact Eq]]. nra. }
  assert (D2 : d * (4 * bp 34 + 1) <= 1e-38). { change (bp 34) with 17179869184. lra. }
  assert (D2' : 0 <= d * (4 * bp 34 + 1)). { change (bp 34) with 17179869184. lra. }
  assert (XY : Rabs (x ^ j * y ^ i) <= bp 68). { rewrite Rabs_mult. change 68%Z with (34 + 34)%Z. rewrite bpow_plus. apply Rmult_le_compat; try apply Rabs_pos; assumption. }
  assert (S2 := apx_size _ _ _ _ E2).
  assert (G2 : Rabs (B2R p * B2R q) <= bp 80).
  { eapply Rle_trans; [exact S2|]. assert (W : (1 + 22.1 * u) * Rabs (x ^ j * y ^ i) <= 2 * bp 68) by (apply Rmult_le_compat; try lra; apply Rabs_pos).
    apply Rle_trans with (2 * bp 68 + 1); [lra|]. change (bp 68) with 295147905179352825856. change (bp 80) with 1208925819614629174706176. lra. }
  destruct (mul64_rep p q _ _ (conj Fp eq_refl) (conj Fq eq_refl) (fits_bp 80 _ ltac:(lia) G2)) as [F2 V2].
  assert (E3 := apx_fl (22.1 * u) (d * (4 * bp 34 + 1)) _ _ ltac:(split; lra) ltac:(split; lra) E2). rewrite <- V2 in E3.
  set (d3 := 2 * (d * (4 * bp 34 + 1)) + eta) in *. assert (H0 := eta_pos). assert (H1 : eta <= d) by exact eta_bp.
  assert (D3 : 0 <= d3 <= 1e-35) by (unfold d3; lra).
  assert (E3' : apx (23.2 * u) d3 (x ^ j * y ^ i) (B2R (p * q)%f64)) by (eapply apx_weaken; [|apply Rle_refl|exact E3]; nra).
  (* the coefficient *)
  assert (E4 : apx (24.3 * u) (d3 * (4 * bp 68 + 1)) (x ^ j * y ^ i * c) (B2R (p * q)%f64 * B2R (coeff64 i j))).
  { eapply apx_weaken; [|apply Rle_refl|apply (apx_mul (23.2 * u) d3 u); [lra|lra|lra|exact XY| |exact E3'|]]; [nra| |].
    - change (bp 68) with 295147905179352825856. lra.
    - unfold rel in Rc. unfold apx. lra. }
  assert (D4 : d3 * (4 * bp 68 + 1) <= bp (-890)).
  { apply Rle_trans with ((d * bp 38) * bp 71).
    - apply Rmult_le_compat; [lra|assert (H := bp_pos 68); lra| |].
      + unfold d3. change (bp 34) with 17179869184. change (bp 38) with 274877906944. lra.
      + change (bp 68) with 295147905179352825856. change (bp 71) with 2361183241434822606848. lra.
    - unfold d. rewrite <- !bpow_plus. apply bpow_le. lia. }
  assert (D4' : 0 <= d3 * (4 * bp 68 + 1)) by (apply Rmult_le_pos; [lra|assert (H := bp_pos 68); lra]).
  assert (Z890 : bp (-890) <= 1e-50).
  { apply Rle_trans with (bp (-200)); [apply bpow_le; lia|]. change (bp (-200)) with (/ 1606938044258990275541962092341162602522202993782792835301376). lra. }
  assert (XC : Rabs (x ^ j * y ^ i * c) <= bp 68). { rewrite Rabs_mult. assert (P1 := Rabs_pos (x ^ j * y ^ i)). assert (P2 := Rabs_pos c). nra. }
  assert (G4 : Rabs (B2R (p * q)%f64 * B2R (coeff64 i j)) <= bp 80).
  { eapply Rle_trans; [exact (apx_size _ _ _ _ E4)|]. assert (W : (1 + 24.3 * u) * Rabs (x ^ j * y ^ i * c) <= 2 * bp 68) by (apply Rmult_le_compat; try lra; apply Rabs_pos).
    apply Rle_trans with (2 * bp 68 + 1); [lra|]. change (bp 68) with 295147905179352825856. change (bp 80) with 1208925819614629174706176. lra. }
  destruct (mul64_rep (p * q)%f64 (coeff64 i j) _ _ (conj F2 eq_refl) (conj Fc eq_refl) (fits_bp 80 _ ltac:(lia) G4)) as [F4 V4].
  assert (E5 := apx_fl (24.3 * u) (d3 * (4 * bp 68 + 1)) _ _ ltac:(split; lra) ltac:(split; lra) E4). rewrite <- V4 in E5.
  split; [exact F4|]. split; [|eapply Rle_trans; [exact XC|apply bpow_le; lia]].
  unfold texact. fold x y c. eapply apx_weaken; [| |exact E5]; [nra|].
  apply Rle_trans with (4 * bp (-890)).
  - assert (eta <= bp (-890)) by (eapply Rle_trans; [exact H1|apply bpow_le; lia]). assert (HZ := bp_pos (-890)). lra.
  - change 4 with (bp 2). rewrite <- bpow_plus. apply bpow_le. lia.
Qed.

(** The sum of the terms. *)
Lemma dsum_ones l : dsum (ones l) = rsum (map (fun x : f64 => B2R x) l).
Proof. unfold dsum, ones. rewrite map_map. f_equal. apply map_ext. intros x. cbn. lra. Qed.
Lemma dabs_ones l : dabs (ones l) = rsum (map (fun x : f64 => Rabs (B2R x)) l).
Proof. unfold dabs, ones. rewrite map_map. f_equal. apply map_ext. intros x. cbn. lra. Qed.
Lemma sum_terms {A} (g : A -> f64) (f : A -> R) e d l : 0 <= e -> 0 <= d ->
  (forall p, In p l -> apx e d (f p) (B2R (g p))) ->
  Rabs (rsum (map (fun x : f64 => B2R x) (map g l)) - rsum (map f l)) <= e * rsum (map (fun p => Rabs (f p)) l) + INR (List.length l) * d /\
  rsum (map (fun x : f64 => Rabs (B2R x)) (map g l)) <= (1 + e) * rsum (map (fun p => Rabs (f p)) l) + INR (List.length l) * d.
Proof.
  intros He Hd. induction l as [|p l IH]; intros H; [cbn; rewrite Rminus_0_r, Rabs_R0; lra|].
  destruct (IH (fun q Q => H q (or_intror Q))) as [I1 I2]. assert (E := H p (or_introl eq_refl)). assert (S := apx_size _ _ _ _ E). unfold apx in E.
  cbn [map List.length rsum]. rewrite S_INR. split.
  - match goal with |- Rabs (?a + ?b - (?c + ?d0)) <= _ => replace (a + b - (c + d0)) with ((a - c) + (b - d0)) by ring end.
    eapply Rle_trans; [apply Rabs_triang|]. lra.
  - lra.
Qed.
Definition pairs := list_prod (seq 0 6) (seq 0 5).
Lemma pairs_range p : In p pairs -> (fst p <= 5)%nat /\ (snd p <= 4)%nat.
Proof. destruct p as [i j]. unfold pairs. rewrite in_prod_iff, !in_seq. cbn. lia. Qed.
Lemma exact_sum t s : rsum (map (fun p => texact t s (fst p) (snd p)) pairs) = flament_pi t s.
Proof.
  unfold flament_pi, pairs, texact, cq. let v := eval vm_compute in coeff_q in change coeff_q with v.
  cbn [list_prod seq map app fst snd Nat.mul Nat.add nth rsum]. unfold Q2R. cbn [Qnum Qden]. generalize (s - 35); intros x. lra.
Qed.
Lemma exact_size t s : rsum (map (fun p => Rabs (texact t s (fst p) (snd p))) pairs) = flament_size t s.
Proof.
  assert (E : forall p : nat * nat, Rabs (texact t s (fst p) (snd p)) = Rabs (s - 35) ^ snd p * Rabs t ^ fst p * Rabs (cq (fst p) (snd p))).
  { intros p. unfold texact. rewrite !Rabs_mult, !RPow_abs. reflexivity. }
  rewrite (map_ext _ _ E). unfold flament_size, pairs, cq. let v := eval vm_compute in coeff_q in change coeff_q with v.
  cbn [list_prod seq map app fst snd Nat.mul Nat.add nth rsum]. unfold Q2R. cbn [Qnum Qden]. generalize (Rabs (s - 35)), (Rabs t); intros x y.
  repeat match goal with |- context [Rabs (IZR ?a * / IZR ?b)] => 
    first [rewrite (Rabs_pos_eq (IZR a * / IZR b)) by lra | rewrite (Rabs_left (IZR a * / IZR b)) by lra] end. lra.
Qed.

Lemma spice_ok pow64 sum k t s : accurate_pow pow64 -> tree64 k (terms64 pow64 t s) (sum (terms64 pow64 t s)) -> (k <= 30)%nat ->
  is_finite t = true -> is_finite s = true -> Rabs (B2R t) <= 100 -> Rabs (B2R s) <= 100 ->
  is_finite (spice64 pow64 sum t s) = true /\
  Rabs (B2R (spice64 pow64 sum t s) - flament_pi (B2R t) (B2R s)) <= 6.4e-15 * flament_size (B2R t) (B2R s) + / 2 ^ 800.
Proof.
  intros A T K Ft Fs Lt Ls. us. unfold spice64. set (l := terms64 pow64 t s) in *. set (y := B2R t) in *. set (x := B2R s) in *.
  assert (H : forall p, In p pairs -> is_finite (IeeeSpice.term64 pow64 t s (fst p) (snd p)) = true /\ apx (26 * u) (bp (-880)) (texact y x (fst p) (snd p)) (B2R (IeeeSpice.term64 pow64 t s (fst p) (snd p))) /\ Rabs (texact y x (fst p) (snd p)) <= bp 80).
  { intros p P. destruct (pairs_range p P) as [P1 P2]. apply term_ok; assumption. }
  set (d := bp (-880)) in *. assert (D0 : 0 < d) by apply bp_pos.
  assert (D1 : 64 * d <= / 2 ^ 800).
  { replace (/ 2 ^ 800) with (bp (-800)) by (change (-800)%Z with (- (800))%Z; rewrite bpow_opp; f_equal; exact (bp_pow 800)).
    change 64 with (bp 6). unfold d. rewrite <- bpow_plus. apply bpow_le. lia. }
  assert (D2 : d <= 1). { change 1 with (bp 0). apply bpow_le. lia. }
  destruct (sum_terms (fun p => IeeeSpice.term64 pow64 t s (fst p) (snd p)) (fun p => texact y x (fst p) (snd p)) (26 * u) d pairs ltac:(lra) ltac:(lra) (fun p P => proj1 (proj2 (H p P)))) as [S1 S2].
  rewrite exact_sum, exact_size in *. change (map (fun p => IeeeSpice.term64 pow64 t s (fst p) (snd p)) pairs) with l in *.
  change (INR (List.length pairs)) with (INR 30) in *. rewrite INR_IZR_INZ in S1, S2. change (Z.of_nat 30) with 30%Z in S1, S2.
  assert (AA : flament_size y x <= 30 * bp 80).
  { rewrite <- exact_size. apply Rle_trans with (rsum (map (fun _ => bp 80) pairs)).
    - apply rsum_le. intros p P. apply (H p P).
    - right. cbn. ring. }
  assert (A0 : 0 <= flament_size y x). { rewrite <- exact_size. apply rsum_nonneg. intros p _. apply Rabs_pos. }
  set (M := flament_size y x) in *. assert (K1 := Fac_1 k). destruct (Fac_small k ltac:(lia)) as [K2 K3].
  assert (IK : INR k <= 30) by (rewrite INR_IZR_INZ; apply IZR_le; lia). assert (IP := pos_INR k).
  destruct (tree_grid k l _ T) as [F E].
  { intros z Z. apply in_map_iff in Z as (p & <- & P). apply (H p P). }
  { rewrite dabs_ones. set (m := rsum (map (fun x0 : f64 => Rabs (B2R x0)) l)) in *. assert (m <= bp 90). { change (bp 80) with 1208925819614629174706176 in AA. change (bp 90) with 1237940039285380274899124224. assert (u * M <= M) by nra. lra. }
    assert (M0 : 0 <= m) by (apply rsum_nonneg; intros; apply Rabs_pos).
    apply Rle_lt_trans with (bp 90 * bp 1); [apply Rmult_le_compat; try lra; change (bp 1) with 2; lra|]. rewrite <- bpow_plus. apply bpow_lt. lia. }
  split; [exact F|]. rewrite dsum_ones, dabs_ones in E.
  match goal with |- Rabs (?a - ?b) <= _ => replace (a - b) with ((a - rsum (map (fun x0 : f64 => B2R x0) l)) + (rsum (map (fun x0 : f64 => B2R x0) l) - b)) by ring end.
  eapply Rle_trans; [apply Rabs_triang|]. eapply Rle_trans; [apply Rplus_le_compat; [exact E|exact S1]|].
  set (m := rsum (map (fun x0 : f64 => Rabs (B2R x0)) l)) in *.
  assert (Q1 : (Fac k - 1) <= 30.1 * u) by nra.
  assert (Q2 : (Fac k - 1) * m <= 30.1 * u * ((1 + 26 * u) * M + 30 * d)).
  { apply Rmult_le_compat; [lra|apply rsum_nonneg; intros; apply Rabs_pos|exact Q1|exact S2]. }
  assert (Q3 : u * u * M <= 1e-4 * u * M) by (apply Rmult_le_compat_r; [exact A0|apply Rmult_le_compat_r; lra]).
  assert (Q4 : u * M <= 1.1103e-16 * M) by (apply Rmult_le_compat_r; [exact A0|rewrite u_val; lra]).
  assert (Q5 : u * d <= 1e-4 * d) by (apply Rmult_le_compat_r; lra). assert (Q6 : 0 <= u * M) by (apply Rmult_le_pos; lra). lra.
Qed.

(** Missing data and the origin. *)
Lemma tree_nan k l s : tree64 k l s -> In B754_nan l -> s = B754_nan.
Proof.
  induction 1 as [k x|k l1 l2 s1 s2 H1 IH1 H2 IH2|k l l' s P H IH]; intros I.
  - destruct I as [<-|[]]. reflexivity.
  - apply in_app_or in I as [I|I]; [rewrite (IH1 I); reflexivity|rewrite (IH2 I); destruct s1 as [[]|[]| |[] ? ? ?]; reflexivity].
  - apply IH. eapply Permutation_in; [apply Permutation_sym, P|exact I].
Qed.
Lemma mul_nan_r x : (x * B754_nan)%f64 = B754_nan.
Proof. destruct x as [[]|[]| |[] ? ? ?]; reflexivity. Qed.
Lemma spice_nan pow64 sum k t s : tree64 k (terms64 pow64 t s) (sum (terms64 pow64 t s)) -> t = B754_nan \/ s = B754_nan ->
  spice64 pow64 sum t s = B754_nan.
Proof.
  intros T H. apply (tree_nan k _ _ T). apply in_map_iff.
  destruct H as [-> | ->]; [exists (1%nat, 0%nat)|exists (0%nat, 1%nat)]; (split; [|unfold pairs; vm_compute; tauto]); cbn [fst snd].
  - unfold IeeeSpice.term64, npow64. rewrite mul_nan_r. reflexivity.
  - reflexivity.
Qed.
Lemma mul_zero x y : is_finite x = true -> is_finite y = true -> B2R x = 0 \/ B2R y = 0 -> is_finite (x * y)%f64 = true /\ B2R (x * y)%f64 = 0.
Proof.
  intros Fx Fy H. assert (Z : B2R x * B2R y = 0) by (destruct H as [-> | ->]; ring).
  destruct (mul64_rep x y _ _ (conj Fx eq_refl) (conj Fy eq_refl)) as [F V].
  - apply (fits_bp 0); [lia|]. rewrite Z, Rabs_R0. apply bpow_ge_0.
  - split; [exact F|]. rewrite V, Z. apply ProofsFloat.fl_0.
Qed.
Lemma npow_zero pow64 x n : accurate_pow pow64 -> (1 <= n <= 5)%nat -> is_finite x = true -> B2R x = 0 -> B2R (npow64 pow64 x n) = 0.
Proof.
  intros A N F Z. destruct n as [|[|[|n]]]; cbn [npow64]; [lia|exact Z|apply mul_zero; auto|].
  destruct (A x (S (S (S n))) ltac:(lia) F) as (_ & _ & H); [rewrite Z, Rabs_R0; lra|exact (H Z)].
Qed.
Lemma spice_zero pow64 sum k t s : accurate_pow pow64 -> tree64 k (terms64 pow64 t s) (sum (terms64 pow64 t s)) -> (k <= 30)%nat ->
  is_finite t = true -> is_finite s = true -> B2R t = 0 -> B2R s = 35 -> B2R (spice64 pow64 sum t s) = 0.
Proof.
  intros A T K Ft Fs Zt Zs. set (a := (s - of_Z 35)%f64).
  destruct (anomaly_ok s Fs) as (Fa & Ra & _); [rewrite Zs, Rabs_pos_eq; lra|]. fold a in Fa, Ra.
  assert (Za : B2R a = 0). { rewrite Zs in Ra. unfold rel in Ra. replace (35 - 35) with 0 in Ra by lra. rewrite Rabs_R0, Rmult_0_r, Rminus_0_r in Ra. assert (P := Rabs_pos (B2R a)).
    destruct (Req_dec (B2R a) 0) as [Z|Z]; [exact Z|]. apply Rabs_pos_lt in Z. lra. }
  assert (H : forall p, In p pairs -> is_finite (IeeeSpice.term64 pow64 t s (fst p) (snd p)) = true /\ B2R (IeeeSpice.term64 pow64 t s (fst p) (snd p)) = 0).
  { intros p P. destruct (pairs_range p P) as [P1 P2]. unfold IeeeSpice.term64. fold a.
    destruct (npow_ok pow64 a (snd p) A ltac:(lia) Fa) as [F1 _]; [rewrite Za, Rabs_R0; lra|].
    destruct (npow_ok pow64 t (fst p) A ltac:(lia) Ft) as [F2 _]; [rewrite Zt, Rabs_R0; lra|].
    destruct (coeff_ok (fst p) (snd p)) as (F3 & R3 & _).
    destruct (Nat.eq_dec (snd p) 0) as [E2|E2]; [destruct (Nat.eq_dec (fst p) 0) as [E1|E1]|].
    - rewrite E1, E2 in *. cbn [npow64].
      assert (Z3 : B2R (coeff64 0 0) = 0).
      { assert (C0 : cq 0 0 = 0) by (unfold cq; cbn; lra). rewrite C0 in R3. unfold rel in R3. rewrite Rabs_R0, Rmult_0_r, Rminus_0_r in R3.
        assert (Q := Rabs_pos (B2R (coeff64 0 0))). destruct (Req_dec (B2R (coeff64 0 0)) 0) as [Z|Z]; [exact Z|]. apply Rabs_pos_lt in Z. lra. }
      apply mul_zero; [|exact F3|right; exact Z3]. destruct (of_Z_rep 1 eq_refl) as [G V].
      destruct (mul64_rep _ _ _ _ (conj G V) (conj G V)) as [F _]; [|exact F]. apply (fits_bp 1); [lia|]. rewrite Rabs_pos_eq by lra. change (bp 1) with 2. lra.
    - assert (Z := npow_zero pow64 t (fst p) A ltac:(lia) Ft Zt). destruct (mul_zero _ _ F1 F2 (or_intror Z)) as [F4 Z4]. apply mul_zero; [exact F4|exact F3|left; exact Z4].
    - assert (Z := npow_zero pow64 a (snd p) A ltac:(lia) Fa Za). destruct (mul_zero _ _ F1 F2 (or_introl Z)) as [F4 Z4]. apply mul_zero; [exact F4|exact F3|left; exact Z4]. }
  assert (SA : dabs (ones (terms64 pow64 t s)) = 0).
  { rewrite dabs_ones. unfold terms64. fold pairs. rewrite map_map. rewrite (map_ext_in _ (fun _ => 0)).
    - cbn. lra.
    - intros p P. rewrite (proj2 (H p P)). apply Rabs_R0. }
  destruct (tree_grid k _ _ T) as [F E].
  - intros z Z. apply in_map_iff in Z as (p & <- & P). apply (H p P).
  - rewrite SA, Rmult_0_l. apply bpow_gt_0.
  - assert (DZ : dsum (ones (terms64 pow64 t s)) = 0).
    { rewrite dsum_ones. unfold terms64. fold pairs. rewrite map_map. rewrite (map_ext_in _ (fun _ => 0)); [cbn; lra|]. intros p P. apply (H p P). }
    rewrite SA, DZ, Rmult_0_r, Rminus_0_r in E. unfold spice64. set (v := sum _) in *. assert (Q := Rabs_pos (B2R v)).
    destruct (Req_dec (B2R v) 0) as [Z|Z]; [exact Z|]. apply Rabs_pos_lt in Z. lra.
Qed.

(** The correctly rounded power. *)
Definition pow_nearest (x : f64) (n : nat) : f64 := nearest (B2R x ^ n).
Lemma pow_nearest_accurate : accurate_pow pow_nearest.
Proof.
  intros x n N F L. us. set (r := B2R x) in *.
  destruct (nearest_rep (r ^ n)) as [G V].
  { apply (fits_bp 60); [lia|]. eapply Rle_trans; [apply (pow_abs_le r n 1000); [lra|exact L]|]. apply Rle_trans with (1000 ^ 5); [apply Rle_pow; [lra|lia]|].
    change (bp 60) with 1152921504606846976. lra. }
  unfold pow_nearest. fold r. split; [exact G|]. rewrite V. split.
  - eapply Rle_trans; [apply fl_error|]. rewrite eight_u, <- bp_1000. assert (E := eta_bp). assert (P := Rabs_pos (r ^ n)). nra.
  - intros Z. rewrite Z, pow_ne_zero by lia. apply ProofsFloat.fl_0.
Qed.
