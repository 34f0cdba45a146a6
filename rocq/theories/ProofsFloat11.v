(** * ProofsFloat11: weighted means in binary64 (proofs only) *)
From Coq Require Import Reals Lra Lia List ZArith Bool Permutation.
From Flocq Require Import Core IEEE754.BinarySingleNaN Relative.
From Verif Require Import Num SpecFloat64 Ieee IeeeGlobal IeeeTime SpecIeee ProofsFloat ProofsIeee ProofsFloat4 ProofsFloat5 ProofsFloat8.
Import ListNotations.
Local Open Scope R_scope.

(** Multiples of the smallest positive number: rounding them has a relative error only. *)
Definition grid (r : R) : Prop := exists m : Z, r = IZR m * bpow radix2 (-1074).
Lemma grid_add x y : grid x -> grid y -> grid (x + y).
Proof. intros [m ->] [n ->]. exists (m + n)%Z. rewrite plus_IZR. ring. Qed.
Lemma grid_mul w x : grid x -> grid (IZR w * x).
Proof. intros [m ->]. exists (w * m)%Z. rewrite mult_IZR. ring. Qed.
Lemma grid_B2R (x : f64) : grid (B2R x).
Proof.
  assert (G := generic_format_B2R 53 1024 x).
  apply (FLT_format_generic radix2 (-1074) 53) in G. destruct G as [[m e] E1 _ E3]. cbn in E3.
  exists (m * 2 ^ (e + 1074))%Z. rewrite E1. unfold F2R. cbn [Fnum Fexp]. rewrite mult_IZR.
  change (2 ^ (e + 1074))%Z with (radix2 ^ (e + 1074))%Z. rewrite (IZR_Zpower radix2 (e + 1074)) by lia. rewrite Rmult_assoc, <- bpow_plus. f_equal. f_equal. lia.
Qed.
Lemma grid_fl r : grid r -> Rabs (fl r - r) <= u * Rabs r.
Proof.
  intros [m E]. destruct (Rle_or_lt (bpow radix2 (-1022)) (Rabs r)) as [H|H].
  - assert (G := relative_error_N_FLT radix2 (-1074) 53 eq_refl (fun z => negb (Z.even z)) r H).
    unfold u. exact G.
  - assert (F : generic_format radix2 (FLT_exp (-1074) 53) r).
    { apply generic_format_FLT. exists (Float radix2 m (-1074)); [exact E| |cbn; lia].
      cbn. apply lt_IZR. rewrite abs_IZR. rewrite E, Rabs_mult, (Rabs_pos_eq (bpow radix2 (-1074))) in H by apply bpow_ge_0.
      apply Rmult_lt_reg_r with (bpow radix2 (-1074)); [apply bpow_gt_0|]. eapply Rlt_le_trans; [exact H|].
      apply Rle_trans with (bpow radix2 53 * bpow radix2 (-1074)); [rewrite <- bpow_plus; apply bpow_le; lia|right; reflexivity]. }
    unfold fl. rewrite round_generic; [|apply valid_rnd_N|exact F]. rewrite Rminus_eq_0, Rabs_R0.
    apply Rmult_le_pos; [left; apply u_pos|apply Rabs_pos].
Qed.

Definition dsum (l : list (Z * f64)) : R := rsum (map (fun p : Z * f64 => IZR (fst p) * B2R (snd p)) l).
Definition dabs (l : list (Z * f64)) : R := rsum (map (fun p : Z * f64 => IZR (fst p) * Rabs (B2R (snd p))) l).
Definition wok (p : Z * f64) : Prop := (0 <= fst p < 2 ^ 53)%Z /\ is_finite (snd p) = true.
Lemma dabs_pos l : (forall p, In p l -> wok p) -> 0 <= dabs l.
Proof. intros H. apply rsum_nonneg. intros p P. destruct (H p P) as [[A _] _]. apply Rmult_le_pos; [apply IZR_le, A|apply Rabs_pos]. Qed.
Lemma dsum_abs l : (forall p, In p l -> wok p) -> Rabs (dsum l) <= dabs l.
Proof.
  induction l as [|p l IH]; intros H; unfold dsum, dabs in *; cbn; [rewrite Rabs_R0; lra|].
  eapply Rle_trans; [apply Rabs_triang|]. apply Rplus_le_compat; [|apply IH; intros q Q; apply H; right; exact Q].
  rewrite Rabs_mult. destruct (H p (or_introl eq_refl)) as [[A _] _]. right. f_equal. apply Rabs_pos_eq, IZR_le, A.
Qed.
Lemma fma64_rep w x s a b d : rep64 w a -> rep64 x b -> rep64 s d -> fits64 (fl (a * b + d)) -> rep64 (fma64 w x s) (fl (a * b + d)).
Proof.
  intros [F1 <-] [F2 <-] [F3 <-] L. assert (H := Bfma_correct 53 1024 prec53 emax1024 mode_NE w x s F1 F2 F3). cbv zeta in H.
  change (round radix2 (SpecFloat.fexp 53 1024) (round_mode mode_NE)) with fl in H.
  rewrite Rlt_bool_true in H by exact L. destruct H as (H1 & H2 & _). split; [exact H2|exact H1].
Qed.
Lemma round_step r D E M K : grid r -> 1 <= K -> 0 <= M -> Rabs (r - D) <= E -> E <= (K - 1) * M -> Rabs D <= M ->
  Rabs (fl r - D) <= (K * (1 + u) - 1) * M /\ Rabs (fl r) <= K * (1 + u) * M.
Proof.
  intros G H1 H2 H3 H4 H5. assert (U := u_pos). assert (F := grid_fl r G).
  assert (B : Rabs r <= K * M). { replace r with ((r - D) + D) by ring. eapply Rle_trans; [apply Rabs_triang|]. lra. }
  assert (X : Rabs (fl r - D) <= (K * (1 + u) - 1) * M).
  { replace (fl r - D) with ((fl r - r) + (r - D)) by ring. eapply Rle_trans; [apply Rabs_triang|]. nra. }
  split; [exact X|]. replace (fl r) with ((fl r - D) + D) by ring. eapply Rle_trans; [apply Rabs_triang|]. lra.
Qed.
Lemma dot_near k l s : dot64 k l s -> (forall p, In p l -> wok p) -> dabs l * Fac k < bpow radix2 1024 ->
  is_finite s = true /\ Rabs (B2R s - dsum l) <= (Fac k - 1) * dabs l.
Proof.
  induction 1 as [k|k w x|k l1 l2 s1 s2 H1 IH1 H2 IH2|k l w x s H IH|k l l' s P H IH]; intros F L; assert (U := u_pos).
  - split; [reflexivity|]. unfold dsum, dabs. cbn. rewrite Rminus_0_r, Rabs_R0. lra.
  - destruct (F _ (or_introl eq_refl)) as [A B]. cbn in A, B. rewrite Fac_S in *. assert (K := Fac_1 k).
    assert (PM := dabs_pos _ F). assert (AM := dsum_abs _ F).
    destruct (round_step (IZR w * B2R x) (dsum [(w, x)]) 0 (dabs [(w, x)]) (Fac k)) as [R1 R2].
    { apply grid_mul, grid_B2R. } { exact K. } { exact PM. }
    { unfold dsum. cbn. rewrite Rplus_0_r, Rminus_eq_0, Rabs_R0. lra. } { nra. } { exact AM. }
    destruct (mul64_rep (of_Z w) x _ _ (of_Z_rep w ltac:(lia)) (conj B eq_refl)) as [Q V].
    { unfold fits64. eapply Rle_lt_trans; [exact R2|]. eapply Rle_lt_trans; [|exact L]. right. ring. }
    split; [exact Q|]. rewrite V. exact R1.
  - assert (F1 : forall p, In p l1 -> wok p) by (intros p Hp; apply F, in_or_app; left; exact Hp).
    assert (F2 : forall p, In p l2 -> wok p) by (intros p Hp; apply F, in_or_app; right; exact Hp).
    assert (P1 := dabs_pos _ F1). assert (P2 := dabs_pos _ F2). assert (D1 := dsum_abs _ F1). assert (D2 := dsum_abs _ F2).
    assert (EA : dabs (l1 ++ l2) = dabs l1 + dabs l2) by (unfold dabs; rewrite map_app; apply rsum_app).
    assert (ES : dsum (l1 ++ l2) = dsum l1 + dsum l2) by (unfold dsum; rewrite map_app; apply rsum_app).
    rewrite EA, ES, Fac_S in *. assert (K := Fac_1 k).
    assert (B : (dabs l1 + dabs l2) * Fac k < bpow radix2 1024).
    { eapply Rle_lt_trans; [|exact L]. rewrite <- Rmult_assoc. assert (0 <= (dabs l1 + dabs l2) * Fac k) by (apply Rmult_le_pos; lra). nra. }
    destruct (IH1 F1) as [Q1 N1]; [nra|]. destruct (IH2 F2) as [Q2 N2]; [nra|].
    destruct (round_step (B2R s1 + B2R s2) (dsum l1 + dsum l2) ((Fac k - 1) * (dabs l1 + dabs l2)) (dabs l1 + dabs l2) (Fac k)) as [R1 R2].
    { apply grid_add; apply grid_B2R. } { exact K. } { lra. }
    { replace (B2R s1 + B2R s2 - (dsum l1 + dsum l2)) with ((B2R s1 - dsum l1) + (B2R s2 - dsum l2)) by ring.
      eapply Rle_trans; [apply Rabs_triang|]. lra. }
    { lra. } { eapply Rle_trans; [apply Rabs_triang|]. lra. }
    destruct (add64_rep s1 s2 _ _ (conj Q1 eq_refl) (conj Q2 eq_refl)) as [Q V].
    { unfold fits64. eapply Rle_lt_trans; [exact R2|]. eapply Rle_lt_trans; [|exact L]. right. ring. }
    split; [exact Q|]. rewrite V. exact R1.
  - assert (F1 : forall p, In p l -> wok p) by (intros p Hp; apply F; right; exact Hp).
    destruct (F _ (or_introl eq_refl)) as [A B]. cbn in A, B.
    assert (P1 := dabs_pos _ F1). assert (D1 := dsum_abs _ F1). assert (PM := dabs_pos _ F). assert (AM := dsum_abs _ F).
    assert (EA : dabs ((w, x) :: l) = IZR w * Rabs (B2R x) + dabs l) by reflexivity.
    assert (ES : dsum ((w, x) :: l) = IZR w * B2R x + dsum l) by reflexivity.
    assert (W : 0 <= IZR w * Rabs (B2R x)) by (apply Rmult_le_pos; [apply IZR_le; lia|apply Rabs_pos]).
    rewrite Fac_S in *. assert (K := Fac_1 k).
    assert (B' : dabs l * Fac k < bpow radix2 1024).
    { eapply Rle_lt_trans; [|exact L]. rewrite <- Rmult_assoc. rewrite EA.
      assert (0 <= dabs l * Fac k) by (apply Rmult_le_pos; lra). assert (0 <= IZR w * Rabs (B2R x) * Fac k) by (apply Rmult_le_pos; lra). nra. }
    destruct (IH F1 B') as [Q1 N1].
    destruct (round_step (IZR w * B2R x + B2R s) (dsum ((w, x) :: l)) ((Fac k - 1) * dabs l) (dabs ((w, x) :: l)) (Fac k)) as [R1 R2].
    { apply grid_add; [apply grid_mul|]; apply grid_B2R. } { exact K. } { exact PM. }
    { rewrite ES. replace (IZR w * B2R x + B2R s - (IZR w * B2R x + dsum l)) with (B2R s - dsum l) by ring. exact N1. }
    { rewrite EA. nra. } { exact AM. }
    destruct (fma64_rep (of_Z w) x s _ _ _ (of_Z_rep w ltac:(lia)) (conj B eq_refl) (conj Q1 eq_refl)) as [Q V].
    { unfold fits64. eapply Rle_lt_trans; [exact R2|]. eapply Rle_lt_trans; [|exact L]. right. ring. }
    split; [exact Q|]. rewrite V. exact R1.
  - assert (E1 : dabs l = dabs l') by (apply rsum_perm, Permutation_map, P).
    assert (E2 : dsum l = dsum l') by (apply rsum_perm, Permutation_map, P).
    rewrite <- E1, <- E2 in *. apply IH; [|exact L]. intros x Hx. apply F. eapply Permutation_in; eassumption.
Qed.

(** The same for plain sums. *)
Definition ones (l : list f64) : list (Z * f64) := map (fun x => (1%Z, x)) l.
Lemma tree_grid k l s : tree64 k l s -> (forall x, In x l -> is_finite x = true) -> dabs (ones l) * Fac k < bpow radix2 1024 ->
  is_finite s = true /\ Rabs (B2R s - dsum (ones l)) <= (Fac k - 1) * dabs (ones l).
Proof.
  induction 1 as [k x|k l1 l2 s1 s2 H1 IH1 H2 IH2|k l l' s P H IH]; intros F L; assert (U := u_pos).
  - split; [apply F; left; reflexivity|]. unfold dsum, dabs. cbn. rewrite !Rmult_1_l, !Rplus_0_r, Rminus_eq_0, Rabs_R0.
    assert (K := Fac_1 k). apply Rmult_le_pos; [lra|apply Rabs_pos].
  - assert (G : forall l, (forall x, In x l -> is_finite x = true) -> forall p, In p (ones l) -> wok p).
    { intros l H p Hp. apply in_map_iff in Hp. destruct Hp as (x & <- & Hx). split; [cbn; lia|apply H, Hx]. }
    assert (F1 : forall p, In p l1 -> is_finite p = true) by (intros p Hp; apply F, in_or_app; left; exact Hp).
    assert (F2 : forall p, In p l2 -> is_finite p = true) by (intros p Hp; apply F, in_or_app; right; exact Hp).
    assert (P1 := dabs_pos _ (G _ F1)). assert (P2 := dabs_pos _ (G _ F2)).
    assert (D1 := dsum_abs _ (G _ F1)). assert (D2 := dsum_abs _ (G _ F2)).
    assert (EA : dabs (ones (l1 ++ l2)) = dabs (ones l1) + dabs (ones l2)) by (unfold dabs, ones; rewrite !map_app; apply rsum_app).
    assert (ES : dsum (ones (l1 ++ l2)) = dsum (ones l1) + dsum (ones l2)) by (unfold dsum, ones; rewrite !map_app; apply rsum_app).
    rewrite EA, ES, Fac_S in *. assert (K := Fac_1 k).
    set (m1 := dabs (ones l1)) in *. set (m2 := dabs (ones l2)) in *. set (d1 := dsum (ones l1)) in *. set (d2 := dsum (ones l2)) in *.
    assert (B : (m1 + m2) * Fac k < bpow radix2 1024).
    { eapply Rle_lt_trans; [|exact L]. rewrite <- Rmult_assoc. assert (0 <= (m1 + m2) * Fac k) by (apply Rmult_le_pos; lra). nra. }
    destruct (IH1 F1) as [Q1 N1]; [nra|]. destruct (IH2 F2) as [Q2 N2]; [nra|].
    destruct (round_step (B2R s1 + B2R s2) (d1 + d2) ((Fac k - 1) * (m1 + m2)) (m1 + m2) (Fac k)) as [R1 R2].
    { apply grid_add; apply grid_B2R. } { exact K. } { lra. }
    { replace (B2R s1 + B2R s2 - (d1 + d2)) with ((B2R s1 - d1) + (B2R s2 - d2)) by ring.
      eapply Rle_trans; [apply Rabs_triang|]. lra. }
    { lra. } { eapply Rle_trans; [apply Rabs_triang|]. lra. }
    destruct (add64_rep s1 s2 _ _ (conj Q1 eq_refl) (conj Q2 eq_refl)) as [Q V].
    { unfold fits64. eapply Rle_lt_trans; [exact R2|]. eapply Rle_lt_trans; [|exact L]. right. ring. }
    split; [exact Q|]. rewrite V. exact R1.
  - assert (E1 : dabs (ones l) = dabs (ones l')) by (apply rsum_perm, Permutation_map, Permutation_map, P).
    assert (E2 : dsum (ones l) = dsum (ones l')) by (apply rsum_perm, Permutation_map, Permutation_map, P).
    rewrite <- E1, <- E2 in *. apply IH; [|exact L]. intros x Hx. apply F. eapply Permutation_in; eassumption.
Qed.

(** Division by the sum of the weights. *)
Lemma div_close (s : f64) (w : Z) D M K : is_finite s = true -> (0 < w < 2 ^ 53)%Z -> 1 <= K -> 0 <= M -> Rabs D <= M ->
  Rabs (B2R s - D) <= (K - 1) * M -> K * (1 + u) * M + 1 < bpow radix2 1024 ->
  is_finite (s / of_Z w)%f64 = true /\ Rabs (B2R (s / of_Z w)%f64 - D / IZR w) <= (K * (1 + u) - 1) * (M / IZR w) + eta.
Proof.
  intros F W HK HM HD HS L. assert (U := u_pos). assert (P : 1 <= IZR w) by (apply IZR_le; lia).
  assert (I : 0 < / IZR w <= 1). { split; [apply Rinv_0_lt_compat; lra|]. rewrite <- Rinv_1. apply Rinv_le_contravar; lra. }
  set (q := B2R s / IZR w). set (d := D / IZR w). set (m := M / IZR w).
  assert (Em : 0 <= m <= M). { unfold m, Rdiv. split; [apply Rmult_le_pos; lra|]. nra. }
  assert (Ed : Rabs d <= m). { unfold d, m, Rdiv. rewrite Rabs_mult, (Rabs_pos_eq (/ IZR w)) by lra. apply Rmult_le_compat_r; lra. }
  assert (Eq : Rabs (q - d) <= (K - 1) * m).
  { replace (q - d) with ((B2R s - D) * / IZR w) by (unfold q, d, Rdiv; ring). rewrite Rabs_mult, (Rabs_pos_eq (/ IZR w)) by lra.
    unfold m, Rdiv. rewrite <- Rmult_assoc. apply Rmult_le_compat_r; lra. }
  assert (Bq : Rabs q <= K * m). { replace q with ((q - d) + d) by ring. eapply Rle_trans; [apply Rabs_triang|]. lra. }
  assert (X : Rabs (fl q - d) <= (K * (1 + u) - 1) * m + eta).
  { replace (fl q - d) with ((fl q - q) + (q - d)) by ring. eapply Rle_trans; [apply Rabs_triang|]. assert (E := fl_error q). nra. }
  destruct (div64_rep s (of_Z w) _ _ (conj F eq_refl) (of_Z_rep w ltac:(lia))) as [Q V]; [lra| |].
  { unfold fits64. fold q. replace (fl q) with ((fl q - d) + d) by ring. eapply Rle_lt_trans; [apply Rabs_triang|].
    assert (ET : eta <= 1) by (assert (H := eta_small); lra). assert (K * (1 + u) * m <= K * (1 + u) * M) by (apply Rmult_le_compat_l; [nra|lra]). lra. }
  split; [exact Q|]. rewrite V. exact X.
Qed.
