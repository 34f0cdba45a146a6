(** * PropertiesFloat18: C169 (validation of the cell area in binary64) *)
From Coq Require Import QArith Qreals Reals Lra Lia List ZArith Bool.
From Flocq Require Import Core IEEE754.BinarySingleNaN.
From Verif Require Import SpecFloat64 SpecIeee Ieee IeeeGlobal IeeeBudget IeeeArea ProofsFloat ProofsIeee ProofsFloat4 ProofsFloat6 ProofsFloat8 ProofsFloat9 ProofsFloat10 ProofsFloat11 ProofsFloat19 ProofsFloat21 ProofsFloat22 ProofsFloat25 PropertiesFloat11 PropertiesFloat16 ProofsFloat28.
Import ListNotations.
Local Open Scope R_scope.

(** The area of all cells; missing cells count nothing. *)
Definition total (areas : list f64) : R := rsum (map (fun x : f64 => if is_nan x then 0 else B2R x) areas).

Lemma total_ok sum areas k : (Z.of_nat (List.length areas) <= 2 ^ 100)%Z -> (Z.of_nat k <= 1000000)%Z -> (forall x, In x areas -> amount x) ->
  tree64 k (map skipna areas) (sum (map skipna areas)) ->
  let s := sum (map skipna areas) in
  is_finite s = true /\ 0 <= total areas /\ Rabs (B2R s - total areas) <= INR k * 1.12e-16 * total areas /\ 0 <= B2R s <= bp 400.
Proof.
  intros Hn Hk HA T s.
  assert (V : forall x : f64, B2R (skipna x) = if is_nan x then 0 else B2R x) by (intros x; unfold skipna; destruct (is_nan x); reflexivity).
  destruct (ProofsFloat21.sum_ok k (map skipna areas) s) as (Fs & Ns & Bs); [rewrite map_length; exact Hn|exact Hk|exact T| |].
  { intros x Hx. apply in_map_iff in Hx as (y & <- & Hy). rewrite V. destruct (HA y Hy) as [N|[F B]].
    - unfold skipna. rewrite N. split; [reflexivity|left; reflexivity].
    - assert (N : is_nan y = false) by (destruct y; [reflexivity|reflexivity|discriminate F|reflexivity]). unfold skipna. rewrite N. split; [exact F|]. destruct B as [B|[B1 B2]]; [left; exact B|right].
      assert (W : 2 ^ 100 = bp 100) by (change (bp 100) with (IZR (2 ^ 100)); rewrite pow_IZR; reflexivity). rewrite W in B1, B2.
      split; [eapply Rle_trans; [|exact B1]; rewrite <- bpow_opp; apply bpow_le; lia|eapply Rle_trans; [exact B2|]; apply bpow_le; lia]. }
  rewrite map_map in Ns. rewrite (map_ext _ _ V) in Ns. fold (total areas) in Ns.
  split; [exact Fs|]. split; [exact (proj1 (proj2 Ns))|]. split.
  - assert (R := rel_bound k 0 (total areas) (B2R s) ltac:(lia)). rewrite Nat.add_0_r in R. specialize (R Ns). cbn [INR] in R. rewrite Rplus_0_r in R. exact R.
  - destruct Bs as [->|[B1 B2]]; [split; [lra|apply bpow_ge_0]|]. assert (X := bpow_ge_0 radix2 (-400)). lra.
Qed.

(** ** C169: the decision is that of exact arithmetic unless the deviation is within [(k + 3) 1.12e-16 (S / r + 1)] of the tolerance;
    [k] bounds the number of additions a cell goes through. *)
Theorem C169_decision : forall sum areas k reference tolerance, (Z.of_nat (List.length areas) <= 2 ^ 100)%Z -> (Z.of_nat k <= 1000000)%Z -> (forall x, In x areas -> amount x) ->
  tree64 k (map skipna areas) (sum (map skipna areas)) -> is_finite reference = true -> / 2 ^ 100 <= B2R reference <= 2 ^ 100 -> is_finite tolerance = true ->
  let S := total areas in let r := B2R reference in let d := (INR k + 3) * 1.12e-16 * (S / r + 1) in
  (Rabs (S - r) / r < B2R tolerance - d -> validate_areacello64 sum areas reference tolerance = true) /\
  (B2R tolerance + d <= Rabs (S - r) / r -> validate_areacello64 sum areas reference tolerance = false).
Proof.
  intros sum areas k reference tolerance Hn Hk HA T Fr Br Ft S r d. us. destruct (total_ok sum areas k Hn Hk HA T) as (Fs & S0 & Es & Bs). fold S in S0, Es.
  unfold validate_areacello64. set (s := sum (map skipna areas)) in *. fold r in Br. assert (W : 2 ^ 100 = bp 100) by (change (bp 100) with (IZR (2 ^ 100)); rewrite pow_IZR; reflexivity). rewrite W in Br.
  assert (P100 := bpow_gt_0 radix2 100). assert (r0 : 0 < r) by (assert (0 < / bp 100) by (apply Rinv_0_lt_compat; lra); lra).
  assert (r4 : r <= bp 400) by (eapply Rle_trans; [apply Br|apply bpow_le; lia]).
  destruct (sum_rel s reference 400 ltac:(lia) Fs Fr ltac:(rewrite Rabs_pos_eq; lra) ltac:(fold r; rewrite Rabs_pos_eq; lra)) as [_ (Fx & Ex)].
  fold r in Ex. rewrite (Rabs_pos_eq (B2R s)), (Rabs_pos_eq r) in Ex by lra. set (x := (s - reference)%f64) in *.
  assert (Ax : Rabs (B2R x) <= 1.01 * (B2R s + r)).
  { replace (B2R x) with ((B2R x - (B2R s - r)) + (B2R s - r)) by ring. eapply Rle_trans; [apply Rabs_triang|]. assert (Rabs (B2R s - r) <= B2R s + r) by (apply Rabs_le; lra). assert (u * (B2R s + r) <= 0.01 * (B2R s + r)) by (apply Rmult_le_compat_r; lra). lra. }
  assert (Ir : 0 < / r) by (apply Rinv_0_lt_compat; exact r0).
  assert (I2 : / r <= bp 100) by (rewrite <- (Rinv_inv (bp 100)); apply Rinv_le_contravar; [apply Rinv_0_lt_compat; exact P100|lra]).
  assert (Aq : Rabs (B2R x / r) <= bp 600).
  { unfold Rdiv. rewrite Rabs_mult, (Rabs_pos_eq (/ r)) by lra. apply Rle_trans with (bp 402 * bp 100); [apply Rmult_le_compat; [apply Rabs_pos|lra| |exact I2]|rewrite <- bpow_plus; apply bpow_le; lia].
    eapply Rle_trans; [exact Ax|]. change 402%Z with (2 + 400)%Z. rewrite bpow_plus. change (bp 2) with 4. assert (0 < bp 400) by apply bpow_gt_0. lra. }
  destruct (div64_rep x reference _ _ (conj Fx eq_refl) (conj Fr eq_refl)) as [Fy Vy]; [fold r; lra|fold r; apply (fits_bp 600 _ ltac:(lia) Aq)|]. set (y := (x / reference)%f64) in *. fold r in Vy.
  assert (Ey := fl_error (B2R x / r)). rewrite <- Vy in Ey. assert (E0 : eta <= 1e-20 * u) by (apply ProofsFloat28.eta_uu).
  (* the whole error *)
  assert (Q : Rabs (B2R y - (S - r) / r) <= d).
  { set (q := S / r) in *. assert (q0 : 0 <= q) by (apply Rmult_le_pos; lra). assert (K := pos_INR k).
    assert (Kb : INR k <= 1000000) by (rewrite INR_IZR_INZ; apply IZR_le; exact Hk).
    assert (Eq : Rabs (B2R s / r - q) <= INR k * 1.12e-16 * q).
    { unfold q, Rdiv. replace (B2R s * / r - S * / r) with ((B2R s - S) * / r) by ring. rewrite Rabs_mult, (Rabs_pos_eq (/ r)) by lra. apply Rle_trans with (INR k * 1.12e-16 * S * / r); [apply Rmult_le_compat_r; lra|lra]. }
    assert (Kq : 0 <= INR k * 1.12e-16 * q <= 0.001 * q).
    { split; [apply Rmult_le_pos; [apply Rmult_le_pos; lra|exact q0]|apply Rmult_le_compat_r; lra]. }
    assert (Sq : 0 <= B2R s / r <= 1.001 * q) by (split; [apply Rmult_le_pos; lra|apply Rabs_le_inv in Eq; lra]).
    assert (Ex' : Rabs (B2R x / r - (B2R s / r - 1)) <= u * (B2R s / r + 1)).
    { replace (B2R x / r - (B2R s / r - 1)) with ((B2R x - (B2R s - r)) * / r) by (field; lra). rewrite Rabs_mult, (Rabs_pos_eq (/ r)) by lra.
      apply Rle_trans with (u * (B2R s + r) * / r); [apply Rmult_le_compat_r; lra|right; field; lra]. }
    assert (Ax' : Rabs (B2R x / r) <= 1.01 * (B2R s / r + 1)).
    { unfold Rdiv at 1. rewrite Rabs_mult, (Rabs_pos_eq (/ r)) by lra. apply Rle_trans with (1.01 * (B2R s + r) * / r); [apply Rmult_le_compat_r; lra|]. assert (r * / r = 1) by (apply Rinv_r; lra). unfold Rdiv. lra. }
    assert (U3 : u * Rabs (B2R x / r) <= u * (1.01 * (B2R s / r + 1))) by (apply Rmult_le_compat_l; lra).
    assert (U4 : u * (B2R s / r) <= u * (1.001 * q)) by (apply Rmult_le_compat_l; lra).
    replace ((S - r) / r) with (q - 1) by (unfold q; field; lra).
    replace (B2R y - (q - 1)) with ((B2R y - B2R x / r) + ((B2R x / r - (B2R s / r - 1)) + (B2R s / r - q))) by ring.
    eapply Rle_trans; [apply Rabs_triang|]. assert (T2 := Rabs_triang (B2R x / r - (B2R s / r - 1)) (B2R s / r - q)).
    assert (Uq : 0 <= u * q <= 1.12e-16 * q) by (split; [apply Rmult_le_pos; lra|apply Rmult_le_compat_r; [lra|rewrite U2; lra]]). assert (U5 : u <= 1.12e-16) by (rewrite U2; lra).
    unfold d. fold q. replace ((INR k + 3) * 1.12e-16 * (q + 1)) with (INR k * 1.12e-16 * q + INR k * 1.12e-16 + 3 * (1.12e-16 * q) + 3 * 1.12e-16) by lra.
    assert (0 <= INR k * 1.12e-16) by (apply Rmult_le_pos; lra). lra. }
  assert (Ab : Rabs ((S - r) / r) = Rabs (S - r) / r) by (unfold Rdiv; rewrite Rabs_mult, (Rabs_pos_eq (/ r)) by lra; reflexivity).
  assert (Tr' : - d <= Rabs (B2R y) - Rabs (S - r) / r <= d) by (assert (X := Rabs_triang_inv2 (B2R y) ((S - r) / r)); rewrite Ab in X; apply Rabs_le_inv; lra).
  assert (Fb : is_finite (Babs y) = true) by (rewrite is_finite_Babs; exact Fy).
  rewrite Bltb_correct by assumption. rewrite B2R_Babs. split; intros H; [apply Rlt_bool_true|apply Rlt_bool_false]; lra.
Qed.
Print Assumptions C169_decision.

(** With the default arguments. *)
Theorem C169_default : forall sum areas k, (Z.of_nat (List.length areas) <= 2 ^ 100)%Z -> (Z.of_nat k <= 1000000)%Z -> (forall x, In x areas -> amount x) ->
  tree64 k (map skipna areas) (sum (map skipna areas)) ->
  (3.538888e14 <= total areas <= 3.683331e14 -> validate_areacello64 sum areas default_reference64 default_tolerance64 = true) /\
  (total areas <= 3.538886e14 \/ 3.683332e14 <= total areas -> validate_areacello64 sum areas default_reference64 default_tolerance64 = false).
Proof.
  intros sum areas k Hn Hk HA T. us. destruct (of_Z_rep 361110920000000 eq_refl) as [Fr Vr]. fold default_reference64 in Fr, Vr. assert (S0 := proj1 (proj2 (total_ok sum areas k Hn Hk HA T))).
  assert (Vt : is_finite default_tolerance64 = true /\ Rabs (B2R default_tolerance64 - 0.02) <= 1e-17).
  { split; [reflexivity|]. assert (E : B2SF default_tolerance64 = SpecFloat.S754_finite false 5764607523034235 (-58)) by (vm_compute; reflexivity).
    rewrite <- SF2R_B2SF, E. unfold SF2R, F2R, Defs.Fnum, Defs.Fexp, cond_Zopp. change (bpow radix2 (-58)) with (/ 288230376151711744). apply Rabs_le. lra. }
  destruct Vt as [Ft Et]. apply Rabs_le_inv in Et.
  assert (B : / 2 ^ 100 <= B2R default_reference64 <= 2 ^ 100).
  { rewrite Vr. assert (1 <= 2 ^ 100) by (apply pow_R1_Rle; lra). split; [apply Rle_trans with (/ 1); [apply Rinv_le_contravar; lra|lra]|apply Rle_trans with (2 ^ 50); [lra|apply Rle_pow; [lra|lia]]]. }
  destruct (C169_decision sum areas k _ _ Hn Hk HA T Fr B Ft) as [D1 D2]. rewrite Vr in D1, D2. set (S := total areas) in *.
  assert (K : 0 <= (INR k + 3) * 1.12e-16 <= 1.2e-10) by (assert (P := pos_INR k); assert (INR k <= 1000000) by (rewrite INR_IZR_INZ; apply IZR_le; exact Hk); lra).
  assert (Q0 : 0 <= S / 361110920000000) by (apply Rmult_le_pos; lra).
  assert (KD : (INR k + 3) * 1.12e-16 * (S / 361110920000000 + 1) <= 1.2e-10 * (S / 361110920000000 + 1)) by (apply Rmult_le_compat_r; lra).
  split; intros H.
  - apply D1. destruct (Rle_or_lt 0 (S - 361110920000000)) as [L|L]; [rewrite Rabs_pos_eq by lra|rewrite Rabs_left by lra]; lra.
  - apply D2. destruct H as [H|H]; [rewrite Rabs_left by lra|rewrite Rabs_pos_eq by lra]; lra.
Qed.
Print Assumptions C169_default.

(** A sum that is not finite, as with an infinite cell, is rejected. *)
Theorem C169_not_finite : forall sum areas reference tolerance, is_finite (sum (map skipna areas)) = false -> is_finite reference = true -> is_finite tolerance = true -> B2R reference <> 0 ->
  validate_areacello64 sum areas reference tolerance = false.
Proof.
  intros sum areas reference tolerance H Fr Ft R0. unfold validate_areacello64. destruct (sum (map skipna areas)) as [s|s| |s m e B]; try discriminate H;
    destruct reference as [t|t| |t m' e' B']; try discriminate Fr; try (cbn in R0; lra); destruct tolerance as [w|w| |w m'' e'' B'']; try discriminate Ft; try destruct s; try destruct t; try destruct w; reflexivity.
Qed.
Print Assumptions C169_not_finite.

(** Four cells of an ocean and one of land; the sphere itself is rejected. *)
Definition ocean : list f64 := [of_Z 90000000000000; B754_nan; of_Z 90000000000000; of_Z 90000000000000; of_Z 90000000000000].
Definition globe : list f64 := [of_Z 255000000000000; of_Z 255000000000000].
Lemma amount_Z z : (1 <= z < 2 ^ 53)%Z -> amount (of_Z z).
Proof.
  intros H. destruct (of_Z_rep z ltac:(lia)) as [F V]. right. split; [exact F|]. right. rewrite V. assert (P : 1 <= 2 ^ 100) by (apply pow_R1_Rle; lra).
  assert (L : 1 <= IZR z <= IZR (2 ^ 53)) by (split; apply IZR_le; lia). split; [apply Rle_trans with (/ 1); [apply Rinv_le_contravar; lra|lra]|].
  eapply Rle_trans; [apply L|]. rewrite <- pow_IZR with (n := 53%nat). apply Rle_pow; [lra|lia].
Qed.
Example C169_case : (forall x, In x (ocean ++ globe) -> amount x) /\
  tree64 4 (map skipna ocean) (seq_sum (map skipna ocean)) /\ tree64 1 (map skipna globe) (seq_sum (map skipna globe)) /\
  total ocean = 360000000000000 /\ total globe = 510000000000000 /\
  validate_areacello64 seq_sum ocean default_reference64 default_tolerance64 = true /\ validate_areacello64 seq_sum globe default_reference64 default_tolerance64 = false.
Proof.
  assert (A : forall x, In x (ocean ++ globe) -> amount x).
  { unfold ocean, globe. cbn [app In]. intros x H. repeat (destruct H as [<-|H]; [first [left; reflexivity|apply amount_Z; lia]|]). destruct H. }
  assert (T1 : tree64 4 (map skipna ocean) (seq_sum (map skipna ocean))).
  { unfold seq_sum, ocean. cbn [map tl hd fold_left]. generalize (skipna (of_Z 90000000000000)), (skipna B754_nan). intros a b.
    apply (tree_add 3 [a; b; a; a] [a]); [|apply tree_one]. apply (tree_add 2 [a; b; a] [a]); [|apply tree_one]. apply (tree_add 1 [a; b] [a]); [|apply tree_one]. apply (tree_add 0 [a] [b]); apply tree_one. }
  assert (T2 : tree64 1 (map skipna globe) (seq_sum (map skipna globe))).
  { unfold seq_sum, globe. cbn [map tl hd fold_left]. generalize (skipna (of_Z 255000000000000)). intros a. apply (tree_add 0 [a] [a]); apply tree_one. }
  assert (V : forall z, (1 <= z < 2 ^ 53)%Z -> (if is_nan (of_Z z) then 0 else B2R (of_Z z)) = IZR z).
  { intros z H. destruct (of_Z_rep z ltac:(lia)) as [F E]. rewrite E. destruct (of_Z z); try reflexivity; discriminate F. }
  assert (E1 : total ocean = 360000000000000) by (unfold total, ocean; cbn [map]; rewrite !V by lia; cbn; lra).
  assert (E2 : total globe = 510000000000000) by (unfold total, globe; cbn [map]; rewrite !V by lia; cbn; lra).
  split; [exact A|]. split; [exact T1|]. split; [exact T2|]. split; [exact E1|]. split; [exact E2|]. split.
  - refine (proj1 (C169_default seq_sum ocean 4 _ _ _ T1) _); [cbn; lia|lia|intros x Hx; apply A, in_or_app; left; exact Hx|rewrite E1; lra].
  - refine (proj2 (C169_default seq_sum globe 1 _ _ _ T2) _); [cbn; lia|lia|intros x Hx; apply A, in_or_app; right; exact Hx|rewrite E2; right; lra].
Qed.
