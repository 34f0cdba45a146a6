(** * ProofsFloat12: time averages in binary64 against the exact model; exact averages of constants (proofs only) *)
From Coq Require Import Reals Lra Lia List ZArith Bool Permutation String.
From Flocq Require Import Core IEEE754.BinarySingleNaN.
From Verif Require Import Num NumFacts Arr Calendar TimeAvg SpecFloat64 Ieee IeeeGlobal IeeeTime SpecIeee ProofsFloat ProofsIeee ProofsFloat4 ProofsFloat5
  ProofsFloat8 ProofsFloat9 ProofsFloat11.
Import ListNotations.
Local Open Scope R_scope.

(** Missing, or finite and not larger than [B]. *)
Definition datum (B : R) (x : f64) : Prop := x = B754_nan \/ (is_finite x = true /\ Rabs (B2R x) <= B).
Lemma datum_fill B x : 0 <= B -> datum B x -> is_finite (skipna x) = true /\ Rabs (B2R (skipna x)) <= B.
Proof. intros P [->|[F L]]; [split; [reflexivity|cbn; rewrite Rabs_R0; exact P]|]. destruct x; try discriminate F; split; assumption. Qed.
Definition filled (l : list (Z * f64)) : list (Z * f64) := map (fun p : Z * f64 => (fst p, skipna (snd p))) l.
Definition vok (B : R) (p : Z * f64) : Prop := (0 <= fst p < 2 ^ 53)%Z /\ datum B (snd p).
Lemma valid_cons (p : Z * f64) l : valid_weight (p :: l) = if is_nan (snd p) then valid_weight l else (fst p + valid_weight l)%Z.
Proof. reflexivity. Qed.
Lemma valid_nonneg B l : (forall p, In p l -> vok B p) -> (0 <= valid_weight l)%Z.
Proof.
  induction l as [|p l IH]; intros H; [cbn; lia|]. rewrite valid_cons. assert (I := IH (fun q Q => H q (or_intror Q))).
  destruct (H p (or_introl eq_refl)) as [A _]. destruct (is_nan (snd p)); lia.
Qed.
Lemma filled_abs B l : 0 <= B -> (forall p, In p l -> vok B p) -> dabs (filled l) <= B * IZR (valid_weight l).
Proof.
  intros P. induction l as [|p l IH]; intros H; [unfold dabs; cbn; lra|]. rewrite valid_cons.
  change (dabs (filled (p :: l))) with (IZR (fst p) * Rabs (B2R (skipna (snd p))) + dabs (filled l)).
  assert (I := IH (fun q Q => H q (or_intror Q))). destruct (H p (or_introl eq_refl)) as [A D].
  assert (Wp : 0 <= IZR (fst p)) by (apply IZR_le; lia).
  destruct D as [E|[F L]].
  - rewrite E. cbn [is_nan skipna zero B2R]. rewrite Rabs_R0. lra.
  - assert (N : is_nan (snd p) = false) by (destruct (snd p); try discriminate F; reflexivity).
    unfold skipna. rewrite N, plus_IZR.
    assert (IZR (fst p) * Rabs (B2R (snd p)) <= IZR (fst p) * B) by (apply Rmult_le_compat_l; lra). lra.
Qed.
Lemma of_f64_fill B x : datum B x -> nan0 (of_f64 x) = Fin (B2R (skipna x)).
Proof. intros [->|[F L]]; [reflexivity|]. destruct x; try discriminate F; reflexivity. Qed.
Lemma of_f64_null B x : datum B x -> notnull (of_f64 x) = negb (is_nan x).
Proof. intros [->|[F L]]; [reflexivity|]. destruct x; try discriminate F; reflexivity. Qed.
Definition exact_list (l : list (Z * f64)) : list (R * fval) := map (fun p : Z * f64 => (IZR (fst p), of_f64 (snd p))) l.
Lemma exact_weights B l : (forall p, In p l -> vok B p) ->
  lsum (map (fun p => fmul (Fin (fst p)) (fbool (notnull (snd p)))) (exact_list l)) = Fin (IZR (valid_weight l)).
Proof.
  induction l as [|p l IH]; intros H; [reflexivity|]. rewrite valid_cons. unfold exact_list in *. cbn [map fold_right lsum].
  fold (lsum (map (fun p => fmul (Fin (fst p)) (fbool (notnull (snd p)))) (map (fun p : Z * f64 => (IZR (fst p), of_f64 (snd p))) l))).
  rewrite (IH (fun q Q => H q (or_intror Q))). destruct (H p (or_introl eq_refl)) as [_ D]. cbn [fst snd]. rewrite (of_f64_null B _ D).
  destruct (is_nan (snd p)); cbn [negb fbool fmul fadd]; [|rewrite plus_IZR]; f_equal; ring.
Qed.
Lemma exact_products B l : (forall p, In p l -> vok B p) ->
  lsum (map (fun p => fmul (Fin (fst p)) (nan0 (snd p))) (exact_list l)) = Fin (dsum (filled l)).
Proof.
  induction l as [|p l IH]; intros H; [reflexivity|]. unfold exact_list, dsum, filled in *. cbn [map lsum fold_right].
  fold (lsum (map (fun p => fmul (Fin (fst p)) (nan0 (snd p))) (map (fun p : Z * f64 => (IZR (fst p), of_f64 (snd p))) l))).
  rewrite (IH (fun q Q => H q (or_intror Q))). destruct (H p (or_introl eq_refl)) as [_ D]. cbn [fst snd]. rewrite (of_f64_fill B _ D). reflexivity.
Qed.
Lemma wmean_exact B l : (forall p, In p l -> vok B p) ->
  wmean (exact_list l) = if (valid_weight l =? 0)%Z then NaN else Fin (dsum (filled l) / IZR (valid_weight l)).
Proof.
  intros H. unfold wmean. rewrite (exact_weights B), (exact_products B) by exact H. cbn [feqb].
  destruct (Z.eqb_spec (valid_weight l) 0) as [E|N].
  - rewrite E, Reqb_refl. reflexivity.
  - assert (IZR (valid_weight l) <> 0) by (apply not_0_IZR, N). rewrite (proj2 (Reqb_false _ _)) by assumption. apply fdiv_Fin. assumption.
Qed.

(** Sizes. *)
Lemma big300 x : x <= 10 ^ 307 -> x + 1 < bpow radix2 1024.
Proof.
  intros H. apply Rle_lt_trans with (10 ^ 308).
  - replace (10 ^ 308) with (10 * 10 ^ 307) by (cbn [pow]; ring). assert (1 <= 10 ^ 307) by (apply pow_R1_Rle; lra). lra.
  - replace (10 ^ 308) with (IZR (10 ^ 308)) by (rewrite pow_IZR; reflexivity).
    change (bpow radix2 1024) with (IZR (2 ^ 1024)). apply IZR_lt. vm_compute. reflexivity.
Qed.
Lemma Fac_mil k : (Z.of_nat k <= 1000000)%Z -> Fac k * (1 + u) <= 1 + 1.01 * ((INR k + 1) / 2 ^ 53) /\ Fac k * (1 + u) <= 2.
Proof.
  intros H. rewrite <- Fac_S. apply IZR_le in H. rewrite <- INR_IZR_INZ in H. assert (P := pos_INR k).
  assert (B : Fac (S k) <= 1 + 1.002 * (INR (S k) * u)) by (apply Fac_bound; rewrite S_INR, u_val; lra).
  rewrite S_INR, u_val in B. replace (2 ^ 53) with 9007199254740992 by ring. lra.
Qed.
Lemma eta_val : eta = / 2 ^ 1075.
Proof.
  unfold eta. replace (-1074)%Z with (- (1074))%Z by reflexivity. rewrite bpow_opp, <- Rinv_mult. f_equal.
  change (bpow radix2 1074) with (IZR (2 ^ Z.of_nat 1074)). rewrite <- (pow_IZR 2 1074). change (2 ^ 1075) with (2 * 2 ^ 1074). reflexivity.
Qed.
Lemma quotient_close (s : f64) (w : Z) k D M B : is_finite s = true -> (0 < w <= 1000000)%Z -> (Z.of_nat k <= 1000000)%Z ->
  0 <= B <= 10 ^ 300 -> 0 <= M <= B * IZR w -> Rabs D <= M -> Rabs (B2R s - D) <= (Fac k - 1) * M ->
  is_finite (s / of_Z w)%f64 = true /\ Rabs (B2R (s / of_Z w)%f64 - D / IZR w) <= 1.01 * ((INR k + 1) / 2 ^ 53) * B + / 2 ^ 1075.
Proof.
  intros F W K HB HM HD HS. destruct (Fac_mil k K) as [F1 F2]. assert (F3 := Fac_1 k). assert (U := u_pos).
  assert (P : 0 < IZR w <= 1000000) by (split; [apply IZR_lt|apply IZR_le]; lia).
  assert (MB : M <= 10 ^ 306).
  { eapply Rle_trans; [apply HM|]. replace (10 ^ 306) with (10 ^ 300 * 1000000) by (replace 1000000 with (10 ^ 6) by ring; rewrite <- pow_add; reflexivity).
    apply Rmult_le_compat; lra. }
  destruct (div_close s w D M (Fac k) F ltac:(lia) F3 ltac:(lra) HD HS) as [Q V].
  { apply big300. apply Rle_trans with (2 * 10 ^ 306).
    - apply Rmult_le_compat; try lra. nra.
    - replace (10 ^ 307) with (10 * 10 ^ 306) by (cbn [pow]; ring). assert (0 < 10 ^ 306) by (apply pow_lt; lra). lra. }
  split; [exact Q|]. eapply Rle_trans; [exact V|]. rewrite eta_val. apply Rplus_le_compat_r.
  assert (MW : 0 <= M / IZR w <= B).
  { split; [apply Rmult_le_pos; [lra|left; apply Rinv_0_lt_compat; lra]|]. apply Rmult_le_reg_r with (IZR w); [lra|].
    unfold Rdiv. rewrite Rmult_assoc, Rinv_l by lra. lra. }
  apply Rmult_le_compat; try lra. nra.
Qed.
Lemma filled_ok B l : 0 <= B -> (forall p, In p l -> vok B p) -> forall p, In p (filled l) -> wok p.
Proof.
  intros P H p I. apply in_map_iff in I. destruct I as (q & <- & I). destruct (H q I) as [A D]. split; [exact A|]. apply (datum_fill B); assumption.
Qed.
Lemma mil_fits k x : (Z.of_nat k <= 1000000)%Z -> 0 <= x <= 10 ^ 306 -> x * Fac k < bpow radix2 1024.
Proof.
  intros K X. destruct (Fac_mil k K) as [_ F2]. assert (F3 := Fac_1 k). assert (U := u_pos). assert (H := big300 (x * Fac k)).
  assert (x * Fac k <= 10 ^ 307); [|specialize (H H0); lra].
  replace (10 ^ 307) with (10 ^ 306 * 10) by (cbn [pow]; ring). apply Rmult_le_compat; try lra. nra.
Qed.
Theorem wmean_close k l a B : (forall p, In p l -> vok B p) -> 0 <= B <= 10 ^ 300 -> (valid_weight l <= 1000000)%Z -> (Z.of_nat k <= 1000000)%Z ->
  wmean64 k l a ->
  (wmean (exact_list l) = NaN /\ a = B754_nan) \/
  exists m, wmean (exact_list l) = Fin m /\ is_finite a = true /\ Rabs (B2R a - m) <= 1.01 * ((INR k + 1) / 2 ^ 53) * B + / 2 ^ 1075.
Proof.
  intros H HB HW HK (s & HD & ->). rewrite (wmean_exact B l H). destruct (Z.eqb_spec (valid_weight l) 0) as [E|N]; [left; split; reflexivity|right].
  eexists. split; [reflexivity|]. assert (P := valid_nonneg B l H). fold (filled l) in HD.
  assert (O := filled_ok B l (proj1 HB) H). assert (A := filled_abs B l (proj1 HB) H). assert (A0 := dabs_pos _ O).
  assert (L : dabs (filled l) <= 10 ^ 306).
  { eapply Rle_trans; [exact A|]. replace (10 ^ 306) with (10 ^ 300 * 1000000) by (replace 1000000 with (10 ^ 6) by ring; rewrite <- pow_add; reflexivity).
    apply Rmult_le_compat; try lra; [apply IZR_le, P|]. apply (IZR_le _ 1000000), HW. }
  destruct (dot_near k (filled l) s HD O) as [F C]; [apply mil_fits; [exact HK|split; assumption]|].
  apply quotient_close with (M := dabs (filled l)); try assumption; [lia|split; assumption|]. apply dsum_abs, O.
Qed.

(** Plain means. *)
Definition count64 (l : list f64) : Z := Z.of_nat (List.length (filter (fun x => negb (is_nan x)) l)).
Lemma ones_valid l : valid_weight (ones l) = count64 l.
Proof.
  unfold count64. induction l as [|x l IH]; [reflexivity|]. change (ones (x :: l)) with ((1%Z, x) :: ones l). rewrite valid_cons, IH. cbn [fst snd filter].
  destruct (is_nan x); cbn [negb List.length]; [reflexivity|]. rewrite Nat2Z.inj_succ. lia.
Qed.
Lemma ones_fill l : filled (ones l) = ones (map skipna l).
Proof. unfold filled, ones. rewrite !map_map. reflexivity. Qed.
Lemma lmean_exact B l : (forall x, In x l -> datum B x) ->
  lmean (map of_f64 l) = fdiv (Fin (dsum (ones (map skipna l)))) (Fin (IZR (count64 l))).
Proof.
  intros H. unfold lmean. f_equal.
  - induction l as [|x l IH]; [reflexivity|]. cbn [map lsum fold_right]. fold (lsum (map nan0 (map of_f64 l))).
    rewrite (IH (fun y Y => H y (or_intror Y))), (of_f64_fill B) by (apply H; left; reflexivity).
    unfold dsum, ones. cbn. f_equal. ring.
  - f_equal. unfold count64. rewrite <- INR_IZR_INZ. f_equal.
    induction l as [|x l IH]; [reflexivity|]. unfold valid in *. cbn [map filter]. rewrite (of_f64_null B) by (apply H; left; reflexivity).
    assert (I := IH (fun y Y => H y (or_intror Y))). destruct (negb (is_nan x)); cbn [List.length]; rewrite I; reflexivity.
Qed.
Lemma flen {A} (f : A -> bool) l : (List.length (filter f l) <= List.length l)%nat.
Proof. induction l as [|x l IH]; cbn; [lia|]. destruct (f x); cbn; lia. Qed.
Theorem mean_close k l a B : (forall x, In x l -> datum B x) -> 0 <= B <= 10 ^ 300 -> (Z.of_nat (List.length l) <= 1000000)%Z ->
  (Z.of_nat k <= 1000000)%Z -> mean64 k l a ->
  (lmean (map of_f64 l) = NaN /\ a = B754_nan) \/
  exists m, lmean (map of_f64 l) = Fin m /\ is_finite a = true /\ Rabs (B2R a - m) <= 1.01 * ((INR k + 1) / 2 ^ 53) * B + / 2 ^ 1075.
Proof.
  intros H HB HL HK (s & HT & ->). fold (count64 l). rewrite (lmean_exact B l H).
  assert (V : forall p, In p (ones l) -> vok B p).
  { intros p I. apply in_map_iff in I. destruct I as (x & <- & I). split; [cbn; lia|apply H, I]. }
  assert (O := filled_ok B _ (proj1 HB) V). assert (A := filled_abs B _ (proj1 HB) V). assert (A0 := dabs_pos _ O). rewrite ones_fill, ones_valid in *.
  assert (CL : (0 <= count64 l <= Z.of_nat (List.length l))%Z) by (unfold count64; split; [lia|apply Nat2Z.inj_le; apply flen]).
  assert (FF : forall x, In x (map skipna l) -> is_finite x = true).
  { intros x I. apply in_map_iff in I. destruct I as (y & <- & I). apply (datum_fill B); [apply HB|apply H, I]. }
  assert (L : dabs (ones (map skipna l)) <= 10 ^ 306).
  { eapply Rle_trans; [exact A|]. replace (10 ^ 306) with (10 ^ 300 * 1000000) by (replace 1000000 with (10 ^ 6) by ring; rewrite <- pow_add; reflexivity).
    apply Rmult_le_compat; try lra; [apply IZR_le; lia|]. apply (IZR_le _ 1000000). lia. }
  destruct (tree_grid k _ s HT FF) as [F C]; [apply mil_fits; [exact HK|split; assumption]|].
  destruct (Z.eq_dec (count64 l) 0) as [E|N].
  - left. rewrite E in *. rewrite Rmult_0_r in A. assert (Z0 : dabs (ones (map skipna l)) = 0) by lra.
    assert (D0 := dsum_abs _ O). rewrite Z0 in *. apply Rabs_le_inv in D0. assert (D1 : dsum (ones (map skipna l)) = 0) by lra. rewrite D1 in *.
    split; [cbn; rewrite Reqb_refl; unfold fdiv; rewrite ?Reqb_refl; reflexivity|].
    rewrite Rmult_0_r, Rminus_0_r in C. assert (S0 : B2R s = 0) by (apply Rabs_le_inv in C; lra).
    destruct s as [sg|sg| |sg m e b]; try discriminate F; [destruct sg; reflexivity|].
    exfalso. revert S0. cbn. apply F2R_neq_0. cbn. destruct sg; discriminate.
  - right. assert (NZ : IZR (count64 l) <> 0) by (apply not_0_IZR, N). rewrite fdiv_Fin by exact NZ. eexists. split; [reflexivity|].
    apply quotient_close with (M := dabs (ones (map skipna l))); try assumption; [lia|split; assumption|]. apply dsum_abs, O.
Qed.

(** Constants with few significant bits: every partial sum is exact. *)
Section Constant.
Variables (c : R) (m e W : Z).
Hypothesis Hc : c = IZR m * bpow radix2 e.
Hypothesis He : (-1074 <= e)%Z.
Hypothesis HW : (W < 2 ^ 53)%Z.
Hypothesis Hm : (Z.abs m * W < 2 ^ 53)%Z.
Hypothesis Hb : Rabs c * IZR W < bpow radix2 1024.
Definition wsum (l : list (Z * f64)) : Z := fold_right (fun (p : Z * f64) acc => (fst p + acc)%Z) 0%Z l.
Lemma wsum_cons (p : Z * f64) l : wsum (p :: l) = (fst p + wsum l)%Z.
Proof. reflexivity. Qed.
Lemma wsum_app l1 l2 : wsum (l1 ++ l2) = (wsum l1 + wsum l2)%Z.
Proof. induction l1 as [|p l IH]; [reflexivity|]. cbn [app]. rewrite !wsum_cons, IH. lia. Qed.
Lemma wsum_perm l l' : Permutation l l' -> wsum l = wsum l'.
Proof. induction 1; rewrite ?wsum_cons; lia. Qed.
Definition cok (p : Z * f64) : Prop := (0 <= fst p)%Z /\ is_finite (snd p) = true /\ (B2R (snd p) = c \/ B2R (snd p) = 0).
Lemma wsum_pos l : (forall p, In p l -> cok p) -> (0 <= wsum l)%Z.
Proof.
  induction l as [|p l IH]; intros H; [cbn; lia|]. rewrite wsum_cons. destruct (H p (or_introl eq_refl)) as [A _]. assert (I := IH (fun q Q => H q (or_intror Q))). lia.
Qed.
Lemma multiple j : (0 <= j <= W)%Z -> fl (IZR j * c) = IZR j * c /\ fits64 (fl (IZR j * c)).
Proof using Hc He HW Hm Hb.
  intros J. assert (E : fl (IZR j * c) = IZR j * c).
  { apply round_generic; [apply valid_rnd_N|]. apply generic_format_FLT. exists (Float radix2 (j * m) e); [|cbn|exact He].
    - rewrite Hc. unfold F2R. cbn. rewrite mult_IZR. ring.
    - change (Z.abs (j * m) < 2 ^ 53)%Z. rewrite Z.abs_mul, (Z.abs_eq j) by lia. nia. }
  split; [exact E|]. rewrite E. unfold fits64. rewrite Rabs_mult, (Rabs_pos_eq (IZR j)) by (apply IZR_le; lia).
  eapply Rle_lt_trans; [|exact Hb]. rewrite Rmult_comm. apply Rmult_le_compat_l; [apply Rabs_pos|]. apply IZR_le. lia.
Qed.
Lemma dot_exact k l s : dot64 k l s -> (forall p, In p l -> cok p) -> (wsum l <= W)%Z ->
  is_finite s = true /\ exists j, (0 <= j <= wsum l)%Z /\ dsum l = IZR j * c /\ B2R s = IZR j * c.
Proof using Hc He HW Hm Hb.
  assert (One : forall w x, cok (w, x) -> exists j, (0 <= j <= w)%Z /\ IZR w * B2R x = IZR j * c).
  { intros w x (A & B & [E|E]); cbn in *; rewrite E; [exists w|exists 0%Z]; split; try lia; ring. }
  induction 1 as [k|k w x|k l1 l2 s1 s2 H1 IH1 H2 IH2|k l w x s H IH|k l l' s P H IH]; intros F L.
  - split; [reflexivity|]. exists 0%Z. unfold dsum. cbn. repeat split; try lia; ring.
  - destruct (One w x (F _ (or_introl eq_refl))) as (j & J & E). destruct (F _ (or_introl eq_refl)) as (A & B & _). cbn in A, B.
    assert (Wl : wsum [(w, x)] = w) by (cbn; lia). rewrite Wl in *. destruct (multiple j ltac:(lia)) as [M1 M2].
    destruct (mul64_rep (of_Z w) x _ _ (of_Z_rep w ltac:(lia)) (conj B eq_refl)) as [Q V]; [rewrite E; exact M2|].
    split; [exact Q|]. exists j. split; [lia|]. rewrite V, E, M1. split; [|reflexivity]. unfold dsum. cbn. rewrite E. ring.
  - assert (F1 : forall p, In p l1 -> cok p) by (intros p Hp; apply F, in_or_app; left; exact Hp).
    assert (F2 : forall p, In p l2 -> cok p) by (intros p Hp; apply F, in_or_app; right; exact Hp).
    rewrite wsum_app in *. assert (P1 := wsum_pos _ F1). assert (P2 := wsum_pos _ F2).
    destruct (IH1 F1) as (Q1 & j1 & J1 & D1 & V1); [lia|]. destruct (IH2 F2) as (Q2 & j2 & J2 & D2 & V2); [lia|].
    destruct (multiple (j1 + j2) ltac:(lia)) as [M1 M2]. rewrite plus_IZR, Rmult_plus_distr_r in M1, M2.
    destruct (add64_rep s1 s2 _ _ (conj Q1 V1) (conj Q2 V2) M2) as [Q V].
    split; [exact Q|]. exists (j1 + j2)%Z. rewrite plus_IZR, Rmult_plus_distr_r. split; [lia|]. split; [|rewrite V; exact M1].
    unfold dsum in *. rewrite map_app, rsum_app, D1, D2. reflexivity.
  - assert (F1 : forall p, In p l -> cok p) by (intros p Hp; apply F; right; exact Hp).
    destruct (One w x (F _ (or_introl eq_refl))) as (j1 & J1 & E). destruct (F _ (or_introl eq_refl)) as (A & B & _). cbn in A, B.
    assert (Wl : wsum ((w, x) :: l) = (w + wsum l)%Z) by reflexivity. rewrite Wl in *. assert (P1 := wsum_pos _ F1).
    destruct (IH F1) as (Q2 & j2 & J2 & D2 & V2); [lia|].
    destruct (multiple (j1 + j2) ltac:(lia)) as [M1 M2]. rewrite plus_IZR, Rmult_plus_distr_r in M1, M2.
    destruct (fma64_rep (of_Z w) x s _ _ _ (of_Z_rep w ltac:(lia)) (conj B eq_refl) (conj Q2 V2)) as [Q V]; [rewrite E; exact M2|].
    split; [exact Q|]. exists (j1 + j2)%Z. rewrite plus_IZR, Rmult_plus_distr_r. split; [lia|]. split; [|rewrite V, E; exact M1].
    change (dsum ((w, x) :: l)) with (IZR w * B2R x + dsum l). rewrite E, D2. reflexivity.
  - assert (E2 : dsum l = dsum l') by (apply rsum_perm, Permutation_map, P). rewrite <- E2, <- (wsum_perm _ _ P) in *.
    apply IH; [|exact L]. intros x Hx. apply F. eapply Permutation_in; eassumption.
Qed.
End Constant.

Lemma filled_wsum (l : list (Z * f64)) : (forall p, In p l -> (0 <= fst p)%Z) -> (valid_weight l <= wsum (filled l))%Z.
Proof.
  induction l as [|p l IH]; intros H; [cbn; lia|]. rewrite valid_cons. change (wsum (filled (p :: l))) with (fst p + wsum (filled l))%Z.
  assert (I := IH (fun q Q => H q (or_intror Q))). assert (A := H p (or_introl eq_refl)). destruct (is_nan (snd p)); lia.
Qed.
Lemma filled_const (x : f64) (l : list (Z * f64)) : is_finite x = true -> (forall p, In p l -> snd p = x \/ snd p = B754_nan) ->
  dsum (filled l) = IZR (valid_weight l) * B2R x.
Proof.
  intros F. induction l as [|p l IH]; intros H; [unfold dsum; cbn; ring|]. rewrite valid_cons.
  change (dsum (filled (p :: l))) with (IZR (fst p) * B2R (skipna (snd p)) + dsum (filled l)). rewrite (IH (fun q Q => H q (or_intror Q))).
  destruct (H p (or_introl eq_refl)) as [E|E]; rewrite E.
  - assert (N : is_nan x = false) by (destruct x; try discriminate F; reflexivity). unfold skipna. rewrite N, plus_IZR. ring.
  - cbn [is_nan skipna zero B2R]. ring.
Qed.
Theorem constant_mean k (l : list (Z * f64)) (a x : f64) m e : is_finite x = true -> B2R x = IZR m * bpow radix2 e -> (-1074 <= e)%Z -> (Z.abs m <= 2 ^ 44)%Z ->
  Rabs (B2R x) <= 10 ^ 300 -> (forall p, In p l -> (0 <= fst p)%Z /\ (snd p = x \/ snd p = B754_nan)) -> (wsum (filled l) <= 511)%Z ->
  (valid_weight l <> 0)%Z -> wmean64 k l a -> is_finite a = true /\ B2R a = B2R x.
Proof.
  intros F Hx He Hm Hb H HW NZ (s & HD & ->). fold (filled l) in HD.
  destruct (Z.eqb_spec (valid_weight l) 0) as [E|_]; [contradiction|].
  assert (FW := filled_wsum l (fun p I => proj1 (H p I))).
  assert (VP : (0 <= valid_weight l)%Z).
  { clear - H. induction l as [|p l IH]; [cbn; lia|]. rewrite valid_cons. assert (I := IH (fun q Q => H q (or_intror Q))).
    destruct (H p (or_introl eq_refl)) as [A _]. destruct (is_nan (snd p)); lia. }
  destruct (dot_exact (B2R x) m e 511 Hx He ltac:(lia) ltac:(lia)) with (k := k) (l := filled l) (s := s) as (Q & j & J & D & V).
  { apply Rle_lt_trans with (10 ^ 306); [|assert (G := big300 (10 ^ 306)); assert (10 ^ 306 <= 10 ^ 307) by (apply Rle_pow; [lra|lia]); specialize (G H0); lra].
    replace (10 ^ 306) with (10 ^ 300 * 1000000) by (replace 1000000 with (10 ^ 6) by ring; rewrite <- pow_add; reflexivity).
    apply Rmult_le_compat; try lra. apply Rabs_pos. }
  { exact HD. }
  { intros p I. apply in_map_iff in I. destruct I as (q & <- & I). destruct (H q I) as [A [E|E]]; cbn [fst snd]; rewrite E.
    - assert (N : is_nan x = false) by (destruct x; try discriminate F; reflexivity). unfold skipna. rewrite N. repeat split; try assumption. left. reflexivity.
    - repeat split; try assumption. right. reflexivity. }
  { exact HW. }
  rewrite (filled_const x l F (fun p I => proj2 (H p I))) in D.
  assert (NZR : IZR (valid_weight l) <> 0) by (apply not_0_IZR, NZ).
  assert (Eq : B2R s / IZR (valid_weight l) = B2R x) by (rewrite V, <- D; field; exact NZR).
  assert (Fx := rep64_fl x _ (conj F eq_refl)).
  destruct (div64_rep s (of_Z (valid_weight l)) _ _ (conj Q eq_refl) (of_Z_rep (valid_weight l) ltac:(lia)) NZR) as [Q2 V2].
  { rewrite Eq, Fx. exact (rep64_fits x _ (conj F eq_refl)). }
  split; [exact Q2|]. rewrite V2, Eq, Fx. reflexivity.
Qed.

(** Left to right. *)
Lemma dot_weaken k l s : dot64 k l s -> forall j, (k <= j)%nat -> dot64 j l s.
Proof.
  induction 1 as [k|k w x|k l1 l2 s1 s2 H1 IH1 H2 IH2|k l w x s H IH|k l l' s P H IH]; intros j L.
  - apply dot_zero.
  - destruct j as [|j]; [lia|]. apply dot_one.
  - destruct j as [|j]; [lia|]. apply dot_add; [apply IH1|apply IH2]; lia.
  - destruct j as [|j]; [lia|]. apply dot_fma. apply IH. lia.
  - eapply dot_perm; [exact P|]. apply IH, L.
Qed.
Fixpoint chain_dot (acc : f64) (l : list (Z * f64)) : f64 :=
  match l with [] => acc | (w, x) :: l => chain_dot (acc + of_Z w * x)%f64 l end.
Lemma chain_dot64 l : forall k l0 acc, (1 <= k)%nat -> dot64 k l0 acc -> dot64 (k + List.length l) (l0 ++ l) (chain_dot acc l).
Proof.
  induction l as [|[w x] l IH]; intros k l0 acc K H; cbn [chain_dot List.length].
  - rewrite app_nil_r. apply dot_weaken with k; [exact H|lia].
  - replace (l0 ++ (w, x) :: l) with ((l0 ++ [(w, x)]) ++ l) by (rewrite <- app_assoc; reflexivity).
    replace (k + S (List.length l))%nat with (S k + List.length l)%nat by lia. apply IH; [lia|].
    apply dot_add; [exact H|]. destruct k as [|k]; [lia|]. apply dot_one.
Qed.
