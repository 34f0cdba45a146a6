(** * ProofsFloat10: the global steric height, assembled (proofs only) *)
From Coq Require Import Reals Lra Lia List ZArith Bool Permutation.
From Flocq Require Import Core IEEE754.BinarySingleNaN Relative.
From Verif Require Import SpecFloat64 Ieee IeeeGlobal SpecIeee SpecEos SpecIeeeGlobal ProofsEosBox ProofsFloat ProofsIeee ProofsFloat4 ProofsFloat5 ProofsFloat8 ProofsFloat9.
Import ListNotations.
Local Open Scope R_scope.

Lemma inv100 : 0 < / 10 ^ 100.
Proof. apply Rinv_0_lt_compat, pow_lt; lra. Qed.
Lemma size_cases v : size_ok v -> B2R v = 0 \/ / 10 ^ 100 <= B2R v.
Proof. intros [-> | [_ H]]; [left; reflexivity|exact H]. Qed.
Lemma size_pos v : size_ok v -> 0 <= B2R v.
Proof. intros H. assert (P := inv100). destruct (size_cases v H); lra. Qed.

Section Global.
Variables (k : nat) (sum : list f64 -> f64) (patm : f64) (cells : list gcell) (areas : list f64).
Hypothesis Hk : (Z.of_nat k <= 1000000)%Z.
Hypothesis Fp : is_finite patm = true.
Hypothesis Hp : 0 <= B2R patm <= 110000.
Hypothesis Hc : Forall gcell_ok cells.
Hypothesis Ha : Forall size_ok areas.
Hypothesis V1 : 0 < total_volume cells.
Hypothesis V2 : total_volume cells <= 10 ^ 100.
Hypothesis A1 : 0 < total_area64 areas.
Hypothesis A2 : total_area64 areas <= 10 ^ 100.
Hypothesis Hs : sums_within k sum patm cells areas.

Lemma cell_ok c : In c cells -> gcell_ok c.
Proof using Hc. clear - Hc. intros H. rewrite Forall_forall in Hc. apply Hc, H. Qed.
Lemma area_ok a : In a areas -> size_ok a.
Proof using Ha. clear - Ha. intros H. rewrite Forall_forall in Ha. apply Ha, H. Qed.
Lemma kR : INR k <= 1000000.
Proof using Hk. clear - Hk. rewrite INR_IZR_INZ. apply IZR_le. lia. Qed.
Lemma V_low : / 10 ^ 100 <= total_volume cells.
Proof using Hc V1. clear - Hc V1. apply rsum_pick; [|exact V1]. intros c Hin. apply size_cases. exact (proj1 (cell_ok c Hin)). Qed.
Lemma A_low : / 10 ^ 100 <= total_area64 areas.
Proof using Ha A1. clear - Ha A1. apply (rsum_pick (fun a : f64 => B2R a)); [|exact A1]. intros a Hin. apply size_cases. exact (area_ok a Hin). Qed.
Lemma cell_max c : In c cells -> B2R (g_vol c) <= 10 ^ 100.
Proof using Hc V2. clear - Hc V2.
  intros H. eapply Rle_trans; [|exact V2]. apply (le_part (fun c => B2R (g_vol c))); [|exact H].
  intros x Hx. apply size_pos. exact (proj1 (cell_ok x Hx)).
Qed.
Lemma Fac_k2 : Fac k <= 2.
Proof using Hk. clear - Hk.
  assert (R := kR). assert (P := pos_INR k). assert (B : Fac k <= 1 + 1.002 * (INR k * u)) by (apply Fac_bound; rewrite u_val; lra).
  rewrite u_val in B. lra.
Qed.
Lemma fits_100 s : 0 <= s -> s <= 10 ^ 100 * 10000 -> s * Fac k < bpow radix2 1024.
Proof using Hk. clear - Hk.
  intros P H. eapply Rle_lt_trans; [|exact big_pow]. assert (F := Fac_k2). assert (F1 := Fac_1 k).
  apply Rle_trans with (10 ^ 100 * 10000 * 2); [apply Rmult_le_compat; lra|].
  rewrite p300. replace (10 ^ 100 * 10000 * 2) with (10 ^ 100 * 20000) by ring. rewrite Rmult_assoc.
  apply Rmult_le_compat_l; [apply pow_le; lra|]. rewrite <- pow_add.
  replace (10 ^ (100 + 100)) with (IZR (10 ^ 200)) by (rewrite pow_IZR; reflexivity). apply IZR_le. vm_compute. discriminate.
Qed.

Lemma volume_sum : is_finite (sum (map vol64 cells)) = true /\ near (Fac k) (total_volume cells) (B2R (sum (map vol64 cells))).
Proof using Hk Hc V1 V2 Hs. clear - Hk Hc V1 V2 Hs.
  destruct Hs as (T & _). apply tree_near in T.
  - rewrite map_map in T. replace (map (fun x => B2R (vol64 x)) cells) with (map (fun c => B2R (g_vol c)) cells) in T; [exact T|].
    apply map_ext_in. intros c Hin. symmetry. apply (proj2 (proj2 (size_near (g_vol c) (proj1 (cell_ok c Hin))))).
  - intros x Hx. apply in_map_iff in Hx. destruct Hx as (c & <- & Hin). unfold vol64.
    destruct (size_near (g_vol c) (proj1 (cell_ok c Hin))) as (X & Y & _). split; assumption.
  - rewrite map_map. replace (map (fun x => B2R (vol64 x)) cells) with (map (fun c => B2R (g_vol c)) cells).
    + fold (total_volume cells). apply fits_100; [lra|]. assert (0 < 10 ^ 100) by (apply pow_lt; lra). lra.
    + apply map_ext_in. intros c Hin. symmetry. apply (proj2 (proj2 (size_near (g_vol c) (proj1 (cell_ok c Hin))))).
Qed.
Lemma area_sum : is_finite (sum (map skipna areas)) = true /\ near (Fac k) (total_area64 areas) (B2R (sum (map skipna areas))).
Proof using Hk Ha A1 A2 Hs. clear - Hk Ha A1 A2 Hs.
  destruct Hs as (_ & _ & _ & T).
  assert (E : map (fun x : f64 => B2R (skipna x)) areas = map (fun a : f64 => B2R a) areas).
  { apply map_ext_in. intros c Hin. apply (proj2 (proj2 (size_near c (area_ok c Hin)))). }
  apply tree_near in T.
  - rewrite map_map, E in T. exact T.
  - intros x Hx. apply in_map_iff in Hx. destruct Hx as (c & <- & Hin).
    destruct (size_near c (area_ok c Hin)) as (X & Y & _). split; assumption.
  - rewrite map_map, E. fold (total_area64 areas). apply fits_100; [lra|]. assert (0 < 10 ^ 100) by (apply pow_lt; lra). lra.
Qed.

(** Masses. *)
Variables (fT fS : gcell -> f64).
Hypothesis Hf : forall c, In c cells -> is_finite (g_vol c) = true ->
  is_finite (fT c) = true /\ is_finite (fS c) = true /\ -2 <= B2R (fT c) <= 40 /\ 0 <= B2R (fS c) <= 42.
Definition term64 (c : gcell) : f64 := skipna (rho_at (fT c) (fS c) (g_z c) patm * g_vol c)%f64.
Definition exact_term (c : gcell) : R := B2R (g_vol c) * wr_rho (B2R (fT c)) (B2R (fS c)) (B2R (g_z c) * 10000 + B2R patm).
Definition E : R := rsum (map exact_term cells).
Lemma exact_term_range c : In c cells -> 980 * B2R (g_vol c) <= exact_term c <= 1100 * B2R (g_vol c).
Proof using Hp Hc Hf. clear - Hp Hc Hf.
  intros Hin. destruct (cell_ok c Hin) as (S0 & S1). unfold exact_term. destruct S0 as [-> | [F Z]]; [cbn; lra|].
  destruct (Hf c Hin F) as (F1 & F2 & B1 & B2). destruct (S1 F) as (_ & _ & _ & _ & _ & B3 & _).
  assert (B : 980 < wr_rho (B2R (fT c)) (B2R (fS c)) (B2R (g_z c) * 10000 + B2R patm) < 1100) by (apply rho_bounds; unfold ocean_box; lra).
  assert (P : 0 <= B2R (g_vol c)) by (assert (Q := inv100); destruct Z; lra). set (r := wr_rho _ _ _) in *. nra.
Qed.
Lemma E_range : 980 * total_volume cells <= E <= 1100 * total_volume cells.
Proof using Hp Hc Hf. clear - Hp Hc Hf.
  unfold E, total_volume. assert (G := exact_term_range). clear Hc Hf Hp.
  induction cells as [|c l IH]; cbn [map rsum]; [lra|].
  assert (Q := G c (or_introl eq_refl)). assert (IH' := IH (fun x Hx => G x (or_intror Hx))). lra.
Qed.
Lemma mass_sum s : tree64 k (map term64 cells) s ->
  is_finite s = true /\ near ((1 + cd) * (1 + u) * Fac k) E (B2R s).
Proof using Hk Fp Hp Hc V1 V2 Hf. clear - Hk Fp Hp Hc V1 V2 Hf.
  intros T.
  assert (N : forall c, In c cells -> is_finite (term64 c) = true /\ 0 <= B2R (term64 c) /\ near ((1 + cd) * (1 + u)) (exact_term c) (B2R (term64 c))).
  { intros c Hin. destruct (cell_ok c Hin) as (S0 & S1). apply term_near; try assumption; [|apply cell_max, Hin].
    intros F. destruct (Hf c Hin F) as (F1 & F2 & B1 & B2). destruct (S1 F) as (F3 & _ & _ & _ & _ & B3 & _). repeat (split; [assumption|]). assumption. }
  assert (G : 1 <= (1 + cd) * (1 + u) <= 2) by (rewrite cd_val, u_val; lra).
  assert (NE : near ((1 + cd) * (1 + u)) E (rsum (map (fun c => B2R (term64 c)) cells))).
  { apply near_rsum; [apply G|]. intros c Hin. apply N, Hin. }
  apply tree_near in T.
  - rewrite map_map in T. destruct T as [T1 T2]. split; [exact T1|]. eapply near_trans; eassumption.
  - intros x Hx. apply in_map_iff in Hx. destruct Hx as (c & <- & Hin). destruct (N c Hin) as (X & Y & _). split; assumption.
  - rewrite map_map. assert (ER := E_range). apply fits_100; [exact (near_pos _ _ _ NE)|].
    destruct NE as (_ & E0 & _ & U). eapply Rle_trans; [exact U|].
    apply Rle_trans with (E * 2); [apply Rmult_le_compat_l; lra|]. lra.
Qed.
End Global.

Theorem global_close log64 k sum patm cells areas : accurate_log log64 -> (Z.of_nat k <= 1000000)%Z ->
  is_finite patm = true -> 0 <= B2R patm <= 110000 -> Forall gcell_ok cells -> Forall size_ok areas ->
  0 < total_volume cells <= 10 ^ 100 -> 0 < total_area64 areas <= 10 ^ 100 -> sums_within k sum patm cells areas ->
  is_finite (global64 log64 sum patm cells areas) = true /\
  Rabs (B2R (global64 log64 sum patm cells areas) - total_volume cells / total_area64 areas * ln (reference_mass64 (B2R patm) cells / total_mass64 (B2R patm) cells))
    <= total_volume cells / total_area64 areas * (9 / 10 ^ 15 + 9 / 4 * INR k / 2 ^ 53).
Proof.
  intros Hl Hk Fp Hp Hc Ha [V1 V2] [A1 A2] Hs.
  destruct (volume_sum k sum patm cells areas Hk Hc V1 V2 Hs) as [Fv Nv].
  destruct (area_sum k sum patm cells areas Hk Ha A1 A2 Hs) as [Fa Na].
  assert (HfM : forall c, In c cells -> is_finite (g_vol c) = true ->
     is_finite (g_T c) = true /\ is_finite (g_S c) = true /\ -2 <= B2R (g_T c) <= 40 /\ 0 <= B2R (g_S c) <= 42).
  { intros c Hin F. rewrite Forall_forall in Hc. destruct (proj2 (Hc c Hin) F) as (_ & ? & ? & _ & _ & _ & ? & ? & _). auto. }
  assert (HfR : forall c, In c cells -> is_finite (g_vol c) = true ->
     is_finite (g_Tref c) = true /\ is_finite (g_Sref c) = true /\ -2 <= B2R (g_Tref c) <= 40 /\ 0 <= B2R (g_Sref c) <= 42).
  { intros c Hin F. rewrite Forall_forall in Hc. destruct (proj2 (Hc c Hin) F) as (_ & _ & _ & ? & ? & _ & _ & _ & ? & ?). auto. }
  destruct (mass_sum k patm cells Hk Fp Hp Hc V1 V2 g_T g_S HfM _ (proj1 (proj2 Hs))) as [Fm Nm].
  destruct (mass_sum k patm cells Hk Fp Hp Hc V1 V2 g_Tref g_Sref HfR _ (proj1 (proj2 (proj2 Hs)))) as [Fr Nr].
  assert (MR := E_range patm cells Hp Hc g_T g_S HfM). assert (RR := E_range patm cells Hp Hc g_Tref g_Sref HfR).
  change (E patm cells g_T g_S) with (total_mass64 (B2R patm) cells) in *.
  change (E patm cells g_Tref g_Sref) with (reference_mass64 (B2R patm) cells) in *.
  destruct (height_close (sum (map vol64 cells)) (sum (map (mass64 patm) cells)) (sum (map (mass_ref64 patm) cells)) (sum (map skipna areas))
    (total_volume cells) (total_mass64 (B2R patm) cells) (reference_mass64 (B2R patm) cells) (total_area64 areas) _ k
    Fv Fm Fr Fa Nv Na Nm Nr eq_refl (kR k Hk) (V_low cells Hc V1) V2 (A_low areas Ha A1) A2 MR RR log64 Hl) as [F C].
  split; [exact F|]. eapply Rle_trans; [exact C|].
  apply Rmult_le_compat_l; [left; apply Rdiv_lt_0_compat; assumption|]. rewrite u_val. change (10 ^ 15) with (10 ^ 15).
  replace (10 ^ 15) with 1000000000000000 by ring. replace (2 ^ 53) with 9007199254740992 by ring. lra.
Qed.

(** An unchanged ocean. *)
Lemma mass_same patm cells : (forall c, In c cells -> g_T c = g_Tref c /\ g_S c = g_Sref c) -> map (mass_ref64 patm) cells = map (mass64 patm) cells.
Proof. intros H. apply map_ext_in. intros c Hin. unfold mass_ref64, mass64. destruct (H c Hin) as [-> ->]. reflexivity. Qed.
Lemma fl_1 : fl 1 = 1.
Proof. exact (rep64_fl _ _ (of_Z_rep 1 ltac:(reflexivity))). Qed.
Lemma fl_0 : fl 0 = 0.
Proof. unfold fl. apply round_0. apply valid_rnd_N. Qed.
Lemma ratio_one (m v : f64) : is_finite (m / v)%f64 = true -> 0 < B2R (m / v)%f64 -> rep64 ((m / v) / (m / v))%f64 1.
Proof.
  intros F P. set (q := (m / v)%f64) in *. assert (E : B2R q / B2R q = 1) by (field; lra).
  assert (R := div64_rep q q _ _ (conj F eq_refl) (conj F eq_refl) ltac:(lra)). rewrite E, fl_1 in R. apply R.
  unfold fits64. rewrite Rabs_R1. apply (bpow_lt radix2 0 1024). reflexivity.
Qed.
Theorem global_zero log64 k sum patm cells areas : accurate_log log64 -> (Z.of_nat k <= 1000000)%Z ->
  is_finite patm = true -> 0 <= B2R patm <= 110000 -> Forall gcell_ok cells -> Forall size_ok areas ->
  0 < total_volume cells <= 10 ^ 100 -> 0 < total_area64 areas <= 10 ^ 100 -> sums_within k sum patm cells areas ->
  (forall c, In c cells -> g_T c = g_Tref c /\ g_S c = g_Sref c) ->
  is_finite (global64 log64 sum patm cells areas) = true /\ B2R (global64 log64 sum patm cells areas) = 0.
Proof.
  intros Hl Hk Fp Hp Hc Ha [V1 V2] [A1 A2] Hs Same.
  split; [apply (global_close log64 k sum patm cells areas Hl Hk Fp Hp Hc Ha (conj V1 V2) (conj A1 A2) Hs)|].
  destruct (volume_sum k sum patm cells areas Hk Hc V1 V2 Hs) as [Fv Nv].
  destruct (area_sum k sum patm cells areas Hk Ha A1 A2 Hs) as [Fa Na].
  assert (HfM : forall c, In c cells -> is_finite (g_vol c) = true ->
     is_finite (g_T c) = true /\ is_finite (g_S c) = true /\ -2 <= B2R (g_T c) <= 40 /\ 0 <= B2R (g_S c) <= 42).
  { intros c Hin F. rewrite Forall_forall in Hc. destruct (proj2 (Hc c Hin) F) as (_ & ? & ? & _ & _ & _ & ? & ? & _). auto. }
  destruct (mass_sum k patm cells Hk Fp Hp Hc V1 V2 g_T g_S HfM _ (proj1 (proj2 Hs))) as [Fm Nm].
  assert (MR := E_range patm cells Hp Hc g_T g_S HfM).
  unfold global64, height64. rewrite (mass_same patm cells Same).
  destruct (mean_near _ _ _ _ k Fv Nv eq_refl (kR k Hk) (V_low cells Hc V1) V2 MR _ _ Fm Nm MR) as (X & Y & Z).
  assert (P := near_half _ _ _ Y ltac:(rewrite u_val; lra)).
  destruct (ratio_one _ _ X ltac:(lra)) as [R1 R2].
  destruct (Hl _ R1 ltac:(rewrite R2; lra)) as [L1 L2]. rewrite R2, ln_1, Rabs_R0, Rmult_0_r in L2.
  destruct (href_near _ _ _ _ _ k Fv Fa Nv Na eq_refl (kR k Hk) (V_low cells Hc V1) V2 (A_low areas Ha A1) A2) as (FH & _).
  assert (L0 : B2R (log64 (sum (map (mass64 patm) cells) / sum (map vol64 cells) / (sum (map (mass64 patm) cells) / sum (map vol64 cells)))%f64) = 0).
  { assert (Q := Rabs_pos (B2R (log64 (sum (map (mass64 patm) cells) / sum (map vol64 cells) / (sum (map (mass64 patm) cells) / sum (map vol64 cells)))%f64) - 0)).
    destruct (Req_dec (B2R (log64 (sum (map (mass64 patm) cells) / sum (map vol64 cells) / (sum (map (mass64 patm) cells) / sum (map vol64 cells)))%f64) - 0) 0) as [W|W]; [lra|].
    apply Rabs_pos_lt in W. lra. }
  destruct (mul64_rep _ _ _ _ (conj FH eq_refl) (conj L1 L0)) as [_ W].
  - rewrite Rmult_0_r, fl_0. unfold fits64. rewrite Rabs_R0. apply bpow_gt_0.
  - rewrite W, Rmult_0_r. apply fl_0.
Qed.

(** ** A logarithm and a sum that meet the assumptions *)
Fixpoint chain (acc : f64) (l : list f64) : f64 := match l with [] => acc | x :: l => chain (acc + x)%f64 l end.
Definition seqsum (l : list f64) : f64 := match l with [] => zero | x :: l => chain x l end.
Lemma tree_weaken k l s : tree64 k l s -> forall j, (k <= j)%nat -> tree64 j l s.
Proof.
  induction 1 as [k x|k l1 l2 s1 s2 H1 IH1 H2 IH2|k l l' s P H IH]; intros j L; [constructor| |eapply tree_perm; eauto].
  destruct j; [lia|]. constructor; [apply IH1|apply IH2]; lia.
Qed.
Lemma chain_tree l : forall k l0 acc, tree64 k l0 acc -> tree64 (List.length l + k) (l0 ++ l) (chain acc l).
Proof.
  induction l as [|x l IH]; intros k l0 acc H; cbn [chain List.length]; [rewrite app_nil_r; exact H|].
  replace (S (List.length l) + k)%nat with (List.length l + S k)%nat by lia.
  replace (l0 ++ x :: l) with ((l0 ++ [x]) ++ l) by (rewrite <- app_assoc; reflexivity).
  apply IH. constructor; [exact H|constructor].
Qed.
Lemma seqsum_tree l : l <> [] -> tree64 (List.length l) l (seqsum l).
Proof.
  destruct l as [|x l]; [congruence|]. intros _. eapply tree_weaken; [apply (chain_tree l 0 [x] x); constructor|cbn; lia].
Qed.
Lemma seqsum_within patm cells areas k : cells <> [] -> areas <> [] -> (List.length cells <= k)%nat -> (List.length areas <= k)%nat ->
  sums_within k seqsum patm cells areas.
Proof.
  intros H1 H2 L1 L2. assert (N : forall f : gcell -> f64, tree64 k (map f cells) (seqsum (map f cells))).
  { intros f. eapply tree_weaken; [apply seqsum_tree; destruct cells; [congruence|discriminate]|rewrite map_length; exact L1]. }
  repeat split; try apply N. eapply tree_weaken; [apply seqsum_tree; destruct areas; [congruence|discriminate]|rewrite map_length; exact L2].
Qed.

Definition fexp64 := FLT_exp (-1074) 53.
(** The binary64 number nearest to a real number. *)
Definition nearest (r : R) : f64 :=
  binary_normalize 53 1024 prec53 emax1024 mode_NE (ZnearestE (scaled_mantissa radix2 fexp64 r)) (cexp radix2 fexp64 r) false.
Lemma nearest_rep r : fits64 (fl r) -> rep64 (nearest r) (fl r).
Proof.
  intros H. unfold nearest.
  assert (C := binary_normalize_correct 53 1024 prec53 emax1024 mode_NE (ZnearestE (scaled_mantissa radix2 fexp64 r)) (cexp radix2 fexp64 r) false).
  cbv zeta in C. change (F2R _) with (fl r) in C.
  change (round radix2 (SpecFloat.fexp 53 1024) (round_mode mode_NE) (fl r)) with (fl (fl r)) in C.
  assert (I : fl (fl r) = fl r).
  { apply round_generic; [apply valid_rnd_N|]. apply generic_format_round; [apply FLT_exp_valid; reflexivity|apply valid_rnd_N]. }
  rewrite I, Rlt_bool_true in C by exact H. destruct C as (C1 & C2 & _). split; assumption.
Qed.
Lemma grid_53 (x : f64) : is_finite x = true -> 1/2 <= B2R x -> exists m : Z, B2R x = IZR m * / IZR (2 ^ 53).
Proof.
  intros F H. assert (G : generic_format radix2 fexp64 (B2R x)) by (exact (generic_format_B2R 53 1024 x)).
  assert (C : (-53 <= cexp radix2 fexp64 (B2R x))%Z).
  { unfold cexp, fexp64, FLT_exp. assert (M : (0 <= mag radix2 (B2R x))%Z).
    { apply mag_ge_bpow. cbn. rewrite Rabs_pos_eq by lra. lra. } lia. }
  rewrite G. unfold F2R. cbn [Fnum Fexp]. set (e := cexp radix2 fexp64 (B2R x)) in *. set (m := Ztrunc _).
  exists (m * 2 ^ (e + 53))%Z. rewrite mult_IZR. replace e with (e + 53 + -53)%Z at 1 by lia. rewrite bpow_plus.
  rewrite <- (IZR_Zpower radix2) by lia. rewrite Rmult_assoc. reflexivity.
Qed.
Lemma ln_lower (x : f64) : is_finite x = true -> 1/2 <= B2R x <= 2 -> B2R x <> 1 -> / IZR (2 ^ 54) <= Rabs (ln (B2R x)).
Proof.
  intros F H N. destruct (grid_53 x F (proj1 H)) as (m & E). set (y := B2R x) in *.
  assert (P : 0 < IZR (2 ^ 53)) by (apply IZR_lt; reflexivity).
  assert (T : IZR (2 ^ 54) = 2 * IZR (2 ^ 53)) by (rewrite <- mult_IZR; reflexivity).
  assert (D : y - 1 = IZR (m - 2 ^ 53) * / IZR (2 ^ 53)) by (rewrite minus_IZR, E; field; lra).
  assert (I : 0 < / IZR (2 ^ 53)) by (apply Rinv_0_lt_compat, P).
  assert (I2 : / IZR (2 ^ 54) = / 2 * / IZR (2 ^ 53)) by (rewrite T, Rinv_mult; reflexivity).
  destruct (Rlt_or_le 1 y) as [Q|Q].
  - assert (1 <= IZR (m - 2 ^ 53)).
    { apply IZR_le. assert (0 < m - 2 ^ 53)%Z; [|lia]. apply lt_IZR. destruct (Rle_or_lt (IZR (m - 2 ^ 53)) 0) as [W|W]; [|exact W]. exfalso. nra. }
    assert (L := ln_1p (/ y - 1)). assert (IY : / y <= 1) by (rewrite <- Rinv_1; apply Rinv_le_contravar; lra).
    assert (0 < / y) by (apply Rinv_0_lt_compat; lra).
    assert (LL : ln (/ y) <= / y - 1).
    { destruct (Req_dec (/ y) 1) as [W|W]; [rewrite W, ln_1; lra|].
      assert (X := exp_ineq1 (/ y - 1) ltac:(lra)). assert (ln (/ y) < ln (exp (/ y - 1))) by (apply ln_increasing; lra). rewrite ln_exp in *. lra. }
    rewrite ln_Rinv in LL by lra. assert (J : 1 - / y = (y - 1) * / y) by (field; lra).
    assert (/ 2 <= / y) by (apply Rinv_le_contravar; lra).
    rewrite Rabs_pos_eq by nra. nra.
  - assert (IZR (m - 2 ^ 53) <= -1).
    { apply IZR_le. assert (m - 2 ^ 53 < 0)%Z; [|lia]. apply lt_IZR. destruct (Rle_or_lt 0 (IZR (m - 2 ^ 53))) as [W|W]; [|exact W]. exfalso. nra. }
    assert (X := exp_ineq1 (y - 1) ltac:(lra)). assert (LL : ln y < ln (exp (y - 1))) by (apply ln_increasing; lra). rewrite ln_exp in LL.
    rewrite Rabs_left by nra. nra.
Qed.
Definition log_nearest (x : f64) : f64 := nearest (ln (B2R x)).
Lemma log_nearest_accurate : accurate_log log_nearest.
Proof.
  intros x F H. assert (U := u_pos).
  assert (B : Rabs (ln (B2R x)) <= 1).
  { assert (E1 := exp_ineq1 1 ltac:(lra)). apply Rabs_le. split.
    - assert (L := ln_le (/ exp 1) (B2R x) ltac:(apply Rinv_0_lt_compat, exp_pos) ltac:(eapply Rle_trans; [apply (Rinv_le_contravar 2); lra|lra])).
      rewrite ln_Rinv, ln_exp in L by apply exp_pos. lra.
    - assert (L := ln_le (B2R x) (exp 1) ltac:(lra) ltac:(lra)). rewrite ln_exp in L. lra. }
  assert (FE := fl_error (ln (B2R x))). assert (ET : eta <= 1).
  { unfold eta. assert (Q := bpow_le radix2 (-1074) 0 ltac:(lia)). change (bpow radix2 0) with 1 in Q. lra. }
  destruct (nearest_rep (ln (B2R x))) as [X Y].
  { unfold fits64. apply Rle_lt_trans with 4; [|apply (bpow_lt radix2 2 1024); reflexivity].
    replace (fl (ln (B2R x))) with ((fl (ln (B2R x)) - ln (B2R x)) + ln (B2R x)) by ring. eapply Rle_trans; [apply Rabs_triang|].
    assert (u * Rabs (ln (B2R x)) <= 1 * 1) by (apply Rmult_le_compat; try lra; [apply Rabs_pos|rewrite u_val; lra]). lra. }
  split; [exact X|]. unfold log_nearest. rewrite Y.
  destruct (Req_dec (B2R x) 1) as [->|N]; [rewrite ln_1, fl_0, Rminus_0_r, Rabs_R0; lra|].
  assert (L := ln_lower x F H N). eapply Rle_trans; [exact FE|].
  assert (E2 : eta <= u * / IZR (2 ^ 54)).
  { rewrite u_val. unfold eta. assert (Q := bpow_le radix2 (-1074) (-108) ltac:(lia)). 
    assert (W : bpow radix2 (-108) = / IZR (2 ^ 108)) by reflexivity. rewrite W in Q.
    replace (/ 9007199254740992 * / IZR (2 ^ 54)) with (/ IZR (2 ^ 107)).
    2:{ rewrite <- Rinv_mult, <- mult_IZR. reflexivity. }
    assert (0 < / IZR (2 ^ 107)) by (apply Rinv_0_lt_compat, IZR_lt; reflexivity).
    assert (/ IZR (2 ^ 108) <= / IZR (2 ^ 107)) by (apply Rinv_le_contravar; [apply IZR_lt; reflexivity|apply IZR_le; vm_compute; discriminate]).
    lra. }
  assert (U2 : / 2 ^ 52 = 2 * u) by (rewrite u_val; lra). rewrite U2.
  assert (u * / IZR (2 ^ 54) <= u * Rabs (ln (B2R x))) by (apply Rmult_le_compat_l; lra). lra.
Qed.
