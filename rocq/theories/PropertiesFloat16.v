(** * PropertiesFloat16: broadcast trends and removed trends computed in binary64 *)
From Coq Require Import QArith Reals Lra Lia List ZArith Bool String.
From Flocq Require Import Core IEEE754.BinarySingleNaN.
From Verif Require Import Py SpecFloat64 SpecTrend SpecIeeeTurner Ieee IeeeTrend IeeeBroadcast ProofsFloat ProofsIeee ProofsFloat10 ProofsFloat11 ProofsFloat22 ProofsFloat25 ProofsFloat26 PropertiesFloat4 ProofsFloat27.
Local Open Scope R_scope.

Lemma ordinary_sized x : ordinary x -> sized 200 x.
Proof. intros H. exact (ordinary_moderate x H). Qed.
Lemma ns_length : unit_length (30417 / 1000) 365 "ns" = Some 1. Proof. reflexivity. Qed.
Lemma ns_slope_ok m unit va s : (0 <= m < 800)%Z -> sized m s -> unit_length (30417 / 1000) 365 unit = Some va ->
  exists p, ns_slope64 unit s = Ok p /\ sized (m + 59) p /\ rel (10.4 * u) (B2R s / va) (B2R p).
Proof.
  intros Hm Hs A. us. unfold ns_slope64. destruct (String.eqb unit "ns") eqn:E.
  - apply String.eqb_eq in E. subst unit. rewrite ns_length in A. injection A as <-. exists s. split; [reflexivity|]. destruct Hs as (F & B & U). split.
    + split; [exact F|]. split; [eapply big_weaken; [|exact B]; lia|eapply Rle_trans; [exact U|apply bpow_le; lia]].
    + unfold rel, Rdiv. rewrite Rinv_1, Rmult_1_r, Rminus_eq_0, Rabs_R0. assert (P := Rabs_pos (B2R s)). nra.
  - destruct (scaled m s unit "ns"%string va 1 Hm Hs A ns_length (or_intror eq_refl)) as (f & Ef & S & R). rewrite Ef. cbn [bind]. eexists. split; [reflexivity|]. split; [exact S|].
    replace (B2R s / va) with (B2R s * (1 / va)) by (unfold Rdiv; ring). exact R.
Qed.
Lemma term_rel m unit va s t : (0 <= m < 600)%Z -> sized m s -> sized 200 t -> unit_length (30417 / 1000) 365 unit = Some va ->
  exists p, ns_slope64 unit s = Ok p /\ sized (m + 260) (p * t)%f64 /\ rel (11.5 * u) (B2R s / va * B2R t) (B2R (p * t)%f64).
Proof.
  intros Hm Hs Ht A. us. destruct (ns_slope_ok m unit va s ltac:(lia) Hs A) as (p & E & Sp & Rp). exists p. split; [exact E|].
  destruct (mul_ok (m + 59) 200 p t ltac:(lia) ltac:(lia) ltac:(lia) Sp Ht) as [S R]. replace (m + 59 + 200 + 1)%Z with (m + 260)%Z in S by lia. split; [exact S|].
  assert (R3 := rel_trans _ _ _ _ _ (Rlt_le _ _ U0) (rel_scale _ (B2R t) _ _ Rp) R). eapply rel_weaken; [|exact R3]. nra.
Qed.

(** C166: a slope per recognised unit of time and a time in nanoseconds give their product. *)
Theorem C166_broadcast : forall unit va slope idx k, unit_length (30417 / 1000) 365 unit = Some va -> ordinary slope -> ordinary (idx k) ->
  let w := B2R slope / va * B2R (idx k) in
  exists r, broadcast64 unit slope idx false k = Ok r /\ is_finite r = true /\ Rabs (B2R r - w) <= 12 / 2 ^ 53 * Rabs w.
Proof.
  intros unit va slope idx k A Hs Ht w. us.
  destruct (term_rel 200 unit va slope (idx k) ltac:(lia) (ordinary_sized _ Hs) (ordinary_sized _ Ht) A) as (p & E & (F & _) & R).
  exists (p * idx k)%f64. unfold broadcast64. rewrite E. split; [reflexivity|]. split; [exact F|]. unfold Rdiv at 1. rewrite <- U2.
  eapply Rle_trans; [exact R|]. apply Rmult_le_compat_r; [apply Rabs_pos|lra].
Qed.
Print Assumptions C166_broadcast.

(** Relative to the first time: exactly zero there; elsewhere the error is proportional to the times, not to their difference. *)
Theorem C166_from_zero : forall unit va slope idx k, unit_length (30417 / 1000) 365 unit = Some va -> ordinary slope -> ordinary (idx k) -> ordinary (idx 0%nat) ->
  exists r, broadcast64 unit slope idx true k = Ok r /\ is_finite r = true /\
  Rabs (B2R r - B2R slope / va * (B2R (idx k) - B2R (idx 0%nat))) <= 13 / 2 ^ 53 * (Rabs (B2R slope / va) * (Rabs (B2R (idx k)) + Rabs (B2R (idx 0%nat)))) /\
  (idx k = idx 0%nat -> B2R r = 0).
Proof.
  intros unit va slope idx k A Hs Ht H0. us.
  destruct (term_rel 200 unit va slope (idx k) ltac:(lia) (ordinary_sized _ Hs) (ordinary_sized _ Ht) A) as (p & E & (F & _ & S) & R).
  destruct (term_rel 200 unit va slope (idx 0%nat) ltac:(lia) (ordinary_sized _ Hs) (ordinary_sized _ H0) A) as (p' & E' & (F' & _ & S') & R').
  assert (p' = p) by congruence. subst p'. exists (p * idx k - p * idx 0%nat)%f64. unfold broadcast64. rewrite E. split; [reflexivity|].
  set (a := (p * idx k)%f64) in *. set (b := (p * idx 0%nat)%f64) in *. set (q := B2R slope / va) in *. set (t := B2R (idx k)) in *. set (t0 := B2R (idx 0%nat)) in *.
  assert (S2 : Rabs (B2R a - B2R b) <= bp (200 + 260 + 1)).
  { rewrite bpow_plus. change (bp 1) with 2. replace (B2R a - B2R b) with (B2R a + - B2R b) by ring. eapply Rle_trans; [apply Rabs_triang|]. rewrite Rabs_Ropp. lra. }
  destruct (sub64_rep a b _ _ (conj F eq_refl) (conj F' eq_refl) (fits_bp _ _ (conj (Zle_bool_imp_le (-1074) (200 + 260 + 1) eq_refl) eq_refl) S2)) as [G V].
  split; [exact G|].
  assert (RD : Rabs (B2R (a - b)%f64 - (B2R a - B2R b)) <= u * Rabs (B2R a - B2R b)).
  { rewrite V. apply grid_fl. replace (B2R a - B2R b) with (B2R a + IZR (-1) * B2R b) by ring. apply grid_add; [|apply grid_mul]; apply grid_B2R. }
  split.
  - unfold Rdiv at 1. rewrite <- U2. destruct (rel_size _ _ _ R) as [Z1 _]. destruct (rel_size _ _ _ R') as [Z2 _]. unfold rel in R, R'.
    rewrite Rabs_mult in R, R', Z1, Z2. set (X := Rabs q * Rabs t) in *. set (Y := Rabs q * Rabs t0) in *.
    assert (T : Rabs (B2R a - B2R b) <= (1 + 11.5 * u) * X + (1 + 11.5 * u) * Y).
    { replace (B2R a - B2R b) with (B2R a + - B2R b) by ring. eapply Rle_trans; [apply Rabs_triang|]. rewrite Rabs_Ropp. lra. }
    replace (B2R (a - b)%f64 - q * (t - t0)) with ((B2R (a - b)%f64 - (B2R a - B2R b)) + ((B2R a - q * t) + - (B2R b - q * t0))) by ring.
    eapply Rle_trans; [apply Rabs_triang|]. assert (T2 := Rabs_triang (B2R a - q * t) (- (B2R b - q * t0))). rewrite Rabs_Ropp in T2.
    rewrite Rmult_plus_distr_l. fold X Y. assert (0 <= X) by (apply Rmult_le_pos; apply Rabs_pos). assert (0 <= Y) by (apply Rmult_le_pos; apply Rabs_pos).
    assert (T3 : u * Rabs (B2R a - B2R b) <= u * (1.1 * X + 1.1 * Y)) by (apply Rmult_le_compat_l; [lra|]; eapply Rle_trans; [exact T|]; nra). nra.
  - intros Q. rewrite V. unfold a, b. rewrite Q, Rminus_eq_0. apply fl_0.
Qed.
Print Assumptions C166_from_zero.

(** A slope per nanosecond, reported per unit and broadcast again, gives the same line. *)
Theorem C166_round_trip : forall unit va slope idx k, unit_length (30417 / 1000) 365 unit = Some va -> ordinary slope -> ordinary (idx k) ->
  exists p r, per64 unit slope = Ok p /\ Rabs (B2R p - B2R slope * va) <= 11 / 2 ^ 53 * Rabs (B2R slope * va) /\
  broadcast64 unit p idx false k = Ok r /\ is_finite r = true /\ Rabs (B2R r - B2R slope * B2R (idx k)) <= 22 / 2 ^ 53 * Rabs (B2R slope * B2R (idx k)).
Proof.
  intros unit va slope idx k A Hs Ht. us. destruct (unit_size _ _ A) as [V1 _].
  destruct (scaled 200 slope "ns"%string unit 1 va ltac:(lia) (ordinary_sized _ Hs) ns_length A (or_introl eq_refl)) as (f & Ef & S & R).
  replace (B2R slope * (va / 1)) with (B2R slope * va) in R by field.
  unfold per64. rewrite Ef. cbn [bind]. set (p := (slope * (lit 1%Q / f))%f64) in *. exists p.
  destruct (term_rel (200 + 59) unit va p (idx k) ltac:(lia) S (ordinary_sized _ Ht) A) as (q & E & (F & _) & R2).
  exists (q * idx k)%f64. split; [reflexivity|]. assert (W : forall c, c / 2 ^ 53 = c * u) by (intros c; unfold Rdiv; rewrite <- U2; reflexivity). rewrite !W.
  split; [eapply Rle_trans; [exact R|]; apply Rmult_le_compat_r; [apply Rabs_pos|lra]|].
  unfold broadcast64. rewrite E. split; [reflexivity|]. split; [exact F|].
  assert (R3 := rel_scale _ (/ va * B2R (idx k)) _ _ R). replace (B2R slope * va * (/ va * B2R (idx k))) with (B2R slope * B2R (idx k)) in R3 by (field; lra).
  replace (B2R p / va * B2R (idx k)) with (B2R p * (/ va * B2R (idx k))) in R2 by (unfold Rdiv; ring).
  assert (N11 : 0 <= 11.5 * u) by lra. assert (R4 := rel_trans _ _ _ _ _ N11 R3 R2). eapply Rle_trans; [exact R4|]. apply Rmult_le_compat_r; [apply Rabs_pos|]. nra.
Qed.
Print Assumptions C166_round_trip.

(** Detrending, given the fitted slope and intercept. *)
Lemma ns_factor : time_conversion_factor64 "ns" "ns" default_month64 default_year64 = Ok (lit 1%Q).
Proof.
  destruct length_default as [Hm Hy]. rewrite (factor_value _ _ "ns"%string "ns"%string (lit 1%Q) (lit 1%Q) Hm Hy eq_refl eq_refl). f_equal. apply B2SF_inj. vm_compute. reflexivity.
Qed.
Lemma per_ns s : is_finite s = true -> exists p, per64 "ns" s = Ok p /\ is_finite p = true /\ B2R p = B2R s.
Proof.
  intros F. unfold per64. rewrite ns_factor. cbn [bind]. eexists. split; [reflexivity|].
  assert (E : (lit 1%Q / lit 1%Q)%f64 = lit 1%Q) by (apply B2SF_inj; vm_compute; reflexivity). rewrite E.
  assert (G : fl (B2R s * 1) = B2R s) by (rewrite Rmult_1_r; apply round_generic; [apply valid_rnd_N|apply generic_format_B2R]).
  destruct (mul64_rep s (lit 1%Q) (B2R s) 1 (conj F eq_refl) PropertiesFloat4.one_rep) as [Fp V]; [rewrite G; exact (rep64_fits s _ (conj F eq_refl))|]. rewrite G in V. split; assumption.
Qed.
Lemma sum_rel a b n : (0 <= n < 1000)%Z -> is_finite a = true -> is_finite b = true -> Rabs (B2R a) <= bp n -> Rabs (B2R b) <= bp n ->
  (is_finite (a + b)%f64 = true /\ Rabs (B2R (a + b)%f64 - (B2R a + B2R b)) <= u * (Rabs (B2R a) + Rabs (B2R b)) /\ Rabs (B2R (a + b)%f64) <= bp (n + 2)) /\
  (is_finite (a - b)%f64 = true /\ Rabs (B2R (a - b)%f64 - (B2R a - B2R b)) <= u * (Rabs (B2R a) + Rabs (B2R b))).
Proof.
  intros Hn Fa Fb Sa Sb. us. assert (Q : bp (n + 1) = bp n * 2) by (rewrite bpow_plus; reflexivity).
  assert (T1 := Rabs_triang (B2R a) (B2R b)). assert (T2 := Rabs_triang (B2R a) (- B2R b)). rewrite Rabs_Ropp in T2. fold (B2R a - B2R b) in T2.
  destruct (add64_rep a b _ _ (conj Fa eq_refl) (conj Fb eq_refl) (fits_bp (n + 1) (B2R a + B2R b) ltac:(lia) ltac:(lra))) as [F1 V1].
  destruct (sub64_rep a b _ _ (conj Fa eq_refl) (conj Fb eq_refl) (fits_bp (n + 1) (B2R a - B2R b) ltac:(lia) ltac:(lra))) as [F2 V2].
  assert (E1 : Rabs (B2R (a + b)%f64 - (B2R a + B2R b)) <= u * Rabs (B2R a + B2R b)) by (rewrite V1; apply grid_fl, grid_add; apply grid_B2R).
  assert (E2 : Rabs (B2R (a - b)%f64 - (B2R a - B2R b)) <= u * Rabs (B2R a - B2R b)).
  { rewrite V2. apply grid_fl. replace (B2R a - B2R b) with (B2R a + IZR (-1) * B2R b) by ring. apply grid_add; [|apply grid_mul]; apply grid_B2R. }
  assert (W1 : u * Rabs (B2R a + B2R b) <= u * (Rabs (B2R a) + Rabs (B2R b))) by (apply Rmult_le_compat_l; lra).
  assert (W2 : u * Rabs (B2R a - B2R b) <= u * (Rabs (B2R a) + Rabs (B2R b))) by (apply Rmult_le_compat_l; lra).
  split; [split; [exact F1|]; split; [lra|]|split; [exact F2|lra]].
  replace (n + 2)%Z with (n + 1 + 1)%Z by lia. apply (abs_rel _ (B2R a + B2R b) _ u ltac:(lra)); [exact E1|lra].
Qed.
Theorem C166_detrend : forall remove slope intercept idx x k, ordinary slope -> ordinary intercept -> ordinary (idx k) -> ordinary (x k) ->
  let line := B2R slope * B2R (idx k) in let b := if remove : bool then B2R intercept else 0 in
  exists r, detrend64 remove slope intercept idx x k = Ok r /\ is_finite r = true /\
  Rabs (B2R r - (B2R (x k) - (line + b))) <= 3.1 / 2 ^ 53 * (Rabs (B2R (x k)) + Rabs line + Rabs b).
Proof.
  intros remove slope intercept idx x k Hs Hi Ht Hx line b. us.
  destruct (per_ns slope (proj1 Hs)) as (p & Ep & Fp & Vp). unfold detrend64. rewrite Ep. cbn [bind]. unfold broadcast64, ns_slope64. cbn [String.eqb Ascii.eqb Bool.eqb bind].
  eexists. split; [reflexivity|].
  assert (Sp : sized 200 p). { destruct (ordinary_sized _ Hs) as (_ & B & S). split; [exact Fp|]. rewrite Vp. split; assumption. }
  destruct (mul_ok 200 200 p (idx k) ltac:(lia) ltac:(lia) ltac:(lia) Sp (ordinary_sized _ Ht)) as [(Fm & _ & Sm) Rm]. rewrite Vp in Rm. fold line in Rm.
  set (m := (p * idx k)%f64) in *. unfold rel in Rm. assert (Zm : Rabs (B2R m) <= (1 + u) * Rabs line) by (destruct (rel_size u line (B2R m) Rm); assumption).
  destruct (ordinary_sized _ Hx) as (Fx & _ & Sx). destruct (ordinary_sized _ Hi) as (Fi & _ & Si).
  assert (W : 3.1 / 2 ^ 53 = 3.1 * u) by (rewrite U2; reflexivity). rewrite W.
  assert (L1 : bp 200 <= bp 401) by (apply bpow_le; lia). assert (L2 : bp 200 <= bp 403) by (apply bpow_le; lia).
  assert (P1 := Rabs_pos (B2R (x k))). assert (P2 := Rabs_pos line). destruct remove; unfold b in *.
  - destruct (sum_rel m intercept 401 ltac:(lia) Fm Fi Sm ltac:(lra)) as [(Ff & Ef & Sf) _]. set (f := (m + intercept)%f64) in *.
    destruct (sum_rel (x k) f 403 ltac:(lia) Fx Ff ltac:(lra) Sf) as [_ (Fr & Er)]. split; [exact Fr|].
    set (X := Rabs (B2R (x k))) in *. set (I := Rabs (B2R intercept)) in *. assert (P3 : 0 <= I) by apply Rabs_pos. set (Y := Rabs line) in *.
    assert (Ef' : Rabs (B2R f - (B2R m + B2R intercept)) <= u * (1.01 * Y + I)) by (eapply Rle_trans; [exact Ef|]; apply Rmult_le_compat_l; [lra|]; nra).
    assert (Zf : Rabs (B2R f) <= 1.01 * (1.01 * Y + I)).
    { replace (B2R f) with ((B2R f - (B2R m + B2R intercept)) + (B2R m + B2R intercept)) by ring. eapply Rle_trans; [apply Rabs_triang|].
      assert (T := Rabs_triang (B2R m) (B2R intercept)). fold I in T. assert (u * (1.01 * Y + I) <= 0.001 * (1.01 * Y + I)) by (apply Rmult_le_compat_r; lra). nra. }
    assert (Er' : Rabs (B2R (x k - f)%f64 - (B2R (x k) - B2R f)) <= u * (X + 1.01 * (1.01 * Y + I))) by (eapply Rle_trans; [exact Er|]; apply Rmult_le_compat_l; lra).
    replace (B2R (x k - f)%f64 - (B2R (x k) - (line + B2R intercept))) with
      ((B2R (x k - f)%f64 - (B2R (x k) - B2R f)) + - ((B2R f - (B2R m + B2R intercept)) + (B2R m - line))) by ring.
    eapply Rle_trans; [apply Rabs_triang|]. rewrite Rabs_Ropp. assert (T := Rabs_triang (B2R f - (B2R m + B2R intercept)) (B2R m - line)).
    assert (0 <= u * X) by nra. assert (0 <= u * Y) by nra. assert (0 <= u * I) by nra. lra.
  - destruct (sum_rel (x k) m 401 ltac:(lia) Fx Fm ltac:(lra) Sm) as [_ (Fr & Er)]. split; [exact Fr|]. rewrite Rabs_R0, !Rplus_0_r.
    set (X := Rabs (B2R (x k))) in *. set (Y := Rabs line) in *.
    replace (B2R (x k - m)%f64 - (B2R (x k) - line)) with ((B2R (x k - m)%f64 - (B2R (x k) - B2R m)) + - (B2R m - line)) by ring.
    eapply Rle_trans; [apply Rabs_triang|]. rewrite Rabs_Ropp. assert (u * (X + Rabs (B2R m)) <= u * (X + 1.01 * Y)) by (apply Rmult_le_compat_l; nra).
    assert (0 <= u * X) by nra. assert (0 <= u * Y) by nra. lra.
Qed.
Print Assumptions C166_detrend.

(** Missing values stay missing; units that are not recognised are rejected. *)
Theorem C166_missing : forall remove slope intercept idx x k, is_finite slope = true -> x k = B754_nan -> detrend64 remove slope intercept idx x k = Ok B754_nan.
Proof.
  intros remove slope intercept idx x k F N. destruct (per_ns slope F) as (p & Ep & _). unfold detrend64. rewrite Ep. cbn [bind]. unfold broadcast64, ns_slope64. cbn [String.eqb Ascii.eqb Bool.eqb bind].
  rewrite N. reflexivity.
Qed.
Print Assumptions C166_missing.
Import ListNotations.
Theorem C166_unrecognised : forall unit slope idx zero k, ~ In unit ["ns"; "s"; "min"; "hr"; "day"; "mon"; "yr"]%string ->
  broadcast64 unit slope idx zero k = Err AssertionError /\ per64 unit slope = Err AssertionError.
Proof.
  intros unit slope idx zero k N. destruct length_default as [Hm Hy]. unfold broadcast64, ns_slope64, per64.
  destruct (String.eqb_spec unit "ns") as [->|E]; [exfalso; apply N; left; reflexivity|].
  rewrite (proj2 (C132_unrecognised64 _ _ unit "ns"%string Hm Hy) (or_introl N)), (proj2 (C132_unrecognised64 _ _ "ns"%string unit Hm Hy) (or_intror N)). split; reflexivity.
Qed.
Print Assumptions C166_unrecognised.

(** Three millimetres per year for a thousand days. *)
Example C166_case :
  ordinary (of_Z 3) /\ ordinary (of_Z 86400000000000000) /\ unit_length (30417 / 1000) 365 "yr" = Some (365 * (86400 * 1000000000)) /\
  (exists r, broadcast64 "yr" (of_Z 3) (fun k => of_Z (86400000000000000 * Z.of_nat k)) false 1 = Ok r /\ Rabs (B2R r - 3 / 365 * 1000) <= 2e-14) /\
  (exists r, broadcast64 "yr" (of_Z 3) (fun k => of_Z (86400000000000000 * (1 + Z.of_nat k))) true 0 = Ok r /\ B2R r = 0) /\
  broadcast64 "year" (of_Z 3) (fun k => of_Z (Z.of_nat k)) false 1 = Err AssertionError.
Proof.
  assert (O3 : ordinary (of_Z 3)) by (eapply ordinary_SF; [vm_compute; reflexivity|reflexivity]).
  assert (OT : ordinary (of_Z 86400000000000000)) by (eapply ordinary_SF; [vm_compute; reflexivity|reflexivity]).
  split; [exact O3|]. split; [exact OT|]. split; [reflexivity|]. split; [|split].
  - destruct (C166_broadcast "yr"%string _ (of_Z 3) (fun k => of_Z (86400000000000000 * Z.of_nat k)) 1%nat eq_refl O3 OT) as (r & E & _ & B). exists r. split; [exact E|].
    assert (ET : B2SF (of_Z (86400000000000000 * Z.of_nat 1)) = B2SF (of_Z 86400000000000000)) by reflexivity.
    assert (VT : B2R (of_Z 86400000000000000) = 86400000000000000).
    { assert (X : B2SF (of_Z 86400000000000000) = SpecFloat.S754_finite false 5400000000000000 4) by (vm_compute; reflexivity). rewrite <- SF2R_B2SF, X.
      unfold SF2R, F2R, Defs.Fnum, Defs.Fexp, cond_Zopp. change (bpow radix2 4) with 16. lra. }
    change (86400000000000000 * Z.of_nat 1)%Z with 86400000000000000%Z in B. rewrite VT, (proj2 (of_Z_rep 3 eq_refl)) in B.
    replace (3 / (365 * (86400 * 1000000000)) * 86400000000000000) with (3 / 365 * 1000) in B by lra. eapply Rle_trans; [exact B|]. rewrite Rabs_pos_eq by lra. lra.
  - destruct (C166_from_zero "yr"%string _ (of_Z 3) (fun k => of_Z (86400000000000000 * (1 + Z.of_nat k))) 0%nat eq_refl O3 OT OT) as (r & E & _ & _ & Z).
    exists r. split; [exact E|apply Z; reflexivity].
  - refine (proj1 (C166_unrecognised "year"%string (of_Z 3) (fun k => of_Z (Z.of_nat k)) false 1%nat _)). intros [X|[X|[X|[X|[X|[X|[X|[]]]]]]]]; discriminate X.
Qed.
