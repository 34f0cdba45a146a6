(** * PropertiesTrend: C59 - C65, C81 *)
From Coq Require Import Reals ZArith List String Ascii Bool Arith Lia Lra Psatz.
From Verif Require Import Num NumFacts Py Arr ArrFacts Trend SpecTime SpecTrend ProofsUtil ProofsFields ProofsTide ProofsStericOk ProofsGeo2 ProofsTrend ProofsTrend2 ProofsTrend3 ProofsTrend4 ProofsAvg.
Import ListNotations.
Local Open Scope string_scope.
Local Open Scope R_scope.

(** ** C59 *)
(** The factor is the ratio of the lengths of the two units. *)
Theorem C59_ratio : forall dm dy a b va vb, dm <> 0 -> dy <> 0 ->
  unit_length dm dy a = Some va -> unit_length dm dy b = Some vb ->
  time_conversion_factor a b dm dy = Ok (va / vb).
Proof. intros. apply factor_ok; assumption. Qed.
Print Assumptions C59_ratio.

Lemma length_pos dm dy u v : 0 < dm -> 0 < dy -> unit_length dm dy u = Some v -> 0 < v.
Proof.
  intros H1 H2. unfold unit_length.
  repeat (match goal with |- context [String.eqb u ?k] => destruct (String.eqb_spec u k) as [->|?] end; [intros H; injection H as <-; nra|]).
  discriminate.
Qed.

Theorem C59_consistent : forall dm dy a b c, 0 < dm -> 0 < dy ->
  unit_length dm dy a <> None -> unit_length dm dy b <> None -> unit_length dm dy c <> None ->
  exists ab bc ac ba,
    time_conversion_factor a b dm dy = Ok ab /\ time_conversion_factor b c dm dy = Ok bc /\
    time_conversion_factor a c dm dy = Ok ac /\ time_conversion_factor b a dm dy = Ok ba /\
    time_conversion_factor a a dm dy = Ok 1 /\
    ab * bc = ac /\ ab = 1 / ba /\ 0 < ab.
Proof.
  intros dm dy a b c Hm Hy Ha Hb Hc.
  destruct (unit_length dm dy a) as [va|] eqn:A; [|congruence].
  destruct (unit_length dm dy b) as [vb|] eqn:B; [|congruence].
  destruct (unit_length dm dy c) as [vc|] eqn:C; [|congruence].
  pose proof (length_pos _ _ _ _ Hm Hy A). pose proof (length_pos _ _ _ _ Hm Hy B). pose proof (length_pos _ _ _ _ Hm Hy C).
  exists (va / vb), (vb / vc), (va / vc), (vb / va).
  rewrite !(factor_ok dm dy a b va vb), !(factor_ok dm dy b c vb vc), !(factor_ok dm dy a c va vc), !(factor_ok dm dy b a vb va), !(factor_ok dm dy a a va va) by (assumption || lra).
  repeat (split; [reflexivity|]). split; [f_equal; field; lra|]. split; [field; lra|]. split; [field; lra|].
  apply Rdiv_lt_0_compat; assumption.
Qed.
Print Assumptions C59_consistent.

(** Exactly seven unit names are recognised; any other raises AssertionError. *)
Theorem C59_unrecognised : forall dm dy a b, dm <> 0 -> dy <> 0 ->
  (time_conversion_factor a b dm dy = Err AssertionError <->
   ~ In a ["ns"; "s"; "min"; "hr"; "day"; "mon"; "yr"] \/ ~ In b ["ns"; "s"; "min"; "hr"; "day"; "mon"; "yr"]).
Proof.
  intros dm dy a b Hm Hy.
  assert (K : forall u, In u ["ns"; "s"; "min"; "hr"; "day"; "mon"; "yr"] -> exists v, unit_length dm dy u = Some v).
  { intros u Hu. cbn [In] in Hu. unfold unit_length. repeat (destruct Hu as [<- |Hu]; [eexists; reflexivity|]). destruct Hu. }
  split.
  - intros H. destruct (unit_length dm dy a) as [va|] eqn:A.
    + destruct (unit_length dm dy b) as [vb|] eqn:B; [rewrite (factor_ok _ _ _ _ _ _ Hm Hy A B) in H; discriminate|].
      right. intros I. apply K in I. destruct I as [v I]. congruence.
    + left. intros I. apply K in I. destruct I as [v I]. congruence.
  - intros H. apply factor_unknown; [assumption|assumption|].
    destruct (unit_length dm dy a) as [va|] eqn:A; [|tauto]. destruct (unit_length dm dy b) as [vb|] eqn:B; [|tauto].
    exfalso. apply units_In in A. apply units_In in B. tauto.
Qed.
Print Assumptions C59_unrecognised.

(** A zero month or year length raises whatever the units asked for. *)
Theorem C59_zero_length : forall a b dm dy, dm = 0 \/ dy = 0 -> time_conversion_factor a b dm dy = Err ZeroDivisionError.
Proof. exact factor_zero. Qed.
Print Assumptions C59_zero_length.

Example C59_example : time_conversion_factor "day" "hr" default_month default_year = Ok 24
  /\ time_conversion_factor "yr" "mon" 30 360 = Ok 12 /\ time_conversion_factor "year" "s" 30 360 = Err AssertionError.
Proof.
  split; [|split].
  - rewrite (C59_ratio default_month default_year "day" "hr" (86400 * 1000000000) (3600 * 1000000000)); [f_equal; field|unfold default_month; lra|unfold default_year; lra|reflexivity|reflexivity].
  - rewrite (C59_ratio 30 360 "yr" "mon" (360 * (86400 * 1000000000)) (30 * (86400 * 1000000000))); [f_equal; field|lra|lra|reflexivity|reflexivity].
  - apply C59_unrecognised; [lra|lra|]. left. cbn. intuition discriminate.
Qed.

(** ** C60 *)
(** The number of nanoseconds in the unit of the slope; 1 on an axis without dates. *)
Definition slope_unit (ix : taxis1) (tu : option string) (k : R) : Prop :=
  if ix_cf ix then unit_length (30417 / 1000) 365 (match tu with None => "ns" | Some u => u end) = Some k else k = 1.

Lemma calc_inv ix x tu s i : calc_linear_trend ix x tu = Ok (s, i) ->
  In (ix_dim ix) (names (da_data x)) /\ sumsq ix <> 0 /\ exists v, unit_scale ix tu v.
Proof.
  unfold calc_linear_trend. intros H.
  destruct (dget (ix_dim ix) (adims (da_data x))) as [n|] eqn:D; [|discriminate]. cbn [bind] in H.
  change (Rsum_list _ _) with (sumsq ix) in H. destruct (Reqb (sumsq ix) 0) eqn:Z; [discriminate|]. cbn [bind] in H.
  split; [|split].
  - apply dget_In in D. unfold names. apply in_map_iff. eexists; split; [|exact D]; reflexivity.
  - apply Reqb_false in Z. exact Z.
  - unfold unit_scale. destruct (ix_cf ix); [|eauto]. set (w := match tu with None => "ns" | Some u => u end) in *.
    destruct (unit_length default_month default_year w) as [v|] eqn:K; [exists v; exact K|].
    rewrite (factor_unknown "ns" w) in H; [discriminate| | |right; exact K]; unfold default_month, default_year; lra.
Qed.

(** At every grid point with valid samples at two different times, the slope [m] (per
    nanosecond) and intercept [b] beat every other line. *)
Theorem C60_least_squares : forall ix x tu s i, calc_linear_trend ix x tu = Ok (s, i) -> no_infinity ix (da_data x) ->
  exists k, slope_unit ix tu k /\ 0 < k /\
  forall e, let n := ix_n ix in let t := ix_val ix in let y j := at_ (da_data x) (upd e (ix_dim ix) j) in
    two_times n t y ->
    exists m b, at_ (da_data s) e = Fin (m * k) /\ at_ (da_data i) e = Fin b /\
      forall m' b', ssr n t y m b <= ssr n t y m' b' /\ (ssr n t y m' b' <= ssr n t y m b -> m' = m /\ b' = b).
Proof.
  intros ix x tu s i H HF. destruct (calc_inv _ _ _ _ _ H) as (Hd & Hs & v & Hv).
  destruct (calc_ok ix x tu v Hd Hs Hv) as (s' & i' & E & _ & _ & _ & _ & Vs & Vi & _). rewrite H in E. apply Ok_inj in E. injection E as <- <-.
  exists v. split; [exact Hv|]. split; [exact (scale_pos _ _ _ Hv)|]. intros e n t y T.
  assert (VR : valid_rows n y <> []) by (destruct T as (j & _ & Hj & _ & Vj & _); exact (rows_nonempty n y j Hj Vj)).
  destruct (fit_ok n t y Hs (fun j _ => HF _) VR) as (m & b & F & N1 & N2 & _).
  assert (F' : fit_of ix (da_data x) e = (Fin m, Fin b)) by exact F.
  exists m, b. rewrite Vs, Vi, F'. cbn [fst snd fmul]. split; [reflexivity|]. split; [reflexivity|].
  intros m' b'. split; [apply ssr_min; assumption|apply ssr_unique; assumption].
Qed.
Print Assumptions C60_least_squares.

(** Exactly linear data are reproduced. *)
Theorem C60_linear_data : forall ix x tu s i k p q e, calc_linear_trend ix x tu = Ok (s, i) -> no_infinity ix (da_data x) ->
  slope_unit ix tu k ->
  let y j := at_ (da_data x) (upd e (ix_dim ix) j) in
  two_times (ix_n ix) (ix_val ix) y ->
  (forall j, (j < ix_n ix)%nat -> notnull (y j) = true -> y j = Fin (p * ix_val ix j + q)) ->
  at_ (da_data s) e = Fin (p * k) /\ at_ (da_data i) e = Fin q.
Proof.
  intros ix x tu s i k p q e H HF Hk y T L. destruct (C60_least_squares _ _ _ _ _ H HF) as (k' & Hk' & _ & G).
  assert (k' = k) as -> by (unfold slope_unit in *; destruct (ix_cf ix); congruence).
  destruct (G e T) as (m & b & -> & -> & M). destruct (M p q) as [_ U].
  destruct U as [-> ->]; [|split; reflexivity].
  assert (Z : ssr (ix_n ix) (ix_val ix) y p q = 0).
  { unfold ssr. rewrite (Sum_if_ext _ _ (fun j => notnull (y j)) _ (fun _ => 0 * 0)).
    - rewrite S_scal. ring.
    - intros; reflexivity.
    - intros j Hj Vj. rewrite (L j Hj Vj). cbn [val]. ring. }
  change (ssr (ix_n ix) (ix_val ix) y p q <= ssr (ix_n ix) (ix_val ix) y m b). rewrite Z.
  unfold ssr. apply S_nonneg. intros j. apply pow2_ge_0.
Qed.
Print Assumptions C60_linear_data.

(** Nothing to fit: missing. *)
Theorem C60_all_missing : forall ix x tu s i e, calc_linear_trend ix x tu = Ok (s, i) ->
  (forall j, (j < ix_n ix)%nat -> at_ (da_data x) (upd e (ix_dim ix) j) = NaN) ->
  at_ (da_data s) e = NaN /\ at_ (da_data i) e = NaN.
Proof.
  intros ix x tu s i e H N. destruct (calc_inv _ _ _ _ _ H) as (Hd & Hs & v & Hv).
  destruct (calc_ok ix x tu v Hd Hs Hv) as (s' & i' & E & _ & _ & _ & _ & Vs & Vi & _). rewrite H in E. apply Ok_inj in E. injection E as <- <-.
  rewrite Vs, Vi. unfold fit_of, polyfit1.
  destruct (valid_rows (ix_n ix) (series ix (da_data x) e)) as [|r rs] eqn:R; [split; reflexivity|].
  assert (I : In r (valid_rows (ix_n ix) (series ix (da_data x) e))) by (rewrite R; left; reflexivity).
  apply filter_In in I. destruct I as [I V]. apply in_seq in I. unfold series in V. rewrite N in V by lia. discriminate.
Qed.
Print Assumptions C60_all_missing.

(** When it works, and what it is called. *)
Theorem C60_succeeds : forall ix x tu,
  (exists s i, calc_linear_trend ix x tu = Ok (s, i)) <->
  In (ix_dim ix) (names (da_data x)) /\ (exists j, (j < ix_n ix)%nat /\ ix_val ix j <> 0) /\ exists k, slope_unit ix tu k.
Proof.
  intros ix x tu. split.
  - intros (s & i & H). destruct (calc_inv _ _ _ _ _ H) as (Hd & Hs & v & Hv). apply sumsq_nz in Hs. split; [exact Hd|]. split; [exact Hs|exists v; exact Hv].
  - intros (Hd & Hs & v & Hv). apply sumsq_nz in Hs. destruct (calc_ok ix x tu v Hd Hs Hv) as (s & i & E & _). eauto.
Qed.
Print Assumptions C60_succeeds.

Theorem C60_metadata : forall ix x tu s i, calc_linear_trend ix x tu = Ok (s, i) ->
  da_name s = da_name x ++ "_slope" /\ da_name i = da_name x ++ "_intercept" /\
  adims (da_data s) = drop_dim (ix_dim ix) (adims (da_data x)) /\ adims (da_data i) = drop_dim (ix_dim ix) (adims (da_data x)) /\
  (ix_cf ix = true -> forall u, dget "units" (da_attrs x) = Some u -> tu <> None ->
     exists w, tu = Some w /\ dget "units" (da_attrs s) = Some (u ++ "  " ++ w ++ "-1")).
Proof.
  intros ix x tu s i H. destruct (calc_inv _ _ _ _ _ H) as (Hd & Hs & v & Hv).
  destruct (calc_ok ix x tu v Hd Hs Hv) as (s' & i' & E & N1 & N2 & D1 & D2 & _ & _ & U). rewrite H in E. apply Ok_inj in E. injection E as <- <-.
  repeat (split; [assumption|]). intros C u Hu T. destruct tu as [w|]; [|congruence]. exists w. split; [reflexivity|].
  rewrite (U C), Hu, app_assoc_s. reflexivity.
Qed.
Print Assumptions C60_metadata.

(** Three samples 1, missing, 5 at times 1, 2, 3. *)
Definition ex_ix (cf : bool) (d : string) : taxis1 := mkIx d cf 3 (fun i => INR (S i)).
Definition ex_da (d : string) (u : dict string) : darr :=
  mkDarr "ssh" (mkArr [(d, 3%nat)] (fun e => match e d with 0%nat => Fin 1 | 1%nat => NaN | _ => Fin 5 end)) u.

Example C60_example : exists s i e, calc_linear_trend (ex_ix true "time") (ex_da "time" [("units", "m")]) (Some "yr") = Ok (s, i)
  /\ at_ (da_data s) e = Fin (2 * (365 * (86400 * 1000000000))) /\ at_ (da_data i) e = Fin (Ropp 1)
  /\ dget "units" (da_attrs s) = Some "m  yr-1".
Proof.
  assert (S : exists s i, calc_linear_trend (ex_ix true "time") (ex_da "time" [("units", "m")]) (Some "yr") = Ok (s, i)).
  { apply C60_succeeds. split; [left; reflexivity|]. split; [exists 0%nat; cbn; split; [lia|lra]|]. eexists. reflexivity. }
  destruct S as (s & i & S). exists s, i, (fun _ => 0%nat). split; [exact S|].
  assert (F : no_infinity (ex_ix true "time") (da_data (ex_da "time" [("units", "m")]))) by (intros e; cbn; destruct (e "time") as [|[|]]; exact I).
  destruct (C60_linear_data _ _ _ _ _ (365 * (86400 * 1000000000)) 2 (Ropp 1) (fun _ => 0%nat) S F) as [A B].
  - reflexivity.
  - exists 0%nat, 2%nat. cbn. repeat split; lia || lra || reflexivity.
  - intros [|[|[|]]] Hj; cbn in *; try discriminate; try lia; intros _; f_equal; lra.
  - split; [exact A|]. split; [exact B|]. destruct (C60_metadata _ _ _ _ _ S) as (_ & _ & _ & _ & U).
    destruct (U eq_refl "m" eq_refl) as (w & W & Q); [discriminate|]. injection W as <-. exact Q.
Qed.

(** ** C61 *)
(** [linear_detrend] works on every detrendable array; shape, name and units are kept. *)
Theorem C61_total : forall ix x mode, detrendable ix x -> mode = "remove" \/ mode = "correct" ->
  exists r, linear_detrend ix (XArray x) 1 mode = Ok (XArray r) /\ da_name r = da_name x /\
    adims (da_data r) = adims (da_data x) /\ forall k, k <> "detrend_comment" -> dget k (da_attrs r) = dget k (da_attrs x).
Proof.
  intros ix x mode HD Hm. destruct (detrend_ok ix x mode HD Hm) as (r & E & N & D & _ & A). exists r. unfold linear_detrend. rewrite E. cbn [bind]. auto.
Qed.
Print Assumptions C61_total.

Lemma ld_inv ix x mode r : linear_detrend ix (XArray x) 1 mode = Ok (XArray r) -> detrend_array ix x 1 mode = Ok r.
Proof. cbn [linear_detrend]. destruct (detrend_array ix x 1 mode); cbn [bind]; congruence. Qed.

(** Residuals through every point: same gaps as the input, zero sum, no correlation with
    time. *)
Theorem C61_residuals : forall ix x r, detrendable ix x -> no_infinity ix (da_data x) ->
  linear_detrend ix (XArray x) 1 "remove" = Ok (XArray r) ->
  forall e, let n := ix_n ix in let y j := at_ (da_data x) (upd e (ix_dim ix) j) in let z j := at_ (da_data r) (upd e (ix_dim ix) j) in
    (forall j, (j < n)%nat -> notnull (z j) = notnull (y j)) /\
    Sum_if n (fun j => notnull (z j)) (fun j => val (z j)) = 0 /\
    Sum_if n (fun j => notnull (z j)) (fun j => ix_val ix j * val (z j)) = 0.
Proof.
  intros ix x r HD HF H e n y z. apply ld_inv in H.
  assert (Hm : "remove" = "remove" \/ "remove" = "correct") by auto.
  split; [intros j Hj; apply (resid_valid ix x "remove" r e HD HF Hm H j Hj)|].
  destruct (valid_rows n y) eqn:E.
  - assert (Z : forall j, (j < n)%nat -> notnull (z j) = false).
    { intros j Hj. unfold z. rewrite (resid_missing ix x "remove" r e HD Hm H E j Hj). reflexivity. }
    split; apply Sum_if_none; exact Z.
  - destruct (resid_some ix x "remove" r e HD HF Hm H) as (m & b & _ & N1 & N2 & V); [fold n y; rewrite E; discriminate|].
    assert (Q : forall j, (j < n)%nat -> notnull (z j) = notnull (y j)) by (intros j Hj; apply (resid_valid ix x "remove" r e HD HF Hm H j Hj)).
    assert (Vz : forall j, (j < n)%nat -> notnull (y j) = true -> val (z j) = val (y j) - (m * ix_val ix j + b)).
    { intros j Hj Vy. unfold z. rewrite V. fold (y j). pose proof (HF (upd e (ix_dim ix) j)) as P. fold (y j) in P.
      destruct (y j); [discriminate|destruct P|]. reflexivity. }
    split; [rewrite <- N1|rewrite <- N2]; (apply Sum_if_ext; [exact Q|]); intros j Hj Vy; cbv beta; (rewrite (Vz j Hj); [reflexivity|exact Vy]).
Qed.
Print Assumptions C61_residuals.

(** What is removed is the least-squares line of C60: no other line leaves a smaller sum
    of squares. *)
Theorem C61_smallest : forall ix x r, detrendable ix x -> no_infinity ix (da_data x) ->
  linear_detrend ix (XArray x) 1 "remove" = Ok (XArray r) ->
  forall e m' b', let n := ix_n ix in let y j := at_ (da_data x) (upd e (ix_dim ix) j) in let z j := at_ (da_data r) (upd e (ix_dim ix) j) in
    (exists m b, forall j v, (j < n)%nat -> y j = Fin v -> z j = Fin (v - (m * ix_val ix j + b))) /\
    Sum_if n (fun j => notnull (z j)) (fun j => val (z j) ^ 2) <= ssr n (ix_val ix) y m' b'.
Proof.
  intros ix x r HD HF H e m' b' n y z. apply ld_inv in H.
  assert (Hm : "remove" = "remove" \/ "remove" = "correct") by auto.
  destruct (valid_rows n y) eqn:E.
  - split.
    + exists 0, 0. intros j v Hj Hy. exfalso. pose proof (rows_empty n y E j Hj) as R. rewrite Hy in R. discriminate.
    + rewrite Sum_if_none; [unfold ssr; apply S_nonneg; intros; apply pow2_ge_0|].
      intros j Hj. unfold z. rewrite (resid_missing ix x "remove" r e HD Hm H E j Hj). reflexivity.
  - destruct (resid_some ix x "remove" r e HD HF Hm H) as (m & b & _ & N1 & N2 & V); [fold n y; rewrite E; discriminate|].
    split.
    + exists m, b. intros j v Hj Hy. unfold z. rewrite V. fold (y j). rewrite Hy. reflexivity.
    + apply Rle_trans with (ssr n (ix_val ix) y m b); [right|apply ssr_min; assumption].
      unfold ssr. apply Sum_if_ext; [intros j Hj; apply (resid_valid ix x "remove" r e HD HF Hm H j Hj)|].
      intros j Hj Vy. unfold z in *. rewrite V in *. fold (y j) in *. pose proof (HF (upd e (ix_dim ix) j)) as P. fold (y j) in P.
      destruct (y j); [discriminate|destruct P|]. reflexivity.
Qed.
Print Assumptions C61_smallest.

(** Detrending again works and changes no value. *)
Theorem C61_idempotent : forall ix x r, detrendable ix x -> no_infinity ix (da_data x) ->
  linear_detrend ix (XArray x) 1 "remove" = Ok (XArray r) ->
  exists r', linear_detrend ix (XArray r) 1 "remove" = Ok (XArray r') /\ adims (da_data r') = adims (da_data r) /\
    forall e, (e (ix_dim ix) < ix_n ix)%nat -> at_ (da_data r') e = at_ (da_data r) e.
Proof.
  intros ix x r HD HF H. pose proof (ld_inv _ _ _ _ H) as H'.
  assert (Hm : "remove" = "remove" \/ "remove" = "correct") by auto.
  pose proof (detrend_detrendable ix x "remove" r HD Hm H') as HD'.
  pose proof (detrend_finite ix x "remove" r HD HF Hm H') as HF'.
  destruct (detrend_ok ix r "remove" HD' Hm) as (r' & E & _ & D & V & _).
  exists r'. split; [unfold linear_detrend; rewrite E; reflexivity|]. split; [exact D|].
  intros e He. destruct (C61_residuals ix x r HD HF H e) as (_ & Z1 & Z2). cbn zeta in *.
  set (z := fun j => at_ (da_data r) (upd e (ix_dim ix) j)) in *.
  assert (Ez : at_ (da_data r) e = z (e (ix_dim ix))) by (unfold z; now rewrite upd_id).
  destruct (valid_rows (ix_n ix) z) eqn:R.
  - pose proof (rows_empty _ z R _ He) as N. pose proof (HF' e) as P. rewrite V, Ez in *. destruct (z (e (ix_dim ix))); [reflexivity|destruct P|discriminate].
  - destruct (fit_ok (ix_n ix) (ix_val ix) z (sum_nz ix r HD') (fun j _ => HF' _)) as (m & b & F & _ & _ & O); [rewrite R; discriminate|].
    destruct (O Z1 Z2) as [-> ->]. assert (F' : fit_of ix (da_data r) e = (Fin 0, Fin 0)) by exact F.
    rewrite V. unfold line_at. rewrite F'. cbn [String.eqb Ascii.eqb Bool.eqb fst snd fmul fadd].
    pose proof (HF' e) as P. destruct (at_ (da_data r) e); [reflexivity|destruct P|]. cbn. f_equal. ring.
Qed.
Print Assumptions C61_idempotent.

(** Adding a line, with its own slope and offset at each grid point, changes nothing. *)
Theorem C61_line_invariant : forall ix x x' p q r r', detrendable ix x -> detrendable ix x' -> no_infinity ix (da_data x) ->
  (forall e i, p (upd e (ix_dim ix) i) = p e /\ q (upd e (ix_dim ix) i) = q e) ->
  (forall e, at_ (da_data x') e = fadd (at_ (da_data x) e) (Fin (p e * ix_val ix (e (ix_dim ix)) + q e))) ->
  linear_detrend ix (XArray x) 1 "remove" = Ok (XArray r) -> linear_detrend ix (XArray x') 1 "remove" = Ok (XArray r') ->
  forall e, (e (ix_dim ix) < ix_n ix)%nat -> at_ (da_data r') e = at_ (da_data r) e.
Proof.
  intros ix x x' p q r r' HD HD' HF Hpq Hx H H' e He. apply ld_inv in H. apply ld_inv in H'.
  assert (Hm : "remove" = "remove" \/ "remove" = "correct") by auto.
  assert (HF' : no_infinity ix (da_data x')).
  { intros e0. rewrite Hx. pose proof (HF e0) as P. destruct (at_ (da_data x) e0); [exact I|destruct P|exact I]. }
  set (n := ix_n ix). set (t := ix_val ix).
  set (y := fun j => at_ (da_data x) (upd e (ix_dim ix) j)). set (y' := fun j => at_ (da_data x') (upd e (ix_dim ix) j)).
  assert (Y : forall j, y' j = fadd (y j) (Fin (p e * t j + q e))).
  { intros j. unfold y', y. rewrite Hx. destruct (Hpq e j) as [-> ->]. rewrite upd_same. reflexivity. }
  assert (Vd : forall j, notnull (y' j) = notnull (y j)) by (intros j; rewrite Y; pose proof (HF (upd e (ix_dim ix) j)) as P; fold (y j) in P; destruct (y j); [reflexivity|destruct P|reflexivity]).
  assert (VR : valid_rows n y' = valid_rows n y) by (unfold valid_rows; apply filter_ext; intros; apply Vd).
  assert (E0 : forall a, at_ a e = at_ a (upd e (ix_dim ix) (e (ix_dim ix)))) by (intros; now rewrite upd_id).
  destruct (valid_rows n y) eqn:R.
  - rewrite (E0 (da_data r)), (E0 (da_data r')).
    rewrite (resid_missing ix x "remove" r e HD Hm H R _ He). apply (resid_missing ix x' "remove" r' e HD' Hm H' VR _ He).
  - destruct (resid_some ix x "remove" r e HD HF Hm H) as (m & b & _ & N1 & N2 & V); [fold n y; rewrite R; discriminate|].
    destruct (resid_some ix x' "remove" r' e HD' HF' Hm H') as (m' & b' & _ & N1' & N2' & V'); [fold n y'; rewrite VR; discriminate|].
    fold n t y in N1, N2. fold n t y' in N1', N2'.
    rewrite (E0 (da_data r)), (E0 (da_data r')), V, V'. fold (y (e (ix_dim ix))) (y' (e (ix_dim ix))) (t (e (ix_dim ix))).
    assert (VV : forall j, notnull (y j) = true -> val (y' j) = val (y j) + (p e * t j + q e)).
    { intros j Vj. rewrite Y. pose proof (HF (upd e (ix_dim ix) j)) as P. fold (y j) in P. destruct (y j); [discriminate|destruct P|reflexivity]. }
    pose proof (same_values n t y m b N1 N2 (m' - p e) (b' - q e)) as SV.
    destruct (notnull (y (e (ix_dim ix)))) eqn:Vj.
    + specialize (fun A B => SV A B (e (ix_dim ix)) He Vj).
      assert (SV' : (m' - p e) * t (e (ix_dim ix)) + (b' - q e) = m * t (e (ix_dim ix)) + b).
      { apply SV; [rewrite <- N1'|rewrite <- N2']; (apply Sum_if_ext; [intros; symmetry; apply Vd|]); intros j Hj Vj'; fold (y' j) in Vj' |- *; cbv beta; (rewrite (VV j); [ring|rewrite <- Vd; exact Vj']). }
      rewrite Y. pose proof (HF (upd e (ix_dim ix) (e (ix_dim ix)))) as P. fold (y (e (ix_dim ix))) in P.
      destruct (y (e (ix_dim ix))); [discriminate|destruct P|]. cbn [fadd String.eqb Ascii.eqb Bool.eqb]. f_equal. lra.
    + rewrite Y. destruct (y (e (ix_dim ix))); [reflexivity|discriminate|discriminate].
Qed.
Print Assumptions C61_line_invariant.

(** Anything but order 1 and the two known modes is rejected. *)
Theorem C61_rejected : forall ix x order mode,
  (order <> 1%Z -> linear_detrend ix (XArray x) order mode = Err AssertionError) /\
  (detrendable ix x -> mode <> "remove" -> mode <> "correct" -> linear_detrend ix (XArray x) 1 mode = Err ValueError) /\
  linear_detrend ix XOther order mode = Err TypeError.
Proof.
  intros ix x order mode. split; [|split].
  - intros H. cbn [linear_detrend]. unfold detrend_array. apply Z.eqb_neq in H. rewrite H. reflexivity.
  - intros [[Nd W] Hd Hi Hz Hu] M1 M2. apply sumsq_nz in Hz.
    assert (Hn : In (ix_dim ix) (names (da_data x))) by (unfold names; apply in_map_iff; eexists; split; [|exact Hd]; reflexivity).
    cbn [linear_detrend]. unfold detrend_array. cbn [Z.eqb Pos.eqb assert_ bind].
    assert (Hv : unit_scale ix None 1) by (unfold unit_scale; destruct (ix_cf ix); reflexivity).
    destruct (calc_ok ix x None 1 Hn Hz Hv) as (s & i & E & _). rewrite E. cbn [bind].
    destruct (broadcast_ok ix x None 1 s i Hn Hv Hi Hu Hz E) as (f & Ef & _). rewrite Ef. cbn [bind].
    apply String.eqb_neq in M1, M2. rewrite M1, M2. reflexivity.
  - reflexivity.
Qed.
Print Assumptions C61_rejected.

Lemma ex_detrendable u cf d : (cf = true -> forall s, dget "units" u = Some s -> ~ contains_inverse s) -> detrendable (ex_ix cf d) (ex_da d u).
Proof.
  intros Hu. constructor.
  - split; [repeat constructor; intros []|]. intros e e' H. cbn [ex_da da_data at_]. rewrite (H d); [reflexivity|left; reflexivity].
  - left. reflexivity.
  - intros i Hi. cbn [ex_ix ix_val]. apply lt_INR. lia.
  - exists 0%nat. cbn. split; [lia|lra].
  - exact Hu.
Qed.

Example C61_example : exists x r, detrendable (ex_ix true "time") x /\ no_infinity (ex_ix true "time") (da_data x) /\
  linear_detrend (ex_ix true "time") (XArray x) 1 "remove" = Ok (XArray r) /\
  exists e e', at_ (da_data x) e = Fin 5 /\ at_ (da_data r) e = Fin 0 /\ at_ (da_data r) e' = NaN.
Proof.
  set (x := ex_da "time" [("units", "m")]).
  assert (D : detrendable (ex_ix true "time") x).
  { apply ex_detrendable. intros _ s E. injection E as <-. rewrite <- has_inv_spec. discriminate. }
  assert (F : no_infinity (ex_ix true "time") (da_data x)) by (intros e; cbn; destruct (e "time") as [|[|]]; exact I).
  destruct (C61_total _ x "remove" D (or_introl eq_refl)) as (r & E & _). exists x, r. split; [exact D|]. split; [exact F|]. split; [exact E|].
  destruct (C61_smallest _ x r D F E (upd (fun _ => 0%nat) "time" 2) 2 (Ropp 1)) as [(m & b & V) SS]. cbn zeta in *.
  destruct (C61_residuals _ x r D F E (upd (fun _ => 0%nat) "time" 2)) as (Q & _ & _). cbn zeta in *.
  exists (upd (upd (fun _ => 0%nat) "time" 2) "time" 2), (upd (upd (fun _ => 0%nat) "time" 2) "time" 1). split; [reflexivity|].
  cbn [ex_ix ix_dim ix_n ix_val] in *.
  assert (Z : ssr 3 (fun i => INR (S i)) (fun j => at_ (da_data x) (upd (upd (fun _ => 0%nat) "time" 2) "time" j)) 2 (Ropp 1) = 0).
  { unfold ssr, Sum_if. cbn. lra. }
  rewrite Z in SS. split.
  - pose proof (V 2%nat 5 ltac:(lia) eq_refl) as V2. rewrite V2.
    set (z := fun j => at_ (da_data r) (upd (upd (fun _ => 0%nat) "time" 2) "time" j)) in *.
    assert (S0 : Sum_if 3 (fun j => notnull (z j)) (fun j => val (z j) * val (z j)) = 0).
    { apply Rle_antisym; [|apply S_nonneg; intros; apply Rle_0_sqr]. refine (Rle_trans _ _ _ _ SS). right. apply S_ext. intros j; unfold z; ring. }
    pose proof (S_sq_zero 3 (fun j => notnull (z j)) (fun j => val (z j)) S0 2%nat ltac:(lia)) as S2. cbn beta in S2. unfold z in S2. rewrite V2 in S2. cbn [notnull val] in S2.
    f_equal. apply S2. reflexivity.
  - specialize (Q 1%nat ltac:(lia)). cbn in Q. destruct (at_ (da_data r) _); [reflexivity|discriminate|discriminate].
Qed.
