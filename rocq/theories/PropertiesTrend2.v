(** * PropertiesTrend2: C62 - C65, C81 *)
From Coq Require Import Reals ZArith List String Ascii Bool Arith Lia Lra Psatz.
From Verif Require Import Num NumFacts Py Arr ArrFacts Trend SpecTime SpecTrend ProofsUtil ProofsFields ProofsTide ProofsStericOk ProofsGeo2 ProofsTrend ProofsTrend2 ProofsTrend3 ProofsTrend4 ProofsAvg PropertiesTrend.
Import ListNotations.
Local Open Scope string_scope.
Local Open Scope R_scope.

(** ** C62 *)
(** mode="correct" subtracts [m x] with [x] the axis values (nanoseconds since 1970), so the
    time mean moves by [m] times the mean of [x].  [m] is the least-squares slope; no trend
    is left; the mean is kept exactly when [m] or the mean time is zero. *)
Theorem C62_mean_shift_partial : forall ix x r, detrendable ix x -> no_infinity ix (da_data x) ->
  linear_detrend ix (XArray x) 1 "correct" = Ok (XArray r) ->
  forall e, let n := ix_n ix in let t := ix_val ix in
    let y j := at_ (da_data x) (upd e (ix_dim ix) j) in let z j := at_ (da_data r) (upd e (ix_dim ix) j) in
    let ok j := notnull (y j) in
    two_times n t y ->
    (forall j, (j < n)%nat -> notnull (z j) = notnull (y j)) /\
    exists m b, (forall m' b', ssr n t y m b <= ssr n t y m' b' /\ (ssr n t y m' b' <= ssr n t y m b -> m' = m /\ b' = b)) /\
      (forall m' b', ssr n t z 0 b <= ssr n t z m' b') /\
      mean_of n ok (fun j => val (z j)) = mean_of n ok (fun j => val (y j)) - m * mean_of n ok t /\
      (mean_of n ok (fun j => val (z j)) = mean_of n ok (fun j => val (y j)) <-> m = 0 \/ mean_of n ok t = 0).
Proof.
  intros ix x r HD HF H e n t y z ok T. apply ld_inv in H.
  assert (Hm : "correct" = "remove" \/ "correct" = "correct") by auto.
  assert (Q : forall j, (j < n)%nat -> notnull (z j) = notnull (y j)) by (intros j Hj; apply (resid_valid ix x "correct" r e HD HF Hm H j Hj)).
  split; [exact Q|].
  assert (VR : valid_rows n y <> []) by (destruct T as (j & _ & Hj & _ & Vj & _); exact (rows_nonempty n y j Hj Vj)).
  destruct (resid_some ix x "correct" r e HD HF Hm H VR) as (m & b & _ & N1 & N2 & V).
  exists m, b. split; [intros m' b'; split; [apply ssr_min; assumption|apply ssr_unique; assumption]|].
  assert (Vz : forall j, notnull (y j) = true -> val (z j) = val (y j) - m * t j).
  { intros j Vy. unfold z. rewrite V. fold (y j). pose proof (HF (upd e (ix_dim ix) j)) as P. fold (y j) in P.
    destruct (y j); [discriminate|destruct P|]. cbn [val String.eqb Ascii.eqb Bool.eqb]. unfold t. ring. }
  split.
  - intros m' b'. apply (ssr_min n t z 0 b).
    + refine (eq_trans _ N1). apply Sum_if_ext; [exact Q|]. intros j Hj Vy. fold (y j) in Vy |- *. rewrite (Vz j Vy). unfold y, t. ring.
    + refine (eq_trans _ N2). apply Sum_if_ext; [exact Q|]. intros j Hj Vy. fold (y j) in Vy |- *. rewrite (Vz j Vy). unfold y, t. ring.
  - assert (M : mean_of n ok (fun j => val (z j)) = mean_of n ok (fun j => val (y j)) - m * mean_of n ok t).
    { unfold mean_of. rewrite (Sum_if_ext n ok ok (fun j => val (z j)) (fun j => val (y j) - m * t j)); [|reflexivity|intros j _ Vy; exact (Vz j Vy)].
      rewrite S_minus, S_scal. unfold Rdiv. ring. }
    split; [exact M|]. rewrite M. split; [intros Z; apply Rmult_integral; lra|]. intros [-> | ->]; ring.
Qed.
Print Assumptions C62_mean_shift_partial.

Lemma ex_fit : exists r, linear_detrend (ex_ix true "time") (XArray (ex_da "time" [("units", "m")])) 1 "correct" = Ok (XArray r) /\
  detrendable (ex_ix true "time") (ex_da "time" [("units", "m")]) /\ no_infinity (ex_ix true "time") (da_data (ex_da "time" [("units", "m")])).
Proof.
  set (x := ex_da "time" [("units", "m")]).
  assert (D : detrendable (ex_ix true "time") x).
  { apply ex_detrendable. intros _ s E. injection E as <-. rewrite <- has_inv_spec. discriminate. }
  destruct (C61_total _ x "correct" D (or_intror eq_refl)) as (r & E & _). exists r. split; [exact E|]. split; [exact D|].
  intros e; cbn; destruct (e "time") as [|[|]]; exact I.
Qed.

(** The series 1, missing, 5 (mean 3) becomes -1, missing, -1. *)
Theorem C62_mean_not_kept_refuted : exists ix x r e, detrendable ix x /\ no_infinity ix (da_data x) /\
  linear_detrend ix (XArray x) 1 "correct" = Ok (XArray r) /\
  let n := ix_n ix in let y j := at_ (da_data x) (upd e (ix_dim ix) j) in let z j := at_ (da_data r) (upd e (ix_dim ix) j) in
  mean_of n (fun j => notnull (y j)) (fun j => val (y j)) = 3 /\ mean_of n (fun j => notnull (z j)) (fun j => val (z j)) = Ropp 1.
Proof.
  destruct ex_fit as (r & E & D & F). set (x := ex_da "time" [("units", "m")]) in *. set (ix := ex_ix true "time") in *.
  exists ix, x, r, (fun _ => 0%nat). split; [exact D|]. split; [exact F|]. split; [exact E|]. intros n y z.
  assert (T : two_times n (ix_val ix) y) by (exists 0%nat, 2%nat; cbn; repeat split; lia || lra || reflexivity).
  destruct (C62_mean_shift_partial ix x r D F E (fun _ => 0%nat) T) as (Q & m & b & M & _ & S & _). cbn zeta in *.
  fold n y z in Q, S, M.
  assert (Y : mean_of n (fun j => notnull (y j)) (fun j => val (y j)) = 3) by (unfold mean_of, Sum_if, count_if; cbn; lra).
  assert (X : mean_of n (fun j => notnull (y j)) (ix_val ix) = 2) by (unfold mean_of, Sum_if, count_if; cbn; lra).
  split; [exact Y|].
  assert (MM : m = 2).
  { destruct (M 2 (Ropp 1)) as [_ U]. symmetry. apply U. 
    assert (ssr n (ix_val ix) y 2 (Ropp 1) = 0) as -> by (unfold ssr, Sum_if; cbn; lra). unfold ssr. apply S_nonneg. intros; apply pow2_ge_0. }
  transitivity (mean_of n (fun j => notnull (y j)) (fun j => val (z j))); [|refine (eq_trans S _); fold y; change (mean_of n (fun j => notnull (y j)) (fun j => val (y j)) - m * mean_of n (fun j => notnull (y j)) (ix_val ix) = Ropp 1); rewrite Y, X, MM; lra].
  unfold mean_of. assert (SE : Sum_if n (fun j => notnull (z j)) (fun j => val (z j)) = Sum_if n (fun j => notnull (y j)) (fun j => val (z j))) by (apply Sum_if_ext; [exact Q|reflexivity]).
  rewrite SE.
  assert (C : count_if n (fun j => notnull (z j)) = count_if n (fun j => notnull (y j))).
  { unfold count_if. f_equal. apply filter_ext_in. intros j Hj. apply in_seq in Hj. apply Q. lia. }
  rewrite C. reflexivity.
Qed.
Print Assumptions C62_mean_not_kept_refuted.

(** ** C63 *)
Theorem C63_round_trip : forall ix x tu k, detrendable ix x -> slope_unit ix tu k ->
  exists s i f s0 i0 f0,
    calc_linear_trend ix x tu = Ok (s, i) /\ broadcast_trend s ix false = Ok f /\
    calc_linear_trend ix x None = Ok (s0, i0) /\ broadcast_trend s0 ix false = Ok f0 /\
    adims f = adims f0 /\ (forall e, at_ f e = at_ f0 e) /\ (forall e, at_ (da_data i) e = at_ (da_data i0) e).
Proof.
  intros ix x tu k [[Nd W] Hd Hi Hz Hu] Hk. apply sumsq_nz in Hz.
  assert (Hn : In (ix_dim ix) (names (da_data x))) by (unfold names; apply in_map_iff; eexists; split; [|exact Hd]; reflexivity).
  assert (Hv : unit_scale ix None 1) by (unfold unit_scale; destruct (ix_cf ix); reflexivity).
  destruct (calc_ok ix x tu k Hn Hz Hk) as (s & i & E & _ & _ & _ & _ & _ & Vi & _).
  destruct (calc_ok ix x None 1 Hn Hz Hv) as (s0 & i0 & E0 & _ & _ & _ & _ & _ & Vi0 & _).
  destruct (broadcast_ok ix x tu k s i Hn Hk Hi Hu Hz E) as (f & F & Df & Vf).
  destruct (broadcast_ok ix x None 1 s0 i0 Hn Hv Hi Hu Hz E0) as (f0 & F0 & Df0 & Vf0).
  exists s, i, f, s0, i0, f0. repeat (split; [assumption|]). split; [congruence|]. split; intros e; [rewrite Vf, Vf0|rewrite Vi, Vi0]; reflexivity.
Qed.
Print Assumptions C63_round_trip.

(** The broadcast slope plus the intercept is the least-squares line, whatever the unit. *)
Theorem C63_is_fitted_line : forall ix x tu k, detrendable ix x -> no_infinity ix (da_data x) -> slope_unit ix tu k ->
  exists s i f, calc_linear_trend ix x tu = Ok (s, i) /\ broadcast_trend s ix false = Ok f /\
    adims f = (drop_dim (ix_dim ix) (adims (da_data x)) ++ [(ix_dim ix, ix_n ix)])%list /\
    forall e, let n := ix_n ix in let t := ix_val ix in let y j := at_ (da_data x) (upd e (ix_dim ix) j) in
      two_times n t y -> exists m b,
        at_ (da_data i) e = Fin b /\ (forall j, at_ f (upd e (ix_dim ix) j) = Fin (m * t j)) /\
        forall m' b', ssr n t y m b <= ssr n t y m' b' /\ (ssr n t y m' b' <= ssr n t y m b -> m' = m /\ b' = b).
Proof.
  intros ix x tu k [[Nd W] Hd Hi Hz Hu] HF Hk. apply sumsq_nz in Hz.
  assert (Hn : In (ix_dim ix) (names (da_data x))) by (unfold names; apply in_map_iff; eexists; split; [|exact Hd]; reflexivity).
  destruct (calc_ok ix x tu k Hn Hz Hk) as (s & i & E & _ & _ & _ & _ & _ & Vi & _).
  destruct (broadcast_ok ix x tu k s i Hn Hk Hi Hu Hz E) as (f & F & Df & Vf).
  exists s, i, f. repeat (split; [assumption|]). intros e n t y T.
  assert (VR : valid_rows n y <> []) by (destruct T as (j & _ & Hj & _ & Vj & _); exact (rows_nonempty n y j Hj Vj)).
  destruct (fit_ok n t y Hz (fun j _ => HF _) VR) as (m & b & G & N1 & N2 & _).
  assert (F' : fit_of ix (da_data x) e = (Fin m, Fin b)) by exact G.
  exists m, b. rewrite Vi, F'. split; [reflexivity|]. split.
  - intros j. rewrite Vf, fit_of_upd, F', upd_same. reflexivity.
  - intros m' b'. split; [apply ssr_min; assumption|apply ssr_unique; assumption].
Qed.
Print Assumptions C63_is_fitted_line.

Example C63_example : exists s i f e, calc_linear_trend (ex_ix true "time") (ex_da "time" [("units", "m")]) (Some "yr") = Ok (s, i) /\
  broadcast_trend s (ex_ix true "time") false = Ok f /\ at_ (da_data i) e = Fin (Ropp 1) /\ at_ f e = Fin 6.
Proof.
  destruct ex_fit as (_ & _ & D & F). set (x := ex_da "time" [("units", "m")]) in *. set (ix := ex_ix true "time") in *.
  destruct (C63_is_fitted_line ix x (Some "yr") (365 * (86400 * 1000000000)) D F eq_refl) as (s & i & f & E & B & _ & V).
  assert (T : two_times 3 (ix_val ix) (fun j => at_ (da_data x) (upd (fun _ => 2%nat) "time" j))) by (exists 0%nat, 2%nat; cbn; repeat split; lia || lra || reflexivity).
  destruct (V (fun _ => 2%nat) T) as (m & b & I1 & I2 & M). cbn zeta in *.
  exists s, i, f, (upd (fun _ => 2%nat) "time" 2). split; [exact E|]. split; [exact B|].
  destruct (M 2 (Ropp 1)) as [_ U]. destruct U as [<- <-].
  { cbn [ix ex_ix ix_n ix_dim].
    assert (ssr 3 (ix_val ix) (fun j => at_ (da_data x) (upd (fun _ => 2%nat) "time" j)) 2 (Ropp 1) = 0) as -> by (unfold ssr, Sum_if; cbn; lra).
    unfold ssr. apply S_nonneg. intros; apply pow2_ge_0. }
  split; [|refine (eq_trans (I2 2%nat) _); cbn; f_equal; lra].
  rewrite <- I1. replace (upd (fun _ => 2%nat) "time" 2) with (fun _ : string => 2%nat); [reflexivity|].
  apply FunctionalExtensionality.functional_extensionality. intros d. unfold upd. destruct (String.eqb "time" d); reflexivity.
Qed.

(** ** C64 *)
Lemma inverse_rejected ix x mode u : In (ix_dim ix) (names (da_data x)) -> (exists i, (i < ix_n ix)%nat /\ ix_val ix i <> 0) ->
  ix_cf ix = true -> dget "units" (da_attrs x) = Some u -> contains_inverse u -> linear_detrend ix (XArray x) 1 mode = Err ValueError.
Proof.
  intros Hn Hz C Hu K. apply sumsq_nz in Hz. cbn [linear_detrend]. unfold detrend_array. cbn [Z.eqb Pos.eqb assert_ bind].
  assert (Hv : unit_scale ix None 1) by (unfold unit_scale; destruct (ix_cf ix); reflexivity).
  destruct (calc_ok ix x None 1 Hn Hz Hv) as (s & i & E & _ & _ & _ & _ & _ & _ & U). rewrite E. cbn [bind].
  unfold broadcast_trend. rewrite C, (U C), Hu.
  pose proof (slope_words (Some u) "ns" 1 known_ns) as W. cbn beta iota in W. rewrite W.
  destruct (some_words u K) as (w & ws & ->). destruct ws; reflexivity.
Qed.

(** A vector field in "m s-1" cannot be detrended along a time axis. *)
Theorem C64_units_rejected_refuted : exists ix x mode, ix_cf ix = true /\ (mode = "remove" \/ mode = "correct") /\
  dget "units" (da_attrs x) = Some "m s-1" /\ wf_arr (da_data x) /\ In (ix_dim ix, ix_n ix) (adims (da_data x)) /\
  (forall i, (S i < ix_n ix)%nat -> ix_val ix i < ix_val ix (S i)) /\
  linear_detrend ix (XArray x) 1 mode = Err ValueError /\
  exists y r, da_data y = da_data x /\ dget "units" (da_attrs y) = Some "m" /\ linear_detrend ix (XArray y) 1 mode = Ok (XArray r).
Proof.
  exists (ex_ix true "time"), (ex_da "time" [("units", "m s-1")]), "remove".
  assert (D : detrendable (ex_ix true "time") (ex_da "time" [("units", "m")])).
  { apply ex_detrendable. intros _ s E. injection E as <-. rewrite <- has_inv_spec. discriminate. }
  split; [reflexivity|]. split; [auto|]. split; [reflexivity|]. split; [exact (dt_wf _ _ D)|]. split; [exact (dt_dim _ _ D)|]. split; [exact (dt_inc _ _ D)|].
  split.
  - apply (inverse_rejected _ _ _ "m s-1"); [left; reflexivity|exact (dt_zero _ _ D)|reflexivity|reflexivity|exists "m s", ""; reflexivity].
  - destruct (C61_total _ _ "remove" D (or_introl eq_refl)) as (r & E & _). exists (ex_da "time" [("units", "m")]), r. repeat split; auto.
Qed.
Print Assumptions C64_units_rejected_refuted.

(** Everything else being in order, it works exactly when the units attribute is absent, has
    no "-1" in it, or the axis does not hold dates. *)
Theorem C64_exact_partial : forall ix x mode, wf_arr (da_data x) -> In (ix_dim ix, ix_n ix) (adims (da_data x)) ->
  (forall i, (S i < ix_n ix)%nat -> ix_val ix i < ix_val ix (S i)) ->
  (exists i, (i < ix_n ix)%nat /\ ix_val ix i <> 0) -> mode = "remove" \/ mode = "correct" ->
  ((exists r, linear_detrend ix (XArray x) 1 mode = Ok (XArray r)) <->
   (ix_cf ix = true -> forall u, dget "units" (da_attrs x) = Some u -> ~ contains_inverse u)) /\
  ((exists r, linear_detrend ix (XArray x) 1 mode = Ok (XArray r)) \/ linear_detrend ix (XArray x) 1 mode = Err ValueError).
Proof.
  intros ix x mode W Hd Hi Hz Hm.
  assert (Hn : In (ix_dim ix) (names (da_data x))) by (unfold names; apply in_map_iff; eexists; split; [|exact Hd]; reflexivity).
  assert (A : (ix_cf ix = true -> forall u, dget "units" (da_attrs x) = Some u -> ~ contains_inverse u) -> exists r, linear_detrend ix (XArray x) 1 mode = Ok (XArray r)).
  { intros U. destruct (C61_total ix x mode) as (r & E & _); [constructor; assumption|exact Hm|]. eauto. }
  split.
  - split; [|exact A]. intros (r & E) C u Hu K. rewrite (inverse_rejected ix x mode u Hn Hz C Hu K) in E. discriminate.
  - destruct (ix_cf ix) eqn:C; [|left; apply A; discriminate].
    destruct (dget "units" (da_attrs x)) as [u|] eqn:Hu; [|left; apply A; discriminate].
    destruct (has_inv u) eqn:K.
    + right. apply has_inv_spec in K. exact (inverse_rejected ix x mode u Hn Hz C Hu K).
    + left. apply A. intros _ u' E. injection E as <-. rewrite <- has_inv_spec, K. discriminate.
Qed.
Print Assumptions C64_exact_partial.

(** Metres on a date axis are accepted. *)
Example C64_case : exists r, linear_detrend (ex_ix true "time") (XArray (ex_da "time" [("units", "m")])) 1 "correct" = Ok (XArray r).
Proof.
  assert (U : true = true -> forall s, dget "units" [("units", "m")] = Some s -> ~ contains_inverse s).
  { intros _ s E. injection E as <-. rewrite <- has_inv_spec. discriminate. }
  destruct (ex_detrendable [("units", "m")] true "time" U) as [W D I Z _].
  exact (proj2 (proj1 (C64_exact_partial (ex_ix true "time") (ex_da "time" [("units", "m")]) "correct" W D I Z (or_intror eq_refl))) U).
Qed.

(** ** C65 *)
(** The variable of the Dataset as a DataArray of its own. *)
Definition as_array (kv : string * darr) : darr := mkDarr (fst kv) (da_data (snd kv)) (da_attrs (snd kv)).

Theorem C65_independent : forall ix vs order mode out,
  linear_detrend ix (XDataset vs) order mode = Ok out <->
  exists ws, out = XDataset ws /\ map fst ws = map fst vs /\
    forall i kv, nth_error vs i = Some kv -> exists w, nth_error ws i = Some (fst kv, w) /\
      (In (ix_dim ix) (names (da_data (snd kv))) -> linear_detrend ix (XArray (as_array kv)) order mode = Ok (XArray w)) /\
      (~ In (ix_dim ix) (names (da_data (snd kv))) -> w = snd kv).
Proof.
  intros ix vs order mode out. cbn [linear_detrend].
  set (f := fun kv : string * darr => if dmem (ix_dim ix) (adims (da_data (snd kv)))
              then let* r := detrend_array ix (mkDarr (fst kv) (da_data (snd kv)) (da_attrs (snd kv))) order mode in Ok (fst kv, r) else Ok kv).
  assert (K : forall kv kw, f kv = Ok kw <-> fst kw = fst kv /\
     (In (ix_dim ix) (names (da_data (snd kv))) -> detrend_array ix (as_array kv) order mode = Ok (snd kw)) /\
     (~ In (ix_dim ix) (names (da_data (snd kv))) -> snd kw = snd kv)).
  { intros [k v] [k' w]. unfold f, as_array, names. cbn [fst snd]. destruct (dmem (ix_dim ix) (adims (da_data v))) eqn:D.
    - apply dmem_true in D. destruct (detrend_array _ _ order mode) as [r|] eqn:E; cbn [bind].
      + split; [intros H; apply Ok_inj in H; injection H as <- <-; split; [reflexivity|]; split; [reflexivity|contradiction]|].
        intros (-> & A & _). specialize (A D). congruence.
      + split; [discriminate|]. intros (_ & A & _). specialize (A D). discriminate.
    - apply dmem_false in D. split; [intros H; apply Ok_inj in H; injection H as <- <-; split; [reflexivity|]; split; [contradiction|reflexivity]|].
      intros (-> & _ & A). rewrite (A D). reflexivity. }
  assert (L : forall kv w, linear_detrend ix (XArray (as_array kv)) order mode = Ok (XArray w) <-> detrend_array ix (as_array kv) order mode = Ok w).
  { intros kv w. cbn [linear_detrend]. destruct (detrend_array ix (as_array kv) order mode); cbn [bind]; split; congruence. }
  assert (N : forall vs ws, Forall2 (fun kv kw => f kv = Ok kw) vs ws <-> map fst ws = map fst vs /\
    forall i kv, nth_error vs i = Some kv -> exists w, nth_error ws i = Some (fst kv, w) /\
      (In (ix_dim ix) (names (da_data (snd kv))) -> linear_detrend ix (XArray (as_array kv)) order mode = Ok (XArray w)) /\
      (~ In (ix_dim ix) (names (da_data (snd kv))) -> w = snd kv)).
  { induction vs0 as [|kv vs0 IH]; intros ws.
    - split; [intros H; inversion H; split; [reflexivity|]; intros [|] ?; discriminate|]. intros [H _]. destruct ws; [constructor|discriminate].
    - split.
      + intros H. inversion H as [|? kw ? ws' H1 H2]; subst. apply IH in H2. destruct H2 as [H2 H3]. apply K in H1. destruct H1 as (E & A & B).
        split; [cbn [map]; congruence|]. intros [|i] kv' Hk; cbn [nth_error] in *.
        * injection Hk as <-. exists (snd kw). split; [rewrite <- E; destruct kw; reflexivity|]. split; [rewrite L; exact A|exact B].
        * apply H3. exact Hk.
      + intros [H1 H2]. destruct ws as [|kw ws]; [discriminate|]. cbn [map] in H1. injection H1 as E1 E2. constructor.
        * destruct (H2 0%nat kv eq_refl) as (w & Ew & A & B). cbn [nth_error] in Ew. injection Ew as ->. apply K. cbn [fst snd].
          split; [reflexivity|]. split; [rewrite <- L; exact A|exact B].
        * apply IH. split; [exact E2|]. intros i kv' Hk. exact (H2 (S i) kv' Hk). }
  fold f. split.
  - intros H. destruct (mapM f vs) as [ws|] eqn:E; [|discriminate]. cbn [bind] in H. apply Ok_inj in H. exists ws. split; [congruence|].
    apply N. apply mapM_F2. exact E.
  - intros (ws & -> & H). apply N in H. apply mapM_F2 in H. rewrite H. reflexivity.
Qed.
Print Assumptions C65_independent.

Example C65_example : let ds := [("ssh", ex_da "time" [("units", "m")]); ("depth", mkDarr "depth" (mkArr [("x", 2%nat)] (fun _ => Fin 7)) [])] in
  exists r, linear_detrend (ex_ix true "time") (XDataset ds) 1 "remove" =
    Ok (XDataset [("ssh", r); ("depth", mkDarr "depth" (mkArr [("x", 2%nat)] (fun _ => Fin 7)) [])]).
Proof.
  intros ds.
  assert (D : detrendable (ex_ix true "time") (ex_da "time" [("units", "m")])).
  { apply ex_detrendable. intros _ s E. injection E as <-. rewrite <- has_inv_spec. discriminate. }
  destruct (C61_total _ _ "remove" D (or_introl eq_refl)) as (r & E & _). exists r. apply C65_independent. eexists. split; [reflexivity|].
  split; [reflexivity|]. intros [|[|[|]]] kv H; cbn in H; try discriminate; injection H as <-; eexists; (split; [reflexivity|]); split; cbn.
  - intros _. exact E.
  - intros H. exfalso. apply H. left. reflexivity.
  - intros [H|[]]. discriminate.
  - reflexivity.
Qed.

(** ** C81: broadcast_trend with subtract_time_zero *)
Lemma broadcast_dates ix slope r : broadcast_trend slope ix true = Ok r ->
  exists f z, broadcast_trend slope ix false = Ok f /\ isel "time" 0 f = Ok z /\ asub f z = Ok r.
Proof.
  unfold broadcast_trend. destruct (if ix_cf ix then _ else _) as [s|]; [|discriminate]. cbn [bind].
  destruct (strictly_increasing ix); [|discriminate]. cbn [bind]. destruct (amul s (interp_index ix)) as [f|] eqn:E; [|discriminate]. cbn [bind].
  destruct (isel "time" 0 f) as [z|] eqn:Z; [|discriminate]. cbn [bind]. intros H. exists f, z. auto.
Qed.

(** On an axis called "time" the result is the plain broadcast minus its first value. *)
Theorem C81_from_first_sample_partial : forall ix slope f, NoDup (names (da_data slope)) -> ~ In (ix_dim ix) (names (da_data slope)) ->
  broadcast_trend slope ix false = Ok f -> ix_dim ix = "time" -> (0 < ix_n ix)%nat ->
  exists r, broadcast_trend slope ix true = Ok r /\ adims r = adims f /\
    forall e, at_ r e = fsub (at_ f e) (at_ f (upd e (ix_dim ix) 0)) /\
      (e (ix_dim ix) = 0%nat -> is_fin (at_ f e) = true -> at_ r e = Fin 0).
Proof.
  intros ix slope f Nd Ni. unfold broadcast_trend.
  destruct (if ix_cf ix then _ else _) as [s|] eqn:E; [|discriminate]. cbn [bind].
  destruct (strictly_increasing ix); [|discriminate]. cbn [bind].
  assert (Ds : adims s = adims (da_data slope)).
  { destruct (ix_cf ix); [|congruence]. destruct (dget "units" (da_attrs slope)) as [u|]; [|congruence].
    destruct (map drop_inv _) as [|w [|]]; [congruence| |discriminate]. destruct (String.eqb w "ns"); [congruence|].
    destruct (time_conversion_factor w "ns" _ _); [|discriminate]. cbn [bind] in E. apply Ok_inj in E. subst s. reflexivity. }
  rewrite amul_interp by (unfold names; rewrite Ds; exact Ni). cbn [bind]. intros H Hd Hn. apply Ok_inj in H.
  assert (Df : adims f = (adims (da_data slope) ++ [(ix_dim ix, ix_n ix)])%list) by (subst f; cbn [adims]; rewrite Ds; reflexivity).
  assert (NF : NoDup (map fst (adims f))).
  { rewrite Df, map_app. cbn [map fst]. apply NoDup_app'; [exact Nd|repeat constructor; intros []|]. intros d H1 [<- |[]]. exact (Ni H1). }
  assert (G : dget "time" (adims f) = Some (ix_n ix)).
  { rewrite <- Hd. apply In_dget; [exact NF|]. rewrite Df. apply in_app_iff. right. left. reflexivity. }
  rewrite H. unfold isel. rewrite G. apply Nat.ltb_lt in Hn. rewrite Hn. cbn [bind].
  assert (OF : over (adims f) f) by (split; [exact NF|apply incl_refl]).
  unfold asub. rewrite (over_amap2 (adims f) NF _ f (mkArr (drop_dim "time" (adims f)) (fun e => at_ f (upd e "time" 0))) OF).
  2:{ split; [apply NoDup_drop; exact NF|]. intros q Hq. apply filter_In in Hq. tauto. }
  eexists. split; [reflexivity|]. cbn [adims at_]. split.
  - apply union_absorb. intros d Hin. apply in_map_iff in Hin. destruct Hin as (q & <- & Hq). apply filter_In in Hq. apply in_map. tauto.
  - intros e. rewrite Hd. split; [reflexivity|]. intros He Hf. rewrite <- He, upd_id. destruct (at_ f e); [discriminate|discriminate|]. cbn. f_equal. ring.
Qed.
Print Assumptions C81_from_first_sample_partial.

(** On an axis with any other name it raises: "time" is written into the code. *)
Theorem C81_axis_name_refuted : exists slope ix f, wf_arr (da_data slope) /\ broadcast_trend slope ix false = Ok f /\
  broadcast_trend slope ix true = Err ValueError.
Proof.
  assert (S : strictly_increasing (ex_ix false "year") = true) by (apply increasing_ok; intros i Hi; cbn [ex_ix ix_val]; apply lt_INR; lia).
  eexists (mkDarr "m" (mkArr [] (fun _ => Fin 1)) []), (ex_ix false "year"), _.
  split; [split; [constructor|reflexivity]|].
  unfold broadcast_trend. cbn [ex_ix ix_cf bind]. change (mkIx _ _ _ _) with (ex_ix false "year"). rewrite S. cbn [bind].
  rewrite amul_interp by (cbn; tauto). cbn [bind]. split; reflexivity.
Qed.
Print Assumptions C81_axis_name_refuted.

Theorem C81_other_axis_partial : forall ix slope, ix_dim ix <> "time" -> ~ In "time" (names (da_data slope)) ->
  ~ In (ix_dim ix) (names (da_data slope)) ->
  forall f, broadcast_trend slope ix false = Ok f -> broadcast_trend slope ix true = Err ValueError.
Proof.
  intros ix slope Hd Nt Ni f. unfold broadcast_trend.
  destruct (if ix_cf ix then _ else _) as [s|] eqn:E; [|discriminate]. cbn [bind].
  destruct (strictly_increasing ix); [|discriminate]. cbn [bind].
  assert (Ds : adims s = adims (da_data slope)).
  { destruct (ix_cf ix); [|congruence]. destruct (dget "units" (da_attrs slope)) as [u|]; [|congruence].
    destruct (map drop_inv _) as [|w [|]]; [congruence| |discriminate]. destruct (String.eqb w "ns"); [congruence|].
    destruct (time_conversion_factor w "ns" _ _); [|discriminate]. cbn [bind] in E. apply Ok_inj in E. subst s. reflexivity. }
  rewrite amul_interp by (unfold names; rewrite Ds; exact Ni). cbn [bind]. intros _.
  unfold isel. cbn [adims]. destruct (dget "time" _) eqn:G; [|reflexivity]. apply dget_In in G. apply in_app_iff in G.
  destruct G as [G|[G|[]]]; [|injection G; congruence].
  exfalso. apply Nt. unfold names. rewrite <- Ds. apply in_map_iff. eexists; split; [|exact G]; reflexivity.
Qed.
Print Assumptions C81_other_axis_partial.

Example C81_example : exists f r, broadcast_trend (mkDarr "m" (mkArr [] (fun _ => Fin 4)) []) (ex_ix false "time") false = Ok f /\
  broadcast_trend (mkDarr "m" (mkArr [] (fun _ => Fin 4)) []) (ex_ix false "time") true = Ok r /\
  at_ f (fun _ => 2%nat) = Fin 12 /\ at_ r (fun _ => 2%nat) = Fin 8.
Proof.
  assert (S : strictly_increasing (ex_ix false "time") = true) by (apply increasing_ok; intros i Hi; cbn [ex_ix ix_val]; apply lt_INR; lia).
  assert (F : exists f, broadcast_trend (mkDarr "m" (mkArr [] (fun _ => Fin 4)) []) (ex_ix false "time") false = Ok f /\
     forall e, at_ f e = Fin (4 * INR (Datatypes.S (e "time")))).
  { unfold broadcast_trend. cbn [ex_ix ix_cf bind]. change (mkIx _ _ _ _) with (ex_ix false "time"). rewrite S. cbn [bind].
    rewrite amul_interp by (cbn; tauto). cbn [bind]. eexists. split; [reflexivity|]. intros e. reflexivity. }
  destruct F as (f & F & V). 
  destruct (C81_from_first_sample_partial (ex_ix false "time") (mkDarr "m" (mkArr [] (fun _ => Fin 4)) []) f) as (r & E & _ & W).
  - constructor.
  - intros [].
  - exact F.
  - reflexivity.
  - cbn. lia.
  - exists f, r. split; [exact F|]. split; [exact E|]. destruct (W (fun _ => 2%nat)) as [-> _]. rewrite !V. cbn [ex_ix ix_dim]. rewrite upd_same.
    split; [f_equal; cbn; lra|]. unfold fsub, fadd, fopp. f_equal. cbn. lra.
Qed.
