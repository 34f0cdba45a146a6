(** * PropertiesSeason: C66, C68, C69 *)
From Coq Require Import Reals ZArith List String Ascii Bool Arith Lia Lra FunctionalExtensionality.
From Verif Require Import Num NumFacts Py Arr ArrFacts Calendar Trend SpecTime ProofsUtil Seasonal SpecSeason ProofsPinv ProofsSeason ProofsSeason2 ProofsSeason3.
Import ListNotations.
Local Open Scope string_scope.
Local Open Scope R_scope.
#[local] Opaque pinv.

Lemma fit_ok n td y : all_finite n y -> season_fit n td y (model_of n td y) (resid_of n td y).
Proof.
  intros F. split.
  - intros i Hi. apply sum_parts; assumption.
  - eexists. intros i Hi. apply model_curve; assumption.
  - apply resid_uncorrelated; assumption.
  - intros g. apply resid_min; assumption.
  - intros g H i Hi. apply fitted_only; assumption.
Qed.

Lemma fit_ext n td y s z y' s' z' : (forall i, (i < n)%nat -> y i = y' i) -> (forall i, (i < n)%nat -> s i = s' i) -> (forall i, (i < n)%nat -> z i = z' i) ->
  season_fit n td y s z -> season_fit n td y' s' z'.
Proof.
  intros Ey Es Ez [A (g & B) [U1 U2 U3 U4 U5 U6] D E].
  assert (X : forall f, Rsum n (fun i => val (z' i) * f i) = Rsum n (fun i => val (z i) * f i)) by (intros f; apply Rs_ext; intros i Hi; rewrite Ez by exact Hi; reflexivity).
  assert (Y : Rsum n (fun i => val (z' i) ^ 2) = Rsum n (fun i => val (z i) ^ 2)) by (apply Rs_ext; intros i Hi; rewrite Ez by exact Hi; reflexivity).
  assert (M : forall g, misfit n td y' g = misfit n td y g) by (intros h; apply Rs_ext; intros i Hi; rewrite Ey by exact Hi; reflexivity).
  split.
  - intros i Hi. rewrite <- Ey, <- Es, <- Ez by exact Hi. auto.
  - exists g. intros i Hi. rewrite <- Es by exact Hi. auto.
  - split; [|rewrite X; assumption..]. refine (eq_trans _ U1). apply Rs_ext. intros i Hi. rewrite Ez by exact Hi. reflexivity.
  - intros h. rewrite Y, M. apply D.
  - intros h H i Hi. rewrite <- Es by exact Hi. apply E; [|exact Hi]. rewrite Y, M in H. exact H.
Qed.

Lemma Int_part_plus k r : Int_part (IZR k + r) = (k + Int_part r)%Z.
Proof.
  destruct (base_Int_part r) as [L U]. destruct (base_Int_part (IZR k + r)) as [L' U'].
  assert (A : (Int_part (IZR k + r) < k + Int_part r + 1)%Z) by (apply lt_IZR; rewrite !plus_IZR; lra).
  assert (B : (k + Int_part r < Int_part (IZR k + r) + 1)%Z) by (apply lt_IZR; rewrite !plus_IZR; lra). lia.
Qed.
Lemma decimal_year_ok c d : decimal_time c d = decimal_year c d.
Proof.
  unfold decimal_time, decimal_year, elapsed, abs_day, dayofyear, hour. set (m := month_start c (d_year d) (d_month d)). set (p := d_pos d).
  replace (24 * (IZR (year_start c (d_year d) + m) + p - IZR (year_start c (d_year d)))) with (IZR (24 * m + 24 * Int_part p) + 24 * (p - IZR (Int_part p)))
    by (rewrite !plus_IZR, !mult_IZR; ring).
  rewrite Int_part_plus. rewrite !plus_IZR, !minus_IZR, !plus_IZR, !mult_IZR. field.
Qed.
Lemma curve_about_comb n td b i : Rsum 6 (fun k => b k * regressor n td k i) = curve_about (Rsum n td / INR n) b (td i).
Proof. unfold curve_about. cbn [Rsum regressor]. ring. Qed.

(** ** C66 *)
(** Model and residuals of every finite series: they add up to it, the model is a combination
    of constant, trend and annual and semi-annual harmonics, the residuals are uncorrelated with
    all of these, no other combination comes closer and none comes as close with other values.
    A series with a NaN gives NaN throughout. *)
Theorem C66_least_squares : forall ax x, ta_name ax = "time" -> wf_arr (da_data x) ->
  In ("time", List.length (ta_dates ax)) (adims (da_data x)) ->
  let n := List.length (ta_dates ax) in
  let c := match ta_cal ax with Some c => c | None => Proleptic end in
  let td i := decimal_year c (time_of (ta_dates ax) i) in
  exists s r, seasonal_model ax x "time" = Ok (s, r) /\
    adims (da_data s) = (drop_dim "time" (adims (da_data x)) ++ [("time", n)])%list /\
    adims (da_data r) = adims (da_data x) /\
    forall e,
      (all_finite n (series (da_data x) e) ->
       season_fit n td (series (da_data x) e) (series (da_data s) e) (series (da_data r) e)) /\
      ((exists i, (i < n)%nat /\ series (da_data x) e i = NaN) ->
       forall i, series (da_data s) e i = NaN /\ series (da_data r) e i = NaN).
Proof.
  intros ax x Hn W D n c td. assert (Etd : td = (fun i => decimal_time (axis_cal ax) (time_of (ta_dates ax) i))) by (apply functional_extensionality; intros j; symmetry; apply decimal_year_ok).
  clearbody td. subst td. set (td := fun i => decimal_time (axis_cal ax) (time_of (ta_dates ax) i)) in *. destruct (seasonal_model_ok ax x Hn W D) as (s & r & E & D1 & D2 & M & R & _).
  exists s, r. split; [exact E|]. split; [exact D1|]. split; [exact D2|]. intros e. split.
  - intros F. apply (fit_ext n td (series (da_data x) e) (model_of n td (series (da_data x) e)) (resid_of n td (series (da_data x) e)));
      [reflexivity| | |apply fit_ok; exact F]; intros i Hi; unfold series; [rewrite M|rewrite R]; reflexivity.
  - intros N i. unfold series. rewrite M, R. split; [apply model_nan|apply resid_nan]; exact N.
Qed.
Print Assumptions C66_least_squares.

(** A series that is such a combination leaves nothing. *)
Theorem C66_exact : forall ax x, ta_name ax = "time" -> wf_arr (da_data x) ->
  In ("time", List.length (ta_dates ax)) (adims (da_data x)) ->
  let n := List.length (ta_dates ax) in
  let c := match ta_cal ax with Some c => c | None => Proleptic end in
  let td i := decimal_year c (time_of (ta_dates ax) i) in
  forall e g, (forall i, (i < n)%nat -> series (da_data x) e i = Fin (curve g (td i))) ->
  exists s r, seasonal_model ax x "time" = Ok (s, r) /\
    forall i, (i < n)%nat -> series (da_data r) e i = Fin 0 /\ series (da_data s) e i = series (da_data x) e i.
Proof.
  intros ax x Hn W D n c td e g C. assert (Etd : td = (fun i => decimal_time (axis_cal ax) (time_of (ta_dates ax) i))) by (apply functional_extensionality; intros j; symmetry; apply decimal_year_ok).
  clearbody td. subst td. set (td := fun i => decimal_time (axis_cal ax) (time_of (ta_dates ax) i)) in *. destruct (seasonal_model_ok ax x Hn W D) as (s & r & E & D1 & D2 & M & R & _).
  exists s, r. split; [exact E|]. intros i Hi.
  assert (F : all_finite n (series (da_data x) e)) by (intros j Hj; rewrite C by exact Hj; reflexivity).
  assert (Z : series (da_data r) e i = Fin 0).
  { unfold series. rewrite R. apply (resid_exact n td (series (da_data x) e) F g C i Hi). }
  split; [exact Z|]. pose proof (sum_parts n td _ F i Hi) as P.
  assert (Zr : resid_of n td (series (da_data x) e) i = Fin 0) by (rewrite <- Z; unfold series; rewrite R; reflexivity).
  rewrite Zr in P. rewrite <- P. unfold series at 1. rewrite M. fold n. change (season_td ax) with td.
  change (fun i0 => at_ (da_data x) (upd e "time" i0)) with (series (da_data x) e).
  destruct (model_of n td (series (da_data x) e) i) as [|b|v]; [reflexivity|reflexivity|]. cbn. f_equal. ring.
Qed.
Print Assumptions C66_exact.

(** Applied to residuals it returns them. *)
Theorem C66_idempotent : forall ax x s r, ta_name ax = "time" -> wf_arr (da_data x) ->
  In ("time", List.length (ta_dates ax)) (adims (da_data x)) ->
  seasonal_model ax x "time" = Ok (s, r) ->
  exists s' r', seasonal_model ax r "time" = Ok (s', r') /\ adims (da_data r') = adims (da_data r) /\
    forall e, all_finite (List.length (ta_dates ax)) (series (da_data x) e) ->
      forall i, (i < List.length (ta_dates ax))%nat -> series (da_data r') e i = series (da_data r) e i.
Proof.
  intros ax x s r Hn W D H. destruct (seasonal_model_ok ax x Hn W D) as (s0 & r0 & E & D1 & D2 & M & R & _).
  rewrite E in H. apply Ok_inj in H. injection H as -> ->.
  assert (W' : wf_arr (da_data r)).
  { destruct W as [W1 W2]. unfold wf_arr, names. rewrite D2. split; [exact W1|]. intros e1 e2 H.
    assert (Ht : e1 "time" = e2 "time") by (apply H; apply in_map_iff; eexists; split; [|exact D]; reflexivity).
    assert (X : forall i, at_ (da_data x) (upd e1 "time" i) = at_ (da_data x) (upd e2 "time" i)).
    { intros i. apply W2. intros d Hd. destruct (String.eqb_spec "time" d) as [<-|N]; [rewrite !upd_same; reflexivity|rewrite !upd_other by exact N; apply H; exact Hd]. }
    rewrite <- (upd_id e1 "time"), <- (upd_id e2 "time"), !R. unfold resid_of. rewrite X, Ht. f_equal. apply model_ext. intros i _. apply X. }
  destruct (seasonal_model_ok ax r Hn W') as (s' & r' & E' & D1' & D2' & M' & R' & _); [rewrite D2; exact D|].
  exists s', r'. split; [exact E'|]. split; [exact D2'|]. intros e F i Hi. unfold series at 1. rewrite R'.
  set (n := List.length (ta_dates ax)) in *.
  transitivity (resid_of n (season_td ax) (resid_of n (season_td ax) (series (da_data x) e)) i).
  - unfold resid_of at 1 2. f_equal; [rewrite R; reflexivity|]. apply model_ext. intros j Hj. rewrite R. reflexivity.
  - rewrite resid_idem by assumption. unfold series. rewrite R. reflexivity.
Qed.
Print Assumptions C66_idempotent.

(** seasonal_cycle_model: the same fit; its coefficients reproduce the model and, when the
    samples do not determine them, are the smallest that do. *)
Theorem C66_cycle_model : forall n ts diy td,
  match diy with
  | DScalar _ => forall i, td i = INR i / 365
  | DArray l => List.length l = n /\ forall i, td i = INR i / IZR (nth i l 1%Z)
  end ->
  exists c z s, seasonal_cycle_model n ts diy = Ok (c, z, s) /\
    (all_finite n ts ->
       season_fit n td ts s z /\
       exists b : nat -> R, (forall k, c k = Fin (b k)) /\
         (forall i, s i = Fin (curve_about (Rsum n td / INR n) b (td i))) /\
         forall h, (forall i, (i < n)%nat -> s i = Fin (curve_about (Rsum n td / INR n) h (td i))) ->
           Rsum 6 (fun k => b k ^ 2) <= Rsum 6 (fun k => h k ^ 2)) /\
    ((exists i, (i < n)%nat /\ ts i = NaN) -> forall i, c i = NaN /\ s i = NaN /\ z i = NaN).
Proof.
  intros n ts diy td H0.
  assert (H : cycle_time n diy = Ok td).
  { unfold cycle_time. destruct diy as [v|l].
    - f_equal. apply functional_extensionality. intros i. symmetry. apply H0.
    - destruct H0 as [L H0]. rewrite L, Nat.eqb_refl. f_equal. apply functional_extensionality. intros i. symmetry. apply H0. }
  unfold seasonal_cycle_model. rewrite H. cbn [bind]. eexists _, _, _. split; [reflexivity|]. split.
  - intros F. split; [apply fit_ok; exact F|]. exists (fun k => val (coeff_of n td ts k)).
    assert (C : forall k, coeff_of n td ts k = Fin (val (coeff_of n td ts k))) by (intros k; rewrite coeff_fin by exact F; reflexivity).
    split; [exact C|]. split.
    + intros i. rewrite <- curve_about_comb. unfold model_of. apply fsum_fin_ext. intros k Hk. rewrite C at 1. reflexivity.
    + intros h E. apply coeff_min; [exact F|]. intros i Hi. specialize (E i Hi). rewrite model_fin in E by exact F. injection E as E.
      rewrite <- curve_about_comb in E. symmetry. exact E.
  - intros N i. split; [apply coeff_nan; exact N|]. split; [apply model_nan|apply resid_nan]; exact N.
Qed.
Print Assumptions C66_cycle_model.

(** ** C68 *)
(** Whatever the chunks, also along time: the values are those of fitting every complete series
    alone. *)
Theorem C68_each_series : forall ax c x ch, deseasonable ax c x ch ->
  let n := List.length (ta_dates ax) in
  let td i := INR i / IZR (if leap c (d_year (time_of (ta_dates ax) i)) then 366 else 365) in
  exists s r,
    snd (deseason ax x ch "time" "model") = Ok s /\ snd (deseason ax x ch "time" "residuals") = Ok r /\
    adims (da_data s) = ("time", n) :: drop_dim "time" (adims (da_data x)) /\
    adims (da_data r) = ("time", n) :: drop_dim "time" (adims (da_data x)) /\
    forall e, inrange (adims (da_data x)) e ->
      (all_finite n (series (da_data x) e) ->
       season_fit n td (series (da_data x) e) (series (da_data s) e) (series (da_data r) e)) /\
      ((exists i, (i < n)%nat /\ series (da_data x) e i = NaN) ->
       forall i, (i < n)%nat -> series (da_data s) e i = NaN /\ series (da_data r) e i = NaN).
Proof.
  intros ax c x ch H n td.
  destruct (deseason_plain ax c x ch H "model" (or_intror eq_refl)) as (s & E & D & V).
  destruct (deseason_plain ax c x ch H "residuals" (or_introl eq_refl)) as (r & E' & D' & V').
  change (String.eqb "model" "residuals") with false in V. change (String.eqb "residuals" "residuals") with true in V'. lazy iota in V, V'.
  exists (mkDarr (da_name x) s (deseason_attrs "model" (da_attrs x))), (mkDarr (da_name x) r (deseason_attrs "residuals" (da_attrs x))).
  rewrite E, E'. cbn [snd da_data]. repeat (split; [reflexivity || assumption|]). intros e R.
  assert (Td : forall i, (i < n)%nat -> td i = deseason_td c ax i).
  { intros i Hi. unfold td, deseason_td, days_array, time_of.
    rewrite (nth_indep _ _ (if leap c (d_year (mkDate 0 1 0)) then 366 else 365)%Z) by (rewrite map_length; exact Hi).
    rewrite (map_nth (fun d => if leap c (d_year d) then 366 else 365)%Z). reflexivity. }
  assert (In_ : forall i, (i < n)%nat -> inrange (adims (da_data x)) (upd e "time" i)).
  { intros i Hi d m I. destruct (String.eqb_spec "time" d) as [<-|N]; [|rewrite upd_other by exact N; apply (R d m I)].
    rewrite upd_same. pose proof (de_wf _ _ _ _ H) as [ND _]. pose proof (de_dim _ _ _ _ H) as J.
    apply (In_dget _ _ _ ND) in I. apply (In_dget _ _ _ ND) in J. assert (n = m) by (unfold n; congruence). lia. }
  assert (S1 : forall i, (i < n)%nat -> series s e i = model_of n (deseason_td c ax) (series (da_data x) e) i).
  { intros i Hi. unfold series at 1. rewrite V by (apply In_; exact Hi). rewrite upd_same. apply model_ext. intros j _. rewrite upd_upd. reflexivity. }
  assert (R1 : forall i, (i < n)%nat -> series r e i = resid_of n (deseason_td c ax) (series (da_data x) e) i).
  { intros i Hi. unfold series at 1. rewrite V' by (apply In_; exact Hi). rewrite upd_same. unfold resid_of. f_equal; [rewrite upd_upd; reflexivity|].
    apply model_ext. intros j _. rewrite upd_upd. reflexivity. }
  split.
  - intros F. pose proof (fit_ok n (deseason_td c ax) (series (da_data x) e) F) as FO.
    apply (fit_ext n td _ (model_of n (deseason_td c ax) (series (da_data x) e)) (resid_of n (deseason_td c ax) (series (da_data x) e)) _ _ _ (fun i _ => eq_refl));
      [intros i Hi; symmetry; auto|intros i Hi; symmetry; auto|].
    destruct FO as [A (g & B) [U1 U2 U3 U4 U5 U6] DD EE].
    assert (T : forall f, Rsum n (fun i => val (resid_of n (deseason_td c ax) (series (da_data x) e) i) * f (td i)) = Rsum n (fun i => val (resid_of n (deseason_td c ax) (series (da_data x) e) i) * f (deseason_td c ax i)))
      by (intros f; apply Rs_ext; intros i Hi; rewrite Td by exact Hi; reflexivity).
    assert (M : forall h, misfit n td (series (da_data x) e) h = misfit n (deseason_td c ax) (series (da_data x) e) h)
      by (intros h; apply Rs_ext; intros i Hi; rewrite Td by exact Hi; reflexivity).
    split.
    + exact A.
    + exists g. intros i Hi. rewrite Td by exact Hi. auto.
    + split; [exact U1|refine (eq_trans (T (fun t => t)) U2)|refine (eq_trans (T (fun t => sin (2 * PI * t))) U3)|refine (eq_trans (T (fun t => cos (2 * PI * t))) U4)
             |refine (eq_trans (T (fun t => sin (4 * PI * t))) U5)|refine (eq_trans (T (fun t => cos (4 * PI * t))) U6)].
    + intros h. rewrite M. apply DD.
    + intros h Hh i Hi. rewrite Td by exact Hi. apply EE; [rewrite <- M; exact Hh|exact Hi].
  - intros N i Hi. change (series (da_data (mkDarr (da_name x) s (deseason_attrs "model" (da_attrs x)))) e i) with (series s e i).
    change (series (da_data (mkDarr (da_name x) r (deseason_attrs "residuals" (da_attrs x)))) e i) with (series r e i).
    rewrite S1, R1 by exact Hi. split; [apply model_nan|apply resid_nan]; exact N.
Qed.
Print Assumptions C68_each_series.

(** Two chunkings of the same array: same outcome, dimensions, attributes and values. *)
Theorem C68_chunks : forall ax c x ch ch', deseasonable ax c x ch -> deseasonable ax c x ch' ->
  forall fmt, match snd (deseason ax x ch "time" fmt), snd (deseason ax x ch' "time" fmt) with
    | Ok r, Ok r' => da_name r = da_name r' /\ da_attrs r = da_attrs r' /\ adims (da_data r) = adims (da_data r') /\
                     forall e, inrange (adims (da_data r)) e -> at_ (da_data r) e = at_ (da_data r') e
    | Err k, Err k' => k = k'
    | _, _ => False
    end.
Proof.
  intros ax c x ch ch' H H' fmt.
  assert (Pl : fmt = "residuals" \/ fmt = "model" \/ fmt = "coeff" \/ (fmt <> "residuals" /\ fmt <> "model" /\ fmt <> "coeff")).
  { destruct (string_dec fmt "residuals"); [tauto|]. destruct (string_dec fmt "model"); [tauto|]. destruct (string_dec fmt "coeff"); tauto. }
  assert (W : NoDup (names (da_data x))) by (apply (de_wf _ _ _ _ H)).
  pose proof (de_dim _ _ _ _ H) as Dt.
  assert (Rg : forall e, inrange (("time", List.length (ta_dates ax)) :: drop_dim "time" (adims (da_data x))) e -> inrange (adims (da_data x)) e).
  { intros e R d m I. destruct (String.eqb_spec "time" d) as [<-|N].
    - apply (In_dget _ _ _ W) in I. apply (In_dget _ _ _ W) in Dt. apply R. left. congruence.
    - apply R. right. apply filter_In. split; [exact I|]. cbn [fst]. apply String.eqb_neq in N. rewrite N. reflexivity. }
  assert (Two : fmt = "residuals" \/ fmt = "model" -> match snd (deseason ax x ch "time" fmt), snd (deseason ax x ch' "time" fmt) with
    | Ok r, Ok r' => da_name r = da_name r' /\ da_attrs r = da_attrs r' /\ adims (da_data r) = adims (da_data r') /\
                     forall e, inrange (adims (da_data r)) e -> at_ (da_data r) e = at_ (da_data r') e
    | Err k, Err k' => k = k' | _, _ => False end).
  { intros Hf. destruct (deseason_plain ax c x ch H fmt Hf) as (r & E & D & V). destruct (deseason_plain ax c x ch' H' fmt Hf) as (r' & E' & D' & V').
    rewrite E, E'. cbn [snd da_name da_attrs da_data]. repeat (split; [congruence|]). intros e R. rewrite D in R.
    rewrite V, V' by (apply Rg; exact R). reflexivity. }
  destruct Pl as [-> |[-> |[-> |(F1 & F2 & F3)]]]; [apply Two; tauto|apply Two; tauto| |].
  - destruct (Nat.eq_dec (ndim (da_data x)) 1) as [N|N].
    + rewrite (deseason_coeff_1d ax c x ch H N), (deseason_coeff_1d ax c x ch' H' N). reflexivity.
    + destruct (deseason_coeff ax c x ch H N) as (r & E & D & V). destruct (deseason_coeff ax c x ch' H' N) as (r' & E' & D' & V').
      rewrite E, E'. cbn [snd da_name da_attrs da_data]. repeat (split; [congruence|]). intros e R. rewrite D in R.
      assert (R' : inrange (drop_dim "time" (adims (da_data x))) e) by (intros d m I; apply R; right; exact I).
      rewrite V, V' by exact R'. reflexivity.
  - rewrite (deseason_unknown ax c x ch H fmt F1 F2 F3), (deseason_unknown ax c x ch' H' fmt F1 F2 F3). reflexivity.
Qed.
Print Assumptions C68_chunks.

(** ** C69 *)
(** What holds of C69: the three outputs agree with one another on arrays of two or more
    dimensions, and the first two on all arrays. *)
Theorem C69_outputs_partial : forall ax c x ch, deseasonable ax c x ch ->
  let n := List.length (ta_dates ax) in
  let td i := INR i / IZR (if leap c (d_year (time_of (ta_dates ax) i)) then 366 else 365) in
  let mean := Rsum n td / INR n in
  exists s r, snd (deseason ax x ch "time" "model") = Ok s /\ snd (deseason ax x ch "time" "residuals") = Ok r /\
    (forall e, inrange (adims (da_data x)) e -> all_finite n (series (da_data x) e) ->
       fadd (at_ (da_data s) e) (at_ (da_data r) e) = at_ (da_data x) e) /\
    (ndim (da_data x) <> 1%nat -> exists k, snd (deseason ax x ch "time" "coeff") = Ok k /\
       adims (da_data k) = ("coeff", 6%nat) :: drop_dim "time" (adims (da_data x)) /\
       forall e, inrange (adims (da_data x)) e -> all_finite n (series (da_data x) e) ->
         exists b : nat -> R, (forall j, at_ (da_data k) (upd e "coeff" j) = Fin (b j)) /\
           at_ (da_data s) e = Fin (curve_about mean b (td (e "time")))).
Proof.
  intros ax c x ch H n td mean.
  destruct (deseason_plain ax c x ch H "model" (or_intror eq_refl)) as (s & E & D & V).
  destruct (deseason_plain ax c x ch H "residuals" (or_introl eq_refl)) as (r & E' & D' & V').
  change (String.eqb "model" "residuals") with false in V. change (String.eqb "residuals" "residuals") with true in V'. lazy iota in V, V'.
  rewrite E, E'. eexists _, _. split; [reflexivity|]. split; [reflexivity|]. cbn [da_data].
  assert (Td : forall i, (i < n)%nat -> td i = deseason_td c ax i).
  { intros i Hi. unfold td, deseason_td, days_array, time_of.
    rewrite (nth_indep _ _ (if leap c (d_year (mkDate 0 1 0)) then 366 else 365)%Z) by (rewrite map_length; exact Hi).
    rewrite (map_nth (fun d => if leap c (d_year d) then 366 else 365)%Z). reflexivity. }
  assert (Tn : forall e, inrange (adims (da_data x)) e -> (e "time" < n)%nat) by (intros e R; apply (R "time" n (de_dim _ _ _ _ H))).
  split.
  - intros e R F. rewrite V, V' by exact R. change (fun i => at_ (da_data x) (upd e "time" i)) with (series (da_data x) e).
    refine (eq_trans (sum_parts n (deseason_td c ax) _ F _ (Tn e R)) _). unfold series. rewrite upd_id. reflexivity.
  - intros N. destruct (deseason_coeff ax c x ch H N) as (k & Ek & Dk & Vk). rewrite Ek. eexists. split; [reflexivity|]. cbn [da_data]. split; [exact Dk|].
    intros e R F. exists (cf n (pinv n 6 (regressor n (deseason_td c ax))) (fun i => val (series (da_data x) e i))). split.
    + intros j. rewrite Vk.
      * rewrite upd_same. refine (eq_trans (coeff_ext n _ _ (series (da_data x) e) j _) _); [|apply coeff_fin; exact F].
        intros i Hi. rewrite upd_comm by discriminate. unfold series.
        change (at_ (da_data x) (upd (upd e "time" i) "coeff" j) = at_ (da_data x) (upd e "time" i)).
        pose proof (de_wf _ _ _ _ H) as [_ WA]. apply WA. intros d Hd. apply upd_other. intros <-. exact (de_coeff _ _ _ _ H Hd).
      * intros d m I. apply filter_In in I. destruct I as [I J]. rewrite upd_other; [apply (R d m I)|]. intros <-. apply (de_coeff _ _ _ _ H). apply in_map_iff. eexists; split; [|exact I]. reflexivity.
    + rewrite V by exact R. refine (eq_trans (model_fin n (deseason_td c ax) _ _ F) _). f_equal. unfold comb. cbn [Rsum regressor].
      assert (Mn : Rsum n (deseason_td c ax) = Rsum n td) by (apply Rs_ext; intros i Hi; symmetry; auto).
      rewrite Mn, Td by (apply Tn; exact R). fold mean. change (fun i => val (at_ (da_data x) (upd e "time" i))) with (fun i => val (series (da_data x) e i)). unfold curve_about; ring.
Qed.
Print Assumptions C69_outputs_partial.

Theorem C69_unknown_format : forall ax c x ch fmt, deseasonable ax c x ch -> ~ In fmt ["residuals"; "model"; "coeff"] ->
  deseason ax x ch "time" fmt = (da_attrs x, Err ValueError).
Proof. intros ax c x ch fmt H N. apply (deseason_unknown ax c x ch H); intros ->; apply N; cbn [In]; tauto. Qed.
Print Assumptions C69_unknown_format.

(** "coeff" fails on every array whose only dimension is time. *)
Theorem C69_coeff_refuted : forall ax c x ch, deseasonable ax c x ch -> ndim (da_data x) = 1%nat ->
  snd (deseason ax x ch "time" "coeff") = Err TypeError.
Proof. intros ax c x ch H N. rewrite (deseason_coeff_1d ax c x ch H N). reflexivity. Qed.
Print Assumptions C69_coeff_refuted.
