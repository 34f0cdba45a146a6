(** * ProofsSeason2: the fit in terms of curves *)
From Coq Require Import Reals ZArith List String Bool Arith Lia Lra.
From Verif Require Import Num NumFacts Py Arr ArrFacts Calendar SpecTime Trend Seasonal SpecSeason ProofsPinv ProofsSeason ProofsUtil ProofsStericOk.
Import ListNotations.
Local Open Scope string_scope.
Local Open Scope R_scope.

#[local] Opaque pinv.
Section Curve.
  Variables (n : nat) (td : nat -> R).
  Let A := regressor n td.
  Let P := pinv n 6 A.
  Let mean := Rsum n td / INR n.
  Definition centred (g : nat -> R) (k : nat) : R := match k with O => g 0%nat + g 1%nat * mean | _ => g k end.
  Definition uncentred (g : nat -> R) (k : nat) : R := match k with O => g 0%nat - g 1%nat * mean | _ => g k end.
  Lemma curve_comb g i : curve g (td i) = comb 6 A (centred g) i.
  Proof. unfold curve, comb, A, centred. cbn [Rsum regressor]. fold mean. ring. Qed.
  Lemma comb_curve g i : comb 6 A g i = curve (uncentred g) (td i).
  Proof. unfold curve, comb, A, uncentred. cbn [Rsum regressor]. fold mean. ring. Qed.

  Variable y : nat -> fval.
  Hypothesis F : all_finite n y.
  Let v i := val (y i).
  Let HP : penrose n 6 A P := pinv_penrose n 6 A.

  Lemma model_curve i : model_of n td y i = Fin (curve (uncentred (cf n P v)) (td i)).
  Proof. rewrite model_fin by exact F. f_equal. apply comb_curve. Qed.
  Lemma resid_val i : (i < n)%nat -> val (resid_of n td y i) = rs n 6 A P v i.
  Proof. intros Hi. rewrite resid_fin by (exact Hi || exact F). reflexivity. Qed.
  Lemma resid_finite : all_finite n (resid_of n td y).
  Proof. intros i Hi. rewrite resid_fin by (exact Hi || exact F). reflexivity. Qed.

  Lemma sum_parts i : (i < n)%nat -> fadd (model_of n td y i) (resid_of n td y i) = y i.
  Proof.
    intros Hi. unfold resid_of. rewrite model_curve. specialize (F i Hi). destruct (y i); [discriminate|discriminate|]. cbn. f_equal. ring.
  Qed.

  Lemma resid_uncorrelated : uncorrelated n td (resid_of n td y).
  Proof.
    pose proof (fun j => rs_orth n 6 A P HP v j) as O.
    assert (X : forall f, Rsum n (fun i => val (resid_of n td y i) * f i) = Rsum n (fun i => rs n 6 A P v i * f i)).
    { intros f. apply Rs_ext. intros i Hi. rewrite resid_val by exact Hi. reflexivity. }
    assert (Z : Rsum n (fun i => val (resid_of n td y i)) = 0).
    { rewrite <- (O 0%nat) by lia. apply Rs_ext. intros i Hi. rewrite resid_val by exact Hi. change (A 0%nat i) with 1. ring. }
    constructor.
    - exact Z.
    - rewrite X. transitivity (Rsum n (fun i => rs n 6 A P v i * A 1%nat i + mean * rs n 6 A P v i)).
      + apply Rs_ext. intros i _. change (A 1%nat i) with (td i - mean). ring.
      + rewrite Rsum_plus, Rsum_scal, (O 1%nat) by lia. rewrite (Rs_ext n _ (fun i => val (resid_of n td y i))), Z by (intros i Hi; rewrite resid_val by exact Hi; reflexivity). ring.
    - rewrite X. exact (O 2%nat ltac:(lia)).
    - rewrite X. exact (O 3%nat ltac:(lia)).
    - rewrite X. exact (O 4%nat ltac:(lia)).
    - rewrite X. exact (O 5%nat ltac:(lia)).
  Qed.

  Lemma misfit_sse g : misfit n td y g = sse n 6 A v (centred g).
  Proof. unfold misfit, sse. apply Rs_ext. intros i _. rewrite curve_comb. reflexivity. Qed.
  Lemma resid_sse : Rsum n (fun i => val (resid_of n td y i) ^ 2) = sse n 6 A v (cf n P v).
  Proof. unfold sse. apply Rs_ext. intros i Hi. rewrite resid_val by exact Hi. reflexivity. Qed.
  Lemma resid_min g : Rsum n (fun i => val (resid_of n td y i) ^ 2) <= misfit n td y g.
  Proof. rewrite resid_sse, misfit_sse. apply sse_min. exact HP. Qed.
  Lemma fitted_only g : misfit n td y g <= Rsum n (fun i => val (resid_of n td y i) ^ 2) ->
    forall i, (i < n)%nat -> model_of n td y i = Fin (curve g (td i)).
  Proof.
    rewrite resid_sse, misfit_sse. intros L i Hi. rewrite model_fin by exact F. f_equal. rewrite curve_comb. symmetry.
    apply (sse_unique n 6 A P HP v (centred g) L i Hi).
  Qed.
  Lemma resid_exact g : (forall i, (i < n)%nat -> y i = Fin (curve g (td i))) -> forall i, (i < n)%nat -> resid_of n td y i = Fin 0.
  Proof.
    intros E i Hi. rewrite resid_fin by (exact Hi || exact F). f_equal. apply (rs_exact n 6 A P HP v (centred g)); [|exact Hi].
    intros j Hj. unfold v. rewrite (E j Hj). apply curve_comb.
  Qed.
  Lemma resid_idem i : (i < n)%nat -> resid_of n td (resid_of n td y) i = resid_of n td y i.
  Proof.
    intros Hi. rewrite (resid_fin n td (resid_of n td y)) by (exact Hi || exact resid_finite). rewrite resid_fin by (exact Hi || exact F). f_equal.
    fold A P v. refine (eq_trans _ (rs_idem n 6 A P HP v i)).
    assert (C : forall j, cf n P (fun i => val (resid_of n td y i)) j = cf n P (rs n 6 A P v) j).
    { intros j. unfold cf at 1 2. apply Rs_ext. intros l Hl. rewrite resid_val by exact Hl. reflexivity. }
    unfold rs at 1 2. rewrite resid_val by exact Hi. fold v. f_equal. unfold comb. apply Rs_ext. intros j _. fold A P. rewrite C. reflexivity.
  Qed.
  (** Adding a curve does not change the residuals. *)
  Lemma coeff_min g : (forall i, (i < n)%nat -> comb 6 A g i = comb 6 A (cf n P v) i) ->
    Rsum 6 (fun k => val (coeff_of n td y k) ^ 2) <= Rsum 6 (fun k => g k ^ 2).
  Proof.
    intros E. rewrite (Rs_ext 6 (fun k => val (coeff_of n td y k) ^ 2) (fun k => cf n P v k ^ 2)) by (intros k Hk; rewrite coeff_fin by exact F; reflexivity).
    apply (cf_norm n 6 A P HP v g E).
  Qed.
End Curve.

(** ** seasonal_model *)
Definition season_td (ax : taxis) (i : nat) : R := decimal_time (axis_cal ax) (date_at (ta_dates ax) i).

Lemma seasonal_model_ok ax x : ta_name ax = "time" -> wf_arr (da_data x) -> In ("time", List.length (ta_dates ax)) (adims (da_data x)) ->
  exists s r, seasonal_model ax x "time" = Ok (s, r) /\
    adims (da_data s) = (drop_dim "time" (adims (da_data x)) ++ [("time", List.length (ta_dates ax))])%list /\
    adims (da_data r) = adims (da_data x) /\
    (forall e j, at_ (da_data s) (upd e "time" j) = model_of (List.length (ta_dates ax)) (season_td ax) (fun i => at_ (da_data x) (upd e "time" i)) j) /\
    (forall e j, at_ (da_data r) (upd e "time" j) = resid_of (List.length (ta_dates ax)) (season_td ax) (fun i => at_ (da_data x) (upd e "time" i)) j) /\
    da_attrs s = season_attrs "smodel" "Seasonal model" (da_attrs x) /\
    da_attrs r = season_attrs "sresid" "Seasonal residuals" (da_attrs x).
Proof.
  intros Hn [Nd W] Hd. unfold seasonal_model. rewrite Hn. cbn [String.eqb Ascii.eqb Bool.eqb bind].
  set (n := List.length (ta_dates ax)) in *. set (L := adims (da_data x)) in *.
  assert (NL : NoDup (map fst L)) by exact Nd.
  match goal with |- context [asub _ ?m] => set (sm := m) end.
  assert (OS : over L sm).
  { split.
    - unfold sm, names. cbn [adims]. rewrite map_app. cbn [map fst]. apply NoDup_app'; [apply drop_NoDup; exact NL|repeat constructor; intros []|].
      intros d H1 [<- |[]]. apply drop_names in H1. tauto.
    - unfold sm. cbn [adims]. intros p Hp. apply in_app_iff in Hp. destruct Hp as [Hp|[<- |[]]]; [apply filter_In in Hp; tauto|exact Hd]. }
  assert (OX : over L (da_data x)) by (split; [exact Nd|apply incl_refl]).
  unfold asub. rewrite (over_amap2 L NL _ _ _ OX OS). cbn [bind].
  eexists _, _. split; [reflexivity|]. cbn [da_data da_attrs adims at_]. split; [reflexivity|]. split.
  - apply union_absorb. intros d Hin. apply in_map_iff in Hin. destruct Hin as (p & <- & Hp). apply in_map. apply OS. exact Hp.
  - assert (M : forall e j, at_ sm (upd e "time" j) = model_of n (season_td ax) (fun i => at_ (da_data x) (upd e "time" i)) j).
    { intros e j. unfold sm. cbn [at_]. rewrite upd_same. apply model_ext. intros i Hi. rewrite upd_upd. reflexivity. }
    split; [exact M|]. split; [|split; reflexivity]. intros e j. unfold resid_of. rewrite M. reflexivity.
Qed.
