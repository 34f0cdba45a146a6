(** * ProofsTrend4: optimality of the fit and properties of the residuals *)
From Coq Require Import Reals ZArith List String Ascii Bool Arith Lia Lra Psatz.
From Verif Require Import Num NumFacts Py Arr ArrFacts Trend SpecTime SpecTrend ProofsUtil ProofsFields ProofsTide ProofsStericOk ProofsTrend ProofsTrend2 ProofsTrend3 ProofsAvg.
Import ListNotations.
Local Open Scope string_scope.
Local Open Scope R_scope.

Lemma S_plus n p f g : Sum_if n p (fun i => f i + g i) = Sum_if n p f + Sum_if n p g.
Proof. rewrite <- !SL_filter. apply SL_plus. Qed.
Lemma S_scal n p c f : Sum_if n p (fun i => c * f i) = c * Sum_if n p f.
Proof. rewrite <- !SL_filter. apply SL_scal. Qed.
Lemma S_minus n p f g : Sum_if n p (fun i => f i - g i) = Sum_if n p f - Sum_if n p g.
Proof. rewrite <- !SL_filter. apply SL_minus. Qed.
Lemma S_nonneg n p f : (forall i, 0 <= f i) -> 0 <= Sum_if n p f.
Proof. intros H. rewrite <- SL_filter. apply SL_nonneg. auto. Qed.
Lemma S_ext n p f g : (forall i, f i = g i) -> Sum_if n p f = Sum_if n p g.
Proof. intros H. apply Sum_if_ext; auto. Qed.
Lemma S_sq_zero n p f : Sum_if n p (fun i => f i * f i) = 0 -> forall i, (i < n)%nat -> p i = true -> f i = 0.
Proof.
  rewrite <- SL_filter. intros H i Hi Hp. apply (SL_sq_zero _ _ H). apply filter_In. split; [apply in_seq; lia|exact Hp].
Qed.

Section Normal.
  Variables (n : nat) (x : nat -> R) (y : nat -> fval) (m b : R).
  Let ok i := notnull (y i).
  Hypothesis N1 : Sum_if n ok (fun i => val (y i) - (m * x i + b)) = 0.
  Hypothesis N2 : Sum_if n ok (fun i => x i * (val (y i) - (m * x i + b))) = 0.

  (** Pythagoras *)
  Lemma ssr_split m' b' : ssr n x y m' b' = ssr n x y m b + Sum_if n ok (fun i => ((m - m') * x i + (b - b')) * ((m - m') * x i + (b - b'))).
  Proof.
    unfold ssr. fold ok.
    transitivity (Sum_if n ok (fun i => (val (y i) - (m * x i + b)) ^ 2)
      + Sum_if n ok (fun i => ((m - m') * x i + (b - b')) * ((m - m') * x i + (b - b')))
      + (2 * (m - m') * Sum_if n ok (fun i => x i * (val (y i) - (m * x i + b))) + 2 * (b - b') * Sum_if n ok (fun i => val (y i) - (m * x i + b)))).
    - rewrite <- !S_scal, <- !S_plus. apply S_ext. intros i. ring.
    - rewrite N1, N2. ring.
  Qed.

  Lemma ssr_min m' b' : ssr n x y m b <= ssr n x y m' b'.
  Proof.
    rewrite (ssr_split m' b'). assert (0 <= Sum_if n ok (fun i => ((m - m') * x i + (b - b')) * ((m - m') * x i + (b - b')))); [|lra].
    apply S_nonneg. intros i. apply Rle_0_sqr.
  Qed.

  Lemma same_line m' b' : (forall i, (i < n)%nat -> ok i = true -> (m - m') * x i + (b - b') = 0) -> two_times n x y -> m' = m /\ b' = b.
  Proof.
    intros H (i & j & Hi & Hj & Vi & Vj & Nx). pose proof (H i Hi Vi) as A. pose proof (H j Hj Vj) as B.
    assert ((m - m') * (x i - x j) = 0) as P by lra. apply Rmult_integral in P. destruct P as [P|P]; [|exfalso; apply Nx; lra].
    assert (m' = m) as -> by lra. split; [reflexivity|]. replace (m - m) with 0 in A by ring. lra.
  Qed.

  Lemma ssr_unique m' b' : two_times n x y -> ssr n x y m' b' <= ssr n x y m b -> m' = m /\ b' = b.
  Proof.
    intros T L. rewrite (ssr_split m' b') in L. apply same_line; [|exact T].
    apply S_sq_zero. assert (0 <= Sum_if n ok (fun i => ((m - m') * x i + (b - b')) * ((m - m') * x i + (b - b')))); [|lra].
    apply S_nonneg. intros i. apply Rle_0_sqr.
  Qed.

  (** Any other solution of the normal equations has the same fitted values. *)
  Lemma same_values m' b' :
    Sum_if n ok (fun i => val (y i) - (m' * x i + b')) = 0 -> Sum_if n ok (fun i => x i * (val (y i) - (m' * x i + b'))) = 0 ->
    forall i, (i < n)%nat -> ok i = true -> m' * x i + b' = m * x i + b.
  Proof.
    intros A B. assert (Z : forall i, (i < n)%nat -> ok i = true -> (m - m') * x i + (b - b') = 0).
    { apply S_sq_zero.
      transitivity ((m - m') * (Sum_if n ok (fun i => x i * (val (y i) - (m' * x i + b'))) - Sum_if n ok (fun i => x i * (val (y i) - (m * x i + b))))
                    + (b - b') * (Sum_if n ok (fun i => val (y i) - (m' * x i + b')) - Sum_if n ok (fun i => val (y i) - (m * x i + b)))).
      - rewrite <- !S_minus, <- !S_scal, <- S_plus. apply S_ext. intros; ring.
      - rewrite A, B, N1, N2. ring. }
    intros i Hi Hp. specialize (Z i Hi Hp). lra.
  Qed.
End Normal.

Lemma rows_nonempty n y i : (i < n)%nat -> notnull (y i) = true -> valid_rows n y <> [].
Proof.
  intros Hi H E. assert (In i (valid_rows n y)) as I by (apply filter_In; split; [apply in_seq; lia|exact H]). rewrite E in I. destruct I.
Qed.
Lemma rows_empty n y : valid_rows n y = [] -> forall i, (i < n)%nat -> notnull (y i) = false.
Proof.
  intros E i Hi. destruct (notnull (y i)) eqn:H; [|reflexivity]. exfalso. exact (rows_nonempty n y i Hi H E).
Qed.

Lemma fit_of_upd ix a e i : fit_of ix a (upd e (ix_dim ix) i) = fit_of ix a e.
Proof.
  unfold fit_of. f_equal. unfold series. apply FunctionalExtensionality.functional_extensionality. intros j. now rewrite upd_upd.
Qed.

(** The residual series through [e]. *)
Section Resid.
  Variables (ix : taxis1) (x : darr) (mode : string) (r : darr) (e : index).
  Hypothesis HD : detrendable ix x.
  Hypothesis HF : no_infinity ix (da_data x).
  Hypothesis Hm : mode = "remove" \/ mode = "correct".
  Hypothesis Hr : detrend_array ix x 1 mode = Ok r.
  Let n := ix_n ix.
  Let t := ix_val ix.
  Let y i := at_ (da_data x) (upd e (ix_dim ix) i).
  Let z i := at_ (da_data r) (upd e (ix_dim ix) i).

  Lemma sum_nz : SL (fun i => t i * t i) (seq 0 n) <> 0.
  Proof. apply sumsq_nz. apply HD. Qed.

  Lemma resid_value e' : at_ (da_data r) e' = fsub (at_ (da_data x) e') (line_at ix mode (da_data x) e').
  Proof. destruct (detrend_ok ix x mode HD Hm) as (r' & E & _ & _ & V & _). rewrite Hr in E. apply Ok_inj in E. subst r'. apply V. Qed.

  Lemma resid_missing : valid_rows n y = [] -> forall i, (i < n)%nat -> z i = NaN.
  Proof.
    intros E i Hi. unfold z. rewrite resid_value. pose proof (rows_empty n y E i Hi) as H.
    unfold y in H. destruct (at_ (da_data x) (upd e (ix_dim ix) i)); [reflexivity|discriminate|discriminate].
  Qed.

  Lemma resid_some : valid_rows n y <> [] -> exists m b, fit_of ix (da_data x) e = (Fin m, Fin b) /\
    Sum_if n (fun i => notnull (y i)) (fun i => val (y i) - (m * t i + b)) = 0 /\
    Sum_if n (fun i => notnull (y i)) (fun i => t i * (val (y i) - (m * t i + b))) = 0 /\
    forall i, z i = match y i with Fin v => Fin (v - (m * t i + if String.eqb mode "remove" then b else 0)) | _ => NaN end.
  Proof.
    intros E. destruct (fit_ok n t y sum_nz (fun i _ => HF _) E) as (m & b & F & N1 & N2 & _).
    exists m, b. split; [exact F|]. split; [exact N1|]. split; [exact N2|].
    intros i. unfold z. rewrite resid_value. unfold line_at. rewrite fit_of_upd.
    assert (F' : fit_of ix (da_data x) e = (Fin m, Fin b)) by exact F. rewrite F'. cbn [fst snd fmul]. rewrite upd_same.
    fold (y i). change (ix_val ix i) with (t i). pose proof (HF (upd e (ix_dim ix) i)) as Q. fold (y i) in Q.
    destruct Hm as [-> | ->]; cbn [String.eqb Ascii.eqb Bool.eqb fadd]; destruct (y i) as [|s|v]; try destruct Q; cbn; try reflexivity; f_equal; ring.
  Qed.

  Lemma resid_valid i : (i < n)%nat -> notnull (z i) = notnull (y i).
  Proof.
    intros Hi. destruct (valid_rows n y) eqn:E.
    - rewrite (resid_missing E i Hi), (rows_empty n y E i Hi). reflexivity.
    - destruct resid_some as (m & b & _ & _ & _ & V); [rewrite E; discriminate|]. rewrite V.
      pose proof (HF (upd e (ix_dim ix) i)) as Q. fold (y i) in Q. destruct (y i); [reflexivity|destruct Q|reflexivity].
  Qed.
End Resid.

Lemma detrend_detrendable ix x mode r : detrendable ix x -> mode = "remove" \/ mode = "correct" -> detrend_array ix x 1 mode = Ok r -> detrendable ix r.
Proof.
  intros HD Hm H. destruct (detrend_ok ix x mode HD Hm) as (r' & E & _ & D & V & A). rewrite H in E. apply Ok_inj in E. subst r'.
  destruct HD as [[Nd W] Hd Hi Hz Hu]. constructor; auto.
  - split; [unfold names; rewrite D; exact Nd|]. intros e e' He. rewrite !V.
    assert (He' : forall d, In d (names (da_data x)) -> e d = e' d) by (intros d I; apply He; unfold names; rewrite D; exact I).
    f_equal; [apply W; exact He'|].
    assert (In (ix_dim ix) (names (da_data x))) as Hin by (unfold names; apply in_map_iff; eexists; split; [|exact Hd]; reflexivity).
    unfold line_at. assert (fit_of ix (da_data x) e = fit_of ix (da_data x) e') as ->.
    { unfold fit_of. f_equal. unfold series. apply FunctionalExtensionality.functional_extensionality. intros j. apply W.
      intros d I. unfold upd. destruct (String.eqb (ix_dim ix) d); auto. }
    rewrite (He' _ Hin). reflexivity.
  - rewrite D. exact Hd.
  - intros C u E. apply (Hu C). rewrite <- (A "units") by discriminate. exact E.
Qed.

Lemma detrend_finite ix x mode r : detrendable ix x -> no_infinity ix (da_data x) -> mode = "remove" \/ mode = "correct" ->
  detrend_array ix x 1 mode = Ok r -> no_infinity ix (da_data r).
Proof.
  intros HD HF Hm H e. rewrite (resid_value ix x mode r HD Hm H e).
  assert (Q := HF e). unfold line_at.
  assert (F : exists p q, fit_of ix (da_data x) e = (p, q) /\ not_inf p /\ not_inf q).
  { unfold fit_of, polyfit1. destruct (valid_rows _ _); [eexists _, _; split; [reflexivity|]; split; exact I|].
    destruct (forallb _ _); [|eexists _, _; split; [reflexivity|]; split; exact I]. destruct (lstsq2 _ _ _ _).
    eexists _, _; split; [reflexivity|]; split; exact I. }
  destruct F as (p & q & -> & P1 & P2). cbn [fst snd].
  destruct (at_ (da_data x) e) as [|s|v], p as [|s1|v1], q as [|s2|v2]; try (destruct Q); try (destruct P1); try (destruct P2);
    destruct (String.eqb mode "remove"); cbn; exact I.
Qed.
