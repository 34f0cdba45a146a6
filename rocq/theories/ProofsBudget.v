(** * ProofsBudget: total volume, mass and mean density *)
From Coq Require Import Reals Lra Lia List String Bool Arith FunctionalExtensionality Permutation.
From Verif Require Import Num NumFacts Py Arr ArrFacts Eos Derived ProofsFields ProofsFields2 ProofsDz.
Import ListNotations.
Local Open Scope R_scope.

Lemma Rsum_box_perm ds ds' F e : Permutation ds ds' -> NoDup (map fst ds) ->
  Rsum_box ds F e = Rsum_box ds' F e.
Proof.
  intros H. revert e. induction H as [|[d n] l l' H IH|[d n] [d' n'] l|l l' l'' H1 IH1 H2 IH2]; intros e Hn.
  - reflexivity.
  - cbn. inversion Hn; subst. apply Rsum_ext. intros k _. apply IH. assumption.
  - cbn. rewrite Rsum_swap. apply Rsum_ext. intros k _. apply Rsum_ext. intros j _.
    f_equal. apply upd_comm. inversion Hn as [|? ? H _]; subst. cbn in H. intros ->. apply H. left; reflexivity.
  - rewrite IH1 by assumption. apply IH2. eapply Permutation_NoDup; [|exact Hn]. apply Permutation_map, H1.
Qed.

(** Contribution of one cell: cells with a missing density or volume contribute nothing. *)
Definition cell_mass (rho vol : fval) : R :=
  match rho, vol with Fin r, Fin v => r * v | _, _ => 0 end.

Lemma val_fmul a b : (forall s, a <> Inf s) -> (forall s, b <> Inf s) -> val (fmul a b) = cell_mass a b.
Proof.
  intros Ha Hb. destruct a as [|s|x]; [reflexivity|exfalso; exact (Ha s eq_refl)|].
  destruct b as [|s|y]; [reflexivity|exfalso; exact (Hb s eq_refl)|]. reflexivity.
Qed.

Lemma no_inf_mul a b r : no_inf a -> no_inf b -> amul a b = Ok r -> no_inf r.
Proof.
  intros Ha Hb H. apply amap2_inv in H. subst. intros e s. cbn. specialize (Ha e). specialize (Hb e).
  destruct (at_ a e) as [|t|x]; [discriminate|exfalso; exact (Ha t eq_refl)|].
  destruct (at_ b e) as [|t|y]; [discriminate|exfalso; exact (Hb t eq_refl)|]. discriminate.
Qed.

Lemma volo_value vol r : calc_volo vol = Ok r -> NoDup (names vol) -> no_inf vol ->
  ndim vol = 3%nat /\ (forall e, at_ r e = Fin (Rsum_box (adims vol) (fun e' => val (at_ vol e')) e)) /\
  names r = [].
Proof.
  unfold calc_volo. destruct (Nat.eqb (ndim vol) 3) eqn:E; [|discriminate]. cbn. intros [=<-] Hn Hi.
  apply Nat.eqb_eq in E. split; [exact E|]. split; [intros e; apply asum_all_Fin; assumption|].
  unfold asum_all, names. rewrite fold_sum_dims.
  assert (G := fun x => proj1 (fold_drop_names (names vol) (adims vol) x)). unfold names in *.
  cbn [adims amap]. destruct (fold_left _ _ _) as [|[x n] l]; [reflexivity|]. exfalso.
  destruct (G x (or_introl eq_refl)) as [H1 H2]. contradiction.
Qed.

Lemma volo_reject vol : ndim vol <> 3%nat -> calc_volo vol = Err AssertionError.
Proof. intros H. unfold calc_volo. rewrite (proj2 (Nat.eqb_neq _ _) H). reflexivity. Qed.

(** The dimensions summed over by calc_masso. *)
Definition other_dims (t : string) (ds : list (string * nat)) : list (string * nat) :=
  filter (fun p => negb (String.eqb (fst p) t)) ds.

Lemma masso_value rho vol t r : calc_masso rho vol t = Ok r ->
  NoDup (names rho) -> NoDup (names vol) -> no_inf rho -> no_inf vol ->
  (forall e, at_ r e = Fin (Rsum_box (other_dims t (union_dims (adims rho) (adims vol)))
                              (fun e' => cell_mass (at_ rho e') (at_ vol e')) e)) /\
  (forall d, In d (names r) <-> d = t /\ (In t (names rho) \/ In t (names vol))).
Proof.
  unfold calc_masso. intros H Nr Nv Ir Iv. apply bind_inv in H as (m & Hm & H).
  assert (Im := no_inf_mul _ _ _ Ir Iv Hm). apply amap2_inv in Hm.
  assert (Nu : NoDup (map fst (union_dims (adims rho) (adims vol)))) by (apply union_NoDup; assumption).
  assert (Nm : NoDup (names m)) by (rewrite Hm; exact Nu).
  split.
  - intros e. rewrite (asum_Fin _ _ _ H) by (try apply NoDup_filter; assumption). f_equal.
    assert (E : map (fun d => (d, size_of d m)) (filter (fun x => negb (String.eqb x t)) (names m))
                = other_dims t (union_dims (adims rho) (adims vol))).
    { assert (M := map_size_names m Nm). revert M. unfold other_dims.
      replace (union_dims (adims rho) (adims vol)) with (adims m) by (rewrite Hm; reflexivity).
      unfold names. generalize (fun d => size_of d m). intros sz.
      induction (adims m) as [|[d n] l IH]; [reflexivity|]. cbn [map filter fst]. intros [= Hs Hl].
      destruct (negb (String.eqb d t)); cbn [map]; rewrite IH by assumption; congruence. }
    rewrite E. apply Rsum_box_ext. intros e'. rewrite Hm. cbn. apply val_fmul; [apply Ir|apply Iv].
  - intros d. unfold asum in H. destruct (forallb _ _); [|discriminate]. injection H as <-.
    unfold names. rewrite fold_sum_dims, fold_drop_names. cbn [adims amap].
    rewrite Hm. unfold names. cbn [adims]. rewrite filter_In, !union_names. split.
    + intros [H1 H2]. destruct (string_dec d t) as [->|Hne]; [tauto|]. exfalso. apply H2. split; [exact H1|].
      apply negb_true_iff, String.eqb_neq. exact Hne.
    + intros [-> H1]. split; [exact H1|]. intros [_ H2]. rewrite String.eqb_refl in H2. discriminate.
Qed.

Lemma masso_ok rho vol t : dims_agree (adims rho) (adims vol) -> NoDup (names rho) -> is_ok (calc_masso rho vol t) = true.
Proof.
  intros H Hn. unfold calc_masso, amul, amap2. rewrite agree_compatible by assumption. cbn [bind].
  apply asum_ok. intros d Hd. apply filter_In in Hd as [Hd _]. exact Hd.
Qed.

(** Same cells, possibly in another dimension order. *)
Lemma other_dims_perm t rho vol : NoDup (names rho) -> NoDup (names vol) ->
  dims_agree (adims rho) (adims vol) -> ~ In t (names vol) ->
  (forall d, In d (names rho) -> d = t \/ In d (names vol)) ->
  Permutation (other_dims t (union_dims (adims rho) (adims vol))) (adims vol).
Proof.
  intros Nr Nv Hag Ht Hsub.
  assert (Nu : NoDup (map fst (union_dims (adims rho) (adims vol)))) by (apply union_NoDup; assumption).
  apply NoDup_Permutation.
  - apply NoDup_filter. eapply NoDup_map_inv, Nu.
  - eapply NoDup_map_inv, Nv.
  - intros [d n]. unfold other_dims. rewrite filter_In. cbn [fst]. split.
    + intros [H1 H2]. apply negb_true_iff, String.eqb_neq in H2.
      assert (Hv : In d (names vol)).
      { assert (In d (map fst (union_dims (adims rho) (adims vol)))) by (apply in_map_iff; exists (d, n); auto).
        rewrite union_names in H. destruct H as [H|H]; [|exact H]. destruct (Hsub d H); [contradiction|assumption]. }
      apply union_In in H1 as [H1|H1]; [|exact H1].
      apply in_map_iff in Hv as ((d' & n') & Hd & Hv). cbn in Hd. subst d'.
      rewrite (Hag d n n' H1 Hv). exact Hv.
    + intros H. split; [apply union_In_r; assumption|].
      apply negb_true_iff, String.eqb_neq. intros ->. apply Ht. apply in_map_iff. exists (t, n). auto.
Qed.

Lemma rhoga_value m v r e x y : calc_rhoga m v = Ok r -> at_ m e = Fin x -> at_ v e = Fin y -> y <> 0 ->
  at_ r e = Fin (x / y).
Proof. intros H Hx Hy Hn. apply amap2_inv in H. subst. cbn. rewrite Hx, Hy. apply fdiv_Fin, Hn. Qed.

(** Weighted mean between the extremes. *)
Lemma weighted_between ds R V lo hi e : NoDup (map fst ds) ->
  (forall e', in_box ds e e' -> 0 <= V e' /\ (V e' <> 0 -> lo <= R e' <= hi)) ->
  lo * Rsum_box ds V e <= Rsum_box ds (fun e' => R e' * V e') e <= hi * Rsum_box ds V e.
Proof.
  intros Hn H. rewrite <- !Rsum_box_scal. split; apply Rsum_box_le; try exact Hn; intros e' He;
    destruct (H e' He) as [H1 H2]; destruct (Req_EM_T (V e') 0) as [->|Hv]; try lra; specialize (H2 Hv); nra.
Qed.

Lemma mean_between rho vol t m v g e lo hi :
  calc_masso rho vol t = Ok m -> calc_volo vol = Ok v -> calc_rhoga m v = Ok g ->
  NoDup (names rho) -> NoDup (names vol) -> no_inf rho -> no_inf vol -> wf_arr vol ->
  dims_agree (adims rho) (adims vol) -> ~ In t (names vol) ->
  (forall d, In d (names rho) -> d = t \/ In d (names vol)) ->
  (forall e', in_box (adims vol) e e' ->
     (at_ vol e' = NaN <-> at_ rho e' = NaN) /\
     (forall x, at_ vol e' = Fin x -> 0 <= x) /\ (forall x, at_ rho e' = Fin x -> lo <= x <= hi)) ->
  exists mx vx, at_ m e = Fin mx /\ at_ v e = Fin vx /\
    (vx <> 0 -> exists gx, at_ g e = Fin gx /\ gx * vx = mx /\ 0 < vx /\ lo <= gx <= hi).
Proof.
  intros Hm Hv Hg Nr Nv Ir Iv Wv Hag Ht Hsub Hcell.
  destruct (masso_value _ _ _ _ Hm Nr Nv Ir Iv) as [Em _]. specialize (Em e).
  destruct (volo_value _ _ Hv Nv Iv) as (_ & Ev & _). specialize (Ev e).
  assert (P := other_dims_perm t rho vol Nr Nv Hag Ht Hsub).
  assert (Nu : NoDup (map fst (other_dims t (union_dims (adims rho) (adims vol))))).
  { apply NoDup_map_filter. apply union_NoDup; assumption. }
  rewrite (Rsum_box_perm _ _ _ _ P Nu) in Em.
  eexists _, _. split; [exact Em|]. split; [exact Ev|]. intros Hne.
  set (V := fun e' => val (at_ vol e')) in *.
  assert (Em' : Rsum_box (adims vol) (fun e' => cell_mass (at_ rho e') (at_ vol e')) e
                = Rsum_box (adims vol) (fun e' => val (at_ rho e') * V e') e).
  { apply Rsum_box_ext. intros e'. unfold V. specialize (Ir e'). specialize (Iv e').
    destruct (at_ rho e') as [|s|x]; [cbn; lra|exfalso; exact (Ir s eq_refl)|].
    destruct (at_ vol e') as [|s|y]; [cbn; lra|exfalso; exact (Iv s eq_refl)|]. reflexivity. }
  assert (B := weighted_between (adims vol) (fun e' => val (at_ rho e')) V lo hi e Nv).
  assert (Hb : forall e', in_box (adims vol) e e' -> 0 <= V e' /\ (V e' <> 0 -> lo <= val (at_ rho e') <= hi)).
  { intros e' He. destruct (Hcell e' He) as (C1 & C2 & C3). unfold V. specialize (Ir e'). specialize (Iv e').
    destruct (at_ vol e') as [|s|y]; [split; [cbn; lra|cbn; tauto]|exfalso; exact (Iv s eq_refl)|].
    split; [apply C2; reflexivity|]. intros _.
    destruct (at_ rho e') as [|s|x]; [|exfalso; exact (Ir s eq_refl)|apply C3; reflexivity].
    destruct C1 as [_ C1]. specialize (C1 eq_refl). discriminate. }
  specialize (B Hb).
  assert (Vpos : 0 <= Rsum_box (adims vol) V e) by (apply Rsum_box_nonneg; [exact Nv|intros e' He; apply Hb, He]).
  assert (Vp : 0 < Rsum_box (adims vol) V e) by lra.
  rewrite (rhoga_value _ _ _ _ _ _ Hg Em Ev Hne). rewrite Em' in *.
  set (M := Rsum_box (adims vol) (fun e' => val (at_ rho e') * V e') e) in *.
  set (W := Rsum_box (adims vol) V e) in *.
  exists (M / W). split; [reflexivity|]. split; [field; lra|]. split; [exact Vp|].
  split; apply (Rmult_le_reg_r W); try exact Vp; unfold Rdiv; rewrite Rmult_assoc, Rinv_l by lra; lra.
Qed.
