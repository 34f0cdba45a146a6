(** * ProofsWave: calc_wave_speed *)
From Coq Require Import Reals Lra Lia List String Bool Arith FunctionalExtensionality.
From Verif Require Import Num NumFacts Py Arr ArrFacts Eos Derived SpecN2 ProofsFields ProofsFields2 ProofsDz ProofsN2.
Import ListNotations.
Local Open Scope R_scope.

Lemma truth_fbool b : truth (fbool b) = b.
Proof. destruct b; cbn; [rewrite (proj2 (Reqb_false 1 0)) by lra|rewrite Reqb_refl]; reflexivity. Qed.

Lemma wave_inv n2 dz zc r : calc_wave_speed n2 dz zc = Ok r ->
  exists adj d0 n0 rest, adjust_negative_n2 n2 "z_l" = Ok adj /\ adims n2 = (d0, n0) :: rest /\
   (In zc (names n2) \/ In zc (names dz)) /\
   (forall d, In d (names r) <-> (In d (names n2) /\ d <> d0) \/ ((In d (names n2) \/ In d (names dz)) /\ d <> zc)) /\
   forall e, at_ r e =
     if isnull (at_ n2 (upd e d0 0)) then NaN
     else fdiv (fsum (match dget zc (union_dims (adims n2) (adims dz)) with Some m => m | None => 1%nat end)
                     (fun k => nan0 (fmul (fsqrt (at_ adj (upd e zc k))) (at_ dz (upd e zc k))))) (Fin PI).
Proof.
  unfold calc_wave_speed. intros H.
  apply bind_inv in H as (adj & Ha & H). apply bind_inv in H as (prod & Hp & H).
  apply bind_inv in H as (s & Hs & H). apply bind_inv in H as (surf & Hsf & H).
  assert (Ha' := Ha). apply adjust_inv in Ha' as (d0 & n0 & rest & Hd & _ & _ & Had & _).
  exists adj, d0, n0, rest. split; [exact Ha|]. split; [exact Hd|].
  apply amap2_inv in Hp. cbn [adims amap at_] in Hp. rewrite Had in Hp.
  unfold asum in Hs. destruct (forallb _ _) eqn:Ef in Hs; [|discriminate]. injection Hs as <-.
  cbn in Ef. rewrite andb_true_r in Ef. unfold has_dim in Ef. apply dmem_true in Ef.
  subst prod. cbn [adims] in Ef. rewrite union_names in Ef. split; [exact Ef|].
  unfold getitem in Hsf. rewrite Hd in Hsf. apply isel_inv in Hsf as (n & _ & _ & ->).
  unfold awhere in H. apply amap3_inv in H. subst r. split.
  - intros d. unfold names. cbn [adims aisnull amap scalar const_r fold_left sum1].
    rewrite !union_names, !drop_names, union_names. cbn. tauto.
  - intros e. cbn [at_ aisnull amap scalar const_r fold_left sum1]. rewrite truth_fbool.
    unfold size_of. cbn [adims amap]. reflexivity.
Qed.

Definition finite_or_missing (v : fval) : Prop := forall s, v <> Inf s.

Lemma stabilised_no_inf f k v : (forall j, (j <= k)%nat -> finite_or_missing (f j)) -> stabilised f k v -> finite_or_missing v.
Proof.
  intros Hf (H1 & H2 & H3) s. destruct (f k) as [|t|x] eqn:E.
  - rewrite H1 by reflexivity. discriminate.
  - exfalso. apply (Hf k (le_n k) t E).
  - destruct (positive_dec (f k)) as [Hp|Hp].
    + rewrite E in *. rewrite (H2 Hp). discriminate.
    + rewrite E in *. destruct (H3 ltac:(discriminate) Hp) as [(j & Hj & _ & _ & ->)|(_ & ->)]; [|discriminate].
      apply Hf. lia.
Qed.

Lemma term_value g d : finite_or_missing g -> finite_or_missing d -> (g = NaN \/ positive g) ->
  nan0 (fmul (fsqrt g) d) = Fin (n_times_dz g d).
Proof.
  intros Hg Hd Hp. destruct g as [|s|x]; [reflexivity|exfalso; exact (Hg s eq_refl)|].
  destruct Hp as [Hp|Hp]; [discriminate|]. cbn in Hp. rewrite fsqrt_Fin by lra.
  destruct d as [|s|y]; [reflexivity|exfalso; exact (Hd s eq_refl)|]. reflexivity.
Qed.

Lemma wave_column n2 dz n rest r e :
  calc_wave_speed n2 dz "z_l" = Ok r -> adims n2 = ("z_l"%string, n) :: rest ->
  let f := fun k => at_ n2 (upd e "z_l" k) in
  let h := fun k => at_ dz (upd e "z_l" k) in
  (forall k, (k < n)%nat -> finite_or_missing (f k) /\ finite_or_missing (h k)) ->
  (forall d, In d (names r) <-> (In d (names n2) \/ In d (names dz)) /\ d <> "z_l"%string) /\
  (f O = NaN -> at_ r e = NaN) /\
  (f O <> NaN -> exists g, (forall k, (k < n)%nat -> stabilised f k (g k)) /\
     at_ r e = Fin (1 / PI * Rsum n (fun k => n_times_dz (g k) (h k)))).
Proof.
  intros H Hd f h Hfin. apply wave_inv in H as (adj & d0 & n0 & rest' & Ha & Hd' & _ & Hn & Hv).
  rewrite Hd in Hd'. injection Hd' as <- <- <-.
  destruct (adjust_first _ _ _ _ _ Ha Hd) as [_ Hst].
  split; [intros d; rewrite Hn; tauto|]. rewrite Hv. fold (f O). split.
  - intros ->. reflexivity.
  - intros H0. exists (fun k => at_ adj (upd e "z_l" k)).
    assert (S : forall k, stabilised f k (at_ adj (upd e "z_l" k))).
    { intros k. specialize (Hst (upd e "z_l" k)). rewrite upd_same in Hst.
      replace (fun k0 => at_ n2 (upd (upd e "z_l" k) "z_l" k0)) with f in Hst; [exact Hst|].
      apply functional_extensionality; intros j. now rewrite upd_upd. }
    split; [intros k _; apply S|].
    assert (Hnull : isnull (f O) = false) by (destruct (f O); [contradiction| |]; reflexivity).
    rewrite Hnull. rewrite (dget_union "z_l" (adims n2) (adims dz) n) by (rewrite Hd; cbn; reflexivity).
    rewrite (fsum_ext n _ (fun k => Fin (n_times_dz (at_ adj (upd e "z_l" k)) (h k)))).
    + rewrite fsum_Fin, fdiv_Fin by (apply Rgt_not_eq, PI_RGT_0). f_equal. field. apply Rgt_not_eq, PI_RGT_0.
    + intros k Hk. apply term_value.
      * apply (stabilised_no_inf f k); [|apply S]. intros j Hj. apply Hfin. lia.
      * apply Hfin, Hk.
      * destruct (stabilised_facts _ _ _ (S k)) as [E P].
        destruct (f k) as [|s|x] eqn:Ek; [left; apply E; reflexivity| |]; right; apply P; discriminate.
Qed.

Lemma n_times_dz_nonneg g d : (forall x, d = Fin x -> 0 <= x) -> 0 <= n_times_dz g d.
Proof.
  intros H. destruct g as [|s|x], d as [|t|y]; cbn; try lra.
  apply Rmult_le_pos; [apply sqrt_pos|apply H; reflexivity].
Qed.

Lemma n_times_dz_pos g d : positive g -> finite_or_missing g -> (exists x, d = Fin x /\ 0 < x) -> 0 < n_times_dz g d.
Proof.
  intros Hp Hf (x & -> & Hx). destruct g as [|s|y]; [destruct Hp|exfalso; exact (Hf s eq_refl)|]. cbn in *.
  apply Rmult_lt_0_compat; [apply sqrt_lt_R0; exact Hp|exact Hx].
Qed.
