(** * ProofsFloat6: unchanged columns and missing values in binary64 (proofs only) *)
From Coq Require Import Reals Lra Lia List ZArith Bool Permutation QArith.
From Flocq Require Import Core IEEE754.BinarySingleNaN.
From Verif Require Import SpecFloat64 Ieee SpecIeee ProofsFloat ProofsIeee ProofsFloat4.
Import ListNotations.
Local Open Scope R_scope.

Lemma fits_0 : fits64 (fl 0).
Proof. unfold fits64. rewrite fl_0, Rabs_R0. apply bpow_gt_0. Qed.
Lemma sub_self (x : f64) : rep64 (sub64 x x) 0 \/ sub64 x x = B754_nan.
Proof.
  destruct (is_finite x) eqn:F.
  - left. rewrite <- fl_0. replace 0 with (B2R x - B2R x) by ring.
    apply sub64_rep; [split; [exact F|reflexivity]|split; [exact F|reflexivity]|].
    replace (B2R x - B2R x) with 0 by ring. apply fits_0.
  - right. destruct x as [s|[]| |]; try discriminate; reflexivity.
Qed.
Lemma mul_zero (x y : f64) : is_finite x = true -> rep64 y 0 -> rep64 (mul64 x y) 0.
Proof.
  intros F R. rewrite <- fl_0. replace 0 with (B2R x * 0) by ring.
  apply mul64_rep; [split; [exact F|reflexivity]|exact R|]. rewrite Rmult_0_r. apply fits_0.
Qed.
Lemma mul_nan (x : f64) : mul64 x B754_nan = B754_nan.
Proof. destruct x; reflexivity. Qed.

Lemma term_unchanged depth patm c : cell_finite c -> 0 <= B2R (ztop c) -> 0 <= B2R (zbot c) ->
  is_finite depth = true -> 0 <= B2R depth ->
  temp c = temp_ref c -> salt c = salt_ref c -> rep64 (term64 depth patm c) 0.
Proof.
  intros [F1 F2] P1 P2 Fd Pd ET ES. unfold term64.
  destruct (dz64_rep (ztop c) (zbot c) depth zero F1 F2 Fd eq_refl P1 P2 Pd ltac:(cbn; lra)) as [Fz _].
  set (x := dz64 (ztop c) (zbot c) depth zero) in *.
  assert (D : rep64 (delta_rho64 patm c) 0 \/ delta_rho64 patm c = B754_nan).
  { unfold delta_rho64. destruct (wet c); [|right; reflexivity]. rewrite ET, ES. apply sub_self. }
  destruct D as [D|D].
  - assert (M := mul_zero x _ Fz D). unfold skipna. rewrite (finite_not_nan _ (proj1 M)). exact M.
  - rewrite D, mul_nan. apply zero_rep.
Qed.

Lemma sum_zero l s : sum64 l s -> Forall (fun x => rep64 x 0) l -> rep64 s 0.
Proof.
  induction 1 as [x|l1 l2 s1 s2 H1 IH1 H2 IH2|l l' s P H IH]; intros F.
  - inversion F; assumption.
  - apply Forall_app in F as [Fa Fb]. rewrite <- fl_0. replace 0 with (0 + 0) by ring.
    apply add64_rep; [apply IH1, Fa|apply IH2, Fb|]. rewrite Rplus_0_r. apply fits_0.
  - apply IH. apply Forall_forall. intros x Hx. rewrite Forall_forall in F. apply F. eapply Permutation_in; eassumption.
Qed.

Lemma lit_m1 : rep64 (lit (-1)) (-1).
Proof. split; [reflexivity|]. unfold lit. vm_compute B2R. cbn. unfold F2R. cbn. lra. Qed.

Lemma height_zero rhozero s : is_finite rhozero = true -> 1 <= B2R rhozero -> rep64 s 0 ->
  rep64 (lit (-1) / rhozero * s)%f64 0.
Proof.
  intros F H Z. apply mul_zero; [|exact Z].
  apply (div64_rep (lit (-1)) rhozero (-1) (B2R rhozero) lit_m1 (conj F eq_refl)); [lra|].
  assert (I : 0 < / B2R rhozero <= 1).
  { split; [apply Rinv_0_lt_compat; lra|]. rewrite <- Rinv_1. apply Rinv_le_contravar; lra. }
  assert (L := fl_abs_le (-1 / B2R rhozero) 1 fl_1).
  unfold fits64. apply Rle_lt_trans with (bpow radix2 0); [|apply bpow_lt; reflexivity]. cbn. apply L.
  apply Rabs_le. unfold Rdiv. lra.
Qed.

(** ** Missing values *)
Definition missing (x : f64) : Prop := x = B754_nan.
Lemma m_add_l x y : missing x -> missing (add64 x y).
Proof. intros ->. destruct y; reflexivity. Qed.
Lemma m_add_r x y : missing y -> missing (add64 x y).
Proof. intros ->. destruct x; reflexivity. Qed.
Lemma m_sub_l x y : missing x -> missing (sub64 x y).
Proof. intros ->. destruct y; reflexivity. Qed.
Lemma m_sub_r x y : missing y -> missing (sub64 x y).
Proof. intros ->. destruct x; reflexivity. Qed.
Lemma m_mul_l x y : missing x -> missing (mul64 x y).
Proof. intros ->. destruct y; reflexivity. Qed.
Lemma m_mul_r x y : missing y -> missing (mul64 x y).
Proof. intros ->. destruct x; reflexivity. Qed.
Lemma m_div_l x y : missing x -> missing (div64 x y).
Proof. intros ->. destruct y; reflexivity. Qed.
Lemma m_div_r x y : missing y -> missing (div64 x y).
Proof. intros ->. destruct x; reflexivity. Qed.
Lemma missing_al0 T S : missing T \/ missing S -> missing (al0_64 T S).
Proof. intros [H|H]; unfold al0_64; [apply m_add_l, m_add_r, m_mul_r, H|apply m_add_r, m_mul_r, H]. Qed.
Lemma missing_den T S p : missing T \/ missing S \/ missing p -> missing (lam_64 T S + al0_64 T S * (p + p0_64 T S))%f64.
Proof.
  intros H. apply m_add_r. destruct H as [H|[H|H]].
  - apply m_mul_l, missing_al0. left. exact H.
  - apply m_mul_l, missing_al0. right. exact H.
  - apply m_mul_r, m_add_l, H.
Qed.
Lemma missing_eos T S p : missing T \/ missing S \/ missing p ->
  missing (density64 T S p) /\ missing (drho_dtemp64 T S p) /\ missing (drho_dsal64 T S p)
  /\ missing (alpha64 T S p) /\ missing (beta64 T S p).
Proof.
  intros H. assert (D := missing_den T S p H).
  assert (D1 : missing (density64 T S p)) by (unfold density64; cbv zeta; apply m_mul_r, m_div_r, D).
  split; [exact D1|].
  split; [unfold drho_dtemp64; cbv zeta; apply m_mul_l, m_mul_l, m_div_r, D|].
  split; [unfold drho_dsal64; cbv zeta; apply m_mul_l, m_mul_l, m_div_r, D|].
  split; [unfold alpha64; apply m_mul_r, m_div_r, D1|unfold beta64; apply m_div_r, D1].
Qed.

(** ** Further lemmas for PropertiesFloat.v *)
From Flocq Require Import Plus_error.
From Verif Require Import SpecEos ProofsEos ProofsEosBox.

Ltac pow_const :=
  repeat match goal with
  | H : context [IZR (10 ^ ?k)] |- _ =>
      let v := eval vm_compute in (10 ^ k)%Z in change (IZR (10 ^ k)) with (IZR v) in H
  end.
Lemma deriv_T T S p d : ocean_box T S p -> derivable_pt_lim (fun t => wr_rho t S p) T d -> d = wr_drho_dT T S p.
Proof.
  intros B H. assert (D := denom_pos T S p B).
  exact (uniqueness_limite _ _ _ _ H (proj1 (wr_rho_dT T S p ltac:(lra)))).
Qed.
Lemma deriv_S T S p d : ocean_box T S p -> derivable_pt_lim (fun s => wr_rho T s p) S d -> d = wr_drho_dS T S p.
Proof.
  intros B H. assert (D := denom_pos T S p B).
  exact (uniqueness_limite _ _ _ _ H (proj1 (wr_rho_dS T S p ltac:(lra)))).
Qed.
Lemma fl_sub_pos (zt zb : f64) : is_finite zt = true -> is_finite zb = true -> B2R zt < B2R zb ->
  0 < fl (B2R zb - B2R zt).
Proof.
  intros F1 F2 L. assert (P : 0 <= fl (B2R zb - B2R zt)) by (apply fl_nonneg; lra).
  assert (N : fl (B2R zb - B2R zt) <> 0); [|lra]. unfold fl, Rminus.
  apply (round_plus_neq_0 radix2 (FLT_exp (-1074) 53) ZnearestE).
  - exact (generic_format_B2R 53 1024 zb).
  - apply generic_format_opp. exact (generic_format_B2R 53 1024 zt).
  - lra.
Qed.

(** The real number represented by a computed datum. *)
Ltac b2r x H :=
  match type of x with
  | _ => let s := eval vm_compute in (B2SF x) in
      match s with
      | SpecFloat.S754_finite ?sg ?m ?e =>
          assert (H : B2R x = IZR (cond_Zopp sg (Zpos m)) * bpow radix2 e)
            by (rewrite <- SF2R_B2SF; replace (B2SF x) with s by (vm_compute; reflexivity); reflexivity);
          let n := eval vm_compute in (cond_Zopp sg (Zpos m)) in
          change (cond_Zopp sg (Zpos m)) with n in H; cbn [bpow] in H;
          repeat match type of H with
          | context [Z.pow_pos ?b ?q] => let v := eval vm_compute in (Z.pow_pos b q) in change (Z.pow_pos b q) with v in H
          end
      | SpecFloat.S754_zero _ => assert (H : B2R x = 0)
            by (rewrite <- SF2R_B2SF; replace (B2SF x) with s by (vm_compute; reflexivity); reflexivity)
      end
  end.
