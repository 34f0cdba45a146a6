(** * ProofsEos: lemmas for C01-C06 (proofs only) *)
From Coq Require Import Reals Lra Lia List String Bool Ascii.
From Verif Require Import Num NumFacts Py Eos SpecEos.
Import ListNotations.
Local Open Scope R_scope.

Ltac fin_cbn := cbn [fadd fsub fmul fopp].
Ltac fin_cbn_in H := cbn [fadd fsub fmul fopp] in H.

(** Evaluate the powers of ten hidden in decimal literals. *)
Ltac dec_norm :=
  unfold Q2R; cbn [QArith_base.Qnum QArith_base.Qden];
  repeat match goal with
  | |- context [IZR (Z.pow_pos ?a ?b)] =>
      let v := eval vm_compute in (Z.pow_pos a b) in change (Z.pow_pos a b) with v
  end.
Ltac dfield := dec_norm; field.
Ltac dring := dec_norm; field.

Lemma w_al0_Fin T S : w_al0 (Fin T) (Fin S) = Fin (wr_alpha0 T S).
Proof. unfold w_al0, A0, A1, A2, wr_alpha0; fin_cbn; f_equal; lra. Qed.
Lemma w_p0_Fin T S : w_p0 (Fin T) (Fin S) = Fin (wr_p0 T S).
Proof. unfold w_p0, B0, B1, B2, B3, B4, B5, wr_p0; fin_cbn; f_equal; lra. Qed.
Lemma w_lam_Fin T S : w_lam (Fin T) (Fin S) = Fin (wr_lambda T S).
Proof. unfold w_lam, C0, C1, C2, C3, C4, C5, wr_lambda; fin_cbn; f_equal; lra. Qed.

Lemma wright_density_Fin T S p : wr_denom T S p <> 0 ->
  wright_density (Fin T) (Fin S) (Fin p) = Fin (wr_rho T S p).
Proof.
  intros H. unfold wright_density. rewrite w_al0_Fin, w_p0_Fin, w_lam_Fin. fin_cbn.
  fold (wr_denom T S p). rewrite fdiv_Fin by exact H. fin_cbn.
  unfold wr_rho. f_equal. field. exact H.
Qed.

Lemma wright_density_zero T S p : wr_denom T S p = 0 ->
  is_fin (wright_density (Fin T) (Fin S) (Fin p)) = false.
Proof.
  intros H. unfold wright_density. rewrite w_al0_Fin, w_p0_Fin, w_lam_Fin. fin_cbn.
  fold (wr_denom T S p). rewrite H. simpl. rewrite Reqb_refl.
  assert (E : Reqb 1 0 = false) by (apply Reqb_false; lra). rewrite E. simpl.
  destruct (Reqb (p + wr_p0 T S) 0); reflexivity.
Qed.

Lemma wright_density_fin_iff T S p :
  is_fin (wright_density (Fin T) (Fin S) (Fin p)) = true <-> wr_denom T S p <> 0.
Proof.
  split.
  - intros H E. rewrite (wright_density_zero _ _ _ E) in H. discriminate.
  - intros H. rewrite wright_density_Fin by exact H. reflexivity.
Qed.

Definition wr_drho_dT (T S p : R) : R :=
  (wr_lambda T S * (3.516535e6 - 2 * 4.002714e4 * T + 3 * 2.084372e2 * T^2 - 9.643486e3 * S)
   - (p + wr_p0 T S) * ((p + wr_p0 T S) * 3.480336e-7
        + (7.904722e2 - 2 * 7.984422 * T + 3 * 5.140652e-2 * T^2 - 3.079464 * S)))
  / (wr_denom T S p)^2.
Definition wr_drho_dS (T S p : R) : R :=
  (wr_lambda T S * (5.944068e5 - 9.643486e3 * T)
   + (p + wr_p0 T S) * ((p + wr_p0 T S) * 1.112733e-7 + 2.302158e2 + 3.079464 * T))
  / (wr_denom T S p)^2.

Lemma wright_drho_dtemp_Fin T S p : wr_denom T S p <> 0 ->
  wright_drho_dtemp (Fin T) (Fin S) (Fin p) = Fin (wr_drho_dT T S p).
Proof.
  intros H. unfold wright_drho_dtemp. rewrite w_al0_Fin, w_p0_Fin, w_lam_Fin.
  unfold A1, B1, B2, B3, B5, C1, C2, C3, C5. fin_cbn.
  fold (wr_denom T S p). rewrite fdiv_Fin by exact H. fin_cbn.
  unfold wr_drho_dT. f_equal. dfield. exact H.
Qed.
Lemma wright_drho_dsal_Fin T S p : wr_denom T S p <> 0 ->
  wright_drho_dsal (Fin T) (Fin S) (Fin p) = Fin (wr_drho_dS T S p).
Proof.
  intros H. unfold wright_drho_dsal. rewrite w_al0_Fin, w_p0_Fin, w_lam_Fin.
  unfold A2, B4, B5, C4, C5. fin_cbn.
  fold (wr_denom T S p). rewrite fdiv_Fin by exact H. fin_cbn.
  unfold wr_drho_dS. f_equal. dfield. exact H.
Qed.

(** ** Derivatives *)
Lemma derivable_pt_lim_local f g x l (d : posreal) :
  (forall h, Rabs h < d -> f (x + h) = g (x + h)) ->
  derivable_pt_lim f x l -> derivable_pt_lim g x l.
Proof.
  intros E Hf eps Heps. destruct (Hf eps Heps) as [del Hdel].
  assert (Hm : 0 < Rmin del d) by (apply Rmin_pos; [apply cond_pos | apply cond_pos]).
  exists (mkposreal _ Hm). simpl. intros h Hh0 Hh.
  assert (Rabs h < del) by (eapply Rlt_le_trans; [exact Hh | apply Rmin_l]).
  assert (Rabs h < d) by (eapply Rlt_le_trans; [exact Hh | apply Rmin_r]).
  assert (E0 : f x = g x).
  { specialize (E 0). rewrite Rplus_0_r in E. apply E. rewrite Rabs_R0. apply cond_pos. }
  rewrite <- E, <- E0 by assumption. apply Hdel; assumption.
Qed.
Lemma derivable_pt_lim_ext' f g x l :
  (forall t, f t = g t) -> derivable_pt_lim f x l -> derivable_pt_lim g x l.
Proof. intros E. apply (derivable_pt_lim_local f g x l (mkposreal 1 Rlt_0_1)). intros; apply E. Qed.

Lemma cubic_derivative c0 c1 c2 c3 t :
  derivable_pt_lim (fun t => c0 + c1 * t + c2 * t^2 + c3 * t^3) t
                   (c1 + 2 * c2 * t + 3 * c3 * t^2).
Proof.
  assert (H : derivable_pt_lim
     ((fct_cte c0 + (mult_real_fct c1 id)) + (mult_real_fct c2 (fun t => t ^ 2))
       + (mult_real_fct c3 (fun t => t ^ 3)))%F t
     (((0 + c1 * 1) + c2 * (INR 2 * t ^ pred 2)) + c3 * (INR 3 * t ^ pred 3))).
  { repeat apply derivable_pt_lim_plus.
    - apply derivable_pt_lim_const.
    - apply derivable_pt_lim_scal, derivable_pt_lim_id.
    - apply derivable_pt_lim_scal, derivable_pt_lim_pow.
    - apply derivable_pt_lim_scal, derivable_pt_lim_pow. }
  replace (c1 + 2 * c2 * t + 3 * c3 * t^2)
    with (((0 + c1 * 1) + c2 * (INR 2 * t ^ pred 2)) + c3 * (INR 3 * t ^ pred 3))
    by (simpl; ring).
  eapply derivable_pt_lim_ext'; [|exact H]. intros u; unfold plus_fct, mult_real_fct, fct_cte, id; reflexivity.
Qed.

Lemma dT_alpha0 S t : derivable_pt_lim (fun t => wr_alpha0 t S) t 3.480336e-7.
Proof.
  eapply derivable_pt_lim_ext'; [|replace 3.480336e-7 with (3.480336e-7 + 2*0*t + 3*0*t^2) by dring;
    apply (cubic_derivative (7.057924e-4 - 1.112733e-7 * S))].
  intros u; unfold wr_alpha0; dring.
Qed.
Lemma dT_p0 S t : derivable_pt_lim (fun t => wr_p0 t S) t
  (3.516535e6 - 2 * 4.002714e4 * t + 3 * 2.084372e2 * t^2 - 9.643486e3 * S).
Proof.
  eapply derivable_pt_lim_ext'; [|replace (3.516535e6 - 2 * 4.002714e4 * t + 3 * 2.084372e2 * t^2 - 9.643486e3 * S)
    with ((3.516535e6 - 9.643486e3 * S) + 2 * (- 4.002714e4) * t + 3 * 2.084372e2 * t^2) by dring;
    apply (cubic_derivative (5.790749e8 + 5.944068e5 * S))].
  intros u; unfold wr_p0; dring.
Qed.
Lemma dT_lambda S t : derivable_pt_lim (fun t => wr_lambda t S) t
  (7.904722e2 - 2 * 7.984422 * t + 3 * 5.140652e-2 * t^2 - 3.079464 * S).
Proof.
  eapply derivable_pt_lim_ext'; [|replace (7.904722e2 - 2 * 7.984422 * t + 3 * 5.140652e-2 * t^2 - 3.079464 * S)
    with ((7.904722e2 - 3.079464 * S) + 2 * (- 7.984422) * t + 3 * 5.140652e-2 * t^2) by dring;
    apply (cubic_derivative (1.704853e5 - 2.302158e2 * S))].
  intros u; unfold wr_lambda; dring.
Qed.
Lemma dS_alpha0 T s : derivable_pt_lim (fun s => wr_alpha0 T s) s (- 1.112733e-7).
Proof.
  eapply derivable_pt_lim_ext'; [|replace (- 1.112733e-7) with (- 1.112733e-7 + 2*0*s + 3*0*s^2) by dring;
    apply (cubic_derivative (7.057924e-4 + 3.480336e-7 * T))].
  intros u; unfold wr_alpha0; dring.
Qed.
Lemma dS_p0 T s : derivable_pt_lim (fun s => wr_p0 T s) s (5.944068e5 - 9.643486e3 * T).
Proof.
  eapply derivable_pt_lim_ext'; [|replace (5.944068e5 - 9.643486e3 * T)
    with (5.944068e5 - 9.643486e3 * T + 2*0*s + 3*0*s^2) by dring;
    apply (cubic_derivative (5.790749e8 + 3.516535e6 * T - 4.002714e4 * T^2 + 2.084372e2 * T^3))].
  intros u; unfold wr_p0; dring.
Qed.
Lemma dS_lambda T s : derivable_pt_lim (fun s => wr_lambda T s) s (- 2.302158e2 - 3.079464 * T).
Proof.
  eapply derivable_pt_lim_ext'; [|replace (- 2.302158e2 - 3.079464 * T)
    with (- 2.302158e2 - 3.079464 * T + 2*0*s + 3*0*s^2) by dring;
    apply (cubic_derivative (1.704853e5 + 7.904722e2 * T - 7.984422 * T^2 + 5.140652e-2 * T^3))].
  intros u; unfold wr_lambda; dring.
Qed.

Lemma quotient_derivative (P L A : R -> R) p x dP dL dA :
  derivable_pt_lim P x dP -> derivable_pt_lim L x dL -> derivable_pt_lim A x dA ->
  L x + A x * (p + P x) <> 0 ->
  derivable_pt_lim (fun t => (p + P t) / (L t + A t * (p + P t))) x
    ((dP * L x - (p + P x) * ((p + P x) * dA + dL)) / (L x + A x * (p + P x))^2)
  /\ continuity_pt (fun t => L t + A t * (p + P t)) x.
Proof.
  intros HP HL HA Hn.
  assert (HN : derivable_pt_lim (fct_cte p + P)%F x (0 + dP))
    by (apply derivable_pt_lim_plus; [apply derivable_pt_lim_const | exact HP]).
  assert (HD : derivable_pt_lim (L + A * (fct_cte p + P))%F x
                 (dL + (dA * (fct_cte p + P)%F x + A x * (0 + dP))))
    by (apply derivable_pt_lim_plus; [exact HL | apply derivable_pt_lim_mult; assumption]).
  split.
  - assert (HQ := derivable_pt_lim_div _ _ _ _ _ HN HD Hn).
    match type of HQ with derivable_pt_lim _ _ ?l =>
      replace ((dP * L x - (p + P x) * ((p + P x) * dA + dL)) / (L x + A x * (p + P x))^2) with l end.
    + eapply derivable_pt_lim_ext'; [|exact HQ]. intros t; reflexivity.
    + unfold plus_fct, mult_fct, fct_cte, Rsqr. field. exact Hn.
  - apply derivable_continuous_pt.
    exists (dL + (dA * (fct_cte p + P)%F x + A x * (0 + dP))).
    unfold derivable_pt_abs. eapply derivable_pt_lim_ext'; [|exact HD]. intros t; reflexivity.
Qed.

Lemma wr_rho_dT T S p : wr_denom T S p <> 0 ->
  derivable_pt_lim (fun t => wr_rho t S p) T (wr_drho_dT T S p)
  /\ continuity_pt (fun t => wr_denom t S p) T.
Proof.
  intros H.
  destruct (quotient_derivative (fun t => wr_p0 t S) (fun t => wr_lambda t S) (fun t => wr_alpha0 t S) p T
    _ _ _ (dT_p0 S T) (dT_lambda S T) (dT_alpha0 S T) H) as [H1 H2].
  split; [|exact H2]. unfold wr_drho_dT, wr_rho, wr_denom in *.
  match type of H1 with derivable_pt_lim _ _ ?l => match goal with |- derivable_pt_lim _ _ ?m =>
    replace m with l; [exact H1|] end end. dfield. exact H.
Qed.
Lemma wr_rho_dS T S p : wr_denom T S p <> 0 ->
  derivable_pt_lim (fun s => wr_rho T s p) S (wr_drho_dS T S p)
  /\ continuity_pt (fun s => wr_denom T s p) S.
Proof.
  intros H.
  destruct (quotient_derivative (fun s => wr_p0 T s) (fun s => wr_lambda T s) (fun s => wr_alpha0 T s) p S
    _ _ _ (dS_p0 T S) (dS_lambda T S) (dS_alpha0 T S) H) as [H1 H2].
  split; [|exact H2]. unfold wr_drho_dS, wr_rho, wr_denom in *.
  match type of H1 with derivable_pt_lim _ _ ?l => match goal with |- derivable_pt_lim _ _ ?m =>
    replace m with l; [exact H1|] end end. dfield. exact H.
Qed.

Lemma wright_dT T S p : is_fin (wright_density (Fin T) (Fin S) (Fin p)) = true ->
  exists d, wright_drho_dtemp (Fin T) (Fin S) (Fin p) = Fin d
    /\ derivable_pt_lim (fun t => val (wright_density (Fin t) (Fin S) (Fin p))) T d.
Proof.
  intros Hf. apply wright_density_fin_iff in Hf.
  exists (wr_drho_dT T S p). split; [apply wright_drho_dtemp_Fin; exact Hf|].
  destruct (wr_rho_dT T S p Hf) as [Hd Hc].
  destruct (continuous_neq_0 _ _ Hc Hf) as [eps Heps].
  eapply (derivable_pt_lim_local _ _ _ _ eps); [|exact Hd].
  intros h Hh. cbv beta. rewrite wright_density_Fin by (apply Heps; exact Hh). reflexivity.
Qed.
Lemma wright_dS T S p : is_fin (wright_density (Fin T) (Fin S) (Fin p)) = true ->
  exists d, wright_drho_dsal (Fin T) (Fin S) (Fin p) = Fin d
    /\ derivable_pt_lim (fun s => val (wright_density (Fin T) (Fin s) (Fin p))) S d.
Proof.
  intros Hf. apply wright_density_fin_iff in Hf.
  exists (wr_drho_dS T S p). split; [apply wright_drho_dsal_Fin; exact Hf|].
  destruct (wr_rho_dS T S p Hf) as [Hd Hc].
  destruct (continuous_neq_0 _ _ Hc Hf) as [eps Heps].
  eapply (derivable_pt_lim_local _ _ _ _ eps); [|exact Hd].
  intros h Hh. cbv beta. rewrite wright_density_Fin by (apply Heps; exact Hh). reflexivity.
Qed.
