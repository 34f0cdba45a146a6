(** * ProofsSeason5: annual curves of another period; attributes of deseason *)
From Coq Require Import Reals ZArith List String Ascii Bool Arith Lia Lra.
From Verif Require Import Num NumFacts Py Arr ArrFacts Calendar ProofsTide Seasonal SpecSeason.
Import ListNotations.
Local Open Scope R_scope.

(** ** Second differences that remove one frequency *)
Definition D (c : R) (f : R -> R) (t : R) : R := f t + f (t + 2) - 2 * c * f (t + 1).
Lemma D_ext c f g t : (forall u, f u = g u) -> D c f t = D c g t.
Proof. intros E. unfold D. rewrite !E. reflexivity. Qed.
Lemma D_cos c a k s t : D c (fun u => k * cos (a * (u + s))) t = (2 * cos a - 2 * c) * k * cos (a * (t + (s + 1))).
Proof.
  unfold D. replace (a * (t + s)) with (a * (t + (s + 1)) - a) by ring. replace (a * (t + 2 + s)) with (a * (t + (s + 1)) + a) by ring.
  replace (a * (t + 1 + s)) with (a * (t + (s + 1))) by ring. rewrite cos_minus, cos_plus. ring.
Qed.
Lemma D_sin c a k s t : D c (fun u => k * sin (a * (u + s))) t = (2 * cos a - 2 * c) * k * sin (a * (t + (s + 1))).
Proof.
  unfold D. replace (a * (t + s)) with (a * (t + (s + 1)) - a) by ring. replace (a * (t + 2 + s)) with (a * (t + (s + 1)) + a) by ring.
  replace (a * (t + 1 + s)) with (a * (t + (s + 1))) by ring. rewrite sin_minus, sin_plus. ring.
Qed.

Section Stencil.
  Variable th : R.
  Definition D3 (f : R -> R) : R -> R := D 1 (D (cos th) (D (cos (2 * th)) f)).

  Lemma D3_cos a k : D3 (fun u => k * cos (a * u)) 0 = (2 * cos a - 2) * (2 * cos a - 2 * cos th) * (2 * cos a - 2 * cos (2 * th)) * k * cos (3 * a).
  Proof.
    unfold D3. rewrite (D_ext 1 _ (fun u => (2 * cos a - 2 * cos th) * ((2 * cos a - 2 * cos (2 * th)) * k) * cos (a * (u + (1 + 1))))).
    - rewrite D_cos. replace (a * (0 + (1 + 1 + 1))) with (3 * a) by ring. ring.
    - intros u. rewrite <- D_cos. apply D_ext. intros v. rewrite (D_ext _ _ (fun u => k * cos (a * (u + 0)))) by (intros w; do 2 f_equal; ring).
      rewrite D_cos. replace (0 + 1) with 1 by ring. reflexivity.
  Qed.
  Lemma D3_sin a k : D3 (fun u => k * sin (a * u)) 0 = (2 * cos a - 2) * (2 * cos a - 2 * cos th) * (2 * cos a - 2 * cos (2 * th)) * k * sin (3 * a).
  Proof.
    unfold D3. rewrite (D_ext 1 _ (fun u => (2 * cos a - 2 * cos th) * ((2 * cos a - 2 * cos (2 * th)) * k) * sin (a * (u + (1 + 1))))).
    - rewrite D_sin. replace (a * (0 + (1 + 1 + 1))) with (3 * a) by ring. ring.
    - intros u. rewrite <- D_sin. apply D_ext. intros v. rewrite (D_ext _ _ (fun u => k * sin (a * (u + 0)))) by (intros w; do 2 f_equal; ring).
      rewrite D_sin. replace (0 + 1) with 1 by ring. reflexivity.
  Qed.
  Lemma D3_plus f g : D3 (fun u => f u + g u) 0 = D3 f 0 + D3 g 0.
  Proof. unfold D3, D. ring. Qed.
  Lemma D3_lin a b : D3 (fun u => a + b * u) 0 = 0.
  Proof. unfold D3, D. ring. Qed.

  Lemma D3_const a : D3 (fun _ => a) 0 = 0.
  Proof. unfold D3, D. ring. Qed.
  Lemma D3_mult b : D3 (fun u => b * u) 0 = 0.
  Proof. unfold D3, D. ring. Qed.

  Lemma D3_points f g : (forall i, (i < 7)%nat -> f (INR i) = g (INR i)) -> D3 f 0 = D3 g 0.
  Proof.
    intros E.
    assert (X : forall z i, (i < 7)%nat -> z = INR i -> f z = g z) by (intros z i Hi ->; apply E; exact Hi).
    unfold D3, D.
    rewrite !(X 0 0%nat), !(X (0 + 1) 1%nat), !(X (0 + 2) 2%nat), !(X (0 + 1 + 1) 2%nat), !(X (0 + 2 + 1) 3%nat), !(X (0 + 1 + 2) 3%nat), !(X (0 + 1 + 1 + 1) 3%nat),
      !(X (0 + 2 + 2) 4%nat), !(X (0 + 1 + 1 + 2) 4%nat), !(X (0 + 1 + 2 + 1) 4%nat), !(X (0 + 2 + 1 + 1) 4%nat),
      !(X (0 + 2 + 2 + 1) 5%nat), !(X (0 + 2 + 1 + 2) 5%nat), !(X (0 + 1 + 2 + 2) 5%nat), !(X (0 + 2 + 2 + 2) 6%nat) by (lia || (cbn; lra)).
    reflexivity.
  Qed.

  Lemma D3_curve g : D3 (fun u => curve g (u / (2 * PI / th))) 0 = 0.
  Proof.
    pose proof PI_RGT_0 as HP. destruct (Req_dec th 0) as [Z|Z].
    - assert (E : forall u, curve g (u / (2 * PI / th)) = (g 0%nat + g 3%nat + g 5%nat) + 0 * u).
      { intros u. rewrite Z. unfold Rdiv at 2. rewrite Rinv_0, Rmult_0_r. unfold Rdiv. rewrite Rinv_0, Rmult_0_r. unfold curve. rewrite !Rmult_0_r, sin_0, cos_0. ring. }
      rewrite (D3_points _ (fun u => (g 0%nat + g 3%nat + g 5%nat) + 0 * u)) by (intros; apply E). apply D3_lin.
    - rewrite (D3_points _ (fun u => (g 0%nat + (g 1%nat * (th / (2 * PI))) * u) + (g 2%nat * sin (th * u) + (g 3%nat * cos (th * u) + (g 4%nat * sin (2 * th * u) + g 5%nat * cos (2 * th * u)))))).
      + rewrite !D3_plus, D3_const, D3_mult, !D3_sin, !D3_cos. ring.
      + intros i _. unfold curve. replace (2 * PI * (INR i / (2 * PI / th))) with (th * INR i) by (field; lra).
        replace (4 * PI * (INR i / (2 * PI / th))) with (2 * th * INR i) by (field; lra). replace (INR i / (2 * PI / th)) with (th / (2 * PI) * INR i) by (field; lra). ring.
  Qed.
End Stencil.

(** An annual cycle of 360 days is no curve with a year of 365 days. *)
Lemma not_365 g : ~ forall i, (i < 7)%nat -> cos (2 * PI * (INR i / 360)) = curve g (INR i / 365).
Proof.
  intros E. pose proof PI_RGT_0 as HP. set (th := 2 * PI / 365). set (a := 2 * PI / 360).
  assert (Y : 2 * PI / th = 365) by (unfold th; field; lra).
  pose proof (D3_curve th g) as Z. rewrite Y in Z.
  rewrite <- (D3_points th (fun u => 1 * cos (a * u))) in Z.
  - rewrite D3_cos in Z.
    assert (C1 : cos a < cos th) by (apply cos_decreasing_1; unfold a, th; lra).
    assert (C2 : cos (2 * th) < cos a) by (apply cos_decreasing_1; unfold a, th; lra).
    assert (C3 : cos th < 1) by (rewrite <- cos_0; apply cos_decreasing_1; unfold th; lra).
    assert (C4 : 0 < cos (3 * a)) by (apply cos_gt_0; unfold a; lra).
    repeat (apply Rmult_integral in Z; destruct Z as [Z|Z]); lra.
  - intros i Hi. rewrite <- E by exact Hi. rewrite Rmult_1_l. f_equal. unfold a. field.
Qed.

(** ** Attributes *)
Lemma dget_dpop_same {A} k (d : dict A) : dget k (dpop k d) = None.
Proof. apply dget_None. intros I. apply in_map_iff in I. destruct I as (p & <- & I). apply filter_In in I. rewrite String.eqb_refl in I. destruct I; discriminate. Qed.
Lemma dget_dpop_other {A} k k' (d : dict A) : k <> k' -> dget k' (dpop k d) = dget k' d.
Proof.
  intros N. induction d as [|[j v] d IH]; [reflexivity|]. unfold dpop. cbn [filter fst]. destruct (String.eqb_spec k j) as [<-|M]; cbn [negb dget].
  - apply String.eqb_neq in N. rewrite String.eqb_sym in N. rewrite N. exact IH.
  - destruct (String.eqb k' j); [reflexivity|exact IH].
Qed.
Lemma dget_append k k' suf d : dget k' (append_attr k suf d) = if String.eqb k k' then option_map (fun v => (v ++ suf)%string) (dget k' d) else dget k' d.
Proof.
  unfold append_attr. destruct (String.eqb_spec k k') as [<-|N].
  - destruct (dget k d) as [v|] eqn:G; [rewrite dget_dset_same; reflexivity|rewrite G; reflexivity].
  - destruct (dget k d) as [v|]; [apply dget_dset_other; exact N|reflexivity].
Qed.
