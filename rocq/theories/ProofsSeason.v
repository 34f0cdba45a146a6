(** * ProofsSeason: projection on the regressors *)
From Coq Require Import Reals ZArith List String Bool Arith Lia Lra.
From Verif Require Import Num NumFacts Seasonal ProofsPinv.
Import ListNotations.
Local Open Scope R_scope.

Section Fit.
  Variables (n k : nat) (A P : nat -> nat -> R).
  Hypothesis H : penrose n k A P.
  Definition cf (y : nat -> R) (j : nat) : R := Rsum n (fun i => y i * P i j).
  Definition comb (g : nat -> R) (i : nat) : R := Rsum k (fun j => g j * A j i).
  Definition rs (y : nat -> R) (i : nat) : R := y i - comb (cf y) i.

  Lemma comb_cf y i : comb (cf y) i = Rsum n (fun l => y l * mm k P A l i).
  Proof.
    unfold comb, cf. change (mm k (mm n (fun _ l => y l) P) A 0%nat i = mm n (fun _ l => y l) (mm k P A) 0%nat i). apply mm_assoc.
  Qed.

  (** Residuals are orthogonal to every regressor. *)
  Lemma rs_orth y j : (j < k)%nat -> Rsum n (fun i => rs y i * A j i) = 0.
  Proof.
    intros Hj. unfold rs. rewrite (Rs_ext n _ (fun i => y i * A j i - comb (cf y) i * A j i)) by (intros; ring). rewrite Rsum_minus.
    assert (E : Rsum n (fun i => comb (cf y) i * A j i) = Rsum n (fun i => y i * A j i)); [|lra].
    transitivity (Rsum n (fun i => Rsum n (fun l => y l * (A j i * mm k P A i l)))).
    - apply Rs_ext. intros i Hi. rewrite comb_cf, <- Rs_scal_r. apply Rs_ext. intros l Hl. rewrite (pen_PA _ _ _ _ H i l Hi Hl). ring.
    - rewrite Rs_swap2. apply Rs_ext. intros l Hl. rewrite Rsum_scal. f_equal. change (mm n A (mm k P A) j l = A j l).
      rewrite <- mm_assoc. apply (pen_APA _ _ _ _ H); assumption.
  Qed.
  Lemma rs_orth_comb y g : Rsum n (fun i => rs y i * comb g i) = 0.
  Proof.
    transitivity (Rsum n (fun i => Rsum k (fun j => g j * (rs y i * A j i)))).
    - apply Rs_ext. intros i _. unfold comb. rewrite <- Rsum_scal. apply Rs_ext. intros; ring.
    - rewrite Rs_swap2. apply Rsum_zero. intros j Hj. rewrite Rsum_scal, rs_orth by exact Hj. ring.
  Qed.
  Lemma comb_minus g h i : comb (fun j => g j - h j) i = comb g i - comb h i.
  Proof. unfold comb. rewrite <- Rsum_minus. apply Rs_ext. intros; ring. Qed.

  Definition sse (y : nat -> R) (g : nat -> R) : R := Rsum n (fun i => (y i - comb g i) ^ 2).
  Lemma sse_split y g : sse y g = sse y (cf y) + Rsum n (fun i => (comb (cf y) i - comb g i) * (comb (cf y) i - comb g i)).
  Proof.
    unfold sse. pose proof (rs_orth_comb y (fun j => cf y j - g j)) as O.
    transitivity (Rsum n (fun i => (y i - comb (cf y) i) ^ 2 + (comb (cf y) i - comb g i) * (comb (cf y) i - comb g i)
                                   + 2 * (rs y i * comb (fun j => cf y j - g j) i))).
    - apply Rs_ext. intros i _. rewrite comb_minus. unfold rs. ring.
    - rewrite !Rsum_plus, Rsum_scal, O. ring.
  Qed.
  Lemma sse_min y g : sse y (cf y) <= sse y g.
  Proof.
    rewrite (sse_split y g). assert (0 <= Rsum n (fun i => (comb (cf y) i - comb g i) * (comb (cf y) i - comb g i))); [|lra].
    apply Rsum_nonneg. intros; apply Rle_0_sqr.
  Qed.
  Lemma sse_unique y g : sse y g <= sse y (cf y) -> forall i, (i < n)%nat -> comb g i = comb (cf y) i.
  Proof.
    intros L i Hi. rewrite (sse_split y g) in L.
    assert (Z : Rsum n (fun i => (comb (cf y) i - comb g i) * (comb (cf y) i - comb g i)) = 0).
    { apply Rle_antisym; [lra|]. apply Rsum_nonneg. intros; apply Rle_0_sqr. }
    pose proof (Rs_sq_zero n (fun i => comb (cf y) i - comb g i) Z i Hi) as E. cbn beta in E. lra.
  Qed.
  Lemma rs_exact y g : (forall i, (i < n)%nat -> y i = comb g i) -> forall i, (i < n)%nat -> rs y i = 0.
  Proof.
    intros E i Hi. unfold rs. rewrite (E i Hi). rewrite (sse_unique y g); [ring| |exact Hi].
    assert (Z : sse y g = 0) by (unfold sse; apply Rsum_zero; intros j Hj; rewrite (E j Hj); ring).
    rewrite Z. unfold sse. apply Rsum_nonneg. intros. apply pow2_ge_0.
  Qed.
  (** Data orthogonal to the regressors have zero coefficients. *)
  Lemma cf_orth y : (forall j, (j < k)%nat -> Rsum n (fun i => y i * A j i) = 0) -> forall j, (j < k)%nat -> cf y j = 0.
  Proof.
    intros O j Hj. unfold cf.
    transitivity (Rsum n (fun i => y i * mm n (mm k P A) P i j)); [apply Rs_ext; intros i Hi; rewrite (pen_PAP _ _ _ _ H i j Hi Hj); reflexivity|].
    change (mm n (fun _ i => y i) (mm n (mm k P A) P) 0%nat j = 0). rewrite <- mm_assoc. unfold mm at 1. apply Rsum_zero. intros l Hl.
    assert (Z : mm n (fun _ i => y i) (mm k P A) 0%nat l = 0); [|rewrite Z; ring].
    unfold mm at 1. transitivity (Rsum n (fun i => Rsum k (fun q => P l q * (y i * A q i)))).
    - apply Rs_ext. intros i Hi. rewrite (pen_PA _ _ _ _ H i l Hi Hl). unfold mm. rewrite <- Rsum_scal. apply Rs_ext. intros; ring.
    - rewrite Rs_swap2. apply Rsum_zero. intros q Hq. rewrite Rsum_scal, (O q Hq). ring.
  Qed.
  Lemma rs_idem y i : rs (rs y) i = rs y i.
  Proof.
    unfold rs at 1. assert (Z : comb (cf (rs y)) i = 0); [|rewrite Z; ring]. unfold comb. apply Rsum_zero. intros j Hj.
    rewrite cf_orth; [ring| |exact Hj]. intros q Hq. apply rs_orth. exact Hq.
  Qed.
  (** Among the coefficients giving the fitted values these are the smallest. *)
  Lemma cf_of_comb y g : (forall i, (i < n)%nat -> comb g i = comb (cf y) i) -> forall j, (j < k)%nat -> cf y j = Rsum k (fun l => g l * mm n A P l j).
  Proof.
    intros E j Hj. unfold cf at 1.
    transitivity (Rsum n (fun i => comb (cf y) i * P i j)).
    - transitivity (Rsum n (fun i => y i * mm n (mm k P A) P i j)); [apply Rs_ext; intros i Hi; rewrite (pen_PAP _ _ _ _ H i j Hi Hj); reflexivity|].
      change (mm n (fun _ i => y i) (mm n (mm k P A) P) 0%nat j = Rsum n (fun i => comb (cf y) i * P i j)). rewrite <- mm_assoc. unfold mm at 1.
      apply Rs_ext. intros i Hi. rewrite comb_cf. reflexivity.
    - rewrite (Rs_ext n _ (fun i => comb g i * P i j)) by (intros i Hi; rewrite E by exact Hi; reflexivity).
      change (mm n (mm k (fun _ l => g l) A) P 0%nat j = mm k (fun _ l => g l) (mm n A P) 0%nat j). apply mm_assoc.
  Qed.
  Lemma cf_norm y g : (forall i, (i < n)%nat -> comb g i = comb (cf y) i) -> Rsum k (fun j => cf y j ^ 2) <= Rsum k (fun j => g j ^ 2).
  Proof.
    intros E. pose proof (cf_of_comb y g E) as C.
    assert (O : Rsum k (fun j => cf y j * (g j - cf y j)) = 0).
    { rewrite (Rs_ext k _ (fun j => cf y j * g j - cf y j * cf y j)) by (intros; ring). rewrite Rsum_minus.
      assert (X : Rsum k (fun j => cf y j * cf y j) = Rsum k (fun j => cf y j * g j)); [|lra].
      (* cf = g Q with Q = A P, and cf Q = cf *)
      assert (CQ : forall j, (j < k)%nat -> cf y j = Rsum k (fun l => cf y l * mm n A P l j)) by (apply cf_of_comb; reflexivity).
      transitivity (Rsum k (fun j => Rsum k (fun l => cf y j * mm n A P l j * g l))).
      - apply Rs_ext. intros j Hj. rewrite (C j Hj) at 2. rewrite <- Rsum_scal. apply Rs_ext. intros; ring.
      - rewrite Rs_swap2. apply Rs_ext. intros l Hl. rewrite (CQ l Hl). rewrite <- Rs_scal_r. apply Rs_ext. intros j Hj.
        rewrite (pen_AP _ _ _ _ H l j Hl Hj). ring. }
    assert (S : Rsum k (fun j => g j ^ 2) = Rsum k (fun j => cf y j ^ 2) + Rsum k (fun j => (g j - cf y j) * (g j - cf y j))).
    { transitivity (Rsum k (fun j => cf y j ^ 2 + (g j - cf y j) * (g j - cf y j) + 2 * (cf y j * (g j - cf y j)))).
      - apply Rs_ext. intros; ring.
      - rewrite !Rsum_plus, Rsum_scal, O. ring. }
    rewrite S. assert (0 <= Rsum k (fun j => (g j - cf y j) * (g j - cf y j))); [|lra]. apply Rsum_nonneg. intros; apply Rle_0_sqr.
  Qed.
End Fit.

(** ** Series of fval *)
Lemma fsum_fin_ext n f g : (forall i, (i < n)%nat -> f i = Fin (g i)) -> fsum n f = Fin (Rsum n g).
Proof. intros E. rewrite <- fsum_Fin. apply fsum_ext. exact E. Qed.

Section Series.
  Variables (n : nat) (td : nat -> R).
  Let A := regressor n td.
  Let P := pinv n 6 A.
  Lemma coeff_fin y k : (forall i, (i < n)%nat -> is_fin (y i) = true) -> coeff_of n td y k = Fin (cf n P (fun i => val (y i)) k).
  Proof.
    intros F. unfold coeff_of, cf. apply fsum_fin_ext. intros i Hi. specialize (F i Hi). destruct (y i); [discriminate|discriminate|]. reflexivity.
  Qed.
  Lemma model_fin y i : (forall i, (i < n)%nat -> is_fin (y i) = true) -> model_of n td y i = Fin (comb 6 A (cf n P (fun i => val (y i))) i).
  Proof.
    intros F. unfold model_of, comb. apply fsum_fin_ext. intros k Hk. rewrite coeff_fin by exact F. reflexivity.
  Qed.
  Lemma resid_fin y i : (i < n)%nat -> (forall i, (i < n)%nat -> is_fin (y i) = true) -> resid_of n td y i = Fin (rs n 6 A P (fun i => val (y i)) i).
  Proof.
    intros Hi F. unfold resid_of. rewrite model_fin by exact F. pose proof (F i Hi) as Fi. unfold rs. destruct (y i); [discriminate|discriminate|]. apply fsub_Fin.
  Qed.
  Lemma fsum_nan m f : (exists i, (i < m)%nat /\ f i = NaN) -> fsum m f = NaN.
  Proof.
    induction m as [|m IH]; intros (i & Hi & E); [lia|]. change (fsum (S m) f) with (fadd (fsum m f) (f m)).
    destruct (Nat.eq_dec i m) as [->|N]; [rewrite E; apply fadd_NaN_r|]. rewrite IH; [apply fadd_NaN_l|]. exists i. split; [lia|exact E].
  Qed.
  Lemma coeff_nan y k : (exists i, (i < n)%nat /\ y i = NaN) -> coeff_of n td y k = NaN.
  Proof. intros (i & Hi & E). apply fsum_nan. exists i. split; [exact Hi|]. rewrite E. reflexivity. Qed.
  Lemma model_nan y i : (exists i, (i < n)%nat /\ y i = NaN) -> model_of n td y i = NaN.
  Proof. intros E. apply fsum_nan. exists 0%nat. split; [lia|]. rewrite coeff_nan by exact E. reflexivity. Qed.
  Lemma resid_nan y i : (exists i, (i < n)%nat /\ y i = NaN) -> resid_of n td y i = NaN.
  Proof. intros E. unfold resid_of. rewrite model_nan by exact E. apply fsub_NaN_r. Qed.
End Series.
Lemma coeff_ext n td y z k : (forall i, (i < n)%nat -> y i = z i) -> coeff_of n td y k = coeff_of n td z k.
Proof. intros E. apply fsum_ext. intros i Hi. now rewrite E. Qed.
Lemma model_ext n td y z i : (forall i, (i < n)%nat -> y i = z i) -> model_of n td y i = model_of n td z i.
Proof. intros E. apply fsum_ext. intros k Hk. now rewrite (coeff_ext n td y z k E). Qed.
