(** * ProofsPinv: the Penrose equations *)
From Coq Require Import Reals List Bool Arith Lia Lra.
From Verif Require Import Num NumFacts Seasonal.
Local Open Scope R_scope.

(** Sum helpers *)
Lemma Rs_ext n f g : (forall i, (i < n)%nat -> f i = g i) -> Rsum n f = Rsum n g.
Proof. apply Rsum_ext. Qed.
Lemma Rs_scal_r n c f : Rsum n (fun i => f i * c) = Rsum n f * c.
Proof. rewrite Rmult_comm, <- Rsum_scal. apply Rsum_ext. intros; ring. Qed.
Lemma Rs_S n f : Rsum (S n) f = Rsum n f + f n.
Proof. reflexivity. Qed.
Lemma Rs_swap2 n m (f : nat -> nat -> R) : Rsum n (fun i => Rsum m (fun j => f i j)) = Rsum m (fun j => Rsum n (fun i => f i j)).
Proof. apply Rsum_swap. Qed.
Lemma Rs_sq_zero n f : Rsum n (fun i => f i * f i) = 0 -> forall i, (i < n)%nat -> f i = 0.
Proof.
  intros H i Hi. destruct (Req_dec (f i) 0) as [E|E]; [exact E|]. exfalso.
  assert (0 < Rsum n (fun i => f i * f i)); [|lra]. apply (Rsum_pos n _ i).
  - intros; apply Rle_0_sqr.
  - exact Hi.
  - apply Rsqr_pos_lt. exact E.
Qed.

(** Matrix product with inner dimension [m]. *)
Definition mm (m : nat) (A B : nat -> nat -> R) (i j : nat) : R := Rsum m (fun l => A i l * B l j).
Lemma mm_assoc m p A B C i j : mm p (mm m A B) C i j = mm m A (mm p B C) i j.
Proof.
  unfold mm. transitivity (Rsum p (fun l => Rsum m (fun q => A i q * B q l * C l j))).
  - apply Rs_ext. intros l _. rewrite <- Rs_scal_r. reflexivity.
  - rewrite Rs_swap2. apply Rs_ext. intros q _. rewrite <- Rsum_scal. apply Rs_ext. intros; ring.
Qed.
Lemma mm_ext m A B A' B' i j : (forall l, (l < m)%nat -> A i l = A' i l) -> (forall l, (l < m)%nat -> B l j = B' l j) -> mm m A B i j = mm m A' B' i j.
Proof. intros H1 H2. unfold mm. apply Rs_ext. intros l Hl. rewrite H1, H2 by exact Hl. reflexivity. Qed.

(** [P] (n x k) is the Moore-Penrose inverse of [A] (k x n). *)
Record penrose (n k : nat) (A P : nat -> nat -> R) : Prop := {
  pen_APA : forall i j, (i < k)%nat -> (j < n)%nat -> mm k (mm n A P) A i j = A i j;
  pen_PAP : forall i j, (i < n)%nat -> (j < k)%nat -> mm n (mm k P A) P i j = P i j;
  pen_AP : forall i j, (i < k)%nat -> (j < k)%nat -> mm n A P i j = mm n A P j i;
  pen_PA : forall i j, (i < n)%nat -> (j < n)%nat -> mm k P A i j = mm k P A j i }.

(** The four equations determine it. *)
Lemma penrose_unique n k A P Q : penrose n k A P -> penrose n k A Q -> forall i j, (i < n)%nat -> (j < k)%nat -> P i j = Q i j.
Proof.
  intros HP HQ.
  (* A P = A Q *)
  assert (AP : forall i j, (i < k)%nat -> (j < k)%nat -> mm n A P i j = mm n A Q i j).
  { intros i j Hi Hj.
    transitivity (mm k (mm n A Q) (mm n A P) i j).
    - rewrite <- mm_assoc. apply mm_ext; [|reflexivity]. intros l Hl. symmetry. apply (pen_APA _ _ _ _ HQ); assumption.
    - rewrite (pen_AP _ _ _ _ HQ) by assumption.
      transitivity (mm k (mm n A P) (mm n A Q) j i).
      + unfold mm at 1 4. apply Rs_ext. intros l Hl. rewrite (pen_AP _ _ _ _ HQ i l), (pen_AP _ _ _ _ HP l j) by assumption. ring.
      + rewrite <- mm_assoc. apply mm_ext; [|reflexivity]. intros l Hl. apply (pen_APA _ _ _ _ HP); assumption. }
  assert (PA : forall i j, (i < n)%nat -> (j < n)%nat -> mm k P A i j = mm k Q A i j).
  { intros i j Hi Hj.
    transitivity (mm n (mm k P A) (mm k Q A) i j).
    - rewrite mm_assoc. apply mm_ext; [reflexivity|]. intros l Hl. rewrite <- mm_assoc. symmetry. apply (pen_APA _ _ _ _ HQ); assumption.
    - rewrite (pen_PA _ _ _ _ HQ i j) by assumption.
      transitivity (mm n (mm k Q A) (mm k P A) j i).
      + unfold mm at 1 4. apply Rs_ext. intros l Hl. rewrite (pen_PA _ _ _ _ HP i l), (pen_PA _ _ _ _ HQ l j) by assumption. ring.
      + rewrite mm_assoc. apply mm_ext; [reflexivity|]. intros l Hl. rewrite <- mm_assoc. apply (pen_APA _ _ _ _ HP); assumption. }
  intros i j Hi Hj.
  transitivity (mm n (mm k Q A) P i j).
  - rewrite <- (pen_PAP _ _ _ _ HP i j Hi Hj). apply mm_ext; [|reflexivity]. intros l Hl. apply PA; assumption.
  - rewrite mm_assoc, <- (pen_PAP _ _ _ _ HQ i j Hi Hj), mm_assoc. apply mm_ext; [reflexivity|]. intros l Hl. apply AP; assumption.
Qed.

Section Step.
  Variables (n k : nat) (A P : nat -> nat -> R).
  Hypothesis H : penrose n k A P.
  Let d j := Rsum n (fun i => A k i * P i j).
  Let c i := A k i - Rsum k (fun j => d j * A j i).
  Let cc := Rsum n (fun i => c i * c i).
  Let dd := Rsum k (fun j => d j * d j).
  Let b i := if Reqb cc 0 then Rsum k (fun j => P i j * d j) / (1 + dd) else c i / cc.
  Let Q i j := if Nat.ltb j k then P i j - b i * d j else b i.

  Lemma Q_old i j : (j < k)%nat -> Q i j = P i j - b i * d j.
  Proof. intros Hj. unfold Q. apply Nat.ltb_lt in Hj. rewrite Hj. reflexivity. Qed.
  Lemma Q_new i : Q i k = b i.
  Proof. unfold Q. rewrite Nat.ltb_irrefl. reflexivity. Qed.

  Lemma dd_pos : 0 < 1 + dd.
  Proof. assert (0 <= dd); [|lra]. apply Rsum_nonneg. intros; apply Rle_0_sqr. Qed.

  (** Q A' = P A + b c *)
  Lemma QA i j : mm (S k) Q A i j = mm k P A i j + b i * c j.
  Proof.
    unfold mm. rewrite Rs_S, Q_new.
    rewrite (Rs_ext k (fun l => Q i l * A l j) (fun l => P i l * A l j - b i * (d l * A l j))) by (intros l Hl; rewrite Q_old by exact Hl; ring).
    rewrite Rsum_minus, Rsum_scal. unfold c. ring.
  Qed.
  (** A' Q *)
  Lemma AQ_old i j : (j < k)%nat -> mm n A Q i j = mm n A P i j - Rsum n (fun l => A i l * b l) * d j.
  Proof.
    intros Hj. unfold mm. rewrite <- Rs_scal_r, <- Rsum_minus. apply Rs_ext. intros l _. rewrite Q_old by exact Hj. ring.
  Qed.
  Lemma AQ_new i : mm n A Q i k = Rsum n (fun l => A i l * b l).
  Proof. unfold mm. apply Rs_ext. intros l _. rewrite Q_new. reflexivity. Qed.

  (** d = a P, and d A P = d *)
  Lemma dAP j : (j < k)%nat -> Rsum k (fun l => d l * mm n A P l j) = d j.
  Proof.
    intros Hj. transitivity (mm k (mm n (fun _ i => A k i) P) (mm n A P) 0%nat j); [reflexivity|].
    rewrite mm_assoc. unfold mm at 1. unfold d. apply Rs_ext. intros i Hi. f_equal.
    rewrite <- mm_assoc. apply (pen_PAP _ _ _ _ H); assumption.
  Qed.
  (** A c = 0 *)
  Lemma Ac i : (i < k)%nat -> Rsum n (fun l => A i l * c l) = 0.
  Proof.
    intros Hi. unfold c. rewrite (Rs_ext n _ (fun l => A i l * A k l - A i l * Rsum k (fun j => d j * A j l))) by (intros; ring).
    rewrite Rsum_minus.
    assert (E : Rsum n (fun l => A i l * Rsum k (fun j => d j * A j l)) = Rsum n (fun l => A i l * A k l)); [|lra].
    (* d A = a (P A) *)
    assert (DA : forall l, (l < n)%nat -> Rsum k (fun j => d j * A j l) = Rsum n (fun p => mm k P A l p * A k p)).
    { intros l Hl. transitivity (mm k (mm n (fun _ i => A k i) P) A 0%nat l); [reflexivity|]. rewrite mm_assoc. unfold mm at 1.
      apply Rs_ext. intros p Hp. rewrite (pen_PA _ _ _ _ H p l Hp Hl). ring. }
    transitivity (Rsum n (fun l => A i l * Rsum n (fun p => mm k P A l p * A k p))); [apply Rs_ext; intros l Hl; rewrite DA by exact Hl; reflexivity|].
    transitivity (mm n (mm n A (mm k P A)) (fun p _ => A k p) i 0%nat); [rewrite mm_assoc; reflexivity|].
    unfold mm at 1. apply Rs_ext. intros l Hl. f_equal. rewrite <- mm_assoc. apply (pen_APA _ _ _ _ H); assumption.
  Qed.

  Section Independent.
    Hypothesis C : cc <> 0.
    Lemma b_ind i : b i = c i / cc.
    Proof. unfold b. apply Reqb_false in C. rewrite C. reflexivity. Qed.
    Lemma Ab_ind i : (i < k)%nat -> Rsum n (fun l => A i l * b l) = 0.
    Proof.
      intros Hi. rewrite (Rs_ext n _ (fun l => A i l * c l * / cc)) by (intros; rewrite b_ind; unfold Rdiv; ring).
      rewrite Rs_scal_r, Ac by exact Hi. ring.
    Qed.
    Lemma ab_ind : Rsum n (fun l => A k l * b l) = 1.
    Proof.
      rewrite (Rs_ext n _ (fun l => A k l * c l * / cc)) by (intros; rewrite b_ind; unfold Rdiv; ring).
      rewrite Rs_scal_r. assert (E : Rsum n (fun l => A k l * c l) = cc); [|rewrite E; field; exact C].
      transitivity (Rsum n (fun l => c l * c l) + Rsum n (fun l => Rsum k (fun j => d j * A j l) * c l)).
      - rewrite <- Rsum_plus. apply Rs_ext. intros l _. unfold c at 2. ring_simplify. unfold c. ring.
      - assert (Z : Rsum n (fun l => Rsum k (fun j => d j * A j l) * c l) = 0); [|unfold cc; lra].
        transitivity (Rsum k (fun j => d j * Rsum n (fun l => A j l * c l))).
        + transitivity (Rsum n (fun l => Rsum k (fun j => d j * (A j l * c l)))).
          * apply Rs_ext. intros l _. rewrite <- Rs_scal_r. apply Rs_ext. intros; ring.
          * rewrite Rs_swap2. apply Rs_ext. intros; apply Rsum_scal.
        + apply Rsum_zero. intros j Hj. rewrite Ac by exact Hj. ring.
    Qed.
    Lemma AQ_ind i j : (i < S k)%nat -> (j < S k)%nat ->
      mm n A Q i j = if Nat.ltb i k && Nat.ltb j k then mm n A P i j else if Nat.eqb i k && Nat.eqb j k then 1 else 0.
    Proof.
      intros Hi Hj. destruct (Nat.ltb_spec j k) as [Lj|Lj].
      - rewrite AQ_old by exact Lj. destruct (Nat.ltb_spec i k) as [Li|Li].
        + cbn [andb]. rewrite Ab_ind by exact Li. ring.
        + assert (i = k) as -> by lia. cbn [andb]. rewrite Nat.eqb_refl. assert (Nat.eqb j k = false) as -> by (apply Nat.eqb_neq; lia).
          cbn [andb]. rewrite ab_ind. unfold mm. fold (d j). ring.
      - assert (j = k) as -> by lia. rewrite AQ_new, andb_false_r, Nat.eqb_refl. destruct (Nat.eqb_spec i k) as [->|N]; cbn [andb].
        + apply ab_ind.
        + apply Ab_ind. lia.
    Qed.
    Lemma step_ind : penrose n (S k) A Q.
    Proof.
      constructor.
      - intros i j Hi Hj. unfold mm at 1. rewrite Rs_S.
        destruct (Nat.ltb_spec i k) as [Li|Li].
        + rewrite (AQ_ind i k) by lia. rewrite Nat.ltb_irrefl, andb_false_r. assert (Nat.eqb i k = false) as -> by (apply Nat.eqb_neq; lia). cbn [andb].
          rewrite Rmult_0_l, Rplus_0_r, <- (pen_APA _ _ _ _ H i j Li Hj). unfold mm at 2. apply Rs_ext. intros l Hl. rewrite AQ_ind by lia.
          apply Nat.ltb_lt in Li, Hl. rewrite Li, Hl. reflexivity.
        + assert (i = k) as -> by lia. rewrite (AQ_ind k k) by lia. rewrite Nat.ltb_irrefl, Nat.eqb_refl. cbn [andb].
          rewrite Rsum_zero; [ring|]. intros l Hl. rewrite AQ_ind by lia. rewrite Nat.ltb_irrefl, Nat.eqb_refl.
          assert (Nat.eqb l k = false) as -> by (apply Nat.eqb_neq; lia). cbn [andb]. ring.
      - intros i j Hi Hj. rewrite mm_assoc. unfold mm at 1. rewrite Rs_S. destruct (Nat.ltb_spec j k) as [Lj|Lj].
        + rewrite (AQ_ind k j) by lia. rewrite Nat.ltb_irrefl, Nat.eqb_refl. assert (Nat.eqb j k = false) as -> by (apply Nat.eqb_neq; lia). cbn [andb].
          rewrite (Q_old i j Lj).
          rewrite (Rs_ext k _ (fun l => P i l * mm n A P l j - b i * (d l * mm n A P l j))).
          * rewrite Rsum_minus, Rsum_scal, (dAP j Lj). rewrite Rmult_0_r, Rplus_0_r. f_equal.
            transitivity (mm n (mm k P A) P i j); [rewrite mm_assoc; reflexivity|apply (pen_PAP _ _ _ _ H); assumption].
          * intros l Hl. rewrite Q_old by exact Hl. rewrite AQ_ind by lia. apply Nat.ltb_lt in Lj, Hl. rewrite Lj, Hl. cbn [andb]. ring.
        + assert (j = k) as -> by lia. rewrite (AQ_ind k k) by lia. rewrite Nat.ltb_irrefl, Nat.eqb_refl. cbn [andb].
          rewrite Rsum_zero; [ring|]. intros l Hl. rewrite AQ_ind by lia. rewrite Nat.ltb_irrefl, andb_false_r.
          assert (Nat.eqb l k = false) as -> by (apply Nat.eqb_neq; lia). cbn [andb]. ring.
      - intros i j Hi Hj. rewrite !AQ_ind by assumption. rewrite (andb_comm (Nat.ltb j k)), (andb_comm (Nat.eqb j k)).
        destruct (Nat.ltb_spec i k), (Nat.ltb_spec j k); cbn [andb]; try reflexivity. apply (pen_AP _ _ _ _ H); assumption.
      - intros i j Hi Hj. rewrite !QA, !b_ind, (pen_PA _ _ _ _ H i j Hi Hj). field. exact C.
    Qed.
  End Independent.

  Section Dependent.
    Hypothesis C : cc = 0.
    Lemma c0 i : (i < n)%nat -> c i = 0.
    Proof. apply (Rs_sq_zero n c). exact C. Qed.
    Lemma b_dep i : b i = Rsum k (fun j => P i j * d j) / (1 + dd).
    Proof. unfold b. rewrite C, Reqb_refl. reflexivity. Qed.
    Lemma Ab_dep i : (i < k)%nat -> Rsum n (fun l => A i l * b l) = d i / (1 + dd).
    Proof.
      intros Hi. rewrite (Rs_ext n _ (fun l => A i l * Rsum k (fun j => P l j * d j) * / (1 + dd))) by (intros; rewrite b_dep; unfold Rdiv; ring).
      rewrite Rs_scal_r. unfold Rdiv. f_equal.
      transitivity (mm k (mm n A P) (fun j _ => d j) i 0%nat); [rewrite mm_assoc; reflexivity|].
      unfold mm at 1. rewrite <- (dAP i Hi). apply Rs_ext. intros l Hl. rewrite (pen_AP _ _ _ _ H i l Hi Hl). ring.
    Qed.
    Lemma ab_dep : Rsum n (fun l => A k l * b l) = dd / (1 + dd).
    Proof.
      rewrite (Rs_ext n _ (fun l => A k l * Rsum k (fun j => P l j * d j) * / (1 + dd))) by (intros; rewrite b_dep; unfold Rdiv; ring).
      rewrite Rs_scal_r. unfold Rdiv. f_equal.
      transitivity (mm k (mm n (fun _ i => A k i) P) (fun j _ => d j) 0%nat 0%nat); [rewrite mm_assoc; reflexivity|]. reflexivity.
    Qed.
    Lemma QA_dep i j : (j < n)%nat -> mm (S k) Q A i j = mm k P A i j.
    Proof. intros Hj. rewrite QA, (c0 j Hj). ring. Qed.
    Lemma A_new j : (j < n)%nat -> A k j = Rsum k (fun l => d l * A l j).
    Proof. intros Hj. pose proof (c0 j Hj) as E. unfold c in E. lra. Qed.
    Lemma PAb i : (i < n)%nat -> Rsum n (fun l => mm k P A i l * b l) = b i.
    Proof.
      intros Hi. transitivity (mm k P (fun j _ => Rsum n (fun l => A j l * b l)) i 0%nat).
      - transitivity (mm n (mm k P A) (fun l _ => b l) i 0%nat); [reflexivity|]. rewrite mm_assoc. reflexivity.
      - unfold mm. rewrite b_dep. unfold Rdiv. rewrite <- Rs_scal_r. apply Rs_ext. intros j Hj. rewrite (Ab_dep j Hj). unfold Rdiv. ring.
    Qed.
    Lemma step_dep : penrose n (S k) A Q.
    Proof.
      pose proof dd_pos as DP.
      constructor.
      - intros i j Hi Hj. rewrite mm_assoc. transitivity (mm n A (mm k P A) i j).
        { apply mm_ext; [reflexivity|]. intros l Hl. apply QA_dep. exact Hj. }
        destruct (Nat.ltb_spec i k) as [Li|Li].
        + rewrite <- mm_assoc. apply (pen_APA _ _ _ _ H); assumption.
        + assert (i = k) as -> by lia. rewrite (A_new j Hj).
          transitivity (mm k (mm n (fun _ i => A k i) P) A 0%nat j); [rewrite mm_assoc; reflexivity|reflexivity].
      - intros i j Hi Hj. transitivity (mm n (mm k P A) Q i j).
        { apply mm_ext; [|reflexivity]. intros l Hl. apply QA_dep. exact Hl. }
        destruct (Nat.ltb_spec j k) as [Lj|Lj].
        + rewrite Q_old by exact Lj. unfold mm at 1. rewrite (Rs_ext n _ (fun l => mm k P A i l * P l j - mm k P A i l * b l * d j)) by (intros l Hl; rewrite Q_old by exact Lj; ring).
          rewrite Rsum_minus, Rs_scal_r, (PAb i Hi). f_equal. apply (pen_PAP _ _ _ _ H); assumption.
        + assert (j = k) as -> by lia. rewrite Q_new. unfold mm at 1. rewrite (Rs_ext n _ (fun l => mm k P A i l * b l)) by (intros l Hl; rewrite Q_new; reflexivity).
          apply PAb. exact Hi.
      - assert (G : forall i j, (i < S k)%nat -> (j < S k)%nat -> (i <= j)%nat -> mm n A Q i j = mm n A Q j i).
        { intros i j Hi Hj L. destruct (Nat.ltb_spec j k) as [Lj|Lj].
          - rewrite !AQ_old by lia. rewrite !Ab_dep by lia. rewrite (pen_AP _ _ _ _ H i j) by lia. unfold Rdiv. ring.
          - assert (j = k) as -> by lia. destruct (Nat.ltb_spec i k) as [Li|Li].
            + rewrite AQ_new, AQ_old by exact Li. rewrite (Ab_dep i Li), ab_dep. unfold mm. fold (d i). field. lra.
            + assert (i = k) as -> by lia. reflexivity. }
        intros i j Hi Hj. destruct (Nat.le_gt_cases i j) as [L|L]; [apply G; assumption|symmetry; apply G; lia].
      - intros i j Hi Hj. rewrite !QA_dep by assumption. apply (pen_PA _ _ _ _ H); assumption.
    Qed.
  End Dependent.

  Lemma step : penrose n (S k) A Q.
  Proof. destruct (Req_dec cc 0) as [E|E]; [apply step_dep; exact E|apply step_ind; exact E]. Qed.
End Step.

Theorem pinv_penrose n k A : penrose n k A (pinv n k A).
Proof.
  induction k as [|k IH].
  - constructor; intros i j Hi Hj; try lia. reflexivity.
  - cbn [pinv]. apply (step n k A (pinv n k A) IH).
Qed.
