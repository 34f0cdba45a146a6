(** * ProofsFloat17: numpy.gradient of whole columns in binary64 *)
From Coq Require Import Reals Lra Lia List ZArith QArith Qreals Bool.
From Flocq Require Import Core IEEE754.BinarySingleNaN Relative.
From Verif Require Import Num NumFacts Arr SpecFloat64 Ieee IeeeDerived SpecIeee ProofsFloat ProofsIeee ProofsFloat4 ProofsFloat6 ProofsFloat11 ProofsFloat15 ProofsFloat16.
Import ListNotations.
Local Open Scope R_scope.

Definition gradR (n : nat) (x f : nat -> R) (k : nat) : R :=
  let D i := x (i + 1)%nat - x i in
  if Nat.eqb k 0 then firstR (D 0%nat) (D 1%nat) (f 0%nat) (f 1%nat) (f 2%nat)
  else if Nat.eqb k (n - 1) then lastR (D (n - 3)%nat) (D (n - 2)%nat) (f (n - 3)%nat) (f (n - 2)%nat) (f (n - 1)%nat)
  else interiorR (D (k - 1)%nat) (D k) (f (k - 1)%nat) (f k) (f (k + 1)%nat).

Lemma grad_col_R n x f k : (3 <= n)%nat -> (k < n)%nat -> (forall i, (S i < n)%nat -> x i < x (S i)) ->
  grad_col n (fun i => Fin (x i)) (fun i => Fin (f i)) k = Fin (gradR n x f k).
Proof.
  intros Hn Hk Hx. assert (D : forall i j, j = S i -> (j < n)%nat -> 0 < x j - x i) by (intros i j -> Hi; assert (X := Hx i Hi); lra).
  unfold grad_col, gradR.
  destruct (Nat.eqb_spec k 0) as [->|Hk0].
  - assert (D1 := D 0%nat 1%nat eq_refl ltac:(lia)). assert (D2 := D 1%nat 2%nat eq_refl ltac:(lia)).
    unfold grad_first, firstR. cbn [fsub fadd fopp fmul Nat.add].
    rewrite !fdiv_Fin by (apply Rgt_not_eq; nra). cbn [fadd fmul]. f_equal. field. lra.
  - destruct (Nat.eqb_spec k (n - 1)) as [->|Hkn].
    + replace (n - 3 + 1)%nat with (n - 2)%nat by lia. replace (n - 2 + 1)%nat with (n - 1)%nat by lia.
      assert (D1 := D (n - 3)%nat (n - 2)%nat ltac:(lia) ltac:(lia)). assert (D2 := D (n - 2)%nat (n - 1)%nat ltac:(lia) ltac:(lia)).
      unfold grad_last, lastR. cbn [fsub fadd fopp fmul].
      rewrite !fdiv_Fin by (apply Rgt_not_eq; nra). cbn [fadd fmul]. f_equal. field. lra.
    + replace (k - 1 + 1)%nat with k by lia.
      assert (D1 := D (k - 1)%nat k ltac:(lia) ltac:(lia)). assert (D2 := D k (k + 1)%nat ltac:(lia) ltac:(lia)).
      destruct (uniform_spacing n (fun i => Fin (x i))) eqn:U.
      * assert (E : forall i, (S i < n)%nat -> x (S i) - x i = x 1%nat - x 0%nat).
        { intros i Hi. unfold uniform_spacing in U. rewrite forallb_forall in U.
          specialize (U i). rewrite in_seq in U. specialize (U ltac:(lia)). simpl in U.
          apply Reqb_true in U. rewrite Nat.add_1_r in U. lra. }
        assert (E1 := E (k - 1)%nat ltac:(lia)). replace (S (k - 1)) with k in E1 by lia.
        assert (E2 := E k ltac:(lia)). rewrite Nat.add_1_r in *.
        unfold grad_uniform, interiorR. rewrite Nat.add_1_r. cbn [fsub fadd fopp fmul]. set (h := x 1%nat - x 0%nat) in *.
        change (x 1%nat + - x 0%nat) with h. rewrite fdiv_Fin by lra. f_equal. rewrite E1, E2. field. lra.
      * unfold grad_interior, interiorR. cbn [fsub fadd fopp fmul].
        rewrite !fdiv_Fin by (apply Rgt_not_eq; nra). cbn [fadd fmul]. f_equal. field. lra.
Qed.

Section Column.
  Variables (n : nat) (x f : nat -> f64) (h M : R).
  Hypotheses (Hn : (3 <= n)%nat) (Hh : bpow radix2 (-100) <= h) (HM : 0 <= M <= bpow radix2 100).
  Hypothesis Fx : forall i, (i < n)%nat -> is_finite (x i) = true.
  Hypothesis Dx : forall i, (i + 1 < n)%nat -> h <= B2R (x (i + 1)%nat) - B2R (x i) <= bpow radix2 100.
  Hypothesis Ff : forall i, (i < n)%nat -> is_finite (f i) = true /\ Rabs (B2R (f i)) <= M.

  Lemma h_range : bpow radix2 (-100) <= h <= bpow radix2 100.
  Proof. assert (X := Dx 0 ltac:(lia)). lra. Qed.
  Lemma diff_R64 i : (i + 1 < n)%nat -> R64 1 100 (diff64 x i) (B2R (x (i + 1)%nat) - B2R (x i)).
  Proof.
    intros Hi. assert (X := Dx i Hi). assert (B := bpow_gt_0 radix2 (-100)).
    assert (Mg : mag 100 (B2R (x (i + 1)%nat) - B2R (x i))) by (unfold mag; change (- (100))%Z with (-100)%Z; lra).
    destruct (sub64_rep (x (i + 1)%nat) (x i) _ _ (conj (Fx _ Hi) eq_refl) (conj (Fx i ltac:(lia)) eq_refl)) as [G V].
    { apply (mag_fits 100); [lia|]. apply mag_fl; [lia|exact Mg]. }
    unfold diff64. split; [exact G|]. split; [lra|]. rewrite V. split; [apply (fl_rel 100); [lia|exact Mg]|apply mag_fl; [lia|exact Mg]].
  Qed.
  Lemma uniform_R64 i : uniform64 n x = true -> (i + 1 < n)%nat -> R64 1 100 (diff64 x 0) (B2R (x (i + 1)%nat) - B2R (x i)).
  Proof.
    intros U Hi. unfold uniform64 in U. rewrite forallb_forall in U. specialize (U i ltac:(apply in_seq; lia)).
    destruct (diff_R64 i Hi) as (F & Y & R & Mg). destruct (diff_R64 0 ltac:(lia)) as (F0 & _).
    rewrite Beqb_correct in U by assumption. destruct (Req_bool_spec (B2R (diff64 x i)) (B2R (diff64 x 0))) as [U2|U2]; [|discriminate U]; rename U2 into U3. split; [exact F0|]. rewrite <- U3. auto.
  Qed.
  Lemma gradient_close k : (k < n)%nat -> close_to h M (gradient64 n x f k) (gradR n (fun i => B2R (x i)) (fun i => B2R (f i)) k).
  Proof.
    intros Hk. assert (HR := h_range).
    assert (L : forall i, (i + 1 < n)%nat -> h <= B2R (x (i + 1)%nat) - B2R (x i)) by (intros i Hi; apply Dx, Hi).
    assert (FF : forall i, (i < n)%nat -> is_finite (f i) = true) by (intros; apply Ff; assumption).
    assert (FB : forall i, (i < n)%nat -> Rabs (B2R (f i)) <= M) by (intros; apply Ff; assumption).
    unfold gradient64, gradR. destruct (Nat.eqb_spec k 0) as [->|K0].
    - destruct (uniform64 n x) eqn:U.
      + apply uniform_first_close; try assumption; try (apply L; lia); try (apply (uniform_R64 _ U); lia); first [apply FF; lia|apply FB; lia].
      + apply first_close; try assumption; try (apply L; lia); try (apply diff_R64; lia); first [apply FF; lia|apply FB; lia].
    - destruct (Nat.eqb_spec k (n - 1)) as [->|K1].
      + destruct (uniform64 n x) eqn:U.
        * apply uniform_last_close; try assumption; try (apply L; lia); try (apply (uniform_R64 _ U); lia); first [apply FF; lia|apply FB; lia].
        * apply last_close; try assumption; try (apply L; lia); try (apply diff_R64; lia); first [apply FF; lia|apply FB; lia].
      + destruct (uniform64 n x) eqn:U.
        * apply uniform_interior_close; try assumption; try (apply L; lia); try (apply (uniform_R64 _ U); lia); first [apply FF; lia|apply FB; lia].
        * apply interior_close; try assumption; try (apply L; lia); try (apply diff_R64; lia); first [apply FF; lia|apply FB; lia].
  Qed.
End Column.

(** ** The size of the exact derivative *)
Lemma stencil_size a b c f0 f1 f2 M H : Rabs a <= 2 * H -> Rabs b <= 2 * H -> Rabs c <= 2 * H -> 0 <= H -> Rabs f0 <= M -> Rabs f1 <= M -> Rabs f2 <= M ->
  Rabs (a * f0 + b * f1 + c * f2) <= 6 * M * H.
Proof.
  intros A B C P F0 F1 F2.
  assert (T := Rabs_triang (a * f0 + b * f1) (c * f2)). assert (T' := Rabs_triang (a * f0) (b * f1)).
  assert (X : forall v f, Rabs v <= 2 * H -> Rabs f <= M -> Rabs (v * f) <= 2 * H * M) by (intros; rewrite Rabs_mult; apply Rmult_le_compat; try assumption; apply Rabs_pos).
  assert (X1 := X _ _ A F0). assert (X2 := X _ _ B F1). assert (X3 := X _ _ C F2). lra.
Qed.
Section Size.
  Variables (n : nat) (x f : nat -> R) (h M : R).
  Hypotheses (Hn : (3 <= n)%nat) (Hh : bpow radix2 (-100) <= h <= bpow radix2 100).
  Hypothesis Dx : forall i, (i + 1 < n)%nat -> h <= x (i + 1)%nat - x i.
  Hypothesis Ff : forall i, (i < n)%nat -> Rabs (f i) <= M.
  Lemma grad_size k : (k < n)%nat -> Rabs (gradR n x f k) <= 6 * M * / h.
  Proof.
    intros Hk. assert (P := h_pos h Hh). assert (Hp := H_pos h Hh).
    assert (Q : forall D1 D2, h <= D1 -> h <= D2 -> Rabs (D2 / (D1 * (D1 + D2))) <= 2 * / h /\ Rabs (D1 / (D2 * (D1 + D2))) <= 2 * / h
      /\ Rabs ((2 * D1 + D2) / (D1 * (D1 + D2))) <= 2 * / h /\ Rabs ((2 * D2 + D1) / (D2 * (D1 + D2))) <= 2 * / h
      /\ Rabs ((D1 + D2) / (D1 * D2)) <= 2 * / h /\ Rabs ((D2 - D1) / (D1 * D2)) <= 2 * / h).
    { intros D1 D2 L1 L2. assert (A1 : 0 < D1 * (D1 + D2)) by nra. assert (A2 : 0 < D2 * (D1 + D2)) by nra. assert (A3 : 0 < D1 * D2) by nra.
      assert (V1 := q21 h D1 D2 Hh L1 L2). assert (V2 := q12 h D1 D2 Hh L1 L2). assert (V3 := q_first h D1 D2 Hh L1 L2).
      assert (V4 := q_last h D1 D2 Hh L1 L2). assert (V5 := q_mid h D1 D2 Hh L1 L2).
      assert (I1 := inv1 h D1 Hh L1). assert (I2 := inv2 h D2 Hh L2).
      assert (0 < / D1) by (apply Rinv_0_lt_compat; lra). assert (0 < / D2) by (apply Rinv_0_lt_compat; lra).
      repeat split.
      1-5: rewrite Rabs_pos_eq; [lra|apply Rlt_le, Rdiv_lt_0_compat; lra].
      replace ((D2 - D1) / (D1 * D2)) with (/ D1 - / D2) by (field; lra). apply Rabs_le. lra. }
    unfold gradR. destruct (Nat.eqb_spec k 0) as [->|K0]; [|destruct (Nat.eqb_spec k (n - 1)) as [->|K1]].
    - destruct (Q _ _ (Dx 0%nat ltac:(lia)) (Dx 1%nat ltac:(lia))) as (B1 & B2 & B3 & B4 & B5 & B6). unfold firstR.
      apply stencil_size; try (rewrite Rabs_Ropp); try assumption; try lra; apply Ff; lia.
    - destruct (Q _ _ (Dx (n - 3)%nat ltac:(lia)) (Dx (n - 2)%nat ltac:(lia))) as (B1 & B2 & B3 & B4 & B5 & B6). unfold lastR.
      rewrite (Rplus_comm (x (n - 2 + 1)%nat - x (n - 2)%nat) (x (n - 3 + 1)%nat - x (n - 3)%nat)).
      apply stencil_size; try (rewrite Rabs_Ropp); try assumption; try lra; apply Ff; lia.
    - destruct (Q _ _ (Dx (k - 1)%nat ltac:(lia)) (Dx k ltac:(lia))) as (B1 & B2 & B3 & B4 & B5 & B6). unfold interiorR.
      apply stencil_size; try (rewrite Rabs_Ropp); try assumption; try lra; apply Ff; lia.
  Qed.
End Size.
