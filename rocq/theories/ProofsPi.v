(** * ProofsPi: seventeen digits of pi (proofs only) *)
From Coq Require Import Reals Lra Lia QArith Qreals Machin Ratan.
Local Open Scope R_scope.

Definition qterm (n : nat) : Q :=
  (let m := Z.of_nat (2 * n + 1) in
   let s := if Nat.even n then 1%Z else (-1)%Z in
   (s # 1) * ((2 # 1) * ((1 # Z.to_pos (3 ^ m)) * (1 # Z.to_pos m)) + (1 # Z.to_pos (7 ^ m)) * (1 # Z.to_pos m)))%Q.
Fixpoint qsum (n : nat) : Q := match n with O => qterm 0 | S m => Qred (qsum m + qterm n)%Q end.
Lemma Q2R_inv_pow b m : (0 < b)%Z -> Q2R (1 # Z.to_pos (b ^ Z.of_nat m)) = (/ IZR b) ^ m.
Proof.
  intros B. unfold Q2R. cbn [Qnum Qden]. rewrite Rmult_1_l, Z2Pos.id by (apply Z.pow_pos_nonneg; lia).
  rewrite <- pow_IZR, pow_inv. reflexivity.
Qed.
Lemma qterm_ok n : Q2R (qterm n) = tg_alt PI_2_3_7_tg n.
Proof.
  unfold qterm, tg_alt, PI_2_3_7_tg, Ratan_seq.
  rewrite Q2R_mult, Q2R_plus, !Q2R_mult, !Q2R_inv_pow by lia.
  assert (M : Q2R (1 # Z.to_pos (Z.of_nat (2 * n + 1))) = / INR (2 * n + 1)).
  { unfold Q2R. cbn [Qnum Qden]. rewrite Z2Pos.id by lia. rewrite <- INR_IZR_INZ. lra. }
  rewrite M.
  assert (S1 : Q2R ((if Nat.even n then 1%Z else (-1)%Z) # 1) = (-1) ^ n).
  { clear. induction n as [|n IH]; [unfold Q2R; cbn; lra|]. rewrite Nat.even_succ, <- Nat.negb_even. cbn [pow]. rewrite <- IH.
    destruct (Nat.even n); unfold Q2R; cbn; lra. }
  rewrite S1. unfold Q2R at 1. cbn [Qnum Qden]. unfold Rdiv. lra.
Qed.
Lemma qsum_ok n : Q2R (qsum n) = sum_f_R0 (tg_alt PI_2_3_7_tg) n.
Proof.
  induction n as [|n IH]; [apply qterm_ok|]. cbn [qsum sum_f_R0]. rewrite (Qeq_eqR _ _ (Qred_correct _)), Q2R_plus, IH, qterm_ok. reflexivity.
Qed.
Lemma PI_digits : 3.14159265358979323 <= PI <= 3.14159265358979325.
Proof.
  destruct (PI_2_3_7_ineq 9) as [A B]. rewrite <- qsum_ok in A, B.
  assert (A' : (785398163397448309 # 1000000000000000000 <= qsum (S (2 * 9)))%Q) by (vm_compute; discriminate).
  assert (B' : (qsum (2 * 9) <= 785398163397448310 # 1000000000000000000)%Q) by (vm_compute; discriminate).
  apply Qle_Rle in A', B'. unfold Q2R in A' at 1, B' at 2. cbn [Qnum Qden] in A', B'. lra.
Qed.
