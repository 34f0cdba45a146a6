(** * NumFacts: elementary lemmas about the float model (proofs only) *)
From Coq Require Import Reals Bool Lra Lia List Arith.
From Verif Require Import Num.
Local Open Scope R_scope.

(** The real number carried by a finite value (0 for NaN and infinities; only used
    under hypotheses or conclusions that say the value is finite). *)
Definition val (a : fval) : R := match a with Fin x => x | _ => 0 end.

Lemma Rleb_true x y : Rleb x y = true <-> x <= y.
Proof. unfold Rleb; destruct (Rle_dec x y); split; intros; auto; try discriminate; contradiction. Qed.
Lemma Rleb_false x y : Rleb x y = false <-> y < x.
Proof. unfold Rleb; destruct (Rle_dec x y); split; intros; auto; try discriminate; lra. Qed.
Lemma Rltb_true x y : Rltb x y = true <-> x < y.
Proof. unfold Rltb; destruct (Rlt_dec x y); split; intros; auto; try discriminate; contradiction. Qed.
Lemma Rltb_false x y : Rltb x y = false <-> y <= x.
Proof. unfold Rltb; destruct (Rlt_dec x y); split; intros; auto; try discriminate; lra. Qed.
Lemma Reqb_true x y : Reqb x y = true <-> x = y.
Proof. unfold Reqb; destruct (Req_EM_T x y); split; intros; auto; try discriminate; contradiction. Qed.
Lemma Reqb_false x y : Reqb x y = false <-> x <> y.
Proof. unfold Reqb; destruct (Req_EM_T x y); split; intros; auto; try discriminate; contradiction. Qed.
Lemma Reqb_refl x : Reqb x x = true.
Proof. apply Reqb_true; reflexivity. Qed.

Lemma fadd_Fin x y : fadd (Fin x) (Fin y) = Fin (x + y).
Proof. reflexivity. Qed.
Lemma fopp_Fin x : fopp (Fin x) = Fin (- x).
Proof. reflexivity. Qed.
Lemma fsub_Fin x y : fsub (Fin x) (Fin y) = Fin (x - y).
Proof. reflexivity. Qed.
Lemma fmul_Fin x y : fmul (Fin x) (Fin y) = Fin (x * y).
Proof. reflexivity. Qed.
Lemma fdiv_Fin x y : y <> 0 -> fdiv (Fin x) (Fin y) = Fin (x / y).
Proof. intros H; simpl; apply Reqb_false in H; rewrite H; reflexivity. Qed.
Lemma fdiv_zero_not_fin x : is_fin (fdiv (Fin x) (Fin 0)) = false.
Proof. simpl; rewrite Reqb_refl; destruct (Reqb x 0); reflexivity. Qed.
Lemma fabs_Fin x : fabs (Fin x) = Fin (Rabs x).
Proof. reflexivity. Qed.
Lemma fsqrt_Fin x : 0 <= x -> fsqrt (Fin x) = Fin (sqrt x).
Proof. intros H; simpl; apply Rltb_false in H; rewrite H; reflexivity. Qed.
Lemma fln_Fin x : 0 < x -> fln (Fin x) = Fin (ln x).
Proof.
  intros H; simpl. assert (H1 : Rltb x 0 = false) by (apply Rltb_false; lra).
  assert (H2 : Reqb x 0 = false) by (apply Reqb_false; lra). now rewrite H1, H2.
Qed.
Lemma fmin_Fin x y : fmin (Fin x) (Fin y) = Fin (Rmin x y).
Proof.
  unfold fmin, fleb; simpl. unfold Rmin.
  destruct (Rle_dec x y) as [H|H].
  - unfold Rltb, Reqb. destruct (Rlt_dec x y); simpl; [reflexivity|].
    destruct (Req_EM_T x y); [reflexivity|]; lra.
  - assert (H1 : Rltb x y = false) by (apply Rltb_false; lra).
    assert (H2 : Reqb x y = false) by (apply Reqb_false; lra). now rewrite H1, H2.
Qed.
Lemma fleb_Fin x y : fleb (Fin x) (Fin y) = Rleb x y.
Proof.
  unfold fleb; simpl. destruct (Rleb x y) eqn:E.
  - apply Rleb_true in E. destruct (Rltb x y) eqn:E1; [reflexivity|]. apply Rltb_false in E1.
    simpl. apply Reqb_true; lra.
  - apply Rleb_false in E. assert (H1 : Rltb x y = false) by (apply Rltb_false; lra).
    assert (H2 : Reqb x y = false) by (apply Reqb_false; lra). now rewrite H1, H2.
Qed.

(** NaN propagation. *)
Lemma fadd_NaN_l b : fadd NaN b = NaN. Proof. reflexivity. Qed.
Lemma fadd_NaN_r a : fadd a NaN = NaN. Proof. destruct a; reflexivity. Qed.
Lemma fsub_NaN_l b : fsub NaN b = NaN. Proof. reflexivity. Qed.
Lemma fsub_NaN_r a : fsub a NaN = NaN. Proof. destruct a; reflexivity. Qed.
Lemma fmul_NaN_l b : fmul NaN b = NaN. Proof. reflexivity. Qed.
Lemma fmul_NaN_r a : fmul a NaN = NaN. Proof. destruct a; reflexivity. Qed.
Lemma fdiv_NaN_l b : fdiv NaN b = NaN. Proof. reflexivity. Qed.
Lemma fdiv_NaN_r a : fdiv a NaN = NaN. Proof. destruct a; reflexivity. Qed.
Lemma fopp_NaN : fopp NaN = NaN. Proof. reflexivity. Qed.
Global Hint Rewrite fadd_NaN_l fadd_NaN_r fsub_NaN_l fsub_NaN_r fmul_NaN_l fmul_NaN_r
  fdiv_NaN_l fdiv_NaN_r fopp_NaN : nan.

(** Finite results come from finite operands. *)
Lemma is_fin_ex a : is_fin a = true -> exists x, a = Fin x.
Proof. destruct a; try discriminate; eauto. Qed.
Lemma fadd_fin_inv a b x : fadd a b = Fin x -> exists u v, a = Fin u /\ b = Fin v /\ x = u + v.
Proof.
  destruct a as [|s|u], b as [|t|v]; simpl; try discriminate.
  - destruct (Bool.eqb s t); discriminate.
  - intros [=]; eauto.
Qed.
Lemma fsub_fin_inv a b x : fsub a b = Fin x -> exists u v, a = Fin u /\ b = Fin v /\ x = u - v.
Proof.
  unfold fsub; intros H. destruct (fadd_fin_inv _ _ _ H) as (u & v & -> & Hb & ->).
  destruct b as [|t|w]; try discriminate. injection Hb as <-. exists u, w. repeat split; try reflexivity; lra.
Qed.
Lemma fmul_fin_inv a b x : fmul a b = Fin x -> exists u v, a = Fin u /\ b = Fin v /\ x = u * v.
Proof.
  destruct a as [|s|u], b as [|t|v]; simpl; try discriminate.
  - destruct (Reqb v 0); discriminate.
  - destruct (Reqb u 0); discriminate.
  - intros [=]; eauto.
Qed.

(** Finite sums. *)
Fixpoint Rsum (n : nat) (f : nat -> R) : R :=
  match n with O => 0 | S m => Rsum m f + f m end.

Lemma fsum_Fin n f : fsum n (fun i => Fin (f i)) = Fin (Rsum n f).
Proof. induction n as [|n IH]; simpl; [reflexivity|]. rewrite IH; reflexivity. Qed.
Lemma fsum_ext n f g : (forall i, (i < n)%nat -> f i = g i) -> fsum n f = fsum n g.
Proof.
  induction n as [|n IH]; intros H; simpl; [reflexivity|].
  rewrite IH, (H n); auto with arith.
Qed.
Lemma Rsum_ext n f g : (forall i, (i < n)%nat -> f i = g i) -> Rsum n f = Rsum n g.
Proof.
  induction n as [|n IH]; intros H; simpl; [reflexivity|].
  rewrite IH, (H n); auto with arith.
Qed.
Lemma Rsum_plus n f g : Rsum n (fun i => f i + g i) = Rsum n f + Rsum n g.
Proof. induction n as [|n IH]; simpl; [lra|]. rewrite IH; lra. Qed.
Lemma Rsum_minus n f g : Rsum n (fun i => f i - g i) = Rsum n f - Rsum n g.
Proof. induction n as [|n IH]; simpl; [lra|]. rewrite IH; lra. Qed.
Lemma Rsum_scal n c f : Rsum n (fun i => c * f i) = c * Rsum n f.
Proof. induction n as [|n IH]; simpl; [lra|]. rewrite IH; lra. Qed.
Lemma Rsum_const n c : Rsum n (fun _ => c) = INR n * c.
Proof. induction n as [|n IH]; [simpl; lra|]. rewrite S_INR. simpl. rewrite IH. lra. Qed.
Lemma Rsum_zero n f : (forall i, (i < n)%nat -> f i = 0) -> Rsum n f = 0.
Proof.
  intros H. rewrite (Rsum_ext n f (fun _ => 0) H), Rsum_const. lra.
Qed.
Lemma Rsum_le n f g : (forall i, (i < n)%nat -> f i <= g i) -> Rsum n f <= Rsum n g.
Proof.
  induction n as [|n IH]; intros H; simpl; [lra|].
  apply Rplus_le_compat; auto with arith.
Qed.
Lemma Rsum_nonneg n f : (forall i, (i < n)%nat -> 0 <= f i) -> 0 <= Rsum n f.
Proof.
  intros H. rewrite <- (Rsum_zero n (fun _ => 0)); [|reflexivity]. apply Rsum_le; exact H.
Qed.
Lemma Rsum_pos n f k : (forall i, (i < n)%nat -> 0 <= f i) -> (k < n)%nat -> 0 < f k -> 0 < Rsum n f.
Proof.
  induction n as [|n IH]; intros H Hk Hf; [lia|]. simpl.
  assert (0 <= Rsum n f) by (apply Rsum_nonneg; auto with arith).
  assert (0 <= f n) by auto with arith.
  destruct (Nat.eq_dec k n) as [->|Hne]; [lra|].
  assert (0 < Rsum n f) by (apply IH; auto with arith; lia). lra.
Qed.
Lemma Rsum_telescope n f : Rsum n (fun i => f (S i) - f i) = f n - f O.
Proof. induction n as [|n IH]; simpl; [lra|]. rewrite IH; lra. Qed.
Lemma Rsum_telescope' n f : Rsum n (fun i => f i - f (S i)) = f O - f n.
Proof. induction n as [|n IH]; simpl; [lra|]. rewrite IH; lra. Qed.
Lemma Rsum_swap n m f :
  Rsum n (fun i => Rsum m (fun j => f i j)) = Rsum m (fun j => Rsum n (fun i => f i j)).
Proof.
  induction n as [|n IH]; simpl.
  - symmetry; apply Rsum_zero; reflexivity.
  - rewrite IH, <- Rsum_plus. reflexivity.
Qed.
Lemma Rsum_abs n f : Rabs (Rsum n f) <= Rsum n (fun i => Rabs (f i)).
Proof.
  induction n as [|n IH]; simpl; [rewrite Rabs_R0; lra|].
  eapply Rle_trans; [apply Rabs_triang|]. lra.
Qed.
Lemma Rsum_split n m f : Rsum (n + m) f = Rsum n f + Rsum m (fun i => f (n + i)%nat).
Proof.
  induction m as [|m IH]; simpl; [rewrite Nat.add_0_r; lra|].
  rewrite Nat.add_succ_r; simpl. rewrite IH; lra.
Qed.

(** A sum of values none of which is infinite, skipping missing ones. *)
Lemma fnansum_Fin n f :
  (forall i, (i < n)%nat -> forall s, f i <> Inf s) ->
  fnansum n f = Fin (Rsum n (fun i => val (f i))).
Proof.
  intros H. unfold fnansum.
  rewrite (fsum_ext n _ (fun i => Fin (val (f i)))); [apply fsum_Fin|].
  intros i Hi. specialize (H i Hi). unfold nan0, fillna.
  destruct (f i) as [|s|x]; simpl; try reflexivity. exfalso; apply (H s); reflexivity.
Qed.
