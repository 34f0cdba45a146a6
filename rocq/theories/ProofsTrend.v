(** * ProofsTrend: least squares with two columns, and the degree-one fit *)
From Coq Require Import Reals ZArith List String Bool Arith Lia Lra Psatz.
From Verif Require Import Num NumFacts Py Arr ArrFacts Trend SpecTime ProofsUtil.
Import ListNotations.
Local Open Scope R_scope.

Notation SL := Rsum_list.

Lemma SL_ext f g l : (forall i, In i l -> f i = g i) -> SL f l = SL g l.
Proof.
  induction l as [|x l IH]; intros H; [reflexivity|]. cbn [Rsum_list fold_right].
  rewrite (H x) by (left; reflexivity). f_equal. apply IH. intros i Hi. apply H. right; exact Hi.
Qed.
Lemma SL_plus f g l : SL (fun i => f i + g i) l = SL f l + SL g l.
Proof. induction l as [|x l IH]; cbn; [lra|]. unfold SL in IH. rewrite IH. lra. Qed.
Lemma SL_scal c f l : SL (fun i => c * f i) l = c * SL f l.
Proof. induction l as [|x l IH]; cbn; [lra|]. unfold SL in IH. rewrite IH. lra. Qed.
Lemma SL_minus f g l : SL (fun i => f i - g i) l = SL f l - SL g l.
Proof. induction l as [|x l IH]; cbn; [lra|]. unfold SL in IH. rewrite IH. lra. Qed.
Lemma SL_zero l : SL (fun _ => 0) l = 0.
Proof. induction l as [|x l IH]; cbn; [lra|]. unfold SL in IH. rewrite IH. lra. Qed.
Lemma SL_nonneg f l : (forall i, In i l -> 0 <= f i) -> 0 <= SL f l.
Proof.
  induction l as [|x l IH]; intros H; cbn; [lra|]. assert (0 <= f x) by (apply H; left; reflexivity).
  assert (0 <= SL f l) by (apply IH; intros i Hi; apply H; right; exact Hi). unfold SL in *. lra.
Qed.
Lemma SL_zero_all f l : (forall i, In i l -> 0 <= f i) -> SL f l = 0 -> forall i, In i l -> f i = 0.
Proof.
  induction l as [|x l IH]; intros H Z i Hi; [destruct Hi|]. cbn in Z.
  assert (0 <= f x) by (apply H; left; reflexivity).
  assert (0 <= SL f l) by (apply SL_nonneg; intros j Hj; apply H; right; exact Hj). unfold SL in *.
  destruct Hi as [<- | Hi]; [lra|]. apply IH; [intros j Hj; apply H; right; exact Hj | lra | exact Hi].
Qed.
Lemma SL_sq_zero f l : SL (fun i => f i * f i) l = 0 -> forall i, In i l -> f i = 0.
Proof.
  intros H i Hi. assert (f i * f i = 0) as Z by (apply (SL_zero_all (fun i => f i * f i) l); auto; intros; apply Rle_0_sqr).
  apply Rmult_integral in Z. tauto.
Qed.

Lemma SL_quad al be u v l : SL (fun i => (al * u i - be * v i) * (al * u i - be * v i)) l
  = al * al * SL (fun i => u i * u i) l - 2 * (al * be) * SL (fun i => u i * v i) l + be * be * SL (fun i => v i * v i) l.
Proof. rewrite <- !SL_scal, <- SL_minus, <- SL_plus. apply SL_ext. intros; ring. Qed.

(** Normal equations hold in every case, dependent columns included. *)
Lemma lstsq2_normal l u v y : let '(c1, c2) := lstsq2 l u v y in
  SL (fun i => u i * (y i - (c1 * u i + c2 * v i))) l = 0 /\ SL (fun i => v i * (y i - (c1 * u i + c2 * v i))) l = 0.
Proof.
  unfold lstsq2.
  set (a := SL (fun i => u i * u i) l). set (b := SL (fun i => u i * v i) l). set (d := SL (fun i => v i * v i) l).
  set (p := SL (fun i => u i * y i) l). set (q := SL (fun i => v i * y i) l).
  assert (E1 : forall c1 c2, SL (fun i => u i * (y i - (c1 * u i + c2 * v i))) l = p - (c1 * a + c2 * b)).
  { intros c1 c2. unfold p, a, b. rewrite <- !SL_scal, <- SL_plus, <- SL_minus. apply SL_ext. intros; ring. }
  assert (E2 : forall c1 c2, SL (fun i => v i * (y i - (c1 * u i + c2 * v i))) l = q - (c1 * b + c2 * d)).
  { intros c1 c2. unfold q, d, b. rewrite <- !SL_scal, <- SL_plus, <- SL_minus. apply SL_ext. intros; ring. }
  destruct (Reqb (a * d - b * b) 0) eqn:D.
  - apply Reqb_true in D.
    (* d u = b v and a v = b u at every row *)
    assert (U : forall i, In i l -> d * u i - b * v i = 0).
    { apply SL_sq_zero. rewrite SL_quad. change (d * d * a - 2 * (d * b) * b + b * b * d = 0).
      transitivity (d * (a * d - b * b)); [ring|rewrite D; ring]. }
    assert (W : forall i, In i l -> a * v i - b * u i = 0).
    { apply SL_sq_zero. rewrite SL_quad.
      assert (SL (fun i => v i * u i) l = b) as -> by (apply SL_ext; intros; ring).
      change (a * a * d - 2 * (a * b) * b + b * b * a = 0). transitivity (a * (a * d - b * b)); [ring|rewrite D; ring]. }
    assert (P1 : d * p - b * q = 0).
    { transitivity (SL (fun i => (d * u i - b * v i) * y i) l).
      - unfold p, q. rewrite <- (SL_scal d), <- (SL_scal b), <- SL_minus. apply SL_ext. intros; ring.
      - rewrite <- (SL_zero l). apply SL_ext. intros i Hi. rewrite U by exact Hi. ring. }
    assert (P2 : a * q - b * p = 0).
    { transitivity (SL (fun i => (a * v i - b * u i) * y i) l).
      - unfold p, q. rewrite <- (SL_scal a), <- (SL_scal b), <- SL_minus. apply SL_ext. intros; ring.
      - rewrite <- (SL_zero l). apply SL_ext. intros i Hi. rewrite W by exact Hi. ring. }
    destruct (Reqb (a + d) 0) eqn:T.
    + apply Reqb_true in T.
      assert (0 <= a) by (apply SL_nonneg; intros; apply Rle_0_sqr).
      assert (0 <= d) by (apply SL_nonneg; intros; apply Rle_0_sqr).
      assert (a = 0) as A0 by lra. assert (d = 0) as D0 by lra.
      rewrite E1, E2. 
      assert (p = 0) as ->.
      { unfold p. rewrite <- (SL_zero l). apply SL_ext. intros i Hi. rewrite (SL_sq_zero u l A0 i Hi). ring. }
      assert (q = 0) as ->.
      { unfold q. rewrite <- (SL_zero l). apply SL_ext. intros i Hi. rewrite (SL_sq_zero v l D0 i Hi). ring. }
      split; ring.
    + apply Reqb_false in T. rewrite E1, E2. split.
      * replace (p - (p / (a + d) * a + q / (a + d) * b)) with ((d * p - b * q) / (a + d)) by (field; exact T). rewrite P1. field. exact T.
      * replace (q - (p / (a + d) * b + q / (a + d) * d)) with ((a * q - b * p) / (a + d)) by (field; exact T). rewrite P2. field. exact T.
  - apply Reqb_false in D. rewrite E1, E2. split; field; exact D.
Qed.

(** Orthogonal residuals give the zero fit. *)
Lemma lstsq2_orth l u v y : SL (fun i => u i * y i) l = 0 -> SL (fun i => v i * y i) l = 0 -> lstsq2 l u v y = (0, 0).
Proof.
  intros P Q. unfold lstsq2. rewrite P, Q.
  destruct (Reqb _ 0) eqn:D.
  - destruct (Reqb (_ + _) 0); [reflexivity|]. f_equal; unfold Rdiv; ring.
  - f_equal; unfold Rdiv; ring.
Qed.

(** The fitted values are determined by the normal equations. *)
Lemma fitted_unique l (u v y : nat -> R) c1 c2 d1 d2 :
  SL (fun i => u i * (y i - (c1 * u i + c2 * v i))) l = 0 -> SL (fun i => v i * (y i - (c1 * u i + c2 * v i))) l = 0 ->
  SL (fun i => u i * (y i - (d1 * u i + d2 * v i))) l = 0 -> SL (fun i => v i * (y i - (d1 * u i + d2 * v i))) l = 0 ->
  forall i, In i l -> c1 * u i + c2 * v i = d1 * u i + d2 * v i.
Proof.
  intros A B C D. assert (Z : forall i, In i l -> (c1 - d1) * u i + (c2 - d2) * v i = 0).
  { apply SL_sq_zero.
    transitivity ((c1 - d1) * (SL (fun i => u i * (y i - (d1 * u i + d2 * v i))) l - SL (fun i => u i * (y i - (c1 * u i + c2 * v i))) l)
                  + (c2 - d2) * (SL (fun i => v i * (y i - (d1 * u i + d2 * v i))) l - SL (fun i => v i * (y i - (c1 * u i + c2 * v i))) l)).
    - rewrite <- !SL_minus, <- !SL_scal, <- SL_plus. apply SL_ext. intros; ring.
    - rewrite A, B, C, D. ring. }
  intros i Hi. specialize (Z i Hi). lra.
Qed.

Lemma SL_cons f i l : SL f (i :: l) = f i + SL f l.
Proof. reflexivity. Qed.
Lemma SL_app f l1 l2 : SL f (l1 ++ l2) = SL f l1 + SL f l2.
Proof. induction l1 as [|i l1 IH]; [symmetry; apply Rplus_0_l|]. cbn [app]. rewrite !SL_cons, IH. lra. Qed.

Lemma SL_filter n (p : nat -> bool) f : SL f (filter p (seq 0 n)) = Sum_if n p f.
Proof.
  assert (G : forall l, SL f (filter p l) = SL (fun i => if p i then f i else 0) l).
  { induction l as [|x l IH]; [reflexivity|]. cbn [filter]. rewrite SL_cons. destruct (p x); [rewrite SL_cons|]; rewrite IH; lra. }
  rewrite G. unfold Sum_if. induction n as [|n IH]; [reflexivity|].
  rewrite seq_S, SL_app, SL_cons. cbn [Rsum plus]. rewrite <- IH. cbn [Rsum_list fold_right]. lra.
Qed.

(** ** The fit of one series *)
Section Fit.
  Variables (n : nat) (x : nat -> R) (y : nat -> fval).
  Let ok i := notnull (y i).
  Hypothesis Hx : SL (fun i => x i * x i) (seq 0 n) <> 0.
  Hypothesis Hinf : forall i, (i < n)%nat -> not_inf (y i).

  Lemma scale1_pos : 0 < sqrt (SL (fun i => x i * x i) (seq 0 n)).
  Proof.
    apply sqrt_lt_R0. assert (0 <= SL (fun i => x i * x i) (seq 0 n)) by (apply SL_nonneg; intros; apply Rle_0_sqr). lra.
  Qed.
  Lemma n_pos : (0 < n)%nat.
  Proof. destruct n; [exfalso; apply Hx; reflexivity | lia]. Qed.
  Lemma scale0_pos : 0 < sqrt (SL (fun _ => 1) (seq 0 n)).
  Proof.
    apply sqrt_lt_R0. pose proof n_pos. destruct n as [|k]; [lia|]. cbn [seq Rsum_list fold_right].
    assert (0 <= SL (fun _ => 1) (seq 1 k)) by (apply SL_nonneg; intros; lra). unfold SL in *. lra.
  Qed.

  Lemma rows_fin : forallb (fun i => is_fin (y i)) (valid_rows n y) = true.
  Proof.
    apply forallb_forall. intros i Hi. apply filter_In in Hi. destruct Hi as [Hi H]. apply in_seq in Hi.
    specialize (Hinf i ltac:(lia)). destruct (y i); [discriminate|destruct Hinf|reflexivity].
  Qed.

  Lemma fit_ok : valid_rows n y <> [] -> exists m b, polyfit1 n x y = (Fin m, Fin b) /\
    Sum_if n ok (fun i => val (y i) - (m * x i + b)) = 0 /\
    Sum_if n ok (fun i => x i * (val (y i) - (m * x i + b))) = 0 /\
    (Sum_if n ok (fun i => val (y i)) = 0 -> Sum_if n ok (fun i => x i * val (y i)) = 0 -> m = 0 /\ b = 0).
  Proof.
    intros Hr. unfold polyfit1. pose proof scale1_pos as S1. pose proof scale0_pos as S0. pose proof rows_fin as RF.
    set (s1 := sqrt (SL (fun i => x i * x i) (seq 0 n))) in *. set (s0 := sqrt (SL (fun _ => 1) (seq 0 n))) in *.
    destruct (valid_rows n y) as [|r0 rs] eqn:E; [contradiction|]. rewrite RF. rewrite <- E in *. clear E RF.
    pose proof (lstsq2_normal (valid_rows n y) (fun i => x i / s1) (fun _ => 1 / s0) (fun i => fval_R (y i))) as N.
    pose proof (lstsq2_orth (valid_rows n y) (fun i => x i / s1) (fun _ => 1 / s0) (fun i => fval_R (y i))) as O.
    destruct (lstsq2 _ _ _ _) as [c1 c0]. destruct N as [N1 N2].
    exists (c1 / s1), (c0 / s0). split; [reflexivity|].
    change fval_R with val in *.
    rewrite <- !SL_filter. change (filter ok (seq 0 n)) with (valid_rows n y).
    split; [|split].
    - transitivity (s0 * SL (fun i => 1 / s0 * (val (y i) - (c1 * (x i / s1) + c0 * (1 / s0)))) (valid_rows n y)).
      + rewrite <- SL_scal. apply SL_ext. intros i _. field. lra.
      + rewrite N2. ring.
    - transitivity (s1 * SL (fun i => x i / s1 * (val (y i) - (c1 * (x i / s1) + c0 * (1 / s0)))) (valid_rows n y)).
      + rewrite <- SL_scal. apply SL_ext. intros i _. field. lra.
      + rewrite N1. ring.
    - intros A B. assert ((c1, c0) = (0, 0)) as Z.
      { apply O.
        - transitivity (1 / s1 * SL (fun i => x i * val (y i)) (valid_rows n y)).
          + rewrite <- SL_scal. apply SL_ext. intros i _. field. lra.
          + rewrite B. ring.
        - transitivity (1 / s0 * SL (fun i => val (y i)) (valid_rows n y)).
          + rewrite <- SL_scal. apply SL_ext. intros i _. field. lra.
          + rewrite A. ring. }
      injection Z as -> ->. unfold Rdiv. split; ring.
  Qed.

  Lemma fit_none : valid_rows n y = [] -> polyfit1 n x y = (NaN, NaN).
  Proof. intros E. unfold polyfit1. rewrite E. reflexivity. Qed.
End Fit.
