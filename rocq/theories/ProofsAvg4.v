(** * ProofsAvg4: averages over time are linear and monotone *)
From Coq Require Import Reals ZArith List String Bool Arith Lia Lra.
From Verif Require Import Num NumFacts Py Arr ArrFacts Calendar TimeAvg SpecTime ProofsCal ProofsUtil ProofsAvg ProofsAvg2 ProofsAvg3.
Import ListNotations.
Local Open Scope R_scope.

(** Both missing or both finite. *)
Definition alike (x y : fval) : Prop := (x = NaN /\ y = NaN) \/ exists u v, x = Fin u /\ y = Fin v.
(** Both missing, or finite and in order. *)
Definition below (x y : fval) : Prop := (x = NaN /\ y = NaN) \/ exists u v, x = Fin u /\ y = Fin v /\ u <= v.

Definition wt (w : nat -> R) (x : nat -> fval) (i : nat) : R := if notnull (x i) then w i else 0.
Definition wv (w : nat -> R) (x : nat -> fval) (i : nat) : R := if notnull (x i) then w i * val (x i) else 0.
Definition avg (w : nat -> R) (x : nat -> fval) (ps : list nat) : fval :=
  if Reqb (LS (wt w x) ps) 0 then NaN else Fin (LS (wv w x) ps / LS (wt w x) ps).

Lemma lsum_LS (f : nat -> fval) (g : nat -> R) ps : (forall i, In i ps -> f i = Fin (g i)) -> lsum (map f ps) = Fin (LS g ps).
Proof.
  intros H. induction ps as [|p ps IH]; [reflexivity|]. unfold LS. cbn [map lsum fold_right]. fold (lsum (map f ps)). fold (LS g ps).
  rewrite (H p (or_introl eq_refl)), IH; [reflexivity|]. intros i I. apply H. right. exact I.
Qed.

Lemma wmean_avg w x ps : (forall i, In i ps -> not_inf (x i)) -> wmean (map (fun i => (w i, x i)) ps) = avg w x ps.
Proof.
  intros H. unfold wmean, avg. rewrite !map_map. cbn [fst snd].
  rewrite (lsum_LS _ (wt w x)).
  - rewrite (lsum_LS _ (wv w x)).
    + cbn [feqb fdiv]. destruct (Reqb (LS (wt w x) ps) 0); reflexivity.
    + intros i I. specialize (H i I). unfold wv, nan0, fillna. destruct (x i); cbn in *; [f_equal; ring|contradiction|reflexivity].
  - intros i I. specialize (H i I). unfold wt. destruct (x i); cbn in *; [f_equal; ring|contradiction|f_equal; ring].
Qed.

Lemma LS_count x ps : LS (wt (fun _ => 1) x) ps = INR (List.length (valid (map x ps))).
Proof.
  induction ps as [|p ps IH]; [reflexivity|]. unfold LS in *. cbn [map fold_right valid filter]. rewrite IH. unfold wt.
  destruct (notnull (x p)); [cbn [List.length]; rewrite S_INR; unfold valid; lra|unfold valid; lra].
Qed.

Lemma LS_none (w : nat -> R) x ps : (forall i, In i ps -> 0 < w i) -> LS (wt w x) ps = 0 -> forall i, In i ps -> notnull (x i) = false.
Proof.
  intros P. assert (N : forall l, (forall i, In i l -> 0 < w i) -> 0 <= LS (wt w x) l).
  { induction l as [|p l IH]; intros Q; unfold LS in *; cbn [map fold_right]; [lra|].
    specialize (IH (fun i I => Q i (or_intror I))). specialize (Q p (or_introl eq_refl)). unfold wt at 1. destruct (notnull (x p)); lra. }
  induction ps as [|p ps IH]; intros E i I; [destruct I|].
  pose proof (N ps (fun i I => P i (or_intror I))) as N1. pose proof (P p (or_introl eq_refl)) as P1.
  assert (C : LS (wt w x) (p :: ps) = wt w x p + LS (wt w x) ps) by reflexivity. rewrite C in E. unfold wt at 1 in E.
  destruct (notnull (x p)) eqn:X; [lra|]. destruct I as [<-|I]; [exact X|]. apply IH; [intros j J; apply P; right; exact J|lra|exact I].
Qed.

Lemma lmean_avg x ps : (forall i, In i ps -> not_inf (x i)) -> lmean (map x ps) = avg (fun _ => 1) x ps.
Proof.
  intros H. unfold lmean, avg. rewrite <- LS_count, map_map.
  rewrite (lsum_LS _ (wv (fun _ => 1) x)).
  - cbn [fdiv]. destruct (Reqb (LS (wt (fun _ => 1) x) ps) 0) eqn:E; [|reflexivity].
    apply Reqb_true in E. rewrite LS_zero; [rewrite (proj2 (Reqb_true 0 0) eq_refl); reflexivity|].
    intros i I. unfold wv. rewrite (LS_none (fun _ => 1) x ps) by (try assumption; intros; lra). reflexivity.
  - intros i I. specialize (H i I). unfold wv, nan0, fillna. destruct (x i); cbn in *; [reflexivity|contradiction|f_equal; ring].
Qed.

Lemma LS_scale {A} (f : A -> R) k l : LS (fun x => k * f x) l = k * LS f l.
Proof. unfold LS. induction l as [|x l IH]; cbn in *; [lra|rewrite IH; lra]. Qed.
Lemma LS_le {A} (f g : A -> R) l : (forall x, In x l -> f x <= g x) -> LS f l <= LS g l.
Proof.
  intros H. unfold LS. induction l as [|x l IH]; cbn; [lra|]. apply Rplus_le_compat; [apply H; left; reflexivity|apply IH; intros; apply H; right; assumption].
Qed.
Lemma LS_nonneg {A} (f : A -> R) l : (forall x, In x l -> 0 <= f x) -> 0 <= LS f l.
Proof. intros H. replace 0 with (LS (fun _ : A => 0) l) by (apply LS_zero; reflexivity). apply LS_le, H. Qed.

Definition lin (k : R) (u : fval) (l : R) (v : fval) : fval := fadd (fmul (Fin k) u) (fmul (Fin l) v).

Lemma alike_lin k u l v : alike u v -> notnull (lin k u l v) = notnull u /\ notnull v = notnull u /\ not_inf u /\ not_inf v /\ not_inf (lin k u l v) /\
  (notnull u = true -> val (lin k u l v) = k * val u + l * val v).
Proof. intros [[-> ->]|(a & b & -> & ->)]; cbn; repeat split; auto; discriminate. Qed.

Lemma avg_linear w k x l y ps : (forall i, In i ps -> alike (x i) (y i)) ->
  avg w (fun i => lin k (x i) l (y i)) ps = lin k (avg w x ps) l (avg w y ps).
Proof.
  intros H. unfold avg.
  assert (W1 : LS (wt w (fun i => lin k (x i) l (y i))) ps = LS (wt w x) ps).
  { apply LS_ext. intros i I. unfold wt. destruct (alike_lin k (x i) l (y i) (H i I)) as (-> & _). reflexivity. }
  assert (W2 : LS (wt w y) ps = LS (wt w x) ps).
  { apply LS_ext. intros i I. unfold wt. destruct (alike_lin k (x i) l (y i) (H i I)) as (_ & -> & _). reflexivity. }
  rewrite W1, W2. destruct (Reqb (LS (wt w x) ps) 0) eqn:E; [reflexivity|]. apply Reqb_false in E.
  assert (V : LS (wv w (fun i => lin k (x i) l (y i))) ps = k * LS (wv w x) ps + l * LS (wv w y) ps).
  { rewrite <- !LS_scale, <- LS_plus. apply LS_ext. intros i I. unfold wv.
    destruct (alike_lin k (x i) l (y i) (H i I)) as (-> & -> & _ & _ & _ & V). destruct (notnull (x i)); [rewrite V by reflexivity; ring|ring]. }
  rewrite V. cbn. f_equal. field. exact E.
Qed.

Lemma avg_monotone w x y ps : (forall i, In i ps -> 0 <= w i) -> (forall i, In i ps -> below (x i) (y i)) -> below (avg w x ps) (avg w y ps).
Proof.
  intros P H. unfold avg.
  assert (W2 : LS (wt w y) ps = LS (wt w x) ps).
  { apply LS_ext. intros i I. unfold wt. destruct (H i I) as [[-> ->]|(u & v & -> & -> & _)]; reflexivity. }
  rewrite W2. destruct (Reqb (LS (wt w x) ps) 0) eqn:E; [left; split; reflexivity|]. apply Reqb_false in E. right.
  do 2 eexists. split; [reflexivity|]. split; [reflexivity|].
  assert (S0 : 0 <= LS (wt w x) ps) by (apply LS_nonneg; intros i I; unfold wt; specialize (P i I); destruct (notnull (x i)); lra).
  unfold Rdiv. apply Rmult_le_compat_r; [left; apply Rinv_0_lt_compat; lra|].
  apply LS_le. intros i I. unfold wv. specialize (P i I). destruct (H i I) as [[-> ->]|(u & v & -> & -> & L)]; cbn; [lra|nra].
Qed.

Lemma below_alike x y : below x y -> alike x y.
Proof. intros [B|(u & v & A & B & _)]; [left; exact B|right; exists u, v; auto]. Qed.
Lemma alike_not_inf x y : alike x y -> not_inf x /\ not_inf y.
Proof. intros [[-> ->]|(u & v & -> & ->)]; split; exact I. Qed.

Lemma all_missing_dec (x : nat -> fval) ps : (forall i, In i ps -> x i = NaN) \/ exists i, In i ps /\ notnull (x i) = true.
Proof.
  induction ps as [|p ps [IH|(i & I & N)]].
  - left. intros i [].
  - destruct (x p) eqn:E.
    + left. intros i [<-|J]; [exact E|exact (IH i J)].
    + right. exists p. rewrite E. split; [left|]; reflexivity.
    + right. exists p. rewrite E. split; [left|]; reflexivity.
  - right. exists i. split; [right; exact I|exact N].
Qed.

Lemma lbest_monotone (f : list fval -> fval) (x y : nat -> fval) ps : f = lmin \/ f = lmax -> (forall i, In i ps -> below (x i) (y i)) ->
  below (f (map x ps)) (f (map y ps)).
Proof.
  intros F H.
  destruct (all_missing_dec x ps) as [N|(i & I & N)].
  { left. split; destruct F as [-> | ->]; apply lbest_none; intros v J; apply in_map_iff in J as (i & <- & J).
    1, 2: exact (N i J).
    all: destruct (H i J) as [[_ E]|(u & w & E & _)]; [exact E|rewrite (N i J) in E; discriminate]. }
  assert (NI : forall z, In z (map x ps) \/ In z (map y ps) -> not_inf z).
  { intros z [J|J]; apply in_map_iff in J as (j & <- & J); apply (alike_not_inf _ _ (below_alike _ _ (H j J))). }
  assert (Ex : exists v, In v (map x ps) /\ notnull v = true) by (exists (x i); split; [apply in_map; exact I|exact N]).
  assert (Ey : exists v, In v (map y ps) /\ notnull v = true).
  { exists (y i). split; [apply in_map; exact I|]. destruct (H i I) as [[E _]|(u & v & _ & -> & _)]; [rewrite E in N; discriminate|reflexivity]. }
  right. destruct F as [-> | ->].
  - destruct (lmin_spec (map x ps) (fun v J => NI v (or_introl J)) Ex) as (m & A & B & C).
    destruct (lmin_spec (map y ps) (fun v J => NI v (or_intror J)) Ey) as (m' & A' & B' & C').
    exists m, m'. split; [exact A|]. split; [exact A'|]. apply in_map_iff in B' as (j & E & J).
    destruct (H j J) as [[_ E']|(u & v & Eu & Ev & L)]; [congruence|].
    assert (m' = v) by congruence. subst v. pose proof (C u). rewrite <- Eu in H0. specialize (H0 (in_map x ps j J)). lra.
  - destruct (lmax_spec (map x ps) (fun v J => NI v (or_introl J)) Ex) as (m & A & B & C).
    destruct (lmax_spec (map y ps) (fun v J => NI v (or_intror J)) Ey) as (m' & A' & B' & C').
    exists m, m'. split; [exact A|]. split; [exact A'|]. apply in_map_iff in B as (j & E & J).
    destruct (H j J) as [[E' _]|(u & v & Eu & Ev & L)]; [congruence|].
    assert (m = u) by congruence. subst u. pose proof (C' v). rewrite <- Ev in H0. specialize (H0 (in_map y ps j J)). lra.
Qed.

(** Standard deviation of [k * x + c]. *)
Lemma lstd_affine k c (x : nat -> fval) ps : (forall i, In i ps -> not_inf (x i)) ->
  lstd (map (fun i => fadd (fmul (Fin k) (x i)) (Fin c)) ps) = fmul (Fin (Rabs k)) (lstd (map x ps)).
Proof.
  intros H. set (y := fun i => fadd (fmul (Fin k) (x i)) (Fin c)).
  assert (Hy : forall i, In i ps -> not_inf (y i) /\ notnull (y i) = notnull (x i)).
  { intros i I. specialize (H i I). unfold y. destruct (x i); cbn in *; [split; auto|contradiction|split; auto]. }
  unfold lstd. rewrite (lmean_avg x ps H), (lmean_avg y ps (fun i I => proj1 (Hy i I))). cbv zeta. unfold avg.
  assert (W : LS (wt (fun _ => 1) y) ps = LS (wt (fun _ => 1) x) ps).
  { apply LS_ext. intros i I. unfold wt. destruct (Hy i I) as [_ ->]. reflexivity. }
  rewrite W. set (W0 := LS (wt (fun _ => 1) x) ps) in *.
  destruct (Reqb W0 0) eqn:E.
  - rewrite !map_map. 
    rewrite (lmean_avg (fun i => fmul (fsub (y i) NaN) (fsub (y i) NaN))), (lmean_avg (fun i => fmul (fsub (x i) NaN) (fsub (x i) NaN))).
    + unfold avg. assert (Z : forall z : nat -> fval, LS (wt (fun _ => 1) (fun i => fmul (fsub (z i) NaN) (fsub (z i) NaN))) ps = 0).
      { intros z. apply LS_zero. intros i _. unfold wt. destruct (z i); reflexivity. }
      rewrite !Z, (proj2 (Reqb_true 0 0) eq_refl). reflexivity.
    + intros i _. destruct (x i); exact I.
    + intros i _. destruct (y i); exact I.
  - apply Reqb_false in E. rewrite !map_map. set (mx := LS (wv (fun _ => 1) x) ps / W0). set (my := LS (wv (fun _ => 1) y) ps / W0).
    assert (M : my = k * mx + c).
    { unfold my, mx. assert (V : LS (wv (fun _ => 1) y) ps = k * LS (wv (fun _ => 1) x) ps + c * W0).
      { unfold W0. rewrite <- !LS_scale, <- LS_plus. apply LS_ext. intros i I. specialize (H i I). unfold wv, wt, y.
        destruct (x i); cbn in *; [ring|contradiction|ring]. }
      rewrite V. field. exact E. }
    rewrite (lmean_avg (fun i => fmul (fsub (y i) (Fin my)) (fsub (y i) (Fin my)))), (lmean_avg (fun i => fmul (fsub (x i) (Fin mx)) (fsub (x i) (Fin mx)))).
    + unfold avg.
      assert (Wx : LS (wt (fun _ => 1) (fun i => fmul (fsub (x i) (Fin mx)) (fsub (x i) (Fin mx)))) ps = W0).
      { apply LS_ext. intros i I. specialize (H i I). unfold wt. destruct (x i); cbn in *; [reflexivity|contradiction|reflexivity]. }
      assert (Wy : LS (wt (fun _ => 1) (fun i => fmul (fsub (y i) (Fin my)) (fsub (y i) (Fin my)))) ps = W0).
      { rewrite <- W. apply LS_ext. intros i I. destruct (Hy i I) as [N _]. unfold wt. destruct (y i); cbn in *; [reflexivity|contradiction|reflexivity]. }
      rewrite Wx, Wy. destruct (Reqb W0 0) eqn:E'; [apply Reqb_true in E'; contradiction|].
      assert (V : LS (wv (fun _ => 1) (fun i => fmul (fsub (y i) (Fin my)) (fsub (y i) (Fin my)))) ps =
        k * k * LS (wv (fun _ => 1) (fun i => fmul (fsub (x i) (Fin mx)) (fsub (x i) (Fin mx)))) ps).
      { rewrite <- LS_scale. apply LS_ext. intros i I. specialize (H i I). unfold wv, y. rewrite M. destruct (x i); cbn in *; [ring|contradiction|ring]. }
      rewrite V. set (Q := LS (wv (fun _ => 1) (fun i => fmul (fsub (x i) (Fin mx)) (fsub (x i) (Fin mx)))) ps).
      assert (Q0 : 0 <= Q).
      { apply LS_nonneg. intros i I. specialize (H i I). unfold wv. destruct (x i); cbn in *; [lra|contradiction|match goal with |- 0 <= 1 * (?d * ?d) => pose proof (Rle_0_sqr d) as SQ; unfold Rsqr in SQ; lra end]. }
      assert (P0 : 0 < W0).
      { assert (0 <= W0); [|lra]. apply LS_nonneg. intros i I. unfold wt. destruct (notnull (x i)); lra. }
      assert (QW : 0 <= Q / W0) by (apply Rmult_le_pos; [exact Q0|left; apply Rinv_0_lt_compat; exact P0]).
      replace (k * k * Q / W0) with ((Rabs k * Rabs k) * (Q / W0)).
      2: { rewrite <- Rabs_mult, Rabs_pos_eq by nra. field. lra. }
      rewrite (fsqrt_Fin (Q / W0) QW), fsqrt_Fin by (apply Rmult_le_pos; [apply Rmult_le_pos; apply Rabs_pos|exact QW]).
      rewrite sqrt_mult, sqrt_square by (try exact QW; try apply Rabs_pos; apply Rmult_le_pos; apply Rabs_pos). reflexivity.
    + intros i I. specialize (H i I). destruct (x i); cbn in *; auto.
    + intros i I. destruct (Hy i I) as [N _]. destruct (y i); cbn in *; auto.
Qed.
