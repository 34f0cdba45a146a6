(** * ProofsUnits: positive factors pass through the operations on arrays *)
From Coq Require Import Reals Lra Lia ZArith List String Bool Arith FunctionalExtensionality.
From Verif Require Import Num NumFacts Py Arr ArrFacts Derived SpecUnits.
Import ListNotations.
Local Open Scope R_scope.

Lemma Reqb_false' x : x <> 0 -> Reqb x 0 = false.
Proof. intros H. unfold Reqb. destruct (Req_EM_T x 0); [contradiction|reflexivity]. Qed.
Lemma Reqb_scale c x : 0 < c -> Reqb (c * x) 0 = Reqb x 0.
Proof.
  intros P. unfold Reqb. destruct (Req_EM_T x 0) as [->|N], (Req_EM_T (c * _) 0) as [E|E]; try reflexivity.
  - exfalso. apply E. ring.
  - exfalso. apply Rmult_integral in E. destruct E; lra.
Qed.
Lemma Rltb_scale c x : 0 < c -> Rltb (c * x) 0 = Rltb x 0.
Proof.
  intros P. unfold Rltb. destruct (Rlt_dec x 0) as [L|L], (Rlt_dec (c * x) 0) as [E|E]; try reflexivity; exfalso.
  - apply E. replace 0 with (c * 0) by ring. apply Rmult_lt_compat_l; assumption.
  - apply L. apply (Rmult_lt_reg_l c); [exact P|]. rewrite Rmult_0_r. exact E.
Qed.
Lemma Rltb_pos c : 0 < c -> Rltb c 0 = false.
Proof. intros P. unfold Rltb. destruct (Rlt_dec c 0); [lra|reflexivity]. Qed.

Definition fs (c : R) (v : fval) : fval := fmul (Fin c) v.
Lemma fs_eq c v : 0 < c -> fs c v = match v with NaN => NaN | Inf s => Inf s | Fin x => Fin (c * x) end.
Proof.
  intros P. destruct v as [|s|x]; try reflexivity. cbn. rewrite (Reqb_false' c), (Rltb_pos c P) by lra. destruct s; reflexivity.
Qed.

Section Scale.
  Variables (c d : R).
  Hypothesis Pc : 0 < c.
  Hypothesis Pd : 0 < d.
  Ltac go := rewrite ?fs_eq by (try assumption; try (apply Rmult_lt_0_compat; assumption); try (apply Rdiv_lt_0_compat; assumption)).
  Lemma fs_add a b : fadd (fs c a) (fs c b) = fs c (fadd a b).
  Proof using Pc. go. destruct a as [|s|x], b as [|s'|y]; cbn; try reflexivity; [destruct (Bool.eqb s s'); reflexivity|f_equal; ring]. Qed.
  Lemma fs_opp a : fopp (fs c a) = fs c (fopp a).
  Proof using Pc. go. destruct a; cbn; try reflexivity. f_equal; ring. Qed.
  Lemma fs_sub a b : fsub (fs c a) (fs c b) = fs c (fsub a b).
  Proof using Pc. unfold fsub. rewrite fs_opp. apply fs_add. Qed.
  Lemma fs_mul a b : fmul (fs c a) (fs d b) = fs (c * d) (fmul a b).
  Proof using Pc Pd.
    go. destruct a as [|s|x], b as [|s'|y]; cbn; rewrite ?Reqb_scale, ?Rltb_scale by assumption; try reflexivity.
    - destruct (Reqb y 0); reflexivity.
    - destruct (Reqb x 0); reflexivity.
    - f_equal. ring.
  Qed.
  Lemma fs_div a b : fdiv (fs c a) (fs d b) = fs (c / d) (fdiv a b).
  Proof using Pc Pd.
    go. destruct a as [|s|x], b as [|s'|y]; cbn; rewrite ?Reqb_scale, ?Rltb_scale by assumption; try reflexivity.
    - f_equal. ring.
    - destruct (Reqb y 0) eqn:E; [destruct (Reqb x 0); reflexivity|]. f_equal.
      unfold Reqb in E. destruct (Req_EM_T y 0); [discriminate|]. field. split; [assumption|lra].
  Qed.
  Lemma fs_abs a : fabs (fs c a) = fs c (fabs a).
  Proof using Pc. go. destruct a; cbn; try reflexivity. f_equal. rewrite Rabs_mult, (Rabs_pos_eq c); [reflexivity|lra]. Qed.
  Lemma fs_sqrt a : fsqrt (fs c a) = fs (sqrt c) (fsqrt a).
  Proof using Pc.
    rewrite (fs_eq c) by assumption. rewrite fs_eq by (apply sqrt_lt_R0; assumption).
    destruct a as [|s|x]; cbn; [reflexivity|destruct s; reflexivity|]. rewrite Rltb_scale by assumption.
    destruct (Rltb x 0); [reflexivity|]. f_equal. apply sqrt_mult_alt. lra.
  Qed.
  Lemma fs_isnull a : isnull (fs c a) = isnull a.
  Proof using Pc. go. destruct a; reflexivity. Qed.
  Lemma fs_nan0 a : nan0 (fs c a) = fs c (nan0 a).
  Proof using Pc. go. destruct a; cbn; try reflexivity. f_equal; ring. Qed.
  Lemma fs_sum n f : fsum n (fun k => fs c (f k)) = fs c (fsum n f).
  Proof using Pc. induction n as [|n IH]; cbn [fsum]; [go; cbn; f_equal; ring|]. rewrite IH. apply fs_add. Qed.
  Lemma fs_zero : fs c (Fin 0) = Fin 0.
  Proof using Pc. go. f_equal; ring. Qed.

  Lemma map2_scale f k a b : (forall x y, f (fs c x) (fs d y) = fs k (f x y)) ->
    amap2 f (rescale c a) (rescale d b) = res_map (rescale k) (amap2 f a b).
  Proof using Type.
    intros H. unfold amap2. cbn [rescale adims]. destruct (compatible (adims a) (adims b)); [|reflexivity]. cbn [res_map].
    f_equal. unfold rescale. f_equal. apply functional_extensionality. intros e. cbn. apply H.
  Qed.
  Lemma sum1_scale q a : sum1 q (rescale c a) = rescale c (sum1 q a).
  Proof using Pc.
    unfold sum1, rescale. cbn [adims at_]. f_equal. apply functional_extensionality. intros e.
    apply (fs_sum (size_of q a) (fun i => at_ a (upd e q i))).
  Qed.
  Lemma sums_scale qs a : fold_left (fun acc q => sum1 q acc) qs (amap nan0 (rescale c a)) =
    rescale c (fold_left (fun acc q => sum1 q acc) qs (amap nan0 a)).
  Proof using Pc.
    assert (E : amap nan0 (rescale c a) = rescale c (amap nan0 a)).
    { unfold amap, rescale. cbn [adims at_]. f_equal. apply functional_extensionality. intros e. apply fs_nan0. }
    rewrite E. generalize (amap nan0 a). induction qs as [|q qs IH]; intros b; [reflexivity|]. cbn [fold_left].
    rewrite sum1_scale. apply IH.
  Qed.
  Lemma asum_scale qs a : asum qs (rescale c a) = res_map (rescale c) (asum qs a).
  Proof using Pc. unfold asum. cbn [rescale]. change (forallb (fun q => has_dim q (rescale c a)) qs) with (forallb (fun q => has_dim q a) qs).
    destruct (forallb _ _); [|reflexivity]. cbn [res_map]. f_equal. apply sums_scale. Qed.
  Lemma asum_all_scale a : asum_all (rescale c a) = rescale c (asum_all a).
  Proof using Pc. unfold asum_all. apply sums_scale. Qed.
  Lemma map_scale g k a : (forall x, g (fs c x) = fs k (g x)) -> amap g (rescale c a) = rescale k (amap g a).
  Proof using Type. intros H. unfold amap, rescale. cbn [adims at_]. f_equal. apply functional_extensionality. intros e. apply H. Qed.
  Lemma xg_scale op sym ce co a : (forall x y, op (fs c x) (fs c y) = fs c (op x y)) ->
    xg_op op sym ce co (rescale c a) = res_map (rescale c) (xg_op op sym ce co a).
  Proof using Pc.
    intros H. unfold xg_op. cbn [rescale adims]. destruct (dget ce (adims a)) as [n|]; [|reflexivity]. cbn [res_map]. f_equal.
    unfold rename_dim, rescale. cbn [adims at_]. f_equal. apply functional_extensionality. intros e.
    match goal with |- _ = fmul (Fin c) (op ?x ?y) => change (fmul (Fin c) (op x y)) with (fs c (op x y)); rewrite <- (H x y) end.
    f_equal; unfold xg_left, xg_right, center_val; destruct sym; repeat match goal with
      | |- context [match ?x with _ => _ end] => destruct x end; try reflexivity; symmetry; apply fs_zero.
  Qed.
End Scale.

Lemma rescale_id c a : c = 1 -> rescale c a = a.
Proof.
  intros ->. destruct a as [ds f]. unfold rescale. cbn. f_equal. apply functional_extensionality. intros e.
  change (fs 1 (f e) = f e). rewrite fs_eq by lra. destruct (f e); try reflexivity. f_equal; ring.
Qed.

(** Powers. *)
Lemma change_pos l t m u : 0 < l -> 0 < t -> 0 < m -> 0 < change l t m u.
Proof. intros. unfold change. repeat apply Rmult_lt_0_compat; apply powerRZ_lt; assumption. Qed.
