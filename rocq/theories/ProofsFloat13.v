(** * ProofsFloat13: a sharper error bound for the density of single precision temperature and
    salinity, and the local steric height computed from it (proofs only) *)
From Coq Require Import Reals Lra Lia QArith Qreals List ZArith Bool Permutation.
From Flocq Require Import Core IEEE754.BinarySingleNaN.
From Verif Require Import SpecFloat64 Ieee ProofsFloat ProofsFloat2 ProofsIeee ProofsFloat3 SpecEos ProofsEos ProofsEosBox.
Import ListNotations.
Local Open Scope R_scope.

(** Range of the exact value and error, found by evaluation; all numbers in units of [/ 10^k]. *)
Definition ranges (box : nat -> bnd) (e : expr) (l h num k : Z) : bool :=
  match bound box e with
  | Some r => ((l * one <=? lo r * 10 ^ k) && (hi r * 10 ^ k <=? h * one) && (er r * 10 ^ k <=? num * one))%Z
  | None => false
  end.
Lemma fx_le a b k : (0 <= k)%Z -> (a * 10 ^ k <=? b * one)%Z = true -> fx a <= IZR b / IZR (10 ^ k).
Proof.
  intros Hk H. apply Z.leb_le, IZR_le in H. rewrite !mult_IZR in H.
  assert (P : 0 < IZR (10 ^ k)) by (apply IZR_lt, Z.pow_pos_nonneg; lia). assert (O := one_pos).
  unfold fx. apply Rmult_le_reg_r with (IZR one * IZR (10 ^ k)); [apply Rmult_lt_0_compat; assumption|].
  replace (IZR a / IZR one * (IZR one * IZR (10 ^ k))) with (IZR a * IZR (10 ^ k)) by (field; lra).
  replace (IZR b / IZR (10 ^ k) * (IZR one * IZR (10 ^ k))) with (IZR b * IZR one) by (field; lra). exact H.
Qed.
Lemma fx_ge a b k : (0 <= k)%Z -> (b * one <=? a * 10 ^ k)%Z = true -> IZR b / IZR (10 ^ k) <= fx a.
Proof.
  intros Hk H. apply Z.leb_le, IZR_le in H. rewrite !mult_IZR in H.
  assert (P : 0 < IZR (10 ^ k)) by (apply IZR_lt, Z.pow_pos_nonneg; lia). assert (O := one_pos).
  unfold fx. apply Rmult_le_reg_r with (IZR one * IZR (10 ^ k)); [apply Rmult_lt_0_compat; assumption|].
  replace (IZR a / IZR one * (IZR one * IZR (10 ^ k))) with (IZR a * IZR (10 ^ k)) by (field; lra).
  replace (IZR b / IZR (10 ^ k) * (IZR one * IZR (10 ^ k))) with (IZR b * IZR one) by (field; lra). exact H.
Qed.
Lemma ranges_sound box env e l h num k : (0 <= k)%Z -> (forall i, within (box i) (env i) (env i)) -> ranges box e l h num k = true ->
  IZR l / IZR (10 ^ k) <= exact env e <= IZR h / IZR (10 ^ k)
  /\ Rabs (computed env e - exact env e) <= IZR num / IZR (10 ^ k) /\ all_in_range env e.
Proof.
  intros Hk W H. unfold ranges in H. destruct (bound box e) as [r|] eqn:E; [|discriminate].
  apply andb_prop in H as [H H3]. apply andb_prop in H as [H1 H2].
  destruct (bound_sound e env box r W E) as [[[L U] D] A].
  assert (L' := fx_ge _ _ _ Hk H1). assert (U' := fx_le _ _ _ Hk H2). assert (D' := fx_le _ _ _ Hk H3).
  split; [lra|]. split; [lra|exact A].
Qed.

(** Errors of the three fields through the specific volume [a + l / (r + q)]. *)
Lemma volume_close r a q l x y z c : 0 <= r <= 120000000 ->
  0.0007004 <= a <= 0.00072 -> 571880000 <= q <= 747937000 -> 159202 <= l <= 202752 ->
  - 131 / 1000000000000 <= x - a <= 131 / 1000000000000 -> - 167.3 <= y - q <= 167.3 -> - 0.0446 <= z - l <= 0.0446 ->
  980 < (r + q) / (l + a * (r + q)) < 1100 ->
  Rabs (c - (r + y) / (z + x * (r + y))) <= 15 / 10000000000000 ->
  Rabs (c - (r + q) / (l + a * (r + q))) <= 38 / 100000.
Proof.
  intros Hr Ha Hq Hl Hx Hy Hz HR Hc. set (P := r + q) in *. set (P' := r + y) in *.
  assert (HP : 571880000 <= P) by (unfold P; lra). assert (HP' : 571879832 <= P') by (unfold P'; lra).
  set (v := a + l / P). set (v' := x + z / P').
  assert (D : 0 < l + a * P) by (assert (0 < a * P) by (apply Rmult_lt_0_compat; lra); lra).
  assert (D' : 0 < z + x * P') by (assert (0 < x * P') by (apply Rmult_lt_0_compat; lra); lra).
  assert (R : P / (l + a * P) = / v) by (unfold v; field; lra).
  assert (R' : P' / (z + x * P') = / v') by (unfold v'; field; lra).
  rewrite R in *. rewrite R' in *. clear R R'.
  assert (V0 : 0 < v).
  { unfold v. assert (0 < l / P) by (apply Rdiv_lt_0_compat; lra). lra. }
  assert (V1 : / 1100 < v).
  { rewrite <- (Rinv_inv v). apply Rinv_lt_contravar; [|lra]. apply Rmult_lt_0_compat; lra. }
  assert (I1 : 0 < / P <= / 571880000) by (split; [apply Rinv_0_lt_compat|apply Rinv_le_contravar]; lra).
  assert (I2 : 0 < / P' <= / 571879832) by (split; [apply Rinv_0_lt_compat|apply Rinv_le_contravar]; lra).
  assert (Q1 : Rabs ((z - l) * / P') <= 0.0446 * / 571879832).
  { rewrite Rabs_mult, (Rabs_right (/ P')) by lra. apply Rmult_le_compat; try lra; [apply Rabs_pos|apply Rabs_le; lra]. }
  assert (Q2 : Rabs (l * (q - y) * (/ P * / P')) <= 202752 * 167.3 * (/ 571880000 * / 571879832)).
  { rewrite !Rabs_mult, (Rabs_right l), (Rabs_right (/ P)), (Rabs_right (/ P')) by lra.
    apply Rmult_le_compat.
    - apply Rmult_le_pos; [lra|apply Rabs_pos].
    - apply Rmult_le_pos; lra.
    - apply Rmult_le_compat; try lra; [apply Rabs_pos|apply Rabs_le; lra].
    - apply Rmult_le_compat; lra. }
  assert (DV : Rabs (v' - v) <= 3.13e-10).
  { replace (v' - v) with ((x - a) + ((z - l) * / P' + l * (q - y) * (/ P * / P'))).
    2:{ unfold v, v', P, P'. fold P P'. replace (q - y) with (P - P') by (unfold P, P'; ring). field. lra. }
    eapply Rle_trans; [apply Rabs_triang|]. assert (T := Rabs_triang ((z - l) * / P') (l * (q - y) * (/ P * / P'))).
    assert (Rabs (x - a) <= 131 / 1000000000000) by (apply Rabs_le; lra). lra. }
  apply Rabs_le_inv in DV.
  assert (W : / v' <= 1100.1).
  { rewrite <- (Rinv_inv 1100.1). apply Rinv_le_contravar; lra. }
  assert (W0 : 0 < / v') by (apply Rinv_0_lt_compat; lra).
  assert (E : Rabs (/ v' - / v) <= 3.13e-10 * (1100.1 * 1100)).
  { replace (/ v' - / v) with ((v - v') * (/ v' * / v)) by (field; lra).
    rewrite Rabs_mult. apply Rmult_le_compat; try apply Rabs_pos; [apply Rabs_le; lra|].
    rewrite Rabs_right by (apply Rle_ge, Rmult_le_pos; lra). apply Rmult_le_compat; lra. }
  replace (c - / v) with ((c - / v') + (/ v' - / v)) by ring.
  eapply Rle_trans; [apply Rabs_triang|]. lra.
Qed.

(** The three fields that do not involve the pressure. *)
Lemma fields32_close (T S : f32) : is_finite T = true -> is_finite S = true -> -2 <= B2R T <= 40 -> 0 <= B2R S <= 42 ->
  let a := wr_alpha0 (B2R T) (B2R S) in let q := wr_p0 (B2R T) (B2R S) in let l := wr_lambda (B2R T) (B2R S) in
  let a' := widen (al0_32 T S) in let q' := widen (p0_32 T S) in let l' := widen (lam_32 T S) in
  (0.0007004 <= a <= 0.00072 /\ 571880000 <= q <= 747937000 /\ 159202 <= l <= 202752) /\
  (is_finite a' = true /\ is_finite q' = true /\ is_finite l' = true) /\
  0.0007 <= B2R a' <= 0.0007199 /\
  - 131 / 1000000000000 <= B2R a' - a <= 131 / 1000000000000 /\ - 167.3 <= B2R q' - q <= 167.3 /\ - 0.0446 <= B2R l' - l <= 0.0446.
Proof.
  intros FT FS HT HS a q l a' q' l'. set (env := env3 (B2R T) (B2R S) (B2R zero)).
  assert (B : ocean_box (B2R T) (B2R S) (B2R zero)) by (unfold ocean_box; cbn [B2R zero]; lra).
  assert (W := box3_ok _ _ _ B). fold env in W.
  destruct (ranges_sound box3 env (e_al0 F32 xT xS) 700422854 719713745 131 12 ltac:(lia) W ltac:(vm_compute; reflexivity)) as (Ra & Ea & Aa).
  destruct (ranges_sound box3 env (e_p0 F32 xT xS) 571880053942399999 747936906752000001 167300000000 9 ltac:(lia) W ltac:(vm_compute; reflexivity)) as (Rq & Eq & Aq).
  destruct (ranges_sound box3 env (e_lam F32 xT xS) 159202943059 202751166804 44600 6 ltac:(lia) W ltac:(vm_compute; reflexivity)) as (Rl & El & Al).
  destruct (ts_al0 T S zero FT FS Aa) as [Fa Va]. destruct (ts_p0 T S zero FT FS Aq) as [Fq Vq]. destruct (ts_lam T S zero FT FS Al) as [Fl Vl].
  assert (Xa := ex_al0 F32 (B2R T) (B2R S) (B2R zero)). assert (Xq := ex_p0 F32 (B2R T) (B2R S) (B2R zero)). assert (Xl := ex_lam F32 (B2R T) (B2R S) (B2R zero)).
  fold env in Xa, Xq, Xl, Va, Vq, Vl. rewrite Xa in Ra, Ea. rewrite Xq in Rq, Eq. rewrite Xl in Rl, El.
  rewrite <- Va in Ea. rewrite <- Vq in Eq. rewrite <- Vl in El. fold a in Ra, Ea. fold q in Rq, Eq. fold l in Rl, El.
  change (IZR (10 ^ 12)) with 1000000000000 in *. change (IZR (10 ^ 9)) with 1000000000 in *. change (IZR (10 ^ 6)) with 1000000 in *.
  destruct (widen_rep _ _ (conj Fa eq_refl)) as [Fa' Va']. destruct (widen_rep _ _ (conj Fq eq_refl)) as [Fq' Vq'].
  destruct (widen_rep _ _ (conj Fl eq_refl)) as [Fl' Vl']. fold a' in Fa', Va'. fold q' in Fq', Vq'. fold l' in Fl', Vl'.
  rewrite <- Va' in Ea. rewrite <- Vq' in Eq. rewrite <- Vl' in El.
  apply Rabs_le_inv in Ea, Eq, El. split; [lra|]. split; [auto|]. lra.
Qed.

(** The part of the formula that involves the pressure [e]. *)
Definition e_join (e : expr) : expr :=
  Mul F64 (Add F64 e (V 2)) (Div F64 (Lit 1) (Add F64 (V 3) (Mul F64 (V 1) (Add F64 e (V 2))))).
Definition envj (p a q l r : R) (i : nat) : R := match i with O => p | 1%nat => a | 2%nat => q | 3%nat => l | _ => r end.
Definition boxj (top : Z) (i : nat) : bnd :=
  match i with O => whole 0 top | 1%nat => mkB (70 * one / 100000) (72 * one / 100000 + 1) 0
  | 2%nat => whole 571000000 748000000 | 3%nat => whole 159000 203000 | _ => whole 0 110000 end.
Lemma boxj_ok top p a q l r : 0 <= p <= IZR top -> 0.0007 <= a <= 0.0007199 -> 571000000 <= q <= 748000000 -> 159000 <= l <= 203000 ->
  0 <= r <= 110000 -> forall i, within (boxj top i) (envj p a q l r i) (envj p a q l r i).
Proof.
  intros H0 H1 H2 H3 H4 [|[|[|[|i]]]]; try (apply whole_ok; unfold envj; lra).
  unfold boxj, envj, within. cbn [lo hi er]. rewrite Rminus_diag_eq by reflexivity. rewrite Rabs_R0.
  split; [|unfold fx, Rdiv; rewrite Rmult_0_l; lra].
  assert (L1 : fx (70 * one / 100000) <= IZR 70 / IZR (10 ^ 5)) by (apply fx_le; [lia|vm_compute; reflexivity]).
  assert (L2 : IZR 7199999 / IZR (10 ^ 10) <= fx (72 * one / 100000 + 1)) by (apply fx_ge; [lia|vm_compute; reflexivity]).
  change (IZR (10 ^ 5)) with 100000 in *. change (IZR (10 ^ 10)) with 10000000000 in *. lra.
Qed.

Section Sharp.
Variables (T S : f32).
Hypotheses (FT : is_finite T = true) (FS : is_finite S = true).

Lemma join32 top (P : f64) e p r : ranges (boxj top) (e_join e) 0 (1600 * 10 ^ 13) 15 13 = true ->
  0 <= p <= IZR top -> 0 <= r <= 110000 ->
  (forall a q l, tracks64 (envj p a q l r) P e) ->
  (forall a q l, 0 <= exact (envj p a q l r) e <= 120000000) ->
  (forall a q l a' q' l', exact (envj p a q l r) e = exact (envj p a' q' l' r) e) ->
  let x := exact (envj p 0 0 0 r) e in
  -2 <= B2R T <= 40 -> 0 <= B2R S <= 42 ->
  is_finite (density32 T S P) = true /\ Rabs (B2R (density32 T S P) - wr_rho (B2R T) (B2R S) x) <= 38 / 100000.
Proof.
  intros Hb Hp Hr Tr Rx Ind x HT HS. destruct (fields32_close T S FT FS HT HS) as ((Ra & Rq & Rl) & (Fa & Fq & Fl) & Ha & Ea & Eq & El).
  assert (Bx : ocean_box (B2R T) (B2R S) x) by (unfold ocean_box; assert (Y := Rx 0 0 0); fold x in Y; lra).
  assert (RB := rho_bounds _ _ _ Bx). unfold wr_rho, wr_denom in RB. unfold density32, wr_rho, wr_denom. cbv zeta.
  set (a := wr_alpha0 (B2R T) (B2R S)) in *. set (q := wr_p0 (B2R T) (B2R S)) in *. set (l := wr_lambda (B2R T) (B2R S)) in *.
  set (a' := widen (al0_32 T S)) in *. set (q' := widen (p0_32 T S)) in *. set (l' := widen (lam_32 T S)) in *.
  set (env := envj p (B2R a') (B2R q') (B2R l') r).
  assert (W := boxj_ok top p (B2R a') (B2R q') (B2R l') r Hp ltac:(lra) ltac:(lra) ltac:(lra) Hr). fold env in W.
  destruct (ranges_sound (boxj top) env (e_join e) 0 (1600 * 10 ^ 13) 15 13 ltac:(lia) W Hb) as (_ & E & A).
  assert (Tj : tracks64 env ((P + q') * (lit 1 / (l' + a' * (P + q'))))%f64 (e_join e)).
  { unfold e_join. assert (HP : tracks64 env P e) by apply Tr.
    assert (Ha' : tracks64 env a' (V 1)) by (apply t_var64; [exact Fa|reflexivity]).
    assert (Hq' : tracks64 env q' (V 2)) by (apply t_var64; [exact Fq|reflexivity]).
    assert (Hl' : tracks64 env l' (V 3)) by (apply t_var64; [exact Fl|reflexivity]).
    clearbody a' q' l' env. track. }
  destruct (Tj A) as [F V]. split; [exact F|]. rewrite V.
  assert (X : exact env (e_join e) = (x + B2R q') / (B2R l' + B2R a' * (x + B2R q'))).
  { unfold e_join. cbn [exact]. rewrite Q2R_1. unfold env. rewrite (Ind _ _ _ 0 0 0). fold x. unfold envj. unfold Rdiv. ring. }
  rewrite X in E. change (IZR (10 ^ 13)) with 10000000000000 in E.
  apply (volume_close x a q l (B2R a') (B2R q') (B2R l')); try assumption. apply (Rx 0 0 0).
Qed.

Lemma density32_sharp (p : f64) : is_finite p = true -> ocean_box (B2R T) (B2R S) (B2R p) ->
  is_finite (density32 T S p) = true /\ Rabs (B2R (density32 T S p) - wr_rho (B2R T) (B2R S) (B2R p)) <= 38 / 100000.
Proof.
  intros Fp (HT & HS & Hp). apply (join32 120000000 p (V 0) (B2R p) 0); try assumption; try lra.
  - vm_compute. reflexivity.
  - intros a q l. apply t_var64; [exact Fp|reflexivity].
  - intros a q l. cbn. lra.
  - reflexivity.
Qed.
(** With the pressure computed from the depth [z]. *)
Lemma density32_at (z pa : f64) : is_finite z = true -> is_finite pa = true ->
  -2 <= B2R T <= 40 -> 0 <= B2R S <= 42 -> 0 <= B2R z <= 11900 -> 0 <= B2R pa <= 110000 ->
  is_finite (density32 T S (pressure64 z pa)) = true /\
  Rabs (B2R (density32 T S (pressure64 z pa)) - wr_rho (B2R T) (B2R S) (B2R z * 10000 + B2R pa)) <= 38 / 100000.
Proof.
  intros Fz Fa HT HS Hz Ha.
  assert (X : forall a q l, exact (envj (B2R z) a q l (B2R pa)) (e_pres (V 0) (V 4)) = B2R z * 10000 + B2R pa).
  { intros a q l. unfold e_pres. cbn [exact]. unfold envj, Q2R. cbn [Qnum Qden]. rewrite Rinv_1. ring. }
  rewrite <- (X 0 0 0). apply (join32 11900 (pressure64 z pa) (e_pres (V 0) (V 4)) (B2R z) (B2R pa)); try assumption.
  - vm_compute. reflexivity.
  - intros a q l. unfold pressure64, e_pres.
    assert (H0 : tracks64 (envj (B2R z) a q l (B2R pa)) z (V 0)) by (apply t_var64; [exact Fz|reflexivity]).
    assert (H4 : tracks64 (envj (B2R z) a q l (B2R pa)) pa (V 4)) by (apply t_var64; [exact Fa|reflexivity]).
    track.
  - intros a q l. rewrite X. lra.
  - intros. rewrite !X. reflexivity.
Qed.
End Sharp.
