(** * PropertiesTrend3: C103 (the fitted trend is linear in the data and independent of origin and order) *)
From Coq Require Import Reals ZArith List String Bool Arith Lia Lra Psatz Permutation.
From Verif Require Import Num NumFacts Py Arr ArrFacts Trend SpecTime SpecTrend ProofsTrend ProofsTrend4 ProofsAvg PropertiesTrend.
Import ListNotations.
Local Open Scope string_scope.
Local Open Scope R_scope.

(** A best line solves the normal equations. *)
Lemma quad_zero A C : 0 <= C -> (forall e, 0 <= -2 * e * A + e * e * C) -> A = 0.
Proof.
  intros HC H. destruct (Req_dec A 0) as [|N]; [assumption|]. exfalso.
  assert (P : 0 < A * A) by nra. destruct (Req_dec C 0) as [->|NC]; [specialize (H A); nra|].
  specialize (H (A / C)). assert (E : -2 * (A / C) * A + A / C * (A / C) * C = - (A * A) / C) by (field; exact NC).
  rewrite E in H. assert (0 < A * A / C) by (apply Rdiv_lt_0_compat; lra). unfold Rdiv in *. lra.
Qed.
Lemma min_normal n t y m b : (forall m' b', ssr n t y m b <= ssr n t y m' b') ->
  Sum_if n (fun i => notnull (y i)) (fun i => val (y i) - (m * t i + b)) = 0 /\
  Sum_if n (fun i => notnull (y i)) (fun i => t i * (val (y i) - (m * t i + b))) = 0.
Proof.
  intros H. set (ok := fun i => notnull (y i)) in *. split.
  - apply quad_zero with (C := Sum_if n ok (fun _ => 1)); [apply S_nonneg; intros; lra|]. intros e.
    assert (E : ssr n t y m (b + e) = ssr n t y m b + (-2 * e * Sum_if n ok (fun i => val (y i) - (m * t i + b)) + e * e * Sum_if n ok (fun _ => 1))).
    { unfold ssr. fold ok. rewrite <- !S_scal, <- !S_plus. apply S_ext. intros i. ring. }
    assert (L := H m (b + e)). lra.
  - apply quad_zero with (C := Sum_if n ok (fun i => t i * t i)); [apply S_nonneg; intros; nra|]. intros e.
    assert (E : ssr n t y (m + e) b = ssr n t y m b + (-2 * e * Sum_if n ok (fun i => t i * (val (y i) - (m * t i + b))) + e * e * Sum_if n ok (fun i => t i * t i))).
    { unfold ssr. fold ok. rewrite <- !S_scal, <- !S_plus. apply S_ext. intros i. ring. }
    assert (L := H (m + e) b). lra.
Qed.
Lemma Sext n p q (f g : nat -> R) : (forall i, (i < n)%nat -> p i = q i /\ (q i = true -> f i = g i)) -> Sum_if n p f = Sum_if n q g.
Proof. intros H. apply Sum_if_ext; intros i Hi; [apply H, Hi|intros; apply H; assumption]. Qed.
Lemma unit_unique ix tu k k' : slope_unit ix tu k -> slope_unit ix tu k' -> k' = k.
Proof. unfold slope_unit. destruct (ix_cf ix); intros; congruence. Qed.
Lemma two_times_ext n t y y' : (forall j, (j < n)%nat -> notnull (y' j) = notnull (y j)) -> two_times n t y -> two_times n t y'.
Proof. intros H (i & j & Hi & Hj & A & B & C). exists i, j. rewrite !H by assumption. auto. Qed.

(** C103: the fit of [a x1 + c x2] is [a] times the fit of [x1] plus [c] times the fit of [x2], for
    two records with the same gaps (scaling, adding a constant or adding records). *)
Theorem C103_linear : forall ix x1 x2 x3 tu s1 i1 s2 i2 s3 i3 a c e,
  calc_linear_trend ix x1 tu = Ok (s1, i1) -> calc_linear_trend ix x2 tu = Ok (s2, i2) -> calc_linear_trend ix x3 tu = Ok (s3, i3) ->
  no_infinity ix (da_data x1) -> no_infinity ix (da_data x2) -> no_infinity ix (da_data x3) ->
  let y x j := at_ (da_data x) (upd e (ix_dim ix) j) in
  (forall j, (j < ix_n ix)%nat -> notnull (y x1 j) = notnull (y x2 j) /\
     y x3 j = fadd (fmul (Fin a) (y x1 j)) (fmul (Fin c) (y x2 j))) ->
  two_times (ix_n ix) (ix_val ix) (y x1) ->
  exists m1 b1 m2 b2, at_ (da_data s1) e = Fin m1 /\ at_ (da_data i1) e = Fin b1 /\
    at_ (da_data s2) e = Fin m2 /\ at_ (da_data i2) e = Fin b2 /\
    at_ (da_data s3) e = Fin (a * m1 + c * m2) /\ at_ (da_data i3) e = Fin (a * b1 + c * b2).
Proof.
  intros ix x1 x2 x3 tu s1 i1 s2 i2 s3 i3 a c e H1 H2 H3 F1 F2 F3 y Hy T.
  set (n := ix_n ix) in *. set (t := ix_val ix) in *.
  assert (N3 : forall j, (j < n)%nat -> notnull (y x3 j) = notnull (y x1 j) /\ (notnull (y x1 j) = true -> val (y x3 j) = a * val (y x1 j) + c * val (y x2 j))).
  { intros j Hj. destruct (Hy j Hj) as [A B]. rewrite B. assert (I1 := F1 (upd e (ix_dim ix) j)). assert (I2 := F2 (upd e (ix_dim ix) j)).
    fold (y x1 j) in I1. fold (y x2 j) in I2. destruct (y x1 j), (y x2 j); cbn in *; try contradiction; try discriminate; split; try reflexivity; try discriminate; lra. }
  assert (T2 : two_times n t (y x2)) by (apply (two_times_ext n t (y x1)); [intros j Hj; symmetry; apply Hy, Hj|exact T]).
  assert (T3 : two_times n t (y x3)) by (apply (two_times_ext n t (y x1)); [intros j Hj; apply N3, Hj|exact T]).
  destruct (C60_least_squares ix x1 tu s1 i1 H1 F1) as (k & K1 & _ & L1). destruct (L1 e T) as (m1 & b1 & A1 & B1 & M1).
  destruct (C60_least_squares ix x2 tu s2 i2 H2 F2) as (k2 & K2 & _ & L2). destruct (L2 e T2) as (m2 & b2 & A2 & B2 & M2).
  destruct (C60_least_squares ix x3 tu s3 i3 H3 F3) as (k3 & K3 & _ & L3). destruct (L3 e T3) as (m3 & b3 & A3 & B3 & M3).
  rewrite (unit_unique _ _ _ _ K1 K2) in A2. rewrite (unit_unique _ _ _ _ K1 K3) in A3. clear L1 L2 L3.
  fold n t in M1, M2, M3. change (fun j => at_ (da_data x1) (upd e (ix_dim ix) j)) with (y x1) in *.
  change (fun j => at_ (da_data x2) (upd e (ix_dim ix) j)) with (y x2) in *. change (fun j => at_ (da_data x3) (upd e (ix_dim ix) j)) with (y x3) in *.
  destruct (min_normal n t (y x1) m1 b1 (fun m' b' => proj1 (M1 m' b'))) as [P1 Q1].
  destruct (min_normal n t (y x2) m2 b2 (fun m' b' => proj1 (M2 m' b'))) as [P2 Q2].
  assert (E2 : forall f, Sum_if n (fun i => notnull (y x2 i)) f = Sum_if n (fun i => notnull (y x1 i)) f).
  { intros f. apply Sext. intros j Hj. split; [symmetry; apply Hy, Hj|reflexivity]. }
  rewrite E2 in P2, Q2.
  assert (R : (a * m1 + c * m2 = m3 /\ a * b1 + c * b2 = b3)).
  { apply (M3 (a * m1 + c * m2) (a * b1 + c * b2)). apply ssr_min.
    - rewrite (Sext n _ (fun i => notnull (y x1 i)) _ (fun i => a * (val (y x1 i) - (m1 * t i + b1)) + c * (val (y x2 i) - (m2 * t i + b2)))).
      + rewrite S_plus, !S_scal, P1, P2. ring.
      + intros j Hj. destruct (N3 j Hj) as [A B]. split; [exact A|]. intros W. cbv beta in W. rewrite (B W). ring.
    - rewrite (Sext n _ (fun i => notnull (y x1 i)) _ (fun i => a * (t i * (val (y x1 i) - (m1 * t i + b1))) + c * (t i * (val (y x2 i) - (m2 * t i + b2))))).
      + rewrite S_plus, !S_scal, Q1, Q2. ring.
      + intros j Hj. destruct (N3 j Hj) as [A B]. split; [exact A|]. intros W. cbv beta in W. rewrite (B W). ring. }
  destruct R as [R1 R2]. exists (m1 * k), b1, (m2 * k), b2. rewrite A1, B1, A2, B2, A3, B3. rewrite <- R1, <- R2.
  do 4 (split; [reflexivity|]). split; f_equal; ring.
Qed.
Print Assumptions C103_linear.

(** Counting time from another origin leaves the slope alone and moves the intercept along the line. *)
Theorem C103_origin : forall ix ix' x tu s i s' i' d e,
  ix_dim ix' = ix_dim ix -> ix_cf ix' = ix_cf ix -> ix_n ix' = ix_n ix ->
  (forall j, (j < ix_n ix)%nat -> ix_val ix' j = ix_val ix j + d) ->
  calc_linear_trend ix x tu = Ok (s, i) -> calc_linear_trend ix' x tu = Ok (s', i') -> no_infinity ix (da_data x) ->
  two_times (ix_n ix) (ix_val ix) (fun j => at_ (da_data x) (upd e (ix_dim ix) j)) ->
  at_ (da_data s') e = at_ (da_data s) e /\
  exists k m b, slope_unit ix tu k /\ at_ (da_data s) e = Fin (m * k) /\ at_ (da_data i) e = Fin b /\ at_ (da_data i') e = Fin (b - m * d).
Proof.
  intros ix ix' x tu s i s' i' d e E1 E2 E3 Hd H H' F T.
  set (y := fun j => at_ (da_data x) (upd e (ix_dim ix) j)) in *. set (n := ix_n ix) in *.
  assert (T' : two_times (ix_n ix') (ix_val ix') (fun j => at_ (da_data x) (upd e (ix_dim ix') j))).
  { rewrite E1, E3. fold n y. destruct T as (p & q & Hp & Hq & A & B & C). exists p, q. rewrite !Hd by assumption. repeat (split; [assumption|]). lra. }
  assert (F' : no_infinity ix' (da_data x)) by exact F.
  destruct (C60_least_squares ix x tu s i H F) as (k & K & _ & L). destruct (L e T) as (m & b & A & B & M).
  destruct (C60_least_squares ix' x tu s' i' H' F') as (k' & K' & _ & L'). destruct (L' e T') as (m' & b' & A' & B' & M').
  assert (k' = k) as -> by (apply (unit_unique ix tu); [exact K|]; unfold slope_unit in *; rewrite <- E2; exact K').
  cbv zeta in M, M'. rewrite E1, E3 in M'. fold n y in M, M'. clear L L'.
  assert (S : forall u v, ssr n (ix_val ix') y u v = ssr n (ix_val ix) y u (v + u * d)).
  { intros u v. unfold ssr. apply Sext. intros j Hj. split; [reflexivity|]. intros _. rewrite (Hd j Hj). ring. }
  destruct (proj2 (M' m (b - m * d))) as [R1 R2].
  { rewrite !S. replace (b - m * d + m * d) with b by ring. apply M. }
  split; [rewrite A, A', R1; reflexivity|]. exists k, m, b. rewrite A, B, B', R2. auto.
Qed.
Print Assumptions C103_origin.

(** The order of the samples does not matter. *)
Lemma fold_perm (g : nat -> R) (l l' : list nat) : Permutation l l' -> fold_right (fun i s => g i + s) 0 l = fold_right (fun i s => g i + s) 0 l'.
Proof.
  intros H. induction H; cbn [fold_right]; [reflexivity|rewrite IHPermutation; reflexivity|ring|congruence].
Qed.
Lemma Sum_if_perm n p f (pi : nat -> nat) : Permutation (map pi (seq 0 n)) (seq 0 n) ->
  Sum_if n (fun j => p (pi j)) (fun j => f (pi j)) = Sum_if n p f.
Proof.
  intros H. set (g := fun j => if p j then f j else 0).
  assert (E : forall l, fold_right (fun i s => g i + s) 0 (map pi l) = fold_right (fun i s => g (pi i) + s) 0 l) by (induction l as [|i l IH]; cbn; [|rewrite IH]; reflexivity).
  assert (Q : forall n h, Rsum n h = fold_right (fun i s => h i + s) 0 (seq 0 n)).
  { clear. intros n h. induction n as [|n IH]; [reflexivity|]. rewrite seq_S. cbn [Rsum plus]. rewrite IH.
    generalize (seq 0 n). induction l as [|i l IHl]; cbn; [ring|]. rewrite <- IHl. ring. }
  unfold Sum_if. rewrite !Q. fold g. change (fun j => if p (pi j) then f (pi j) else 0) with (fun j => g (pi j)).
  transitivity (fold_right (fun i s => g i + s) 0 (map pi (seq 0 n))); [symmetry; apply E|].
  apply fold_perm, H.
Qed.
Theorem C103_order : forall ix ix' x x' tu s i s' i' pi e,
  ix_dim ix' = ix_dim ix -> ix_cf ix' = ix_cf ix -> ix_n ix' = ix_n ix -> Permutation (map pi (seq 0 (ix_n ix))) (seq 0 (ix_n ix)) ->
  (forall j, (j < ix_n ix)%nat -> ix_val ix' j = ix_val ix (pi j) /\
     at_ (da_data x') (upd e (ix_dim ix) j) = at_ (da_data x) (upd e (ix_dim ix) (pi j))) ->
  calc_linear_trend ix x tu = Ok (s, i) -> calc_linear_trend ix' x' tu = Ok (s', i') ->
  no_infinity ix (da_data x) -> no_infinity ix' (da_data x') ->
  two_times (ix_n ix) (ix_val ix) (fun j => at_ (da_data x) (upd e (ix_dim ix) j)) ->
  at_ (da_data s') e = at_ (da_data s) e /\ at_ (da_data i') e = at_ (da_data i) e.
Proof.
  intros ix ix' x x' tu s i s' i' pi e E1 E2 E3 HP Hd H H' F F' T.
  set (y := fun j => at_ (da_data x) (upd e (ix_dim ix) j)) in *. set (n := ix_n ix) in *. set (y' := fun j => at_ (da_data x') (upd e (ix_dim ix) j)).
  assert (T' : two_times (ix_n ix') (ix_val ix') (fun j => at_ (da_data x') (upd e (ix_dim ix') j))).
  { rewrite E1, E3. fold n y'. destruct T as (p & q & Hp & Hq & A & B & C).
    assert (W : forall p, (p < n)%nat -> exists j, (j < n)%nat /\ pi j = p).
    { intros p0 H0. assert (I : In p0 (map pi (seq 0 n))) by (eapply Permutation_in; [apply Permutation_sym, HP|apply in_seq; lia]).
      apply in_map_iff in I. destruct I as (j & <- & Hj). apply in_seq in Hj. exists j. split; [lia|reflexivity]. }
    destruct (W p Hp) as (p1 & Hp1 & <-). destruct (W q Hq) as (q1 & Hq1 & <-).
    exists p1, q1. destruct (Hd p1 Hp1) as [V1 W1]. destruct (Hd q1 Hq1) as [V2 W2]. unfold y'. rewrite V1, V2, W1, W2. repeat split; assumption. }
  destruct (C60_least_squares ix x tu s i H F) as (k & K & _ & L). destruct (L e T) as (m & b & A & B & M).
  destruct (C60_least_squares ix' x' tu s' i' H' F') as (k' & K' & _ & L'). destruct (L' e T') as (m' & b' & A' & B' & M').
  assert (k' = k) as -> by (apply (unit_unique ix tu); [exact K|]; unfold slope_unit in *; rewrite <- E2; exact K').
  cbv zeta in M, M'. rewrite E1, E3 in M'. fold n y in M. fold n y' in M'. clear L L'.
  assert (S : forall u v, ssr n (ix_val ix') y' u v = ssr n (ix_val ix) y u v).
  { intros u v. unfold ssr. rewrite <- (Sum_if_perm n (fun i => notnull (y i)) (fun i => (val (y i) - (u * ix_val ix i + v)) ^ 2) pi HP).
    apply Sext. intros j Hj. destruct (Hd j Hj) as [V W]. unfold y', y. rewrite V, W. split; reflexivity. }
  destruct (proj2 (M' m b)) as [R1 R2].
  { rewrite !S. apply M. }
  rewrite A, A', B, B', R1, R2. split; reflexivity.
Qed.
Print Assumptions C103_order.

(** Times 1, 2, 3 with a gap at 2: records 1, -, 5 and 4, -, 0 and the combination 3 x1 - x2; the
    first record with times counted from -10, and in reverse order. *)
Definition tr_da (p q : R) : darr := mkDarr "ssh" (mkArr [("time", 3%nat)] (fun e => match e "time" with 0%nat => Fin p | 1%nat => NaN | _ => Fin q end)) [].
Lemma tr_call cf f p q : f 0%nat <> 0 -> exists s i, calc_linear_trend (mkIx "time" cf 3 f) (tr_da p q) (Some "yr") = Ok (s, i).
Proof.
  intros H. apply C60_succeeds. split; [left; reflexivity|]. split; [exists 0%nat; cbn; split; [lia|exact H]|]. destruct cf; eexists; reflexivity.
Qed.
Lemma tr_fin ix p q : no_infinity ix (da_data (tr_da p q)).
Proof. intros e; cbn; destruct (e "time") as [|[|]]; exact I. Qed.
Example C103_linear_case : exists s i, calc_linear_trend (ex_ix false "time") (tr_da (-1) 15) (Some "yr") = Ok (s, i) /\ at_ (da_data s) (fun _ => 0%nat) = Fin 8 /\ at_ (da_data i) (fun _ => 0%nat) = Fin (Ropp 9).
Proof.
  destruct (tr_call false (fun i => INR (S i)) 1 5) as (s1 & i1 & H1); [cbn; lra|].
  destruct (tr_call false (fun i => INR (S i)) 4 0) as (s2 & i2 & H2); [cbn; lra|].
  destruct (tr_call false (fun i => INR (S i)) (-1) 15) as (s3 & i3 & H3); [cbn; lra|].
  exists s3, i3. split; [exact H3|]. set (e := fun _ : string => 0%nat).
  assert (T : forall p q, two_times 3 (fun i => INR (S i)) (fun j => at_ (da_data (tr_da p q)) (upd e "time" j))).
  { intros. exists 0%nat, 2%nat. cbn. repeat split; lia || lra || reflexivity. }
  destruct (C103_linear (ex_ix false "time") (tr_da 1 5) (tr_da 4 0) (tr_da (-1) 15) (Some "yr") s1 i1 s2 i2 s3 i3 3 (-1) e H1 H2 H3
    (tr_fin _ _ _) (tr_fin _ _ _) (tr_fin _ _ _)) as (m1 & b1 & m2 & b2 & A1 & B1 & A2 & B2 & A3 & B3); [|apply T|].
  { intros [|[|[|]]] Hj; cbn in *; try lia; split; try reflexivity; f_equal; lra. }
  destruct (C60_linear_data _ _ _ _ _ 1 2 (-1) e H1 (tr_fin _ _ _) eq_refl (T _ _)) as [U1 V1].
  { intros [|[|[|]]] Hj; cbn in *; try discriminate; try lia; intros _; f_equal; lra. }
  destruct (C60_linear_data _ _ _ _ _ 1 (-2) 6 e H2 (tr_fin _ _ _) eq_refl (T _ _)) as [U2 V2].
  { intros [|[|[|]]] Hj; cbn in *; try discriminate; try lia; intros _; f_equal; lra. }
  rewrite U1 in A1. rewrite V1 in B1. rewrite U2 in A2. rewrite V2 in B2. injection A1 as <-. injection B1 as <-. injection A2 as <-. injection B2 as <-.
  rewrite A3, B3. split; f_equal; lra.
Qed.
Example C103_origin_case : exists s i, calc_linear_trend (mkIx "time" false 3 (fun i => INR (S i) + 10)) (tr_da 1 5) (Some "yr") = Ok (s, i) /\ at_ (da_data s) (fun _ => 0%nat) = Fin 2 /\ at_ (da_data i) (fun _ => 0%nat) = Fin (Ropp 21).
Proof.
  destruct (tr_call false (fun i => INR (S i)) 1 5) as (s1 & i1 & H1); [cbn; lra|].
  destruct (tr_call false (fun i => INR (S i) + 10) 1 5) as (s2 & i2 & H2); [cbn; lra|].
  exists s2, i2. split; [exact H2|]. set (e := fun _ : string => 0%nat).
  assert (T : two_times 3 (fun i => INR (S i)) (fun j => at_ (da_data (tr_da 1 5)) (upd e "time" j))).
  { intros. exists 0%nat, 2%nat. cbn. repeat split; lia || lra || reflexivity. }
  destruct (C103_origin (ex_ix false "time") (mkIx "time" false 3 (fun i => INR (S i) + 10)) (tr_da 1 5) (Some "yr") s1 i1 s2 i2 10 e eq_refl eq_refl eq_refl
    (fun _ _ => eq_refl) H1 H2 (tr_fin _ _ _) T) as (A & k & m & b & K & B & C & D).
  destruct (C60_linear_data _ _ _ _ _ 1 2 (-1) e H1 (tr_fin _ _ _) eq_refl T) as [U1 V1].
  { intros [|[|[|]]] Hj; cbn in *; try discriminate; try lia; intros _; f_equal; lra. }
  cbn in K. subst k. rewrite U1 in B. rewrite V1 in C. injection B as B. injection C as C. rewrite A, U1, D. split; f_equal; lra.
Qed.
Example C103_order_case : exists s i, calc_linear_trend (mkIx "time" false 3 (fun i => INR (S (2 - i)))) (tr_da 5 1) (Some "yr") = Ok (s, i) /\ at_ (da_data s) (fun _ => 0%nat) = Fin 2 /\ at_ (da_data i) (fun _ => 0%nat) = Fin (Ropp 1).
Proof.
  destruct (tr_call false (fun i => INR (S i)) 1 5) as (s1 & i1 & H1); [cbn; lra|].
  destruct (tr_call false (fun i => INR (S (2 - i))) 5 1) as (s2 & i2 & H2); [cbn; lra|].
  exists s2, i2. split; [exact H2|]. set (e := fun _ : string => 0%nat).
  assert (T : two_times 3 (fun i => INR (S i)) (fun j => at_ (da_data (tr_da 1 5)) (upd e "time" j))).
  { intros. exists 0%nat, 2%nat. cbn. repeat split; lia || lra || reflexivity. }
  destruct (C103_order (ex_ix false "time") (mkIx "time" false 3 (fun i => INR (S (2 - i)))) (tr_da 1 5) (tr_da 5 1) (Some "yr") s1 i1 s2 i2 (fun j => 2 - j)%nat e eq_refl eq_refl eq_refl) as [A B]; try assumption; try apply tr_fin.
  { cbn. apply (Permutation_rev [2; 1; 0]%nat). }
  { intros [|[|[|]]] Hj; cbn in *; try lia; split; reflexivity. }
  destruct (C60_linear_data _ _ _ _ _ 1 2 (-1) e H1 (tr_fin _ _ _) eq_refl T) as [U1 V1].
  { intros [|[|[|]]] Hj; cbn in *; try discriminate; try lia; intros _; f_equal; lra. }
  rewrite A, B, U1, V1. split; f_equal; lra.
Qed.
