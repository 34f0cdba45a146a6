(** * PropertiesWave: how the first-mode wave speed depends on stratification and layers (C147) *)
From Coq Require Import Reals Lra Lia List String Bool Arith.
From Verif Require Import Num NumFacts Py Arr ArrFacts Eos SpecEos Derived SpecN2 SpecDz ProofsN2 ProofsWave ProofsMonthly PropertiesN2.
Import ListNotations.
Local Open Scope R_scope.

(** A column of squared buoyancy frequencies and layer thicknesses as calc_wave_speed sees it. *)
Definition column_of (n2 dz : arr) (e : index) (n : nat) (f h : nat -> fval) : Prop :=
  (exists rest, adims n2 = ("z_l"%string, n) :: rest) /\
  (forall k, at_ n2 (upd e "z_l" k) = f k) /\ (forall k, at_ dz (upd e "z_l" k) = h k) /\
  (forall k, (k < n)%nat -> finite_or_missing (f k)) /\
  (forall k, (k < n)%nat -> h k = NaN \/ exists x, h k = Fin x /\ 0 <= x).

Lemma column_speed n2 dz e n f h r : column_of n2 dz e n f h -> calc_wave_speed n2 dz "z_l" = Ok r -> f O <> NaN ->
  exists g, (forall k, (k < n)%nat -> stabilised f k (g k)) /\
    at_ r e = Fin (1 / PI * Rsum n (fun k => n_times_dz (g k) (h k))).
Proof.
  intros ((rest & Hd) & Hf & Hh & Ff & Fh) H H0.
  destruct (C22_wave_speed n2 dz n rest r e H Hd) as (_ & _ & G).
  - intros k Hk. rewrite Hf, Hh. split; [apply Ff, Hk|]. destruct (Fh k Hk) as [->|(x & -> & _)]; cbn; try discriminate; auto.
  - intros k x Hk. rewrite Hh. intros E. destruct (Fh k Hk) as [E'|(y & E' & P)]; rewrite E in E'; [discriminate|injection E' as <-; exact P].
  - destruct G as (g & c & Hg & E & -> & _); [rewrite Hf; exact H0|].
    exists g. split; [|rewrite E; f_equal; f_equal; apply Rsum_ext; intros k _; rewrite Hh; reflexivity].
    intros k Hk. assert (S := Hg k Hk). unfold stabilised, nearest_above in *. rewrite Hf in S.
    destruct S as (S1 & S2 & S3). split; [exact S1|]. split; [exact S2|]. intros A B.
    destruct (S3 A B) as [(j & P1 & P2 & P3 & P4)|(P1 & P2)]; [left; exists j|right].
    + rewrite Hf in P2, P4. split; [exact P1|]. split; [exact P2|]. split; [|exact P4]. intros i Hi. rewrite <- Hf. apply P3, Hi.
    + split; [|exact P2]. intros j Hj. rewrite <- Hf. apply P1, Hj.
Qed.

Lemma positive_scale a v : 0 < a -> (positive (fmul (Fin a) v) <-> positive v).
Proof.
  intros P. destruct v as [|s|x]; cbn.
  - tauto.
  - assert (E : Reqb a 0 = false) by (apply Reqb_false; lra). assert (E' : Rltb a 0 = false) by (apply Rltb_false; lra).
    rewrite E, E'. destruct s; cbn; tauto.
  - split; intros H; [|nra]. destruct (Rlt_dec 0 x); [assumption|nra].
Qed.
Lemma NaN_scale a v : 0 < a -> (fmul (Fin a) v = NaN <-> v = NaN).
Proof.
  intros P. destruct v as [|s|x]; cbn; [tauto| |split; discriminate].
  assert (E : Reqb a 0 = false) by (apply Reqb_false; lra). rewrite E. split; discriminate.
Qed.

Lemma stabilised_scale a f f' k v : 0 < a -> (forall j, (j <= k)%nat -> f' j = fmul (Fin a) (f j)) -> positive (f O) ->
  stabilised f k v -> stabilised f' k (fmul (Fin a) v).
Proof.
  intros P H P0 (S1 & S2 & S3). split; [|split].
  - rewrite (H k) by lia. intros E. apply (proj1 (NaN_scale a _ P)) in E. rewrite (S1 E). reflexivity.
  - rewrite (H k) by lia. intros E. apply (proj1 (positive_scale a _ P)) in E. rewrite (S2 E). reflexivity.
  - rewrite (H k) by lia. intros A B. left.
    destruct S3 as [(j & P1 & P2 & P3 & P4)|(P1 & _)].
    + intros E. apply A. rewrite E. reflexivity.
    + intros E. apply B. apply positive_scale; assumption.
    + exists j. split; [exact P1|]. rewrite (H j) by lia. split; [apply positive_scale; assumption|].
      split; [|rewrite P4; reflexivity]. intros i Hi. rewrite (H i) by lia. intros E. apply (proj1 (positive_scale a _ P)) in E. exact (P3 i Hi E).
    + exfalso. destruct k as [|k]; [|exact (P1 O ltac:(lia) P0)]. apply B. apply positive_scale; assumption.
Qed.

(** C147: if N2 is multiplied by [a] and the thicknesses by [b], the wave speed is multiplied by
    [sqrt a * b], in a column that is stable at the surface. *)
Theorem C147_scaling : forall n2 dz e n f h r n2' dz' e' f' h' r' a b,
  column_of n2 dz e n f h -> column_of n2' dz' e' n f' h' ->
  calc_wave_speed n2 dz "z_l" = Ok r -> calc_wave_speed n2' dz' "z_l" = Ok r' ->
  positive (f O) -> 0 < a -> 0 <= b ->
  (forall k, (k < n)%nat -> f' k = fmul (Fin a) (f k)) -> (forall k, (k < n)%nat -> h' k = fmul (Fin b) (h k)) -> (0 < n)%nat ->
  exists c, at_ r e = Fin c /\ at_ r' e' = Fin (sqrt a * b * c).
Proof.
  intros n2 dz e n f h r n2' dz' e' f' h' r' a b C C' H H' P0 Pa Pb Hf Hh Hn.
  destruct (column_speed _ _ _ _ _ _ _ C H) as (g & Hg & E); [destruct (f O); cbn in P0; [contradiction|discriminate|discriminate]|].
  destruct (column_speed _ _ _ _ _ _ _ C' H') as (g' & Hg' & E').
  { rewrite Hf by exact Hn. intros X. apply (proj1 (NaN_scale a _ Pa)) in X. rewrite X in P0. exact P0. }
  eexists. split; [exact E|]. rewrite E'. f_equal.
  rewrite (Rsum_ext n (fun k => n_times_dz (g' k) (h' k)) (fun k => (sqrt a * b) * n_times_dz (g k) (h k))).
  - rewrite Rsum_scal. ring.
  - intros k Hk. assert (Eg : g' k = fmul (Fin a) (g k)).
    { apply (stabilised_unique f' k); [apply Hg', Hk|]. apply (stabilised_scale a f); [exact Pa| |exact P0|apply Hg, Hk].
      intros j Hj. apply Hf. lia. }
    rewrite Eg, (Hh k Hk).
    assert (Ng : finite_or_missing (g k)).
    { apply (stabilised_no_inf f k); [|apply Hg, Hk]. intros j Hj. destruct C as (_ & _ & _ & Ff & _). apply Ff. lia. }
    destruct C as (_ & _ & _ & _ & Fh). destruct (g k) as [|s|x] eqn:Eq; [cbn; ring|exfalso; exact (Ng s eq_refl)|].
    destruct (Fh k Hk) as [->|(y & -> & _)]; cbn; [ring|].
    destruct (stabilised_facts f k (g k) (Hg k Hk)) as [_ Pg]. rewrite Eq in Pg.
    assert (Px : 0 < x). { apply Pg. intros X. destruct (stabilised_facts f k (g k) (Hg k Hk)) as [Y _]. apply Y in X. rewrite Eq in X. discriminate. }
    rewrite sqrt_mult by lra. ring.
Qed.
Print Assumptions C147_scaling.

(** Thicker layers give a faster wave. *)
Theorem C147_monotone : forall n2 dz e n f h r dz' h' r',
  column_of n2 dz e n f h -> column_of n2 dz' e n f h' ->
  calc_wave_speed n2 dz "z_l" = Ok r -> calc_wave_speed n2 dz' "z_l" = Ok r' -> f O <> NaN ->
  (forall k, (k < n)%nat -> h k = NaN \/ exists x x', h k = Fin x /\ h' k = Fin x' /\ x <= x') ->
  exists c c', at_ r e = Fin c /\ at_ r' e = Fin c' /\ c <= c'.
Proof.
  intros n2 dz e n f h r dz' h' r' C C' H H' H0 Le.
  destruct (column_speed _ _ _ _ _ _ _ C H H0) as (g & Hg & E). destruct (column_speed _ _ _ _ _ _ _ C' H' H0) as (g' & Hg' & E').
  eexists _, _. split; [exact E|]. split; [exact E'|].
  assert (P := PI_RGT_0). apply Rmult_le_compat_l; [apply Rlt_le, Rdiv_lt_0_compat; lra|].
  apply Rsum_le. intros k Hk. rewrite <- (stabilised_unique f k _ _ (Hg k Hk) (Hg' k Hk)).
  assert (S := sqrt_pos). destruct C' as (_ & _ & _ & _ & Fh'). destruct (Le k Hk) as [X|(x & x' & X & X' & L)]; rewrite X.
  - destruct (g k) as [|s|v]; cbn; try lra; destruct (Fh' k Hk) as [->|(y & -> & Py)]; try lra; specialize (S v); nra.
  - rewrite X'. destruct (g k) as [|s|v]; cbn; try lra. specialize (S v). nra.
Qed.
Print Assumptions C147_monotone.

(** The column [f'] repeats each level of [f] one or more times, from the top. *)
Definition resampled (phi : nat -> nat) (n n' : nat) : Prop :=
  phi O = O /\ (forall j, phi j <= phi (S j) <= S (phi j))%nat /\ (forall j, (j < n')%nat -> (phi j < n)%nat).

Lemma resampled_le phi n n' : resampled phi n n' -> forall i j, (i <= j)%nat -> (phi i <= phi j)%nat.
Proof. intros (_ & S & _) i j H. induction H as [|j H IH]; [lia|]. specialize (S j). lia. Qed.
Lemma resampled_step phi n n' : resampled phi n n' -> forall j k, (k < phi j)%nat -> exists i, (i < j)%nat /\ phi i = k /\ phi (S i) = S k.
Proof.
  intros (Z & S & _). induction j as [|j IH]; intros k H; [lia|].
  destruct (Nat.lt_ge_cases k (phi j)) as [L|L].
  - destruct (IH k L) as (i & A & B). exists i. split; [lia|exact B].
  - exists j. specialize (S j). split; [lia|]. split; lia.
Qed.

Lemma stabilised_resampled phi n n' f j v : resampled phi n n' ->
  stabilised f (phi j) v -> stabilised (fun j => f (phi j)) j v.
Proof.
  intros R (S1 & S2 & S3). split; [exact S1|]. split; [exact S2|]. intros A B. destruct (S3 A B) as [(k & P1 & P2 & P3 & P4)|(P1 & P2)].
  - left. destruct (resampled_step _ _ _ R j k P1) as (i & Hi & E & E'). exists i. split; [exact Hi|]. rewrite E.
    split; [exact P2|]. split; [|exact P4]. intros l Hl. assert (M1 := resampled_le _ _ _ R (S i) l ltac:(lia)). assert (M2 := resampled_le _ _ _ R l j ltac:(lia)).
    destruct (Nat.eq_dec (phi l) (phi j)) as [Q|Q]; [rewrite Q; exact B|]. apply P3. lia.
  - right. split; [|exact P2]. intros l Hl. assert (M2 := resampled_le _ _ _ R l j ltac:(lia)).
    destruct (Nat.eq_dec (phi l) (phi j)) as [Q|Q]; [rewrite Q; exact B|]. apply P1. lia.
Qed.

(** The wave speed depends on the profile only: dividing layers into thinner ones of the same N2 does
    not change it, also when some of them are unstable. *)
Theorem C147_layers : forall n2 dz e n f h r n2' dz' e' n' f' h' r' phi x x',
  column_of n2 dz e n f h -> column_of n2' dz' e' n' f' h' ->
  calc_wave_speed n2 dz "z_l" = Ok r -> calc_wave_speed n2' dz' "z_l" = Ok r' -> f O <> NaN ->
  resampled phi n n' -> (forall j, f' j = f (phi j)) ->
  (forall k, (k < n)%nat -> h k = Fin (x k)) -> (forall j, (j < n')%nat -> h' j = Fin (x' j)) ->
  (forall k, (k < n)%nat -> x k = Rsum n' (fun j => if Nat.eqb (phi j) k then x' j else 0)) ->
  at_ r' e' = at_ r e.
Proof.
  intros n2 dz e n f h r n2' dz' e' n' f' h' r' phi x x' C C' H H' H0 R Hf Hx Hx' Sum.
  destruct (column_speed _ _ _ _ _ _ _ C H H0) as (g & Hg & E).
  destruct (column_speed _ _ _ _ _ _ _ C' H') as (g' & Hg' & E'); [rewrite Hf; destruct R as (-> & _); exact H0|].
  rewrite E, E'. f_equal. f_equal.
  set (F := fun k => match g k with Fin a => sqrt a | _ => 0 end).
  rewrite (Rsum_ext n _ (fun k => F k * x k)).
  2:{ intros k Hk. unfold F. rewrite (Hx k Hk). destruct (g k); cbn; ring. }
  rewrite (Rsum_ext n' _ (fun j => F (phi j) * x' j)).
  2:{ intros j Hj. assert (Hp : (phi j < n)%nat) by (destruct R as (_ & _ & X); apply X, Hj).
      assert (Eg : g' j = g (phi j)).
      { apply (stabilised_unique f' j); [apply Hg', Hj|].
        assert (S := stabilised_resampled phi n n' f j (g (phi j)) R (Hg _ Hp)).
        destruct S as (S1 & S2 & S3). unfold stabilised, nearest_above in *. rewrite (Hf j). split; [exact S1|]. split; [exact S2|].
        intros A B. destruct (S3 A B) as [(i & P1 & P2 & P3 & P4)|(P1 & P2)]; [left; exists i|right].
        - rewrite Hf. split; [exact P1|]. split; [exact P2|]. split; [|exact P4]. intros l Hl. rewrite Hf. apply P3, Hl.
        - split; [|exact P2]. intros l Hl. rewrite Hf. apply P1, Hl. }
      rewrite Eg, (Hx' j Hj). unfold F. destruct (g (phi j)); cbn; ring. }
  rewrite (Rsum_ext n _ (fun k => Rsum n' (fun j => if Nat.eqb (phi j) k then F (phi j) * x' j else 0))).
  - rewrite Rsum_swap. apply Rsum_ext. intros j Hj.
    rewrite (Rsum_pick n (phi j)); [rewrite Nat.eqb_refl; reflexivity|destruct R as (_ & _ & X); apply X, Hj|].
    intros k Hk N. destruct (Nat.eqb_spec (phi j) k) as [Q|_]; [congruence|reflexivity].
  - intros k Hk. rewrite (Sum k Hk), <- Rsum_scal. apply Rsum_ext. intros j _.
    destruct (Nat.eqb_spec (phi j) k) as [->|_]; ring.
Qed.
Print Assumptions C147_layers.

(** A column of three layers of 10 m with N2 = 4e-4, -1e-4 (unstable) and 1e-4 s-2; the same with N2 four
    times and layers half as large; and the same with the two upper layers divided into 4 m and 6 m. *)
Definition wv_f (k : nat) : fval := match k with O => Fin (4 / 10000) | 1%nat => Fin (- (1 / 10000)) | _ => Fin (1 / 10000) end.
Definition wv (n : nat) (f : nat -> fval) : arr := mkArr [("z_l"%string, n); ("xh"%string, 2%nat)] (fun e => f (e "z_l"%string)).
Definition wz (n : nat) (h : nat -> fval) : arr := mkArr [("z_l"%string, n)] (fun e => h (e "z_l"%string)).
Definition wv_phi (j : nat) : nat := match j with O | 1%nat => O | 2%nat | 3%nat => 1%nat | _ => 2%nat end.
Definition wv_x (j : nat) : R := match j with O | 2%nat => 4 | 1%nat | 3%nat => 6 | _ => 10 end.
Lemma wv_col n f h e : (forall k, finite_or_missing (f k)) -> (forall k, exists x, h k = Fin x /\ 0 <= x) ->
  column_of (wv n f) (wz n h) e n f h.
Proof.
  intros Hf Hh. split; [eexists; reflexivity|]. split; [intros k; unfold wv, wz; cbn [at_]; rewrite upd_same; reflexivity|].
  split; [intros k; unfold wv, wz; cbn [at_]; rewrite upd_same; reflexivity|]. split; [intros k _; apply Hf|]. intros k _. right. apply Hh.
Qed.
Example C147_case :
  let e : index := fun _ => O in
  column_of (wv 3 wv_f) (wz 3 (fun _ => Fin 10)) e 3 wv_f (fun _ => Fin 10) /\
  column_of (wv 3 (fun k => fmul (Fin 4) (wv_f k))) (wz 3 (fun _ => Fin 5)) e 3 (fun k => fmul (Fin 4) (wv_f k)) (fun _ => Fin 5) /\
  column_of (wv 5 (fun j => wv_f (wv_phi j))) (wz 5 (fun j => Fin (wv_x j))) e 5 (fun j => wv_f (wv_phi j)) (fun j => Fin (wv_x j)) /\
  resampled wv_phi 3 5 /\ positive (wv_f O) /\ ~ positive (wv_f 1) /\
  (forall k, (k < 3)%nat -> Fin 5 = fmul (Fin (1 / 2)) (Fin 10)) /\
  (forall k, (k < 3)%nat -> 10 = Rsum 5 (fun j => if Nat.eqb (wv_phi j) k then wv_x j else 0)) /\
  (exists r r', calc_wave_speed (wv 3 wv_f) (wz 3 (fun _ => Fin 10)) "z_l" = Ok r /\
     calc_wave_speed (wv 5 (fun j => wv_f (wv_phi j))) (wz 5 (fun j => Fin (wv_x j))) "z_l" = Ok r' /\ at_ r' e = at_ r e).
Proof.
  intros e.
  assert (F : forall k, finite_or_missing (wv_f k)) by (intros [|[|k]] s; discriminate).
  assert (C1 : column_of (wv 3 wv_f) (wz 3 (fun _ => Fin 10)) e 3 wv_f (fun _ => Fin 10)).
  { apply wv_col; [exact F|]. intros k. exists 10. split; [reflexivity|lra]. }
  assert (C3 : column_of (wv 5 (fun j => wv_f (wv_phi j))) (wz 5 (fun j => Fin (wv_x j))) e 5 (fun j => wv_f (wv_phi j)) (fun j => Fin (wv_x j))).
  { apply wv_col; [intros k; apply F|]. intros k. eexists. split; [reflexivity|]. destruct k as [|[|[|[|k]]]]; cbn; lra. }
  assert (R : resampled wv_phi 3 5).
  { split; [reflexivity|]. split; [intros [|[|[|[|j]]]]; cbn; lia|]. intros [|[|[|[|j]]]] _; cbn; lia. }
  assert (Sm : forall k, (k < 3)%nat -> 10 = Rsum 5 (fun j => if Nat.eqb (wv_phi j) k then wv_x j else 0)).
  { intros [|[|[|k]]] H; cbn; try lra; lia. }
  split; [exact C1|]. split.
  { apply wv_col; [intros [|[|k]] s; discriminate|]. intros k. exists 5. split; [reflexivity|lra]. }
  split; [exact C3|]. split; [exact R|]. split; [cbn; lra|]. split; [cbn; lra|].
  split; [intros k _; cbn; f_equal; lra|]. split; [exact Sm|].
  destruct (calc_wave_speed (wv 3 wv_f) (wz 3 (fun _ => Fin 10)) "z_l") as [r|] eqn:E; [|discriminate].
  destruct (calc_wave_speed (wv 5 (fun j => wv_f (wv_phi j))) (wz 5 (fun j => Fin (wv_x j))) "z_l") as [r'|] eqn:E'; [|discriminate].
  exists r, r'. split; [reflexivity|]. split; [reflexivity|].
  apply (C147_layers _ _ _ _ _ _ _ _ _ _ _ _ _ _ wv_phi (fun _ => 10) wv_x C1 C3 E E'); try exact R; try reflexivity; try exact Sm; discriminate.
Qed.
