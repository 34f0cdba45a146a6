(** * PropertiesFloat14: C163 (spiciness in double precision) *)
From Coq Require Import Reals Lra Lia List ZArith Bool.
From Flocq Require Import Core IEEE754.BinarySingleNaN.
From Verif Require Import Num Py Spice SpecFloat64 SpecSpice Ieee IeeeGlobal IeeeSpice SpecIeee SpecIeeeSpice ProofsFloat ProofsIeee ProofsFloat4 ProofsFloat8 ProofsFloat10 ProofsFloat22 ProofsFloat24 PropertiesFields.
Import ListNotations.
Local Open Scope R_scope.

(** [sum] adds the thirty terms in some order and association. *)
Definition adds (pow64 : f64 -> nat -> f64) (sum : list f64 -> f64) (t s : f64) : Prop :=
  exists k, (k <= 30)%nat /\ tree64 k (terms64 pow64 t s) (sum (terms64 pow64 t s)).
Definition number (x : f64) (m : R) : Prop := is_finite x = true /\ Rabs (B2R x) <= m.

(** C163: whatever the order of the additions, the computed spiciness differs from the exact one by at most 6.4e-15
    times the sum of the absolute values of the terms. *)
Theorem C163_spice : forall pow64 sum t s, accurate_pow pow64 -> adds pow64 sum t s -> number t 100 -> number s 100 ->
  exists x, spice (NpScalar (Fin (B2R t))) (NpScalar (Fin (B2R s))) = Ok (mkNp [1%nat] [Fin x]) /\
  is_finite (spice64 pow64 sum t s) = true /\
  Rabs (B2R (spice64 pow64 sum t s) - x) <= 6.4e-15 * flament_size (B2R t) (B2R s) + / 2 ^ 800.
Proof.
  intros pow64 sum t s A (k & K & T) [Ft Lt] [Fs Ls]. exists (flament_pi (B2R t) (B2R s)). split.
  - apply (C08_spice_numpy (mkNp [0%nat] []) (mkNp [0%nat] []) eq_refl eq_refl).
  - exact (spice_ok pow64 sum k t s A T K Ft Fs Lt Ls).
Qed.
Print Assumptions C163_spice.

Lemma size_mono t s t' s' : Rabs t <= Rabs t' -> Rabs (s - 35) <= Rabs (s' - 35) -> flament_size t s <= flament_size t' s'.
Proof.
  intros H1 H2. rewrite <- !exact_size. apply rsum_le. intros p _. unfold texact. rewrite !Rabs_mult, <- !RPow_abs.
  apply Rmult_le_compat_r; [apply Rabs_pos|]. apply Rmult_le_compat; try (apply pow_le, Rabs_pos); apply pow_incr; split; try apply Rabs_pos; assumption.
Qed.
Lemma size_sea : flament_size 32 40 <= 147.
Proof. unfold flament_size. rewrite (Rabs_pos_eq 32), (Rabs_pos_eq (40 - 35)) by lra. lra. Qed.
Lemma tiny_800 : 0 < / 2 ^ 800 <= 1e-14.
Proof.
  assert (P : 2 ^ 64 <= 2 ^ 800) by (apply Rle_pow; [lra|lia]). split; [apply Rinv_0_lt_compat, pow_lt; lra|].
  apply Rle_trans with (/ 2 ^ 64); [apply Rinv_le_contravar; [apply pow_lt; lra|exact P]|]. simpl. lra.
Qed.
(** Sea water: between -32 and 32 degrees and 30 and 40 psu the error is below 1e-12, so that water of a spiciness
    higher by 2e-12 is also computed to have a higher one. *)
Definition sea (t s : f64) : Prop := number t 32 /\ is_finite s = true /\ 30 <= B2R s <= 40.
Theorem C163_sea : forall pow64 sum t s t' s', accurate_pow pow64 -> adds pow64 sum t s -> adds pow64 sum t' s' -> sea t s -> sea t' s' ->
  Rabs (B2R (spice64 pow64 sum t s) - flament_pi (B2R t) (B2R s)) <= 1e-12 /\
  (flament_pi (B2R t) (B2R s) + 2e-12 < flament_pi (B2R t') (B2R s') -> B2R (spice64 pow64 sum t s) < B2R (spice64 pow64 sum t' s')).
Proof.
  assert (G : forall pow64 sum t s, accurate_pow pow64 -> adds pow64 sum t s -> sea t s -> Rabs (B2R (spice64 pow64 sum t s) - flament_pi (B2R t) (B2R s)) <= 1e-12).
  { intros pow64 sum t s A (k & K & T) ([Ft Lt] & Fs & Ls).
    destruct (spice_ok pow64 sum k t s A T K Ft Fs) as [_ E]; [lra|rewrite Rabs_pos_eq; lra|]. eapply Rle_trans; [exact E|].
    assert (S := size_mono (B2R t) (B2R s) 32 40). rewrite (Rabs_pos_eq 32), (Rabs_pos_eq (40 - 35)) in S by lra.
    specialize (S Lt ltac:(apply Rabs_le; lra)). assert (Z := size_sea). assert (W := tiny_800). lra. }
  intros pow64 sum t s t' s' A H H' O O'. assert (E := G pow64 sum t s A H O). assert (E' := G pow64 sum t' s' A H' O'). split; [exact E|]. intros L.
  apply Rabs_le_inv in E, E'. lra.
Qed.
Print Assumptions C163_sea.

(** Missing data stay missing, and at 0 degrees and 35 psu the spiciness is zero, without rounding error. *)
Theorem C163_missing : forall pow64 sum t s, adds pow64 sum t s -> t = B754_nan \/ s = B754_nan -> spice64 pow64 sum t s = B754_nan.
Proof. intros pow64 sum t s (k & _ & T). exact (spice_nan pow64 sum k t s T). Qed.
Print Assumptions C163_missing.
Theorem C163_origin : forall pow64 sum t s, accurate_pow pow64 -> adds pow64 sum t s -> is_finite t = true -> is_finite s = true ->
  B2R t = 0 -> B2R s = 35 -> B2R (spice64 pow64 sum t s) = 0.
Proof. intros pow64 sum t s A (k & K & T). exact (spice_zero pow64 sum k t s A T K). Qed.
Print Assumptions C163_origin.

(** The correctly rounded power and additions from the first term to the last; two waters, of which the warmer and
    saltier one is spicier. *)
Example C163_case : accurate_pow pow_nearest /\ (forall t s, adds pow_nearest seqsum t s) /\ sea (of_Z 4) (of_Z 34) /\ sea (of_Z 20) (of_Z 36) /\
  B2R (spice64 pow_nearest seqsum (of_Z 4) (of_Z 34)) < B2R (spice64 pow_nearest seqsum (of_Z 20) (of_Z 36)) /\
  B2R (spice64 pow_nearest seqsum (of_Z 0) (of_Z 35)) = 0 /\ spice64 pow_nearest seqsum B754_nan (of_Z 35) = B754_nan.
Proof.
  assert (A : forall t s, adds pow_nearest seqsum t s).
  { intros t s. exists 30%nat. split; [lia|]. apply (seqsum_tree (terms64 pow_nearest t s)). discriminate. }
  assert (R : forall z, (Z.abs z < 2 ^ 53)%Z -> is_finite (of_Z z) = true /\ B2R (of_Z z) = IZR z) by (intros z Hz; exact (of_Z_rep z Hz)).
  destruct (R 4%Z eq_refl) as [F4 V4]. destruct (R 34%Z eq_refl) as [F34 V34]. destruct (R 20%Z eq_refl) as [F20 V20]. destruct (R 36%Z eq_refl) as [F36 V36].
  destruct (R 0%Z eq_refl) as [F0 V0]. destruct (R 35%Z eq_refl) as [F35 V35].
  assert (S1 : sea (of_Z 4) (of_Z 34)) by (unfold sea, number; rewrite V4, V34, Rabs_pos_eq by lra; repeat split; try assumption; lra).
  assert (S2 : sea (of_Z 20) (of_Z 36)) by (unfold sea, number; rewrite V20, V36, Rabs_pos_eq by lra; repeat split; try assumption; lra).
  split; [exact pow_nearest_accurate|]. split; [exact A|]. split; [exact S1|]. split; [exact S2|]. split; [|split].
  - apply (C163_sea _ _ _ _ _ _ pow_nearest_accurate (A _ _) (A _ _) S1 S2). rewrite V4, V34, V20, V36. unfold flament_pi. lra.
  - apply (C163_origin _ _ _ _ pow_nearest_accurate (A _ _) F0 F35 V0 V35).
  - apply C163_missing; [apply A|left; reflexivity].
Qed.
