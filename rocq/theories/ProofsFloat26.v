(** * ProofsFloat26: on which side of 45 degrees the computed stability angle lies (proofs only) *)
From Coq Require Import Reals Lra Lia List ZArith Bool.
From Flocq Require Import Core IEEE754.BinarySingleNaN Relative.
From Verif Require Import SpecFloat64 Ieee IeeeWave IeeeTurner SpecIeeeTurner ProofsFloat ProofsIeee ProofsFloat4 ProofsFloat6 ProofsFloat8 ProofsFloat10 ProofsFloat11 ProofsFloat19 ProofsPi ProofsFloat22 ProofsFloat25.
Local Open Scope R_scope.

Lemma ordinary_moderate x : ordinary x -> moderate x.
Proof.
  intros (F & B & S). split; [exact F|]. unfold big. change (bp 200) with (IZR (Z.pow_pos 2 200)). change (bp (-200)) with (/ IZR (Z.pow_pos 2 200)).
  replace (IZR (Z.pow_pos 2 200)) with (2 ^ 200); [split; assumption|]. change (Z.pow_pos 2 200) with (2 ^ Z.of_nat 200)%Z. rewrite <- pow_IZR. reflexivity.
Qed.

Definition c45 : R := 7074237752028440 / 2 ^ 53.
Definition x45 : f64 := (of_Z 7074237752028440 / of_Z (2 ^ 53))%f64.
Lemma x45_ok : is_finite x45 = true /\ B2R x45 = c45.
Proof.
  split; [vm_compute; reflexivity|].
  assert (E : B2SF x45 = SpecFloat.S754_finite false 7074237752028440 (-53)) by (vm_compute; reflexivity). rewrite <- SF2R_B2SF, E.
  unfold SF2R, F2R, Defs.Fnum, Defs.Fexp, cond_Zopp. change (bpow radix2 (-53)) with (/ IZR (Z.pow_pos 2 53)). unfold c45.
  change (Z.pow_pos 2 53) with (2 ^ Z.of_nat 53)%Z. rewrite <- pow_IZR. reflexivity.
Qed.
Lemma c45_bound : 0 < c45 < 1.
Proof. unfold c45. split; [apply Rdiv_lt_0_compat; [lra|apply pow_lt; lra]|]. apply Rmult_lt_reg_r with (2 ^ 53); [apply pow_lt; lra|]. unfold Rdiv. rewrite Rmult_assoc, Rinv_l by (apply pow_nonzero; lra). lra. Qed.
Lemma deg45 : fl (c45 * B2R k64) = 45.
Proof.
  destruct x45_ok as [F V]. destruct (degrees_full x45 F) as (_ & D & _); [rewrite V; assert (B := c45_bound); rewrite Rabs_pos_eq; lra|].
  rewrite V in D. rewrite <- D. assert (E : B2SF (degrees64 x45) = SpecFloat.S754_finite false 6333186975989760 (-47)) by (vm_compute; reflexivity). rewrite <- SF2R_B2SF, E.
  unfold SF2R, F2R, Defs.Fnum, Defs.Fexp, cond_Zopp. change (bpow radix2 (-47)) with (/ IZR (Z.pow_pos 2 47)). change (Z.pow_pos 2 47) with 140737488355328%Z. lra.
Qed.
Lemma deg_ge x : is_finite x = true -> Rabs (B2R x) <= 1.6 -> c45 <= B2R x -> 45 <= B2R (degrees64 x).
Proof.
  intros F L H. destruct (degrees_full x F L) as (_ & D & _). rewrite D, <- deg45. apply fl_mono, Rmult_le_compat_r; [|exact H]. destruct k64_ok as (_ & _ & B). lra.
Qed.
Lemma deg_le x : is_finite x = true -> Rabs (B2R x) <= 1.6 -> B2R x <= c45 -> B2R (degrees64 x) <= 45.
Proof.
  intros F L H. destruct (degrees_full x F L) as (_ & D & _). rewrite D, <- deg45. apply fl_mono, Rmult_le_compat_r; [|exact H]. destruct k64_ok as (_ & _ & B). lra.
Qed.
Lemma deg_opp : fl (- c45 * B2R k64) = -45.
Proof. replace (- c45 * B2R k64) with (- (c45 * B2R k64)) by ring. rewrite fl_opp, deg45. reflexivity. Qed.
Lemma deg_le' x : is_finite x = true -> Rabs (B2R x) <= 1.6 -> B2R x <= - c45 -> B2R (degrees64 x) <= -45.
Proof.
  intros F L H. destruct (degrees_full x F L) as (_ & D & _). rewrite D, <- deg_opp. apply fl_mono, Rmult_le_compat_r; [|exact H]. destruct k64_ok as (_ & _ & B). lra.
Qed.
Lemma deg_ge' x : is_finite x = true -> Rabs (B2R x) <= 1.6 -> - c45 <= B2R x -> -45 <= B2R (degrees64 x).
Proof.
  intros F L H. destruct (degrees_full x F L) as (_ & D & _). rewrite D, <- deg_opp. apply fl_mono, Rmult_le_compat_r; [|exact H]. destruct k64_ok as (_ & _ & B). lra.
Qed.

Lemma atan_size atan64 x : accurate_atan atan64 -> is_finite x = true -> is_finite (atan64 x) = true /\ Rabs (B2R (atan64 x)) <= 1.6.
Proof.
  intros [A _] F. us. destruct (A x F) as [Fa E]. rewrite eight_u in E. split; [exact Fa|]. assert (B := atan_bound (B2R x)). assert (D := PI_digits).
  apply Rabs_le_inv in E. apply Rabs_le. lra.
Qed.
Lemma quo_side r : is_finite r = true -> Rabs (B2R r) <= bp 803 ->
  (B2R r <= 0 -> -1 <= B2R (quo64 r) <= 1) /\ (0 <= B2R r < 1 -> 1 <= B2R (quo64 r)) /\ (1 < B2R r -> B2R (quo64 r) <= -1).
Proof.
  intros F L. set (R := B2R r) in *. assert (O := ProofsFloat4.fl_1).
  assert (M1 : fl (-1) = -1) by (replace (-1) with (- (1)) by lra; rewrite fl_opp, O; reflexivity).
  assert (DV : forall n d, 0 < d -> n <= d -> n / d <= 1) by (intros n d Hd H; apply Rmult_le_reg_r with d; [exact Hd|]; unfold Rdiv; rewrite Rmult_assoc, Rinv_l by lra; lra).
  assert (DV' : forall n d, 0 < d -> d <= n -> 1 <= n / d) by (intros n d Hd H; apply Rmult_le_reg_r with d; [exact Hd|]; unfold Rdiv; rewrite Rmult_assoc, Rinv_l by lra; lra).
  repeat split.
  - destruct (quo_ok r F L ltac:(fold R; lra)) as (_ & _ & V & N). fold R in V, N. rewrite V, <- M1. apply fl_mono.
    assert (P : 1 <= fl (1 - R)) by (rewrite <- O; apply fl_mono; lra).
    assert (Q : - fl (1 - R) <= fl (1 + R)) by (rewrite <- fl_opp; apply fl_mono; lra).
    assert (X := DV (- fl (1 + R)) (fl (1 - R)) ltac:(lra) ltac:(lra)). unfold Rdiv in *. lra.
  - destruct (quo_ok r F L ltac:(fold R; lra)) as (_ & _ & V & N). fold R in V, N. rewrite V, <- O. apply fl_mono.
    assert (P : 1 <= fl (1 - R)) by (rewrite <- O; apply fl_mono; lra). rewrite O. apply DV; [lra|apply fl_mono; lra].
  - intros H. destruct (quo_ok r F L ltac:(fold R; lra)) as (_ & _ & V & N). fold R in V, N. rewrite V, <- O. apply fl_mono. rewrite O.
    assert (P : 0 <= fl (1 - R)) by (rewrite <- fl_0; apply fl_mono; lra). apply DV'; [lra|apply fl_mono; lra].
  - intros H. destruct (quo_ok r F L ltac:(fold R; lra)) as (_ & _ & V & N). fold R in V, N. rewrite V, <- M1. apply fl_mono.
    assert (P : fl (1 - R) <= 0) by (rewrite <- fl_0; apply fl_mono; lra).
    assert (Q : - fl (1 - R) <= fl (1 + R)) by (rewrite <- fl_opp; apply fl_mono; lra).
    assert (X := DV' (fl (1 + R)) (- fl (1 - R)) ltac:(lra) Q). unfold Rdiv in *. rewrite Rinv_opp in X. lra.
Qed.
Lemma quo_one r : is_finite r = true -> B2R r = 1 -> quo64 r = B754_infinity false.
Proof.
  intros F E. assert (R1 : r = of_Z 1).
  { apply B2R_Bsign_inj; [exact F|reflexivity|rewrite E; symmetry; apply (proj2 one_rep)|].
    destruct r as [s| | |s m e h]; try discriminate; [simpl in E; lra|]. destruct s; [|reflexivity]. exfalso.
    assert (N : B2R (B754_finite true m e h) < 0) by (apply F2R_lt_0; reflexivity). lra. }
  rewrite R1. unfold quo64. apply B2SF_inj. vm_compute. reflexivity.
Qed.
Lemma inf_angle atan64 : accurate_atan atan64 -> is_finite (degrees64 (atan64 (B754_infinity false))) = true /\
  Rabs (B2R (degrees64 (atan64 (B754_infinity false))) - 90) <= 850 * u.
Proof.
  intros (_ & F & E). us. rewrite eight_u in E. assert (D := PI_digits).
  assert (S : Rabs (B2R (atan64 (B754_infinity false))) <= 1.6) by (apply Rabs_le_inv in E; apply Rabs_le; lra).
  destruct (degrees_full _ F S) as (Fd & _ & Ed). split; [exact Fd|]. set (t := B2R (atan64 _)) in *. set (w := 180 / PI) in *.
  assert (W : PI / 2 * w = 90) by (unfold w; field; lra).
  assert (I : 0 < w <= 57.299).
  { unfold w. split; [apply Rdiv_lt_0_compat; lra|]. apply Rmult_le_reg_r with PI; [lra|]; unfold Rdiv; rewrite Rmult_assoc, Rinv_l by lra; lra. }
  replace (B2R (degrees64 (atan64 (B754_infinity false))) - 90) with ((B2R (degrees64 (atan64 (B754_infinity false))) - t * w) + (t - PI / 2) * w) by (rewrite <- W; ring).
  eapply Rle_trans; [apply Rabs_triang|]. rewrite Rabs_mult, (Rabs_pos_eq w) by lra.
  assert (H : Rabs (t - PI / 2) * w <= 8 * u * 57.299) by (apply Rmult_le_compat; try lra; apply Rabs_pos). lra.
Qed.
Lemma turner_side atan64 r : accurate_atan atan64 -> ordered_atan atan64 -> is_finite r = true -> Rabs (B2R r) <= bp 803 ->
  (B2R r <= 0 -> -45 <= B2R (turner64 atan64 r) <= 45) /\ (0 <= B2R r <= 1 -> 45 <= B2R (turner64 atan64 r)) /\ (1 < B2R r -> B2R (turner64 atan64 r) <= -45) /\
  (B2R r = 0 -> B2R (turner64 atan64 r) = 45).
Proof.
  intros A (M & P1 & N1) F L. destruct (quo_side r F L) as (Q1 & Q2 & Q3). unfold turner64. fold (quo64 r).
  destruct (of_Z_rep (-1) eq_refl) as [Fm Vm]. destruct one_rep as [Fo Vo]. fold c45 in P1, N1. specialize (P1 _ Fo Vo). specialize (N1 _ Fm Vm).
  assert (I : B2R r <= 0 -> -45 <= B2R (degrees64 (atan64 (quo64 r))) <= 45).
  { intros H. destruct (quo_ok r F L ltac:(lra)) as (Fq & _). destruct (atan_size _ _ A Fq) as [Fa Sa]. destruct (Q1 H) as [Ha Hb].
    split; [apply deg_ge'; [exact Fa|exact Sa|]; rewrite <- N1; apply M; [exact Fm|exact Fq|rewrite Vm; exact Ha]|].
    apply deg_le; [exact Fa|exact Sa|]. rewrite <- P1. apply M; [exact Fq|exact Fo|rewrite Vo; exact Hb]. }
  assert (J : 0 <= B2R r <= 1 -> 45 <= B2R (degrees64 (atan64 (quo64 r)))).
  { intros H. destruct (Req_dec (B2R r) 1) as [E|E].
    - rewrite (quo_one r F E). destruct (inf_angle _ A) as [_ X]. us. apply Rabs_le_inv in X. lra.
    - destruct (quo_ok r F L E) as (Fq & _). destruct (atan_size _ _ A Fq) as [Fa Sa]. apply deg_ge; [exact Fa|exact Sa|]. rewrite <- P1.
      apply M; [exact Fo|exact Fq|rewrite Vo; apply Q2; lra]. }
  split; [exact I|]. split; [exact J|]. split.
  - intros H. destruct (quo_ok r F L ltac:(lra)) as (Fq & _). destruct (atan_size _ _ A Fq) as [Fa Sa]. apply deg_le'; [exact Fa|exact Sa|]. rewrite <- N1.
    apply M; [exact Fq|exact Fm|rewrite Vm; apply Q3, H].
  - intros H. assert (X := I ltac:(lra)). assert (Y := J ltac:(lra)). lra.
Qed.

(** Strictly on one side, when the ratio is neither tiny nor huge. *)
Lemma atan_low t : 0 < t <= 1 -> t / 2 <= atan t.
Proof.
  intros H. destruct (atan_between 0 t ltac:(lra)) as (c & E & B). rewrite atan_0 in E. rewrite !Rminus_0_r in E. rewrite E.
  assert (0 <= c² <= 1) by (unfold Rsqr; nra). assert (/ 2 <= / (1 + c²)) by (apply Rinv_le_contravar; lra). nra.
Qed.
Lemma turner_strict atan64 r : accurate_atan atan64 -> is_finite r = true -> 9e-15 <= Rabs (B2R r) <= 1.1e14 ->
  (B2R r < 0 -> -45 < B2R (turner64 atan64 r) < 45) /\ (0 < B2R r -> B2R (turner64 atan64 r) < -45 \/ 45 < B2R (turner64 atan64 r)).
Proof.
  intros A F [L H]. us. assert (D := PI_digits).
  assert (L' : Rabs (B2R r) <= bp 803) by (apply Rle_trans with (bp 53); [change (bp 53) with 9007199254740992; lra|apply bpow_le; lia]).
  assert (W : PI / 4 * (180 / PI) = 45) by (field; lra). set (w := 180 / PI) in *.
  assert (I : 57.29 <= w <= 57.299).
  { unfold w. split; [apply Rmult_le_reg_r with PI; [lra|]; unfold Rdiv; rewrite Rmult_assoc, Rinv_l by lra; lra|]. apply Rmult_le_reg_r with PI; [lra|]; unfold Rdiv; rewrite Rmult_assoc, Rinv_l by lra; lra. }
  assert (T : forall t, 9e-15 <= t -> 4.5e-15 <= atan t).
  { intros t Ht. apply Rle_trans with (atan 9e-15); [assert (X := atan_low 9e-15 ltac:(split; lra)); lra|].
    destruct (Req_dec t 9e-15) as [->|N]; [lra|]. left. apply atan_increasing. lra. }
  assert (T' : forall t, 0 < t <= 1.1e14 -> atan t <= PI / 2 - 4.5e-15).
  { intros t Ht. assert (X := T (/ t)). rewrite atan_inv in X by lra. cut (9e-15 <= / t); [intros Y; specialize (X Y); lra|].
    apply Rle_trans with (/ 1.1e14); [lra|apply Rinv_le_contravar; lra]. }
  split.
  - intros N. rewrite Rabs_left in L, H by exact N. destruct (turner_ok atan64 r A F L' ltac:(lra)) as [_ E]. fold w in E. rewrite tu_below in E by lra.
    assert (X := T (- B2R r) L). assert (Y := T' (- B2R r) ltac:(lra)). rewrite atan_opp in X, Y. rewrite Rmult_plus_distr_r, W in E. apply Rabs_le_inv in E.
    set (a := atan (B2R r)) in *. assert (Z1 : a * w <= - 4.5e-15 * 57.29) by nra. assert (Z2 : - 90 + 4.5e-15 * 57.29 <= a * w) by nra. assert (UV := u_val). lra.
  - intros N. rewrite Rabs_pos_eq in L, H by lra. destruct (Rtotal_order (B2R r) 1) as [C|[C|C]].
    + right. destruct (turner_ok atan64 r A F L' ltac:(lra)) as [_ E]. fold w in E. rewrite tu_below in E by lra. assert (X := T _ L).
      rewrite Rmult_plus_distr_r, W in E. apply Rabs_le_inv in E. set (a := atan (B2R r)) in *. assert (4.5e-15 * 57.29 <= a * w) by nra. assert (UV := u_val). lra.
    + right. unfold turner64. fold (quo64 r). rewrite (quo_one r F C). destruct (inf_angle _ A) as [_ X]. apply Rabs_le_inv in X. lra.
    + left. destruct (turner_ok atan64 r A F L' ltac:(lra)) as [_ E]. fold w in E. rewrite tu_above in E by exact C.
      assert (X := T (/ B2R r)). assert (Y : 9e-15 <= / B2R r) by (apply Rle_trans with (/ 1.1e14); [lra|apply Rinv_le_contravar; lra]). specialize (X Y).
      replace (- (PI / 4 + atan (/ B2R r)) * w) with (- (45) - atan (/ B2R r) * w) in E by (rewrite <- W; ring). apply Rabs_le_inv in E.
      set (a := atan (/ B2R r)) in *. assert (4.5e-15 * 57.29 <= a * w) by nra. assert (UV := u_val). lra.
Qed.

(** The correctly rounded inverse tangent. *)
Definition atan_nearest (x : f64) : f64 :=
  match x with B754_nan => B754_nan | B754_infinity s => nearest (if s then - (PI / 2) else PI / 2) | _ => nearest (atan (B2R x)) end.
Lemma nearest_small r : Rabs r <= 1.6 -> is_finite (nearest r) = true /\ B2R (nearest r) = fl r /\ Rabs (fl r - r) <= / 2 ^ 50.
Proof.
  intros H. us. assert (E := fl_error r). assert (H3 : eta <= u) by (unfold eta, u; apply Rmult_le_compat_l; [lra|]; apply bpow_le; lia).
  assert (E' : Rabs (fl r - r) <= 8 * u) by (assert (u * Rabs r <= u * 1.6) by (apply Rmult_le_compat_l; lra); lra).
  destruct (nearest_rep r) as [F V]; [|split; [exact F|]; split; [exact V|rewrite eight_u; exact E']].
  apply (fits_bp 2); [lia|]. change (bp 2) with 4. apply Rabs_le_inv in E', H. apply Rabs_le. lra.
Qed.
Lemma fl_quarter : fl (PI / 4) = c45.
Proof.
  assert (D := PI_digits). destruct (nearest_small (PI / 4)) as (F & V & E0); [rewrite Rabs_pos_eq; lra|]. us. rewrite eight_u in E0.
  assert (G : 1 / 2 <= B2R (nearest (PI / 4))) by (rewrite V; apply Rabs_le_inv in E0; lra).
  destruct (grid_53 _ F G) as (m & Em). rewrite V in Em.
  assert (E : Rabs (fl (PI / 4) - PI / 4) <= / 2 * bp (-53)).
  { assert (X := error_le_half_ulp radix2 fexp64 (fun z => negb (Z.even z)) (PI / 4)). rewrite ulp_neq_0 in X by lra. unfold cexp in X.
    rewrite (mag_unique radix2 (PI / 4) 0) in X by (rewrite Rabs_pos_eq by lra; change (bpow radix2 (0 - 1)) with (/ 2); change (bpow radix2 0) with 1; lra). exact X. }
  change (bp (-53)) with (/ 9007199254740992) in E. change (2 ^ 53)%Z with 9007199254740992%Z in Em. rewrite Em in E. apply Rabs_le_inv in E.
  assert (M : m = 7074237752028440%Z).
  { assert (A1 : IZR 7074237752028439 < IZR m) by lra. assert (A2 : IZR m < IZR 7074237752028441) by lra. apply lt_IZR in A1, A2. lia. }
  rewrite Em, M. unfold c45. replace (2 ^ 53) with 9007199254740992; [reflexivity|]. replace 2 with (IZR 2) by reflexivity. rewrite pow_IZR. reflexivity.
Qed.
Lemma atan_nearest_accurate : accurate_atan atan_nearest.
Proof.
  assert (D := PI_digits). split; [|split].
  - intros x F. assert (B := atan_bound (B2R x)). destruct (nearest_small (atan (B2R x))) as (G & V & E); [apply Rabs_le; lra|].
    destruct x; try discriminate; cbn [atan_nearest]; (split; [exact G|rewrite V; exact E]).
  - cbn [atan_nearest]. apply nearest_small. rewrite Rabs_pos_eq; lra.
  - cbn [atan_nearest]. destruct (nearest_small (PI / 2)) as (_ & V & E); [rewrite Rabs_pos_eq; lra|]. rewrite V. exact E.
Qed.
Lemma atan_nearest_ordered : ordered_atan atan_nearest.
Proof.
  assert (D := PI_digits).
  assert (G : forall x, is_finite x = true -> B2R (atan_nearest x) = fl (atan (B2R x))).
  { intros x F. assert (B := atan_bound (B2R x)). destruct (nearest_small (atan (B2R x))) as (_ & V & _); [apply Rabs_le; lra|]. destruct x; try discriminate; exact V. }
  split; [|split].
  - intros x y Fx Fy H. rewrite !G by assumption. apply fl_mono. destruct H as [H|H]; [left; apply atan_increasing, H|right; rewrite H; reflexivity].
  - intros x F H. rewrite G, H, atan_1 by exact F. apply fl_quarter.
  - intros x F H. rewrite G, H by exact F. replace (-1) with (- (1)) by lra. rewrite atan_opp, atan_1, fl_opp, fl_quarter. reflexivity.
Qed.
Lemma ordinary_SF x s m e : B2SF x = SpecFloat.S754_finite s m e -> ((-200 <=? e) && (e <=? 100) && (Zpos m <? 2 ^ 100))%Z = true -> ordinary x.
Proof.
  intros E H. apply andb_prop in H. destruct H as [H H3]. apply andb_prop in H. destruct H as [H1 H2]. apply Z.leb_le in H1, H2. apply Z.ltb_lt in H3.
  assert (F : is_finite x = true) by (rewrite <- is_finite_SF_B2SF, E; reflexivity).
  assert (V : Rabs (B2R x) = IZR (Zpos m) * bp e).
  { rewrite <- SF2R_B2SF, E. unfold SF2R. rewrite <- F2R_Zabs, abs_cond_Zopp. reflexivity. }
  assert (P : 2 ^ 200 = bp 200). { change (bp 200) with (IZR (2 ^ Z.of_nat 200)). rewrite <- pow_IZR. reflexivity. }
  split; [exact F|]. rewrite V, P, <- bpow_opp. assert (Q := bp_pos e). assert (Q' := bp_pos (-200)). split.
  - right. apply Rle_trans with (1 * bp e); [rewrite Rmult_1_l; apply bpow_le; lia|]. apply Rmult_le_compat_r; [lra|]. apply IZR_le. lia.
  - change 200%Z with (100 + 100)%Z. rewrite bpow_plus. apply Rmult_le_compat; [apply IZR_le; lia|lra| |apply bpow_le; lia].
    change (bp 100) with (IZR (2 ^ 100)). apply IZR_le. lia.
Qed.
