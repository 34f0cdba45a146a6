(** * PropertiesFloat9: C152 (wave speed and Rossby radius in binary64)

    [B2R x] is the real number represented by the finite binary64 datum [x]; [of_f64 x] is the
    number of the exact model it stands for (NaN if missing). *)
From Coq Require Import FunctionalExtensionality Reals Lra Lia List String ZArith QArith Bool.
From Flocq Require Import Core IEEE754.BinarySingleNaN.
From Verif Require Import Num NumFacts Py Arr ArrFacts Derived SpecN2 SpecFloat64 Ieee IeeeGlobal IeeeTime IeeeWave
  ProofsIeee ProofsFloat6 ProofsWave ProofsFloat8 ProofsFloat9 ProofsFloat19 PropertiesN2 PropertiesFields.
Import ListNotations.
Local Open Scope R_scope.

(** Admissible data: a squared buoyancy frequency is missing or any number up to 2^100; a thickness
    is missing, zero or between 2^-100 and 2^100. *)
Definition n2_datum (x : f64) : Prop := x = B754_nan \/ is_finite x = true /\ B2R x <= 2 ^ 100.
Definition dz_datum (x : f64) : Prop := x = B754_nan \/ is_finite x = true /\ (B2R x = 0 \/ / 2 ^ 100 <= B2R x <= 2 ^ 100).

Lemma bp100 : bpow radix2 100 = 2 ^ 100.
Proof. rewrite (pow_IZR 2 100). reflexivity. Qed.
Lemma bpm100 : bpow radix2 (-100) = / 2 ^ 100.
Proof. change (-100)%Z with (- (100))%Z. rewrite bpow_opp, bp100. reflexivity. Qed.
Lemma n2_datum_ok x : n2_datum x -> known x /\ B2R x <= bpow radix2 100.
Proof. rewrite bp100. intros [-> |[F B]]; [split; [left; reflexivity|]; change (B2R (B754_nan : f64)) with 0; apply pow_le; lra|split; [right; exact F|exact B]]. Qed.
Lemma dz_datum_ok x : dz_datum x -> thick64 x.
Proof. unfold thick64. rewrite bp100, bpm100. intros [-> |H]; [left; reflexivity|right; exact H]. Qed.
Lemma nan_is x : is_nan (x : f64) = true -> x = B754_nan.
Proof. destruct x; try discriminate; reflexivity. Qed.
Lemma lift_fin x : known x -> finite_or_missing (of_f64 x).
Proof. intros [N|F] s; [rewrite (nan_is _ N); discriminate|rewrite (lift_finite _ F); discriminate]. Qed.

(** Removing unstable stratification is exact, except that 1e-8 is rounded. *)
Theorem C152_adjust : forall (F : index -> f64) zc n rest r, NoDup (zc :: map fst rest) ->
  adjust_negative_n2 (mkArr ((zc, S n) :: rest) (fun e => of_f64 (F e))) zc = Ok r ->
  forall e, let column := fun j => F (upd e zc j) in
  (forall j, (j <= e zc)%nat -> n2_datum (column j)) ->
  (F e = B754_nan -> at_ r e = NaN /\ adjust64 column (e zc) = B754_nan) /\
  (F e <> B754_nan -> exists y, at_ r e = Fin y /\ is_finite (adjust64 column (e zc)) = true /\
     (B2R (adjust64 column (e zc)) = y \/ y = 1 / 10 ^ 8 /\ B2R (adjust64 column (e zc)) = fl (1 / 10 ^ 8))).
Proof.
  intros F zc n rest r ND H e column K.
  destruct (C17_adjust_negative_n2 (mkArr ((zc, S n) :: rest) (fun e => of_f64 (F e))) zc n rest eq_refl ND) as (r' & Hr & _ & Hv).
  rewrite H in Hr. injection Hr as <-. destruct (Hv e) as (St & Hn & _). cbn [at_] in St, Hn.
  assert (Ec : F e = column (e zc)).
  { unfold column. f_equal. apply functional_extensionality. intros d. unfold upd. destruct (String.eqb zc d) eqn:E; [|reflexivity]. apply String.eqb_eq in E. subst. reflexivity. }
  split; intros N.
  - split; [apply Hn; rewrite N; reflexivity|]. apply nan_is, adjust_nan. rewrite <- Ec, N. reflexivity.
  - destruct (adjust_ok column (e zc) (at_ r e)) as (y & Ey & _ & Fa & _ & _ & V).
    + intros j Hj. apply n2_datum_ok, K, Hj.
    + exact St.
    + rewrite <- Ec. destruct (is_nan (F e)) eqn:E; [|reflexivity]. exfalso. apply N, nan_is, E.
    + exists y. auto.
Qed.
Print Assumptions C152_adjust.

(** The exact column belonging to binary64 data, and the computed one. *)
Lemma wave_column : forall n rest ddims (F H : index -> f64) r,
  calc_wave_speed (mkArr (("z_l"%string, n) :: rest) (fun e => of_f64 (F e))) (mkArr ddims (fun e => of_f64 (H e))) "z_l" = Ok r ->
  forall e, let f := fun j => F (upd e "z_l" j) in let h := fun j => H (upd e "z_l" j) in
  (forall j, (j < n)%nat -> n2_datum (f j) /\ dz_datum (h j)) ->
  forall k c, (Z.of_nat n <= 1000000)%Z -> (Z.of_nat k <= 1000000)%Z -> wave64 k n f h c ->
  (f 0%nat = B754_nan -> at_ r e = NaN /\ c = B754_nan) /\
  (f 0%nat <> B754_nan -> exists x, at_ r e = Fin x /\ is_finite c = true /\ near (Fac (k + 5)) x (B2R c) /\
     (B2R c = 0 \/ bpow radix2 (-800) <= B2R c <= bpow radix2 400)).
Proof.
  intros n rest ddims F H r Hr e f h D k c Hn Hk (s & T & ->).
  destruct (C22_wave_speed _ _ n rest r e Hr eq_refl) as (_ & Hnan & Hval).
  { intros j Hj. cbn [at_]. destruct (D j Hj) as [D1 D2]. split; apply lift_fin; [apply n2_datum_ok, D1|].
    destruct (dz_datum_ok _ D2) as [N|[Q _]]; [left; exact N|right; exact Q]. }
  { intros j x Hj E. cbn [at_] in E. destruct (D j Hj) as [_ [N|[Q V]]]; fold (h j) in E; [rewrite N in E; discriminate|].
    rewrite (lift_finite _ Q) in E. injection E as <-. destruct V as [-> |[V _]]; [lra|]. eapply Rle_trans; [|exact V]. left. apply Rinv_0_lt_compat, pow_lt. lra. }
  cbn [at_] in Hnan, Hval. split; intros N.
  - fold (f 0%nat) in Hnan. rewrite N in Hnan |- *. split; [apply Hnan; reflexivity|reflexivity].
  - assert (Nn : is_nan (f 0%nat) = false) by (destruct (is_nan (f 0%nat)) eqn:E; [exfalso; apply N, nan_is, E|reflexivity]). rewrite Nn.
    destruct Hval as (g & x & Hg & Hx & Ex & _).
    { fold (f 0%nat). intros E. apply (proj1 (lift_nan (f 0%nat))) in E. congruence. }
    exists x. split; [exact Hx|]. rewrite Ex. apply (column_ok f h n k s g); try assumption.
    + intros j Hj. apply n2_datum_ok, D, Hj.
    + intros j Hj. apply dz_datum_ok, D, Hj.
Qed.

(** The computed wave speed has a relative error of a few units in the last place plus one per
    addition, whatever the order of summation. *)
Theorem C152_wave_speed : forall n rest ddims (F H : index -> f64) r,
  calc_wave_speed (mkArr (("z_l"%string, n) :: rest) (fun e => of_f64 (F e))) (mkArr ddims (fun e => of_f64 (H e))) "z_l" = Ok r ->
  forall e, let f := fun j => F (upd e "z_l" j) in let h := fun j => H (upd e "z_l" j) in
  (forall j, (j < n)%nat -> n2_datum (f j) /\ dz_datum (h j)) ->
  forall k c, (Z.of_nat n <= 1000000)%Z -> (Z.of_nat k <= 1000000)%Z -> wave64 k n f h c ->
  (f 0%nat = B754_nan -> at_ r e = NaN /\ c = B754_nan) /\
  (f 0%nat <> B754_nan -> exists x, at_ r e = Fin x /\ is_finite c = true /\ Rabs (B2R c - x) <= (INR k + 5) * 1.12e-16 * x).
Proof.
  intros n rest ddims F H r Hr e f h D k c Hn Hk T. destruct (wave_column n rest ddims F H r Hr e D k c Hn Hk T) as [A B].
  split; [exact A|]. intros N. destruct (B N) as (x & E & Fc & Nr & _). exists x. split; [exact E|]. split; [exact Fc|].
  replace 5 with (INR 5) by (cbn; lra). exact (rel_bound k 5 x _ ltac:(lia) Nr).
Qed.
Print Assumptions C152_wave_speed.

(** The Rossby radius costs one more rounding; on the equator it is infinite in both. *)
Theorem C152_rossby : forall n rest ddims (F H : index -> f64) c (G : index -> f64) gdims r,
  calc_wave_speed (mkArr (("z_l"%string, n) :: rest) (fun e => of_f64 (F e))) (mkArr ddims (fun e => of_f64 (H e))) "z_l" = Ok c ->
  calc_rossby_rd c (mkArr gdims (fun e => of_f64 (G e))) = Ok r ->
  forall e, let f := fun j => F (upd e "z_l" j) in let h := fun j => H (upd e "z_l" j) in
  (forall j, (j < n)%nat -> n2_datum (f j) /\ dz_datum (h j)) -> f 0%nat <> B754_nan ->
  forall k c64, (Z.of_nat n <= 1000000)%Z -> (Z.of_nat k <= 1000000)%Z -> wave64 k n f h c64 ->
  (is_finite (G e) = true -> / 2 ^ 100 <= Rabs (B2R (G e)) <= 2 ^ 100 ->
     exists x, at_ r e = Fin x /\ is_finite (rossby64 c64 (G e)) = true /\ Rabs (B2R (rossby64 c64 (G e)) - x) <= (INR k + 6) * 1.12e-16 * x) /\
  (G e = zero \/ G e = B754_zero true -> 0 < B2R c64 -> at_ r e = Inf false /\ rossby64 c64 (G e) = B754_infinity false).
Proof.
  intros n rest ddims F H c G gdims r Hc Hr e f h D N k c64 Hn Hk T.
  destruct (wave_column n rest ddims F H c Hc e D k c64 Hn Hk T) as [_ B]. destruct (B N) as (y & Ey & Fc & Nr & Bd).
  destruct (C24_rossby_radius _ _ _ Hr) as [R _]. destruct (R e) as (R1 & R2 & _). cbn [at_] in R1, R2. split.
  - intros Fg Hg. rewrite (lift_finite _ Fg) in R1, R2.
    assert (Z0 : 0 < / 2 ^ 100) by (apply Rinv_0_lt_compat, pow_lt; lra).
    destruct (R1 y _ Ey eq_refl) as (z & Ez & Vz & _).
    { intros E. rewrite E, Rabs_R0 in Hg. lra. }
    exists z. split; [exact Ez|].
    assert (Fa : is_finite (abs64 (G e)) = true) by (unfold abs64; rewrite is_finite_Babs; exact Fg).
    assert (Va : B2R (abs64 (G e)) = Rabs (B2R (G e))) by apply B2R_Babs.
    destruct (div_ok (-800) 400 c64 (abs64 (G e)) ltac:(lia) ltac:(lia) Fc Fa) as (Fd & Nd & _).
    { rewrite Va, bp100, bpm100. exact Hg. }
    { exact Bd. }
    split; [exact Fd|]. fold (rossby64 c64 (G e)) in Nd. rewrite Va in Nd.
    assert (Zy : z = y / Rabs (B2R (G e))) by (rewrite <- Vz; field; lra).
    assert (Q := near_trans _ _ _ _ _ (near_div _ _ _ _ _ _ Nr (near_refl (Rabs (B2R (G e))) ltac:(lra)) ltac:(lra)) Nd).
    rewrite <- Zy in Q. replace 6 with (INR 6) by (cbn; lra). apply (rel_bound k 6); [lia|]. eapply near_weaken; [|exact Q]. right.
    rewrite (Nat.add_succ_r k 5), Fac_S. ring.
  - intros G0 P. assert (Py : 0 < y) by (apply (near_spos _ _ _ (near_sym _ _ _ Nr)); exact P).
    assert (E0 : of_f64 (G e) = Fin 0) by (destruct G0 as [-> | ->]; reflexivity).
    split; [exact (R2 y Ey E0 Py)|]. destruct c64 as [s|s| |s m x Bx]; try discriminate; [cbn in P; lra|].
    assert (s = false) as -> by (destruct s; [exfalso; unfold B2R in P; cbn [cond_Zopp] in P; assert (Q : F2R (Float radix2 (Zneg m) x) < 0) by (apply F2R_lt_0; reflexivity); cbn in P, Q; lra|reflexivity]).
    destruct G0 as [-> | ->]; reflexivity.
Qed.
Print Assumptions C152_rossby.

(** Example: 1e-4 s-2 at the surface, unstable water below it and land at the third level; layers
    of 10 m, on the equator and at 1/1024 s-1. *)
Definition ex_n2 (e : index) : f64 := match e "z_l"%string with O => lit (1 # 10000) | S O => lit (-1 # 100000) | _ => B754_nan end.
Definition ex_h (e : index) : f64 := of_Z 10.
Definition ex_cor (e : index) : f64 := if Nat.eqb (e "yh"%string) 0 then zero else lit (-1 # 1024).
Example C152_data :
  let f := fun e j => ex_n2 (upd e "z_l" j) in let h := fun e j => ex_h (upd e "z_l" j) in
  (exists a c r, adjust_negative_n2 (mkArr [("z_l", 3%nat); ("yh", 2%nat)]%string (fun e => of_f64 (ex_n2 e))) "z_l" = Ok a /\
     calc_wave_speed (mkArr [("z_l", 3%nat); ("yh", 2%nat)]%string (fun e => of_f64 (ex_n2 e))) (mkArr [("z_l", 3%nat)]%string (fun e => of_f64 (ex_h e))) "z_l" = Ok c /\
     calc_rossby_rd c (mkArr [("yh", 2%nat)]%string (fun e => of_f64 (ex_cor e))) = Ok r) /\
  (forall e j, n2_datum (f e j) /\ dz_datum (h e j)) /\
  (forall e, f e 0%nat <> B754_nan) /\
  (forall e, exists c, wave64 2 3 (f e) (h e) c /\ 0 < B2R c) /\
  (forall e, e "yh"%string = O -> ex_cor e = zero) /\
  (forall e, e "yh"%string = 1%nat -> is_finite (ex_cor e) = true /\ / 2 ^ 100 <= Rabs (B2R (ex_cor e)) <= 2 ^ 100).
Proof.
  intros f h.
  assert (B10 : 1024 <= 2 ^ 100) by (change 1024 with (IZR 1024); rewrite (pow_IZR 2 100); apply IZR_le; vm_compute; discriminate).
  assert (I10 : / 2 ^ 100 <= / 1024) by (apply Rinv_le_contravar; lra).
  split; [do 3 eexists; split; [reflexivity|split; reflexivity]|].
  assert (H1 : B2R (lit (1 # 10000)) <= 1).
  { b2r (lit (1 # 10000)) V. rewrite V. lra. }
  assert (H2 : B2R (lit (-1 # 100000)) <= 1).
  { b2r (lit (-1 # 100000)) V. rewrite V. lra. }
  assert (H3 : B2R (of_Z 10) = 10) by apply (of_Z_rep 10 eq_refl).
  assert (Dn : forall e j, n2_datum (f e j) /\ dz_datum (h e j)).
  { intros e j. split.
    - unfold f, ex_n2. rewrite upd_same. destruct j as [|[|j]]; [right; split; [vm_compute; reflexivity|lra]|right; split; [vm_compute; reflexivity|lra]|left; reflexivity].
    - right. split; [vm_compute; reflexivity|]. right. change (h e j) with (of_Z 10). rewrite H3. lra. }
  split; [exact Dn|].
  assert (N0 : forall e, is_nan (f e 0%nat) = false) by (intros e; unfold f, ex_n2; rewrite upd_same; vm_compute; reflexivity).
  split; [intros e E; assert (N := N0 e); rewrite E in N; discriminate|].
  split.
  - intros e.
    assert (L : map (layer64 (f e) (h e)) (seq 0 3) = map (layer64 (fun j => match j with O => lit (1 # 10000) | S O => lit (-1 # 100000) | _ => B754_nan end) (fun _ => of_Z 10)) (seq 0 3)).
    { replace (f e) with (fun j => match j with O => lit (1 # 10000) | S O => lit (-1 # 100000) | _ => (B754_nan : f64) end); [reflexivity|].
      apply functional_extensionality. intros j. unfold f, ex_n2. rewrite upd_same. reflexivity. }
    set (g := fun j => match j with O => lit (1 # 10000) | S O => lit (-1 # 100000) | _ => (B754_nan : f64) end) in L.
    pose (a := layer64 g (fun _ => of_Z 10) 0). pose (b := layer64 g (fun _ => of_Z 10) 1). pose (c := layer64 g (fun _ => of_Z 10) 2).
    exists ((a + b + c) / pi64)%f64. split.
    + exists (a + b + c)%f64. rewrite N0. split; [|reflexivity]. rewrite L. cbn [seq map]. fold a b c.
      exact (tree_add 1 [a; b] [c] _ _ (tree_add 0 [a] [b] _ _ (tree_one 0 a) (tree_one 0 b)) (tree_one 1 c)).
    + assert (E : Bltb zero ((a + b + c) / pi64)%f64 = true) by (vm_compute; reflexivity).
      rewrite Bltb_correct in E by (vm_compute; reflexivity). revert E. case Rlt_bool_spec; [intros E _; exact E|discriminate].
  - split; intros e E; unfold ex_cor; rewrite E; cbn [Nat.eqb]; [reflexivity|]. split; [vm_compute; reflexivity|].
    b2r (lit (-1 # 1024)) V. rewrite V, Rabs_left by lra. lra.
Qed.
