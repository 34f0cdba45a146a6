(** * PropertiesFloat8: C150 (vertical derivatives and the buoyancy frequency in binary64), C151 (homogeneous columns) *)
From Coq Require Import Reals Lra Lia List ZArith QArith Qreals Bool String FunctionalExtensionality.
From Flocq Require Import Core IEEE754.BinarySingleNaN.
From Verif Require Import Num NumFacts Py Arr ArrFacts Eos Derived SpecFloat64 Ieee IeeeTime IeeeDerived SpecIeee SpecEos ProofsEos ProofsEosBox ProofsFloat ProofsFloat2 ProofsIeee
  ProofsFloat3 ProofsFloat4 ProofsFloat5 ProofsFloat6 ProofsFields ProofsFields2 ProofsEosApi ProofsN2Edges ProofsFloat15 ProofsFloat16 ProofsFloat17 ProofsFloat18.
Import ListNotations.
Local Open Scope R_scope.

Lemma fin_of x : is_finite x = true -> of_f64 x = Fin (B2R x).
Proof. destruct x; try discriminate; reflexivity. Qed.
Lemma forallb_same {A} (p q : A -> bool) l : (forall x, In x l -> p x = q x) -> forallb p l = forallb q l.
Proof. intros H. induction l as [|x l IH]; [reflexivity|]. cbn [forallb]. rewrite H, IH; [reflexivity| |now left]. intros y Hy. apply H. now right. Qed.
Lemma grad_col_same n x x' f f' k : (3 <= n)%nat -> (k < n)%nat -> (forall i, (i < n)%nat -> x i = x' i) -> (forall i, (i < n)%nat -> f i = f' i) ->
  grad_col n x f k = grad_col n x' f' k.
Proof.
  intros Hn Hk X F. unfold grad_col, grad_first, grad_last, grad_uniform, grad_interior.
  replace (uniform_spacing n x) with (uniform_spacing n x').
  2: { unfold uniform_spacing. apply forallb_same. intros i Hi. apply in_seq in Hi. rewrite !X by lia. reflexivity. }
  destruct (Nat.eqb_spec k 0); [rewrite !X, !F by lia; reflexivity|]. destruct (Nat.eqb_spec k (n - 1)); [rewrite !X, !F by lia; reflexivity|].
  destruct (uniform_spacing n x'); rewrite !X, !F by lia; reflexivity.
Qed.
Lemma h_inv h : 0 < h -> 0 < / h. Proof. apply Rinv_0_lt_compat. Qed.

(** The derivative that numpy computes with binary64 numbers, against the exact derivative of
    the same numbers: the error is at most 60 roundings of the largest value over the smallest step. *)
Theorem C150_gradient : forall n (x f : nat -> f64) h M k, (3 <= n)%nat -> (k < n)%nat ->
  bpow radix2 (-100) <= h -> 0 <= M <= bpow radix2 100 ->
  (forall i, (i < n)%nat -> is_finite (x i) = true) ->
  (forall i, (i + 1 < n)%nat -> h <= B2R (x (i + 1)%nat) - B2R (x i) <= bpow radix2 100) ->
  (forall i, (i < n)%nat -> is_finite (f i) = true /\ Rabs (B2R (f i)) <= M) ->
  exists g, grad_col n (fun i => of_f64 (x i)) (fun i => of_f64 (f i)) k = Fin g /\
    is_finite (gradient64 n x f k) = true /\
    Rabs (B2R (gradient64 n x f k) - g) <= 60 * bpow radix2 (-53) * M / h + bpow radix2 (-1072).
Proof.
  intros n x f h M k Hn Hk Hh HM Fx Dx Ff.
  exists (gradR n (fun i => B2R (x i)) (fun i => B2R (f i)) k). split.
  - rewrite <- grad_col_R; [|exact Hn|exact Hk|].
    + apply grad_col_same; try assumption; intros i Hi; apply fin_of; [apply Fx, Hi|apply Ff, Hi].
    + intros i Hi. assert (X := Dx i ltac:(lia)). rewrite Nat.add_1_r in X. assert (B := bpow_gt_0 radix2 (-100)). lra.
  - destruct (gradient_close n x f h M Hn Hh HM Fx Dx Ff k Hk) as [F E]. split; [exact F|].
    assert (U : u = bpow radix2 (-53)) by (unfold u; change (- (53) + 1)%Z with (1 + -53)%Z; rewrite bpow_plus; change (bpow radix2 1) with 2; lra).
    assert (T : 4 * eta <= bpow radix2 (-1072)).
    { unfold eta. change (-1072)%Z with (2 + -1074)%Z. rewrite bpow_plus. change (bpow radix2 2) with 4. assert (X := bpow_gt_0 radix2 (-1074)). lra. }
    rewrite U in E. lra.
Qed.
Print Assumptions C150_gradient.

(** [calc_n2] with the equation of state of Wright on binary64 data: at every level of every column
    in the oceanic range whose levels are at least h apart, the computed value differs from the exact one by at most this. *)
Theorem C150_n2 : forall dims (T S : index -> f64) (z : nat -> f64) pdims (pa : index -> f64) (g : f64) eos zc n r,
  calc_n2 false (mkArr dims (fun e => of_f64 (T e))) (mkArr dims (fun e => of_f64 (S e))) (fun i => of_f64 (z i)) eos (of_f64 g)
    (mkArr pdims (fun e => of_f64 (pa e))) zc false = Ok r ->
  same_name eos "wright" -> dget zc dims = Some n -> is_finite g = true -> Rabs (B2R g) <= 10 ->
  forall e h, (e zc < n)%nat -> bpow radix2 (-100) <= h -> is_finite (pa e) = true -> 0 <= B2R (pa e) <= 110000 ->
    (forall i, (i < n)%nat -> is_finite (z i) = true /\ 0 <= B2R (z i) <= 11900) ->
    (forall i, (i + 1 < n)%nat -> h <= B2R (z (i + 1)%nat) - B2R (z i)) ->
    (forall i, (i < n)%nat -> is_finite (T (upd e zc i)) = true /\ -2 <= B2R (T (upd e zc i)) <= 40) ->
    (forall i, (i < n)%nat -> is_finite (S (upd e zc i)) = true /\ 0 <= B2R (S (upd e zc i)) <= 42) ->
    let c := n2_64 n z (fun i => T (upd e zc i)) (fun i => S (upd e zc i)) (pa e) g (e zc) in
    exists N dt ds, at_ r e = Fin N /\
      grad_col n (fun i => of_f64 (z i)) (fun i => of_f64 (T (upd e zc i))) (e zc) = Fin dt /\
      grad_col n (fun i => of_f64 (z i)) (fun i => of_f64 (S (upd e zc i))) (e zc) = Fin ds /\
      is_finite c = true /\ Rabs (B2R c - N) <= 5.5e-16 * Rabs dt + 2.5e-16 * Rabs ds + 6e-15 / h.
Proof.
  intros dims T S z pdims pa g eos zc n r H Hn Hd Fg Hg e h Hk Hh Fp Hp Fz Dz FT FS c.
  rewrite (fin_of g Fg) in H.
  destruct (n2_unfold _ _ _ _ _ _ _ _ _ n H Hd) as (pres & al & be & dt & ds & E1 & E2 & E3 & E4 & E5 & E6).
  assert (N3 : (3 <= n)%nat).
  { unfold differentiate in E4. cbn [adims] in E4. rewrite Hd in E4. destruct (Nat.ltb_spec n 3); [discriminate|assumption]. }
  set (k := e zc) in *.
  assert (Up : upd e zc k = e) by (apply functional_extensionality; intros d; unfold upd, k; match goal with |- (if ?b then _ else _) = _ => destruct b eqn:Q end; [apply String.eqb_eq in Q; rewrite Q|]; reflexivity).
  destruct (FT k Hk) as [FTk HTk]. destruct (FS k Hk) as [FSk HSk]. destruct (Fz k Hk) as [Fzk Hzk]. rewrite Up in FTk, HTk, FSk, HSk.
  set (Tc := fun i => T (upd e zc i)) in *. set (Sc := fun i => S (upd e zc i)) in *.
  assert (Tk : Tc k = T e) by (unfold Tc; rewrite Up; reflexivity). assert (Sk : Sc k = S e) by (unfold Sc; rewrite Up; reflexivity).
  set (zR := fun i => B2R (z i)). 
  assert (Mono : forall i, (Datatypes.S i < n)%nat -> zR i < zR (Datatypes.S i)).
  { intros i Hi. assert (X := Dz i ltac:(lia)). rewrite Nat.add_1_r in X. assert (B := bpow_gt_0 radix2 (-100)). unfold zR. lra. }
  assert (GT : grad_col n (fun i => of_f64 (z i)) (fun i => of_f64 (Tc i)) k = Fin (gradR n zR (fun i => B2R (Tc i)) k)).
  { rewrite <- grad_col_R; [|exact N3|exact Hk|exact Mono]. apply grad_col_same; try assumption; intros i Hi; apply fin_of; [apply Fz, Hi|apply FT, Hi]. }
  assert (GS : grad_col n (fun i => of_f64 (z i)) (fun i => of_f64 (Sc i)) k = Fin (gradR n zR (fun i => B2R (Sc i)) k)).
  { rewrite <- grad_col_R; [|exact N3|exact Hk|exact Mono]. apply grad_col_same; try assumption; intros i Hi; apply fin_of; [apply Fz, Hi|apply FS, Hi]. }
  set (P := B2R (z k) * 10000 + B2R (pa e)).
  assert (Ep : at_ pres e = Fin P).
  { unfold pressure_from_depth in E1. apply amap2_inv in E1. subst pres. cbn [at_ const_r amap zarr]. fold k. rewrite (fin_of _ Fp), (fin_of _ Fzk). reflexivity. }
  assert (Box : ocean_box (B2R (T e)) (B2R (S e)) P) by (unfold ocean_box, P; lra).
  assert (RB := rho_bounds _ _ _ Box). assert (Dn := denom_pos _ _ _ Box).
  exists (n2R n z Tc Sc (pa e) g k), (gradR n zR (fun i => B2R (Tc i)) k), (gradR n zR (fun i => B2R (Sc i)) k).
  split; [|split; [exact GT|split; [exact GS|]]].
  - assert (Edt : at_ dt e = Fin (gradR n zR (fun i => B2R (Tc i)) k)).
    { unfold differentiate in E4. cbn [adims] in E4. rewrite Hd in E4. destruct (Nat.ltb n 3); [discriminate|]. injection E4 as <-. exact GT. }
    assert (Eds : at_ ds e = Fin (gradR n zR (fun i => B2R (Sc i)) k)).
    { unfold differentiate in E5. cbn [adims] in E5. rewrite Hd in E5. destruct (Nat.ltb n 3); [discriminate|]. injection E5 as <-. exact GS. }
    rewrite E6, (wright_eos_inv _ _ _ _ _ _ _ Hn E2), (wright_eos_inv _ _ _ _ _ _ _ Hn E3), Ep, Edt, Eds. cbn [at_].
    rewrite (fin_of _ FTk), (fin_of _ FSk). cbn [eos_apply]. rewrite wright_alpha_Fin, wright_beta_Fin by exact Box. cbn [fmul fsub fadd fopp]. f_equal.
    unfold n2R. rewrite Tk, Sk. fold P zR. ring.
  - exact (n2_close n z Tc Sc (pa e) g h N3 Hh Fp Hp Fg Hg Fz Dz FT FS k Hk).
Qed.
Print Assumptions C150_n2.

(** So the sign of the stratification is right wherever it is stronger than that. *)
Theorem C150_sign : forall dims (T S : index -> f64) (z : nat -> f64) pdims (pa : index -> f64) (g : f64) eos zc n r,
  calc_n2 false (mkArr dims (fun e => of_f64 (T e))) (mkArr dims (fun e => of_f64 (S e))) (fun i => of_f64 (z i)) eos (of_f64 g)
    (mkArr pdims (fun e => of_f64 (pa e))) zc false = Ok r ->
  same_name eos "wright" -> dget zc dims = Some n -> is_finite g = true -> Rabs (B2R g) <= 10 ->
  forall e h N, (e zc < n)%nat -> bpow radix2 (-100) <= h -> is_finite (pa e) = true -> 0 <= B2R (pa e) <= 110000 ->
    (forall i, (i < n)%nat -> is_finite (z i) = true /\ 0 <= B2R (z i) <= 11900) ->
    (forall i, (i + 1 < n)%nat -> h <= B2R (z (i + 1)%nat) - B2R (z i)) ->
    (forall i, (i < n)%nat -> is_finite (T (upd e zc i)) = true /\ -2 <= B2R (T (upd e zc i)) <= 40) ->
    (forall i, (i < n)%nat -> is_finite (S (upd e zc i)) = true /\ 0 <= B2R (S (upd e zc i)) <= 42) ->
    let c := n2_64 n z (fun i => T (upd e zc i)) (fun i => S (upd e zc i)) (pa e) g (e zc) in
    at_ r e = Fin N -> Rabs N > 2.1e-13 / h -> (0 < B2R c <-> 0 < N) /\ (B2R c < 0 <-> N < 0).
Proof.
  intros dims T S z pdims pa g eos zc n r H Hn Hd Fg Hg e h N Hk Hh Fp Hp Fz Dz FT FS c EN LN.
  assert (N3 : (3 <= n)%nat).
  { assert (H' := H). rewrite (fin_of g Fg) in H'. destruct (n2_unfold _ _ _ _ _ _ _ _ _ n H' Hd) as (pres & al & be & dt & ds & _ & _ & _ & E4 & _).
    unfold differentiate in E4. cbn [adims] in E4. rewrite Hd in E4. destruct (Nat.ltb_spec n 3); [discriminate|assumption]. }
  destruct (C150_n2 _ _ _ _ _ _ _ _ _ _ _ H Hn Hd Fg Hg e h Hk Hh Fp Hp Fz Dz FT FS) as (N' & dt & ds & E1 & E2 & E3 & _ & E).
  rewrite EN in E1. injection E1 as <-. fold c in E.
  assert (Hr : bpow radix2 (-100) <= h <= bpow radix2 100).
  { split; [exact Hh|]. assert (X := Dz 0%nat ltac:(lia)). assert (Y := Fz 0%nat ltac:(lia)). assert (Z := Fz (0 + 1)%nat ltac:(lia)).
    apply Rle_trans with (bpow radix2 14); [change (bpow radix2 14) with 16384; lra|apply bpow_le; lia]. }
  set (zR := fun i => B2R (z i)).
  assert (Mono : forall i, (Datatypes.S i < n)%nat -> zR i < zR (Datatypes.S i)).
  { intros i Hi. assert (X := Dz i ltac:(lia)). rewrite Nat.add_1_r in X. assert (B := bpow_gt_0 radix2 (-100)). unfold zR. lra. }
  assert (L : forall (f : nat -> f64) M, (forall i, (i < n)%nat -> is_finite (f i) = true /\ Rabs (B2R (f i)) <= M) -> forall x,
    grad_col n (fun i => of_f64 (z i)) (fun i => of_f64 (f i)) (e zc) = Fin x -> Rabs x <= 6 * M * / h).
  { intros f M Hf x Hx. replace x with (gradR n zR (fun i => B2R (f i)) (e zc)).
    - apply grad_size; try assumption; intros i Hi; apply Hf, Hi.
    - assert (Q : Fin (gradR n zR (fun i => B2R (f i)) (e zc)) = Fin x); [|injection Q; trivial]. rewrite <- Hx.
      rewrite <- grad_col_R; [|exact N3|exact Hk|exact Mono]. symmetry. apply grad_col_same; try assumption; intros i Hi; apply fin_of; [apply Fz, Hi|apply Hf, Hi]. }
  assert (BT : forall i, (i < n)%nat -> is_finite (T (upd e zc i)) = true /\ Rabs (B2R (T (upd e zc i))) <= 40).
  { intros i Hi. destruct (FT i Hi) as [F X]. split; [exact F|apply Rabs_le; lra]. }
  assert (BS : forall i, (i < n)%nat -> is_finite (S (upd e zc i)) = true /\ Rabs (B2R (S (upd e zc i))) <= 42).
  { intros i Hi. destruct (FS i Hi) as [F X]. split; [exact F|apply Rabs_le; lra]. }
  assert (L1 := L (fun i => T (upd e zc i)) 40 BT dt E2). assert (L2 := L (fun i => S (upd e zc i)) 42 BS ds E3).
  assert (Hp' := H_pos h Hr). assert (D : forall q, q / h = q * / h) by reflexivity. rewrite D in E, LN. clear D. set (Hi := / h) in *. clear - E LN L1 L2 Hp'.
  assert (B : Rabs (B2R c - N) < Rabs N) by lra.
  apply Rabs_lt_inv in B. destruct (Rcase_abs N) as [G|G]; [rewrite (Rabs_left N) in * by exact G|rewrite (Rabs_right N) in * by exact G]; split; split; intros; lra.
Qed.
Print Assumptions C150_sign.

(** Example: 10, 8 and 5 degrees at 5, 15 and 30 m, salinity 35. *)
Definition x_T (e : index) : f64 := match e "z_l"%string with O => of_Z 10 | 1%nat => of_Z 8 | _ => of_Z 5 end.
Definition x_S (e : index) : f64 := of_Z 35.
Definition x_z (i : nat) : f64 := match i with O => of_Z 5 | 1%nat => of_Z 15 | _ => of_Z 30 end.
Definition x_g : f64 := lit (-98 # 10).
Example C150_data : 
  (exists r, calc_n2 false (mkArr [("z_l"%string, 3%nat)] (fun e => of_f64 (x_T e))) (mkArr [("z_l"%string, 3%nat)] (fun e => of_f64 (x_S e))) (fun i => of_f64 (x_z i)) "Wright" (of_f64 x_g)
     (mkArr [] (fun _ => of_f64 (of_Z 101325))) "z_l" false = Ok r) /\
  is_finite x_g = true /\ Rabs (B2R x_g) <= 10 /\
  (forall i, (i < 3)%nat -> is_finite (x_z i) = true /\ 0 <= B2R (x_z i) <= 11900) /\
  (forall i, (i + 1 < 3)%nat -> 10 <= B2R (x_z (i + 1)%nat) - B2R (x_z i)) /\
  (forall i, (i < 3)%nat -> is_finite (x_T (upd (fun _ => O) "z_l" i)) = true /\ -2 <= B2R (x_T (upd (fun _ => O) "z_l" i)) <= 40) /\
  0.00028 < B2R (n2_64 3 x_z (fun i => x_T (upd (fun _ => O) "z_l" i)) (fun i => x_S (upd (fun _ => O) "z_l" i)) (of_Z 101325) x_g 1) < 0.00029.
Proof.
  split; [eexists; reflexivity|]. split; [reflexivity|]. split; [b2r x_g E; apply Rabs_le; lra|].
  assert (A1 : B2R (of_Z 5) = 5) by apply (of_Z_rep 5 eq_refl). assert (A2 : B2R (of_Z 15) = 15) by apply (of_Z_rep 15 eq_refl). assert (A3 : B2R (of_Z 30) = 30) by apply (of_Z_rep 30 eq_refl).
  assert (A4 : B2R (of_Z 10) = 10) by apply (of_Z_rep 10 eq_refl). assert (A5 : B2R (of_Z 8) = 8) by apply (of_Z_rep 8 eq_refl).
  split; [|split; [|split]].
  - intros [|[|[|i]]] Hi; try lia; (split; [reflexivity|]); unfold x_z; rewrite ?A1, ?A2, ?A3; lra.
  - intros [|[|i]] Hi; try lia; unfold x_z; cbn [Nat.add]; rewrite ?A1, ?A2, ?A3; lra.
  - intros [|[|[|i]]] Hi; try lia; (split; [reflexivity|]); unfold x_T, upd; cbn -[of_Z B2R]; rewrite ?A1, ?A4, ?A5; lra.
  - set (r := n2_64 _ _ _ _ _ _ _). b2r r E. lra.
Qed.

(** ** C151: a homogeneous column *)
(** In exact arithmetic a column of constant temperature and salinity has no stratification. *)
Lemma gradR_const n x c k : (3 <= n)%nat -> (k < n)%nat -> (forall i, (i + 1 < n)%nat -> x i < x (i + 1)%nat) -> gradR n x (fun _ => c) k = 0.
Proof.
  intros Hn Hk Hx. unfold gradR. destruct (Nat.eqb_spec k 0) as [->|K0]; [|destruct (Nat.eqb_spec k (n - 1)) as [->|K1]].
  - assert (A := Hx 0%nat ltac:(lia)). assert (B := Hx 1%nat ltac:(lia)). unfold firstR.
    set (D1 := x (0 + 1)%nat - x 0%nat) in *. set (D2 := x (1 + 1)%nat - x 1%nat) in *. assert (0 < D1) by (unfold D1; lra). assert (0 < D2) by (unfold D2; lra). field. lra.
  - assert (A := Hx (n - 3)%nat ltac:(lia)). assert (B := Hx (n - 2)%nat ltac:(lia)). unfold lastR.
    set (D1 := x (n - 3 + 1)%nat - x (n - 3)%nat) in *. set (D2 := x (n - 2 + 1)%nat - x (n - 2)%nat) in *. assert (0 < D1) by (unfold D1; lra). assert (0 < D2) by (unfold D2; lra). field. lra.
  - assert (A := Hx (k - 1)%nat ltac:(lia)). assert (B := Hx k ltac:(lia)). unfold interiorR.
    set (D1 := x (k - 1 + 1)%nat - x (k - 1)%nat) in *. set (D2 := x (k + 1)%nat - x k) in *. assert (0 < D1) by (unfold D1; lra). assert (0 < D2) by (unfold D2; lra). field. lra.
Qed.
(** With binary64 numbers the three weights of a column of unequal steps do not cancel: water of
    10 degrees and salinity 35 at 5, 15 and 30 m is unstable at the top and stable at the bottom. *)
Theorem C151_homogeneous_refuted : ~ (forall n z T S patm g k, (3 <= n)%nat -> (k < n)%nat -> 
  (forall i, (i < n)%nat -> is_finite (z i) = true /\ 0 <= B2R (z i) <= 11900) ->
  (forall i, (i + 1 < n)%nat -> 10 <= B2R (z (i + 1)%nat) - B2R (z i)) ->
  is_finite T = true -> -2 <= B2R T <= 40 -> is_finite S = true -> 0 <= B2R S <= 42 ->
  is_finite patm = true -> 0 <= B2R patm <= 110000 -> is_finite g = true -> Rabs (B2R g) <= 10 ->
  B2R (n2_64 n z (fun _ => T) (fun _ => S) patm g k) = 0).
Proof.
  intros H. destruct C150_data as (_ & _ & Hg & Hz & Dz & _ & _).
  assert (A1 : B2R (of_Z 10) = 10) by apply (of_Z_rep 10 eq_refl). assert (A2 : B2R (of_Z 35) = 35) by apply (of_Z_rep 35 eq_refl).
  assert (A3 : B2R (of_Z 101325) = 101325) by apply (of_Z_rep 101325 eq_refl).
  specialize (H 3%nat x_z (of_Z 10) (of_Z 35) (of_Z 101325) x_g 0%nat ltac:(lia) ltac:(lia) Hz Dz eq_refl ltac:(lra) eq_refl ltac:(lra) eq_refl ltac:(lra) eq_refl Hg).
  set (r := n2_64 _ _ _ _ _ _ _) in H. b2r r E. lra.
Qed.
Print Assumptions C151_homogeneous_refuted.
Example C151_signs : B2R (n2_64 3 x_z (fun _ => of_Z 10) (fun _ => of_Z 35) (of_Z 101325) x_g 0) < 0
  /\ B2R (n2_64 3 x_z (fun _ => of_Z 10) (fun _ => of_Z 35) (of_Z 101325) x_g 2) > 0
  /\ Bltb (n2_64 3 x_z (fun _ => of_Z 10) (fun _ => of_Z 35) (of_Z 101325) x_g 0) zero = true.
Proof.
  set (r := n2_64 _ _ _ _ _ _ 0). set (s := n2_64 _ _ _ _ _ _ 2). b2r r E. b2r s F. split; [lra|]. split; [lra|]. vm_compute. reflexivity.
Qed.

(** What holds: the exact value is zero and the computed one at most 6e-15 over the smallest step.
    Missing for the full claim: that the computed value is zero. *)
Theorem C151_homogeneous_partial : forall dims (T S : f64) (z : nat -> f64) pdims (pa : index -> f64) (g : f64) eos zc n r,
  calc_n2 false (mkArr dims (fun e => of_f64 T)) (mkArr dims (fun e => of_f64 S)) (fun i => of_f64 (z i)) eos (of_f64 g)
    (mkArr pdims (fun e => of_f64 (pa e))) zc false = Ok r ->
  same_name eos "wright" -> dget zc dims = Some n -> is_finite g = true -> Rabs (B2R g) <= 10 ->
  is_finite T = true -> -2 <= B2R T <= 40 -> is_finite S = true -> 0 <= B2R S <= 42 ->
  forall e h, (e zc < n)%nat -> bpow radix2 (-100) <= h -> is_finite (pa e) = true -> 0 <= B2R (pa e) <= 110000 ->
    (forall i, (i < n)%nat -> is_finite (z i) = true /\ 0 <= B2R (z i) <= 11900) ->
    (forall i, (i + 1 < n)%nat -> h <= B2R (z (i + 1)%nat) - B2R (z i)) ->
    at_ r e = Fin 0 /\ is_finite (n2_64 n z (fun _ => T) (fun _ => S) (pa e) g (e zc)) = true /\
    Rabs (B2R (n2_64 n z (fun _ => T) (fun _ => S) (pa e) g (e zc))) <= 6e-15 / h.
Proof.
  intros dims T S z pdims pa g eos zc n r H Hn Hd Fg Hg FT HT FS HS e h Hk Hh Fp Hp Fz Dz.
  destruct (C150_n2 dims (fun _ => T) (fun _ => S) z pdims pa g eos zc n r H Hn Hd Fg Hg e h Hk Hh Fp Hp Fz Dz (fun _ _ => conj FT HT) (fun _ _ => conj FS HS))
    as (N & dt & ds & E1 & E2 & E3 & F & E).
  assert (N3 : (3 <= n)%nat).
  { assert (H' := H). rewrite (fin_of g Fg) in H'. destruct (n2_unfold _ _ _ _ _ _ _ _ _ n H' Hd) as (pres & al & be & dt' & ds' & _ & _ & _ & E4 & _).
    unfold differentiate in E4. cbn [adims] in E4. rewrite Hd in E4. destruct (Nat.ltb_spec n 3); [discriminate|assumption]. }
  assert (B := bpow_gt_0 radix2 (-100)).
  assert (Z : forall c x, is_finite c = true -> grad_col n (fun i => of_f64 (z i)) (fun _ => of_f64 c) (e zc) = Fin x -> x = 0).
  { intros c x Fc Hx. assert (Q : Fin x = Fin (gradR n (fun i => B2R (z i)) (fun _ => B2R c) (e zc))).
    - rewrite <- Hx, <- grad_col_R; [|exact N3|exact Hk|].
      + apply grad_col_same; try assumption; intros i Hi; apply fin_of; [apply Fz, Hi|exact Fc].
      + intros i Hi. assert (X := Dz i ltac:(lia)). rewrite Nat.add_1_r in X. lra.
    - injection Q as ->. apply gradR_const; try assumption. intros i Hi. assert (X := Dz i Hi). lra. }
  apply (Z T dt FT) in E2. apply (Z S ds FS) in E3. subst dt ds. rewrite Rabs_R0 in E.
  assert (N0 : N = 0).
  { assert (H' := H). rewrite (fin_of g Fg) in H'. destruct (n2_unfold _ _ _ _ _ _ _ _ _ n H' Hd) as (pres & al & be & dt' & ds' & P1 & P2 & P3 & P4 & P5 & P6).
    specialize (P6 e). rewrite E1 in P6. destruct (Fz _ Hk) as [Fzk Hzk].
    assert (Ep : at_ pres e = Fin (B2R (z (e zc)) * 10000 + B2R (pa e))).
    { unfold pressure_from_depth in P1. apply amap2_inv in P1. subst pres. cbn [at_ const_r amap zarr]. rewrite (fin_of _ Fp), (fin_of _ Fzk). reflexivity. }
    assert (Box : ocean_box (B2R T) (B2R S) (B2R (z (e zc)) * 10000 + B2R (pa e))) by (unfold ocean_box; lra).
    assert (G0 : forall c, is_finite c = true -> grad_col n (fun i => of_f64 (z i)) (fun _ => of_f64 c) (e zc) = Fin 0).
    { intros c Fc. rewrite <- (gradR_const n (fun i => B2R (z i)) (B2R c) (e zc) N3 Hk) by (intros i Hi; assert (X := Dz i Hi); lra).
      rewrite <- grad_col_R; [|exact N3|exact Hk|].
      - apply grad_col_same; try assumption; intros i Hi; apply fin_of; [apply Fz, Hi|exact Fc].
      - intros i Hi. assert (X := Dz i ltac:(lia)). rewrite Nat.add_1_r in X. lra. }
    assert (Edt : at_ dt' e = Fin 0).
    { unfold differentiate in P4. cbn [adims] in P4. rewrite Hd in P4. destruct (Nat.ltb n 3); [discriminate|]. injection P4 as <-. exact (G0 T FT). }
    assert (Eds : at_ ds' e = Fin 0).
    { unfold differentiate in P5. cbn [adims] in P5. rewrite Hd in P5. destruct (Nat.ltb n 3); [discriminate|]. injection P5 as <-. exact (G0 S FS). }
    rewrite (wright_eos_inv _ _ _ _ _ _ _ Hn P2), (wright_eos_inv _ _ _ _ _ _ _ Hn P3), Ep, Edt, Eds in P6. cbn [at_] in P6.
    rewrite (fin_of _ FT), (fin_of _ FS) in P6. cbn [eos_apply] in P6. rewrite wright_alpha_Fin, wright_beta_Fin in P6 by exact Box. cbn [fmul fsub fadd fopp] in P6.
    injection P6 as ->. ring. }
  subst N. split; [exact E1|]. split; [exact F|]. rewrite Rminus_0_r in E. lra.
Qed.
Print Assumptions C151_homogeneous_partial.
