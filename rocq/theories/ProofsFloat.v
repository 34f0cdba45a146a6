(** * ProofsFloat: a verified bound on rounding errors (proofs only) *)
From Coq Require Import Reals Lra Lia QArith Qreals Qminmax Qabs List ZArith.
From Flocq Require Import Core Relative.
From Verif Require Import SpecFloat64.
Import ListNotations.
Local Open Scope R_scope.

(** ** Properties of [fl] *)
Definition u : R := / 2 * bpow radix2 (- (53) + 1).
Definition eta : R := / 2 * bpow radix2 (-1074).
Lemma u_pos : 0 < u.
Proof. unfold u. assert (H := bpow_gt_0 radix2 (- (53) + 1)). lra. Qed.
Lemma eta_pos : 0 < eta.
Proof. unfold eta. assert (H := bpow_gt_0 radix2 (-1074)). lra. Qed.
Lemma u_val : u = / 9007199254740992.
Proof. unfold u. simpl. lra. Qed.
Lemma u_lt : u < / 10 ^ 15.
Proof. rewrite u_val. simpl. lra. Qed.

Lemma fl_error x : Rabs (fl x - x) <= u * Rabs x + eta.
Proof.
  destruct (error_N_FLT radix2 (-1074) 53 ltac:(reflexivity) (fun x => negb (Z.even x)) x) as (e & n & He & Hn & _ & E).
  unfold fl. rewrite E. replace (x * (1 + e) + n - x) with (x * e + n) by ring.
  apply Rle_trans with (Rabs (x * e) + Rabs n); [apply Rabs_triang|]. rewrite Rabs_mult. unfold u, eta.
  assert (0 <= Rabs x) by apply Rabs_pos. assert (Rabs x * Rabs e <= Rabs x * (/ 2 * bpow radix2 (- (53) + 1))) by (apply Rmult_le_compat_l; assumption).
  lra.
Qed.
#[local] Instance prec53_ : Prec_gt_0 53. Proof. reflexivity. Qed.
#[local] Instance fexp_valid : Valid_exp (FLT_exp (-1074) 53) := FLT_exp_valid (-1074) 53.
Lemma fl_mono x y : x <= y -> fl x <= fl y.
Proof. intros H. apply round_le; [apply fexp_valid|apply valid_rnd_N|exact H]. Qed.
Lemma fl_0 : fl 0 = 0.
Proof. apply round_0. apply valid_rnd_N. Qed.
Lemma fl_idem x : fl (fl x) = fl x.
Proof. apply round_generic; [apply valid_rnd_N|]. apply generic_format_round; [apply fexp_valid|apply valid_rnd_N]. Qed.
Lemma fl_min x y : fl (Rmin x y) = Rmin (fl x) (fl y).
Proof.
  unfold Rmin. destruct (Rle_dec x y) as [H|H]; destruct (Rle_dec (fl x) (fl y)) as [H'|H']; try reflexivity.
  - exfalso. apply H', fl_mono, H.
  - apply Rle_antisym; [|exact H']. apply fl_mono. lra.
Qed.

Definition u32 : R := / 2 * bpow radix2 (- (24) + 1).
Definition eta32 : R := / 2 * bpow radix2 (-149).
Lemma u32_val : u32 = / 16777216.
Proof. unfold u32. simpl. lra. Qed.
Lemma fl32_error x : Rabs (fl32 x - x) <= u32 * Rabs x + eta32.
Proof.
  destruct (error_N_FLT radix2 (-149) 24 ltac:(reflexivity) (fun x => negb (Z.even x)) x) as (e & n & He & Hn & _ & E).
  unfold fl32. rewrite E. replace (x * (1 + e) + n - x) with (x * e + n) by ring.
  apply Rle_trans with (Rabs (x * e) + Rabs n); [apply Rabs_triang|]. rewrite Rabs_mult. unfold u32, eta32.
  assert (0 <= Rabs x) by apply Rabs_pos. assert (Rabs x * Rabs e <= Rabs x * (/ 2 * bpow radix2 (- (24) + 1))) by (apply Rmult_le_compat_l; assumption).
  lra.
Qed.

(** ** Expressions *)
Inductive fmt := F64 | F32.
Definition rnd (f : fmt) : R -> R := match f with F64 => fl | F32 => fl32 end.
Inductive expr : Type :=
| V (i : nat) | Lit (q : Q) | Cast (f : fmt) (a : expr)
| Add (f : fmt) (a b : expr) | Sub (f : fmt) (a b : expr) | Mul (f : fmt) (a b : expr) | Div (f : fmt) (a b : expr).

Fixpoint exact (env : nat -> R) (e : expr) : R :=
  match e with
  | V i => env i
  | Lit q => Q2R q
  | Cast _ a => exact env a
  | Add _ a b => exact env a + exact env b
  | Sub _ a b => exact env a - exact env b
  | Mul _ a b => exact env a * exact env b
  | Div _ a b => exact env a / exact env b
  end.
Fixpoint computed (env : nat -> R) (e : expr) : R :=
  match e with
  | V i => env i
  | Lit q => fl (Q2R q)
  | Cast f a => rnd f (computed env a)
  | Add f a b => rnd f (computed env a + computed env b)
  | Sub f a b => rnd f (computed env a - computed env b)
  | Mul f a b => rnd f (computed env a * computed env b)
  | Div f a b => rnd f (computed env a / computed env b)
  end.

(** ** Interval and error bounds in fixed-point arithmetic: an integer [z] stands for [z / 2^100] *)
Local Open Scope Z_scope.
Definition one : Z := Eval vm_compute in 2 ^ 100.
Definition fdown (z : Z) : Z := Z.shiftr z 100.
Definition fup (z : Z) : Z := - Z.shiftr (- z) 100.
Definition cdiv (a b : Z) : Z := - ((- a) / b).
Record bnd := mkB { lo : Z; hi : Z; er : Z }.
Definition min4 (a b c d : Z) : Z := Z.min (Z.min a b) (Z.min c d).
Definition max4 (a b c d : Z) : Z := Z.max (Z.max a b) (Z.max c d).
Definition mag2 (l h : Z) : Z := Z.max (Z.abs l) (Z.abs h).
Definition limit : Z := Eval vm_compute in 2 ^ 220.

(** Rounding the result of an operation with interval [l, h] and inherited error [e]. *)
Definition bits (f : fmt) : Z := match f with F64 => 53 | F32 => 24 end.
Definition rounded (f : fmt) (l h e : Z) : option bnd :=
  let m := mag2 l h in
  let e' := e - Z.shiftr (- (m + e)) (bits f) + 1 in
  if (m + e' <=? limit) then Some (mkB l h e') else None.

Definition b_cast (f : fmt) (a : bnd) := rounded f (lo a) (hi a) (er a).
Definition b_lit (q : Q) := rounded F64 (Qnum q * one / Zpos (Qden q)) (cdiv (Qnum q * one) (Zpos (Qden q))) 0.
Definition b_add f a b := rounded f (lo a + lo b) (hi a + hi b) (er a + er b).
Definition b_sub f a b := rounded f (lo a - hi b) (hi a - lo b) (er a + er b).
Definition b_mul f a b :=
  let p := lo a * lo b in let q := lo a * hi b in let r := hi a * lo b in let s := hi a * hi b in
  rounded f (fdown (min4 p q r s)) (fup (max4 p q r s))
          (fup (mag2 (lo a) (hi a) * er b + mag2 (lo b) (hi b) * er a + er a * er b)).
Definition b_div f a b :=
  let d := lo b - er b in
  if (0 <? d) && (0 <=? er b) && (lo b <=? hi b) then
    let la := lo a * one in let ha := hi a * one in
    rounded f (min4 (la / lo b) (la / hi b) (ha / lo b) (ha / hi b))
            (max4 (cdiv la (lo b)) (cdiv la (hi b)) (cdiv ha (lo b)) (cdiv ha (hi b)))
            (cdiv (er a * one) d + cdiv (mag2 (lo a) (hi a) * er b * one) (lo b * d))
  else None.

Fixpoint bound (box : nat -> bnd) (e : expr) : option bnd :=
  match e with
  | V i => Some (box i)
  | Lit q => b_lit q
  | Cast f a => match bound box a with Some x => b_cast f x | None => None end
  | Add f a b => match bound box a, bound box b with Some x, Some y => b_add f x y | _, _ => None end
  | Sub f a b => match bound box a, bound box b with Some x, Some y => b_sub f x y | _, _ => None end
  | Mul f a b => match bound box a, bound box b with Some x, Some y => b_mul f x y | _, _ => None end
  | Div f a b => match bound box a, bound box b with Some x, Some y => b_div f x y | _, _ => None end
  end.
Local Close Scope Z_scope.

(** ** Soundness *)
Definition fx (z : Z) : R := IZR z / IZR one.
Definition within (b : bnd) (x x' : R) : Prop := fx (lo b) <= x <= fx (hi b) /\ Rabs (x' - x) <= fx (er b).
Definition in_range (v : R) : Prop := Rabs v <= fx limit.

Lemma one_pos : 0 < IZR one.
Proof. apply IZR_lt. reflexivity. Qed.
Lemma fx_le a b : (a <= b)%Z -> fx a <= fx b.
Proof.
  intros H. apply IZR_le in H. unfold fx. apply Rmult_le_compat_r; [|exact H].
  apply Rlt_le, Rinv_0_lt_compat, one_pos.
Qed.
Lemma fx_lt a b : (a < b)%Z -> fx a < fx b.
Proof.
  intros H. apply IZR_lt in H. unfold fx. apply Rmult_lt_compat_r; [|exact H].
  apply Rinv_0_lt_compat, one_pos.
Qed.
Lemma fx_0 : fx 0 = 0.
Proof. unfold fx. field. assert (H := one_pos). lra. Qed.
Lemma fx_add a b : fx (a + b) = fx a + fx b.
Proof. unfold fx. rewrite plus_IZR. field. assert (H := one_pos). lra. Qed.
Lemma fx_sub a b : fx (a - b) = fx a - fx b.
Proof. unfold fx. rewrite minus_IZR. field. assert (H := one_pos). lra. Qed.
Lemma fx_opp a : fx (- a) = - fx a.
Proof. unfold fx. rewrite opp_IZR. field. assert (H := one_pos). lra. Qed.
Lemma fx_abs a : fx (Z.abs a) = Rabs (fx a).
Proof.
  unfold fx, Rdiv. rewrite Rabs_mult, abs_IZR, (Rabs_right (/ IZR one)); [reflexivity|].
  apply Rle_ge, Rlt_le, Rinv_0_lt_compat, one_pos.
Qed.
Lemma div_le z b : (0 < b)%Z -> IZR (z / b) <= IZR z / IZR b.
Proof.
  intros H. assert (D := Z.mul_div_le z b H). apply IZR_le in D. rewrite mult_IZR in D.
  assert (P : 0 < IZR b) by (apply IZR_lt; exact H).
  apply Rmult_le_reg_l with (IZR b); [exact P|]. replace (IZR b * (IZR z / IZR b)) with (IZR z) by (field; lra). exact D.
Qed.
Lemma cdiv_ge z b : (0 < b)%Z -> IZR z / IZR b <= IZR (cdiv z b).
Proof.
  intros H. unfold cdiv. assert (D := div_le (- z) b H). rewrite opp_IZR in *.
  replace (- IZR z / IZR b) with (- (IZR z / IZR b)) in D; [lra|]. unfold Rdiv. ring.
Qed.
Lemma fdown_mul a b : fx (fdown (a * b)) <= fx a * fx b.
Proof.
  unfold fdown. rewrite Z.shiftr_div_pow2 by lia. change (2 ^ 100)%Z with one.
  assert (D := div_le (a * b) one ltac:(reflexivity)). rewrite mult_IZR in D. unfold fx.
  assert (P := one_pos). replace (IZR a / IZR one * (IZR b / IZR one)) with (IZR a * IZR b / IZR one / IZR one) by (field; lra).
  apply Rmult_le_compat_r; [apply Rlt_le, Rinv_0_lt_compat, P|exact D].
Qed.
Lemma fdown_mono a b : (a <= b)%Z -> (fdown a <= fdown b)%Z.
Proof. intros H. unfold fdown. rewrite !Z.shiftr_div_pow2 by lia. apply Z.div_le_mono; [reflexivity|exact H]. Qed.
Lemma fup_mono a b : (a <= b)%Z -> (fup a <= fup b)%Z.
Proof. intros H. unfold fup. assert (D := fdown_mono (- b) (- a) ltac:(lia)). unfold fdown in D. lia. Qed.
Lemma fup_mul a b : fx a * fx b <= fx (fup (a * b)).
Proof.
  assert (D := fdown_mul (- a) b). unfold fup. unfold fdown in D. rewrite fx_opp in *.
  replace (- (a * b))%Z with (- a * b)%Z by ring. lra.
Qed.
Lemma fup_sum a b : (fup (a + b) <= fup a + fup b)%Z.
Proof.
  unfold fup. rewrite !Z.shiftr_div_pow2 by lia. set (o := (2 ^ 100)%Z).
  assert (O : (0 < o)%Z) by reflexivity.
  assert (H1 := Z.div_mod (- a) o ltac:(lia)). assert (H2 := Z.div_mod (- b) o ltac:(lia)).
  assert (M1 := Z.mod_pos_bound (- a) o O). assert (M2 := Z.mod_pos_bound (- b) o O).
  assert (L : (- a / o + - b / o <= - (a + b) / o)%Z).
  { apply Z.div_le_lower_bound; [exact O|]. nia. }
  lia.
Qed.
Lemma fup_val z : IZR z / IZR one / IZR one <= fx (fup z).
Proof.
  unfold fup. rewrite Z.shiftr_div_pow2 by lia. change (2 ^ 100)%Z with one.
  assert (D := cdiv_ge z one ltac:(reflexivity)). unfold cdiv in D. unfold fx.
  apply Rmult_le_compat_r; [apply Rlt_le, Rinv_0_lt_compat, one_pos|exact D].
Qed.
Lemma mag_R l h x : fx l <= x <= fx h -> Rabs x <= fx (mag2 l h).
Proof.
  intros [H1 H2]. unfold mag2.
  assert (A := fx_le _ _ (Z.le_max_l (Z.abs l) (Z.abs h))). assert (B := fx_le _ _ (Z.le_max_r (Z.abs l) (Z.abs h))).
  rewrite fx_abs in A, B. assert (C := Rle_abs (fx h)). assert (D := Rle_abs (- fx l)). rewrite Rabs_Ropp in D.
  apply Rabs_le. lra.
Qed.

Definition uu (f : fmt) : R := match f with F64 => u | F32 => u32 end.
Definition ee (f : fmt) : R := match f with F64 => eta | F32 => eta32 end.
Lemma rnd_error f x : Rabs (rnd f x - x) <= uu f * Rabs x + ee f.
Proof. destruct f; [apply fl_error|apply fl32_error]. Qed.
Lemma uu_pos f : 0 < uu f.
Proof. destruct f; cbn; [apply u_pos|rewrite u32_val; lra]. Qed.
Lemma ee_fx f : ee f <= fx 1.
Proof.
  unfold fx. replace (IZR one) with (bpow radix2 100) by reflexivity. unfold Rdiv. rewrite Rmult_1_l, <- bpow_opp.
  destruct f; cbn [ee].
  - unfold eta. assert (H := bpow_le radix2 (-1074) (- (100)) ltac:(lia)). assert (P := bpow_gt_0 radix2 (-1074)). lra.
  - unfold eta32. assert (H := bpow_le radix2 (-149) (- (100)) ltac:(lia)). assert (P := bpow_gt_0 radix2 (-149)). lra.
Qed.
Lemma scale_fx k z : (0 < k)%Z -> / IZR (2 ^ k) * fx z <= fx (- Z.shiftr (- z) k).
Proof.
  intros Hk. rewrite Z.shiftr_div_pow2 by lia.
  assert (P : (0 < 2 ^ k)%Z) by (apply Z.pow_pos_nonneg; lia). assert (P' : 0 < IZR (2 ^ k)) by (apply IZR_lt; exact P).
  assert (D := cdiv_ge z (2 ^ k) P). unfold cdiv in D. unfold fx.
  replace (/ IZR (2 ^ k) * (IZR z / IZR one)) with (IZR z / IZR (2 ^ k) / IZR one)
    by (field; assert (H := one_pos); lra).
  apply Rmult_le_compat_r; [apply Rlt_le, Rinv_0_lt_compat, one_pos|exact D].
Qed.
Lemma uu_fx f z : uu f * fx z <= fx (- Z.shiftr (- z) (bits f)).
Proof. destruct f; cbn [uu bits]; [rewrite u_val; apply (scale_fx 53)|rewrite u32_val; apply (scale_fx 24)]; reflexivity. Qed.

Lemma rounded_sound f l h e b x x' : rounded f l h e = Some b ->
  fx l <= x <= fx h -> Rabs (x' - x) <= fx e -> within b x (rnd f x') /\ in_range (rnd f x').
Proof.
  unfold rounded. cbv zeta. destruct (Z.leb_spec (mag2 l h + (e - Z.shiftr (- (mag2 l h + e)) (bits f) + 1)) limit) as [L|]; [|discriminate].
  intros [= <-] [H1 H2] He. apply fx_le in L. rewrite fx_add in L.
  assert (M : Rabs x <= fx (mag2 l h)) by (apply mag_R; lra).
  set (m := mag2 l h) in *. set (e' := (e - Z.shiftr (- (m + e)) (bits f) + 1)%Z) in *.
  assert (Ee : fx e' = fx e + fx (- Z.shiftr (- (m + e)) (bits f)) + fx 1).
  { unfold e'. rewrite <- !fx_add. f_equal. }
  assert (U := uu_fx f (m + e)). rewrite fx_add in U.
  assert (F := rnd_error f x'). assert (T : Rabs x' <= Rabs x + Rabs (x' - x)).
  { replace x' with (x + (x' - x)) at 1 by ring. apply Rabs_triang. }
  assert (G : Rabs (rnd f x' - x) <= Rabs (rnd f x' - x') + Rabs (x' - x)).
  { replace (rnd f x' - x) with ((rnd f x' - x') + (x' - x)) by ring. apply Rabs_triang. }
  assert (P := uu_pos f). assert (E := ee_fx f).
  assert (K : uu f * Rabs x' <= uu f * (fx m + fx e)) by (apply Rmult_le_compat_l; lra).
  assert (W : Rabs (rnd f x' - x) <= fx e') by lra.
  split.
  - split; cbn [lo hi er]; [lra|exact W].
  - assert (T' : Rabs (rnd f x') <= Rabs x + Rabs (rnd f x' - x)).
    { replace (rnd f x') with (x + (rnd f x' - x)) at 1 by ring. apply Rabs_triang. }
    unfold in_range. lra.
Qed.

Lemma mul_between a1 a2 b1 b2 x y m M :
  a1 <= x <= a2 -> b1 <= y <= b2 ->
  m <= a1 * b1 -> m <= a1 * b2 -> m <= a2 * b1 -> m <= a2 * b2 ->
  a1 * b1 <= M -> a1 * b2 <= M -> a2 * b1 <= M -> a2 * b2 <= M -> m <= x * y <= M.
Proof.
  intros Hx Hy L1 L2 L3 L4 U1 U2 U3 U4.
  assert (Q : forall c, b1 <= c <= b2 -> (m <= a1 * c <= M) /\ (m <= a2 * c <= M)).
  { intros c Hc. split.
    - destruct (Rle_dec 0 a1) as [S|S]; split; nra.
    - destruct (Rle_dec 0 a2) as [S|S]; split; nra. }
  destruct (Q y Hy) as [[A1 A2] [A3 A4]].
  destruct (Rle_dec 0 y) as [S|S]; split; nra.
Qed.

Fixpoint all_in_range (env : nat -> R) (e : expr) : Prop :=
  match e with
  | V i => True
  | Lit q => in_range (computed env e)
  | Cast _ a => all_in_range env a /\ in_range (computed env e)
  | Add _ a b | Sub _ a b | Mul _ a b => all_in_range env a /\ all_in_range env b /\ in_range (computed env e)
  | Div _ a b => all_in_range env a /\ all_in_range env b /\ in_range (computed env e) /\ computed env b <> 0
  end.

Lemma lit_sound q r : b_lit q = Some r -> within r (Q2R q) (fl (Q2R q)) /\ in_range (fl (Q2R q)).
Proof.
  intros H. change (fl (Q2R q)) with (rnd F64 (Q2R q)). apply (rounded_sound _ _ _ _ _ _ _ H).
  - assert (P : 0 < IZR (Zpos (Qden q))) by (apply IZR_lt; reflexivity). assert (O := one_pos).
    assert (D := div_le (Qnum q * one) (Zpos (Qden q)) ltac:(reflexivity)).
    assert (U := cdiv_ge (Qnum q * one) (Zpos (Qden q)) ltac:(reflexivity)).
    rewrite mult_IZR in D, U. unfold fx, Q2R.
    replace (IZR (Qnum q) * / IZR (Zpos (Qden q))) with (IZR (Qnum q) * IZR one / IZR (Zpos (Qden q)) / IZR one) by (field; lra).
    split; apply Rmult_le_compat_r; try assumption; apply Rlt_le, Rinv_0_lt_compat, O.
  - rewrite Rminus_diag_eq by reflexivity. rewrite Rabs_R0, fx_0. lra.
Qed.
Lemma add_sound f a b r x x' y y' : b_add f a b = Some r -> within a x x' -> within b y y' ->
  within r (x + y) (rnd f (x' + y')) /\ in_range (rnd f (x' + y')).
Proof.
  intros H [[A1 A2] A3] [[B1 B2] B3]. apply (rounded_sound _ _ _ _ _ _ _ H); rewrite ?fx_add; [lra|].
  replace (x' + y' - (x + y)) with ((x' - x) + (y' - y)) by ring.
  apply Rle_trans with (Rabs (x' - x) + Rabs (y' - y)); [apply Rabs_triang|lra].
Qed.
Lemma sub_sound f a b r x x' y y' : b_sub f a b = Some r -> within a x x' -> within b y y' ->
  within r (x - y) (rnd f (x' - y')) /\ in_range (rnd f (x' - y')).
Proof.
  intros H [[A1 A2] A3] [[B1 B2] B3]. apply (rounded_sound _ _ _ _ _ _ _ H); rewrite ?fx_add, ?fx_sub; [lra|].
  replace (x' - y' - (x - y)) with ((x' - x) + - (y' - y)) by ring.
  apply Rle_trans with (Rabs (x' - x) + Rabs (- (y' - y))); [apply Rabs_triang|]. rewrite Rabs_Ropp. lra.
Qed.
Lemma mul_sound f a b r x x' y y' : b_mul f a b = Some r -> within a x x' -> within b y y' ->
  within r (x * y) (rnd f (x' * y')) /\ in_range (rnd f (x' * y')).
Proof.
  unfold b_mul. cbv zeta. intros H [A A3] [B B3]. apply (rounded_sound _ _ _ _ _ _ _ H).
  - assert (Lo : forall v w z, (z <= v * w)%Z -> fx (fdown z) <= fx v * fx w).
    { intros v w z Hz. eapply Rle_trans; [apply fx_le, fdown_mono, Hz|apply fdown_mul]. }
    assert (Up : forall v w z, (v * w <= z)%Z -> fx v * fx w <= fx (fup z)).
    { intros v w z Hz. eapply Rle_trans; [apply fup_mul|apply fx_le, fup_mono, Hz]. }
    eapply mul_between; [exact A|exact B|..]; first [apply Lo | apply Up]; unfold min4, max4; lia.
  - assert (Ma := mag_R _ _ _ A). assert (Mb := mag_R _ _ _ B).
    eapply Rle_trans; [|apply fup_val].
    replace (IZR (mag2 (lo a) (hi a) * er b + mag2 (lo b) (hi b) * er a + er a * er b) / IZR one / IZR one)
      with (fx (mag2 (lo a) (hi a)) * fx (er b) + fx (mag2 (lo b) (hi b)) * fx (er a) + fx (er a) * fx (er b)).
    2:{ rewrite !plus_IZR, !mult_IZR. unfold fx. field. assert (O := one_pos). lra. }
    replace (x' * y' - x * y) with (x * (y' - y) + (y * (x' - x) + (x' - x) * (y' - y))) by ring.
    eapply Rle_trans; [apply Rabs_triang|]. rewrite Rplus_assoc. apply Rplus_le_compat.
    + rewrite Rabs_mult. apply Rmult_le_compat; try apply Rabs_pos; assumption.
    + eapply Rle_trans; [apply Rabs_triang|]. rewrite !Rabs_mult.
      apply Rplus_le_compat; apply Rmult_le_compat; try apply Rabs_pos; assumption.
Qed.
Lemma quot_val a b : (0 < b)%Z -> IZR (a * one) / IZR b / IZR one = fx a / fx b.
Proof.
  intros H. assert (P : 0 < IZR b) by (apply IZR_lt; exact H). assert (O := one_pos).
  rewrite mult_IZR. unfold fx. field. lra.
Qed.
Lemma quot_down a b : (0 < b)%Z -> fx (a * one / b) <= fx a / fx b.
Proof.
  intros H. rewrite <- quot_val by exact H. unfold fx.
  apply Rmult_le_compat_r; [apply Rlt_le, Rinv_0_lt_compat, one_pos|apply div_le, H].
Qed.
Lemma quot_up a b : (0 < b)%Z -> fx a / fx b <= fx (cdiv (a * one) b).
Proof.
  intros H. rewrite <- quot_val by exact H. unfold fx.
  apply Rmult_le_compat_r; [apply Rlt_le, Rinv_0_lt_compat, one_pos|apply cdiv_ge, H].
Qed.
Lemma div_sound f a b r x x' y y' : b_div f a b = Some r -> within a x x' -> within b y y' ->
  within r (x / y) (rnd f (x' / y')) /\ in_range (rnd f (x' / y')) /\ y' <> 0.
Proof.
  unfold b_div. cbv zeta. destruct ((0 <? lo b - er b)%Z && (0 <=? er b)%Z && (lo b <=? hi b)%Z) eqn:C; [|discriminate].
  apply andb_prop in C as [C C3]. apply andb_prop in C as [C1 C2].
  apply Z.ltb_lt in C1. apply Z.leb_le in C2, C3.
  intros H [A A3] [B B3]. set (d := (lo b - er b)%Z) in *.
  assert (Lb : (0 < lo b)%Z) by lia. assert (Hb : (0 < hi b)%Z) by lia.
  assert (Lb' := fx_lt _ _ Lb). assert (Hb' := fx_lt _ _ Hb). assert (Dp := fx_lt _ _ C1). rewrite fx_0 in *.
  assert (Ed : fx d = fx (lo b) - fx (er b)) by apply fx_sub.
  assert (Y : 0 < y) by lra. assert (Y' : fx d <= y').
  { assert (Q := Rle_abs (- (y' - y))). rewrite Rabs_Ropp in Q. lra. }
  assert (G : within r (x / y) (rnd f (x' / y')) /\ in_range (rnd f (x' / y'))); [|destruct G; repeat split; try assumption; try lra; apply H0].
  apply (rounded_sound _ _ _ _ _ _ _ H).
  - assert (Lo : forall v w z, (0 < w)%Z -> (z <= v * one / w)%Z -> fx z <= fx v * / fx w).
    { intros v w z Hw Hz. eapply Rle_trans; [apply fx_le, Hz|apply quot_down, Hw]. }
    assert (Up : forall v w z, (0 < w)%Z -> (cdiv (v * one) w <= z)%Z -> fx v * / fx w <= fx z).
    { intros v w z Hw Hz. eapply Rle_trans; [apply quot_up, Hw|apply fx_le, Hz]. }
    unfold Rdiv. apply (mul_between (fx (lo a)) (fx (hi a)) (/ fx (hi b)) (/ fx (lo b))); try assumption;
      try (first [apply Lo | apply Up]; [assumption|unfold min4, max4; lia]).
    split; apply Rinv_le_contravar; lra.
  - assert (Ma := mag_R _ _ _ A).
    rewrite fx_add.
    replace (x' / y' - x / y) with ((x' - x) / y' + - (x * (y' - y) / (y * y'))) by (field; split; lra).
    eapply Rle_trans; [apply Rabs_triang|]. rewrite Rabs_Ropp. unfold Rdiv.
    assert (I1 : / y' <= / fx d) by (apply Rinv_le_contravar; lra).
    assert (I0 : 0 < / y') by (apply Rinv_0_lt_compat; lra).
    apply Rplus_le_compat.
    + eapply Rle_trans; [|apply quot_up, C1]. unfold Rdiv.
      rewrite Rabs_mult, (Rabs_right (/ y')) by lra. apply Rmult_le_compat; try lra; apply Rabs_pos.
    + assert (Pld : (0 < lo b * d)%Z) by lia.
      assert (Q := cdiv_ge (mag2 (lo a) (hi a) * er b * one) (lo b * d) Pld).
      apply Rle_trans with (fx (mag2 (lo a) (hi a)) * fx (er b) * / (fx (lo b) * fx d)).
      * rewrite !Rabs_mult.
        assert (P : 0 < y * y') by (apply Rmult_lt_0_compat; lra).
        assert (PI' : 0 < / (y * y')) by (apply Rinv_0_lt_compat; exact P).
        rewrite (Rabs_right (/ (y * y'))) by lra.
        apply Rmult_le_compat; [apply Rmult_le_pos; apply Rabs_pos|lra| |].
        -- apply Rmult_le_compat; try apply Rabs_pos; assumption.
        -- apply Rinv_le_contravar; [apply Rmult_lt_0_compat; assumption|]. apply Rmult_le_compat; lra.
      * apply Rmult_le_compat_r with (r := / IZR one) in Q; [|apply Rlt_le, Rinv_0_lt_compat, one_pos].
        eapply Rle_trans; [|exact Q]. right.
        assert (P1 : IZR (lo b) <> 0) by (apply not_0_IZR; lia). assert (P2 : IZR d <> 0) by (apply not_0_IZR; lia).
        assert (O := one_pos). rewrite !mult_IZR. unfold fx. field. lra.
Qed.

Theorem bound_sound : forall e env box r,
  (forall i, within (box i) (env i) (env i)) -> bound box e = Some r ->
  within r (exact env e) (computed env e) /\ all_in_range env e.
Proof.
  induction e as [i|q|f a IHa|f a IHa b IHb|f a IHa b IHb|f a IHa b IHb|f a IHa b IHb]; intros env box r HB H; cbn [bound] in H.
  - injection H as <-. split; [apply HB|exact I].
  - exact (lit_sound _ _ H).
  - destruct (bound box a) as [x|] eqn:Ea; [|discriminate].
    destruct (IHa env box x HB Ea) as [[Wa Wb] Ra]. 
    destruct (rounded_sound _ _ _ _ _ _ _ H Wa Wb) as [W1 W2]. split; [exact W1|split; [exact Ra|exact W2]].
  - destruct (bound box a) as [x|] eqn:Ea; [|discriminate]. destruct (bound box b) as [y|] eqn:Eb; [|discriminate].
    destruct (IHa env box x HB Ea) as [Wa Ra]. destruct (IHb env box y HB Eb) as [Wb Rb].
    destruct (add_sound _ _ _ _ _ _ _ _ H Wa Wb) as [W1 W2]. split; [exact W1|split; [exact Ra|split; [exact Rb|exact W2]]].
  - destruct (bound box a) as [x|] eqn:Ea; [|discriminate]. destruct (bound box b) as [y|] eqn:Eb; [|discriminate].
    destruct (IHa env box x HB Ea) as [Wa Ra]. destruct (IHb env box y HB Eb) as [Wb Rb].
    destruct (sub_sound _ _ _ _ _ _ _ _ H Wa Wb) as [W1 W2]. split; [exact W1|split; [exact Ra|split; [exact Rb|exact W2]]].
  - destruct (bound box a) as [x|] eqn:Ea; [|discriminate]. destruct (bound box b) as [y|] eqn:Eb; [|discriminate].
    destruct (IHa env box x HB Ea) as [Wa Ra]. destruct (IHb env box y HB Eb) as [Wb Rb].
    destruct (mul_sound _ _ _ _ _ _ _ _ H Wa Wb) as [W1 W2]. split; [exact W1|split; [exact Ra|split; [exact Rb|exact W2]]].
  - destruct (bound box a) as [x|] eqn:Ea; [|discriminate]. destruct (bound box b) as [y|] eqn:Eb; [|discriminate].
    destruct (IHa env box x HB Ea) as [Wa Ra]. destruct (IHb env box y HB Eb) as [Wb Rb].
    destruct (div_sound _ _ _ _ _ _ _ _ H Wa Wb) as (W1 & W2 & W3). split; [exact W1|split; [exact Ra|split; [exact Rb|split; [exact W2|exact W3]]]].
Qed.
