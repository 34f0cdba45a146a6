(** * ProofsIeee: IEEE operations on finite numbers are rounded real operations (proofs only) *)
From Coq Require Import Reals Lra Lia QArith Qreals List ZArith Bool.
From Flocq Require Import Core IEEE754.BinarySingleNaN.
From Verif Require Import SpecFloat64 Ieee ProofsFloat ProofsFloat2.
Import ListNotations.
Local Open Scope R_scope.

Definition rep64 (x : f64) (r : R) : Prop := is_finite x = true /\ B2R x = r.
Definition rep32 (x : f32) (r : R) : Prop := is_finite x = true /\ B2R x = r.
Definition fits64 (r : R) : Prop := Rabs r < bpow radix2 1024.
Definition fits32 (r : R) : Prop := Rabs r < bpow radix2 128.

Lemma limit_val : fx limit = bpow radix2 120.
Proof.
  unfold fx. change (IZR limit) with (bpow radix2 220). change (IZR one) with (bpow radix2 100).
  unfold Rdiv. rewrite <- bpow_opp, <- bpow_plus. reflexivity.
Qed.
Lemma in_range_64 r : in_range r -> fits64 r.
Proof.
  unfold in_range, fits64. rewrite limit_val. intros H. eapply Rle_lt_trans; [exact H|]. apply bpow_lt. reflexivity.
Qed.
Lemma in_range_32 r : in_range r -> fits32 r.
Proof.
  unfold in_range, fits32. rewrite limit_val. intros H. eapply Rle_lt_trans; [exact H|]. apply bpow_lt. reflexivity.
Qed.

Lemma add64_rep x y a b : rep64 x a -> rep64 y b -> fits64 (fl (a + b)) -> rep64 (add64 x y) (fl (a + b)).
Proof.
  intros [F1 <-] [F2 <-] L. assert (H := Bplus_correct 53 1024 prec53 emax1024 mode_NE x y F1 F2).
  change (round radix2 (SpecFloat.fexp 53 1024) (round_mode mode_NE)) with fl in H.
  rewrite Rlt_bool_true in H by exact L. destruct H as (H1 & H2 & _). split; [exact H2|exact H1].
Qed.
Lemma sub64_rep x y a b : rep64 x a -> rep64 y b -> fits64 (fl (a - b)) -> rep64 (sub64 x y) (fl (a - b)).
Proof.
  intros [F1 <-] [F2 <-] L. assert (H := Bminus_correct 53 1024 prec53 emax1024 mode_NE x y F1 F2).
  change (round radix2 (SpecFloat.fexp 53 1024) (round_mode mode_NE)) with fl in H.
  rewrite Rlt_bool_true in H by exact L. destruct H as (H1 & H2 & _). split; [exact H2|exact H1].
Qed.
Lemma mul64_rep x y a b : rep64 x a -> rep64 y b -> fits64 (fl (a * b)) -> rep64 (mul64 x y) (fl (a * b)).
Proof.
  intros [F1 <-] [F2 <-] L. assert (H := Bmult_correct 53 1024 prec53 emax1024 mode_NE x y).
  change (round radix2 (SpecFloat.fexp 53 1024) (round_mode mode_NE)) with fl in H.
  rewrite Rlt_bool_true in H by exact L. destruct H as (H1 & H2 & _). split; [|exact H1].
  unfold mul64. rewrite H2, F1, F2. reflexivity.
Qed.
Lemma div64_rep x y a b : rep64 x a -> rep64 y b -> b <> 0 -> fits64 (fl (a / b)) -> rep64 (div64 x y) (fl (a / b)).
Proof.
  intros [F1 <-] [F2 <-] N L. assert (H := Bdiv_correct 53 1024 prec53 emax1024 mode_NE x y N).
  change (round radix2 (SpecFloat.fexp 53 1024) (round_mode mode_NE)) with fl in H.
  rewrite Rlt_bool_true in H by exact L. destruct H as (H1 & H2 & _). split; [|exact H1].
  unfold div64. rewrite H2. exact F1.
Qed.
Lemma add32_rep x y a b : rep32 x a -> rep32 y b -> fits32 (fl32 (a + b)) -> rep32 (add32 x y) (fl32 (a + b)).
Proof.
  intros [F1 <-] [F2 <-] L. assert (H := Bplus_correct 24 128 prec24 emax128 mode_NE x y F1 F2).
  change (round radix2 (SpecFloat.fexp 24 128) (round_mode mode_NE)) with fl32 in H.
  rewrite Rlt_bool_true in H by exact L. destruct H as (H1 & H2 & _). split; [exact H2|exact H1].
Qed.
Lemma mul32_rep x y a b : rep32 x a -> rep32 y b -> fits32 (fl32 (a * b)) -> rep32 (mul32 x y) (fl32 (a * b)).
Proof.
  intros [F1 <-] [F2 <-] L. assert (H := Bmult_correct 24 128 prec24 emax128 mode_NE x y).
  change (round radix2 (SpecFloat.fexp 24 128) (round_mode mode_NE)) with fl32 in H.
  rewrite Rlt_bool_true in H by exact L. destruct H as (H1 & H2 & _). split; [|exact H1].
  unfold mul32. rewrite H2, F1, F2. reflexivity.
Qed.

(** Finite numbers are representable, and conversions round. *)
Lemma rep64_fl x r : rep64 x r -> fl r = r.
Proof.
  intros [_ <-]. apply round_generic; [apply valid_rnd_N|]. exact (generic_format_B2R 53 1024 x).
Qed.
Lemma rep64_fits x r : rep64 x r -> fits64 r.
Proof. intros [_ <-]. exact (abs_B2R_lt_emax 53 1024 x). Qed.
Lemma format_32_64 r : generic_format radix2 (FLT_exp (-149) 24) r -> Rabs r <= bpow radix2 128 -> fl r = r.
Proof.
  intros H B. apply round_generic; [apply valid_rnd_N|].
  apply (generic_inclusion_le radix2 (FLT_exp (-149) 24) (FLT_exp (-1074) 53) 128); [|exact B|exact H].
  intros e _. unfold FLT_exp. lia.
Qed.
Lemma widen_rep x r : rep32 x r -> rep64 (widen x) r.
Proof.
  intros [F <-]. destruct x as [s|s| |s m e Hb]; try discriminate; [split; reflexivity|].
  set (x := B754_finite s m e Hb). 
  assert (B : Rabs (B2R x) < bpow radix2 128) by exact (abs_B2R_lt_emax 24 128 x).
  assert (E : fl (B2R x) = B2R x).
  { apply format_32_64; [exact (generic_format_B2R 24 128 x)|lra]. }
  assert (H := binary_normalize_correct 53 1024 prec53 emax1024 mode_NE (cond_Zopp s (Z.pos m)) e s).
  change (round radix2 (SpecFloat.fexp 53 1024) (round_mode mode_NE)) with fl in H.
  change (F2R {| Fnum := cond_Zopp s (Z.pos m); Fexp := e |}) with (B2R x) in H. cbv zeta in H. rewrite E in H.
  rewrite Rlt_bool_true in H.
  2:{ eapply Rlt_trans; [exact B|]. apply bpow_lt. reflexivity. }
  destruct H as (H1 & H2 & _). split; [exact H2|exact H1].
Qed.
Lemma narrow_rep x r : rep64 x r -> fits32 (fl32 r) -> rep32 (narrow x) (fl32 r).
Proof.
  intros [F <-] L. destruct x as [s|s| |s m e Hb]; try discriminate.
  { split; [reflexivity|]. cbn. symmetry. apply round_0. apply valid_rnd_N. }
  assert (H := binary_normalize_correct 24 128 prec24 emax128 mode_NE (cond_Zopp s (Z.pos m)) e s).
  change (round radix2 (SpecFloat.fexp 24 128) (round_mode mode_NE)) with fl32 in H. cbv zeta in H.
  rewrite Rlt_bool_true in H by exact L. destruct H as (H1 & H2 & _). split; [exact H2|exact H1].
Qed.

(** Literals. *)
Lemma of_Z_rep z : (Z.abs z < 2 ^ 53)%Z -> rep64 (of_Z z) (IZR z).
Proof.
  intros Hz.
  assert (E : fl (IZR z) = IZR z).
  { apply round_generic; [apply valid_rnd_N|]. apply generic_format_FLT.
    exists (Float radix2 z 0); [unfold F2R; cbn; ring|exact Hz|cbn; lia]. }
  assert (H := binary_normalize_correct 53 1024 prec53 emax1024 mode_NE z 0 false).
  change (round radix2 (SpecFloat.fexp 53 1024) (round_mode mode_NE)) with fl in H. cbv zeta in H.
  replace (F2R {| Fnum := z; Fexp := 0 |}) with (IZR z) in H by (unfold F2R; cbn; ring). rewrite E in H.
  rewrite Rlt_bool_true in H.
  - destruct H as (H1 & H2 & _). split; [exact H2|exact H1].
  - rewrite <- abs_IZR. apply Rlt_trans with (IZR (2 ^ 53)); [apply IZR_lt, Hz|].
    change (IZR (2 ^ 53)) with (bpow radix2 53). apply bpow_lt. reflexivity.
Qed.
Lemma lit_rep q : (Z.abs (Qnum q) < 2 ^ 53)%Z -> (Zpos (Qden q) < 2 ^ 53)%Z -> fits64 (fl (Q2R q)) ->
  rep64 (lit q) (fl (Q2R q)).
Proof.
  intros H1 H2 L. apply div64_rep; [apply of_Z_rep, H1|apply of_Z_rep; exact H2| |exact L].
  apply not_0_IZR. discriminate.
Qed.

(** ** Floating-point computations described by expressions *)
Section Tracks.
Variable env : nat -> R.
Definition tracks64 (x : f64) (e : expr) : Prop := all_in_range env e -> rep64 x (computed env e).
Definition tracks32 (x : f32) (e : expr) : Prop := all_in_range env e -> rep32 x (computed env e).
Lemma t_add64 x y a b : tracks64 x a -> tracks64 y b -> tracks64 (add64 x y) (Add F64 a b).
Proof. intros H1 H2 (A & B & C). apply add64_rep; [apply H1, A|apply H2, B|apply in_range_64, C]. Qed.
Lemma t_sub64 x y a b : tracks64 x a -> tracks64 y b -> tracks64 (sub64 x y) (Sub F64 a b).
Proof. intros H1 H2 (A & B & C). apply sub64_rep; [apply H1, A|apply H2, B|apply in_range_64, C]. Qed.
Lemma t_mul64 x y a b : tracks64 x a -> tracks64 y b -> tracks64 (mul64 x y) (Mul F64 a b).
Proof. intros H1 H2 (A & B & C). apply mul64_rep; [apply H1, A|apply H2, B|apply in_range_64, C]. Qed.
Lemma t_div64 x y a b : tracks64 x a -> tracks64 y b -> tracks64 (div64 x y) (Div F64 a b).
Proof. intros H1 H2 (A & B & C & D). apply div64_rep; [apply H1, A|apply H2, B|exact D|apply in_range_64, C]. Qed.
Lemma t_add32 x y a b : tracks32 x a -> tracks32 y b -> tracks32 (add32 x y) (Add F32 a b).
Proof. intros H1 H2 (A & B & C). apply add32_rep; [apply H1, A|apply H2, B|apply in_range_32, C]. Qed.
Lemma t_mul32 x y a b : tracks32 x a -> tracks32 y b -> tracks32 (mul32 x y) (Mul F32 a b).
Proof. intros H1 H2 (A & B & C). apply mul32_rep; [apply H1, A|apply H2, B|apply in_range_32, C]. Qed.
Lemma t_widen x a : tracks32 x a -> tracks64 (widen x) a.
Proof. intros H A. apply widen_rep, H, A. Qed.
Lemma t_narrow x a : tracks64 x a -> tracks32 (narrow x) (Cast F32 a).
Proof. intros H [A C]. apply narrow_rep; [apply H, A|apply in_range_32, C]. Qed.
Lemma t_lit q : (Z.abs (Qnum q) < 2 ^ 53)%Z -> (Zpos (Qden q) < 2 ^ 53)%Z -> tracks64 (lit q) (Lit q).
Proof. intros H1 H2 A. apply lit_rep; [exact H1|exact H2|apply in_range_64, A]. Qed.
Lemma t_var64 x i : is_finite x = true -> B2R x = env i -> tracks64 x (V i).
Proof. intros F E _. split; assumption. Qed.
Lemma t_var32 (x : f32) i : is_finite x = true -> B2R x = env i -> tracks32 x (V i).
Proof. intros F E _. split; assumption. Qed.
End Tracks.

(** Follow the structure of a computation. *)
Ltac track :=
  match goal with
  | |- tracks64 _ (add64 _ _) _ => apply t_add64; track
  | |- tracks64 _ (sub64 _ _) _ => apply t_sub64; track
  | |- tracks64 _ (mul64 _ _) _ => apply t_mul64; track
  | |- tracks64 _ (div64 _ _) _ => apply t_div64; track
  | |- tracks32 _ (add32 _ _) _ => apply t_add32; track
  | |- tracks32 _ (mul32 _ _) _ => apply t_mul32; track
  | |- tracks64 _ (widen _) _ => apply t_widen; track
  | |- tracks32 _ (narrow _) _ => apply t_narrow; track
  | |- tracks64 _ (lit _) _ => apply t_lit; reflexivity
  | |- tracks64 _ ?x _ => is_var x; solve [assumption | apply t_var64; [assumption|reflexivity]]
  | |- tracks32 _ ?x _ => is_var x; solve [assumption | apply t_var32; [assumption|reflexivity]]
  | |- tracks64 _ ?c _ => let c' := eval unfold A0, A1, A2, B0, B1, B2, B3, B4, B5, C0, C1, C2, C3, C4, C5 in c in
      change c with c'; apply t_lit; reflexivity
  end.

Section Eos64.
Variables (T S p : f64).
Hypotheses (FT : is_finite T = true) (FS : is_finite S = true) (Fp : is_finite p = true).
Let env := env3 (B2R T) (B2R S) (B2R p).
Let tr64 := tracks64 env.
Ltac start d e := unfold d, e; cbv zeta.
Lemma tr_al0 : tr64 (al0_64 T S) (e_al0 F64 xT xS).
Proof. unfold al0_64, e_al0, tr64. track. Qed.
Lemma tr_p0 : tr64 (p0_64 T S) (e_p0 F64 xT xS).
Proof. unfold p0_64, e_p0, tr64. track. Qed.
Lemma tr_lam : tr64 (lam_64 T S) (e_lam F64 xT xS).
Proof. unfold lam_64, e_lam, tr64. track. Qed.
Lemma tr_density : tr64 (density64 T S p) (e_density F64 xT xS xP).
Proof.
  unfold density64, e_density, e_den. cbv zeta. assert (H1 := tr_al0). assert (H2 := tr_p0). assert (H3 := tr_lam).
  generalize dependent (al0_64 T S). generalize dependent (p0_64 T S). generalize dependent (lam_64 T S).
  unfold tr64. intros. track.
Qed.
Lemma tr_dT : tr64 (drho_dtemp64 T S p) (e_dT F64 xT xS xP).
Proof.
  unfold drho_dtemp64, e_dT, e_i2, e_den. cbv zeta. assert (H1 := tr_al0). assert (H2 := tr_p0). assert (H3 := tr_lam).
  generalize dependent (al0_64 T S). generalize dependent (p0_64 T S). generalize dependent (lam_64 T S).
  unfold tr64. intros. track.
Qed.
Lemma tr_dS : tr64 (drho_dsal64 T S p) (e_dS F64 xT xS xP).
Proof.
  unfold drho_dsal64, e_dS, e_i2, e_den. cbv zeta. assert (H1 := tr_al0). assert (H2 := tr_p0). assert (H3 := tr_lam).
  generalize dependent (al0_64 T S). generalize dependent (p0_64 T S). generalize dependent (lam_64 T S).
  unfold tr64. intros. track.
Qed.
Lemma tr_alpha : tr64 (alpha64 T S p) (e_alpha F64 xT xS xP).
Proof. unfold alpha64, e_alpha. apply t_mul64; [apply t_lit; reflexivity|apply t_div64; [apply tr_dT|apply tr_density]]. Qed.
Lemma tr_beta : tr64 (beta64 T S p) (e_beta F64 xT xS xP).
Proof. unfold beta64, e_beta. apply t_div64; [apply tr_dS|apply tr_density]. Qed.
Lemma tr_linear : tr64 (linear_density64 T S) (e_linear F64 xT xS).
Proof. unfold linear_density64, e_linear, tr64. track. Qed.
End Eos64.

Section Eos32.
Variables (T S : f32) (p : f64).
Hypotheses (FT : is_finite T = true) (FS : is_finite S = true) (Fp : is_finite p = true).
Let env := env3 (B2R T) (B2R S) (B2R p).
Let tr32 := tracks32 env.
Let tr64 := tracks64 env.
Lemma ts_al0 : tr32 (al0_32 T S) (e_al0 F32 xT xS).
Proof. unfold al0_32, e_al0, tr32. track. Qed.
Lemma ts_p0 : tr32 (p0_32 T S) (e_p0 F32 xT xS).
Proof. unfold p0_32, e_p0, tr32. track. Qed.
Lemma ts_lam : tr32 (lam_32 T S) (e_lam F32 xT xS).
Proof. unfold lam_32, e_lam, tr32. track. Qed.
Lemma ts_density : tr64 (density32 T S p) (e_density F32 xT xS xP).
Proof.
  unfold density32, e_density, e_den. cbv zeta. assert (H1 := ts_al0). assert (H2 := ts_p0). assert (H3 := ts_lam).
  generalize dependent (al0_32 T S). generalize dependent (p0_32 T S). generalize dependent (lam_32 T S).
  unfold tr64, tr32. intros. track.
Qed.
Lemma ts_dT : tr64 (drho_dtemp32 T S p) (e_dT F32 xT xS xP).
Proof.
  unfold drho_dtemp32, e_dT, e_i2, e_den. cbv zeta. assert (H1 := ts_al0). assert (H2 := ts_p0). assert (H3 := ts_lam).
  generalize dependent (al0_32 T S). generalize dependent (p0_32 T S). generalize dependent (lam_32 T S).
  unfold tr64, tr32. intros. track.
Qed.
Lemma ts_dS : tr64 (drho_dsal32 T S p) (e_dS F32 xT xS xP).
Proof.
  unfold drho_dsal32, e_dS, e_i2, e_den. cbv zeta. assert (H1 := ts_al0). assert (H2 := ts_p0). assert (H3 := ts_lam).
  generalize dependent (al0_32 T S). generalize dependent (p0_32 T S). generalize dependent (lam_32 T S).
  unfold tr64, tr32. intros. track.
Qed.
Lemma ts_alpha : tr64 (alpha32 T S p) (e_alpha F32 xT xS xP).
Proof. unfold alpha32, e_alpha. apply t_mul64; [apply t_lit; reflexivity|apply t_div64; [apply ts_dT|apply ts_density]]. Qed.
Lemma ts_beta : tr64 (beta32 T S p) (e_beta F32 xT xS xP).
Proof. unfold beta32, e_beta. apply t_div64; [apply ts_dS|apply ts_density]. Qed.
Lemma ts_linear : tr32 (linear_density32 T S) (e_linear F32 xT xS).
Proof. unfold linear_density32, e_linear, tr32. track. Qed.
End Eos32.
