(** * ProofsFields3: array-level statements for C07, C19, C25, C26 (proofs only) *)
From Coq Require Import Reals Lra Lia List String Bool Arith FunctionalExtensionality.
From Verif Require Import Num NumFacts Py Arr ArrFacts Eos SpecEos Spice Derived ProofsEos ProofsEosBox ProofsEosApi ProofsFields ProofsFields2.
Import ListNotations.
Local Open Scope R_scope.

Lemma pdens_rule t s l patm eos :
  (0 <= l <= 7500 -> calc_pdens t s (Fin l) patm eos =
       calc_rho t s (amap (fun q => fadd (Fin (l * 10000)) q) patm) eos) /\
  (~ (0 <= l <= 7500) -> calc_pdens t s (Fin l) patm eos = Err AssertionError).
Proof.
  unfold calc_pdens. rewrite !fleb_Fin. split; intros H.
  - assert (E1 : Rleb 0 l = true) by (apply Rleb_true; lra).
    assert (E2 : Rleb l 7500 = true) by (apply Rleb_true; lra). rewrite E1, E2. reflexivity.
  - destruct (Rleb 0 l) eqn:E1; [|reflexivity]. destruct (Rleb l 7500) eqn:E2; [|reflexivity].
    apply Rleb_true in E1, E2. exfalso; apply H; lra.
Qed.

Lemma quadratic_exact a d n x b0 b1 b2 r e :
  dget d (adims a) = Some n -> strictly_monotone n x ->
  (forall i, (i < n)%nat -> at_ a (upd e d i) = Fin (b0 + b1 * x i + b2 * (x i)^2)) ->
  (e d < n)%nat -> differentiate d (fun i => Fin (x i)) a = Ok r ->
  at_ r e = Fin (b1 + 2 * b2 * x (e d)).
Proof.
  intros Hd Hm Hq He Hr. destruct (differentiate_inv _ _ _ _ _ Hd Hr) as [Hn ->]. simpl.
  rewrite <- (grad_quadratic n x Hn Hm b0 b1 b2 (e d) He).
  apply grad_col_ext; assumption.
Qed.
Lemma derivative_linear a a' c d n x u v w r r' q e f g :
  dget d (adims a) = Some n -> dget d (adims a') = Some n -> dget d (adims c) = Some n ->
  strictly_monotone n x ->
  (forall i, (i < n)%nat -> at_ a (upd e d i) = Fin (f i)) ->
  (forall i, (i < n)%nat -> at_ a' (upd e d i) = Fin (g i)) ->
  (forall i, (i < n)%nat -> at_ c (upd e d i) = Fin (w + u * f i + v * g i)) ->
  (e d < n)%nat ->
  differentiate d (fun i => Fin (x i)) a = Ok r -> differentiate d (fun i => Fin (x i)) a' = Ok r' ->
  differentiate d (fun i => Fin (x i)) c = Ok q ->
  exists p p', at_ r e = Fin p /\ at_ r' e = Fin p' /\ at_ q e = Fin (u * p + v * p').
Proof.
  intros H1 H2 H3 Hm Hf Hg Hc He D1 D2 D3.
  destruct (differentiate_inv _ _ _ _ _ H1 D1) as [Hn ->].
  destruct (differentiate_inv _ _ _ _ _ H2 D2) as [_ ->].
  destruct (differentiate_inv _ _ _ _ _ H3 D3) as [_ ->]. simpl.
  destruct (grad_linear n x Hn Hm f g u v w (e d) He) as (p & p' & G1 & G2 & G3).
  exists p, p'. rewrite <- G1, <- G2, <- G3. repeat split; apply grad_col_ext; assumption.
Qed.
Lemma differentiate_total a d x :
  (exists n, dget d (adims a) = Some n /\ (3 <= n)%nat /\ is_ok (differentiate d x a) = true) \/
  differentiate d x a = Err ValueError.
Proof.
  unfold differentiate. destruct (dget d (adims a)) as [n|]; [|right; reflexivity].
  destruct (Nat.ltb_spec n 3); [right; reflexivity|]. left. exists n. repeat split; auto.
Qed.

(** Within |angle| < 45 the column is stable exactly where the temperature contribution is. *)
Lemma angle_vs_stability a b x y g : g < 0 -> (b * y) * (a * x) < 0 ->
  (0 < g * (a * x - b * y) <-> a * x < 0).
Proof.
  intros Hg H. split; intros H1.
  - assert (a * x - b * y < 0) by nra. destruct (Rlt_dec (a * x) 0); [assumption|]. nra.
  - assert (0 < b * y) by nra. nra.
Qed.

(** The witness for C26: temperature increasing and salinity decreasing with depth. *)
Definition w_T : arr := mkArr [("z_l"%string, 3%nat)] (fun e => Fin (INR (e "z_l"%string))).
Definition w_S : arr := mkArr [("z_l"%string, 3%nat)] (fun e => Fin (2 - INR (e "z_l"%string))).
Definition w_e : index := fun _ => 1%nat.
Definition w_z (i : nat) : fval := Fin (INR i).

Lemma w_monotone : strictly_monotone 3 INR.
Proof. left. intros i _. rewrite S_INR. lra. Qed.

Lemma angle_not_stability :
  exists t s z patm r n2 e ang n,
    calc_stability_angle false t s (scalar (Fin patm)) z "Linear" "z_l" = Ok r /\
    calc_n2 false t s z "Linear" (Fin (-9.8)) (scalar (Fin patm)) "z_l" false = Ok n2 /\
    at_ r e = Fin ang /\ -45 < ang < 45 /\ at_ n2 e = Fin n /\ n < 0.
Proof.
  assert (Dt := quadratic_exact w_T "z_l" 3 INR 0 1 0).
  assert (Ds := quadratic_exact w_S "z_l" 3 INR 2 (-1) 0).
  destruct (differentiate "z_l" w_z w_T) as [dt|] eqn:Edt; [|discriminate].
  destruct (differentiate "z_l" w_z w_S) as [ds|] eqn:Eds; [|discriminate].
  specialize (Dt dt w_e eq_refl w_monotone). specialize (Ds ds w_e eq_refl w_monotone).
  assert (Et : at_ dt w_e = Fin 1).
  { rewrite Dt; [f_equal; ring| |unfold w_e; lia|exact Edt].
    intros i _. simpl. f_equal. rewrite upd_same. ring. }
  assert (Es : at_ ds w_e = Fin (-1)).
  { rewrite Ds; [f_equal; ring| |unfold w_e; lia|exact Eds].
    intros i _. simpl. f_equal. rewrite upd_same. ring. }
  destruct (calc_stability_angle false w_T w_S (scalar (Fin 101325)) w_z "Linear" "z_l") as [r|] eqn:Er; [|discriminate].
  destruct (calc_n2 false w_T w_S w_z "Linear" (Fin (-9.8)) (scalar (Fin 101325)) "z_l" false) as [n2|] eqn:En; [|discriminate].
  destruct (calc_alpha false w_T w_S (scalar (Fin 101325)) "Linear") as [al|] eqn:Eal; [|discriminate].
  destruct (calc_beta false w_T w_S (scalar (Fin 101325)) "Linear") as [be|] eqn:Ebe; [|discriminate].
  assert (Hname : same_name "Linear" "linear") by (apply same_name_lower; reflexivity).
  assert (V : forall q, linear_alpha false (at_ w_T w_e) (at_ w_S w_e) q = Fin ((2/10) / lin_rho 1 1) /\
                        linear_beta false (at_ w_T w_e) (at_ w_S w_e) q = Fin ((8/10) / lin_rho 1 1)).
  { intros q. unfold linear_alpha, linear_beta.
    assert (E1 : at_ w_T w_e = Fin 1) by reflexivity.
    assert (E2 : at_ w_S w_e = Fin 1) by (change (Fin (2 - INR 1) = Fin 1); f_equal; simpl; lra).
    rewrite E1, E2, linear_density_Fin. unfold full_like, DRHO_DT, DRHO_DS.
    assert (lin_rho 1 1 <> 0) by (unfold lin_rho; lra).
    rewrite !fdiv_Fin by assumption. simpl. split; f_equal; field; assumption. }
  assert (R0 : 0 < lin_rho 1 1) by (unfold lin_rho; lra).
  assert (Va : at_ al w_e = Fin ((2/10) / lin_rho 1 1)).
  { rewrite (calc_linear_inv _ _ _ _ _ _ _ Hname Eal). apply V. }
  assert (Vb : at_ be w_e = Fin ((8/10) / lin_rho 1 1)).
  { rewrite (calc_linear_inv _ _ _ _ _ _ _ Hname Ebe). apply V. }
  destruct (angle_facts _ _ _ _ _ _ _ _ _ _ _ _ _ _ _ _ _ Er Eal Ebe Edt Eds Va Vb Et Es) as [_ HA].
  assert (Pa : 0 < (2/10) / lin_rho 1 1) by (apply Rdiv_lt_0_compat; lra).
  assert (Pb : 0 < (8/10) / lin_rho 1 1) by (apply Rdiv_lt_0_compat; lra).
  destruct HA as (ang & E & _ & _ & _ & H45 & _); [lra|].
  destruct (n2_unfold _ _ _ _ _ _ _ _ _ 3 En eq_refl) as (pres & al' & be' & dt' & ds' & Hp & Hal & Hbe & Hdt & Hds & Hr).
  rewrite Edt in Hdt; injection Hdt as <-. rewrite Eds in Hds; injection Hds as <-.
  exists w_T, w_S, w_z, 101325, r, n2, w_e, ang, (-9.8 * ((2/10) / lin_rho 1 1 * 1 - (8/10) / lin_rho 1 1 * -1)).
  split; [exact Er|]. split; [exact En|]. split; [exact E|].
  split; [apply H45; nra|]. split; [|nra].
  rewrite Hr, Et, Es. rewrite (calc_linear_inv _ _ _ _ _ _ _ Hname Hal), (calc_linear_inv _ _ _ _ _ _ _ Hname Hbe).
  simpl eos_apply. rewrite (proj1 (V _)), (proj2 (V _)). reflexivity.
Qed.
