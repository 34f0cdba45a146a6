(** * PropertiesFloat7: C148 (the inverse barometer in binary64) *)
From Coq Require Import Reals Lra Lia List ZArith QArith Qreals Bool String.
From Flocq Require Import Core IEEE754.BinarySingleNaN.
From Verif Require Import Num Py Arr Eos Derived SpecFloat64 Ieee IeeeTime IeeeDerived SpecIeee SpecEos ProofsEos ProofsEosBox ProofsFloat ProofsFloat2 ProofsIeee
  ProofsFloat3 ProofsFloat4 ProofsFloat5 ProofsFloat6 ProofsFields ProofsEosApi.
Import ListNotations.
Local Open Scope R_scope.

Definition env_ib (T S p g : R) (i : nat) : R := match i with O => T | 1%nat => S | 2%nat => p | _ => g end.
Definition box_ib (i : nat) : bnd :=
  match i with O => whole (-2) 40 | 1%nat => whole 0 42 | 2%nat => whole 0 200000 | _ => whole 9 10 end.
Definition e_ib : expr := Mul F64 (V 2) (Div F64 (Lit (-1)) (Mul F64 (e_density F64 xT xS (V 2)) (V 3))).
Definition e_ibl : expr := Mul F64 (V 2) (Div F64 (Lit (-1)) (Mul F64 (e_linear F64 xT xS) (V 3))).

Section Point.
  Variables T S p g : f64.
  Hypotheses (F1 : is_finite T = true) (F2 : is_finite S = true) (F3 : is_finite p = true) (F4 : is_finite g = true).
  Hypotheses (H1 : -2 <= B2R T <= 40) (H2 : 0 <= B2R S <= 42) (H3 : 0 <= B2R p <= 200000) (H4 : 9 <= B2R g <= 10).
  Let env := env_ib (B2R T) (B2R S) (B2R p) (B2R g).

  Lemma ib_within i : within (box_ib i) (env i) (env i).
  Proof. destruct i as [|[|[|i]]]; apply whole_ok; assumption. Qed.

  Lemma from_bound e x (v : f64) k : exact env e = x -> tracks64 env v e ->
    match bound box_ib e with Some r => (er r * 10 ^ 15 <=? k * one)%Z | None => false end = true ->
    is_finite v = true /\ Rabs (B2R v - x) <= IZR k / 10 ^ 15.
  Proof.
    intros Ex Tr K. destruct (bound box_ib e) as [r|] eqn:Eb; [|discriminate].
    destruct (bound_sound e env box_ib r ib_within Eb) as [[_ W] R]. destruct (Tr R) as [F V].
    split; [exact F|]. rewrite V, <- Ex. eapply Rle_trans; [exact W|].
    apply Z.leb_le, IZR_le in K. rewrite !mult_IZR in K. assert (O := one_pos). unfold ProofsFloat.fx.
    apply Rmult_le_reg_r with (IZR one); [exact O|]. replace (IZR (er r) / IZR one * IZR one) with (IZR (er r)) by (field; lra).
    change (IZR (10 ^ 15)) with 1000000000000000 in K. replace (10 ^ 15) with 1000000000000000 by ring.
    replace (IZR k / 1000000000000000 * IZR one) with (IZR k * IZR one / 1000000000000000) by (unfold Rdiv; ring).
    apply Rmult_le_reg_r with 1000000000000000; [lra|]. replace (IZR k * IZR one / 1000000000000000 * 1000000000000000) with (IZR k * IZR one) by lra. exact K.
  Qed.

  Lemma ib_close : is_finite (inverse_barometer64 T S p g) = true /\
    Rabs (B2R (inverse_barometer64 T S p g) - - B2R p / (wr_rho (B2R T) (B2R S) (B2R p) * B2R g)) <= 132 / 10 ^ 15.
  Proof.
    apply from_bound with (e := e_ib); [| |vm_compute; reflexivity].
    - assert (B : ocean_box (B2R T) (B2R S) (B2R p)) by (unfold ocean_box; lra).
      assert (D := denom_pos _ _ _ B). assert (Rb := rho_bounds _ _ _ B).
      unfold e_ib, e_density. cbn [exact].
      assert (E1 : exact env (e_p0 F64 xT xS) = wr_p0 (B2R T) (B2R S)) by exact (ex_p0 F64 (B2R T) (B2R S) 0).
      assert (E2 : exact env (e_al0 F64 xT xS) = wr_alpha0 (B2R T) (B2R S)) by exact (ex_al0 F64 (B2R T) (B2R S) 0).
      assert (E3 : exact env (e_lam F64 xT xS) = wr_lambda (B2R T) (B2R S)) by exact (ex_lam F64 (B2R T) (B2R S) 0).
      unfold e_den. cbn [exact]. rewrite E1, E2, E3, Q2R_1. unfold env, env_ib. unfold wr_rho, wr_denom in *.
      replace (Q2R (-1)) with (-1) by (unfold Q2R; cbn; lra). set (d := _ + _ * _) in *. set (a := _ + wr_p0 _ _) in *.
      assert (a <> 0) by (intros X; rewrite X in Rb; unfold Rdiv in Rb; rewrite Rmult_0_l in Rb; lra).
      field. repeat split; lra.
    - unfold inverse_barometer64, barometer64, e_ib, e_density, density64, e_den, al0_64, p0_64, lam_64, e_al0, e_p0, e_lam.
      cbv zeta. unfold env. track.
  Qed.

  Lemma ibl_close : is_finite (inverse_barometer_linear64 T S p g) = true /\
    Rabs (B2R (inverse_barometer_linear64 T S p g) - - B2R p / (lin_rho (B2R T) (B2R S) * B2R g)) <= 132 / 10 ^ 15.
  Proof.
    apply from_bound with (e := e_ibl); [| |vm_compute; reflexivity].
    - unfold e_ibl. cbn [exact].
      assert (E1 : exact env (e_linear F64 xT xS) = lin_rho (B2R T) (B2R S)) by (unfold e_linear, lin_rho; cbn [exact]; unfold Q2R; cbn [Qnum Qden]; cbn; lra).
      rewrite E1. unfold env, env_ib. replace (Q2R (-1)) with (-1) by (unfold Q2R; cbn; lra).
      field. unfold lin_rho. split; lra.
    - unfold inverse_barometer_linear64, barometer64, e_ibl, e_linear, linear_density64. unfold env. track.
  Qed.
End Point.
Definition e_ibd : expr := Mul F64 (V 2) (Div F64 (Lit (-1)) (Mul F64 (e_density F64 xT xS (V 2)) (Lit (98 # 10)))).
Section Default.
  Variables T S p : f64.
  Hypotheses (F1 : is_finite T = true) (F2 : is_finite S = true) (F3 : is_finite p = true).
  Hypotheses (H1 : -2 <= B2R T <= 40) (H2 : 0 <= B2R S <= 42) (H3 : 0 <= B2R p <= 200000).
  Let env := env_ib (B2R T) (B2R S) (B2R p) (B2R (of_Z 9)).
  Lemma nine : is_finite (of_Z 9) = true /\ 9 <= B2R (of_Z 9) <= 10.
  Proof. split; [reflexivity|]. set (n := of_Z 9). b2r n E. lra. Qed.

  Lemma ibd_close : is_finite (inverse_barometer64 T S p (lit (98 # 10))) = true /\
    Rabs (B2R (inverse_barometer64 T S p (lit (98 # 10))) - - B2R p / (wr_rho (B2R T) (B2R S) (B2R p) * 9.8)) <= 132 / 10 ^ 15.
  Proof.
    destruct nine as [F4 H4]; apply (from_bound T S p (of_Z 9) H1 H2 H3 H4) with (e := e_ibd); [| |vm_compute; reflexivity]; fold env.
    - assert (B : ocean_box (B2R T) (B2R S) (B2R p)) by (unfold ocean_box; lra).
      assert (D := denom_pos _ _ _ B). assert (Rb := rho_bounds _ _ _ B).
      unfold e_ibd, e_density. cbn [exact].
      assert (E1 : exact env (e_p0 F64 xT xS) = wr_p0 (B2R T) (B2R S)) by exact (ex_p0 F64 (B2R T) (B2R S) 0).
      assert (E2 : exact env (e_al0 F64 xT xS) = wr_alpha0 (B2R T) (B2R S)) by exact (ex_al0 F64 (B2R T) (B2R S) 0).
      assert (E3 : exact env (e_lam F64 xT xS) = wr_lambda (B2R T) (B2R S)) by exact (ex_lam F64 (B2R T) (B2R S) 0).
      unfold e_den. cbn [exact]. rewrite E1, E2, E3, Q2R_1. unfold env, env_ib. unfold wr_rho, wr_denom in *.
      replace (Q2R (-1)) with (-1) by (unfold Q2R; cbn; lra). set (d := _ + _ * _) in *. set (a := _ + wr_p0 _ _) in *.
      assert (a <> 0) by (intros X; rewrite X in Rb; unfold Rdiv in Rb; rewrite Rmult_0_l in Rb; lra).
      replace (Q2R (98 # 10)) with 9.8 by (unfold Q2R; cbn; lra). field. repeat split; lra.
    - unfold inverse_barometer64, barometer64, e_ibd, e_density, density64, e_den, al0_64, p0_64, lam_64, e_al0, e_p0, e_lam.
      cbv zeta. unfold env. track.
  Qed.

End Default.

(** C148: the inverse barometer height computed in binary64 at any ocean surface and any surface
    pressure up to 2 bar is within 1.4e-13 m of the exact height. *)
Lemma rho_of eos m ti fn (t s p r : arr) : (let* f := eos_func_from_str eos fn in eos_ufunc ti f t s p) = Ok r -> same_name eos (module_name m) ->
  forall e, at_ r e = eos_apply ti (m, fn) (at_ t e) (at_ s e) (at_ p e).
Proof.
  intros H Hn e. destruct (eos_calc_pointwise ti fn t s p eos r H) as (m' & Hm & Hv & _). rewrite Hv.
  assert (m' = m) as ->; [|reflexivity].
  apply same_name_lower in Hm, Hn. rewrite Hn in Hm. destruct m, m'; try reflexivity; discriminate.
Qed.
Lemma of_f64_finite x : is_finite x = true -> of_f64 x = Fin (B2R x).
Proof. destruct x; try discriminate; reflexivity. Qed.

Theorem C148_wright : forall dims (T S p : index -> f64) (g : f64) eos h,
  inverse_barometer (mkArr dims (fun e => of_f64 (T e))) (mkArr dims (fun e => of_f64 (S e))) (mkArr dims (fun e => of_f64 (p e))) (of_f64 g) eos = Ok h ->
  same_name eos "wright" -> is_finite g = true -> 9 <= B2R g <= 10 ->
  forall e, is_finite (T e) = true -> is_finite (S e) = true -> is_finite (p e) = true ->
    -2 <= B2R (T e) <= 40 -> 0 <= B2R (S e) <= 42 -> 0 <= B2R (p e) <= 200000 ->
    exists x, at_ h e = Fin x /\ is_finite (inverse_barometer64 (T e) (S e) (p e) g) = true /\
      Rabs (B2R (inverse_barometer64 (T e) (S e) (p e) g) - x) <= 1.4e-13.
Proof.
  intros dims T S p g eos h H Hn Fg Hg e F1 F2 F3 H1 H2 H3. rewrite (of_f64_finite g Fg) in H.
  destruct (inverse_barometer_hydrostatic _ _ _ _ _ _ H ltac:(lra)) as (rho & Hr & He).
  assert (B : ocean_box (B2R (T e)) (B2R (S e)) (B2R (p e))) by (unfold ocean_box; lra).
  assert (D := denom_pos _ _ _ B). assert (Rb := rho_bounds _ _ _ B).
  assert (Er : at_ rho e = Fin (wr_rho (B2R (T e)) (B2R (S e)) (B2R (p e)))).
  { rewrite (rho_of eos Wright false FDensity _ _ _ _ Hr Hn e). cbn [at_]. rewrite !of_f64_finite by assumption.
    apply wright_density_Fin. lra. }
  destruct (proj1 (He e) _ _ Er ltac:(lra) (of_f64_finite _ F3)) as (x & Hx & E). exists x. split; [exact Hx|].
  destruct (ib_close (T e) (S e) (p e) g F1 F2 F3 Fg H1 H2 H3 Hg) as [F K]. split; [exact F|].
  replace x with (- B2R (p e) / (wr_rho (B2R (T e)) (B2R (S e)) (B2R (p e)) * B2R g)).
  - eapply Rle_trans; [exact K|]. replace (10 ^ 15) with 1000000000000000 by ring. lra.
  - set (r := wr_rho _ _ _) in *. apply Rmult_eq_reg_l with (r * B2R g); [rewrite E; field; split; lra|].
    assert (0 < r * B2R g) by (apply Rmult_lt_0_compat; lra). lra.
Qed.
Print Assumptions C148_wright.

(** The same with the linear equation of state. *)
Theorem C148_linear : forall dims (T S p : index -> f64) (g : f64) eos h,
  inverse_barometer (mkArr dims (fun e => of_f64 (T e))) (mkArr dims (fun e => of_f64 (S e))) (mkArr dims (fun e => of_f64 (p e))) (of_f64 g) eos = Ok h ->
  same_name eos "linear" -> is_finite g = true -> 9 <= B2R g <= 10 ->
  forall e, is_finite (T e) = true -> is_finite (S e) = true -> is_finite (p e) = true ->
    -2 <= B2R (T e) <= 40 -> 0 <= B2R (S e) <= 42 -> 0 <= B2R (p e) <= 200000 ->
    exists x, at_ h e = Fin x /\ is_finite (inverse_barometer_linear64 (T e) (S e) (p e) g) = true /\
      Rabs (B2R (inverse_barometer_linear64 (T e) (S e) (p e) g) - x) <= 1.4e-13.
Proof.
  intros dims T S p g eos h H Hn Fg Hg e F1 F2 F3 H1 H2 H3. rewrite (of_f64_finite g Fg) in H.
  destruct (inverse_barometer_hydrostatic _ _ _ _ _ _ H ltac:(lra)) as (rho & Hr & He).
  assert (Rb : 900 <= lin_rho (B2R (T e)) (B2R (S e))) by (unfold lin_rho; lra).
  assert (Er : at_ rho e = Fin (lin_rho (B2R (T e)) (B2R (S e)))).
  { rewrite (rho_of eos Linear false FDensity _ _ _ _ Hr Hn e). cbn [at_]. rewrite !of_f64_finite by assumption.
    apply linear_density_Fin. }
  destruct (proj1 (He e) _ _ Er ltac:(lra) (of_f64_finite _ F3)) as (x & Hx & E). exists x. split; [exact Hx|].
  destruct (ibl_close (T e) (S e) (p e) g F1 F2 F3 Fg H1 H2 H3 Hg) as [F K]. split; [exact F|].
  replace x with (- B2R (p e) / (lin_rho (B2R (T e)) (B2R (S e)) * B2R g)).
  - eapply Rle_trans; [exact K|]. replace (10 ^ 15) with 1000000000000000 by ring. lra.
  - set (r := lin_rho _ _) in *. apply Rmult_eq_reg_l with (r * B2R g); [rewrite E; field; split; lra|].
    assert (0 < r * B2R g) by (apply Rmult_lt_0_compat; lra). lra.
Qed.
Print Assumptions C148_linear.

(** The gravity of the source, 9.8, is not a binary64 number; the height is still that close to the one for exactly 9.8. *)
Theorem C148_default_gravity : forall dims (T S p : index -> f64) eos h,
  inverse_barometer (mkArr dims (fun e => of_f64 (T e))) (mkArr dims (fun e => of_f64 (S e))) (mkArr dims (fun e => of_f64 (p e))) (Fin 9.8) eos = Ok h ->
  same_name eos "wright" -> 
  forall e, is_finite (T e) = true -> is_finite (S e) = true -> is_finite (p e) = true ->
    -2 <= B2R (T e) <= 40 -> 0 <= B2R (S e) <= 42 -> 0 <= B2R (p e) <= 200000 ->
    exists x, at_ h e = Fin x /\ is_finite (inverse_barometer64 (T e) (S e) (p e) (lit (98 # 10))) = true /\
      Rabs (B2R (inverse_barometer64 (T e) (S e) (p e) (lit (98 # 10))) - x) <= 1.4e-13.
Proof.
  intros dims T S p eos h H Hn e F1 F2 F3 H1 H2 H3.
  destruct (inverse_barometer_hydrostatic _ _ _ _ _ _ H ltac:(lra)) as (rho & Hr & He).
  assert (B : ocean_box (B2R (T e)) (B2R (S e)) (B2R (p e))) by (unfold ocean_box; lra).
  assert (D := denom_pos _ _ _ B). assert (Rb := rho_bounds _ _ _ B).
  assert (Er : at_ rho e = Fin (wr_rho (B2R (T e)) (B2R (S e)) (B2R (p e)))).
  { rewrite (rho_of eos Wright false FDensity _ _ _ _ Hr Hn e). cbn [at_]. rewrite !of_f64_finite by assumption.
    apply wright_density_Fin. lra. }
  destruct (proj1 (He e) _ _ Er ltac:(lra) (of_f64_finite _ F3)) as (x & Hx & E). exists x. split; [exact Hx|].
  destruct (ibd_close (T e) (S e) (p e) F1 F2 F3 H1 H2 H3) as [F K]. split; [exact F|].
  replace x with (- B2R (p e) / (wr_rho (B2R (T e)) (B2R (S e)) (B2R (p e)) * 9.8)).
  - eapply Rle_trans; [exact K|]. replace (10 ^ 15) with 1000000000000000 by ring. lra.
  - set (r := wr_rho _ _ _) in *. apply Rmult_eq_reg_l with (r * 9.8); [rewrite E; unfold Rdiv; field; lra|].
    assert (0 < r * 9.8) by (apply Rmult_lt_0_compat; lra). lra.
Qed.
Print Assumptions C148_default_gravity.

(** Where temperature, salinity or pressure is missing both are missing. *)
Theorem C148_missing : forall dims (T S p : index -> f64) (g : f64) eos h,
  inverse_barometer (mkArr dims (fun e => of_f64 (T e))) (mkArr dims (fun e => of_f64 (S e))) (mkArr dims (fun e => of_f64 (p e))) (of_f64 g) eos = Ok h ->
  is_finite g = true -> 9 <= B2R g <= 10 ->
  forall e, T e = B754_nan \/ S e = B754_nan \/ p e = B754_nan ->
    at_ h e = NaN /\ inverse_barometer64 (T e) (S e) (p e) g = B754_nan /\ inverse_barometer_linear64 (T e) (S e) (p e) g = B754_nan.
Proof.
  intros dims T S p g eos h H Fg Hg e M. rewrite (of_f64_finite g Fg) in H.
  destruct (inverse_barometer_hydrostatic _ _ _ _ _ _ H ltac:(lra)) as (rho & _ & He). split.
  - apply (proj2 (He e)). cbn [at_]. destruct M as [M|[M|M]]; rewrite M; auto.
  - assert (N1 : forall x, add64 B754_nan x = B754_nan) by (intros []; reflexivity).
    assert (N2 : forall x, add64 x B754_nan = B754_nan) by (intros []; reflexivity).
    assert (N3 : forall x, mul64 B754_nan x = B754_nan) by (intros []; reflexivity).
    assert (N4 : forall x, mul64 x B754_nan = B754_nan) by (intros []; reflexivity).
    assert (N5 : forall x, div64 x B754_nan = B754_nan) by (intros []; reflexivity).
    unfold inverse_barometer64, inverse_barometer_linear64, barometer64, density64, linear_density64, al0_64, p0_64, lam_64. cbv zeta.
    destruct M as [-> | [-> | -> ]]; repeat progress (rewrite ?N1, ?N2, ?N3, ?N4, ?N5); split; reflexivity.
Qed.
Print Assumptions C148_missing.

Example C148_data : let T := of_Z 15 in let S := of_Z 35 in let p := of_Z 101325 in
  (exists h, inverse_barometer (mkArr [] (fun _ => of_f64 T)) (mkArr [] (fun _ => of_f64 S)) (mkArr [] (fun _ => of_f64 p)) (Fin 9.8) "Wright" = Ok h) /\
  -2 <= B2R T <= 40 /\ 0 <= B2R S <= 42 /\ 0 <= B2R p <= 200000 /\
  -10.08 < B2R (inverse_barometer64 T S p (lit (98 # 10))) < -10.07.
Proof.
  intros T S p. split; [eexists; reflexivity|]. b2r T H1. b2r S H2. b2r p H3. b2r (inverse_barometer64 T S p (lit (98 # 10))) H4. repeat split; lra.
Qed.
