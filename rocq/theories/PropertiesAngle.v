(** * PropertiesAngle: the stability angle of columns without a temperature gradient (C145) *)
From Coq Require Import Reals Lra Lia List String Bool Arith.
From Verif Require Import Num NumFacts Py Arr ArrFacts Eos SpecEos SpecSpice Derived
  ProofsEos ProofsEosBox ProofsEosApi ProofsFields ProofsFields2 ProofsFields3.
Import ListNotations.
Local Open Scope R_scope.

Lemma angle_without_dT a b y :
  degrees (fatan (let q := fdiv (fmul b y) (fmul a (Fin 0)) in fdiv (fadd (Fin 1) q) (fsub (Fin 1) q))) = NaN.
Proof.
  destruct (fmul a (Fin 0)) as [| |d] eqn:E.
  - destruct (fmul b y) as [|[]|v]; reflexivity.
  - destruct a as [|[]|a]; cbn in E; rewrite ?Reqb_refl in E; discriminate.
  - assert (d = 0). { destruct a as [|[]|a]; cbn in E; rewrite ?Reqb_refl in E; try discriminate. injection E as <-. ring. }
    subst d. cbv zeta. destruct (fmul b y) as [|[]|v]; cbn; try reflexivity;
    rewrite Reqb_refl; destruct (Reqb v 0); try reflexivity; cbn; destruct (Rltb v 0); reflexivity.
Qed.

(** C145: a column of uniform temperature has no stability angle, whatever its salinity and whatever
    the equation of state, *)
Theorem C145_isothermal_refuted : forall ti t s p x eos zc r n e c,
  calc_stability_angle ti t s p (fun i => Fin (x i)) eos zc = Ok r ->
  dget zc (adims t) = Some n -> strictly_monotone n x -> (e zc < n)%nat ->
  (forall i, (i < n)%nat -> at_ t (upd e zc i) = Fin c) ->
  at_ r e = NaN.
Proof.
  intros ti t s p x eos zc r n e c H Hn M He Ht.
  destruct (angle_unfold _ _ _ _ _ _ _ _ H) as (al & be & dt & ds & _ & _ & H3 & _ & Hr).
  assert (E : at_ dt e = Fin 0).
  { rewrite (quadratic_exact t zc n x c 0 0 dt e Hn M) by (try assumption; intros i Hi; rewrite (Ht i Hi); f_equal; ring).
    f_equal. ring. }
  rewrite Hr, E. apply angle_without_dT.
Qed.
Print Assumptions C145_isothermal_refuted.

(** also where the column is stably stratified by salinity: at 10 degC throughout, with salinity
    rising by 1 PSU per metre, N2 is positive and there is no angle. *)
Definition iso_T : arr := mkArr [("z_l"%string, 3%nat)] (fun _ => Fin 10).
Definition iso_S : arr := mkArr [("z_l"%string, 3%nat)] (fun e => Fin (34 + INR (e "z_l"%string))).
Theorem C145_stratified_refuted :
  exists t s z patm r n2 e n,
    calc_stability_angle false t s (scalar (Fin patm)) z "Linear" "z_l" = Ok r /\
    calc_n2 false t s z "Linear" (Fin (-9.8)) (scalar (Fin patm)) "z_l" false = Ok n2 /\
    at_ n2 e = Fin n /\ 0 < n /\ at_ r e = NaN.
Proof.
  destruct (calc_stability_angle false iso_T iso_S (scalar (Fin 101325)) w_z "Linear" "z_l") as [r|] eqn:Er; [|discriminate].
  destruct (calc_n2 false iso_T iso_S w_z "Linear" (Fin (-9.8)) (scalar (Fin 101325)) "z_l" false) as [n2|] eqn:En; [|discriminate].
  destruct (n2_unfold _ _ _ _ _ _ _ _ _ 3 En eq_refl) as (pres & al & be & dt & ds & _ & Hal & Hbe & Hdt & Hds & Hr).
  assert (Hname : same_name "Linear" "linear") by (apply same_name_lower; reflexivity).
  assert (Et : at_ dt w_e = Fin 0).
  { rewrite (quadratic_exact iso_T "z_l" 3 INR 10 0 0 dt w_e eq_refl w_monotone); [f_equal; ring| |unfold w_e; lia|exact Hdt].
    intros i _. simpl. f_equal. ring. }
  assert (Es : at_ ds w_e = Fin 1).
  { rewrite (quadratic_exact iso_S "z_l" 3 INR 34 1 0 ds w_e eq_refl w_monotone); [f_equal; ring| |unfold w_e; lia|exact Hds].
    intros i _. simpl. f_equal. rewrite upd_same. ring. }
  assert (E1 : at_ iso_T w_e = Fin 10) by reflexivity.
  assert (E2 : at_ iso_S w_e = Fin 35) by (change (Fin (34 + INR 1) = Fin 35); f_equal; simpl; lra).
  assert (R0 : 0 < lin_rho 10 35) by (unfold lin_rho; lra).
  exists iso_T, iso_S, w_z, 101325, r, n2, w_e, (9.8 * ((8/10) / lin_rho 10 35)).
  split; [exact Er|]. split; [exact En|]. split; [|split].
  - rewrite Hr, Et, Es. unfold calc_alpha in Hal. unfold calc_beta in Hbe.
    rewrite (calc_linear_inv _ _ _ _ _ _ _ Hname Hal), (calc_linear_inv _ _ _ _ _ _ _ Hname Hbe), E1, E2.
    simpl eos_apply. unfold linear_alpha, linear_beta. rewrite linear_density_Fin. unfold full_like, DRHO_DT, DRHO_DS.
    rewrite !fdiv_Fin by lra. simpl. f_equal. lra.
  - assert (0 < (8/10) / lin_rho 10 35) by (apply Rdiv_lt_0_compat; lra). lra.
  - apply (C145_isothermal_refuted false iso_T iso_S _ INR _ _ r 3 w_e 10 Er eq_refl w_monotone); [unfold w_e; lia|].
    intros i _. reflexivity.
Qed.
Print Assumptions C145_stratified_refuted.

(** What is true: there is an angle exactly where temperature contributes to the stratification. *)
Theorem C145_partial : forall ti t s p z eos zc r al be dt ds e a b x y,
  calc_stability_angle ti t s p z eos zc = Ok r ->
  calc_alpha ti t s p eos = Ok al -> calc_beta ti t s p eos = Ok be ->
  differentiate zc z t = Ok dt -> differentiate zc z s = Ok ds ->
  at_ al e = Fin a -> at_ be e = Fin b -> at_ dt e = Fin x -> at_ ds e = Fin y ->
  ((exists ang, at_ r e = Fin ang) <-> a <> 0 /\ x <> 0).
Proof.
  intros ti t s p z eos zc r al be dt ds e a b x y H Hal Hbe Hdt Hds Ha Hb Hx Hy.
  destruct (angle_facts ti t s p z eos zc r al be dt ds e a b x y H Hal Hbe Hdt Hds Ha Hb Hx Hy) as [H0 H1]. split.
  - intros (ang & E). destruct (Req_EM_T (a * x) 0) as [E0|E0]; [rewrite (H0 E0) in E; discriminate|].
    split; intros ->; apply E0; ring.
  - intros [A B]. destruct H1 as (ang & E & _); [apply Rmult_integral_contrapositive_currified; assumption|].
    exists ang. exact E.
Qed.
Print Assumptions C145_partial.
(** A warming column has an angle (C26_case shows one inside (-45,45)); a column of uniform temperature
    meets the hypotheses of C145_isothermal_refuted. *)
Example C145_case : (exists r ang, calc_stability_angle false w_T w_S (scalar (Fin 101325)) w_z "Linear" "z_l" = Ok r /\ at_ r w_e = Fin ang) /\
  (exists r, calc_stability_angle false iso_T iso_S (scalar (Fin 101325)) w_z "Wright" "z_l" = Ok r) /\ strictly_monotone 3 INR.
Proof.
  split; [|split; [eexists; reflexivity|exact w_monotone]].
  destruct (calc_stability_angle false w_T w_S (scalar (Fin 101325)) w_z "Linear" "z_l") as [r|] eqn:Er; [|discriminate].
  exists r. destruct (angle_unfold _ _ _ _ _ _ _ _ Er) as (al & be & dt & ds & Hal & Hbe & Hdt & Hds & _).
  assert (Hname : same_name "Linear" "linear") by (apply same_name_lower; reflexivity).
  assert (Et : at_ dt w_e = Fin 1).
  { rewrite (quadratic_exact w_T "z_l" 3 INR 0 1 0 dt w_e eq_refl w_monotone); [f_equal; ring| |unfold w_e; lia|exact Hdt].
    intros i _. simpl. f_equal. rewrite upd_same. ring. }
  assert (Es : at_ ds w_e = Fin (-1)).
  { rewrite (quadratic_exact w_S "z_l" 3 INR 2 (-1) 0 ds w_e eq_refl w_monotone); [f_equal; ring| |unfold w_e; lia|exact Hds].
    intros i _. simpl. f_equal. rewrite upd_same. ring. }
  assert (E1 : at_ w_T w_e = Fin 1) by reflexivity.
  assert (E2 : at_ w_S w_e = Fin 1) by (change (Fin (2 - INR 1) = Fin 1); f_equal; simpl; lra).
  assert (R0 : 0 < lin_rho 1 1) by (unfold lin_rho; lra).
  assert (Va : at_ al w_e = Fin ((2/10) / lin_rho 1 1)).
  { unfold calc_alpha in Hal. rewrite (calc_linear_inv _ _ _ _ _ _ _ Hname Hal), E1, E2. simpl eos_apply. unfold linear_alpha.
    rewrite linear_density_Fin. unfold full_like, DRHO_DT. rewrite fdiv_Fin by lra. simpl. f_equal. field. lra. }
  assert (Vb : at_ be w_e = Fin ((8/10) / lin_rho 1 1)).
  { unfold calc_beta in Hbe. rewrite (calc_linear_inv _ _ _ _ _ _ _ Hname Hbe), E1, E2. simpl eos_apply. unfold linear_beta.
    rewrite linear_density_Fin. unfold full_like, DRHO_DS. rewrite fdiv_Fin by lra. reflexivity. }
  destruct (proj2 (C145_partial _ _ _ _ _ _ _ _ _ _ _ _ _ _ _ _ _ Er Hal Hbe Hdt Hds Va Vb Et Es)) as (ang & E).
  { split; [|lra]. assert (0 < 2/10 / lin_rho 1 1) by (apply Rdiv_lt_0_compat; lra). lra. }
  exists ang. split; [reflexivity|exact E].
Qed.
