(** * PropertiesFields: C07-C10, C19, C20, C24-C26 *)
From Coq Require Import Reals Lra Lia List String Bool Arith.
From Verif Require Import Num NumFacts Py Arr ArrFacts Eos SpecEos Spice SpecSpice Derived
  ProofsEos ProofsEosBox ProofsEosApi ProofsFields ProofsFields2 ProofsFields3 ProofsSpice.
Import ListNotations.
Local Open Scope R_scope.

(** C07: a successful call acts label by label; the Linear equation ignores pressure. *)
Theorem C07_rho_alpha_beta_pointwise : forall ti t s p eos r fn,
  match fn with
  | FDensity => calc_rho t s p eos | FAlpha => calc_alpha ti t s p eos | FBeta => calc_beta ti t s p eos
  end = Ok r ->
  exists m, same_name eos (module_name m) /\
    (forall e, at_ r e =
       match m, fn with
       | Wright, FDensity => wright_density | Wright, FAlpha => wright_alpha | Wright, FBeta => wright_beta
       | Linear, FDensity => linear_density | Linear, FAlpha => linear_alpha ti | Linear, FBeta => linear_beta ti
       end (at_ t e) (at_ s e) (at_ p e)) /\
    (forall d, In d (names r) <-> In d (names t) \/ In d (names s) \/ In d (names p)) /\
    (forall e, at_ t e = NaN \/ at_ s e = NaN \/ (m = Wright /\ at_ p e = NaN) -> at_ r e = NaN).
Proof.
  intros ti t s p eos r fn H. destruct fn.
  - destruct (eos_calc_pointwise false FDensity t s p eos r H) as (m & H1 & H2 & H3 & H4).
    exists m. split; [exact H1|]. split; [|split; assumption]. intros e. rewrite H2. destruct m; reflexivity.
  - destruct (eos_calc_pointwise ti FAlpha t s p eos r H) as (m & H1 & H2 & H3 & H4).
    exists m. split; [exact H1|]. split; [|split; assumption]. intros e. rewrite H2. destruct m; reflexivity.
  - destruct (eos_calc_pointwise ti FBeta t s p eos r H) as (m & H1 & H2 & H3 & H4).
    exists m. split; [exact H1|]. split; [|split; assumption]. intros e. rewrite H2. destruct m; reflexivity.
Qed.
Print Assumptions C07_rho_alpha_beta_pointwise.

(** C07: the call succeeds whenever shared dimensions have equal sizes (and, for the
    Linear equation, temperature and salinity carry every dimension of the pressure). *)
Theorem C07_rho_alpha_beta_total : forall ti t s p eos m,
  same_name eos (module_name m) -> NoDup (names t) -> NoDup (names s) ->
  dims_agree (adims t) (adims s) -> dims_agree (adims t) (adims p) -> dims_agree (adims s) (adims p) ->
  (m = Linear -> forall d, In d (names p) -> In d (names t) \/ In d (names s)) ->
  is_ok (calc_rho t s p eos) = true /\ is_ok (calc_alpha ti t s p eos) = true /\
  is_ok (calc_beta ti t s p eos) = true.
Proof.
  intros ti t s p eos m H0 H1 H2 H3 H4 H5 H6.
  exact (conj (eos_calc_total false FDensity t s p eos m H0 H1 H2 H3 H4 H5 H6)
        (conj (eos_calc_total ti FAlpha t s p eos m H0 H1 H2 H3 H4 H5 H6)
              (eos_calc_total ti FBeta t s p eos m H0 H1 H2 H3 H4 H5 H6))).
Qed.
Print Assumptions C07_rho_alpha_beta_total.

Theorem C07_pdens : forall t s l patm eos,
  (0 <= l <= 7500 -> calc_pdens t s (Fin l) patm eos =
       calc_rho t s (amap (fun q => fadd (Fin (l * 10000)) q) patm) eos) /\
  (~ (0 <= l <= 7500) -> calc_pdens t s (Fin l) patm eos = Err AssertionError).
Proof. exact pdens_rule. Qed.
Print Assumptions C07_pdens.

(** C08 *)
Theorem C08_spice_numpy : forall t s, wf_np t -> wf_np s ->
  (shape t = shape s ->
   exists r, spice (NpArray t) (NpArray s) = Ok r /\ shape r = shape t /\
    forall idx, Forall2 lt idx (shape t) ->
      exists u v w, np_get t idx = Some u /\ np_get s idx = Some v /\ np_get r idx = Some w /\
        (forall T S, u = Fin T -> v = Fin S -> w = Fin (flament_pi T S)) /\
        (u = NaN \/ v = NaN -> w = NaN)) /\
  (shape t <> shape s -> spice (NpArray t) (NpArray s) = Err AssertionError) /\
  (forall T S, spice (NpScalar (Fin T)) (NpScalar (Fin S)) = Ok (mkNp [1%nat] [Fin (flament_pi T S)])) /\
  flament_pi 0 35 = 0.
Proof.
  intros t s Ht Hs. split; [|split; [|split]].
  - intros Hsh. destruct (spice_elementwise t s Ht Hs Hsh) as (r & H1 & H2 & _ & H3).
    exists r. split; [exact H1|]. split; [exact H2|]. intros idx Hi.
    destruct (H3 idx Hi) as (u & v & Hu & Hv & Hw). exists u, v, (spice_point u v).
    repeat (split; [assumption|]). split; [|exact (spice_point_nan u v)].
    intros T S -> ->. exact (spice_point_Fin T S).
  - exact (spice_shape_mismatch t s).
  - intros T S. rewrite spice_scalars, spice_point_Fin. reflexivity.
  - unfold flament_pi. simpl. lra.
Qed.
Print Assumptions C08_spice_numpy.

Theorem C08_calc_spice : forall t s, NoDup (names t) -> NoDup (names s) ->
  ((forall d n, In (d, n) (adims t) <-> In (d, n) (adims s)) ->
   exists r, calc_spice t s = Ok r /\ adims r = adims t /\ forall e,
     (forall T S, at_ t e = Fin T -> at_ s e = Fin S -> at_ r e = Fin (flament_pi T S)) /\
     (at_ t e = NaN \/ at_ s e = NaN -> at_ r e = NaN)) /\
  (forall d n, dims_agree (adims t) (adims s) -> (forall x, In x (names s) -> In x (names t)) ->
     In (d, n) (adims t) -> ~ In d (names s) -> n <> 1%nat -> calc_spice t s = Err AssertionError).
Proof.
  intros t s Ht Hs. split.
  - intros H. destruct (calc_spice_same_dims t s Ht Hs H) as (r & H1 & H2 & H3).
    exists r. split; [exact H1|]. split; [exact H2|]. intros e. rewrite H3. split.
    + intros T S -> ->. exact (spice_point_Fin T S).
    + exact (spice_point_nan _ _).
  - intros d n Hag Hsub Hin Hno Hn. exact (calc_spice_missing_dim t s d n Ht Hs Hag Hsub Hin Hno Hn).
Qed.
Print Assumptions C08_calc_spice.

(** C09 *)
Theorem C09_coriolis : forall lat,
  names (calc_coriolis lat) = names lat /\
  (forall lat' e, at_ lat' e = fopp (at_ lat e) ->
     at_ (calc_coriolis lat') e = fopp (at_ (calc_coriolis lat) e)) /\
  (forall e x, at_ lat e = Fin x ->
     at_ (calc_coriolis lat) e = Fin (4 * PI / 86400 * sin (x * PI / 180))) /\
  (forall e x, at_ lat e = Fin x ->
     exists f, at_ (calc_coriolis lat) e = Fin f /\ Rabs f <= 4 * PI / 86400) /\
  (forall e x, at_ lat e = Fin x -> -90 <= x <= 90 ->
     exists f, at_ (calc_coriolis lat) e = Fin f /\ (f = 0 <-> x = 0) /\ (0 < f <-> 0 < x) /\ (f < 0 <-> x < 0)) /\
  (forall e e' x y, at_ lat e = Fin x -> at_ lat e' = Fin y -> -90 <= x -> x < y -> y <= 90 ->
     exists f g, at_ (calc_coriolis lat) e = Fin f /\ at_ (calc_coriolis lat) e' = Fin g /\ f < g).
Proof.
  intros lat. split; [reflexivity|]. split; [exact (fun lat' e => coriolis_odd lat lat' e)|].
  split; [exact (calc_coriolis_Fin lat)|]. split; [exact (coriolis_bound lat)|].
  split; [exact (coriolis_sign lat)|]. exact (coriolis_mono lat).
Qed.
Print Assumptions C09_coriolis.

(** C10 *)
Theorem C10_hydrostatic : forall t s p g eos h,
  inverse_barometer t s p (Fin g) eos = Ok h -> g <> 0 ->
  exists rho, calc_rho t s p eos = Ok rho /\
   forall e,
    (forall r q, at_ rho e = Fin r -> r <> 0 -> at_ p e = Fin q ->
       exists x, at_ h e = Fin x /\ r * g * x = - q) /\
    (at_ t e = NaN \/ at_ s e = NaN \/ at_ p e = NaN -> at_ h e = NaN).
Proof. exact inverse_barometer_hydrostatic. Qed.
Print Assumptions C10_hydrostatic.

(** C10: with the Wright equation, ocean surface states always give a finite, negative height. *)
Theorem C10_wright_ocean : forall t s p g eos h e T S q,
  inverse_barometer t s p (Fin g) eos = Ok h -> 0 < g -> same_name eos "wright" ->
  at_ t e = Fin T -> at_ s e = Fin S -> at_ p e = Fin q -> ocean_box T S q -> 0 < q ->
  exists x, at_ h e = Fin x /\ x < 0.
Proof.
  intros t s p g eos h e T S q H Hg Hn HT HS Hq Hb Hq0.
  destruct (inverse_barometer_hydrostatic t s p g eos h H ltac:(lra)) as (rho & Hr & He).
  assert (Er : at_ rho e = Fin (wr_rho T S q)).
  { unfold calc_rho in Hr. destruct (eos_calc_pointwise false FDensity t s p eos rho Hr) as (m & Hm & Hv & _).
    rewrite Hv, HT, HS, Hq.
    assert (m = Wright).
    { apply same_name_lower in Hm, Hn. rewrite Hn in Hm. destruct m; [reflexivity|discriminate]. }
    subst m. apply wright_density_Fin. assert (Hd := denom_pos _ _ _ Hb). lra. }
  assert (Hb2 := rho_bounds _ _ _ Hb).
  destruct (proj1 (He e) _ _ Er ltac:(lra) Hq) as (x & Hx & E). exists x. split; [exact Hx|].
  assert (0 < wr_rho T S q * g) by (apply Rmult_lt_0_compat; lra). nra.
Qed.
Print Assumptions C10_wright_ocean.

(** C19 *)
Theorem C19_derivative_exact_on_quadratics : forall a d n x b0 b1 b2 r e,
  dget d (adims a) = Some n -> strictly_monotone n x ->
  (forall i, (i < n)%nat -> at_ a (upd e d i) = Fin (b0 + b1 * x i + b2 * (x i)^2)) ->
  (e d < n)%nat -> differentiate d (fun i => Fin (x i)) a = Ok r ->
  at_ r e = Fin (b1 + 2 * b2 * x (e d)).
Proof. exact quadratic_exact. Qed.
Print Assumptions C19_derivative_exact_on_quadratics.

Theorem C19_derivative_linear : forall a a' c d n x u v w r r' q e f g,
  dget d (adims a) = Some n -> dget d (adims a') = Some n -> dget d (adims c) = Some n ->
  strictly_monotone n x ->
  (forall i, (i < n)%nat -> at_ a (upd e d i) = Fin (f i)) ->
  (forall i, (i < n)%nat -> at_ a' (upd e d i) = Fin (g i)) ->
  (forall i, (i < n)%nat -> at_ c (upd e d i) = Fin (w + u * f i + v * g i)) ->
  (e d < n)%nat ->
  differentiate d (fun i => Fin (x i)) a = Ok r -> differentiate d (fun i => Fin (x i)) a' = Ok r' ->
  differentiate d (fun i => Fin (x i)) c = Ok q ->
  exists p p', at_ r e = Fin p /\ at_ r' e = Fin p' /\ at_ q e = Fin (u * p + v * p').
Proof. exact derivative_linear. Qed.
Print Assumptions C19_derivative_linear.

(** C20 (default gravity is -9.8, i.e. g = 9.8 in the usual sign). *)
Theorem C20_n2_linear_eos : forall t s x eos g patm zc n r p rho drho e T S k,
  calc_n2 false t s (fun i => Fin (x i)) eos (Fin g) patm zc false = Ok r ->
  same_name eos "linear" ->
  dget zc (adims t) = Some n -> dget zc (adims s) = Some n ->
  strictly_monotone n x -> e zc = k -> (k < n)%nat ->
  (forall i, (i < n)%nat -> at_ t (upd e zc i) = Fin (T i)) ->
  (forall i, (i < n)%nat -> at_ s (upd e zc i) = Fin (S i)) ->
  calc_rho t s p eos = Ok rho -> differentiate zc (fun i => Fin (x i)) rho = Ok drho ->
  exists r0 d, at_ rho e = Fin r0 /\ at_ drho e = Fin d /\
    (r0 <> 0 -> at_ r e = Fin (- (g / r0) * d)).
Proof. exact n2_linear. Qed.
Print Assumptions C20_n2_linear_eos.

(** C24 *)
Theorem C24_rossby_radius : forall c f r, calc_rossby_rd c f = Ok r ->
  (forall e,
    (forall x y, at_ c e = Fin x -> at_ f e = Fin y -> y <> 0 ->
       exists z, at_ r e = Fin z /\ z * Rabs y = x /\ (0 <= x -> 0 <= z)) /\
    (forall x, at_ c e = Fin x -> at_ f e = Fin 0 -> 0 < x -> at_ r e = Inf false) /\
    (at_ c e = NaN \/ at_ f e = NaN -> at_ r e = NaN) /\
    (at_ r e = Inf false -> forall x, at_ c e = Fin x -> at_ f e = Fin 0)) /\
  (forall f' r', calc_rossby_rd c f' = Ok r' ->
     forall e, at_ f' e = fopp (at_ f e) -> at_ r' e = at_ r e).
Proof.
  intros c f r H. split; [exact (rossby_facts c f r H)|].
  intros f' r' H' e. exact (rossby_even c f f' r r' H H' e).
Qed.
Print Assumptions C24_rossby_radius.

(** C25 *)
Theorem C25_stability_angle : forall ti t s p z eos zc r al be dt ds e a b x y,
  calc_stability_angle ti t s p z eos zc = Ok r ->
  calc_alpha ti t s p eos = Ok al -> calc_beta ti t s p eos = Ok be ->
  differentiate zc z t = Ok dt -> differentiate zc z s = Ok ds ->
  at_ al e = Fin a -> at_ be e = Fin b -> at_ dt e = Fin x -> at_ ds e = Fin y ->
  (a * x = 0 -> at_ r e = NaN) /\
  (a * x <> 0 -> exists ang, at_ r e = Fin ang /\ -90 < ang <= 90 /\
     (ang = 90 <-> b * y = a * x) /\
     (b * y <> a * x -> tan (ang * PI / 180) = (a * x + b * y) / (a * x - b * y)) /\
     (-45 < ang < 45 <-> (b * y) * (a * x) < 0) /\ (ang = 45 <-> b * y = 0)).
Proof. exact angle_facts. Qed.
Print Assumptions C25_stability_angle.

(** C26 is false of the code: a column that is unstable (N2 < 0) with |angle| < 45. *)
Theorem C26_stable_column_refuted :
  exists t s z patm r n2 e ang n,
    calc_stability_angle false t s (scalar (Fin patm)) z "Linear" "z_l" = Ok r /\
    calc_n2 false t s z "Linear" (Fin (-9.8)) (scalar (Fin patm)) "z_l" false = Ok n2 /\
    at_ r e = Fin ang /\ -45 < ang < 45 /\ at_ n2 e = Fin n /\ n < 0.
Proof. exact angle_not_stability. Qed.
Print Assumptions C26_stable_column_refuted.

(** What is true: inside (-45,45) the column is stable exactly where alpha*dT/dz < 0. *)
Theorem C26_stable_column_partial : forall ti t s p z eos zc r al be dt ds e a b x y ang g,
  calc_stability_angle ti t s p z eos zc = Ok r ->
  calc_alpha ti t s p eos = Ok al -> calc_beta ti t s p eos = Ok be ->
  differentiate zc z t = Ok dt -> differentiate zc z s = Ok ds ->
  at_ al e = Fin a -> at_ be e = Fin b -> at_ dt e = Fin x -> at_ ds e = Fin y ->
  at_ r e = Fin ang -> -45 < ang < 45 -> g < 0 ->
  (0 < g * (a * x - b * y) <-> a * x < 0).
Proof.
  intros ti t s p z eos zc r al be dt ds e a b x y ang g H Hal Hbe Hdt Hds Ha Hb Hx Hy Hr Hang Hg.
  destruct (angle_facts ti t s p z eos zc r al be dt ds e a b x y H Hal Hbe Hdt Hds Ha Hb Hx Hy) as [H0 H1].
  destruct (Req_EM_T (a * x) 0) as [E|E]; [rewrite (H0 E) in Hr; discriminate|].
  destruct (H1 E) as (ang' & E' & _ & _ & _ & H45 & _). rewrite Hr in E'. injection E' as <-.
  apply (angle_vs_stability a b x y g Hg). apply H45; exact Hang.
Qed.
Print Assumptions C26_stable_column_partial.

(** Non-vacuity. *)
Definition ex_arr (x : R) : arr := mkArr [("yh"%string, 2%nat); ("xh"%string, 2%nat)] (fun _ => Fin x).
Example C07_C10_nonvacuous :
  (exists r, calc_rho (ex_arr 10) (ex_arr 35) (scalar (Fin 101325)) "Wright" = Ok r) /\
  (exists h, inverse_barometer (ex_arr 10) (ex_arr 35) (ex_arr 101325) (Fin 9.8) "Wright" = Ok h) /\
  ocean_box 10 35 101325.
Proof. split; [eexists; reflexivity|]. split; [eexists; reflexivity|]. unfold ocean_box; lra. Qed.
Example C08_nonvacuous : wf_np (mkNp [2; 2]%nat [Fin 1; Fin 2; NaN; Fin 4]) /\ Forall2 lt [1; 0]%nat [2; 2]%nat.
Proof. split; [reflexivity|]. repeat constructor. Qed.
Example C19_nonvacuous : strictly_monotone 3 INR /\ exists r, differentiate "z_l" w_z w_T = Ok r.
Proof. split; [exact w_monotone|]. eexists; reflexivity. Qed.
Example C20_nonvacuous :
  exists r, calc_n2 false w_T w_S w_z "Linear" (Fin (-9.8)) (scalar (Fin 101325)) "z_l" false = Ok r.
Proof. eexists; reflexivity. Qed.
Example C24_nonvacuous : exists r, calc_rossby_rd (ex_arr 2) (ex_arr (1 / 10000)) = Ok r.
Proof. eexists; reflexivity. Qed.
Example C25_nonvacuous :
  exists r, calc_stability_angle false w_T w_S (scalar (Fin 101325)) w_z "Linear" "z_l" = Ok r.
Proof. eexists; reflexivity. Qed.
(** 30 degrees north and the equator. *)
Example C09_case :
  at_ (calc_coriolis (ex_arr 30)) (fun _ => O) = Fin (2 * PI / 86400) /\ at_ (calc_coriolis (ex_arr 0)) (fun _ => O) = Fin 0.
Proof.
  destruct (C09_coriolis (ex_arr 30)) as (_ & _ & H & _). destruct (C09_coriolis (ex_arr 0)) as (_ & _ & H' & _).
  rewrite (H _ 30 eq_refl), (H' _ 0 eq_refl). split; f_equal.
  - replace (30 * PI / 180) with (PI / 6) by field. rewrite sin_PI6. field.
  - replace (0 * PI / 180) with 0 by field. rewrite sin_0. ring.
Qed.
(** Temperature falls and salinity rises with depth: the angle is inside (-45,45) and the
    column is stable; with both reversed the angle is the same and the column is unstable. *)
Definition c26_T (up : bool) : arr := mkArr [("z_l"%string, 3%nat)] (fun e => Fin (if up then INR (e "z_l"%string) else 2 - INR (e "z_l"%string))).
Example C26_case : forall up, let t := c26_T up in let s := c26_T (negb up) in
  exists r al be dt ds a b ang,
  calc_stability_angle false t s (scalar (Fin 101325)) w_z "Linear" "z_l" = Ok r /\
  calc_alpha false t s (scalar (Fin 101325)) "Linear" = Ok al /\ calc_beta false t s (scalar (Fin 101325)) "Linear" = Ok be /\
  differentiate "z_l" w_z t = Ok dt /\ differentiate "z_l" w_z s = Ok ds /\
  at_ al w_e = Fin a /\ at_ be w_e = Fin b /\ at_ dt w_e = Fin (if up then 1 else -1) /\ at_ ds w_e = Fin (if up then -1 else 1) /\
  at_ r w_e = Fin ang /\ -45 < ang < 45 /\ (0 < -9.8 * (a * (if up then 1 else -1) - b * (if up then -1 else 1)) <-> up = false).
Proof.
  intros up t s.
  destruct (differentiate "z_l" w_z t) as [dt|] eqn:Edt; [|destruct up; discriminate].
  destruct (differentiate "z_l" w_z s) as [ds|] eqn:Eds; [|destruct up; discriminate].
  assert (Et : at_ dt w_e = Fin (if up then 1 else -1)).
  { destruct up; [rewrite (quadratic_exact t "z_l" 3 INR 0 1 0 dt w_e eq_refl w_monotone)
                 |rewrite (quadratic_exact t "z_l" 3 INR 2 (-1) 0 dt w_e eq_refl w_monotone)];
      try (f_equal; ring); try (unfold w_e; lia); try exact Edt; intros i _; simpl; f_equal; rewrite upd_same; ring. }
  assert (Es : at_ ds w_e = Fin (if up then -1 else 1)).
  { destruct up; [rewrite (quadratic_exact s "z_l" 3 INR 2 (-1) 0 ds w_e eq_refl w_monotone)
                 |rewrite (quadratic_exact s "z_l" 3 INR 0 1 0 ds w_e eq_refl w_monotone)];
      try (f_equal; ring); try (unfold w_e; lia); try exact Eds; intros i _; simpl; f_equal; rewrite upd_same; ring. }
  destruct (calc_stability_angle false t s (scalar (Fin 101325)) w_z "Linear" "z_l") as [r|] eqn:Er; [|destruct up; discriminate].
  destruct (calc_alpha false t s (scalar (Fin 101325)) "Linear") as [al|] eqn:Eal; [|destruct up; discriminate].
  destruct (calc_beta false t s (scalar (Fin 101325)) "Linear") as [be|] eqn:Ebe; [|destruct up; discriminate].
  assert (Hname : same_name "Linear" "linear") by (apply same_name_lower; reflexivity).
  assert (R0 : 0 < lin_rho 1 1) by (unfold lin_rho; lra).
  assert (V : forall q, linear_alpha false (at_ t w_e) (at_ s w_e) q = Fin ((2/10) / lin_rho 1 1) /\
                        linear_beta false (at_ t w_e) (at_ s w_e) q = Fin ((8/10) / lin_rho 1 1)).
  { intros q. unfold linear_alpha, linear_beta.
    assert (E1 : at_ t w_e = Fin 1) by (destruct up; [reflexivity|change (Fin (2 - INR 1) = Fin 1); f_equal; simpl; lra]).
    assert (E2 : at_ s w_e = Fin 1) by (destruct up; [change (Fin (2 - INR 1) = Fin 1); f_equal; simpl; lra|reflexivity]).
    rewrite E1, E2, linear_density_Fin. unfold full_like, DRHO_DT, DRHO_DS.
    rewrite !fdiv_Fin by lra. simpl. split; f_equal; field; lra. }
  assert (Va : at_ al w_e = Fin ((2/10) / lin_rho 1 1)) by (rewrite (calc_linear_inv _ _ _ _ _ _ _ Hname Eal); apply V).
  assert (Vb : at_ be w_e = Fin ((8/10) / lin_rho 1 1)) by (rewrite (calc_linear_inv _ _ _ _ _ _ _ Hname Ebe); apply V).
  destruct (angle_facts _ _ _ _ _ _ _ _ _ _ _ _ _ _ _ _ _ Er Eal Ebe Edt Eds Va Vb Et Es) as [_ HA].
  assert (Pa : 0 < (2/10) / lin_rho 1 1) by (apply Rdiv_lt_0_compat; lra).
  assert (Pb : 0 < (8/10) / lin_rho 1 1) by (apply Rdiv_lt_0_compat; lra).
  destruct HA as (ang & E & _ & _ & _ & H45 & _); [destruct up; lra|].
  assert (I : -45 < ang < 45) by (apply H45; destruct up; nra).
  exists r, al, be, dt, ds, ((2/10) / lin_rho 1 1), ((8/10) / lin_rho 1 1), ang. repeat (split; [first [assumption|reflexivity]|]).
  rewrite (C26_stable_column_partial _ _ _ _ _ _ _ _ _ _ _ _ _ _ _ _ _ _ (-9.8) Er Eal Ebe Edt Eds Va Vb Et Es E I ltac:(lra)).
  destruct up; split; intros H; try lra; try reflexivity; discriminate.
Qed.
