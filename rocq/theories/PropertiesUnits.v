(** * PropertiesUnits: C114, C115 *)
From Coq Require Import Reals Lra Lia ZArith List String Bool Arith FunctionalExtensionality.
From Verif Require Import Num NumFacts Py Arr ArrFacts Derived Attrs SpecUnits SpecN2 ProofsN2 ProofsWave ProofsUnits PropertiesBudget PropertiesDz PropertiesN2.
Import ListNotations.
Local Open Scope string_scope.
Local Open Scope R_scope.

Ltac chl := cbv [change uL uT uM powerRZ Pos.to_nat Pos.iter_op Init.Nat.add pow]; lra.
Ltac chg := cbv [change uL uT uM powerRZ Pos.to_nat Pos.iter_op Init.Nat.add pow]; field; repeat split; apply Rgt_not_eq; assumption.

(** C114: written in other units, the inputs give the result in the other units, with the units
    stated in the attributes.  Relative vorticity: *)
Theorem C114_rel_vort : forall l t m (vars : dict arr) vm coords sym (fac : string -> R) iu idx iarea,
  0 < l -> 0 < t -> 0 < m ->
  parse_units "m s-1" = Some iu -> parse_units "m" = Some idx -> parse_units "m2" = Some iarea ->
  let names := match vm with None => default_vmap | Some v => v end in
  (forall k x, dget k names = Some x -> In k ["u"; "v"] -> fac x = change l t m iu) ->
  (forall k x, dget k names = Some x -> In k ["dx"; "dy"] -> fac x = change l t m idx) ->
  (forall x, dget "area" names = Some x -> fac x = change l t m iarea) ->
  exists u, units_of calc_rel_vort_attrs = Some u /\
    calc_rel_vort (map (fun p => (fst p, rescale (fac (fst p)) (snd p))) vars) vm coords sym =
    res_map (in_units l t m u) (calc_rel_vort vars vm coords sym).
Proof.
  intros l t m vars vm coords sym fac iu idx iarea Pl Pt Pm Eu Edx Ea nm Hu Hd Ha.
  exists (mkU 0 0 (-1) 0). split; [reflexivity|]. change (parse_units "m s-1") with (Some (mkU 0 1 (-1) 0)) in Eu.
  change (parse_units "m") with (Some (mkU 0 1 0 0)) in Edx. change (parse_units "m2") with (Some (mkU 0 2 0 0)) in Ea.
  injection Eu as <-. injection Edx as <-. injection Ea as <-.
  unfold calc_rel_vort. fold nm. cbv zeta.
  set (vars' := map _ vars).
  assert (G : forall k, dget k vars' = option_map (rescale (fac k)) (dget k vars)).
  { intros k. unfold vars'. induction vars as [|[q a] w IH]; [reflexivity|]. cbn [map dget fst snd].
    destruct (String.eqb_spec k q) as [->|N]; [reflexivity|exact IH]. }
  assert (M : forallb (fun p => dmem (snd p) vars') nm = forallb (fun p => dmem (snd p) vars) nm).
  { clear - G. induction nm as [|p nm IH]; [reflexivity|]. cbn [forallb]. rewrite IH. f_equal. unfold dmem. rewrite G. destruct (dget (snd p) vars); reflexivity. }
  rewrite M. clearbody nm. destruct (forallb (fun p => dmem (snd p) vars) nm); [|reflexivity]. cbn [negb].
  assert (GET : forall k c, (forall x, dget k nm = Some x -> fac x = c) ->
    (let* v := dlookup k nm in dlookup v vars') = res_map (rescale c) (let* v := dlookup k nm in dlookup v vars)).
  { intros k c H. unfold dlookup at 1 3. destruct (dget k nm) as [x|]; [|reflexivity]. cbn [bind]. unfold dlookup. rewrite G, (H x eq_refl).
    destruct (dget x vars); reflexivity. }
  set (cu := change l t m _) in Hu. set (cd := change l t m _) in Hd. set (ca := change l t m _) in Ha.
  assert (Pu : 0 < cu) by (apply change_pos; assumption). assert (Pd : 0 < cd) by (apply change_pos; assumption).
  assert (Pa : 0 < ca) by (apply change_pos; assumption).
  rewrite (GET "u" cu), (GET "dx" cd), (GET "v" cu), (GET "dy" cd), (GET "area" ca); try (intros x E; solve [exact (Ha x E)|eapply Hu; [exact E|cbn; tauto]|eapply Hd; [exact E|cbn; tauto]]).
  destruct (let* v := dlookup "u" nm in dlookup v vars) as [u|]; [|reflexivity]. cbn [bind res_map].
  destruct (let* v := dlookup "dx" nm in dlookup v vars) as [dx|]; [|reflexivity]. cbn [bind res_map].
  unfold amul. rewrite (map2_scale cu cd fmul (cu * cd)) by (apply fs_mul; assumption).
  destruct (amap2 fmul u dx) as [udx|]; [|reflexivity]. cbn [bind res_map].
  assert (Pud : 0 < cu * cd) by (apply Rmult_lt_0_compat; assumption).
  unfold xg_diff. rewrite (xg_scale (cu * cd)) by (try assumption; intros; apply fs_sub; assumption).
  destruct (xg_op _ sym (ycenter coords) (ycorner coords) udx) as [duy|]; [|reflexivity]. cbn [bind res_map].
  destruct (let* v := dlookup "v" nm in dlookup v vars) as [v|]; [|reflexivity]. cbn [bind res_map].
  destruct (let* v0 := dlookup "dy" nm in dlookup v0 vars) as [dy|]; [|reflexivity]. cbn [bind res_map].
  rewrite (map2_scale cu cd fmul (cu * cd)) by (apply fs_mul; assumption).
  destruct (amap2 fmul v dy) as [vdy|]; [|reflexivity]. cbn [bind res_map].
  rewrite (xg_scale (cu * cd)) by (try assumption; intros; apply fs_sub; assumption).
  destruct (xg_op _ sym (xcenter coords) (xcorner coords) vdy) as [dvx|]; [|reflexivity]. cbn [bind res_map].
  rewrite (map_scale (cu * cd) fopp (cu * cd)) by (intros; apply fs_opp; assumption).
  unfold aadd. rewrite (map2_scale (cu * cd) (cu * cd) fadd (cu * cd)) by (intros; apply fs_add; assumption).
  destruct (amap2 fadd (amap fopp duy) dvx) as [circ|]; [|reflexivity]. cbn [bind res_map].
  destruct (let* v0 := dlookup "area" nm in dlookup v0 vars) as [area|]; [|reflexivity]. cbn [bind res_map].
  unfold adiv. rewrite (map2_scale (cu * cd) ca fdiv (cu * cd / ca)) by (apply fs_div; assumption).
  destruct (amap2 fdiv circ area); [|reflexivity]. cbn [res_map]. f_equal. unfold in_units. f_equal.
  unfold cu, cd, ca. clear - Pl Pt Pm. chg.
Qed.
Print Assumptions C114_rel_vort.

(** Ocean mass, volume and mean density: *)
Theorem C114_masso : forall l t m rho vol tcoord eos, 0 < l -> 0 < t -> 0 < m ->
  exists iu iv u, units_of (calc_rho_attrs eos) = Some iu /\ parse_units "m3" = Some iv /\ units_of calc_masso_attrs = Some u /\
    calc_masso (in_units l t m iu rho) (in_units l t m iv vol) tcoord = res_map (in_units l t m u) (calc_masso rho vol tcoord).
Proof.
  intros l t m rho vol tcoord eos Pl Pt Pm. exists (mkU 0 (-3) (0) (1)), (mkU 0 (3) (0) (0)), (mkU 0 (0) (0) (1)). split; [reflexivity|]. split; [reflexivity|]. split; [reflexivity|].
  unfold calc_masso, amul, in_units.
  rewrite (map2_scale _ _ fmul (change l t m {| u10 := 0; uL := 0; uT := 0; uM := 1 |})).
  - destruct (amap2 fmul rho vol) as [p|]; [|reflexivity]. cbn [bind res_map]. apply asum_scale, change_pos; assumption.
  - intros x y. rewrite fs_mul by (apply change_pos; assumption). f_equal. clear - Pl Pt Pm. chg.
Qed.
Print Assumptions C114_masso.

Theorem C114_volo : forall l t m vol, 0 < l -> 0 < t -> 0 < m ->
  exists iv u, parse_units "m3" = Some iv /\ units_of calc_volo_attrs = Some u /\
    calc_volo (in_units l t m iv vol) = res_map (in_units l t m u) (calc_volo vol).
Proof.
  intros l t m vol Pl Pt Pm. exists (mkU 0 (3) (0) (0)), (mkU 0 (3) (0) (0)). split; [reflexivity|]. split; [reflexivity|].
  unfold calc_volo, in_units. change (ndim (rescale _ vol)) with (ndim vol). destruct (Nat.eqb (ndim vol) 3); [|reflexivity].
  cbn [assert_ bind res_map]. f_equal. apply asum_all_scale, change_pos; assumption.
Qed.
Print Assumptions C114_volo.

Theorem C114_rhoga : forall l t m masso volo, 0 < l -> 0 < t -> 0 < m ->
  exists im iv u, units_of calc_masso_attrs = Some im /\ units_of calc_volo_attrs = Some iv /\ units_of calc_rhoga_attrs = Some u /\
    calc_rhoga (in_units l t m im masso) (in_units l t m iv volo) = res_map (in_units l t m u) (calc_rhoga masso volo).
Proof.
  intros l t m masso volo Pl Pt Pm. exists (mkU 0 (0) (0) (1)), (mkU 0 (3) (0) (0)), (mkU 0 (-3) (0) (1)). split; [reflexivity|]. split; [reflexivity|]. split; [reflexivity|].
  unfold calc_rhoga, adiv, in_units. apply map2_scale.
  intros x y. rewrite fs_div by (apply change_pos; assumption). f_equal. clear - Pl Pt Pm. chg.
Qed.
Print Assumptions C114_rhoga.

Theorem C114_rossby_rd : forall l t m c f, 0 < l -> 0 < t -> 0 < m ->
  exists ic jf u, units_of calc_wave_speed_attrs = Some ic /\ units_of calc_coriolis_attrs = Some jf /\ units_of calc_rossby_rd_attrs = Some u /\
    calc_rossby_rd (in_units l t m ic c) (in_units l t m jf f) = res_map (in_units l t m u) (calc_rossby_rd c f).
Proof.
  intros l t m c f Pl Pt Pm. exists (mkU 0 (1) (-1) (0)), (mkU 0 (0) (-1) (0)), (mkU 0 (1) (0) (0)). split; [reflexivity|]. split; [reflexivity|]. split; [reflexivity|].
  unfold calc_rossby_rd, adiv, in_units.
  rewrite (map_scale _ fabs (change l t m {| u10 := 0; uL := 0; uT := -1; uM := 0 |})) by (intros; apply fs_abs, change_pos; assumption).
  apply map2_scale. intros x y. rewrite fs_div by (apply change_pos; assumption). f_equal. clear - Pl Pt Pm. chg.
Qed.
Print Assumptions C114_rossby_rd.

(** Potential vorticity in "m" units; gravity is in m s-2. *)
Theorem C114_pv : forall l t m zeta f n2 g coords sym interp adj, 0 < l -> 0 < t -> 0 < m ->
  exists iz jf kn lg u attrs, units_of calc_rel_vort_attrs = Some iz /\ units_of calc_coriolis_attrs = Some jf /\ units_of (calc_n2_attrs adj) = Some kn /\
    parse_units "m s-2" = Some lg /\ calc_pv_attrs "m" = Ok attrs /\ units_of attrs = Some u /\
    calc_pv (in_units l t m iz zeta) (in_units l t m jf f) (in_units l t m kn n2) (fmul (Fin (change l t m lg)) g) coords sym "m" interp =
    res_map (in_units l t m u) (calc_pv zeta f n2 g coords sym "m" interp).
Proof.
  intros l t m zeta f n2 g coords sym interp adj Pl Pt Pm.
  exists (mkU 0 (0) (-1) (0)), (mkU 0 (0) (-1) (0)), (mkU 0 (0) (-2) (0)), (mkU 0 (1) (-2) (0)), (mkU 0 (-1) (-1) (0)), [("long_name", "Ocean potential vorticity"); ("units", "m-1 s-1")]. split; [reflexivity|]. split; [reflexivity|]. split; [destruct adj; reflexivity|]. split; [reflexivity|]. split; [reflexivity|]. split; [reflexivity|].
  unfold calc_pv, in_units.
  set (cz := change l t m {| u10 := 0; uL := 0; uT := -1; uM := 0 |}).
  set (cn := change l t m {| u10 := 0; uL := 0; uT := -2; uM := 0 |}).
  set (cg := change l t m {| u10 := 0; uL := 1; uT := -2; uM := 0 |}).
  assert (Pz : 0 < cz) by (apply change_pos; assumption). assert (Pn : 0 < cn) by (apply change_pos; assumption).
  assert (Pg : 0 < cg) by (apply change_pos; assumption).
  assert (IN : (if interp then let* a := xg_interp sym (xcenter coords) (xcorner coords) (rescale cn n2) in xg_interp sym (ycenter coords) (ycorner coords) a
                else Ok (rescale cn n2)) =
     res_map (rescale cn) (if interp then let* a := xg_interp sym (xcenter coords) (xcorner coords) n2 in xg_interp sym (ycenter coords) (ycorner coords) a else Ok n2)).
  { assert (OP : forall x y, fmul (Fin (1 / 2)) (fadd (fs cn x) (fs cn y)) = fs cn (fmul (Fin (1 / 2)) (fadd x y))).
    { intros x y. rewrite fs_add by assumption. change (Fin (1 / 2)) with (Fin (1 / 2)).
      rewrite !fs_eq by assumption. destruct (fadd x y) as [|s|w]; cbn; try reflexivity.
      - rewrite (Reqb_false' (1 / 2)) by lra. rewrite (Rltb_pos (1 / 2)) by lra. reflexivity.
      - f_equal. ring. }
    destruct interp; [|reflexivity]. unfold xg_interp. rewrite (xg_scale cn Pn _ sym _ _ _ OP).
    destruct (xg_op _ sym (xcenter coords) (xcorner coords) n2) as [a|]; [|reflexivity]. cbn [bind res_map].
    rewrite (xg_scale cn Pn _ sym _ _ _ OP). reflexivity. }
  rewrite IN. clear IN.
  set (N := if interp then let* a := xg_interp sym (xcenter coords) (xcorner coords) n2 in xg_interp sym (ycenter coords) (ycorner coords) a else Ok n2) in *.
  clearbody N. destruct N as [n2'|]; [|reflexivity]. cbn [bind res_map].
  unfold aadd. rewrite (map2_scale cz cz fadd cz) by (intros; apply fs_add; assumption).
  destruct (amap2 fadd zeta f) as [absv|]; [|reflexivity]. cbn [bind res_map].
  assert (E : const_r fdiv (rescale cn n2') (fmul (Fin cg) g) = rescale (cn / cg) (const_r fdiv n2' g)).
  { unfold const_r, amap, rescale. cbn [adims at_]. f_equal. apply functional_extensionality. intros e.
    apply (fs_div cn cg Pn Pg). }
  rewrite E. unfold amul. rewrite (map2_scale cz (cn / cg) fmul (cz * (cn / cg))) by (apply fs_mul; [assumption|apply Rdiv_lt_0_compat; assumption]).
  destruct (amap2 fmul absv _) as [pv|]; [|reflexivity]. cbn [bind res_map]. change (String.eqb "m" "m") with true. cbv iota. cbn [res_map].
  f_equal. f_equal. unfold cz, cn, cg. clear - Pl Pt Pm. chg.
Qed.
Print Assumptions C114_pv.

(** Wave speed, where the surface value of N2 is missing or positive (an unstable surface is set
    to 1e-8 s-2, a number tied to the units). *)
Lemma stabilised_scale c f k v : 0 < c -> (forall j, (j <= k)%nat -> finite_or_missing (f j)) -> positive (f O) ->
  stabilised f k v -> stabilised (fun j => fs c (f j)) k (fs c v).
Proof.
  intros P HF P0 (H1 & H2 & H3).
  assert (Q : forall w, positive (fs c w) <-> positive w).
  { intros w. rewrite fs_eq by assumption. destruct w as [|s|x]; cbn; try tauto. split; intros H.
    - apply (Rmult_lt_reg_l c); [assumption|]. rewrite Rmult_0_r. exact H.
    - apply Rmult_lt_0_compat; assumption. }
  assert (N : forall w, fs c w = NaN <-> w = NaN).
  { intros w. rewrite fs_eq by assumption. destruct w; split; intros E; try reflexivity; discriminate. }
  split; [|split].
  - intros E. apply N. apply H1, N, E.
  - intros E. f_equal. apply H2, Q, E.
  - intros E1 E2. destruct (H3 (fun z => E1 (proj2 (N _) z)) (fun z => E2 (proj2 (Q _) z))) as [(j & Hj & Pj & Hi & ->)|[Hn _]].
    + left. exists j. split; [exact Hj|]. split; [apply Q, Pj|]. split; [|reflexivity]. intros i I. rewrite Q. apply Hi, I.
    + exfalso. destruct k as [|k]; [apply E2, Q, P0|]. apply (Hn O); [lia|exact P0].
Qed.

Theorem C114_wave_speed : forall l t m n2 dz n rest adj, 0 < l -> 0 < t -> 0 < m -> adims n2 = ("z_l", n) :: rest ->
  exists kn kz u, units_of (calc_n2_attrs adj) = Some kn /\ parse_units "m" = Some kz /\ units_of calc_wave_speed_attrs = Some u /\
    forall r r' e,
      calc_wave_speed n2 dz "z_l" = Ok r ->
      calc_wave_speed (in_units l t m kn n2) (in_units l t m kz dz) "z_l" = Ok r' ->
      (forall k, (k < n)%nat -> finite_or_missing (at_ n2 (upd e "z_l" k)) /\ finite_or_missing (at_ dz (upd e "z_l" k))) ->
      at_ n2 (upd e "z_l" 0) = NaN \/ positive (at_ n2 (upd e "z_l" 0)) ->
      at_ r' e = at_ (in_units l t m u r) e.
Proof.
  intros l t m n2 dz n rest adj Pl Pt Pm Hd. exists (mkU 0 0 (-2) 0), (mkU 0 1 0 0), (mkU 0 1 (-1) 0).
  split; [destruct adj; reflexivity|]. split; [reflexivity|]. split; [reflexivity|].
  intros r r' e H H' HF H0.
  set (cn := change l t m {| u10 := 0; uL := 0; uT := -2; uM := 0 |}) in *.
  set (cz := change l t m {| u10 := 0; uL := 1; uT := 0; uM := 0 |}).
  assert (Pn : 0 < cn) by (apply change_pos; assumption). assert (Pz : 0 < cz) by (apply change_pos; assumption).
  assert (FM : forall c w, 0 < c -> finite_or_missing w -> finite_or_missing (fs c w)).
  { intros c w P F. rewrite fs_eq by assumption. intros s. destruct w as [|s0|x]; [discriminate|exfalso; exact (F s0 eq_refl)|discriminate]. }
  destruct (wave_column n2 dz n rest r e H Hd HF) as (_ & A1 & A2).
  destruct (wave_column (in_units l t m _ n2) (in_units l t m _ dz) n rest r' e H' Hd) as (_ & B1 & B2).
  { intros k Hk. destruct (HF k Hk) as [F1 F2]. split; apply FM; assumption. }
  cbv zeta in A1, A2, B1, B2. cbn [in_units rescale at_] in *. fold cn cz in B1, B2. fold cn cz.
  change (fmul (Fin cn)) with (fs cn) in *. change (fmul (Fin cz)) with (fs cz) in *.
  destruct H0 as [H0|H0].
  - rewrite (A1 H0), B1; [reflexivity|]. rewrite H0. reflexivity.
  - assert (NN : at_ n2 (upd e "z_l" 0) <> NaN) by (intros E; rewrite E in H0; exact H0).
    assert (NN' : fs cn (at_ n2 (upd e "z_l" 0)) <> NaN) by (rewrite fs_eq by assumption; destruct (at_ n2 (upd e "z_l" 0)); congruence).
    destruct (A2 NN) as (g & Hg & ->). destruct (B2 NN') as (g' & Hg' & ->). cbn [fmul].
    f_equal. replace (change l t m {| u10 := 0; uL := 1; uT := -1; uM := 0 |} * (1 / PI * Rsum n (fun k => n_times_dz (g k) (at_ dz (upd e "z_l" k)))))
      with (1 / PI * (change l t m {| u10 := 0; uL := 1; uT := -1; uM := 0 |} * Rsum n (fun k => n_times_dz (g k) (at_ dz (upd e "z_l" k))))) by ring.
    f_equal. rewrite <- Rsum_scal. apply Rsum_ext. intros k Hk.
    assert (F : forall j, (j <= k)%nat -> finite_or_missing (at_ n2 (upd e "z_l" j))) by (intros j Hj; apply HF; lia).
    assert (E : g' k = fs cn (g k)).
    { apply (stabilised_unique (fun j => fs cn (at_ n2 (upd e "z_l" j))) k); [apply Hg', Hk|].
      apply (stabilised_scale cn (fun j => at_ n2 (upd e "z_l" j)) k (g k) Pn F H0 (Hg k Hk)). }
    rewrite E, !fs_eq by assumption.
    destruct (g k) as [|s|a], (at_ dz (upd e "z_l" k)) as [|s'|h]; cbn [n_times_dz]; try ring.
    rewrite sqrt_mult_alt by lra.
    replace (sqrt cn) with (/ t).
    + unfold cz. clear - Pl Pt Pm. set (q := sqrt a). clearbody q. chg.
    + symmetry. unfold cn. replace (change l t m {| u10 := 0; uL := 0; uT := -2; uM := 0 |}) with (Rsqr (/ t)).
      * apply sqrt_Rsqr. apply Rlt_le, Rinv_0_lt_compat, Pt.
      * unfold Rsqr. clear - Pl Pt Pm. chg.
Qed.
Print Assumptions C114_wave_speed.

(** Layer thickness; the fraction has no units. *)
Lemma fs_lt0 c v : 0 < c -> fltb (fs c v) (Fin 0) = fltb v (Fin 0).
Proof. intros P. rewrite fs_eq by assumption. destruct v as [|s|x]; try reflexivity. cbn. apply Rltb_scale, P. Qed.
Lemma fs_lt c a b : 0 < c -> fltb (fs c a) (fs c b) = fltb a b.
Proof.
  intros P. rewrite !fs_eq by assumption. destruct a as [|s|x], b as [|s'|y]; try reflexivity. cbn. unfold Rltb.
  destruct (Rlt_dec x y) as [L|L], (Rlt_dec (c * x) (c * y)) as [M|M]; try reflexivity; exfalso.
  - apply M, Rmult_lt_compat_l; assumption.
  - apply L, (Rmult_lt_reg_l c); assumption.
Qed.
Lemma fs_eqb c a b : 0 < c -> feqb (fs c a) (fs c b) = feqb a b.
Proof.
  intros P. rewrite !fs_eq by assumption. destruct a as [|s|x], b as [|s'|y]; try reflexivity. cbn. unfold Reqb.
  destruct (Req_EM_T x y) as [L|L], (Req_EM_T (c * x) (c * y)) as [M|M]; try reflexivity; exfalso.
  - apply M. rewrite L. reflexivity.
  - apply L, (Rmult_eq_reg_l c); [exact M|lra].
Qed.
Lemma fs_le c a b : 0 < c -> fleb (fs c a) (fs c b) = fleb a b.
Proof. intros P. unfold fleb. rewrite fs_lt, fs_eqb by assumption. reflexivity. Qed.
Lemma fmin_if a b : a <> NaN -> b <> NaN -> fmin a b = if fleb a b then a else b.
Proof. destruct a, b; congruence || reflexivity. Qed.
Lemma fs_min c a b : 0 < c -> fmin (fs c a) (fs c b) = fs c (fmin a b).
Proof.
  intros P. assert (N : forall v, v <> NaN -> fs c v <> NaN) by (intros v H; rewrite (fs_eq c v P); destruct v; congruence).
  destruct (isnull a) eqn:Ea. { destruct a; try discriminate Ea. rewrite !(fs_eq c _ P). reflexivity. }
  destruct (isnull b) eqn:Eb. { destruct b; try discriminate Eb. rewrite !(fs_eq c _ P). destruct a; reflexivity. }
  assert (Na : a <> NaN) by (intros ->; discriminate Ea). assert (Nb : b <> NaN) by (intros ->; discriminate Eb).
  rewrite !fmin_if by auto. rewrite fs_le by assumption. destruct (fleb a b); reflexivity.
Qed.
Lemma fs_ge0 c v : 0 < c -> fge0 (fs c v) = fge0 v.
Proof. intros P. unfold fge0. rewrite <- (fs_le c (Fin 0) v P), fs_zero by assumption. reflexivity. Qed.
Lemma fs_fill0 c v : 0 < c -> fillna (fs c v) (Fin 0) = fs c (fillna v (Fin 0)).
Proof. intros P. apply fs_nan0, P. Qed.
Lemma fs_clip c v : 0 < c -> (if fltb (fs c v) (Fin 0) then Fin 0 else fs c v) = fs c (if fltb v (Fin 0) then Fin 0 else v).
Proof. intros P. rewrite fs_lt0 by assumption. destruct (fltb v (Fin 0)); [symmetry; apply fs_zero, P|reflexivity]. Qed.
Lemma all_over_ext ds P Q e : (forall e', P e' = Q e') -> all_over ds P e = all_over ds Q e.
Proof. intros H. f_equal. apply functional_extensionality, H. Qed.
Lemma aall_scale c a : 0 < c -> aall fge0 (rescale c a) = aall fge0 a.
Proof. intros P. unfold aall. cbn [rescale adims at_]. apply all_over_ext. intros e. apply fs_ge0, P. Qed.

Theorem C114_dz : forall l t m levels interfaces depth top bottom fraction, 0 < l -> 0 < t -> 0 < m ->
  exists u, parse_units "m" = Some u /\
    let c := change l t m u in
    calc_dz (rescale c levels) (rescale c interfaces) (rescale c depth) (fmul (Fin c) top) (option_map (fmul (Fin c)) bottom) fraction =
    res_map (fun r => if fraction then r else rescale c r) (calc_dz levels interfaces depth top bottom fraction).
Proof.
  intros l t m levels interfaces depth top bottom fraction Pl Pt Pm. exists (mkU 0 1 0 0). split; [reflexivity|]. cbv zeta.
  set (c := change l t m _). assert (P : 0 < c) by (apply change_pos; assumption). clearbody c. clear l t m Pl Pt Pm.
  assert (FD : amap (fun v => fillna v (Fin 0)) (rescale c depth) = rescale c (amap (fun v => fillna v (Fin 0)) depth))
    by (apply map_scale; intros; apply fs_fill0, P).
  unfold calc_dz. rewrite FD, !aall_scale by assumption.
  destruct (assert_ (aall fge0 (amap _ depth))); [|reflexivity]. cbn [bind].
  destruct (assert_ (aall fge0 levels)); [|reflexivity]. cbn [bind].
  destruct (assert_ (aall fge0 interfaces)); [|reflexivity]. cbn [bind]. cbv zeta.
  set (dep := match option_map _ bottom with Some _ => _ | None => _ end).
  set (dep0 := match bottom with Some b => _ | None => _ end).
  assert (ED : dep = rescale c dep0).
  { unfold dep, dep0. destruct bottom as [b|]; [|reflexivity]. cbn [option_map]. unfold const_r.
    unfold amap, rescale. cbn [adims at_]. f_equal. apply functional_extensionality. intros e. apply (fs_min c), P. }
  rewrite ED. clearbody dep0. clear dep ED FD.
  change (adims (rescale c levels)) with (adims levels). change (adims (rescale c interfaces)) with (adims interfaces).
  destruct (adims levels) as [|[z n] [|? ?]] eqn:El; try reflexivity.
  destruct (adims interfaces) as [|[zi ni] [|? ?]] eqn:Ei; try reflexivity.
  destruct (Nat.eqb (ni - 1) n); [|reflexivity].
  change (mkArr [(z, n)] (fun e => at_ (rescale c interfaces) (upd e zi (e z)))) with (rescale c (mkArr [(z, n)] (fun e => at_ interfaces (upd e zi (e z))))).
  change (mkArr [(z, n)] (fun e => at_ (rescale c interfaces) (upd e zi (S (e z))))) with (rescale c (mkArr [(z, n)] (fun e => at_ interfaces (upd e zi (S (e z)))))).
  set (zt := mkArr [(z, n)] (fun e => at_ interfaces (upd e zi (e z)))). set (zb := mkArr [(z, n)] (fun e => at_ interfaces (upd e zi (S (e z))))).
  assert (BS : forall x, broadcast_second (rescale c dep0) (rescale c x) = res_map (rescale c) (broadcast_second dep0 x)).
  { intros x. unfold broadcast_second. cbn [rescale adims]. destruct (compatible _ _); reflexivity. }
  rewrite !BS. destruct (broadcast_second dep0 zt) as [zt'|]; [|reflexivity]. cbn [bind res_map].
  destruct (broadcast_second dep0 zb) as [zb'|]; [|reflexivity]. cbn [bind res_map].
  replace (broadcast_like (rescale c dep0) (rescale c levels)) with (res_map (rescale c) (broadcast_like dep0 levels))
    by (unfold broadcast_like; cbn [rescale adims]; destruct (compatible _ _); reflexivity).
  destruct (broadcast_like dep0 levels) as [dl|]; [|reflexivity]. cbn [bind res_map].
  unfold asub, amin, adiv. rewrite !(map2_scale c c fsub c) by (intros; apply fs_sub, P).
  destruct (amap2 fsub zb' zt') as [f|]; [|reflexivity]. cbn [bind res_map].
  destruct (amap2 fsub dl zt') as [part|]; [|reflexivity]. cbn [bind res_map].
  assert (CL : forall q, clip0 (rescale c q) = rescale c (clip0 q)) by (intros q; apply map_scale; intros; apply fs_clip, P).
  rewrite CL, (map2_scale c c fmin c) by (intros; apply fs_min, P).
  destruct (amap2 fmin (clip0 part) f) as [r1|]; [|reflexivity]. cbn [bind res_map].
  replace (const_r fsub (rescale c zb') (fmul (Fin c) top)) with (rescale c (const_r fsub zb' top)).
  2:{ unfold const_r, amap, rescale. cbn [adims at_]. f_equal. apply functional_extensionality. intros e. symmetry. apply (fs_sub c), P. }
  rewrite CL, (map2_scale c c fmin c) by (intros; apply fs_min, P).
  destruct (amap2 fmin _ r1) as [r2|]; [|reflexivity]. cbn [bind res_map].
  destruct fraction; [|reflexivity].
  assert (Z : forall q, amap (fun v => if feqb v (Fin 0) then NaN else v) (rescale c q) = rescale c (amap (fun v => if feqb v (Fin 0) then NaN else v) q)).
  { intros q. apply map_scale. intros x. rewrite <- (fs_zero c P) at 1. rewrite fs_eqb by assumption. destruct (feqb x (Fin 0)); reflexivity. }
  rewrite !Z, (map2_scale c c fdiv (c / c)) by (intros; apply fs_div; assumption).
  destruct (amap2 fdiv _ _) as [q|]; [|reflexivity]. cbn [res_map]. f_equal. apply rescale_id. field. lra.
Qed.
Print Assumptions C114_dz.

(** C115: potential vorticity in "cm" units.  The label reads 10^14 cm-1 s-1; the numbers are
    multiples of 10^-14 cm-1 s-1. *)
Definition quantity (u : unit_) (v : R) : R := v * powerRZ 10 (u10 u).

Lemma fdiv_pos x y : 0 < y -> fdiv (Fin x) (Fin y) = Fin (x / y).
Proof. intros P. cbn [fdiv]. rewrite (Reqb_false' y) by lra. reflexivity. Qed.
Lemma pow14 : powerRZ 10 (-14) * (10 ^ 14) = 1.
Proof. cbn [powerRZ Pos.to_nat]. apply Rinv_l, pow_nonzero. lra. Qed.

Theorem C115_cm_refuted : ~ (forall zeta f n2 g coords sym interp r_m r_cm a_m a_cm u_m u_cm e x y,
  calc_pv zeta f n2 g coords sym "m" interp = Ok r_m -> calc_pv zeta f n2 g coords sym "cm" interp = Ok r_cm ->
  calc_pv_attrs "m" = Ok a_m -> calc_pv_attrs "cm" = Ok a_cm -> units_of a_m = Some u_m -> units_of a_cm = Some u_cm ->
  at_ r_m e = Fin x -> at_ r_cm e = Fin y -> quantity u_cm y = Rabs (quantity u_m x)).
Proof.
  intros H. set (s := fun x => mkArr [] (fun _ => Fin x)).
  assert (V : fmul (fadd (Fin 1) (Fin 0)) (fdiv (Fin 1) (Fin 1)) = Fin 1).
  { rewrite fdiv_pos by lra. cbn [fadd fmul]. f_equal. lra. }
  assert (K : quantity (mkU 16 (-1) (-1) 0) (Rabs (1 / 100 * 10 ^ 14)) = Rabs (quantity (mkU 0 (-1) (-1) 0) 1)).
  { set (w := mkArr [] (fun _ => fmul (fadd (Fin 1) (Fin 0)) (fdiv (Fin 1) (Fin 1)))).
    apply (H (s 1) (s 0) (s 1) (Fin 1) default_grid false false w (amap (fun v => fabs (fmul (fdiv v (Fin 100)) (Fin (10 ^ 14)))) w)
      [("long_name", "Ocean potential vorticity"); ("units", "m-1 s-1")] [("long_name", "Ocean potential vorticity"); ("units", "10^14 cm-1 s-1")]
      (mkU 0 (-1) (-1) 0) (mkU 16 (-1) (-1) 0) (fun _ => 0%nat)); try reflexivity; unfold w; cbn [amap at_]; rewrite V; [reflexivity|].
    rewrite fdiv_pos by lra. reflexivity. }
  unfold quantity in K. cbn [u10] in K.
  assert (P : 0 < 10 ^ 14) by (apply pow_lt; lra). rewrite Rabs_right in K by lra.
  change (powerRZ 10 0) with 1 in K. rewrite Rmult_1_r, Rabs_R1 in K.
  replace (powerRZ 10 16) with (10 ^ 16) in K by reflexivity.
  assert (Q : 1 <= 10 ^ 14) by (apply pow_R1_Rle; lra). assert (Q' : 100 <= 10 ^ 16) by (cbn [pow]; lra). nra.
Qed.
Print Assumptions C115_cm_refuted.

(** What holds: the numbers count 10^-14 cm-1 s-1, for every finite result, and NaN and infinite
    results agree. *)
Theorem C115_cm_partial : forall zeta f n2 g coords sym interp r_m r_cm u,
  calc_pv zeta f n2 g coords sym "m" interp = Ok r_m -> calc_pv zeta f n2 g coords sym "cm" interp = Ok r_cm ->
  parse_units "10^-14 cm-1 s-1" = Some u ->
  adims r_cm = adims r_m /\
  forall e, match at_ r_m e, at_ r_cm e with
            | Fin x, Fin y => quantity u y = Rabs x
            | NaN, NaN => True
            | Inf _, Inf s => s = false
            | _, _ => False
            end.
Proof.
  intros zeta f n2 g coords sym interp rm rcm u Em Ec Eu. vm_compute in Eu. injection Eu as <-.
  unfold calc_pv in Em, Ec. set (N := if interp then _ else _) in Em, Ec. clearbody N.
  destruct N as [n|]; [|discriminate Em]. cbn [bind] in Em, Ec.
  destruct (aadd zeta f) as [av|]; [|discriminate Em]. cbn [bind] in Em, Ec.
  destruct (amul av (const_r fdiv n g)) as [pv|]; [|discriminate Em]. cbn [bind] in Em, Ec.
  change (("m" =? "m")%string) with true in Em. change (("cm" =? "m")%string) with false in Ec. change (("cm" =? "cm")%string) with true in Ec.
  assert (INJ : forall a b : arr, Ok a = Ok b -> a = b) by (intros a b E; congruence).
  apply INJ in Em. apply INJ in Ec. subst rm rcm. split; [reflexivity|]. intros e. cbn [amap at_].
  destruct (at_ pv e) as [|s|x]; [exact I| |].
  - assert (L : forall c, 0 < c -> Rltb c 0 = false) by (intros c P; unfold Rltb; destruct (Rlt_dec c 0); [lra|reflexivity]).
    cbn [fdiv fmul]. rewrite Reqb_false' by (apply pow_nonzero; lra). rewrite !L by (lra || apply pow_lt; lra). destruct s; reflexivity.
  - rewrite fdiv_pos by lra. cbn [fmul fabs]. unfold quantity. cbn [u10].
    assert (P : 0 < 10 ^ 14) by (apply pow_lt; lra).
    replace (x / 100 * 10 ^ 14) with (x * (10 ^ 14 / 100)) by field. rewrite Rabs_mult, (Rabs_right (10 ^ 14 / 100)) by lra.
    replace (powerRZ 10 (-12)) with (powerRZ 10 (-14) * 100).
    + transitivity (Rabs x * (powerRZ 10 (-14) * 10 ^ 14)); [field|]. rewrite pow14. ring.
    + change (powerRZ 10 (-12)) with (/ 10 ^ 12). change (powerRZ 10 (-14)) with (/ 10 ^ 14).
      replace (10 ^ 14) with (10 ^ 12 * 100) by (cbn [pow]; ring). field.
Qed.
Print Assumptions C115_cm_partial.

(** C116: each result of derived.py and dynamic.py says in [long_name] and [units] what it is;
    the two that spell the key [long name] do not. *)
Definition described (attrs : dict string) : Prop :=
  exists n u, dget "long_name" attrs = Some n /\ n <> EmptyString /\ dget "units" attrs = Some u /\ u <> EmptyString.

Theorem C116_described_refuted : ~ described calc_rossby_rd_attrs /\ ~ described calc_wave_speed_attrs.
Proof. split; intros (n & u & E & _); discriminate E. Qed.
Print Assumptions C116_described_refuted.

Theorem C116_described_partial : forall eos level adjust units attrs,
  calc_pv_attrs units = Ok attrs ->
  described (calc_alpha_attrs eos) /\ described (calc_beta_attrs eos) /\ described calc_coriolis_attrs /\
  described calc_rel_vort_attrs /\ described (calc_n2_attrs adjust) /\ described calc_masso_attrs /\
  described (calc_pdens_attrs eos level) /\ described attrs /\ described (calc_rho_attrs eos) /\
  described calc_rhoga_attrs /\ described calc_spice_attrs /\ described calc_stability_angle_attrs /\
  described calc_volo_attrs /\ described inverse_barometer_attrs.
Proof.
  intros eos level adjust units attrs E. unfold calc_pv_attrs in E.
  repeat split; try solve [do 2 eexists; repeat split; try reflexivity; discriminate].
  - destruct adjust; do 2 eexists; repeat split; try reflexivity; discriminate.
  - destruct (String.eqb units "m"); [|destruct (String.eqb units "cm"); [|discriminate E]];
      injection E as <-; do 2 eexists; repeat split; try reflexivity; discriminate.
Qed.
Print Assumptions C116_described_partial.


(** The theorems at work: centimetres, minutes and grams. *)
Definition cgs (name : string) : R :=
  if (String.eqb name "uo" || String.eqb name "vo")%bool then 6000
  else if String.eqb name "areacello_bu" then 10000 else 100.
Example C114_case_rel_vort : exists r r',
  calc_rel_vort ev_vars None default_grid false = Ok r /\
  calc_rel_vort (map (fun p => (fst p, rescale (cgs (fst p)) (snd p))) ev_vars) None default_grid false = Ok r' /\
  (forall e, at_ r' e = fmul (Fin 60) (at_ r e)).
Proof.
  destruct (C114_rel_vort 100 (/ 60) 1000 ev_vars None default_grid false cgs (mkU 0 1 (-1) 0) (mkU 0 1 0 0) (mkU 0 2 0 0)
    ltac:(lra) ltac:(lra) ltac:(lra) eq_refl eq_refl eq_refl) as (u & Eu & E).
  - intros k x E [<-|[<-|[]]]; injection E as <-; cbn [cgs String.eqb Ascii.eqb Bool.eqb orb]; chl.
  - intros k x E [<-|[<-|[]]]; injection E as <-; cbv [change uL uT uM powerRZ Pos.to_nat Pos.iter_op Init.Nat.add pow]; unfold cgs; cbn; lra.
  - intros x E; injection E as <-; cbv [change uL uT uM powerRZ Pos.to_nat Pos.iter_op Init.Nat.add pow]; unfold cgs; cbn; lra.
  - destruct C28_nonvacuous as ((r & Er) & _). exists r. rewrite Er in E. cbn [res_map] in E.
    exists (in_units 100 (/ 60) 1000 u r). split; [exact Er|]. split; [exact E|]. intros e. vm_compute in Eu. injection Eu as <-.
    cbn [in_units rescale at_]. f_equal. f_equal. cbv [change uL uT uM powerRZ Pos.to_nat Pos.iter_op Init.Nat.add pow]. lra.
Qed.
Example C114_case_mass : exists r v g,
  calc_masso (in_units 100 1 1000 (mkU 0 (-3) 0 1) ev_rho) (in_units 100 1 1000 (mkU 0 3 0 0) ev_vol) "time" = Ok (rescale 1000 r) /\
  calc_masso ev_rho ev_vol "time" = Ok r /\
  calc_volo (in_units 100 1 1000 (mkU 0 3 0 0) ev_vol) = Ok (rescale 1000000 v) /\ calc_volo ev_vol = Ok v /\
  calc_rhoga (rescale 1000 r) (rescale 1000000 v) = Ok (rescale (1 / 1000) g) /\ calc_rhoga r v = Ok g.
Proof.
  destruct C27_nonvacuous as ((r & v & g & Er & Ev & Eg) & _). exists r, v, g.
  destruct (C114_masso 100 1 1000 ev_rho ev_vol "time" "Wright" ltac:(lra) ltac:(lra) ltac:(lra)) as (a & b & u & Ea & Eb & Eu & E).
  vm_compute in Ea, Eb, Eu. injection Ea as <-. injection Eb as <-. injection Eu as <-.
  destruct (C114_volo 100 1 1000 ev_vol ltac:(lra) ltac:(lra) ltac:(lra)) as (b & u & Eb & Eu & E2).
  vm_compute in Eb, Eu. injection Eb as <-. injection Eu as <-.
  destruct (C114_rhoga 100 1 1000 r v ltac:(lra) ltac:(lra) ltac:(lra)) as (a & b & u & Ea & Eb & Eu & E3).
  vm_compute in Ea, Eb, Eu. injection Ea as <-. injection Eb as <-. injection Eu as <-.
  rewrite Er in E. rewrite Ev in E2. rewrite Eg in E3. cbn [res_map] in E, E2, E3.
  assert (M : change 100 1 1000 (mkU 0 0 0 1) = 1000) by chl.
  assert (V : change 100 1 1000 (mkU 0 3 0 0) = 1000000) by chl.
  assert (D : change 100 1 1000 (mkU 0 (-3) 0 1) = 1 / 1000) by chl.
  unfold in_units in *. rewrite M, V, D in *. auto 10.
Qed.
Example C114_case_dz : exists r, calc_dz ex_levels ex_ifaces ex_depth (Fin 0) None false = Ok r /\
  calc_dz (rescale 100 ex_levels) (rescale 100 ex_ifaces) (rescale 100 ex_depth) (Fin 0) None false = Ok (rescale 100 r) /\
  at_ (rescale 100 r) (ex_at 1 1) = Fin 500.
Proof.
  destruct C12_case as (r & Er & _ & V & _). exists r. split; [exact Er|].
  destruct (C114_dz 100 1 1 ex_levels ex_ifaces ex_depth (Fin 0) None false ltac:(lra) ltac:(lra) ltac:(lra)) as (u & Eu & E).
  vm_compute in Eu. injection Eu as <-. cbv zeta in E.
  replace (change 100 1 1 (mkU 0 1 0 0)) with 100 in E by chl.
  rewrite Er in E. cbn [res_map option_map] in E. replace (fmul (Fin 100) (Fin 0)) with (Fin 0) in E by (cbn; f_equal; lra).
  split; [exact E|]. cbn [rescale at_]. rewrite V. cbn. f_equal. lra.
Qed.
Example C114_case_wave_speed : exists r r',
  calc_wave_speed exn_n2 exn_dz "z_l" = Ok r /\ calc_wave_speed (rescale 1 exn_n2) (rescale 100 exn_dz) "z_l" = Ok r' /\
  forall e, at_ r' e = fmul (Fin 100) (at_ r e).
Proof.
  destruct C17_C22_nonvacuous as (_ & (r & Er) & _).
  assert (exists r', calc_wave_speed (rescale 1 exn_n2) (rescale 100 exn_dz) "z_l" = Ok r') as (r' & Er') by (eexists; reflexivity).
  exists r, r'. split; [exact Er|]. split; [exact Er'|]. intros e.
  destruct (C114_wave_speed 100 1 1 exn_n2 exn_dz 3 _ true ltac:(lra) ltac:(lra) ltac:(lra) eq_refl) as (a & b & u & Ea & Eb & Eu & E).
  vm_compute in Ea, Eb, Eu. injection Ea as <-. injection Eb as <-. injection Eu as <-. unfold in_units in E.
  replace (change 100 1 1 (mkU 0 1 0 0)) with 100 in E by chl.
  replace (change 100 1 1 (mkU 0 0 (-2) 0)) with 1 in E by chl.
  replace (change 100 1 1 (mkU 0 1 (-1) 0)) with 100 in E by chl.
  apply (E r r' e Er Er').
  - intros k _. cbn. destruct k as [|[|k]]; split; (left; reflexivity) || (right; eexists; reflexivity) || discriminate || exact I.
  - right. cbn. lra.
Qed.
Example C114_case_pv : exists r, calc_pv (ev_q 1) (ev_q 2) ev_n2 (Fin 9.8) default_grid false "m" true = Ok r /\
  calc_pv (rescale 60 (ev_q 1)) (rescale 60 (ev_q 2)) (rescale 3600 ev_n2) (fmul (Fin 3600) (Fin 9.8)) default_grid false "m" true = Ok (rescale 60 r).
Proof.
  destruct (C114_pv 1 (/ 60) 1 (ev_q 1) (ev_q 2) ev_n2 (Fin 9.8) default_grid false true true ltac:(lra) ltac:(lra) ltac:(lra)) as (a & b & c & d & u & at' & Ea & Eb & Ec & Ed & Et & Eu & E).
  injection Et as <-. vm_compute in Ea, Eb, Ec, Ed, Eu. injection Ea as <-. injection Eb as <-. injection Ec as <-. injection Ed as <-. injection Eu as <-. unfold in_units in E.
  replace (change 1 (/ 60) 1 (mkU 0 0 (-1) 0)) with 60 in E by chl.
  replace (change 1 (/ 60) 1 (mkU 0 0 (-2) 0)) with 3600 in E by chl.
  replace (change 1 (/ 60) 1 (mkU 0 1 (-2) 0)) with 3600 in E by chl.
  replace (change 1 (/ 60) 1 (mkU 0 (-1) (-1) 0)) with 60 in E by chl.
  assert (exists r, calc_pv (ev_q 1) (ev_q 2) ev_n2 (Fin 9.8) default_grid false "m" true = Ok r) as (r & Er) by (eexists; reflexivity).
  exists r. split; [exact Er|]. rewrite Er in E. exact E.
Qed.
Example C115_case : exists a b, calc_pv (ev_q 1) (ev_q 2) ev_n2 (Fin 9.8) default_grid false "m" true = Ok a /\
  calc_pv (ev_q 1) (ev_q 2) ev_n2 (Fin 9.8) default_grid false "cm" true = Ok b.
Proof. do 2 eexists. split; reflexivity. Qed.
