(** * ProofsSteric3: vanishing at the reference time, global formula *)
From Coq Require Import Reals Lra Lia List String Bool Arith ZArith FunctionalExtensionality Permutation.
From Verif Require Import Num NumFacts Py Arr ArrFacts Eos SpecEos Derived SpecDz Dataset SpecSteric
  ProofsEos ProofsEosApi ProofsFields ProofsFields2 ProofsDz ProofsBudget ProofsSteric ProofsSteric2.
Import ListNotations.
Local Open Scope string_scope.
Local Open Scope R_scope.

Lemma py_index_0 n i : py_index 0 n = Some i -> i = O.
Proof. intros H. apply py_index_selects in H. lia. Qed.

Lemma in_range_field ds ref variant T S T0 S0 T1 S1 :
  uses_fields ds ref variant T S -> dget "thetao" ds = Some T1 -> dget "so" ds = Some S1 ->
  dget "thetao" ref = Some T0 -> dget "so" ref = Some S0 ->
  (T = T1 \/ T = T0) /\ (S = S1 \/ S = S0).
Proof. intros H H1 H2 H3 H4. inversion H; subst; split; try (left; congruence); right; congruence. Qed.

(** ** C33, local *)
Lemma local_vanish d cn vm rhozero patm eos variant domain strict res ref ds m t z zb T S vol rho0 zl ifaces depth zi n p w e :
  steric d None cn vm rhozero patm eos variant domain strict = Ok (res, ref) -> domain <> "global" ->
  ds_rename vm d = Ok ds -> default_coords cn = (t, z, zb) -> same_name eos (module_name m) -> wf_ds ds -> t <> z ->
  uses_fields ds ref variant T S ->
  dget "volcello" ref = Some vol -> dget "rho" ref = Some rho0 -> ds_get z ds = Ok zl ->
  dget zb ds = Some ifaces -> dget "deptho" ds = Some depth -> ~ In z (names depth) ->
  column_ok m z zi n T S rho0 depth zl patm ifaces p w e -> e t = O ->
  exists sea, dget variant res = Some sea /\
    at_ sea e = (if notnull (at_ vol (upd e z 0)) then Fin 0 else NaN).
Proof.
  intros H Hd Hr Hc Hm Hw Htz Hu Dv Dr Dz Di Dd Hzd Hcol He.
  destruct (local_formula d None cn vm rhozero patm eos variant domain strict res ref ds m t z zb T S vol rho0 zl ifaces depth zi n p w e
    H Hd Hr Hc Hm Hw Hu Dv Dr Dz Di Dd Hzd Hcol) as (delta & sea & _ & R1 & _ & R2).
  exists sea. split; [exact R1|]. rewrite R2. destruct (notnull _); [|reflexivity]. f_equal.
  unfold steric_height. rewrite Rsum_zero; [ring|]. intros k Hk.
  apply steric_inv in H as (ds' & t' & z' & zb' & zl' & pres & T' & S' & rho & G1 & G2 & G3).
  rewrite Hr in G1. injection G1 as <-.
  destruct G2 as (P1 & P2 & P3 & P4 & P5 & P6 & P7 & P8). rewrite Hc in P1. injection P1 as <- <- <-.
  rewrite Dz in P3. injection P3 as <-.
  destruct (validated_get _ _ _ _ "thetao" P2) as (T1 & DT); [cbn; tauto|].
  destruct (validated_get _ _ _ _ "so" P2) as (S1 & DS); [cbn; tauto|].
  destruct (validated_get _ _ _ _ "volcello" P2) as (V1 & DV); [cbn; tauto|].
  destruct (ref_fields _ _ _ _ _ _ _ _ _ _ _ _ _ _ P5 Hc P2 P6 Hw DT DS DV) as
    (T0 & S0 & V0 & rho0' & zl'' & pres' & volo & masso & rhoga & F1 & F2 & F3 & F4 & _ & _ & _ & F8 & F9 & F10 & _ & _ & _ & FT & FS & FV).
  rewrite Dr in F4. injection F4 as <-. rewrite Dz in F8. injection F8 as <-. rewrite P4 in F9. injection F9 as <-.
  destruct FT as (nT & iT & _ & IT & _ & VT). apply py_index_0 in IT. subst iT.
  destruct FS as (nS & iS & _ & IS & _ & VS). apply py_index_0 in IS. subst iS.
  set (ek := upd e z k).
  assert (Hek : upd ek t 0 = ek). { apply upd_self. unfold ek. rewrite upd_other by congruence. exact He. }
  specialize (VT ek). specialize (VS ek). rewrite Hek in VT, VS.
  destruct (in_range_field _ _ _ _ _ _ _ _ _ Hu DT DS F1 F2) as [UT US].
  assert (ET : at_ T0 ek = at_ T ek) by (destruct UT; subst T; congruence).
  assert (ES : at_ S0 ek = at_ S ek) by (destruct US; subst S; congruence).
  assert (Er := rho_inv _ _ _ _ _ _ F10 Hm ek). rewrite ET, ES in Er.
  destruct Hcol as (_ & _ & _ & _ & _ & Ck). destruct (Ck k Hk) as (K1 & K2 & K3 & (x & y & K4 & K5 & K6) & K7).
  fold ek in K1, K2, K3, K4, K5, K7.
  apply amap2_inv in P4. rewrite P4 in Er. cbn [at_ const_r amap] in Er. rewrite K4, K5 in Er. cbn [fmul fadd] in Er.
  replace (x * 10000 + y) with (p k) in Er by (rewrite K6; ring).
  unfold density_change. cbn [c_wet c_T c_S c_rho0 c_p column_at]. fold ek. rewrite Er.
  destruct (notnull (at_ vol ek)); [|cbn; ring].
  destruct (at_ T ek) as [|s|tt]; [cbn; ring|cbn; ring|].
  destruct (at_ S ek) as [|s|ss]; [cbn; ring|cbn; ring|].
  rewrite eos_density_Fin by (apply K7; reflexivity). cbn. ring.
Qed.

(** ** The global branch *)
Lemma global_inv ref rho variant t res :
  steric_global ref rho variant t = Ok res ->
  exists vol masso rhoga volo area h sea,
    ds_get "volcello" ref = Ok vol /\ calc_masso rho vol t = Ok masso /\ ds_get "rhoga" ref = Ok rhoga /\
    ds_get "volo" ref = Ok volo /\ ds_get "areacello" ref = Ok area /\
    (forall e, at_ h e = fdiv (at_ volo e) (at_ (asum_all area) e)) /\
    (forall e, at_ sea e = fmul (at_ h e) (fln (fdiv (at_ rhoga e) (fdiv (at_ masso e) (at_ volo e))))) /\
    res = [("reference_height", h); (variant, sea)].
Proof.
  unfold steric_global. intros H.
  apply bind_inv in H as (vol & Hvol & H). apply bind_inv in H as (masso & Hmasso & H).
  apply bind_inv in H as (rhoga & Hrhoga & H). apply bind_inv in H as (volo & Hvolo & H).
  apply bind_inv in H as (mean & Hmean & H). apply bind_inv in H as (ratio & Hratio & H).
  apply bind_inv in H as (area & Harea & H). apply bind_inv in H as (h & Hh & H).
  apply bind_inv in H as (sea & Hsea & H). injection H as <-.
  exists vol, masso, rhoga, volo, area, h, sea. repeat (split; [assumption|]).
  apply amap2_inv in Hmean, Hratio, Hh, Hsea. subst.
  split; [reflexivity|]. split; [reflexivity|]. reflexivity.
Qed.

Lemma same_grid_union t vol a b : same_grid t vol a -> same_grid t vol b ->
  forall d, same_grid t vol (mkArr (union_dims (adims a) (adims b)) d).
Proof.
  intros (A1 & A2 & A3) (B1 & B2 & B3) d. split; [apply union_NoDup; assumption|]. split.
  - intros x Hx. unfold names in Hx. cbn [adims] in Hx. rewrite union_names in Hx. destruct Hx; auto.
  - intros x n Hx. cbn [adims] in Hx. apply union_In in Hx as [Hx|Hx]; eauto.
Qed.

Lemma field_mass ds_T S pres patm zl eos m rho vol t masso p e :
  calc_rho ds_T S pres eos = Ok rho -> same_name eos (module_name m) ->
  aadd (const_r fmul zl (Fin 10000)) patm = Ok pres ->
  calc_masso rho vol t = Ok masso -> NoDup (names vol) -> ~ In t (names vol) ->
  field_ok m ds_T S vol zl patm p ->
  same_grid t vol ds_T -> same_grid t vol S -> same_grid t vol zl -> same_grid t vol patm ->
  at_ masso e = Fin (total_mass m ds_T S vol p e).
Proof.
  intros Hrho Hm Hp Hmass Nv Ht Hok GT GS GZ GP.
  assert (Hr : forall e', at_ rho e' = fof (cell_density m (at_ ds_T e') (at_ S e') (p e'))).
  { intros e'. rewrite (rho_inv _ _ _ _ _ _ Hrho Hm). apply amap2_inv in Hp. rewrite Hp. cbn [at_ const_r amap].
    destruct (Hok e') as (K1 & K2 & _ & (x & y & K4 & K5 & K6) & K7). rewrite K4, K5. cbn [fmul fadd].
    replace (x * 10000 + y) with (p e') by (rewrite K6; ring). unfold cell_density.
    destruct (at_ ds_T e') as [|b|tt]; [rewrite eos_density_nan by tauto; reflexivity|exfalso; exact (K1 b eq_refl)|].
    destruct (at_ S e') as [|b|ss]; [rewrite eos_density_nan by tauto; reflexivity|exfalso; exact (K2 b eq_refl)|].
    cbn. apply eos_density_Fin, K7; reflexivity. }
  assert (GP' : same_grid t vol pres).
  { apply amap2_inv in Hp. rewrite Hp. apply same_grid_union; [|exact GP]. exact GZ. }
  assert (GR : same_grid t vol rho).
  { unfold calc_rho in Hrho. apply bind_inv in Hrho as (f & _ & Hrho). apply eos_ufunc_inv in Hrho. rewrite Hrho.
    apply (same_grid_union t vol (mkArr (union_dims (adims ds_T) (adims S)) (at_ S)) pres); [|exact GP'].
    apply same_grid_union; assumption. }
  destruct GR as (NR & SR & AR).
  assert (Ir : no_inf rho). { intros e' s. rewrite Hr. destruct (cell_density _ _ _ _); discriminate. }
  assert (Iv : no_inf vol). { intros e' s. apply Hok. }
  destruct (masso_value _ _ _ _ Hmass NR Nv Ir Iv) as [E _]. rewrite E. f_equal.
  assert (Hag : dims_agree (adims rho) (adims vol)).
  { intros d x y H1 H2. destruct (string_dec d t) as [->|Hne].
    - exfalso. apply Ht. apply in_map_iff. exists (t, y). auto.
    - specialize (AR d x H1 Hne). apply (In_dget _ _ _ Nv) in AR. apply (In_dget _ _ _ Nv) in H2. congruence. }
  rewrite (Rsum_box_perm _ _ _ _ (other_dims_perm t rho vol NR Nv Hag Ht SR)).
  - unfold total_mass. apply Rsum_box_ext. intros e'. rewrite Hr. destruct (cell_density _ _ _ _); cbn; [|ring].
    specialize (Iv e'). destruct (at_ vol e') as [|s|v]; cbn; try ring.
  - apply NoDup_map_filter. apply union_NoDup; assumption.
Qed.

Lemma opt_val v : odef (opt v) = val v. Proof. destruct v; reflexivity. Qed.

Lemma global_formula d reference cn vm rhozero patm eos variant strict res ref ds m t z zb T S vol volo rhoga area zl p e V g :
  steric d reference cn vm rhozero patm eos variant "global" strict = Ok (res, ref) ->
  ds_rename vm d = Ok ds -> default_coords cn = (t, z, zb) -> same_name eos (module_name m) ->
  uses_fields ds ref variant T S -> ds_get z ds = Ok zl ->
  dget "volcello" ref = Some vol -> dget "volo" ref = Some volo -> dget "rhoga" ref = Some rhoga -> dget "areacello" ref = Some area ->
  NoDup (names vol) -> ~ In t (names vol) -> field_ok m T S vol zl patm p ->
  same_grid t vol T -> same_grid t vol S -> same_grid t vol zl -> same_grid t vol patm ->
  NoDup (names area) -> no_inf area ->
  at_ volo e = Fin V -> at_ rhoga e = Fin g -> V <> 0 -> total_area area e <> 0 ->
  let M := total_mass m T S vol p e in
  0 < g / (M / V) -> M <> 0 ->
  exists h sea, dget "reference_height" res = Some h /\ dget variant res = Some sea /\
    at_ h e = Fin (V / total_area area e) /\
    at_ sea e = Fin (V / total_area area e * ln (g / (M / V))).
Proof.
  intros H Hr Hc Hm Hu Dz Dv Dvo Dg Da Nv Ht Hok GT GS GZ GP Na Ia HV Hg NV NA M Hpos HM.
  apply steric_inv in H as (ds' & t' & z' & zb' & zl' & pres & T' & S' & rho & G1 & G2 & G3).
  rewrite Hr in G1. injection G1 as <-. rewrite String.eqb_refl in G3.
  assert (Hu' := prepared_uses _ _ _ _ _ _ _ _ _ _ _ _ _ _ _ _ _ G2).
  destruct (uses_unique _ _ _ _ _ _ _ Hu Hu') as [<- <-].
  destruct G2 as (P1 & P2 & P3 & P4 & P5 & P6 & P7 & P8). rewrite Hc in P1. injection P1 as <- <- <-.
  rewrite Dz in P3. injection P3 as <-.
  apply global_inv in G3 as (vol' & masso & rhoga' & volo' & area' & h & sea & Q1 & Q2 & Q3 & Q4 & Q5 & Q6 & Q7 & ->).
  rewrite (ds_get_var _ _ _ Dv) in Q1. injection Q1 as <-.
  rewrite (ds_get_var _ _ _ Dg) in Q3. injection Q3 as <-.
  rewrite (ds_get_var _ _ _ Dvo) in Q4. injection Q4 as <-.
  rewrite (ds_get_var _ _ _ Da) in Q5. injection Q5 as <-.
  assert (EM : at_ masso e = Fin M) by (apply (field_mass T S pres patm zl eos m rho vol t masso p e); assumption).
  assert (EA : at_ (asum_all area) e = Fin (total_area area e)).
  { rewrite asum_all_Fin by assumption. f_equal. unfold total_area. apply Rsum_box_ext. intros e'. now rewrite opt_val. }
  exists h, sea. split; [reflexivity|].
  split. { cbn [dget]. inversion Hu; reflexivity. }
  assert (EH : at_ h e = Fin (V / total_area area e)) by (rewrite Q6, HV, EA; apply fdiv_Fin, NA).
  split; [exact EH|]. rewrite Q7, EH, Hg, EM, HV, (fdiv_Fin M V NV), fdiv_Fin.
  - rewrite fln_Fin by exact Hpos. apply fmul_Fin.
  - intros E0. apply HM. apply (Rmult_eq_reg_r (/ V)); [|apply Rinv_neq_0_compat, NV]. fold (M / V). rewrite E0. ring.
Qed.

Lemma global_sign V A g M : 0 < V / A -> 0 < g -> 0 < M / V ->
  (0 < V / A * ln (g / (M / V)) <-> M / V < g) /\ (V / A * ln (g / (M / V)) = 0 <-> M / V = g).
Proof.
  intros HA Hg HM. set (q := M / V) in *. assert (Hq : 0 < g / q) by (apply Rdiv_lt_0_compat; assumption).
  assert (K1 : 1 < g / q <-> q < g).
  { split; intros H.
    - apply (Rmult_lt_compat_r q) in H; [|exact HM]. unfold Rdiv in H. rewrite Rmult_assoc, Rinv_l in H by lra. lra.
    - apply (Rmult_lt_reg_r q); [exact HM|]. unfold Rdiv. rewrite Rmult_assoc, Rinv_l by lra. lra. }
  assert (K2 : g / q = 1 <-> q = g).
  { split; intros H.
    - apply (f_equal (fun x => x * q)) in H. unfold Rdiv in H. rewrite Rmult_assoc, Rinv_l in H by lra. lra.
    - rewrite <- H. field. lra. }
  rewrite <- K1, <- K2. split; split; intros H.
  - assert (L : 0 < ln (g / q)). { apply (Rmult_lt_reg_l (V / A)); [exact HA|]. lra. }
    rewrite <- ln_1 in L. apply ln_lt_inv in L; lra.
  - apply Rmult_lt_0_compat; [exact HA|]. rewrite <- ln_1. apply ln_increasing; lra.
  - apply Rmult_integral in H as [H|H]; [lra|]. rewrite <- ln_1 in H. apply ln_inv in H; lra.
  - rewrite H, ln_1. ring.
Qed.

(** ** C33, global *)
Lemma ds_get_wf v ds a : wf_ds ds -> ds_get v ds = Ok a -> wf_arr a.
Proof.
  intros Hw. unfold ds_get. destruct (dget v ds) as [b|] eqn:E; [intros [=<-]; exact (Hw _ _ E)|].
  destruct (ds_dim v ds) as [n|]; [|discriminate]. intros [=<-]. split; [repeat constructor; intros []|].
  intros e e' H. cbn. rewrite (H v); [reflexivity|left; reflexivity].
Qed.

Lemma global_vanish d cn vm rhozero patm eos variant strict res ref ds m t z zb T S vol volo rhoga area zl p e V g :
  steric d None cn vm rhozero patm eos variant "global" strict = Ok (res, ref) ->
  ds_rename vm d = Ok ds -> default_coords cn = (t, z, zb) -> same_name eos (module_name m) -> wf_ds ds ->
  uses_fields ds ref variant T S -> ds_get z ds = Ok zl ->
  dget "volcello" ref = Some vol -> dget "volo" ref = Some volo -> dget "rhoga" ref = Some rhoga -> dget "areacello" ref = Some area ->
  field_ok m T S vol zl patm p ->
  same_grid t vol T -> same_grid t vol S -> same_grid t vol zl -> same_grid t vol patm ->
  wf_arr patm -> ~ In t (names patm) -> ~ In t (names zl) ->
  NoDup (names area) -> no_inf area ->
  at_ volo e = Fin V -> at_ rhoga e = Fin g -> V <> 0 -> g <> 0 -> total_area area e <> 0 -> e t = O ->
  exists sea, dget variant res = Some sea /\ at_ sea e = Fin 0.
Proof.
  intros H Hr Hc Hm Hw Hu Dz Dv Dvo Dg Da Hok GT GS GZ GP WP TP TZ Na Ia HV Hg NV Ng NA He.
  assert (H' := H).
  apply steric_inv in H' as (ds' & t' & z' & zb' & zl' & pres & T' & S' & rho & G1 & G2 & G3).
  rewrite Hr in G1. injection G1 as <-. clear G3.
  destruct G2 as (P1 & P2 & P3 & P4 & P5 & P6 & P7 & P8). rewrite Hc in P1. injection P1 as <- <- <-.
  rewrite Dz in P3. injection P3 as <-.
  destruct (validated_get _ _ _ _ "thetao" P2) as (T1 & DT); [cbn; tauto|].
  destruct (validated_get _ _ _ _ "so" P2) as (S1 & DS); [cbn; tauto|].
  destruct (validated_get _ _ _ _ "volcello" P2) as (V1 & DV); [cbn; tauto|].
  destruct (ref_fields _ _ _ _ _ _ _ _ _ _ _ _ _ _ P5 Hc P2 P6 Hw DT DS DV) as
    (T0 & S0 & V0 & rho0' & zl'' & pres' & volo' & masso & rhoga' & F1 & F2 & F3 & F4 & F5 & F6 & F7 & F8 & F9 & F10 & F11 & F12 & F13 & FT & FS & FV).
  rewrite Dv in F3. injection F3 as <-. rewrite Dvo in F5. injection F5 as <-. rewrite Dg in F7. injection F7 as <-.
  rewrite Dz in F8. injection F8 as <-. rewrite P4 in F9. injection F9 as <-.
  destruct FT as (nT & iT & _ & IT & ATd & VT). apply py_index_0 in IT. subst iT.
  destruct FS as (nS & iS & _ & IS & ASd & VS). apply py_index_0 in IS. subst iS.
  destruct FV as (nV & iV & _ & _ & AVd & _).
  assert (Nv : NoDup (names vol)) by (unfold names; rewrite AVd; apply drop_NoDup; apply (Hw _ _ DV)).
  assert (Ht : ~ In t (names vol)) by (unfold names; rewrite AVd, drop_names; tauto).
  destruct (in_range_field _ _ _ _ _ _ _ _ _ Hu DT DS F1 F2) as [UT US].
  (* the reference fields have the same values wherever the time position is 0 *)
  assert (ET : forall e', e' t = O -> at_ T0 e' = at_ T e').
  { intros e' E. destruct UT; subst T; [|reflexivity]. rewrite VT. now rewrite upd_self. }
  assert (ES : forall e', e' t = O -> at_ S0 e' = at_ S e').
  { intros e' E. destruct US; subst S; [|reflexivity]. rewrite VS. now rewrite upd_self. }
  assert (GT0 : same_grid t vol T0).
  { destruct UT; subst T; [|exact GT]. destruct GT as (A1 & A2 & A3).
    split; [unfold names; rewrite ATd; apply drop_NoDup; exact A1|]. split.
    - intros x Hx. apply A2. unfold names in *. rewrite ATd, drop_names in Hx. tauto.
    - intros x n Hx. rewrite ATd in Hx. apply filter_In in Hx as [Hx _]. apply A3, Hx. }
  assert (GS0 : same_grid t vol S0).
  { destruct US; subst S; [|exact GS]. destruct GS as (A1 & A2 & A3).
    split; [unfold names; rewrite ASd; apply drop_NoDup; exact A1|]. split.
    - intros x Hx. apply A2. unfold names in *. rewrite ASd, drop_names in Hx. tauto.
    - intros x n Hx. rewrite ASd in Hx. apply filter_In in Hx as [Hx _]. apply A3, Hx. }
  (* values of T0 everywhere: T at time 0 *)
  assert (ET' : forall e', at_ T0 e' = at_ T (upd e' t 0)).
  { intros e'. destruct UT; subst T; [apply VT|]. rewrite !VT, upd_upd. reflexivity. }
  assert (ES' : forall e', at_ S0 e' = at_ S (upd e' t 0)).
  { intros e'. destruct US; subst S; [apply VS|]. rewrite !VS, upd_upd. reflexivity. }
  assert (Ez : forall e', at_ zl e' = at_ zl (upd e' t 0)).
  { intros e'. apply (ds_get_wf _ _ _ Hw Dz). intros x Hx. rewrite upd_other; [reflexivity|]. intros <-. contradiction. }
  assert (Ep : forall e', at_ patm e' = at_ patm (upd e' t 0)).
  { intros e'. apply WP. intros x Hx. rewrite upd_other; [reflexivity|]. intros <-. contradiction. }
  assert (Hok0 : field_ok m T0 S0 vol zl patm p).
  { intros e'. destruct (Hok e') as (_ & _ & K3 & (x & y & K4 & K5 & K6) & _).
    destruct (Hok (upd e' t 0)) as (K1 & K2 & _ & (x' & y' & K4' & K5' & K6') & K7).
    rewrite ET', ES'. split; [exact K1|]. split; [exact K2|]. split; [exact K3|].
    split; [exists x, y; auto|]. rewrite <- Ez in K4'. rewrite <- Ep in K5'.
    rewrite K4 in K4'. rewrite K5 in K5'. injection K4' as <-. injection K5' as <-. rewrite K6, <- K6'. exact K7. }
  set (M := total_mass m T S vol p e).
  assert (EM : at_ masso e = Fin M).
  { rewrite (field_mass T0 S0 pres patm zl eos m rho0' vol t masso p e); try assumption. f_equal.
    unfold M, total_mass. apply Rsum_box_ext_box; [exact Nv|]. intros e' [_ B].
    assert (E : e' t = O) by (rewrite B by exact Ht; exact He). rewrite (ET e' E), (ES e' E). reflexivity. }
  assert (Eg : g = M / V).
  { assert (Q := rhoga_value _ _ _ _ _ _ F13 EM HV NV). rewrite Hg in Q. now injection Q. }
  assert (HM : M <> 0). { intros E0. apply Ng. rewrite Eg, E0. unfold Rdiv. ring. }
  assert (E1 : g / (M / V) = 1). { rewrite Eg. field. split; assumption. }
  destruct (global_formula d None cn vm rhozero patm eos variant strict res ref ds m t z zb T S vol volo rhoga area zl p e V g)
    as (h & sea & _ & R1 & _ & R2); try assumption.
  - fold M. rewrite E1. lra.
  - exists sea. split; [exact R1|]. rewrite R2. fold M. rewrite E1, ln_1, Rmult_0_r. reflexivity.
Qed.
