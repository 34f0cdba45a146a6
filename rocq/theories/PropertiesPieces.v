(** * PropertiesPieces: C117, C118 *)
From Coq Require Import Reals Lra Lia List String Bool Arith FunctionalExtensionality.
From Verif Require Import Num NumFacts Py Arr ArrFacts Eos Spice Derived Dataset SpecUnits SpecPieces ProofsDz ProofsPieces.
Import ListNotations.
Local Open Scope string_scope.

Lemma sized_amap2 d N g a b r : amap2 g a b = Ok r -> sized d N a -> sized d N b -> sized d N r.
Proof. unfold amap2. destruct (compatible _ _); [|discriminate]. intros E Ha Hb. injection E as <-. apply lsized_union; assumption. Qed.
Lemma sized_eos d N ti g t s p r : eos_ufunc ti g t s p = Ok r -> sized d N t -> sized d N s -> sized d N p -> sized d N r.
Proof.
  unfold eos_ufunc, amap3. destruct (_ && _); [|discriminate]. cbn [bind]. destruct (eos_shape_ok _ _ _ _); [|discriminate].
  intros E Ht Hs Hp. injection E as <-. repeat apply lsized_union; assumption.
Qed.
Lemma sized_diff d N q x a r : differentiate q x a = Ok r -> sized d N a -> sized d N r.
Proof.
  unfold differentiate. destruct (dget q (adims a)); [|discriminate]. destruct (Nat.ltb n 3); [discriminate|]. intros E H. injection E as <-. exact H.
Qed.
Lemma sized_amap d N g a : sized d N a -> sized d N (amap g a).
Proof. exact (fun H => H). Qed.
Lemma sized_other d N z n v : z <> d -> sized d N (mkArr [(z, n)] v).
Proof. intros H m [E|[]]. injection E as E _. congruence. Qed.


(** ** C118: the derived fields of a selection are the selection of the derived fields *)
(** [d] appears in temperature or salinity, or not in pressure. *)
Definition carried (d : string) (t s p : arr) : Prop := In d (names t) \/ In d (names s) \/ ~ In d (names p).

Theorem C118_rho : forall d n f N t s p eos, sized d N t -> sized d N s -> sized d N p -> carried d t s p ->
  calc_rho (select d n f t) (select d n f s) (select d n f p) eos = res_map (select d n f) (calc_rho t s p eos).
Proof.
  intros d n f N t s p eos Ht Hs Hp H. unfold calc_rho. destruct (eos_func_from_str eos FDensity); [|reflexivity]. cbn [bind].
  apply (tk_eos d n f N); assumption.
Qed.
Print Assumptions C118_rho.

Theorem C118_alpha_beta : forall d n f N ti t s p eos, sized d N t -> sized d N s -> sized d N p -> carried d t s p ->
  calc_alpha ti (select d n f t) (select d n f s) (select d n f p) eos = res_map (select d n f) (calc_alpha ti t s p eos) /\
  calc_beta ti (select d n f t) (select d n f s) (select d n f p) eos = res_map (select d n f) (calc_beta ti t s p eos).
Proof.
  intros d n f N ti t s p eos Ht Hs Hp H. unfold calc_alpha, calc_beta. split.
  - destruct (eos_func_from_str eos FAlpha); [|reflexivity]. cbn [bind]. apply (tk_eos d n f N); assumption.
  - destruct (eos_func_from_str eos FBeta); [|reflexivity]. cbn [bind]. apply (tk_eos d n f N); assumption.
Qed.
Print Assumptions C118_alpha_beta.

Theorem C118_pdens : forall d n f N t s level patm eos, sized d N t -> sized d N s -> sized d N patm -> carried d t s patm ->
  calc_pdens (select d n f t) (select d n f s) level (select d n f patm) eos = res_map (select d n f) (calc_pdens t s level patm eos).
Proof.
  intros d n f N t s level patm eos Ht Hs Hp H. unfold calc_pdens. destruct (assert_ _); [|reflexivity]. cbn [bind].
  apply (C118_rho d n f N t s (const_l fadd (fmul level (Fin 10000)) patm)); assumption.
Qed.
Print Assumptions C118_pdens.

Theorem C118_inverse_barometer : forall d n f N tos sos pso g eos, sized d N tos -> sized d N sos -> sized d N pso -> carried d tos sos pso ->
  inverse_barometer (select d n f tos) (select d n f sos) (select d n f pso) g eos = res_map (select d n f) (inverse_barometer tos sos pso g eos).
Proof.
  intros d n f N t s p g eos Ht Hs Hp H. unfold inverse_barometer. rewrite (C118_rho d n f N) by assumption.
  destruct (calc_rho t s p eos) as [r|] eqn:E; [|reflexivity]. cbn [bind res_map].
  assert (Hr : sized d N r). { unfold calc_rho in E. destruct (eos_func_from_str _ _); [|discriminate]. eapply sized_eos; eassumption. }
  rewrite tk_amap. unfold amul. apply (tk_amap2 d n f N); assumption.
Qed.
Print Assumptions C118_inverse_barometer.

(** [calc_n2] and [calc_stability_angle] along any dimension but the vertical one *)
Theorem C118_n2 : forall d n f N ti t s z eos g patm zc, sized d N t -> sized d N s -> sized d N patm -> carried d t s patm -> d <> zc ->
  calc_n2 ti (select d n f t) (select d n f s) z eos g (select d n f patm) zc false = res_map (select d n f) (calc_n2 ti t s z eos g patm zc false).
Proof.
  intros d n f N ti t s z eos g patm zc Ht Hs Hp H Hz. unfold calc_n2. change (adims (select d n f t)) with (resize d n (adims t)).
  rewrite dget_rs, (proj2 (String.eqb_neq d zc) Hz). destruct (dget zc (adims t)) as [k|]; [|reflexivity]. cbn [bind].
  assert (Z : select d n f (zarr zc k z) = zarr zc k z).
  { apply select_without; [|intros [E|[]]; cbn in E; congruence]. split; [repeat constructor; intros []|]. intros e e' X. cbn. rewrite (X zc (or_introl eq_refl)). reflexivity. }
  assert (Sz : sized d N (zarr zc k z)) by (apply sized_other; congruence).
  assert (P : pressure_from_depth (zarr zc k z) (select d n f patm) = res_map (select d n f) (pressure_from_depth (zarr zc k z) patm)).
  { unfold pressure_from_depth. rewrite <- Z at 1. unfold const_r, aadd. rewrite tk_amap. apply (tk_amap2 d n f N); assumption. }
  rewrite P. destruct (pressure_from_depth (zarr zc k z) patm) as [pr|] eqn:Ep; [|reflexivity]. cbn [bind res_map].
  assert (Spr : sized d N pr) by (eapply sized_amap2; [exact Ep| |]; assumption).
  assert (Cpr : carried d t s pr).
  { destruct H as [H|[H|H]]; [left; exact H|right; left; exact H|]. right. right. unfold pressure_from_depth, aadd, amap2 in Ep.
    destruct (compatible _ _); [|discriminate Ep]. injection Ep as <-. unfold names. cbn [adims]. rewrite union_names. intros [[X|[]]|X]; [cbn in X; congruence|].
    exact (H X). }
  destruct (C118_alpha_beta d n f N ti t s pr eos Ht Hs Spr Cpr) as (EA & EB). rewrite EA, EB.
  destruct (calc_alpha ti t s pr eos) as [al|] eqn:Ea; [|reflexivity]. cbn [bind res_map].
  destruct (calc_beta ti t s pr eos) as [be|] eqn:Eb; [|reflexivity]. cbn [bind res_map].
  assert (Sa : sized d N al). { unfold calc_alpha in Ea. destruct (eos_func_from_str _ _); [|discriminate]. eapply sized_eos; eassumption. }
  assert (Sb : sized d N be). { unfold calc_beta in Eb. destruct (eos_func_from_str _ _); [|discriminate]. eapply sized_eos; eassumption. }
  rewrite !tk_differentiate by congruence.
  destruct (differentiate zc z t) as [dt|] eqn:Et; [|reflexivity]. cbn [bind res_map].
  destruct (differentiate zc z s) as [ds|] eqn:Es; [|reflexivity]. cbn [bind res_map].
  assert (Sdt : sized d N dt) by (eapply sized_diff; eassumption). assert (Sds : sized d N ds) by (eapply sized_diff; eassumption).
  unfold amul, asub. rewrite !(tk_amap2 d n f N) by assumption.
  destruct (amap2 fmul al dt) as [x|] eqn:Ex; [|reflexivity]. cbn [bind res_map].
  destruct (amap2 fmul be ds) as [y|] eqn:Ey; [|reflexivity]. cbn [bind res_map].
  rewrite (tk_amap2 d n f N) by (eapply sized_amap2; eassumption).
  destruct (amap2 fsub x y); reflexivity.
Qed.
Print Assumptions C118_n2.

Theorem C118_stability_angle : forall d n f N ti t s p z eos zc, sized d N t -> sized d N s -> sized d N p -> carried d t s p -> d <> zc ->
  calc_stability_angle ti (select d n f t) (select d n f s) (select d n f p) z eos zc = res_map (select d n f) (calc_stability_angle ti t s p z eos zc).
Proof.
  intros d n f N ti t s pr z eos zc Ht Hs Spr Cpr Hz. unfold calc_stability_angle.
  destruct (C118_alpha_beta d n f N ti t s pr eos Ht Hs Spr Cpr) as (EA & EB). rewrite EA, EB.
  destruct (calc_alpha ti t s pr eos) as [al|] eqn:Ea; [|reflexivity]. cbn [bind res_map].
  destruct (calc_beta ti t s pr eos) as [be|] eqn:Eb; [|reflexivity]. cbn [bind res_map].
  assert (Sa : sized d N al). { unfold calc_alpha in Ea. destruct (eos_func_from_str _ _); [|discriminate]. eapply sized_eos; eassumption. }
  assert (Sb : sized d N be). { unfold calc_beta in Eb. destruct (eos_func_from_str _ _); [|discriminate]. eapply sized_eos; eassumption. }
  rewrite !tk_differentiate by congruence.
  destruct (differentiate zc z t) as [dt|] eqn:Et; [|reflexivity]. cbn [bind res_map].
  destruct (differentiate zc z s) as [ds|] eqn:Es; [|reflexivity]. cbn [bind res_map].
  assert (Sdt : sized d N dt) by (eapply sized_diff; eassumption). assert (Sds : sized d N ds) by (eapply sized_diff; eassumption).
  unfold amul, adiv. rewrite !(tk_amap2 d n f N) by assumption.
  destruct (amap2 fmul be ds) as [y|] eqn:Ey; [|reflexivity]. cbn [bind res_map].
  destruct (amap2 fmul al dt) as [x|] eqn:Ex; [|reflexivity]. cbn [bind res_map].
  rewrite (tk_amap2 d n f N) by (eapply sized_amap2; eassumption).
  destruct (amap2 fdiv y x); reflexivity.
Qed.
Print Assumptions C118_stability_angle.

(** Negative values and wave speed, when the vertical dimension comes first *)
Lemma sized_adjust d N a r q m l : adjust_negative_n2 a q = Ok r -> adims a = m :: l -> sized d N a -> sized d N r.
Proof.
  intros E Ea H. unfold adjust_negative_n2 in E. apply bind_inv in E as (x & Ex & E). apply bind_inv in E as (y & Ey & E). apply bind_inv in E as (w & Ew & E).
  eapply sized_amap2; [exact E| |]; [|exact H].
  unfold ffill in Ew. destruct (has_dim q y); [|discriminate]. injection Ew as <-. unfold sized. cbn [adims].
  unfold setitem0 in Ey. cbn [amap adims] in Ey. rewrite Ea in Ey. destruct m. injection Ey as <-. cbn [adims]. rewrite <- Ea. exact H.
Qed.
Theorem C118_adjust_negative : forall d n f N a q m l, adims a = (q, m) :: l -> q <> d -> sized d N a ->
  adjust_negative_n2 (select d n f a) q = res_map (select d n f) (adjust_negative_n2 a q).
Proof.
  intros d n f N a q m l Ea Hq H. unfold adjust_negative_n2. rewrite !tk_amap.
  rewrite (tk_getitem d n f 0 _ q m l) by assumption.
  destruct (getitem 0 _) as [x|]; [|reflexivity]. cbn [bind res_map]. rewrite tk_amap.
  rewrite (tk_setitem0 d n f _ _ q m l) by assumption.
  destruct (setitem0 _ _) as [y|] eqn:Ey; [|reflexivity]. cbn [bind res_map]. rewrite tk_ffill by exact Hq.
  destruct (ffill q y) as [w|] eqn:Ew; [|reflexivity]. cbn [bind res_map]. unfold amul. apply (tk_amap2 d n f N); [|exact H].
  unfold ffill in Ew. destruct (has_dim q y); [|discriminate]. injection Ew as <-. cbn [adims].
  unfold setitem0 in Ey. cbn [amap adims] in Ey. rewrite Ea in Ey. injection Ey as <-. cbn [adims]. rewrite <- Ea. exact H.
Qed.
Print Assumptions C118_adjust_negative.

Theorem C118_wave_speed : forall d n f N n2 dz m l, adims n2 = ("z_l", m) :: l -> d <> "z_l" -> sized d N n2 -> sized d N dz ->
  calc_wave_speed (select d n f n2) (select d n f dz) "z_l" = res_map (select d n f) (calc_wave_speed n2 dz "z_l").
Proof.
  intros d n f N n2 dz m l E Hd H1 H2. unfold calc_wave_speed.
  rewrite (C118_adjust_negative d n f N n2 "z_l" m l) by (assumption || congruence).
  destruct (adjust_negative_n2 n2 "z_l") as [a|] eqn:Ea; [|reflexivity]. cbn [bind res_map]. rewrite tk_amap.
  assert (Sa : sized d N a) by (eapply sized_adjust; eassumption).
  unfold amul. rewrite (tk_amap2 d n f N) by assumption.
  destruct (amap2 fmul (amap fsqrt a) dz) as [p|] eqn:Ep; [|reflexivity]. cbn [bind res_map].
  assert (Sp : sized d N p) by (eapply sized_amap2; [exact Ep| |]; assumption).
  rewrite tk_asum by (intros [X|[]]; congruence).
  destruct (asum ["z_l"] p) as [s|] eqn:Es; [|reflexivity]. cbn [bind res_map].
  rewrite (tk_getitem d n f 0 n2 "z_l" m l) by (assumption || congruence).
  destruct (getitem 0 n2) as [g|] eqn:Eg; [|reflexivity]. cbn [bind res_map].
  assert (Ss : sized d N s). { unfold asum in Es. destruct (forallb _ _); [|discriminate]. injection Es as <-. cbn. apply lsized_filter, Sp. }
  assert (Sg : sized d N g).
  { unfold getitem in Eg. rewrite E in Eg. unfold isel in Eg. destruct (dget _ _); [|discriminate]. destruct (Nat.ltb _ _); [|discriminate]. injection Eg as <-.
    cbn. apply lsized_filter, H1. }
  unfold awhere. change (scalar NaN) with (select d n f (scalar NaN)) at 1. unfold const_r. rewrite tk_amap. unfold aisnull. rewrite tk_amap.
  apply (tk_amap3 d n f N); try assumption. intros x [].
Qed.
Print Assumptions C118_wave_speed.

Theorem C118_rossby_rd : forall d n f N c g, sized d N c -> sized d N g ->
  calc_rossby_rd (select d n f c) (select d n f g) = res_map (select d n f) (calc_rossby_rd c g).
Proof. intros d n f N c g Hc Hg. unfold calc_rossby_rd, adiv. rewrite tk_amap. apply (tk_amap2 d n f N); assumption. Qed.
Print Assumptions C118_rossby_rd.

Theorem C118_masso : forall t n f N rho vol, sized t N rho -> sized t N vol ->
  calc_masso (select t n f rho) (select t n f vol) t = res_map (select t n f) (calc_masso rho vol t).
Proof.
  intros t n f N rho vol Hr Hv. unfold calc_masso, amul. rewrite (tk_amap2 t n f N) by assumption.
  destruct (amap2 fmul rho vol) as [m|]; [|reflexivity]. cbn [bind res_map]. unfold names at 1. cbn [select adims]. rewrite rs_names. fold (names m).
  apply tk_asum. intros I. apply filter_In in I. destruct I as (_ & I). rewrite String.eqb_refl in I. discriminate.
Qed.
Print Assumptions C118_masso.

(** Vorticity along any dimension that is none of the four horizontal ones *)
Definition vertical_or_time (d : string) (cs : grid_coords) : Prop :=
  d <> xcenter cs /\ d <> ycenter cs /\ d <> xcorner cs /\ d <> ycorner cs.
Lemma sized_xg d N op sym c q a r : xg_op op sym c q a = Ok r -> q <> d -> sized d N a -> sized d N r.
Proof.
  unfold xg_op. destruct (dget c (adims a)); [|discriminate]. intros E Hq H. injection E as <-. intros m I. cbn [rename_dim adims] in I.
  apply in_map_iff in I. destruct I as ([k j] & X & I). cbn [fst] in X. destruct (String.eqb k c); injection X as X Y; subst; [congruence|]. apply H, I.
Qed.
Lemma dget_select_all d n f k ds : dget k (select_all d n f ds) = option_map (select d n f) (dget k ds).
Proof. induction ds as [|[q a] ds IH]; [reflexivity|]. cbn. destruct (String.eqb k q); [reflexivity|exact IH]. Qed.
Lemma dmem_select_all d n f k ds : dmem k (select_all d n f ds) = dmem k ds.
Proof. unfold dmem. rewrite dget_select_all. destruct (dget k ds); reflexivity. Qed.
Lemma dlookup_select_all d n f k ds : dlookup k (select_all d n f ds) = res_map (select d n f) (dlookup k ds).
Proof. unfold dlookup. rewrite dget_select_all. destruct (dget k ds); reflexivity. Qed.

Theorem C118_rel_vort : forall d n f N vars vm cs sym, vertical_or_time d cs ->
  (forall k a, dget k vars = Some a -> sized d N a) ->
  calc_rel_vort (select_all d n f vars) vm cs sym = res_map (select d n f) (calc_rel_vort vars vm cs sym).
Proof.
  intros d n f N vars vm cs sym (Hxc & Hyc & Hxq & Hyq) H. unfold calc_rel_vort. set (nm := match vm with None => _ | Some m => m end). clearbody nm.
  replace (forallb (fun p => dmem (snd p) (select_all d n f vars)) nm) with (forallb (fun p => dmem (snd p) vars) nm)
    by (induction nm as [|p nm IH]; [reflexivity|]; cbn [forallb]; rewrite IH, dmem_select_all; reflexivity).
  destruct (forallb _ nm); [|reflexivity]. cbn [negb].
  assert (G : forall k, (let* v := dlookup k nm in dlookup v (select_all d n f vars)) = res_map (select d n f) (let* v := dlookup k nm in dlookup v vars)).
  { intros k. destruct (dlookup k nm); [|reflexivity]. cbn [bind]. apply dlookup_select_all. }
  assert (Sz : forall k a, (let* v := dlookup k nm in dlookup v vars) = Ok a -> sized d N a).
  { intros k a E. apply bind_inv in E as (v & _ & E). unfold dlookup in E. destruct (dget v vars) eqn:D; [|discriminate]. injection E as <-. eapply H, D. }
  rewrite !G.
  destruct (let* v := dlookup "u" nm in dlookup v vars) as [u|] eqn:Eu; [|reflexivity]. cbn [bind res_map]. apply Sz in Eu.
  destruct (let* v := dlookup "dx" nm in dlookup v vars) as [dx|] eqn:Edx; [|reflexivity]. cbn [bind res_map]. apply Sz in Edx.
  unfold amul. rewrite (tk_amap2 d n f N) by assumption. destruct (amap2 fmul u dx) as [udx|] eqn:E1; [|reflexivity]. cbn [bind res_map].
  assert (S1 : sized d N udx) by (eapply sized_amap2; eassumption). unfold xg_diff. rewrite tk_xg by congruence.
  destruct (xg_op _ sym (ycenter cs) (ycorner cs) udx) as [duy|] eqn:E2; [|reflexivity]. cbn [bind res_map].
  assert (S2 : sized d N duy) by (eapply sized_xg; [exact E2|congruence|assumption]).
  destruct (let* v := dlookup "v" nm in dlookup v vars) as [v|] eqn:Ev; [|reflexivity]. cbn [bind res_map]. apply Sz in Ev.
  destruct (let* v := dlookup "dy" nm in dlookup v vars) as [dy|] eqn:Edy; [|reflexivity]. cbn [bind res_map]. apply Sz in Edy.
  rewrite (tk_amap2 d n f N) by assumption. destruct (amap2 fmul v dy) as [vdy|] eqn:E3; [|reflexivity]. cbn [bind res_map].
  assert (S3 : sized d N vdy) by (eapply sized_amap2; eassumption). rewrite tk_xg by congruence.
  destruct (xg_op _ sym (xcenter cs) (xcorner cs) vdy) as [dvx|] eqn:E4; [|reflexivity]. cbn [bind res_map].
  assert (S4 : sized d N dvx) by (eapply sized_xg; [exact E4|congruence|assumption]).
  rewrite tk_amap. unfold aadd. rewrite (tk_amap2 d n f N) by assumption.
  destruct (amap2 fadd (amap fopp duy) dvx) as [ci|] eqn:E5; [|reflexivity]. cbn [bind res_map].
  assert (S5 : sized d N ci) by (eapply sized_amap2; [exact E5| |]; assumption).
  destruct (let* v := dlookup "area" nm in dlookup v vars) as [ar|] eqn:Ear; [|reflexivity]. cbn [bind res_map]. apply Sz in Ear.
  apply (tk_amap2 d n f N); assumption.
Qed.
Print Assumptions C118_rel_vort.

Theorem C118_pv : forall d n f N zeta co n2 g cs sym units interp, vertical_or_time d cs ->
  sized d N zeta -> sized d N co -> sized d N n2 ->
  calc_pv (select d n f zeta) (select d n f co) (select d n f n2) g cs sym units interp =
  res_map (select d n f) (calc_pv zeta co n2 g cs sym units interp).
Proof.
  intros d n f N zeta co n2 g cs sym units interp (Hxc & Hyc & Hxq & Hyq) H1 H2 H3. unfold calc_pv.
  set (I := fun a => if interp then let* b := xg_interp sym (xcenter cs) (xcorner cs) a in xg_interp sym (ycenter cs) (ycorner cs) b else Ok a).
  change (if interp then _ else Ok (select d n f n2)) with (I (select d n f n2)). change (if interp then _ else Ok n2) with (I n2).
  assert (EI : I (select d n f n2) = res_map (select d n f) (I n2)).
  { unfold I. destruct interp; [|reflexivity]. unfold xg_interp. rewrite tk_xg by congruence.
    destruct (xg_op _ sym (xcenter cs) (xcorner cs) n2); [|reflexivity]. cbn [bind res_map]. apply tk_xg; congruence. }
  assert (SI : forall b, I n2 = Ok b -> sized d N b).
  { intros b E. unfold I in E. destruct interp; [|injection E as <-; exact H3]. apply bind_inv in E as (c & Ec & E).
    eapply sized_xg; [exact E|congruence|]. eapply sized_xg; [exact Ec|congruence|exact H3]. }
  rewrite EI. destruct (I n2) as [b|]; [|reflexivity]. specialize (SI b eq_refl). cbn [bind res_map].
  unfold aadd. rewrite (tk_amap2 d n f N) by assumption. destruct (amap2 fadd zeta co) as [av|] eqn:E1; [|reflexivity]. cbn [bind res_map].
  assert (S1 : sized d N av) by (eapply sized_amap2; eassumption). unfold const_r, amul. rewrite tk_amap, (tk_amap2 d n f N) by assumption.
  destruct (amap2 fmul av _) as [pv|]; [|reflexivity]. cbn [bind res_map].
  destruct (String.eqb units "m"); [reflexivity|]. destruct (String.eqb units "cm"); reflexivity.
Qed.
Print Assumptions C118_pv.

(** Thickness along any dimension of the depth field; the positions must exist. *)
Lemma aall_select P d n f N a : wf_arr a -> sized d N a -> positions_in N n f -> aall P a = true -> aall P (select d n f a) = true.
Proof.
  intros W Hs Hf H. assert (W' : wf_arr (select d n f a)).
  { destruct W as (ND & W). split; [unfold names; cbn [select adims]; rewrite rs_names; exact ND|]. intros e e' X. cbn [select at_].
    unfold names in X. cbn [select adims] in X. rewrite rs_names in X.
    apply W. intros q Hq. unfold upd. destruct (String.eqb_spec d q) as [->|]; [|apply X, Hq]. rewrite (X q Hq). reflexivity. }
  apply (aall_spec P _ W'). intros e He. cbn [select at_]. apply (proj1 (aall_spec P a W) H). intros q m I.
  unfold upd. destruct (String.eqb_spec d q) as [<-|Nq].
  - rewrite (Hs m I). apply Hf. apply (He d n). cbn [select adims]. apply in_map_iff. exists (d, m). cbn [fst]. rewrite String.eqb_refl. auto.
  - apply (He q m). cbn [select adims]. apply in_map_iff. exists (q, m). cbn [fst]. rewrite (proj2 (String.eqb_neq _ _) Nq). auto.
Qed.
Lemma sized_bl d N a b r : broadcast_like a b = Ok r -> sized d N a -> sized d N b -> sized d N r.
Proof. unfold broadcast_like. destruct (compatible _ _); [|discriminate]. intros E Ha Hb. injection E as <-. apply lsized_union; assumption. Qed.
Lemma sized_bs d N a b r : broadcast_second a b = Ok r -> sized d N a -> sized d N b -> sized d N r.
Proof. unfold broadcast_second. destruct (compatible _ _); [|discriminate]. intros E Ha Hb. injection E as <-. apply lsized_union; assumption. Qed.

Theorem C118_dz : forall d n f N levels interfaces depth top bottom fraction r,
  wf_arr levels -> wf_arr interfaces -> wf_arr depth -> ~ In d (names levels) -> ~ In d (names interfaces) -> sized d N depth -> positions_in N n f ->
  calc_dz levels interfaces depth top bottom fraction = Ok r ->
  calc_dz levels interfaces (select d n f depth) top bottom fraction = Ok (select d n f r).
Proof.
  intros d n f N levels interfaces depth top bottom fraction r Wl Wi Wd Nl Ni Sd Hf E. unfold calc_dz in *.
  apply bind_inv in E as ([] & A1 & E). unfold assert_ in A1. destruct (aall fge0 (amap _ depth)) eqn:B1; [|discriminate A1].
  rewrite tk_amap. rewrite (aall_select fge0 d n f N) by (assumption || apply wf_amap, Wd). cbn [assert_ bind].
  apply bind_inv in E as ([] & A2 & E). rewrite A2. apply bind_inv in E as ([] & A3 & E). rewrite A3. cbn [bind].
  set (dep := match bottom with None => amap _ depth | Some b => _ end) in E.
  replace (match bottom with None => _ | Some b => _ end) with (select d n f dep) by (unfold dep; destruct bottom; reflexivity).
  assert (SD : sized d N dep) by (unfold dep; destruct bottom; exact Sd). clearbody dep.
  destruct (adims levels) as [|[z nz] [|? ?]] eqn:El; try discriminate. destruct (adims interfaces) as [|[zi ni] [|? ?]] eqn:Ei; try discriminate.
  destruct (Nat.eqb (ni - 1) nz); [|discriminate].
  assert (Hz : z <> d) by (intros ->; apply Nl; unfold names; rewrite El; left; reflexivity).
  assert (Hzi : zi <> d) by (intros ->; apply Ni; unfold names; rewrite Ei; left; reflexivity).
  assert (ID : forall g, select d n f (mkArr [(z, nz)] (fun e => at_ interfaces (upd e zi (g (e z))))) = mkArr [(z, nz)] (fun e => at_ interfaces (upd e zi (g (e z))))).
  { intros g. apply select_without; [|intros [X|[]]; cbn in X; congruence]. split; [repeat constructor; intros []|]. intros e e' X. cbn.
    apply (proj2 Wi). intros q. unfold names. rewrite Ei. intros [<-|[]]. cbn. rewrite !upd_same. rewrite (X z (or_introl eq_refl)). reflexivity. }
  assert (SZ : forall v, sized d N (mkArr [(z, nz)] v)) by (intros v; apply sized_other, Hz).
  set (zt := mkArr [(z, nz)] (fun e => at_ interfaces (upd e zi (e z)))) in *. set (zb := mkArr [(z, nz)] (fun e => at_ interfaces (upd e zi (S (e z))))) in *.
  assert (It : select d n f zt = zt) by apply (ID (fun k => k)). assert (Ib : select d n f zb = zb) by apply (ID S).
  assert (Il : select d n f levels = levels) by (apply select_without; assumption).
  assert (Sl : sized d N levels). { intros m I. rewrite El in I. destruct I as [I|[]]. injection I as I _. congruence. }
  assert (X1 : broadcast_second (select d n f dep) zt = res_map (select d n f) (broadcast_second dep zt))
    by (rewrite <- It at 1; apply (tk_broadcast_second d n f N); [assumption|apply SZ]).
  assert (X2 : broadcast_second (select d n f dep) zb = res_map (select d n f) (broadcast_second dep zb))
    by (rewrite <- Ib at 1; apply (tk_broadcast_second d n f N); [assumption|apply SZ]).
  assert (X3 : broadcast_like (select d n f dep) levels = res_map (select d n f) (broadcast_like dep levels))
    by (rewrite <- Il at 1; apply (tk_broadcast_like d n f N); assumption).
  rewrite X1, X2, X3. clear ID X1 X2 X3.
  apply bind_inv in E as (zt' & E1 & E). rewrite E1. cbn [bind res_map]. apply sized_bs with (d := d) (N := N) in E1; [|assumption|apply SZ].
  apply bind_inv in E as (zb' & E2 & E). rewrite E2. cbn [bind res_map]. apply sized_bs with (d := d) (N := N) in E2; [|assumption|apply SZ].
  apply bind_inv in E as (dl & E3 & E). rewrite E3. cbn [bind res_map]. apply sized_bl with (d := d) (N := N) in E3; [|assumption|assumption].
  unfold asub, amin, adiv in *. rewrite !(tk_amap2 d n f N) by assumption.
  apply bind_inv in E as (fl & E4 & E). rewrite E4. cbn [bind res_map]. apply sized_amap2 with (d := d) (N := N) in E4; [|assumption|assumption].
  apply bind_inv in E as (pa & E5 & E). rewrite E5. cbn [bind res_map]. apply sized_amap2 with (d := d) (N := N) in E5; [|assumption|assumption].
  unfold clip0, const_r in *. rewrite !tk_amap. rewrite (tk_amap2 d n f N) by assumption.
  apply bind_inv in E as (r1 & E6 & E). rewrite E6. cbn [bind res_map]. apply sized_amap2 with (d := d) (N := N) in E6; [|assumption|assumption].
  rewrite (tk_amap2 d n f N) by assumption.
  apply bind_inv in E as (r2 & E7 & E). rewrite E7. cbn [bind res_map]. apply sized_amap2 with (d := d) (N := N) in E7; [|assumption|assumption].
  destruct fraction.
  - rewrite !tk_amap, (tk_amap2 d n f N) by assumption. rewrite E. reflexivity.
  - injection E as <-. reflexivity.
Qed.
Print Assumptions C118_dz.

(** ** C117: heights in pieces *)
Lemma ds_dim_select d n f k ds : k <> d -> ds_dim k (select_all d n f ds) = ds_dim k ds.
Proof.
  intros H. induction ds as [|[q a] ds IH]; [reflexivity|]. cbn [select_all map ds_dim fst snd]. cbn [select adims]. rewrite dget_rs, (proj2 (String.eqb_neq d k)) by congruence.
  fold (select_all d n f ds). rewrite IH. reflexivity.
Qed.
Lemma ds_get_select d n f k ds : k <> d \/ dmem k ds = true -> ds_get k (select_all d n f ds) = res_map (select d n f) (ds_get k ds).
Proof.
  intros H. unfold ds_get. rewrite dget_select_all. destruct (dget k ds) eqn:E; [reflexivity|]. cbn [option_map].
  destruct H as [H|H]; [|unfold dmem in H; rewrite E in H; discriminate]. rewrite ds_dim_select by exact H.
  destruct (ds_dim k ds) as [m|]; [|reflexivity]. cbn [res_map]. f_equal. symmetry. apply select_without; [|intros [X|[]]; cbn in X; congruence].
  split; [repeat constructor; intros []|]. intros e e' X. cbn. rewrite (X k (or_introl eq_refl)). reflexivity.
Qed.
Definition area_unsplit (strict : bool) (d : string) (ds : dataset) : Prop :=
  strict = false \/ forall a, dget "areacello" ds = Some a -> wf_arr a /\ ~ In d (names a).
Lemma rank_select d n f ds r v : rank_error (select_all d n f ds) r v = rank_error ds r v.
Proof. unfold rank_error. rewrite dget_select_all. destruct (dget v ds); [|reflexivity]. cbn [option_map]. unfold ndim. cbn [select adims]. rewrite rs_len. reflexivity. Qed.
Lemma validate_select d n f ds reference strict add : area_unsplit strict d ds ->
  validate_dataset (select_all d n f ds) reference strict add = validate_dataset ds reference strict add.
Proof.
  intros H. unfold validate_dataset. replace (validate_errors (select_all d n f ds) reference strict add) with (validate_errors ds reference strict add); [reflexivity|].
  unfold validate_errors. cbn [flat_map]. rewrite !rank_select, !dget_select_all.
  replace (dkeys (select_all d n f ds)) with (dkeys ds) by (unfold dkeys, select_all; rewrite map_map; reflexivity).
  replace (fun x => negb (dmem x (select_all d n f ds))) with (fun x => negb (dmem x ds)) by (apply functional_extensionality; intros x; rewrite dmem_select_all; reflexivity).
  destruct (dget "areacello" ds) as [a|] eqn:Ea; cbn [option_map]; [|reflexivity].
  destruct H as [->|H]; [|destruct (H a Ea) as (W & NI); rewrite select_without by assumption; reflexivity].
  destruct (validate_areacello a _ _), (validate_areacello (select d n f a) _ _); reflexivity.
Qed.
Lemma validated ds reference strict add : validate_dataset ds reference strict add = Ok tt ->
  forall x, In x ["thetao"; "so"; "volcello"; "areacello"] \/ In x add \/ (reference = true /\ In x ["rho"; "volo"; "masso"; "rhoga"]) -> dmem x ds = true.
Proof.
  unfold validate_dataset. destruct (validate_errors _ _ _ _) eqn:E; [|discriminate]. intros _ x H. unfold validate_errors in E.
  apply app_eq_nil in E as (_ & E). apply app_eq_nil in E as (E & _).
  set (ex := (["thetao"; "so"; "volcello"; "areacello"] ++ add ++ (if reference then ["rho"; "volo"; "masso"; "rhoga"] else []))%list) in E.
  assert (I : In x ex). { unfold ex. rewrite !in_app_iff. destruct H as [H|[H|(-> & H)]]; auto. }
  clearbody ex. destruct (filter (fun x => negb (dmem x ds)) ex) eqn:F; [|discriminate E].
  destruct (dmem x ds) eqn:D; [reflexivity|]. assert (X : In x []) by (rewrite <- F; apply filter_In; rewrite D; auto). destruct X.
Qed.
Lemma ds_get_sized d N k ds a : (forall q b, dget q ds = Some b -> sized d N b) -> k <> d \/ dmem k ds = true -> ds_get k ds = Ok a -> sized d N a.
Proof.
  intros H Hk E. unfold ds_get in E. destruct (dget k ds) eqn:D; [injection E as <-; eapply H, D|].
  destruct Hk as [Hk|Hk]; [|unfold dmem in Hk; rewrite D in Hk; discriminate]. destruct (ds_dim k ds); [|discriminate]. injection E as <-. apply sized_other, Hk.
Qed.
Lemma sized_amap3 d N g a b c r : amap3 g a b c = Ok r -> sized d N a -> sized d N b -> sized d N c -> sized d N r.
Proof. unfold amap3. destruct (_ && _); [|discriminate]. intros E Ha Hb Hc. injection E as <-. repeat apply lsized_union; assumption. Qed.
Lemma sized_tr d N q a r : transpose_first q a = Ok r -> sized d N a -> sized d N r.
Proof.
  unfold transpose_first. destruct (dget q (adims a)) as [m|] eqn:D; [|discriminate]. intros E H. injection E as <-. intros x [I|I].
  - injection I as -> ->. apply H. apply dget_In, D.
  - apply H. eapply filter_In, I.
Qed.
Lemma fold_sized d N l a : sized d N a -> sized d N (fold_left (fun acc q => sum1 q acc) l a).
Proof. revert a. induction l as [|q l IH]; intros a H; [exact H|]. cbn. apply IH. intros m I. apply H. eapply filter_In, I. Qed.
Lemma sized_asum d N l a r : asum l a = Ok r -> sized d N a -> sized d N r.
Proof. unfold asum. destruct (forallb _ _); [|discriminate]. intros E H. injection E as <-. apply fold_sized. exact H. Qed.
Lemma sized_isel d N q k a r : isel q k a = Ok r -> sized d N a -> sized d N r.
Proof.
  unfold isel. destruct (dget q (adims a)); [|discriminate]. destruct (Nat.ltb k n); [|discriminate]. intros E H. injection E as <-. intros m I. apply H. eapply filter_In, I.
Qed.

Lemma sized_dz d N levels interfaces depth top bottom fraction r : ~ In d (names levels) -> sized d N depth ->
  calc_dz levels interfaces depth top bottom fraction = Ok r -> sized d N r.
Proof.
  intros Nl Sd E. unfold calc_dz in E. do 3 (apply bind_inv in E as ([] & _ & E)).
  set (dep := match bottom with None => amap _ depth | Some b => _ end) in E.
  assert (SD : sized d N dep) by (unfold dep; destruct bottom; exact Sd). clearbody dep.
  destruct (adims levels) as [|[z nz] [|? ?]] eqn:El; try discriminate. destruct (adims interfaces) as [|[zi ni] [|? ?]] eqn:Ei; try discriminate.
  destruct (Nat.eqb (ni - 1) nz); [|discriminate].
  assert (Hz : z <> d) by (intros ->; apply Nl; unfold names; rewrite El; left; reflexivity).
  assert (SZ : forall v, sized d N (mkArr [(z, nz)] v)) by (intros v; apply sized_other, Hz).
  assert (Sl : sized d N levels). { intros m I. rewrite El in I. destruct I as [I|[]]. injection I as I _. congruence. }
  apply bind_inv in E as (zt' & E1 & E). apply sized_bs with (d := d) (N := N) in E1; [|assumption|apply SZ].
  apply bind_inv in E as (zb' & E2 & E). apply sized_bs with (d := d) (N := N) in E2; [|assumption|apply SZ].
  apply bind_inv in E as (dl & E3 & E). apply sized_bl with (d := d) (N := N) in E3; [|assumption|assumption].
  unfold asub, amin, adiv in *.
  apply bind_inv in E as (fl & E4 & E). apply sized_amap2 with (d := d) (N := N) in E4; [|assumption|assumption].
  apply bind_inv in E as (pa & E5 & E). apply sized_amap2 with (d := d) (N := N) in E5; [|assumption|assumption].
  apply bind_inv in E as (r1 & E6 & E). apply sized_amap2 with (d := d) (N := N) in E6; [|assumption|assumption].
  apply bind_inv in E as (r2 & E7 & E). apply sized_amap2 with (d := d) (N := N) in E7; [|assumption|assumption].
  destruct fraction; [|injection E as <-; assumption]. eapply sized_amap2; [exact E| |]; assumption.
Qed.

Ltac nxt E e' E' S' := apply bind_inv in E as (e' & E' & E); rewrite E'; cbn [bind res_map].

Theorem C117_steric : forall d n f N ds ref cn rhozero patm eos variant domain strict R tc zc zb,
  default_coords cn = (tc, zc, zb) -> 
  (domain = "global" -> d = tc /\ forall a, dget "areacello" ref = Some a -> ~ In tc (names a)) -> d <> zc -> positions_in N n f ->
  (forall k a, dget k ds = Some a -> wf_arr a /\ sized d N a) -> (forall k a, dget k ref = Some a -> sized d N a) -> sized d N patm ->
  (forall a, dget zc ds = Some a \/ dget zb ds = Some a -> ~ In d (names a)) ->
  (forall a, dget "thetao" ds = Some a \/ dget "so" ds = Some a -> In d (names a)) ->
  area_unsplit strict d ds -> area_unsplit strict d ref ->
  steric ds (Some ref) cn None rhozero patm eos variant domain strict = Ok (R, ref) ->
  steric (select_all d n f ds) (Some (select_all d n f ref)) cn None rhozero (select d n f patm) eos variant domain strict =
  Ok (select_all d n f R, select_all d n f ref).
Proof.
  intros d n f N ds ref cn rhozero patm eos variant domain strict R tc zc zb EC Dom Hz Hf HD HR HP HZ HT A1 A2 E.
  assert (HD' : forall q b, dget q ds = Some b -> sized d N b) by (intros q b Hq; apply (HD q b Hq)).
  unfold steric in *. cbn [ds_rename bind] in *. rewrite EC in *.
  apply bind_inv in E as ([] & V1 & E). rewrite validate_select by assumption. rewrite V1. cbn [bind]. pose proof (validated _ _ _ _ V1) as P1.
  rewrite (ds_get_select d n f zc) by (left; congruence). nxt E z Ez Sz.
  assert (Sz : sized d N z) by (apply (ds_get_sized d N zc ds z HD'); [left; congruence|exact Ez]).
  unfold const_r in *. rewrite tk_amap. unfold aadd in *. rewrite (tk_amap2 d n f N) by assumption. nxt E pr Epr Spr.
  assert (Spr : sized d N pr) by (eapply sized_amap2; [exact Epr| |]; assumption).
  apply bind_inv in E as ([] & V2 & E). rewrite validate_select by assumption. rewrite V2. cbn [bind]. pose proof (validated _ _ _ _ V2) as P2.
  assert (SF : select_fields (select_all d n f ds) (select_all d n f ref) variant =
    match select_fields ds ref variant with Ok (t, s) => Ok (select d n f t, select d n f s) | Err e => Err e end).
  { unfold select_fields. rewrite !ds_get_select by (right; solve [apply P1; cbn; tauto|apply P2; cbn; tauto]).
    destruct (String.eqb variant "thermosteric"); [destruct (ds_get "thetao" ds), (ds_get "so" ref); reflexivity|].
    destruct (String.eqb variant "halosteric"); [destruct (ds_get "thetao" ref), (ds_get "so" ds); reflexivity|].
    destruct (String.eqb variant "steric"); [destruct (ds_get "thetao" ds), (ds_get "so" ds); reflexivity|]. reflexivity. }
  rewrite SF. clear SF. apply bind_inv in E as ([t s] & Ets & E). rewrite Ets. cbn [bind fst snd] in *.
  assert (TS : sized d N t /\ sized d N s /\ (In d (names t) \/ In d (names s))).
  { assert (GD : forall k b, dmem k ds = true -> ds_get k ds = Ok b -> dget k ds = Some b).
    { intros k b Hk Hb. unfold ds_get in Hb. unfold dmem in Hk. destruct (dget k ds); [congruence|discriminate]. }
    assert (GR : forall k b, dmem k ref = true -> ds_get k ref = Ok b -> dget k ref = Some b).
    { intros k b Hk Hb. unfold ds_get in Hb. unfold dmem in Hk. destruct (dget k ref); [congruence|discriminate]. }
    assert (D1 : dmem "thetao" ds = true) by (apply P1; cbn; tauto). assert (D2 : dmem "so" ds = true) by (apply P1; cbn; tauto).
    assert (D3 : dmem "thetao" ref = true) by (apply P2; cbn; tauto). assert (D4 : dmem "so" ref = true) by (apply P2; cbn; tauto).
    unfold select_fields in Ets.
    destruct (String.eqb variant "thermosteric").
    { apply bind_inv in Ets as (t' & Q1 & Ets). apply bind_inv in Ets as (s' & Q2 & Ets). injection Ets as -> ->.
      apply GD in Q1; [|assumption]. apply GR in Q2; [|assumption]. split; [eapply HD', Q1|]. split; [eapply HR, Q2|]. left. apply HT. auto. }
    destruct (String.eqb variant "halosteric").
    { apply bind_inv in Ets as (t' & Q1 & Ets). apply bind_inv in Ets as (s' & Q2 & Ets). injection Ets as -> ->.
      apply GR in Q1; [|assumption]. apply GD in Q2; [|assumption]. split; [eapply HR, Q1|]. split; [eapply HD', Q2|]. right. apply HT. auto. }
    destruct (String.eqb variant "steric"); [|discriminate].
    apply bind_inv in Ets as (t' & Q1 & Ets). apply bind_inv in Ets as (s' & Q2 & Ets). injection Ets as -> ->.
    apply GD in Q1; [|assumption]. apply GD in Q2; [|assumption]. split; [eapply HD', Q1|]. split; [eapply HD', Q2|]. left. apply HT. auto. }
  destruct TS as (St & Ss & TS).
  rewrite (C118_rho d n f N) by (assumption || (destruct TS; [left|right; left]; assumption)). nxt E rho Erho Srho.
  assert (Srho : sized d N rho). { unfold calc_rho in Erho. destruct (eos_func_from_str _ _); [|discriminate]. eapply sized_eos; eassumption. }
  apply bind_inv in E as (res & E & X). injection X as <-.
  assert (D1 : dmem "volcello" ref = true) by (apply P2; cbn; tauto).
  destruct (String.eqb domain "global") eqn:B.
  { apply String.eqb_eq in B. destruct (Dom B) as (-> & HA). unfold steric_global, adiv, amul in *.
    assert (D2 : dmem "rhoga" ref = true) by (apply P2; cbn; tauto). assert (D3 : dmem "volo" ref = true) by (apply P2; cbn; tauto).
    assert (D4 : dmem "areacello" ref = true) by (apply P2; cbn; tauto).
    rewrite !(ds_get_select tc n f _ ref) by (right; assumption).
    nxt E vol Evol Sv. assert (Sv : sized tc N vol) by (apply (ds_get_sized _ _ _ _ _ HR (or_intror D1) Evol)).
    rewrite (C118_masso tc n f N) by assumption. nxt E ms Ems Sms.
    assert (Sms : sized tc N ms). { unfold calc_masso, amul in Ems. apply bind_inv in Ems as (m & Em & Ems). eapply sized_asum; [exact Ems|]. eapply sized_amap2; [exact Em| |]; assumption. }
    nxt E rg Erg Srg. assert (Srg : sized tc N rg) by (apply (ds_get_sized _ _ _ _ _ HR (or_intror D2) Erg)).
    nxt E vo Evo Svo. assert (Svo : sized tc N vo) by (apply (ds_get_sized _ _ _ _ _ HR (or_intror D3) Evo)).
    rewrite (tk_amap2 tc n f N) by assumption. nxt E mn Emn Smn. assert (Smn : sized tc N mn) by (eapply sized_amap2; [exact Emn| |]; assumption).
    rewrite (tk_amap2 tc n f N) by assumption. nxt E ra Era Sra. assert (Sra : sized tc N ra) by (eapply sized_amap2; [exact Era| |]; assumption).
    nxt E ar Ear Sar.
    assert (Nar : ~ In tc (names ar)). { apply HA. unfold ds_get in Ear. unfold dmem in D4. destruct (dget "areacello" ref); [congruence|discriminate]. }
    rewrite tk_asum_all by exact Nar.
    assert (Sas : sized tc N (asum_all ar)). { unfold asum_all. apply fold_sized. intros m I. exfalso. apply Nar. apply (in_map fst _ _ I). }
    rewrite (tk_amap2 tc n f N) by assumption. nxt E hg Ehg Shg. assert (Shg : sized tc N hg) by (eapply sized_amap2; [exact Ehg| |]; assumption).
    rewrite tk_amap, (tk_amap2 tc n f N) by assumption. nxt E sv Esv Ssv. injection E as <-. reflexivity. }
  unfold steric_local in *.
  assert (D2 : dmem "rho" ref = true) by (apply P2; cbn; tauto).
  assert (D3 : dmem zb ds = true) by (apply P1; cbn; tauto). assert (D4 : dmem "deptho" ds = true) by (apply P1; cbn; tauto).
  rewrite !(ds_get_select d n f _ ref) by (right; assumption). rewrite !(ds_get_select d n f _ ds) by ((right; assumption) || (left; congruence)).
  nxt E vol Evol Sv. assert (Sv : sized d N vol) by (eapply ds_get_sized; [exact HR|right; exact D1|exact Evol]).
  nxt E rho0 Erho0 Sr. assert (Sr : sized d N rho0) by (eapply ds_get_sized; [exact HR|right; exact D2|exact Erho0]).
  unfold asub, awhere, anotnull, amul, where_method, const_l in *. rewrite (tk_amap2 d n f N) by assumption.
  nxt E diff Ediff Sdiff. assert (Sdiff : sized d N diff) by (eapply sized_amap2; [exact Ediff| |]; assumption).
  rewrite tk_amap. change (scalar NaN) with (select d n f (scalar NaN)) at 1.
  assert (Snan : sized d N (scalar NaN)) by (intros x []). rewrite (tk_amap3 d n f N) by assumption.
  nxt E dl Edl Sdl. assert (Sdl : sized d N dl) by (eapply sized_amap3; [exact Edl| | |]; assumption). rewrite tk_transpose.
  nxt E dl2 Edl2 Sdl2. assert (Sdl2 : sized d N dl2) by (eapply sized_tr; [exact Edl2|assumption]).
  apply bind_inv in E as (z' & X & E). rewrite Ez in X. injection X as <-. rewrite Ez. cbn [bind res_map].
  nxt E zbv Ezb Szb. nxt E dp Edp Sdp.
  assert (WZ : wf_arr z /\ ~ In d (names z)).
  { unfold ds_get in Ez. destruct (dget zc ds) as [a|] eqn:G; [injection Ez as <-; split; [eapply HD, G|apply HZ; auto]|].
    destruct (ds_dim zc ds); [|discriminate]. injection Ez as <-. split; [|intros [X|[]]; cbn in X; congruence].
    split; [repeat constructor; intros []|]. intros e e' X. cbn. rewrite (X zc (or_introl eq_refl)). reflexivity. }
  assert (WB : wf_arr zbv /\ ~ In d (names zbv)).
  { unfold ds_get in Ezb. unfold dmem in D3. destruct (dget zb ds) as [a|] eqn:G; [|discriminate]. injection Ezb as <-. split; [eapply HD, G|apply HZ; auto]. }
  assert (WD : wf_arr dp /\ sized d N dp).
  { unfold ds_get in Edp. unfold dmem in D4. destruct (dget "deptho" ds) as [a|] eqn:G; [|discriminate]. injection Edp as <-. eapply HD, G. }
  rewrite (select_without d n f z), (select_without d n f zbv) by apply WZ || apply WB.
  apply bind_inv in E as (dz & Edz & E). rewrite (C118_dz d n f N z zbv dp (Fin 0) None false dz) by (apply WZ || apply WB || apply WD || assumption). cbn [bind].
  assert (Sdz : sized d N dz) by (eapply sized_dz; [|apply WD|exact Edz]; apply WZ).
  nxt E fa Efa Sfa. rewrite (tk_amap2 d n f N) by assumption.
  nxt E pd Epd Spd. assert (Spd : sized d N pd) by (eapply sized_amap2; [exact Epd| |]; assumption).
  rewrite tk_asum by (intros [X|[]]; congruence).
  nxt E sm Esm Ssm. assert (Ssm : sized d N sm) by (eapply sized_asum; [exact Esm|assumption]).
  rewrite tk_amap, tk_transpose. nxt E sl Esl Ssl. assert (Ssl : sized d N sl) by (eapply sized_tr; [exact Esl|assumption]).
  rewrite tk_isel by congruence. nxt E su Esu Ssu. assert (Ssu : sized d N su) by (eapply sized_isel; [exact Esu|assumption]).
  rewrite tk_amap, (tk_amap2 d n f N) by assumption. nxt E mk Emk Smk. injection E as <-. reflexivity.
Qed.
Print Assumptions C117_steric.

(** The heights of some instants are those instants of the heights of the whole record. *)
Theorem C117_time : forall n f N ds ref cn rhozero patm eos variant domain strict R tc zc zb,
  default_coords cn = (tc, zc, zb) -> tc <> zc -> positions_in N n f ->
  (forall k a, dget k ds = Some a -> wf_arr a /\ sized tc N a) ->
  (forall k a, In (k, a) ref -> wf_arr a /\ ~ In tc (names a)) -> wf_arr patm /\ ~ In tc (names patm) ->
  (forall k a, In k [zc; zb; "areacello"] -> dget k ds = Some a -> ~ In tc (names a)) ->
  (forall k a, In k ["thetao"; "so"] -> dget k ds = Some a -> In tc (names a)) ->
  steric ds (Some ref) cn None rhozero patm eos variant domain strict = Ok (R, ref) ->
  steric (select_all tc n f ds) (Some ref) cn None rhozero patm eos variant domain strict = Ok (select_all tc n f R, ref).
Proof.
  intros n f N ds ref cn rhozero patm eos variant domain strict R tc zc zb EC Hz Hf HD HR (WP & NP) HZ HT E.
  assert (ER : select_all tc n f ref = ref).
  { unfold select_all. rewrite <- (map_id ref) at 2. apply map_ext_in. intros (k, a) I. cbn. f_equal. apply select_without; apply (HR k a I). }
  rewrite <- ER at 1. rewrite <- ER at 2. rewrite <- (select_without tc n f patm) by assumption.
  assert (HR' : forall k a, dget k ref = Some a -> wf_arr a /\ ~ In tc (names a)) by (intros k a G; apply (HR k), dget_In, G).
  apply C117_steric with (N := N) (tc := tc) (zc := zc) (zb := zb); auto.
  - intros _. split; [reflexivity|]. intros a G. apply (HR' _ _ G).
  - intros k a G m I. exfalso. apply (proj2 (HR' k a G)). apply (in_map fst _ _ I).
  - intros m I. exfalso. apply NP. apply (in_map fst _ _ I).
  - intros a [G|G]; eapply HZ; try exact G; cbn; tauto.
  - intros a [G|G]; eapply HT; try exact G; cbn; tauto.
  - right. intros a G. split; [apply (HD _ _ G)|]. eapply HZ; [|exact G]. cbn. tauto.
  - right. intros a G. apply (HR' _ _ G).
Qed.
Print Assumptions C117_time.
