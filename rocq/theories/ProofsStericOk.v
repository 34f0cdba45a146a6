(** * ProofsStericOk: steric succeeds on regular datasets *)
From Coq Require Import Reals Lra Lia List String Bool Arith ZArith.
From Verif Require Import Num NumFacts Py Arr ArrFacts Eos SpecEos Derived SpecDz Dataset SpecSteric
  ProofsEos ProofsEosApi ProofsFields ProofsFields2 ProofsDz ProofsBudget ProofsSteric ProofsSteric2.
Import ListNotations.
Local Open Scope string_scope.

(** A dataset in the usual layout, any dimension names. *)
Record regular (ds : dataset) (t z y x zb zn : string) (nt nz ny nx : nat) (T Sa V area depth zl zi : arr) : Prop := {
  rg_names : NoDup [t; z; y; x];
  rg_T : dget "thetao" ds = Some T; rg_S : dget "so" ds = Some Sa; rg_V : dget "volcello" ds = Some V;
  rg_A : dget "areacello" ds = Some area; rg_D : dget "deptho" ds = Some depth;
  rg_z : dget z ds = Some zl; rg_i : dget zb ds = Some zi;
  rg_dT : adims T = [(t, nt); (z, nz); (y, ny); (x, nx)];
  rg_dS : adims Sa = [(t, nt); (z, nz); (y, ny); (x, nx)];
  rg_dV : adims V = [(t, nt); (z, nz); (y, ny); (x, nx)];
  rg_dA : adims area = [(y, ny); (x, nx)]; rg_dD : adims depth = [(y, ny); (x, nx)];
  rg_dz : adims zl = [(z, nz)]; rg_di : adims zi = [(zn, S nz)];
  rg_nz : (2 <= nz)%nat; rg_ny : (2 <= ny)%nat; rg_nx : (2 <= nx)%nat;
  rg_wD : wf_arr depth; rg_wz : wf_arr zl; rg_wi : wf_arr zi;
  rg_pD : forall e, inrange (adims depth) e -> ~ negative (at_ depth e);
  rg_pz : forall e, inrange (adims zl) e -> ~ negative (at_ zl e) /\ at_ zl e <> NaN;
  rg_pi : forall e, inrange (adims zi) e -> ~ negative (at_ zi e) /\ at_ zi e <> NaN }.

Lemma rank_ok ds n v a : dget v ds = Some a -> ndim a = n -> rank_error ds n v = [].
Proof. intros H <-. unfold rank_error. rewrite H, Nat.eqb_refl. reflexivity. Qed.

(** ** Arrays over a common list of dimensions *)
Lemma dget_names k (l : list (string * nat)) : In k (map fst l) -> exists n, dget k l = Some n.
Proof. intros H. apply dmem_true in H. unfold dmem in H. destruct (dget k l) as [n|]; [exists n; reflexivity|discriminate]. Qed.

Section Over.
Variable L : list (string * nat).
Hypothesis NL : NoDup (map fst L).
Definition over (a : arr) : Prop := NoDup (names a) /\ incl (adims a) L.

Lemma over_agree a b : over a -> over b -> dims_agree (adims a) (adims b).
Proof.
  intros [_ Ha] [_ Hb] d m m' H1 H2. apply Ha in H1. apply Hb in H2.
  apply In_dget in H1; [|exact NL]. apply In_dget in H2; [|exact NL]. congruence.
Qed.
Lemma over_union a b v : over a -> over b -> over (mkArr (union_dims (adims a) (adims b)) v).
Proof.
  intros [Na Ia] [Nb Ib]. split; [apply union_NoDup; assumption|]. intros p Hp. cbn in Hp.
  apply union_In in Hp as [Hp|Hp]; [apply Ia|apply Ib]; exact Hp.
Qed.
Lemma over_amap2 f a b : over a -> over b ->
  amap2 f a b = Ok (mkArr (union_dims (adims a) (adims b)) (fun e => f (at_ a e) (at_ b e))).
Proof.
  intros Ha Hb. unfold amap2. rewrite agree_compatible; [reflexivity|apply Ha|apply over_agree; assumption].
Qed.
Lemma over_amap3 f a b c : over a -> over b -> over c ->
  amap3 f a b c = Ok (mkArr (union_dims (union_dims (adims a) (adims b)) (adims c)) (fun e => f (at_ a e) (at_ b e) (at_ c e))).
Proof.
  intros Ha Hb Hc. unfold amap3. rewrite agree_compatible; [|apply Ha|apply over_agree; assumption].
  assert (Hu := over_union a b (at_ a) Ha Hb). rewrite agree_compatible; [reflexivity|apply Hu|].
  apply (over_agree _ _ Hu Hc).
Qed.
Lemma over_amap f a : over a -> over (amap f a). Proof. intros H; exact H. Qed.
Lemma over_drop d a v : over a -> over (mkArr (drop_dim d (adims a)) v).
Proof. intros [Na Ia]. split; [apply drop_NoDup, Na|]. intros p Hp. cbn in Hp. apply filter_In in Hp as [Hp _]. apply Ia, Hp. Qed.
End Over.

Lemma asum_all_dims a : NoDup (names a) -> adims (asum_all a) = [].
Proof.
  intros Hn. unfold asum_all. rewrite fold_sum_dims. cbn [adims amap].
  destruct (fold_left _ _ _) as [|[q n] l] eqn:E; [reflexivity|]. exfalso.
  assert (G := proj1 (fold_drop_names (names a) (adims a) q)). rewrite E in G.
  destruct (G (or_introl eq_refl)) as [H1 H2]. contradiction.
Qed.

Lemma masso_dims rho vol t r : calc_masso rho vol t = Ok r -> ~ In t (names rho) -> ~ In t (names vol) -> adims r = [].
Proof.
  intros H H1 H2. unfold calc_masso in H. apply bind_inv in H as (mm & Hm & H). apply amap2_inv in Hm.
  unfold asum in H. destruct (forallb _ _); [|discriminate]. injection H as <-.
  rewrite fold_sum_dims. cbn [adims amap].
  destruct (fold_left _ _ _) as [|[q n] l] eqn:E; [reflexivity|]. exfalso.
  assert (G := proj1 (fold_drop_names (filter (fun x => negb (String.eqb x t)) (names mm)) (adims mm) q)). rewrite E in G.
  destruct (G (or_introl eq_refl)) as [G1 G2]. apply G2. apply filter_In. split; [exact G1|].
  apply negb_true_iff, String.eqb_neq. intros ->.
  rewrite Hm in G1. cbn [adims] in G1. rewrite union_names in G1. destruct G1; contradiction.
Qed.

Lemma masso_over L rho vol t : NoDup (map fst L) -> over L rho -> over L vol ->
  exists r, calc_masso rho vol t = Ok r /\ over L r.
Proof.
  intros NL Hr Hv. unfold calc_masso. unfold amul. rewrite (over_amap2 L NL) by assumption. cbn [bind].
  set (mm := mkArr _ _). assert (Hmm : over L mm) by (apply over_union; assumption).
  unfold asum. replace (forallb _ _) with true.
  2:{ symmetry. apply forallb_forall. intros d Hd. apply filter_In in Hd as [Hd _]. apply dmem_true. exact Hd. }
  eexists. split; [reflexivity|].
  generalize (filter (fun x => negb (String.eqb x t)) (names mm)). intros l.
  assert (Ha : over L (amap nan0 mm)) by exact Hmm. revert Ha. generalize (amap nan0 mm).
  induction l as [|d l IH]; intros a Ha; [exact Ha|]. cbn [fold_left]. apply IH. apply over_drop. exact Ha.
Qed.

Lemma amap2_over L f a b r : amap2 f a b = Ok r -> over L a -> over L b -> over L r.
Proof. intros H Ha Hb. apply amap2_inv in H. rewrite H. apply over_union; assumption. Qed.

Lemma dz_over L levels interfaces depth top bottom r :
  calc_dz levels interfaces depth top bottom false = Ok r -> over L depth -> over L levels -> over L r.
Proof.
  unfold calc_dz. intros H Hd Hl. binv H. binv H. binv H.
  destruct (adims levels) as [|[z n] [|? ?]] eqn:El; try discriminate.
  destruct (adims interfaces) as [|[zi ni] [|? ?]] eqn:Ei; try discriminate.
  destruct (Nat.eqb (ni - 1) n) eqn:En; [|discriminate].
  assert (Ho : forall v, over L (mkArr [(z, n)] v)).
  { intros v. destruct Hl as [H1 H2]. unfold names in H1. rewrite El in H1, H2. split; assumption. }
  apply bind_inv in H as (zt & B1 & H). apply bind_inv in H as (zb & B2 & H).
  apply bind_inv in H as (dl & B3 & H). apply bind_inv in H as (dzf & B4 & H).
  apply bind_inv in H as (part & B5 & H). apply bind_inv in H as (r1 & B6 & H).
  apply bind_inv in H as (r2 & B7 & H). injection H as <-.
  assert (Hd' : over L (match bottom with
                | Some b => const_r fmin (amap (fun v => fillna v (Fin 0)) depth) b
                | None => amap (fun v => fillna v (Fin 0)) depth end)) by (destruct bottom; exact Hd).
  revert B1 B2 B3 Hd'.
  generalize (match bottom with
                | Some b => const_r fmin (amap (fun v => fillna v (Fin 0)) depth) b
                | None => amap (fun v => fillna v (Fin 0)) depth end).
  intros dep B1 B2 B3 Hdep. unfold broadcast_second in B1, B2. unfold broadcast_like in B3.
  destruct (compatible (adims dep) _) eqn:C1 in B1; [|discriminate]. injection B1 as <-.
  destruct (compatible (adims dep) _) eqn:C2 in B2; [|discriminate]. injection B2 as <-.
  destruct (compatible (adims levels) _) eqn:C3 in B3; [|discriminate]. injection B3 as <-.
  apply (amap2_over L) in B4; [|apply (over_union L dep _ _ Hdep (Ho (fun _ => NaN)))|apply (over_union L dep _ _ Hdep (Ho (fun _ => NaN)))].
  apply (amap2_over L) in B5; [|apply (over_union L _ _ _ Hl Hdep)|apply (over_union L dep _ _ Hdep (Ho (fun _ => NaN)))].
  apply (amap2_over L) in B6; [|exact B5|exact B4].
  apply (amap2_over L) in B7; [exact B7| |exact B6]. apply (over_union L dep _ _ Hdep (Ho (fun _ => NaN))).
Qed.

Lemma filter_nil {A} (f : A -> bool) l : (forall q, In q l -> f q = false) -> filter f l = [].
Proof.
  induction l as [|q l IH]; intros H; [reflexivity|]. cbn [filter]. rewrite (H q (or_introl eq_refl)).
  apply IH. intros q' Hq. apply H. right. exact Hq.
Qed.

Section Ok.
Variables (ds : dataset) (t z y x zb zn : string) (nt nz ny nx : nat) (T Sa V area depth zl zi : arr).
Hypothesis RG : regular ds t z y x zb zn nt nz ny nx T Sa V area depth zl zi.
Variables (strict : bool) (pa : fval) (eos : string) (m : eos_module).
Hypothesis Hm : same_name eos (module_name m).
Hypothesis Harea : strict = true -> validate_areacello area ocean_area area_tolerance = true.

Lemma input_valid extra : incl extra [zb; "deptho"] -> validate_dataset ds false strict extra = Ok tt.
Proof.
  intros Hin. destruct RG. unfold validate_dataset, validate_errors. cbn [andb].
  replace (filter (fun q => negb (dmem q ds)) _) with (@nil string).
  2:{ symmetry. apply filter_nil. intros q Hq. apply negb_false_iff. unfold dmem.
      rewrite app_nil_r in Hq. apply in_app_iff in Hq as [Hq|Hq].
      - destruct Hq as [<-|[<-|[<-|[<-|[]]]]]; [rewrite rg_T0|rewrite rg_S0|rewrite rg_V0|rewrite rg_A0]; reflexivity.
      - destruct (Hin q Hq) as [<-|[<-|[]]]; [rewrite rg_i0|rewrite rg_D0]; reflexivity. }
  cbn [flat_map app].
  rewrite (rank_ok ds 4 "thetao" T rg_T0) by (unfold ndim; rewrite rg_dT0; reflexivity).
  rewrite (rank_ok ds 4 "so" Sa rg_S0) by (unfold ndim; rewrite rg_dS0; reflexivity).
  rewrite (rank_ok ds 4 "volcello" V rg_V0) by (unfold ndim; rewrite rg_dV0; reflexivity).
  rewrite (rank_ok ds 2 "areacello" area rg_A0) by (unfold ndim; rewrite rg_dA0; reflexivity).
  rewrite (rank_ok ds 2 "deptho" depth rg_D0) by (unfold ndim; rewrite rg_dD0; reflexivity).
  cbn [app]. rewrite rg_A0. destruct (validate_areacello area ocean_area area_tolerance) eqn:E; [reflexivity|].
  destruct strict; [specialize (Harea eq_refl); discriminate|reflexivity].
Qed.

Let L := [(t, nt); (z, nz); (y, ny); (x, nx)].
Let L3 := [(z, nz); (y, ny); (x, nx)].
Lemma NL : NoDup (map fst L). Proof. exact (rg_names _ _ _ _ _ _ _ _ _ _ _ _ _ _ _ _ _ _ RG). Qed.
Lemma drop_L : drop_dim t L = L3.
Proof.
  assert (H := NL). cbn in H. inversion H as [|? ? H1 H2]; subst. cbn in H1. unfold L. cbn.
  rewrite String.eqb_refl. cbn. rewrite !(proj2 (String.eqb_neq t _)) by (intros E; apply H1; subst; tauto). reflexivity.
Qed.
Lemma incl_L3 : incl L3 L. Proof. intros q Hq. right. exact Hq. Qed.
Lemma NL3 : NoDup (map fst L3). Proof. assert (H := NL). cbn in *. now inversion H. Qed.
Lemma t_notin : ~ In t (map fst L3). Proof. assert (H := NL). cbn in *. now inversion H. Qed.

Lemma level_ok a k i : adims a = L -> py_index k nt = Some i ->
  exists b, isel_z t k a = Ok b /\ adims (squeeze b) = L3 /\ (forall e, at_ (squeeze b) e = at_ a (upd e t i)).
Proof.
  intros Ha Hk. destruct RG. unfold isel_z, isel. rewrite Ha. unfold L at 1 2. cbn [dget]. rewrite String.eqb_refl, Hk.
  assert (i < nt)%nat by (apply py_index_selects in Hk; lia).
  rewrite (proj2 (Nat.ltb_lt i nt) H). eexists. split; [reflexivity|]. rewrite drop_L.
  destruct (squeeze_id (mkArr L3 (fun e => at_ a (upd e t i)))) as [S1 S2].
  - intros d n [E|[E|[E|[]]]]; injection E as <- <-; lia.
  - exact NL3.
  - split; [exact S1|exact S2].
Qed.

Lemma reference_ok cn k i : default_coords cn = (t, z, zb) -> py_index k nt = Some i ->
  exists T0 S0 V0 rho0 volo masso rhoga,
  setup_reference_state ds (scalar pa) eos cn k =
    Ok [("thetao", T0); ("so", S0); ("volcello", V0); ("rho", rho0); ("volo", volo); ("masso", masso); ("rhoga", rhoga); ("areacello", area)] /\
  adims T0 = L3 /\ adims S0 = L3 /\ adims V0 = L3 /\ adims rho0 = L3 /\ adims volo = [] /\ adims masso = [] /\ adims rhoga = [] /\
  (forall e, at_ T0 e = at_ T (upd e t i)) /\ (forall e, at_ S0 e = at_ Sa (upd e t i)) /\ (forall e, at_ V0 e = at_ V (upd e t i)).
Proof.
  intros Hc Hk. assert (RG' := RG). destruct RG'. unfold setup_reference_state. rewrite Hc.
  rewrite (ds_get_var _ _ _ rg_z0), (ds_get_var _ _ _ rg_T0), (ds_get_var _ _ _ rg_S0), (ds_get_var _ _ _ rg_V0). cbn [bind].
  destruct (level_ok T k i rg_dT0 Hk) as (T1 & ET & DT & VT).
  destruct (level_ok Sa k i rg_dS0 Hk) as (S1 & ES & DS & VS).
  destruct (level_ok V k i rg_dV0 Hk) as (V1 & EV & DV & VV).
  unfold aadd, amap2. cbn [compatible adims scalar forallb bind]. rewrite ET, ES, EV. cbn [bind].
  set (pres := mkArr _ _).
  assert (Dp : adims pres = [(z, nz)]) by (unfold pres; cbn [adims const_r amap scalar]; rewrite rg_dz0; reflexivity).
  assert (OT : over L3 (squeeze T1)) by (split; [unfold names; rewrite DT; exact NL3|rewrite DT; apply incl_refl]).
  assert (OS : over L3 (squeeze S1)) by (split; [unfold names; rewrite DS; exact NL3|rewrite DS; apply incl_refl]).
  assert (OV : over L3 (squeeze V1)) by (split; [unfold names; rewrite DV; exact NL3|rewrite DV; apply incl_refl]).
  assert (OP : over L3 pres).
  { split; [unfold names; rewrite Dp; repeat constructor; intros []|]. rewrite Dp. intros q [<-|[]]. left; reflexivity. }
  assert (Hrho : is_ok (calc_rho (squeeze T1) (squeeze S1) pres eos) = true).
  { apply (eos_calc_total false FDensity _ _ _ eos m Hm); [apply OT|apply OS| | | |]; try (apply (over_agree L3 NL3); assumption).
    intros _ d Hd. left. unfold names in *. rewrite Dp in Hd. rewrite DT. destruct Hd as [<-|[]]. left; reflexivity. }
  destruct (calc_rho (squeeze T1) (squeeze S1) pres eos) as [rho|] eqn:Erho; [|discriminate]. cbn [bind].
  assert (Dr : adims rho = L3).
  { unfold calc_rho in Erho. apply bind_inv in Erho as (f & _ & Erho). apply eos_ufunc_inv in Erho. rewrite Erho. cbn [adims].
    rewrite DT, DS, Dp. rewrite (union_absorb L3 L3) by auto. apply union_absorb. intros q [<-|[]]. left; reflexivity. }
  assert (OR : over L3 rho) by (split; [unfold names; rewrite Dr; exact NL3|rewrite Dr; apply incl_refl]).
  unfold calc_volo. unfold ndim. rewrite DV. cbn [List.length L3 Nat.eqb assert_ bind].
  destruct (masso_over L3 rho (squeeze V1) t NL3 OR OV) as (masso & Em & _). rewrite Em. cbn [bind].
  assert (Dm : adims masso = []).
  { apply (masso_dims _ _ _ _ Em); unfold names; [rewrite Dr|rewrite DV]; exact t_notin. }
  assert (Dvo : adims (asum_all (squeeze V1)) = []) by (apply asum_all_dims; unfold names; rewrite DV; exact NL3).
  unfold calc_rhoga, adiv, amap2. rewrite Dm, Dvo. cbn [compatible forallb bind]. rewrite rg_A0. cbn [bind].
  eexists _, _, _, _, _, _, _. split; [reflexivity|]. repeat (split; [assumption || reflexivity|]). assumption.
Qed.

Lemma reference_valid T0 S0 V0 rho0 volo masso rhoga :
  adims T0 = L3 -> adims S0 = L3 -> adims V0 = L3 -> adims rho0 = L3 -> adims volo = [] -> adims masso = [] -> adims rhoga = [] ->
  validate_dataset [("thetao", T0); ("so", S0); ("volcello", V0); ("rho", rho0); ("volo", volo); ("masso", masso);
    ("rhoga", rhoga); ("areacello", area)] true strict [] = Ok tt.
Proof.
  intros H1 H2 H3 H4 H5 H6 H7. destruct RG. unfold validate_dataset, validate_errors.
  assert (N1 : ndim T0 = 3%nat) by (unfold ndim; rewrite H1; reflexivity).
  assert (N2 : ndim S0 = 3%nat) by (unfold ndim; rewrite H2; reflexivity).
  assert (N3 : ndim V0 = 3%nat) by (unfold ndim; rewrite H3; reflexivity).
  assert (N4 : ndim rho0 = 3%nat) by (unfold ndim; rewrite H4; reflexivity).
  assert (N5 : ndim volo = 0%nat) by (unfold ndim; rewrite H5; reflexivity).
  assert (N6 : ndim masso = 0%nat) by (unfold ndim; rewrite H6; reflexivity).
  assert (N7 : ndim rhoga = 0%nat) by (unfold ndim; rewrite H7; reflexivity).
  assert (N8 : ndim area = 2%nat) by (unfold ndim; rewrite rg_dA0; reflexivity).
  unfold rank_error.
  cbn [existsb dkeys map fst app filter dmem dget String.eqb Ascii.eqb Bool.eqb negb andb flat_map orb].
  rewrite N1, N2, N3, N4, N5, N6, N7, N8. cbn [Nat.eqb app].
  destruct (validate_areacello area ocean_area area_tolerance) eqn:E; [reflexivity|].
  destruct strict; [specialize (Harea eq_refl); discriminate|reflexivity].
Qed.

Variables (cn : option (dict string)) (rhozero : R) (variant domain : string).
Hypothesis Hcn : default_coords cn = (t, z, zb).
Hypothesis Hvar : In variant ["steric"; "thermosteric"; "halosteric"].

Lemma over_L4 a : adims a = L -> over L a.
Proof. intros E. split; [unfold names; rewrite E; exact NL|rewrite E; apply incl_refl]. Qed.
Lemma over_L3 a : adims a = L3 -> over L a.
Proof. intros E. split; [unfold names; rewrite E; exact NL3|rewrite E; apply incl_L3]. Qed.

(** The call succeeds given any reference state of the right shape. *)
Lemma steric_ok_given T0 S0 V0 rho0 volo masso rhoga :
  let ref := [("thetao", T0); ("so", S0); ("volcello", V0); ("rho", rho0); ("volo", volo); ("masso", masso);
    ("rhoga", rhoga); ("areacello", area)] in
  adims T0 = L3 -> adims S0 = L3 -> adims V0 = L3 -> adims rho0 = L3 -> adims volo = [] -> adims masso = [] -> adims rhoga = [] ->
  (domain <> "global" -> rhozero <> 0%R) ->
  exists r, steric ds (Some ref) cn None rhozero (scalar pa) eos variant domain strict = Ok (r, ref).
Proof.
  intros ref D1 D2 D3 D4 D5 D6 D7 Hr0. assert (RG' := RG). destruct RG'.
  assert (Hpres : exists pres, aadd (const_r fmul zl (Fin 10000)) (scalar pa) = Ok pres /\ adims pres = [(z, nz)]).
  { unfold aadd, amap2. cbn [compatible adims scalar forallb]. eexists. split; [reflexivity|]. cbn [adims const_r amap].
    rewrite rg_dz0. reflexivity. }
  destruct Hpres as (pres & Hpres & Dp).
  assert (OP : over L pres).
  { split; [unfold names; rewrite Dp; repeat constructor; intros []|]. rewrite Dp. intros q [<-|[]]. right; left; reflexivity. }
  assert (Hsel : exists X Y, select_fields ds ref variant = Ok (X, Y) /\ over L X /\ over L Y /\
            In t (names X ++ names Y)%list /\ In z (names X)).
  { unfold select_fields. destruct Hvar as [<-|[<-|[<-|[]]]]; cbn [String.eqb Ascii.eqb Bool.eqb].
    - rewrite (ds_get_var _ _ _ rg_T0), (ds_get_var _ _ _ rg_S0). cbn [bind]. exists T, Sa. split; [reflexivity|].
      split; [apply over_L4, rg_dT0|]. split; [apply over_L4, rg_dS0|]. unfold names. rewrite rg_dT0. cbn. tauto.
    - rewrite (ds_get_var _ _ _ rg_T0), (ds_get_var "so" ref S0 eq_refl). cbn [bind]. exists T, S0. split; [reflexivity|].
      split; [apply over_L4, rg_dT0|]. split; [apply over_L3, D2|]. unfold names. rewrite rg_dT0. cbn. tauto.
    - rewrite (ds_get_var "thetao" ref T0 eq_refl), (ds_get_var _ _ _ rg_S0). cbn [bind]. exists T0, Sa. split; [reflexivity|].
      split; [apply over_L3, D1|]. split; [apply over_L4, rg_dS0|]. unfold names. rewrite rg_dS0, D1. cbn. tauto. }
  destruct Hsel as (X & Y & Hsel & OX & OY & Ht & Hz).
  assert (Hrho : is_ok (calc_rho X Y pres eos) = true).
  { apply (eos_calc_total false FDensity _ _ _ eos m Hm); [apply OX|apply OY| | | |]; try (apply (over_agree L NL); assumption).
    intros _ d Hd. left. unfold names in Hd. rewrite Dp in Hd. destruct Hd as [<-|[]]. exact Hz. }
  destruct (calc_rho X Y pres eos) as [rho|] eqn:Erho; [|discriminate].
  assert (Erho' := Erho). unfold calc_rho in Erho'. apply bind_inv in Erho' as (f & _ & Erho'). apply eos_ufunc_inv in Erho'.
  assert (OR : over L rho).
  { rewrite Erho'. apply (over_union L (mkArr (union_dims (adims X) (adims Y)) (at_ X)) pres); [|exact OP].
    apply over_union; assumption. }
  assert (Htr : In t (names rho)).
  { rewrite Erho'. unfold names. cbn [adims]. rewrite !union_names. left. apply in_app_iff in Ht. exact Ht. }
  assert (Hzr : In z (names rho)).
  { rewrite Erho'. unfold names. cbn [adims]. rewrite !union_names. left. left. exact Hz. }
  assert (Hin : ds_rename None ds = Ok ds) by reflexivity.
  assert (P : prepared ds (Some ref) cn (scalar pa) eos variant domain strict t z zb ref zl pres X Y rho).
  { split; [exact Hcn|]. split; [apply input_valid; destruct (String.eqb domain "global"); [intros q []|apply incl_refl]|].
    split; [apply ds_get_var, rg_z0|]. split; [exact Hpres|]. split; [reflexivity|].
    split; [apply reference_valid; assumption|]. split; assumption. }
  rewrite (steric_fwd _ _ _ _ rhozero _ _ _ _ _ _ _ _ _ _ _ _ _ _ _ Hin P).
  enough (G : exists r, (if String.eqb domain "global" then steric_global ref rho variant t
     else steric_local ds ref rho rhozero variant t z zb) = Ok r).
  { destruct G as (r & G). rewrite G. exists r. reflexivity. }
  assert (OA : over L area).
  { split; [unfold names; rewrite rg_dA0|rewrite rg_dA0].
    - assert (H := NL3). cbn in H. inversion H; subst. assumption.
    - intros q Hq. right; right. exact Hq. }
  assert (OD : over L depth).
  { split; [unfold names; rewrite rg_dD0|rewrite rg_dD0].
    - assert (H := NL3). cbn in H. inversion H; subst. assumption.
    - intros q Hq. right; right. exact Hq. }
  assert (OZ : over L zl).
  { split; [unfold names; rewrite rg_dz0; repeat constructor; intros []|rewrite rg_dz0]. intros q [<-|[]]. right; left; reflexivity. }
  assert (OV := over_L3 V0 D3). assert (O0 := over_L3 rho0 D4).
  destruct (String.eqb domain "global") eqn:Edom.
  - unfold steric_global. rewrite (ds_get_var "volcello" ref V0 eq_refl). cbn [bind].
    destruct (masso_over L rho V0 t NL OR OV) as (ms & Em & Om). rewrite Em. cbn [bind].
    rewrite (ds_get_var "rhoga" ref rhoga eq_refl), (ds_get_var "volo" ref volo eq_refl), (ds_get_var "areacello" ref area eq_refl).
    cbn [bind].
    assert (Ovo : over L volo) by (split; [unfold names; rewrite D5; constructor|rewrite D5; intros q []]).
    assert (Org : over L rhoga) by (split; [unfold names; rewrite D7; constructor|rewrite D7; intros q []]).
    unfold adiv, amul. rewrite (over_amap2 L NL fdiv ms volo Om Ovo). cbn [bind].
    assert (O1 := over_union L ms volo (fun e => fdiv (at_ ms e) (at_ volo e)) Om Ovo).
    rewrite (over_amap2 L NL fdiv rhoga _ Org O1). cbn [bind].
    assert (O2 := over_union L rhoga _ (fun e => fdiv (at_ rhoga e) (fdiv (at_ ms e) (at_ volo e))) Org O1).
    assert (Oa : over L (asum_all area)).
    { unfold over, names. rewrite (asum_all_dims area (proj1 OA)). split; [constructor|intros q []]. }
    rewrite (over_amap2 L NL fdiv volo _ Ovo Oa). cbn [bind].
    assert (O3 := over_union L volo _ (fun e => fdiv (at_ volo e) (at_ (asum_all area) e)) Ovo Oa).
    rewrite (over_amap2 L NL fmul) by first [exact O3|exact O2]. cbn [bind]. eexists. reflexivity.
  - unfold steric_local. rewrite (ds_get_var "volcello" ref V0 eq_refl), (ds_get_var "rho" ref rho0 eq_refl). cbn [bind].
    unfold asub. rewrite (over_amap2 L NL fsub rho rho0 OR O0). cbn [bind].
    set (diff := mkArr _ _). assert (Od : over L diff) by (apply over_union; assumption).
    assert (Os : over L (scalar NaN)) by (split; [constructor|intros q []]).
    unfold awhere. rewrite (over_amap3 L NL _ (anotnull V0) diff (scalar NaN) OV Od Os). cbn [bind].
    set (delta := mkArr _ _).
    assert (Odl : over L delta).
    { apply (over_union L (mkArr (union_dims (adims (anotnull V0)) (adims diff)) (at_ V0)) (scalar NaN)); [|exact Os].
      apply over_union; [exact OV|exact Od]. }
    assert (Htd : In t (names delta)).
    { unfold names, delta. cbn [adims]. rewrite !union_names. left. right. unfold diff. cbn [adims]. rewrite union_names. left. exact Htr. }
    assert (Hzd : In z (names delta)).
    { unfold names, delta. cbn [adims]. rewrite !union_names. left. right. unfold diff. cbn [adims]. rewrite union_names. left. exact Hzr. }
    assert (Hneq : t <> z) by (intros E; apply t_notin; left; symmetry; exact E).
    destruct (dget_names t (adims delta) Htd) as [nd Ed].
    unfold transpose_first at 1. rewrite Ed. cbn [bind].
    rewrite (ds_get_var _ _ _ rg_z0), (ds_get_var _ _ _ rg_i0), (ds_get_var _ _ _ rg_D0). cbn [bind].
    assert (Hdz : is_ok (calc_dz zl zi depth (Fin 0) None false) = true).
    { apply (dz_accept zl zi depth (Fin 0) None false z nz zn); try assumption.
      unfold names. rewrite rg_dD0. assert (H := NL3). cbn in H. inversion H; subst. assumption. }
    destruct (calc_dz zl zi depth (Fin 0) None false) as [dz|] eqn:Edz; [|discriminate]. cbn [bind].
    assert (Odz := dz_over L _ _ _ _ _ _ Edz OD OZ).
    assert (Hnz : rhozero <> 0%R) by (apply Hr0; apply String.eqb_neq; exact Edom).
    destruct (Reqb rhozero 0) eqn:E0; [apply Reqb_true in E0; contradiction|]. cbn [bind].
    set (delta' := mkArr ((t, nd) :: drop_dim t (adims delta)) (at_ delta)).
    assert (Ot : over L delta').
    { destruct Odl as [A1 A2]. split.
      - unfold names, delta'. cbn [adims map fst]. constructor.
        + intros Hi. apply drop_names in Hi. tauto.
        + apply drop_NoDup, A1.
      - intros q [<-|Hq]; [apply A2, dget_In, Ed|]. apply filter_In in Hq as [Hq _]. apply A2, Hq. }
    unfold amul. rewrite (over_amap2 L NL fmul dz delta' Odz Ot). cbn [bind].
    set (prod := mkArr _ _). assert (Opr : over L prod) by (apply over_union; assumption).
    assert (Hzp : In z (names prod)).
    { unfold names, prod. cbn [adims]. rewrite union_names. right. right. apply drop_names. split; [exact Hzd|auto]. }
    assert (Htp : In t (names prod)).
    { unfold names, prod. cbn [adims]. rewrite union_names. right. left. reflexivity. }
    unfold asum. cbn [forallb]. unfold has_dim. rewrite (proj2 (dmem_true z (adims prod)) Hzp). cbn [andb bind fold_left].
    set (s := const_l fmul _ _).
    assert (Osu : over L s) by (apply (over_drop L z (amap nan0 prod) _ Opr)).
    assert (Hts : In t (names s)).
    { unfold s, names. cbn [adims const_l amap sum1]. apply drop_names. split; [exact Htp|auto]. }
    destruct (dget_names t (adims s) Hts) as [ns Es].
    unfold transpose_first. rewrite Es. cbn [bind].
    unfold isel. rewrite D3. unfold L3 at 1. cbn [dget]. rewrite String.eqb_refl.
    replace (Nat.ltb 0 nz) with true by (symmetry; apply Nat.ltb_lt; lia). cbn [bind].
    unfold where_method.
    set (s' := mkArr ((t, ns) :: drop_dim t (adims s)) (at_ s)).
    assert (Ots : over L s').
    { destruct Osu as [A1 A2]. split.
      - unfold names, s'. cbn [adims map fst]. constructor.
        + intros Hi. apply drop_names in Hi. tauto.
        + apply drop_NoDup, A1.
      - intros q [<-|Hq]; [apply A2, dget_In, Es|]. apply filter_In in Hq as [Hq _]. apply A2, Hq. }
    set (surf := mkArr _ _). assert (Osf : over L surf) by (unfold surf; rewrite <- D3; apply (over_drop L z V0 _ OV)).
    rewrite (over_amap2 L NL _ s' (anotnull surf) Ots Osf). cbn [bind]. eexists. reflexivity.
Qed.

(** and without one *)
Lemma steric_ok : (1 <= nt)%nat -> (domain <> "global" -> rhozero <> 0%R) ->
  exists r ref, steric ds None cn None rhozero (scalar pa) eos variant domain strict = Ok (r, ref).
Proof.
  intros Hnt Hr0.
  assert (Hk : py_index 0 nt = Some O) by (apply py_index_selects; left; lia).
  destruct (reference_ok cn 0 0 Hcn Hk) as (T0 & S0 & V0 & rho0 & volo & masso & rhoga & E & D1 & D2 & D3 & D4 & D5 & D6 & D7 & _).
  destruct (steric_ok_given T0 S0 V0 rho0 volo masso rhoga D1 D2 D3 D4 D5 D6 D7 Hr0) as (r & Er).
  exists r, [("thetao", T0); ("so", S0); ("volcello", V0); ("rho", rho0); ("volo", volo); ("masso", masso);
    ("rhoga", rhoga); ("areacello", area)].
  apply reference_reuse. split; [|exact Er]. exists ds. split; [reflexivity|exact E].
Qed.
End Ok.
