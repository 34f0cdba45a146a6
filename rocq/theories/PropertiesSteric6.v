(** * PropertiesSteric6: C104 (changing the reference time) *)
From Coq Require Import Reals Lra Lia List String Bool Arith ZArith.
From Verif Require Import Num NumFacts Py Arr ArrFacts Eos SpecEos Derived SpecDz Dataset SpecSteric
  ProofsEos ProofsEosBox ProofsEosApi ProofsFields ProofsFields2 ProofsDz ProofsBudget ProofsSteric ProofsSteric2 ProofsSteric3
  ProofsThermal ProofsSteric4 ProofsStericOk ProofsSteric5 ProofsStericDemo ProofsStericDemo2 PropertiesSteric.
Import ListNotations.
Local Open Scope string_scope.
Local Open Scope R_scope.

(** Temperature, salinity and cell volume are missing at the same places at all times. *)
Definition steady_gaps (t : string) (a : arr) : Prop := forall e i, notnull (at_ a (upd e t i)) = notnull (at_ a e).

Section Level.
Variables (ds : dataset) (t z y x zb zn : string) (nt nz ny nx : nat) (T Sa V area depth zl zi : arr)
  (pa : R) (eos : string) (m : eos_module) (cn : option (dict string)) (p : index -> R).
Hypothesis RG : regular ds t z y x zb zn nt nz ny nx T Sa V area depth zl zi.
Hypothesis Hm : same_name eos (module_name m).
Hypothesis Hc : default_coords cn = (t, z, zb).
Hypothesis WF : wf_ds ds.
Hypothesis FO : field_ok m T Sa V zl (scalar (Fin pa)) p.
Let L3 := [(z, nz); (y, ny); (x, nx)].

Lemma p_time e i : p (upd e t i) = p e.
Proof.
  destruct (FO e) as (_ & _ & _ & (a & b & A & B & ->) & _). destruct (FO (upd e t i)) as (_ & _ & _ & (a' & b' & A' & B' & ->) & _).
  cbn in B, B'. injection B as <-. injection B' as <-. destruct RG.
  assert (at_ zl (upd e t i) = at_ zl e).
  { apply rg_wz. unfold names. rewrite rg_dz. intros d [<-|[]]. apply upd_other. intros E. cbn in E. subst.
    inversion rg_names as [|? ? N _]. apply N. left. reflexivity. }
  rewrite H, A in A'. injection A' as ->. reflexivity.
Qed.

Lemma level_state k i : selects k nt i ->
  exists T0 S0 V0 rho0 volo masso rhoga,
  setup_reference_state ds (scalar (Fin pa)) eos cn k =
    Ok [("thetao", T0); ("so", S0); ("volcello", V0); ("rho", rho0); ("volo", volo); ("masso", masso); ("rhoga", rhoga); ("areacello", area)] /\
  adims T0 = L3 /\ adims S0 = L3 /\ adims V0 = L3 /\ adims rho0 = L3 /\ adims volo = [] /\ adims masso = [] /\ adims rhoga = [] /\
  (forall e, at_ V0 e = at_ V (upd e t i)) /\
  (forall e, at_ rho0 e = fof (cell_density m (at_ T (upd e t i)) (at_ Sa (upd e t i)) (p e))) /\
  (forall e, at_ volo e = Fin (Rsum_box L3 (fun e' => odef (opt (at_ V (upd e' t i)))) e)) /\
  (forall e, at_ rhoga e = fdiv (Fin (Rsum_box L3 (fun e' => odef (cell_density m (at_ T (upd e' t i)) (at_ Sa (upd e' t i)) (p e')) * odef (opt (at_ V (upd e' t i)))) e)) (at_ volo e)).
Proof.
  intros Hi. assert (Hi' := Hi). apply index_selects in Hi'.
  destruct (reference_ok _ _ _ _ _ _ _ _ _ _ _ _ _ _ _ _ _ _ RG (Fin pa) eos m Hm cn k i Hc Hi')
    as (T0 & S0 & V0 & rho0 & volo & masso & rhoga & E & D1 & D2 & D3 & D4 & D5 & D6 & D7 & E1 & E2 & E3).
  exists T0, S0, V0, rho0, volo, masso, rhoga. split; [exact E|]. do 7 (split; [assumption|]). split; [exact E3|].
  destruct RG.
  destruct (C30_reference_values ds (scalar (Fin pa)) eos cn k _ m t z zb T Sa V E Hc Hm WF rg_T rg_S rg_V) as
    (T1 & S1 & V1 & r1 & vo & ma & rg & zl' & nT & nS & nV & iT & iS & iV & F1 & F2 & F3 & F4 & F5 & F6 & F7 & _ & F9 & _ & _ & _ & _ & _ & _ & _ & _ & _ & _ & _ & _ & G).
  { intros a d n Ha Hin Hd. assert (In (d, n) [(t, nt); (z, nz); (y, ny); (x, nx)]) by (destruct Ha as [->|[->| ->]]; [rewrite <- rg_dT|rewrite <- rg_dS|rewrite <- rg_dV]; exact Hin).
    destruct H as [H|[H|[H|[H|[]]]]]; injection H as <- <-; [congruence|lia|lia|lia]. }
  cbn in F1, F2, F3, F4, F5, F6, F7. injection F1 as <-. injection F2 as <-. injection F3 as <-. injection F4 as <-. injection F5 as <-. injection F6 as <-. injection F7 as <-.
  unfold ds_get in F9. rewrite rg_z in F9. injection F9 as <-.
  destruct (G p) as (G1 & G2 & G3).
  { intros e. rewrite E1, E2, E3. destruct (FO (upd e t i)) as (A & B & C & _ & Q). destruct (FO e) as (_ & _ & _ & Z & _).
    split; [exact A|]. split; [exact B|]. split; [exact C|]. split; [exact Z|]. rewrite <- (p_time e i). exact Q. }
  split; [intros e; rewrite G1, E1, E2; reflexivity|].
  split; [intros e; rewrite G2, D3; f_equal; apply Rsum_box_ext; intros; rewrite E3; reflexivity|].
  assert (N3 : NoDup (map fst L3)) by (inversion rg_names; assumption).
  destruct G3 as [G3 G4].
  - split; [unfold names; rewrite D1; exact N3|]. rewrite D3. unfold names. rewrite D1, D3. tauto.
  - split; [unfold names; rewrite D2; exact N3|]. rewrite D3. unfold names. rewrite D2, D3. tauto.
  - split; [unfold names; rewrite rg_dz; repeat constructor; intros []|]. unfold names. rewrite rg_dz, D3. cbn. split; [tauto|]. intros d n [H|[]] _. left. exact H.
  - split; [constructor|]. cbn. split; intros; contradiction.
  - intros e. rewrite G4, G3. f_equal. f_equal. unfold total_mass. rewrite D3. apply Rsum_box_ext. intros e'. rewrite E1, E2, E3. reflexivity.
Qed.
End Level.

(** The anomaly at [e] relative to time level [i]. *)
Definition anomaly (m : eos_module) (t : string) (T Sa V : arr) (p : index -> R) (i : nat) (e : index) : R :=
  if notnull (at_ V e) then match opt (at_ T e), opt (at_ Sa e) with
    | Some a, Some b => eos_rho m a b (p e) - odef (cell_density m (at_ T (upd e t i)) (at_ Sa (upd e t i)) (p e))
    | _, _ => 0 end
  else 0.
Lemma opt_some v : notnull v = true -> (forall s, v <> Inf s) -> exists a, v = Fin a.
Proof. destruct v as [|s|a]; cbn; intros H I; [discriminate|destruct (I s eq_refl)|eauto]. Qed.
Lemma opt_none v : notnull v = false -> v = NaN.
Proof. destruct v; cbn; congruence. Qed.

Section Local.
Variables (ds : dataset) (t z y x zb zn : string) (nt nz ny nx : nat) (T Sa V area depth zl zi : arr)
  (pa : R) (eos : string) (m : eos_module) (cn : option (dict string)) (p : index -> R).
Hypothesis RG : regular ds t z y x zb zn nt nz ny nx T Sa V area depth zl zi.
Hypothesis Hm : same_name eos (module_name m).
Hypothesis Hc : default_coords cn = (t, z, zb).
Hypothesis WF : wf_ds ds.
Hypothesis FO : field_ok m T Sa V zl (scalar (Fin pa)) p.
Hypothesis HD : forall e s, at_ depth e <> Inf s.
Variable w : nat -> R.
Hypothesis HI : forall e i, (i <= nz)%nat -> at_ zi (upd e zn i) = Fin (w i).
Hypothesis HW : forall i, (i < nz)%nat -> w i <= w (S i).
Hypothesis GT : steady_gaps t T.
Hypothesis GS : steady_gaps t Sa.
Hypothesis GV : steady_gaps t V.

Lemma tz : t <> z.
Proof. destruct RG. inversion rg_names as [|? ? N _]. intros E. apply N. left. congruence. Qed.

Lemma anomaly_cocycle i j e : anomaly m t T Sa V p j e = anomaly m t T Sa V p i e - anomaly m t T Sa V p i (upd e t j).
Proof.
  unfold anomaly. rewrite GV. destruct (notnull (at_ V e)); [|lra].
  assert (PT : p (upd e t j) = p e) by (eapply p_time; eassumption).
  rewrite PT, !upd_upd.
  destruct (notnull (at_ T e)) eqn:NT.
  2:{ assert (A := GT e j). rewrite NT in A. apply opt_none in NT, A. rewrite NT, A. cbn. lra. }
  destruct (notnull (at_ Sa e)) eqn:NS.
  2:{ assert (A := GS e j). rewrite NS in A. apply opt_none in NS, A. rewrite NS, A. destruct (opt (at_ T e)), (opt (at_ T (upd e t j))); cbn; lra. }
  assert (F : forall e, notnull (at_ T e) = true -> exists a, at_ T e = Fin a) by (intros e' H; apply opt_some; [exact H|apply FO]).
  assert (G : forall e, notnull (at_ Sa e) = true -> exists a, at_ Sa e = Fin a) by (intros e' H; apply opt_some; [exact H|apply FO]).
  destruct (F e NT) as [a Ea]. destruct (G e NS) as [b Eb].
  destruct (F (upd e t j)) as [aj Eaj]; [rewrite GT; exact NT|]. destruct (G (upd e t j)) as [bj Ebj]; [rewrite GS; exact NS|].
  unfold cell_density. rewrite Ea, Eb, Eaj, Ebj. cbn [opt odef]. lra.
Qed.

Lemma local_value k i T0 S0 V0 rho0 volo masso rhoga rhozero domain strict r :
  let ref := [("thetao", T0); ("so", S0); ("volcello", V0); ("rho", rho0); ("volo", volo); ("masso", masso); ("rhoga", rhoga); ("areacello", area)] in
  setup_reference_state ds (scalar (Fin pa)) eos cn k = Ok ref ->
  (forall e, at_ V0 e = at_ V (upd e t i)) ->
  (forall e, at_ rho0 e = fof (cell_density m (at_ T (upd e t i)) (at_ Sa (upd e t i)) (p e))) ->
  steric ds (Some ref) cn None rhozero (scalar (Fin pa)) eos "steric" domain strict = Ok (r, ref) -> domain <> "global" ->
  exists s, dget "steric" r = Some s /\ forall e, at_ s e = if notnull (at_ V (upd e z 0)) then
      Fin (- (1 / rhozero) * Rsum nz (fun l => overlap (w l) (w (S l)) 0 (water_depth (at_ depth e)) * anomaly m t T Sa V p i (upd e z l))) else NaN.
Proof.
  intros ref E EV Er H Hd. assert (RG' := RG). destruct RG'.
  assert (Q : forall e, exists s, dget "steric" r = Some s /\ at_ s e = if notnull (at_ V (upd e z 0)) then
      Fin (- (1 / rhozero) * Rsum nz (fun l => overlap (w l) (w (S l)) 0 (water_depth (at_ depth e)) * anomaly m t T Sa V p i (upd e z l))) else NaN).
  2:{ destruct (Q (fun _ => 0%nat)) as (s & Hs & _). exists s. split; [exact Hs|]. intros e. destruct (Q e) as (s' & Hs' & V'). rewrite Hs in Hs'. injection Hs' as <-. exact V'. }
  intros e.
  destruct (C32_local_formula ds (Some ref) cn None rhozero (scalar (Fin pa)) eos "steric" domain strict r ref ds m t z zb T Sa V0 rho0 zl zi depth zn nz
    (fun l => p (upd e z l)) w e H Hd eq_refl Hc Hm WF (uf_steric _ _ _ _ rg_T rg_S) eq_refl eq_refl) as (delta & s & _ & Hs & _ & Hv).
  - unfold ds_get. rewrite rg_z. reflexivity.
  - exact rg_i.
  - exact rg_D.
  - unfold names. rewrite rg_dD. intros [A|[A|[]]]; cbn in A; subst; inversion rg_names as [|? ? _ N]; inversion N as [|? ? N' _]; apply N'; cbn; tauto.
  - split; [exact rg_dz|]. split; [exact rg_di|]. split; [intros l Hl; apply HI; exact Hl|]. split; [exact HW|]. split; [apply HD|].
    intros l Hl ek. destruct (FO ek) as (A & B & _ & C & D). split; [exact A|]. split; [exact B|]. split.
    + intros s0. rewrite Er. destruct (cell_density _ _ _ _); discriminate.
    + split; [exact C|exact D].
  - exists s. split; [exact Hs|]. rewrite Hv, EV, GV. destruct (notnull (at_ V (upd e z 0))); [|reflexivity].
    f_equal. unfold steric_height. f_equal. apply Rsum_ext. intros l Hl. cbn [c_w c_floor column_at]. f_equal.
    unfold density_change, anomaly. cbn [c_wet c_T c_S c_rho0 c_p column_at]. rewrite EV, GV, Er. set (ek := upd e z l).
    destruct (notnull (at_ V ek)); [|reflexivity].
    destruct (FO ek) as (IT & IS & _). destruct (FO (upd ek t i)) as (IT' & IS' & _). assert (G1 := GT ek i). assert (G2 := GS ek i).
    unfold cell_density.
    destruct (at_ T ek) as [|s0|a], (at_ T (upd ek t i)) as [|s1|a1]; cbn in G1; try discriminate; cbn [opt]; try reflexivity; try (destruct (IT _ eq_refl)); try (destruct (IT' _ eq_refl)).
    destruct (at_ Sa ek) as [|s0|b], (at_ Sa (upd ek t i)) as [|s1|b1]; cbn in G2; try discriminate; cbn [opt]; try reflexivity; try (destruct (IS _ eq_refl)); try (destruct (IS' _ eq_refl)).
Qed.
End Local.

(** C104, local: heights relative to time [j] are heights relative to time [k] less the height of
    time [j] itself, at every point and time, for either equation of state. *)
Theorem C104_local : forall ds t z y x zb zn nt nz ny nx T Sa V area depth zl zi pa eos m cn rhozero domain strict j k ij ik w p,
  regular ds t z y x zb zn nt nz ny nx T Sa V area depth zl zi -> wf_ds ds -> same_name eos (module_name m) -> default_coords cn = (t, z, zb) ->
  (strict = true -> validate_areacello area (Fin 361110920000000%R) (Fin (2 / 100)%R) = true) -> domain <> "global" -> rhozero <> 0 ->
  selects j nt ij -> selects k nt ik ->
  field_ok m T Sa V zl (scalar (Fin pa)) p -> (forall e s, at_ depth e <> Inf s) ->
  (forall e i, (i <= nz)%nat -> at_ zi (upd e zn i) = Fin (w i)) -> (forall i, (i < nz)%nat -> w i <= w (S i)) ->
  steady_gaps t T -> steady_gaps t Sa -> steady_gaps t V ->
  exists refj refk rj rk sj sk,
    setup_reference_state ds (scalar (Fin pa)) eos cn j = Ok refj /\ setup_reference_state ds (scalar (Fin pa)) eos cn k = Ok refk /\
    steric ds (Some refj) cn None rhozero (scalar (Fin pa)) eos "steric" domain strict = Ok (rj, refj) /\
    steric ds (Some refk) cn None rhozero (scalar (Fin pa)) eos "steric" domain strict = Ok (rk, refk) /\
    dget "steric" rj = Some sj /\ dget "steric" rk = Some sk /\
    forall e, at_ sj e = fsub (at_ sk e) (at_ sk (upd e t ij)).
Proof.
  intros ds t z y x zb zn nt nz ny nx T Sa V area depth zl zi pa eos m cn rhozero domain strict j k ij ik w p
    RG WF Hm Hc Ha Hd Hr Hj Hk FO HD HI HW GT GS GV.
  destruct (level_state _ _ _ _ _ _ _ _ _ _ _ _ _ _ _ _ _ _ _ _ _ _ _ RG Hm Hc WF FO j ij Hj)
    as (Tj & Sj & Vj & rhoj & voj & maj & rgj & Ej & A1 & A2 & A3 & A4 & A5 & A6 & A7 & A8 & A9 & _).
  destruct (level_state _ _ _ _ _ _ _ _ _ _ _ _ _ _ _ _ _ _ _ _ _ _ _ RG Hm Hc WF FO k ik Hk)
    as (Tk & Sk & Vk & rhok & vok & mak & rgk & Ek & B1 & B2 & B3 & B4 & B5 & B6 & B7 & B8 & B9 & _).
  destruct (steric_ok_given _ _ _ _ _ _ _ _ _ _ _ _ _ _ _ _ _ _ RG strict (Fin pa) eos m Hm Ha cn rhozero "steric" domain Hc (or_introl eq_refl)
    Tj Sj Vj rhoj voj maj rgj A1 A2 A3 A4 A5 A6 A7 (fun _ => Hr)) as (rj & Rj).
  destruct (steric_ok_given _ _ _ _ _ _ _ _ _ _ _ _ _ _ _ _ _ _ RG strict (Fin pa) eos m Hm Ha cn rhozero "steric" domain Hc (or_introl eq_refl)
    Tk Sk Vk rhok vok mak rgk B1 B2 B3 B4 B5 B6 B7 (fun _ => Hr)) as (rk & Rk).
  destruct (local_value _ _ _ _ _ _ _ _ _ _ _ _ _ _ _ _ _ _ _ _ _ _ _ RG Hm Hc WF FO HD w HI HW GT GS GV j ij _ _ _ _ _ _ _ rhozero domain strict rj Ej A8 A9 Rj Hd) as (sj & Hsj & Vsj).
  destruct (local_value _ _ _ _ _ _ _ _ _ _ _ _ _ _ _ _ _ _ _ _ _ _ _ RG Hm Hc WF FO HD w HI HW GT GS GV k ik _ _ _ _ _ _ _ rhozero domain strict rk Ek B8 B9 Rk Hd) as (sk & Hsk & Vsk).
  do 2 eexists. exists rj, rk, sj, sk. split; [exact Ej|]. split; [exact Ek|]. split; [exact Rj|]. split; [exact Rk|]. split; [exact Hsj|]. split; [exact Hsk|].
  assert (Htz := tz _ _ _ _ _ _ _ _ _ _ _ _ _ _ _ _ _ _ RG).
  intros e. rewrite Vsj, !Vsk. rewrite (upd_comm e t z ij 0 Htz), GV. destruct (notnull (at_ V (upd e z 0))); [|reflexivity].
  rewrite fsub_Fin. f_equal.
  assert (ED : at_ depth (upd e t ij) = at_ depth e).
  { destruct RG. apply rg_wD. unfold names. rewrite rg_dD. intros d Hin. apply upd_other. intros <-. inversion rg_names as [|? ? N _]. apply N. cbn in Hin |- *. tauto. }
  rewrite ED, <- Rmult_minus_distr_l. f_equal. rewrite <- Rsum_minus. apply Rsum_ext. intros l Hl.
  assert (AC : forall u, anomaly m t T Sa V p ij u = anomaly m t T Sa V p ik u - anomaly m t T Sa V p ik (upd u t ij)) by (intros u; eapply anomaly_cocycle; eassumption).
  rewrite (upd_comm e t z ij l Htz), AC. ring.
Qed.
Print Assumptions C104_local.

(** C104, global: with cell volumes constant in time, the same holds for the global height. *)
Definition ocean_mass (m : eos_module) (dims : list (string * nat)) (T Sa V : arr) (p : index -> R) (e : index) : R :=
  Rsum_box dims (fun e' => odef (cell_density m (at_ T e') (at_ Sa e') (p e')) * odef (opt (at_ V e'))) e.

Lemma box_upd ds F t i e : ~ In t (map fst ds) -> Rsum_box ds F (upd e t i) = Rsum_box ds (fun e' => F (upd e' t i)) e.
Proof.
  revert e. induction ds as [|[d n] ds IH]; intros e H; [reflexivity|]. cbn [Rsum_box]. apply Rsum_ext. intros l _.
  rewrite upd_comm by (intros E; apply H; left; symmetry; exact E). apply IH. intros E. apply H. right. exact E.
Qed.

Section Global.
Variables (ds : dataset) (t z y x zb zn : string) (nt nz ny nx : nat) (T Sa V area depth zl zi : arr)
  (pa : R) (eos : string) (m : eos_module) (cn : option (dict string)) (p : index -> R).
Hypothesis RG : regular ds t z y x zb zn nt nz ny nx T Sa V area depth zl zi.
Hypothesis Hm : same_name eos (module_name m).
Hypothesis Hc : default_coords cn = (t, z, zb).
Hypothesis FO : field_ok m T Sa V zl (scalar (Fin pa)) p.
Hypothesis HV : forall e i, at_ V (upd e t i) = at_ V e.
Let L3 := [(z, nz); (y, ny); (x, nx)].
Let volume e := Rsum_box L3 (fun e' => odef (opt (at_ V e'))) e.
Hypothesis PV : forall e, 0 < volume e.
Hypothesis PA : forall e, 0 < total_area area e.
Hypothesis IA : no_inf area.
Hypothesis PM : forall e, 0 < ocean_mass m L3 T Sa V p e.

Lemma global_value i T0 S0 V0 rho0 volo masso rhoga rhozero strict r :
  let ref := [("thetao", T0); ("so", S0); ("volcello", V0); ("rho", rho0); ("volo", volo); ("masso", masso); ("rhoga", rhoga); ("areacello", area)] in
  adims V0 = L3 -> (forall e, at_ V0 e = at_ V (upd e t i)) ->
  (forall e, at_ volo e = Fin (Rsum_box L3 (fun e' => odef (opt (at_ V (upd e' t i)))) e)) ->
  (forall e, at_ rhoga e = fdiv (Fin (Rsum_box L3 (fun e' => odef (cell_density m (at_ T (upd e' t i)) (at_ Sa (upd e' t i)) (p e')) * odef (opt (at_ V (upd e' t i)))) e)) (at_ volo e)) ->
  steric ds (Some ref) cn None rhozero (scalar (Fin pa)) eos "steric" "global" strict = Ok (r, ref) ->
  exists s, dget "steric" r = Some s /\ forall e, at_ s e =
    Fin (volume e / total_area area e * (ln (ocean_mass m L3 T Sa V p (upd e t i)) - ln (ocean_mass m L3 T Sa V p e))).
Proof.
  intros ref DV EV Evo Erg H. assert (RG' := RG). destruct RG'.
  assert (NT : ~ In t (map fst L3)) by (inversion rg_names; assumption).
  assert (Q : forall e, exists s, dget "steric" r = Some s /\ at_ s e =
    Fin (volume e / total_area area e * (ln (ocean_mass m L3 T Sa V p (upd e t i)) - ln (ocean_mass m L3 T Sa V p e)))).
  2:{ destruct (Q (fun _ => 0%nat)) as (s & Hs & _). exists s. split; [exact Hs|]. intros e. destruct (Q e) as (s' & Hs' & V'). rewrite Hs in Hs'. injection Hs' as <-. exact V'. }
  intros e.
  assert (PV' := PV e). assert (PA' := PA e).
  assert (Vo : at_ volo e = Fin (volume e)).
  { rewrite Evo. f_equal. apply Rsum_box_ext. intros e'. rewrite HV. reflexivity. }
  set (M := ocean_mass m L3 T Sa V p e). set (Mi := ocean_mass m L3 T Sa V p (upd e t i)).
  assert (PMe : 0 < M) by apply PM. assert (PMi : 0 < Mi) by apply PM.
  assert (Rg : at_ rhoga e = Fin (Mi / volume e)).
  { rewrite Erg, Vo, fdiv_Fin by lra. f_equal. f_equal. unfold Mi, ocean_mass. rewrite box_upd by exact NT. apply Rsum_box_ext. intros e'.
    assert (p (upd e' t i) = p e') as -> by (eapply p_time; eassumption). reflexivity. }
  assert (TM : total_mass m T Sa V0 p e = M).
  { unfold total_mass, M, ocean_mass. rewrite DV. apply Rsum_box_ext. intros e'. rewrite EV, HV. reflexivity. }
  assert (N3 : NoDup (map fst L3)) by (inversion rg_names; assumption).
  assert (N4 : NoDup (map fst ((t, nt) :: L3))) by exact rg_names.
  assert (S4 : forall a, adims a = (t, nt) :: L3 -> same_grid t V0 a).
  { intros a Da. split; [unfold names; rewrite Da; exact N4|]. unfold names. rewrite Da, DV. split.
    - intros d [<-|Hd]; [left; reflexivity|right; exact Hd].
    - intros d n [Hd|Hd] Hne; [injection Hd as <- _; congruence|exact Hd]. }
  destruct (C37_global_formula ds (Some ref) cn None rhozero (scalar (Fin pa)) eos "steric" strict r ref ds m t z zb T Sa V0 volo rhoga area zl p e (volume e) (Mi / volume e)
    H eq_refl Hc Hm (uf_steric _ _ _ _ rg_T rg_S)) as (h & s & v & _ & Hs & _ & Vs & Ev & _); try reflexivity.
  - unfold ds_get. rewrite rg_z. reflexivity.
  - unfold names. rewrite DV. exact N3.
  - unfold names. rewrite DV. exact NT.
  - intros e'. destruct (FO e') as (A & B & C & D). rewrite EV, HV. split; [exact A|]. split; [exact B|]. split; [exact C|exact D].
  - apply S4. exact rg_dT.
  - apply S4. exact rg_dS.
  - split; [unfold names; rewrite rg_dz; repeat constructor; intros []|]. unfold names. rewrite rg_dz, DV. cbn. split; [tauto|]. intros d n [Hd|[]] _. left. exact Hd.
  - split; [constructor|]. cbn. split; intros; contradiction.
  - unfold names. rewrite rg_dA. inversion N3 as [|? ? _ N2]. exact N2.
  - exact IA.
  - exact Vo.
  - exact Rg.
  - apply Rdiv_lt_0_compat; assumption.
  - apply Rdiv_lt_0_compat; assumption.
  - rewrite TM. apply Rdiv_lt_0_compat; assumption.
  - exists s. split; [exact Hs|]. rewrite Vs. f_equal. rewrite Ev, TM. f_equal.
    replace (Mi / volume e / (M / volume e)) with (Mi / M) by (field; lra). unfold Rdiv. rewrite ln_mult, ln_Rinv by (try apply Rinv_0_lt_compat; assumption). ring.
Qed.
End Global.

Theorem C104_global : forall ds t z y x zb zn nt nz ny nx T Sa V area depth zl zi pa eos m cn rhozero strict j k ij ik p,
  regular ds t z y x zb zn nt nz ny nx T Sa V area depth zl zi -> wf_ds ds -> same_name eos (module_name m) -> default_coords cn = (t, z, zb) ->
  (strict = true -> validate_areacello area (Fin 361110920000000%R) (Fin (2 / 100)%R) = true) ->
  selects j nt ij -> selects k nt ik -> field_ok m T Sa V zl (scalar (Fin pa)) p ->
  (forall e i, at_ V (upd e t i) = at_ V e) -> no_inf area -> (forall e, 0 < total_area area e) ->
  (forall e, 0 < Rsum_box [(z, nz); (y, ny); (x, nx)] (fun e' => odef (opt (at_ V e'))) e) ->
  (forall e, 0 < ocean_mass m [(z, nz); (y, ny); (x, nx)] T Sa V p e) ->
  exists refj refk rj rk sj sk,
    setup_reference_state ds (scalar (Fin pa)) eos cn j = Ok refj /\ setup_reference_state ds (scalar (Fin pa)) eos cn k = Ok refk /\
    steric ds (Some refj) cn None rhozero (scalar (Fin pa)) eos "steric" "global" strict = Ok (rj, refj) /\
    steric ds (Some refk) cn None rhozero (scalar (Fin pa)) eos "steric" "global" strict = Ok (rk, refk) /\
    dget "steric" rj = Some sj /\ dget "steric" rk = Some sk /\
    forall e, at_ sj e = fsub (at_ sk e) (at_ sk (upd e t ij)).
Proof.
  intros ds t z y x zb zn nt nz ny nx T Sa V area depth zl zi pa eos m cn rhozero strict j k ij ik p
    RG WF Hm Hc Ha Hj Hk FO HV IA PA PV PM.
  destruct (level_state _ _ _ _ _ _ _ _ _ _ _ _ _ _ _ _ _ _ _ _ _ _ _ RG Hm Hc WF FO j ij Hj)
    as (Tj & Sj & Vj & rhoj & voj & maj & rgj & Ej & A1 & A2 & A3 & A4 & A5 & A6 & A7 & A8 & _ & A9 & A10).
  destruct (level_state _ _ _ _ _ _ _ _ _ _ _ _ _ _ _ _ _ _ _ _ _ _ _ RG Hm Hc WF FO k ik Hk)
    as (Tk & Sk & Vk & rhok & vok & mak & rgk & Ek & B1 & B2 & B3 & B4 & B5 & B6 & B7 & B8 & _ & B9 & B10).
  assert (Hr : "global" <> "global" -> rhozero <> 0) by congruence.
  destruct (steric_ok_given _ _ _ _ _ _ _ _ _ _ _ _ _ _ _ _ _ _ RG strict (Fin pa) eos m Hm Ha cn rhozero "steric" "global" Hc (or_introl eq_refl)
    Tj Sj Vj rhoj voj maj rgj A1 A2 A3 A4 A5 A6 A7 Hr) as (rj & Rj).
  destruct (steric_ok_given _ _ _ _ _ _ _ _ _ _ _ _ _ _ _ _ _ _ RG strict (Fin pa) eos m Hm Ha cn rhozero "steric" "global" Hc (or_introl eq_refl)
    Tk Sk Vk rhok vok mak rgk B1 B2 B3 B4 B5 B6 B7 Hr) as (rk & Rk).
  destruct (global_value _ _ _ _ _ _ _ _ _ _ _ _ _ _ _ _ _ _ _ _ _ _ _ RG Hm Hc FO HV PV PA IA PM ij _ _ _ _ _ _ _ rhozero strict rj A3 A8 A9 A10 Rj) as (sj & Hsj & Vsj).
  destruct (global_value _ _ _ _ _ _ _ _ _ _ _ _ _ _ _ _ _ _ _ _ _ _ _ RG Hm Hc FO HV PV PA IA PM ik _ _ _ _ _ _ _ rhozero strict rk B3 B8 B9 B10 Rk) as (sk & Hsk & Vsk).
  do 2 eexists. exists rj, rk, sj, sk. split; [exact Ej|]. split; [exact Ek|]. split; [exact Rj|]. split; [exact Rk|]. split; [exact Hsj|]. split; [exact Hsk|].
  intros e. rewrite Vsj, !Vsk, upd_upd, fsub_Fin. f_equal.
  assert (EV : Rsum_box [(z, nz); (y, ny); (x, nx)] (fun e' => odef (opt (at_ V e'))) (upd e t ij) = Rsum_box [(z, nz); (y, ny); (x, nx)] (fun e' => odef (opt (at_ V e'))) e).
  { destruct RG. rewrite box_upd by (inversion rg_names; assumption). apply Rsum_box_ext. intros e'. rewrite HV. reflexivity. }
  assert (EA : total_area area (upd e t ij) = total_area area e).
  { assert (WA : wf_arr area) by (apply (WF "areacello"); destruct RG; assumption). destruct RG. unfold total_area.
    assert (NA : ~ In t (map fst (adims area))) by (rewrite rg_dA; inversion rg_names as [|? ? N _]; intros Hin; apply N; cbn in Hin |- *; tauto).
    rewrite box_upd by exact NA. apply Rsum_box_ext. intros e'. f_equal. f_equal. apply WA. intros d Hin. apply upd_other. intros <-. exact (NA Hin). }
  rewrite EV, EA. ring.
Qed.
Print Assumptions C104_global.

(** Two months, 10 then 11 degrees, land in the second column, with either equation of state. *)
Definition ch_T := mkArr d4 (fun e => Fin (if Nat.eqb (e "time") 0 then 10 else 11)).
Definition ch_zl := mkArr [("z_l", 2%nat)] (fun e => Fin (if Nat.eqb (e "z_l") 0 then 1000 else 3000)).
Definition ch : dataset :=
  [("thetao", ch_T); ("so", demo_S); ("volcello", demo_V); ("areacello", demo_A); ("deptho", demo_D); ("z_l", ch_zl); ("z_i", demo_zi)].
Lemma ch_wf : wf_ds ch.
Proof.
  intros k a H. unfold ch in H. cbn [dget] in H.
  repeat (destruct (String.eqb k _); [injection H as <-; apply wf_of; [nodup|intros e e' He;
    try reflexivity; rewrite ?(He "time"), ?(He "xh"), ?(He "z_l"), ?(He "z_i") by (cbn; tauto); reflexivity]|]).
  discriminate.
Qed.
Lemma ch_regular : regular ch "time" "z_l" "yh" "xh" "z_i" "z_i" 2 2 2 2 ch_T demo_S demo_V demo_A demo_D ch_zl demo_zi.
Proof.
  constructor; try reflexivity; try lia;
    try (match goal with |- wf_arr demo_D => exact (ch_wf "deptho" demo_D eq_refl) | |- wf_arr ch_zl => exact (ch_wf "z_l" ch_zl eq_refl)
         | |- wf_arr demo_zi => exact (ch_wf "z_i" demo_zi eq_refl) end).
  - nodup.
  - intros e _ [H|(v & H & Hx)]; [discriminate|]. cbn in H. injection H as <-. lra.
  - intros e _. split; [intros [H|(v & H & Hx)]; [discriminate|]; cbn in H; injection H as <-; destruct (Nat.eqb (e "z_l") 0); lra|discriminate].
  - intros e _. split; [intros [H|(v & H & Hx)]; [discriminate|]; cbn in H; injection H as <-; assert (0 <= INR (e "z_i")) by apply pos_INR; lra|discriminate].
Qed.
Definition ch_p (e : index) : R := 10000 * (if Nat.eqb (e "z_l") 0 then 1000 else 3000) + 101325.
Lemma ch_field m : field_ok m ch_T demo_S demo_V ch_zl (scalar (Fin 101325)) ch_p.
Proof.
  intros e. split; [intros s; discriminate|]. split; [intros s; discriminate|].
  split; [intros s; cbn; destruct (Nat.eqb _ 1); discriminate|]. split; [eexists _, _; repeat split|].
  intros a b A B. cbn in A, B. injection A as <-. injection B as <-. destruct m; [|exact I]. unfold ch_p.
  apply Rgt_not_eq, denom_pos. unfold ocean_box. destruct (Nat.eqb (e "time") 0), (Nat.eqb (e "z_l") 0); lra.
Qed.
Lemma ch_gaps : steady_gaps "time" ch_T /\ steady_gaps "time" demo_S /\ steady_gaps "time" demo_V.
Proof. repeat split; intros e i; reflexivity. Qed.
Example C104_local_case : forall eos m, same_name eos (module_name m) -> exists ref1 ref0 r1 r0 s1 s0,
  setup_reference_state ch (scalar (Fin 101325)) eos None (-1) = Ok ref1 /\ setup_reference_state ch (scalar (Fin 101325)) eos None 0 = Ok ref0 /\
  steric ch (Some ref1) None None 1035 (scalar (Fin 101325)) eos "steric" "local" true = Ok (r1, ref1) /\
  steric ch (Some ref0) None None 1035 (scalar (Fin 101325)) eos "steric" "local" true = Ok (r0, ref0) /\
  dget "steric" r1 = Some s1 /\ dget "steric" r0 = Some s0 /\
  forall e, at_ s1 e = fsub (at_ s0 e) (at_ s0 (upd e "time" 1)).
Proof.
  intros eos m Hm. destruct ch_gaps as (G1 & G2 & G3).
  apply (C104_local _ _ _ _ _ _ _ _ _ _ _ _ _ _ _ _ _ _ 101325 eos m None 1035 "local" true (-1) 0 1 0 demo_w ch_p ch_regular ch_wf Hm); try assumption; try reflexivity.
  - intros _. exact demo_area.
  - discriminate.
  - lra.
  - split; [lia|right; reflexivity].
  - split; [lia|left; reflexivity].
  - apply ch_field.
  - intros e s. discriminate.
  - intros i _. unfold demo_w. rewrite S_INR. lra.
Qed.
(** The colder month stands 600/1035 m below the warmer one. *)
Example C104_local_value : exists ref r s, setup_reference_state ch (scalar (Fin 101325)) "Linear" None 1 = Ok ref /\
  steric ch (Some ref) None None 1035 (scalar (Fin 101325)) "Linear" "steric" "local" true = Ok (r, ref) /\ dget "steric" r = Some s /\
  at_ s (fun _ => 0%nat) = Fin (- (600 / 1035)) /\ at_ s (fun d => if String.eqb d "time" then 1%nat else 0%nat) = Fin 0 /\
  at_ s (fun d => if String.eqb d "xh" then 1%nat else 0%nat) = NaN.
Proof.
  assert (Hm : same_name "Linear" (module_name Linear)) by (apply same_name_lower; reflexivity). destruct ch_gaps as (G1 & G2 & G3).
  destruct (level_state _ _ _ _ _ _ _ _ _ _ _ _ _ _ _ _ _ _ _ "Linear" Linear None _ ch_regular Hm eq_refl ch_wf (ch_field Linear) 1%Z 1%nat)
    as (T0 & S0 & V0 & rho0 & volo & masso & rhoga & E & A1 & A2 & A3 & A4 & A5 & A6 & A7 & A8 & A9 & _); [split; [lia|left; reflexivity]|].
  destruct (steric_ok_given _ _ _ _ _ _ _ _ _ _ _ _ _ _ _ _ _ _ ch_regular true (Fin 101325) "Linear" Linear Hm (fun _ => demo_area) None 1035 "steric" "local" eq_refl (or_introl eq_refl)
    T0 S0 V0 rho0 volo masso rhoga A1 A2 A3 A4 A5 A6 A7) as (r & R); [intros _; lra|].
  assert (ND : forall (e : index) s, at_ demo_D e <> Inf s) by (intros e s; discriminate).
  assert (MW : forall i, (i < 2)%nat -> demo_w i <= demo_w (S i)) by (intros i _; unfold demo_w; rewrite S_INR; lra).
  destruct (local_value _ _ _ _ _ _ _ _ _ _ _ _ _ _ _ _ _ _ 101325 "Linear" Linear None ch_p ch_regular Hm eq_refl ch_wf (ch_field Linear) ND demo_w
    (fun _ _ _ => eq_refl) MW G1 G2 G3 1%Z 1%nat _ _ _ _ _ _ _ 1035 "local" true r E A8 A9 R) as (s & Hs & Vs); [discriminate|].
  eexists _, r, s. split; [exact E|]. split; [exact R|]. split; [exact Hs|].
  assert (O1 : overlap (demo_w 0) (demo_w 1) 0 3000 = 2000) by (unfold demo_w, overlap, Rmin, Rmax; cbn [INR]; repeat destruct (Rle_dec _ _); lra).
  assert (O2 : overlap (demo_w 1) (demo_w 2) 0 3000 = 1000) by (unfold demo_w, overlap, Rmin, Rmax; cbn [INR]; repeat destruct (Rle_dec _ _); lra).
  rewrite !Vs. cbn [Rsum water_depth at_ demo_D demo_V upd String.eqb Ascii.eqb Bool.eqb Nat.eqb notnull]. rewrite O1, O2.
  unfold anomaly. cbn. unfold lin_rho. split; [f_equal; lra|]. split; [f_equal; lra|reflexivity].
Qed.
Example C104_global_case : exists ref1 ref0 r1 r0 s1 s0,
  setup_reference_state ch (scalar (Fin 101325)) "Linear" None 1 = Ok ref1 /\ setup_reference_state ch (scalar (Fin 101325)) "Linear" None 0 = Ok ref0 /\
  steric ch (Some ref1) None None 1035 (scalar (Fin 101325)) "Linear" "steric" "global" true = Ok (r1, ref1) /\
  steric ch (Some ref0) None None 1035 (scalar (Fin 101325)) "Linear" "steric" "global" true = Ok (r0, ref0) /\
  dget "steric" r1 = Some s1 /\ dget "steric" r0 = Some s0 /\
  forall e, at_ s1 e = fsub (at_ s0 e) (at_ s0 (upd e "time" 1)).
Proof.
  assert (Hm : same_name "Linear" (module_name Linear)) by (apply same_name_lower; reflexivity).
  apply (C104_global _ _ _ _ _ _ _ _ _ _ _ _ _ _ _ _ _ _ 101325 "Linear" Linear None 1035 true 1 0 1 0 ch_p ch_regular ch_wf Hm); try reflexivity.
  - intros _. exact demo_area.
  - split; [lia|left; reflexivity].
  - split; [lia|left; reflexivity].
  - apply ch_field.
  - intros e s. discriminate.
  - intros e. unfold total_area. cbn. lra.
  - intros e. cbn. lra.
  - intros e. unfold ocean_mass. cbn. unfold lin_rho. destruct (Nat.eqb _ _); lra.
Qed.
